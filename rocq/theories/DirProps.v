(* C39-C41, C69-C73: dir and ls. *)
From Coq Require Import Permutation String.
From Verif Require Import Base Arr ExecModel DirModel DirSpec DirProof DirProof2 DirProof3 DirProof4.
Open Scope Z_scope.

(* Sorting by name, or newest first and then by name, reversed or not. *)
Theorem C39_sorted : forall o l, Forall (date_ok o) l ->
  exists l', sort (S (length l)) o l = Ok l' /\ Permutation l l' /\ sorted o l'.
Proof. exact sort_sorted. Qed.
Print Assumptions C39_sorted.

(* From 2044 on the difference of two dates overflows an int, or has the wrong
   sign. *)
Theorem C39_date_overflow_refuted : exists l, Forall item_ok l /\ sort (S (length l)) by_time l = Ub.
Proof. exact time_overflow. Qed.
Print Assumptions C39_date_overflow_refuted.
Theorem C39_date_order_refuted : exists l l', Forall item_ok l /\ sort (S (length l)) by_time l = Ok l' /\ ~ sorted by_time l'.
Proof. exact time_wrong_order. Qed.
Print Assumptions C39_date_order_refuted.

Example C39_example :
  let a := Item 5 100 1 0 [97] in let b := Item 6 300 1 0 [98] in let c := Item 7 100 1 0 [99] in
  Forall (date_ok by_time) [c; a; b] /\ sort 4 by_time [c; a; b] = Ok [b; a; c].
Proof. cbv zeta. split; [repeat constructor; cbn; lia | vm_compute; reflexivity]. Qed.

(* Sizes: the text, its length, and its place in a wider column. *)
Theorem C40_sizes : forall n, 0 <= n < 2 ^ 64 ->
  exists s, grouped n s /\ size_len 8 n 0 = Ok (Z.of_nat (length s)) /\
    forall w, Z.of_nat (length s) <= w < 2 ^ 31 -> print_size n w = Ok (repeat 32 (Z.to_nat (w - Z.of_nat (length s))) ++ s).
Proof. exact size_text. Qed.
Print Assumptions C40_sizes.
(* The notation of a number is unique. *)
Theorem C40_number_unique : forall a b n, number a n -> number b n -> a = b.
Proof. exact number_unique. Qed.
Print Assumptions C40_number_unique.

Example C40_example : print_size 1234005 12 = Ok (str "   1,234,005") /\ grouped 1234005 (str "1,234,005").
Proof.
  split; [vm_compute; reflexivity|]. exists (str "1234005"). split; [|vm_compute; reflexivity].
  split; [repeat (constructor; [cbn; lia|]); constructor|]. split; [vm_compute; reflexivity|]. split; [discriminate | intros H; vm_compute in H; discriminate H].
Qed.

(* Columns. *)
Theorem C41_columns : forall o l, Forall item_ok l -> Forall (date_ok o) l -> Exists (visible o) l ->
  o_singlecol o = false -> o_longform o = false -> 0 <= o_termwidth o < 2 ^ 31 ->
  exists arr m out, listing o l arr /\ widest arr m /\ show_files o l = Ok (out, true) /\
    let w := m + (if o_type o then 1 else 0) + 2 in
    if 2 * w <=? o_termwidth o then columns_text o arr w out
    else out = concat (map (fun i => shown o i ++ [13; 10]) arr).
Proof. exact show_columns. Qed.
Print Assumptions C41_columns.
Theorem C41_single_column : forall o l, Forall item_ok l -> Forall (date_ok o) l -> Exists (visible o) l -> o_singlecol o = true ->
  exists arr, listing o l arr /\ show_files o l = Ok (concat (map (fun i => shown o i ++ [13; 10]) arr), true).
Proof. exact show_single. Qed.
Print Assumptions C41_single_column.
Theorem C41_nothing : forall o l, Forall item_ok l -> Forall (date_ok o) l -> Forall (fun i => ~ visible o i) l ->
  show_files o l = Ok ([], false).
Proof. exact show_nothing. Qed.
Print Assumptions C41_nothing.

Example C41_example :
  let o := Options 10 false false false false false true false in
  let f n a := Item 1 0 1 a [n] in
  let l := [f 100 0; f 98 16; f 97 0; f 99 2; f 101 0] in
  Forall item_ok l /\ Forall (date_ok o) l /\ Exists (visible o) l /\
  show_files o l = Ok (str "a   d" ++ [13; 10] ++ str "b/  e" ++ [13; 10], true).
Proof.
  cbv zeta. split; [repeat constructor; cbn; lia|]. split; [repeat constructor; cbn; lia|].
  split; [constructor; split; intros H; discriminate H | vm_compute; reflexivity].
Qed.

(* The long form. *)
Theorem C69_long_form : forall o l, Forall item_ok l -> Forall (date_ok o) l -> Exists (visible o) l ->
  o_singlecol o = false -> o_longform o = true -> kilobytes l < 2 ^ 64 ->
  exists arr w tl lines, listing o l arr /\ size_width arr w /\ total_line o arr tl /\ Forall2 (long_text o w) arr lines /\
    show_files o l = Ok (tl ++ concat lines, true).
Proof. exact show_long. Qed.
Print Assumptions C69_long_form.
Theorem C69_aligned : forall o w i s, long_text o w i s ->
  exists pre, s = pre ++ shown o i ++ [13; 10] /\ Z.of_nat (length pre) = w + 27.
Proof. exact long_aligned. Qed.
Print Assumptions C69_aligned.

Example C69_example :
  let o := Options 80 false true false false false true false in
  let l := [Item 1234 (stamp 2023 9 17 8 5 0) 1 32 (str "b"); Item 0 (stamp 2023 12 3 18 30 0) 1 16 (str "a")] in
  Forall item_ok l /\ Forall (date_ok o) l /\ Exists (visible o) l /\ kilobytes l < 2 ^ 64 /\
  show_files o l = Ok (str "Total 2 kbytes" ++ [13; 10] ++
    str "-d---      -  2023/12/3  18:30  a/" ++ [13; 10] ++ str "a----  1,234  2023/9/17   8:05  b" ++ [13; 10], true).
Proof.
  cbv zeta. split; [repeat (apply Forall_cons; [unfold item_ok, stamp; cbn [i_nbytes i_mtime i_namelen]; lia|]); apply Forall_nil|].
  split; [repeat (apply Forall_cons; [unfold date_ok, stamp; cbn [i_mtime o_timesort]; split; [lia|discriminate]|]); apply Forall_nil|].
  split; [constructor; split; intros H; discriminate H |]. split; [vm_compute; reflexivity|]. vm_compute; reflexivity.
Qed.

(* An invalid name of 256 bytes or more overruns info.fname. *)
Theorem C70_name_overflow_refuted : forall stat l name, stat name = StatInvalidName -> (256 <= length name)%nat ->
  list_append_name stat l name = Ub.
Proof. exact name_ub. Qed.
Print Assumptions C70_name_overflow_refuted.
Example C70_example : exists stat l name, ~ In 0 name /\ list_append_name stat l name = Ub.
Proof. exact name_overflow. Qed.

(* ls a/b opens b. *)
Theorem C71_argument_refuted : exists stat ent name es, stat name = StatOk sub /\ (exists d, name = d ++ [47] ++ i_name sub) /\
  cmd_dir 9 stat ent false plain [name] = Ok es /\ ent name = Some [] /\ opened es = [i_name sub] /\ ~ In name (opened es).
Proof. exact wrong_directory. Qed.
Print Assumptions C71_argument_refuted.

(* ls -R visits the whole tree below ".", in order, and keeps to its path
   buffer. *)
Theorem C72_recursive : forall stat ent o n, stat (str ".") = StatInvalidName -> names_fit ent -> good_ent o ent ->
  0 <= o_termwidth o < 2 ^ 31 -> height_le ent n (str ".") ->
  exists es, cmd_dir n stat ent true o [] = Ok es /\ below ent o (str ".") (opened es).
Proof. exact recursive_ok. Qed.
Print Assumptions C72_recursive.
Example C72_example : names_fit ent_s /\ good_ent plain ent_s /\ height_le ent_s 2 (str ".") /\
  exists es, cmd_dir 2 (fun _ => StatInvalidName) ent_s true plain [] = Ok es /\ opened es = [str "."; str "./s"].
Proof. exact walk_example. Qed.

(* Without -a, ls -R still shows hidden directories. *)
Theorem C73_hidden_refuted : exists ent es, ent (str ".") = Some [secret] /\ ~ visible plain secret /\
  cmd_dir 9 (fun _ => StatInvalidName) ent true plain [] = Ok es /\ In (str "./s") (opened es) /\ In (Say (str "./s:" ++ [13; 10])) es.
Proof. exact hidden_shown. Qed.
Print Assumptions C73_hidden_refuted.
