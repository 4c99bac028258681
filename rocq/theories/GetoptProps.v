(* C26-C28, C56, C57: option parsing. *)
From Verif Require Import Base Arr GetoptModel GetoptSpec GetoptProof GetoptProof2.
Open Scope Z_scope.

(* Any sequence of plain arguments, short-option clusters and long options,
   with values in every allowed form, is returned in order, then -1. *)
Theorem C26_whole_line : forall prog its sg colon tbl longs silent,
  sign_ok sg -> tbl_ok tbl -> Forall (item_ok tbl longs) its -> prog <> [45; 45] ->
  let argv := prog :: flat_map item_words its in
  let res := flat_map (item_results longs) its in
  exists o o', getopts (length res) argv (Some (full_string sg colon tbl)) (Some longs) silent opt0 = Ok (res, o) /\
    getopt argv (Some (full_string sg colon tbl)) (Some longs) silent o = Ok o' /\ o_ret o' = -1.
Proof. exact parse_all. Qed.
Print Assumptions C26_whole_line.

(* With a marker behind at least one item, the words after it are left alone. *)
Theorem C26_marker : forall prog its rest sg colon tbl longs silent,
  sign_ok sg -> tbl_ok tbl -> Forall (item_ok tbl longs) its -> prog <> [45; 45] -> its <> [] ->
  let argv := prog :: flat_map item_words its ++ [45; 45] :: rest in
  let res := flat_map (item_results longs) its in
  exists o o', getopts (length res) argv (Some (full_string sg colon tbl)) (Some longs) silent opt0 = Ok (res, o) /\
    getopt argv (Some (full_string sg colon tbl)) (Some longs) silent o = Ok o' /\ o_ret o' = -1 /\
    skipn (o_ind o') argv = rest.
Proof. exact parse_marker. Qed.
Print Assumptions C26_marker.

(* prog -abo=v file --ver=5 -o v - : a, b flags, o takes a value, --version
   may have a value, abbreviated. *)
Example C26_example :
  let tbl := [(97, No); (98, No); (111, Req)] in
  let longs := [Longopt [104; 101; 108; 112] 0 false 104; Longopt [118; 101; 114; 115] 2 false 1000] in
  let its := [Shorts [97; 98] 111 (WithEq [118]); Plain [102]; Long [118; 101; 114] 1 (WithEq [53]); Shorts [] 111 (Separate [118]); Plain [45]] in
  tbl_ok tbl /\ Forall (item_ok tbl longs) its /\
  flat_map item_words its = [[45; 97; 98; 111; 61; 118]; [102]; [45; 45; 118; 101; 114; 61; 53]; [45; 111]; [118]; [45]] /\
  flat_map (item_results longs) its =
    [(97, None); (98, None); (111, Some [118]); (1, Some [102]); (1000, Some [53]); (111, Some [118]); (1, Some [45])].
Proof.
  cbv zeta. split; [|split; [|split; reflexivity]].
  - repeat (apply Forall_cons || apply Forall_nil); cbn; unfold opt_char; lia.
  - repeat (apply Forall_cons || apply Forall_nil); cbn [item_ok].
    + split; [repeat constructor|]. exists Req. split; [reflexivity|]. cbn. discriminate.
    + left. cbn. lia.
    + split; [discriminate|]. split; [repeat (apply Forall_cons || apply Forall_nil); lia|]. split; [discriminate|]. split.
      * exists (Longopt [118; 101; 114; 115] 2 false 1000). split; [reflexivity|]. split; [exists [115]; reflexivity|].
        intros [|[|j]] l' Hj [r Hr]; cbn in Hj.
        -- injection Hj as <-. discriminate Hr.
        -- left. reflexivity.
        -- destruct j; discriminate.
      * exists Maybe. split; [reflexivity|]. cbn. discriminate.
    + split; [constructor|]. exists Req. split; [reflexivity|]. exact I.
    + right. reflexivity.
Qed.

(* After an unknown long option the next argument is not parsed from its
   beginning: a two-character one is read behind its end, the letters of a
   plain one are taken for options. *)
Theorem C27_unknown_long_refuted :
  (exists argv shorts longs o, getopt argv (Some shorts) (Some longs) true opt0 = Ok o /\ o_ret o = 63 /\ o_ind o = 2%nat /\
     getopt argv (Some shorts) (Some longs) true o = Ub) /\
  (exists argv shorts longs o o', getopt argv (Some shorts) (Some longs) true opt0 = Ok o /\ o_ret o = 63 /\
     hd 0 (nth 2 argv []) <> 45 /\ getopt argv (Some shorts) (Some longs) true o = Ok o' /\ o_ret o' <> 1).
Proof. exact unknown_refuted. Qed.
Print Assumptions C27_unknown_long_refuted.

(* After an ambiguous long option its own letters are parsed as short options. *)
Theorem C27_ambiguous_long_refuted : exists longs,
  getopts 4 [[112]; [45; 45; 118; 101; 114]] (Some [118; 101; 114]) (Some longs) true opt0 =
  Ok ([(63, None); (118, None); (101, None); (114, None)], Opt 114 114 None 0 2 1 None).
Proof. exact ambiguous_refuted. Qed.
Print Assumptions C27_ambiguous_long_refuted.

(* Any option strings and tables, any arguments without NUL: if no long option
   is unknown, the callers' loop ends after at most one call per character
   plus two per argument, and no read leaves a string. *)
Theorem C28_terminates_in_bounds : forall argv shorts longs silent,
  Forall (Forall (fun c => c <> 0)) argv -> longs_known argv longs ->
  exists o', getopt_loop (S (chars argv + length argv)) argv shorts longs silent opt0 = Ok o' /\ o_ret o' < 0.
Proof. exact loop_chars. Qed.
Print Assumptions C28_terminates_in_bounds.

(* prog -xo --he --=3 -- : x and o undeclared, --he ambiguous, --= matches all. *)
Example C28_example :
  let argv := [[112]; [45; 120; 111]; [45; 45; 104; 101]; [45; 45; 61; 51]; [45; 45]] in
  let longs := [Longopt [104; 101; 108; 112] 0 false 104; Longopt [104; 101; 120] 1 false 105] in
  Forall (Forall (fun c => c <> 0)) argv /\ longs_known argv (Some longs).
Proof.
  cbv zeta. split; [repeat (apply Forall_cons || apply Forall_nil); discriminate|].
  intros ls t tail [= <-] Hin Ht Htl. exists (Longopt [104; 101; 108; 112] 0 false 104). split; [left; reflexivity|].
  repeat (destruct Hin as [E | Hin]); try discriminate; try (destruct Hin; fail); injection E as E.
  - destruct Htl as [-> | [s ->]]; [rewrite app_nil_r in E; subst; exists [108; 112]; reflexivity|].
    destruct t as [|a [|b [|c t]]]; cbn in E; inversion E.
  - destruct t as [|a t]; [exists [104; 101; 108; 112]; reflexivity|]. inversion E; subst. inversion Ht; subst. tauto.
  - destruct t as [|a t]; [exists [104; 101; 108; 112]; reflexivity|discriminate].
Qed.

(* C56: the exact name of an option is reported ambiguous when two longer
   names stand before it. *)
Theorem C56_exact_name_refuted : exists longs i l argv o,
  nth_error longs i = Some l /\ argv = [[112]; 45 :: 45 :: l_name l] /\ l_val l <> 63 /\
  getopt argv (Some []) (Some longs) true opt0 = Ok o /\ o_ret o = 63.
Proof. exact exact_refuted. Qed.
Print Assumptions C56_exact_name_refuted.

(* C57: "--" as the first argument is taken for a long option. *)
Theorem C57_marker_first_refuted : exists longs o,
  getopt [[112]; [45; 45]; [45; 97]] (Some [97]) (Some longs) true opt0 = Ok o /\ o_ret o = 104.
Proof. exact marker_first. Qed.
Print Assumptions C57_marker_first_refuted.
