(* C67, C68: the shell. *)
From Coq Require Import String.
From Verif Require Import Base Arr TokModel TokSpec Utf8Spec EditSpec LoadModel ExecModel ShellModel ShellSpec ShellProof.
Open Scope Z_scope.

(* The prompt of the directory p/b is built exactly if it fits the array, and
   nothing checks that it does. *)
Theorem C67_prompt : forall buf disk p b, buf <> [] -> ~ In 0 disk -> ~ In 0 b -> ~ In 47 b -> p <> [] ->
  let t := prompt_text disk (58%Z :: shown p b) in
  if (length t <? length buf)%nat then exists r, build_prompt buf disk (Some (p ++ 47 :: b)) = Ok (t ++ 0 :: r)
  else build_prompt buf disk (Some (p ++ 47 :: b)) = Ub.
Proof. exact prompt_iff. Qed.
Print Assumptions C67_prompt.

Theorem C67_prompt_length : forall disk x, length (prompt_text disk (58 :: x)) = (length disk + length x + 21)%nat.
Proof. exact prompt_len. Qed.
Print Assumptions C67_prompt_length.

Theorem C67_prompt_fits_refuted : exists name, (length name <= 255)%nat /\ ~ In 0 name /\ ~ In 47 name /\
  forall buf, length buf = 128%nat -> build_prompt buf (str "flash") (Some (str "flash:/" ++ name)) = Ub.
Proof. exact prompt_overflow. Qed.
Print Assumptions C67_prompt_fits_refuted.

Example C67_example : build_prompt (repeat 1 40) (str "sd") (Some (str "sd:/a/bc")) =
  Ok (27 :: str "[0;31msd:bc" ++ 27 :: str "[1;32m >" ++ 27 :: str "[m " ++ 0 :: repeat 1 14).
Proof. vm_compute. reflexivity. Qed.

(* The keys of one line, the text [t] they leave on it: what the shell does is
   what the quoting rules say about the UTF-8 form of that text. *)
Theorem C68_line : forall pw ptail hl h l keys t h', Forall wide pw -> hist_rel (Some hl) (Some h) 128 -> locals_ok l ->
  Forall (fun k => 0 <= k < 65536) keys -> entered h keys t h' -> (length (split_words (utf8 t)) < 42)%nat ->
  exists hl', turn (utf8 pw ++ 0 :: ptail) hl l keys = Ok (Some (meaning (utf8 t), hl')) /\
    hist_rel (Some hl') (Some (next_history (utf8 t) t h')) 128.
Proof. exact turn_ok. Qed.
Print Assumptions C68_line.

(* A whole dialog. *)
Theorem C68_dialog : forall pw ptail h lines s, Forall wide pw -> talk h (map snd lines) s -> forall hl, hist_rel (Some hl) (Some h) 128 ->
  Forall (fun x => locals_ok (fst x) /\ Forall (fun k => 0 <= k < 65536) (snd x)) lines ->
  dialog (utf8 pw ++ 0 :: ptail) hl lines = Ok s.
Proof. exact dialog_ok. Qed.
Print Assumptions C68_dialog.

(* "lx", Backspace, "s '", Home, GoEnd, Enter; Up, "a'", Enter; Enter; "exit", Enter. *)
Example C68_example : talk [] [[108; 120; 8; 115; 32; 39; 1; 5; 13]; [8593; 97; 39; 13]; [13]; str "exit" ++ [13]]
  [Complain UntermApostrophe; Run [str "ls"; str "a"]; Ignore; Leave].
Proof.
  apply (talk_line [] _ _ (str "ls '") []); [apply entered_b; vm_compute; reflexivity|apply Nat.ltb_lt; reflexivity|discriminate|].
  apply (talk_line _ _ _ (str "ls 'a'") (str "ls '")); [apply entered_b; vm_compute; reflexivity|apply Nat.ltb_lt; reflexivity|discriminate|].
  apply (talk_line _ _ _ [] (str "ls 'a'")); [apply entered_b; vm_compute; reflexivity|apply Nat.ltb_lt; reflexivity|discriminate|].
  apply (talk_leave _ _ _ (str "exit") (str "ls 'a'")); [apply entered_b; vm_compute; reflexivity|apply Nat.ltb_lt; reflexivity|reflexivity].
Qed.
