(* Paths, the directory tree, and the operations on it. *)
From Coq Require Import String.
From Verif Require Import Base FutfModel FutfSpec LfnModel LfnSpec FdirModel FdirSpec FnameModel FnameSpec FpathModel FpathSpec FpathProof13 FpathProof14 FpathProof15 FpathProof16 FpathProof17 FpathExample.
Open Scope Z_scope.

(* C80: what paths mean *)
(* Every text is a path that leads to one target. *)
Theorem C80_one : forall v A total cs, holds_tree v A total -> Forall path_char cs ->
  exists t, resolves A (cdir v) (utf8 cs ++ [0]) t /\ forall t', resolves A (cdir v) (utf8 cs ++ [0]) t' -> t' = t.
Proof. exact one_target. Qed.
Print Assumptions C80_one.
(* f_opendir opens the directory the path leads to. *)
Theorem C80_opendir : forall v A total path buf, holds_tree v A total -> spelled path -> units buf ->
  exists r d t, f_opendir v path buf = Ok (r, d) /\ resolves A (cdir v) path t /\ opens A t r d /\ (r = R_OK -> In d (nodes A)).
Proof. exact opendir_tree. Qed.
Print Assumptions C80_opendir.
Example C80_example : Forall path_char (chars "/a\..//b?.c ") /\ holds_tree v32 (bare true) (upto 2 18) /\ resolves (bare true) 0 (path "Hello World.text") (Free 0 hello).
Proof.
  split; [|split; [exact (formatted_ok _ _ v32_ok)|now apply hello_free]]. apply Forall_forall. intros c I. destruct (char_dec c) as [S|S]; [right; left; auto|]. destruct (bad_dec c) as [B|B]; [right; right; auto|].
  left. assert (F : forallb (fun c => (32 <=? c) && (c <? 127)) (chars "/a\..//b?.c ") = true) by reflexivity. rewrite forallb_forall in F. specialize (F c I). split; [unfold scalar; lia|]. split; [lia|]. split; [lia|]. intros J. unfold sep in S. apply B. unfold BAD_LFN. cbn in J |- *. lia.
Qed.

(* C81: each operation does to the tree what it should, and answers accordingly *)
Theorem C81_step : forall v A total o buf, holds_tree v A total -> allowed A (cdir v) o -> units buf ->
  exists v' r A', step v o buf = Ok (v', r) /\ does v A o r A' (cdir v') /\ holds_tree v' A' total.
Proof. exact step_ok. Qed.
Print Assumptions C81_step.
Example C81_example : holds_tree v16 (bare false) (upto 2 18) /\ allowed (bare false) (cdir v16) (Open (path "Hello World.text") 10 78) /\
  allowed (bare false) (cdir v16) (Rename (path "/a") (path "/b")) /\ match step v16 (Open (path "Hello World.text") 10 78) buf0 with Ok (v, r) => (r, entry v 0 2 11, entry v 0 2 0) | _ => (R_INT_ERR, 0, 0) end = (R_OK, 32, 72).
Proof.
  split; [exact (formatted_ok _ _ v16_ok)|]. split; [split; [apply ascii_path; reflexivity|split; [discriminate|reflexivity]]|]. split; [|vm_compute; auto].
  split; [apply ascii_path; reflexivity|]. split; [apply ascii_path; reflexivity|]. intros c f cs c2 cs2 R _ _. destruct (target_ok v16 (bare false) _ _ _ (formatted_ok _ _ v16_ok) R) as (_ & F & _). destruct F.
Qed.

(* C82: any operations, from a new volume on *)
Theorem C82_history : forall v total os, formatted v total -> may total v (bare (fat32 v)) os ->
  exists v' rs A', run v os = Ok (v', rs) /\ history v (bare (fat32 v)) os rs v' A' /\ holds_tree v' A' total.
Proof. exact run_new. Qed.
Print Assumptions C82_history.
(* No cluster is lost: without files all of them are free. *)
Theorem C82_leak : forall v A total, holds_tree v A total -> links A = [] -> Permutation (avail v ++ chains v 0) total.
Proof. exact no_leak. Qed.
Print Assumptions C82_leak.
Example C82_example : (formatted v16 (upto 2 18) /\ may (upto 2 18) v16 (bare false) day1 /\ exists v, run v16 day1 = Ok (v, answers)) /\
  (formatted v32 (upto 2 18) /\ may (upto 2 18) v32 (bare true) day1 /\ exists v, run v32 day1 = Ok (v, answers)).
Proof.
  split.
  - split; [exact v16_ok|]. split; [exact (day1_may v16 (or_introl eq_refl))|]. assert (Q : match run v16 day1 with Ok (_, r) => r | _ => [] end = answers) by (vm_compute; reflexivity). destruct (run v16 day1) as [[v r]| |]; [subst r; eauto|discriminate..].
  - split; [exact v32_ok|]. split; [exact (day1_may v32 (or_intror eq_refl))|]. assert (Q : match run v32 day1 with Ok (_, r) => r | _ => [] end = answers) by (vm_compute; reflexivity). destruct (run v32 day1) as [[v r]| |]; [subst r; eauto|discriminate..].
Qed.

(* C83: with two free clusters a directory has room for any name *)
Theorem C83_room : forall v A total c cs, holds_tree v A total -> In c (nodes A) -> good_name cs -> fixed v c = false -> cap (dirs v c) + 2 * epc v <= MAXENT -> (2 <= length (avail v))%nat -> refused v A c cs ->
  exists last fn, form (utf16 cs) last fn /\ has (fn 11) 1 = true /\ forall n, 1 <= n < 100 -> exists f, numbered fn n f /\ Exists (fun g => short_same (snd g) f) (ents A c).
Proof. exact room_ok. Qed.
Print Assumptions C83_room.
Example C83_example : holds_tree v32 (bare true) (upto 2 18) /\ fixed v32 0 = false /\ cap (dirs v32 0) + 2 * epc v32 <= MAXENT /\ (2 <= length (avail v32))%nat.
Proof. split; [exact (formatted_ok _ _ v32_ok)|]. split; [auto|]. split; [discriminate|]. cbn. lia. Qed.
(* A create that is refused may take a cluster from the free ones. *)
Theorem C83_refuted : exists v A total p buf v', holds_tree v A total /\ spelled p /\ units buf /\
  step v (Open p 10 78) buf = Ok (v', R_DENIED) /\ holds_tree v' A total /\ (List.length (avail v') < List.length (avail v))%nat.
Proof. exact refused_costs. Qed.
Print Assumptions C83_refuted.

(* C84: listings *)
Theorem C84_list : forall v A total c bufs, holds_tree v A total -> In c (nodes A) -> exists out, list_dir (table v c) bufs = Ok out /\
  Forall2 (fun r f => let '(i, blk, buf) := r in tab (table v c) i = snd f /\ exists cs, good_name cs /\ named cs f /\ called cs f /\ (zlen (utf8 cs) <= 255 -> exists alt, file_names (tab (table v c) i) blk buf = Ok (utf8 cs, alt))) out (ents A c).
Proof. exact files_listed. Qed.
Print Assumptions C84_list.
Definition dir2 : volume := after v16 (with_buf [Open (path "Hello World.text") 10 1; Mkdir (path "SUB") 2; Open (path "a.Txt") 10 3; Unlink (path "hellow~1.tex"); Open (path "readme.TXT") 10 4]).
Example C84_example : match list_dir (table dir2 0) (fun _ => buf0) with
    Ok out => map (fun r => let '(i, blk, buf) := r in match file_names (tab (table dir2 0) i) blk buf with Ok (n, _) => n | _ => [] end) out | _ => [] end =
  [chars "readme.TXT"; chars "SUB"; chars "a.Txt"].
Proof. vm_compute. auto. Qed.

(* C85: f_stat *)
Theorem C85_stat : forall v A total path buf, holds_tree v A total -> spelled path -> units buf ->
  exists t r x, f_stat v path buf = Ok (r, x) /\ resolves A (cdir v) path t /\ stat_does A t r x.
Proof. exact stat_ok. Qed.
Print Assumptions C85_stat.
Example C85_example : match f_stat dir2 (path "/README.txt") buf0 with Ok (R_OK, Some (e, n, _)) => (n, e 11) | _ => ([], 0) end = (chars "readme.TXT", 32) /\
  match f_stat dir2 (path "sub/.") buf0 with Ok (R_OK, Some (e, _, _)) => e 11 | _ => 0 end = 16 /\ match f_stat dir2 (path "/") buf0 with Ok (r, _) => r | _ => R_OK end = R_INVALID_NAME.
Proof. vm_compute. auto. Qed.
(* The name it gives may differ from the name of the file. *)
Theorem C85_refuted : exists v A total c f cs p buf fname alt,
  holds_tree v A total /\ In c (nodes A) /\ In f (ents A c) /\ good_name cs /\ named cs f /\ zlen (utf8 cs) <= 255 /\ spelled p /\ units buf /\
  f_stat v p buf = Ok (R_OK, Some (snd f, fname, alt)) /\ fname <> utf8 cs.
Proof. exact stat_name_wrong. Qed.
Print Assumptions C85_refuted.

(* C86: the path of the current directory leads there *)
Theorem C86_getcwd : forall v A total fuel drive len b buf, holds_tree v A total -> (List.length (nodes A) <= fuel)%nat -> 1 <= len ->
  (forall c f, In c (nodes A) -> In f (ents A c) -> isdir f = true -> exists cs, good_name cs /\ named cs f /\ zlen (utf8 cs) <= 255) ->
  exists path t, resolves A (cdir v) (path ++ [0]) t /\ opens A t R_OK (cdir v) /\
    exists r b', f_getcwd fuel v drive len b buf = Ok (r, b') /\ let s := drive ++ 58 :: path ++ [0] in
      if zlen s <=? len then r = R_OK /\ forall k, 0 <= k < zlen s -> b' k = nth (Z.to_nat k) s 0 else r = R_NOT_ENOUGH_CORE /\ b' 0 = 0.
Proof. exact getcwd_ok. Qed.
Print Assumptions C86_getcwd.
(* Two directories down, with and without room for the path *)
Example C86_example : let v := after v16 (with_buf [Mkdir (path "Long Dir Name") 1; Mkdir (path "long dir name/Sub") 2; Chdir (path "/LONGDI~1/sub")]) in
  match f_getcwd 3 v (chars "sd") 22 (fun _ => 9) buf0 with Ok (R_OK, b) => map b (upto 0 22) | _ => [] end = path "sd:/Long Dir Name/Sub" /\
  match f_getcwd 3 v (chars "sd") 21 (fun _ => 9) buf0 with Ok (R_NOT_ENOUGH_CORE, b) => b 0 | _ => 1 end = 0.
Proof. vm_compute. auto. Qed.

(* C87: a directory can be moved into itself, and is lost *)
Theorem C87_refuted : exists v A total p1 p2 buf v', holds_tree v A total /\ spelled p1 /\ spelled p2 /\ units buf /\
  step v (Rename p1 p2) buf = Ok (v', R_OK) /\ forall A', ~ holds_tree v' A' total.
Proof. exact rename_into_itself. Qed.
Print Assumptions C87_refuted.
