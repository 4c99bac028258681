(* New volumes, and renaming of files. *)
From Verif Require Import Base FutfModel FutfSpec LfnModel LfnSpec FdirModel FdirSpec FdirProof FdirProof2 FnameModel FnameSpec FnameProof FnameProof6 FpathModel FpathSpec FpathProof FpathProof2 FpathProof4 FpathProof7 FpathProof13 FpathProof14 FpathProof15.
Open Scope Z_scope.

Theorem formatted_ok v total : formatted v total -> holds_tree v (bare (fat32 v)) total.
Proof.
  intros [C K Z (P & N & R) G Cd]. exists (fun _ => []). constructor; cbn; auto.
  - intros c [<-|[]]. split; [split|].
    + destruct C as [C _], K as (K1 & K2 & K3 & _). constructor; cbn; auto; try lia. destruct (fixed v 0); lia.
    + unfold fixed. cbn. intros F. apply negb_false_iff in F. split; [apply K; auto|apply C; auto].
    + constructor; cbn; auto; [|constructor]. constructor; cbn; constructor.
  - split; [repeat constructor; auto|]. split; [cbn; auto|]. intros c [<-|[]]. constructor.
  - split; [cbn; now rewrite app_nil_r|easy].
Qed.

(* What can be opened is no directory. *)
Lemma file_rename v A total a b buf v' h : holds_tree v A total -> spelled a -> spelled b -> units buf -> f_open v a 1 0 buf = Ok (v', R_OK, h) -> allowed A (cdir v) (Rename a b).
Proof.
  intros [L V] Sa Sb U E. split; [auto|]. split; [auto|]. intros c f cs c2 cs2 R D _. exfalso.
  destruct (at_path _ _ _ _ V a buf Sa U) as (t & r & j & buf' & F & R' & [_ En]). assert (t = Found c f cs) by (eapply (resolves_one v A L total V); eauto). subst t.
  destruct En as (-> & Ec & I & G & Fo & H & (l1 & w & e & l2 & -> & El & Ei & Eb & Ee) & J & Ca). unfold f_open in E. rewrite F in E. cbn [bind] in E. rewrite (proj1 (proj2 (has_form _ _ _ Fo))) in E. change (has 1 28) with false in E. cbv iota zeta in E.
  destruct (file_entry v A L total V c l1 w e l2 I El) as [Q (B & _)]. unfold attr_of in E. rewrite Ec, Ei, Q in E. rewrite (and63 e B) in E. unfold isdir in D. cbn [snd] in D. rewrite D in E. discriminate.
Qed.
Lemma no_leak v A total : holds_tree v A total -> links A = [] -> Permutation (avail v ++ chains v 0) total.
Proof. intros [L V] E. destruct (vo_space _ _ _ _ V) as [P _]. unfold owners in P. rewrite E in P. cbn in P. now rewrite app_nil_r in P. Qed.

(* --- a way to see that a list of operations is allowed ------------------------------------- *)
Definition sane (o : op) : Prop :=
  match o with
  | Open path mode tm => spelled path /\ dword tm
  | Store path n size tm => spelled path /\ dword size /\ dword tm
  | Unlink path => spelled path
  | Mkdir path tm => spelled path /\ dword tm
  | Rename a b => spelled a /\ spelled b
  | Chmod path attr mask => spelled path /\ 0 <= attr < 256 /\ 0 <= mask < 256
  | Utime path tm => spelled path /\ dword tm
  | Chdir path => spelled path
  | Shuffle _ => True
  end.
(* Only files that can be opened are renamed. *)
Fixpoint opened (v : volume) (os : list (op * (Z -> Z))) : bool :=
  match os with
  | [] => true
  | (o, buf) :: os =>
      (match o with Rename a _ => match f_open v a 1 0 buf with Ok (_, R_OK, _) => true | _ => false end | _ => true end) &&
      (match step v o buf with Ok (v1, _) => opened v1 os | _ => false end)
  end.
Theorem opened_may total os : forall v A, holds_tree v A total -> Forall (fun x => sane (fst x) /\ units (snd x)) os -> opened v os = true -> may total v A os.
Proof.
  induction os as [|[o buf] os IH]; intros v A H F C; [exact I|]. inversion F as [|? ? [S U] F']; subst. cbn [fst snd] in *. cbn [opened] in C. apply andb_true_iff in C as [C1 C2]. cbn [may]. split; [|split; [auto|]].
  - destruct o; try exact S. destruct S as [Sa Sb]. destruct (f_open v path_old 1 0 buf) as [[[v' []] h]| |] eqn:E; try discriminate. eapply file_rename; eauto.
  - intros v1 r A1 E _ H1. rewrite E in C2. now apply IH.
Qed.
Lemma ascii_path cs : forallb (fun c => (32 <=? c) && (c <? 128)) cs = true -> spelled (cs ++ [0]).
Proof.
  intros H. rewrite forallb_forall in H. replace cs with (utf8 cs).
  - apply all_spelled. apply Forall_forall. intros c I. specialize (H c I). destruct (char_dec c) as [S|S]; [right; left; auto|]. destruct (bad_dec c) as [B|B]; [right; right; auto|]. left. split; [unfold scalar; lia|]. split; [lia|]. split; [lia|].
    intros J. unfold sep in S. apply B. unfold BAD_LFN. cbn in J |- *. lia.
  - clear - H. induction cs as [|c cs IH]; [auto|]. rewrite utf8_one by (specialize (H c (or_introl eq_refl)); lia). rewrite IH; [auto|]. intros x I. apply H. right. auto.
Qed.

(* --- targets ------------------------------------------------------------------------------- *)
Lemma target_ok v A total p t : holds_tree v A total -> resolves A (cdir v) p t ->
  match t with
  | Found c f cs => In c (nodes A) /\ In f (ents A c) /\ good_name cs /\ called cs f
  | Free c cs => In c (nodes A) /\ good_name cs
  | Dot c d => In c (nodes A) /\ c <> 0 /\ In d (nodes A)
  | At c => In c (nodes A)
  | _ => True
  end.
Proof.
  intros [L V] R. assert (Sp : spelled p) by (destruct R as (root & ss & P & _); exists root, ss; auto). destruct (at_path _ _ _ _ V p (fun _ => 0) Sp) as (t' & r & j & b & F & R' & [_ En]); [intros o; lia|].
  assert (t' = t) by (eapply (resolves_one v A L total V); eauto). subst t'. destruct t; try tauto.
Qed.
Theorem one_target v A total cs : holds_tree v A total -> Forall path_char cs -> exists t, resolves A (cdir v) (utf8 cs ++ [0]) t /\ forall t', resolves A (cdir v) (utf8 cs ++ [0]) t' -> t' = t.
Proof.
  intros [L V] F. destruct (at_path _ _ _ _ V (utf8 cs ++ [0]) (fun _ => 0) (all_spelled cs F)) as (t & r & j & b & _ & R & _); [intros o; lia|]. exists t. split; [auto|]. intros t' R'. eapply (resolves_one v A L total V); eauto.
Qed.
Theorem opendir_tree v A total path buf : holds_tree v A total -> spelled path -> units buf ->
  exists r d t, f_opendir v path buf = Ok (r, d) /\ resolves A (cdir v) path t /\ opens A t r d /\ (r = R_OK -> In d (nodes A)).
Proof. intros [L V]. now apply (opendir_ok v A L total V). Qed.
Theorem run_new v total os : formatted v total -> may total v (bare (fat32 v)) os -> exists v' rs A', run v os = Ok (v', rs) /\ history v (bare (fat32 v)) os rs v' A' /\ holds_tree v' A' total.
Proof. intros F. apply run_ok, formatted_ok, F. Qed.
