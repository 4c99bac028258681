From Verif Require FpatModel FpatSpec FpatProof.
From Verif Require Import Base CrcSpec FutfModel FutfSpec FutfProof LfnModel LfnSpec LfnProof FdirModel FdirSpec FdirProof FdirProof2 FnameModel FnameSpec FnameProof FnameProof6 FpathModel FpathSpec FpathProof FpathProof2 FpathProof4 FpathProof7 FpathProof13 FpathProof14 FpathProof15 FpathProof17 FindModel FindSpec.
Open Scope Z_scope.

Section Search.
Variables (d : dirt) (l0 : list item) (bufs : Z -> Z -> Z).
Hypothesis D : dir_ok d l0.
(* What is still to be read at a position. *)
Definition ahead (pos : option Z) (fs : list entry_t) : Prop :=
  match pos with None => fs = [] | Some p => exists l, laid (tab d) p l /\ 0 <= p < cap d /\ p + sizes l = sizes l0 /\ fs = filter shown (files l) end.
Definition plain (f : entry_t) : Prop := exists cs, good_name cs /\ named cs f /\ zlen (utf8 cs) <= 255.
Lemma step_ok pos blk fs : ahead pos fs -> Forall plain fs -> exists pos' blk' fname e, read_step d bufs pos blk = Ok (D_OK, pos', blk', fname, e) /\
  match fs with [] => fname = [] | f :: fs' => ahead pos' fs' /\ e = snd f /\ exists cs, good_name cs /\ named cs f /\ fname = utf8 cs end.
Proof.
  pose proof (dk_cap _ _ D) as C. pose proof (dk_room _ _ D) as Rm. destruct pos as [p|]; intros A Pl; [|cbn in A; subst; cbn [read_step]; do 4 eexists; split; reflexivity].
  destruct A as (l & L & P & E & ->). cbn [read_step]. rewrite dir_read_at by lia.
  destruct (read_items d C l p (bufs p) 255 blk L ltac:(lia) ltac:(lia)) as [(i & b & buf' & -> & H)|(l1 & w & e & l2 & buf' & -> & H1 & H2 & -> & H3)].
  - intros Q. apply (dk_tail _ _ D). pose proof (sizes_nonneg l). lia.
  - cbn [bind]. rewrite H. do 4 eexists. split; reflexivity.
  - cbn [bind]. apply laid_app in L. destruct L as [_ [L1 L2]]. cbn [size] in L2. rewrite sizes_app, sizes_cons in E. cbn [size] in E.
    pose proof (sizes_nonneg l1). pose proof (sizes_nonneg l2). pose proof (parts_nonneg w).
    assert (Ls : lists d (p + sizes l1 + parts w, read_blk w (p + sizes l1), buf') (w, e)).
    { split; [apply L1|]. cbn [fst]. unfold read_blk. destruct w as [|u w]; [auto|]. split; [unfold NONE, MAXENT in *; lia|apply H3; discriminate]. }
    rewrite files_app, filter_app, H1 in *. cbn [app files filter] in *. rewrite H2 in *. inversion Pl as [|? ? (cs & G & N & Le) Pl']; subst.
    destruct (listed_name d _ _ _ (w, e) cs Ls G N Le) as (alt & En). rewrite En. cbn [bind].
    unfold dir_next. unfold MAXENT in *. destruct (Z.ltb_spec (p + sizes l1 + parts w + 1) (cap d)) as [Q|Q].
    + replace (65536 <=? p + sizes l1 + parts w + 1) with false by lia. do 4 eexists. split; [reflexivity|]. split; [|split; [apply L1|eauto]]. exists l2. split; [now rewrite Z.add_assoc in L2|]. split; [lia|]. split; [lia|auto].
    + assert (S0 : sizes l2 = 0) by lia. assert (l2 = []) by (destruct l2 as [|y l2]; [auto|]; rewrite sizes_cons in S0; pose proof (size_pos y); pose proof (sizes_nonneg l2); lia). subst l2.
      cbn [negb]. destruct (65536 <=? p + sizes l1 + parts w + 1); do 4 eexists; (split; [reflexivity|]); (split; [reflexivity|split; [apply L1|eauto]]).
Qed.
Variables (ps : list Z).
Hypothesis (G : pattern ps).
Lemma good_text cs : good_name cs -> Forall FpatSpec.char cs.
Proof. intros [N _]. revert N. apply Forall_impl. intros c (S & _ & K & _). split; [auto|lia]. Qed.
Lemma good_ne cs : good_name cs -> exists b r, utf8 cs = b :: r.
Proof. intros Gc. pose proof (good_clean cs Gc) as [_ [_ Nl]]. pose proof (utf8_len cs ltac:(apply Gc)) as Q. destruct (utf8 cs) as [|b r]; [cbn in Q; lia|eauto]. Qed.
Lemma next_ok fuel : forall fs pos blk, (length fs < fuel)%nat -> ahead pos fs -> Forall plain fs -> exists pos' blk' fname e, find_next fuel d bufs (utf8 ps ++ [0]) pos blk = Ok (D_OK, pos', blk', fname, e) /\
  ((fname = [] /\ finds ps fs []) \/ exists (f : entry_t) cs fs', ahead pos' fs' /\ Forall plain fs' /\ (length fs' < length fs)%nat /\ good_name cs /\ fname = utf8 cs /\ e = snd f /\ forall l, finds ps fs' l -> finds ps fs ((utf8 cs, snd f) :: l)).
Proof.
  induction fuel as [|fuel IH]; intros fs pos blk L A Pl; [lia|]. cbn [find_next]. destruct (step_ok pos blk fs A Pl) as (pos' & blk' & fname & e & -> & H). cbn [bind]. destruct fs as [|f fs].
  - subst fname. do 4 eexists. split; [reflexivity|]. left. split; [auto|constructor].
  - destruct H as (A' & -> & cs & Gc & N & ->). destruct (good_ne cs Gc) as (b & r & Eb). rewrite Eb. rewrite <- Eb. destruct G as (Gx & Gy & Gz). destruct (FpatProof.find_ok ps cs [] [] Gx (good_text cs Gc) Gy) as (m & Em & Hm). unfold FpatSpec.text in Em. fold (utf8 ps) in Em. fold (utf8 cs) in Em. rewrite Em. clear Em. assert (Hm' : m = true <-> FpatSpec.glob ps cs) by tauto. clear Hm. rename Hm' into Hm. cbn [bind]. inversion Pl as [|? ? Pf Pl']; subst. destruct m.
    + do 4 eexists. split; [reflexivity|]. right. exists f, cs, fs. split; [auto|]. split; [auto|]. split; [cbn; lia|]. split; [auto|]. split; [auto|]. split; [auto|]. intros l Fl. apply finds_hit; auto. now apply Hm.
    + assert (Ng : ~ FpatSpec.glob ps cs) by (intros Q; apply Hm in Q; discriminate). cbn in L. destruct (IH fs pos' blk' ltac:(lia) A' Pl') as (pos2 & blk2 & fname2 & e2 & -> & H). do 4 eexists. split; [reflexivity|]. destruct H as [[-> F]|(f2 & cs2 & fs2 & A2 & P2 & L2 & G2 & -> & -> & F2)].
      * left. split; [auto|]. apply (finds_miss ps f cs); auto.
      * right. exists f2, cs2, fs2. split; [auto|]. split; [auto|]. split; [cbn; lia|]. split; [auto|]. split; [auto|]. split; [auto|]. intros l Fl. apply (finds_miss ps f cs); auto.
Qed.
Lemma rest_ok fuel n : forall fs pos blk, (length fs < fuel)%nat -> (length fs < n)%nat -> ahead pos fs -> Forall plain fs -> exists l, find_rest n fuel d bufs (utf8 ps ++ [0]) pos blk = Ok (D_OK, l) /\ finds ps fs l.
Proof.
  induction n as [|n IH]; intros fs pos blk L L' A Pl; [lia|]. cbn [find_rest]. destruct (next_ok fuel fs pos blk L A Pl) as (pos' & blk' & fname & e & -> & H). cbn [bind]. destruct H as [[-> F]|(f & cs & fs' & A' & P' & L2 & Gc & -> & -> & F)]; [eauto|].
  destruct (good_ne cs Gc) as (b & r & Eb). rewrite Eb. rewrite <- Eb. destruct (IH fs' pos' blk' ltac:(lia) ltac:(lia) A' P') as (l & -> & Fl). cbn [bind]. eauto.
Qed.
End Search.
Lemma files_count l : Z.of_nat (length (filter shown (files l))) <= sizes l.
Proof.
  induction l as [|y l IH]; [cbn; lia|]. rewrite sizes_cons. pose proof (size_pos y). destruct y; cbn [files filter]; [lia..|]. destruct (shown _); cbn [length]; lia.
Qed.
Theorem find_ok v A total path ps buf bufs : holds_tree v A total -> spelled path -> units buf -> pattern ps ->
  (forall c f, In c (nodes A) -> In f (ents A c) -> exists cs, good_name cs /\ named cs f /\ zlen (utf8 cs) <= 255) ->
  exists t r c l, find_all v path (utf8 ps ++ [0]) buf bufs = Ok (r, l) /\ resolves A (cdir v) path t /\ opens A t r c /\ (if match r with R_OK => true | _ => false end then In c (nodes A) /\ finds ps (ents A c) l else l = []).
Proof.
  intros H Sp U G Le. destruct (opendir_tree v A total path buf H Sp U) as (r & c & t & E & Re & Op & I). unfold find_all. rewrite E. cbn [bind].
  assert (X : r = R_OK \/ r <> R_OK) by (destruct r; auto; right; discriminate). destruct X as [->|N].
  - specialize (I eq_refl). destruct H as [L V]. destruct (vo_tabs _ _ _ _ V c I) as [[D _] R]. pose proof (rd_ents _ _ _ R) as Ee. pose proof (files_count (L c)) as Lc. rewrite Ee in Lc. pose proof (dk_room _ _ D). pose proof (dk_cap _ _ D). cbv zeta.
    destruct (rest_ok (table v c) (L c) bufs D ps G (S (Z.to_nat (cap (table v c)))) (S (Z.to_nat (cap (table v c)))) (ents A c) (Some 0) NONE) as (l & -> & F); [lia|lia| | |].
    + exists (L c). split; [apply D|]. split; [lia|]. split; [lia|auto].
    + apply Forall_forall. intros f If. exact (Le c f I If).
    + cbn [bind]. exists t, R_OK, c, l. split; [reflexivity|]. auto.
  - exists t, r, c, []. split; [destruct r; congruence|]. split; [auto|]. split; [auto|]. destruct r; auto; congruence.
Qed.
Lemma Forall2_in_r {X Y} (R : X -> Y -> Prop) a b : Forall2 R a b -> forall y, In y b -> exists x, In x a /\ R x y.
Proof. induction 1 as [|x y a b H F IH]; intros z I; [destruct I|]. destruct I as [<-|I]; [exists x; cbn; auto|]. destruct (IH z I) as (w & J & Q). exists w. cbn; auto. Qed.
(* The name of a file is no matter of choice. *)
Lemma utf8_inj a : forall b, Forall FpatSpec.char a -> Forall FpatSpec.char b -> utf8 a = utf8 b -> a = b.
Proof.
  induction a as [|x a IH]; intros b Ta Tb E.
  - destruct b as [|y b]; [auto|]. exfalso. inversion Tb as [|? ? [S N] _]; subst. unfold utf8 in E. cbn [flat_map] in E. assert (0 <= y) by (unfold scalar in S; lia). destruct (utf8_len' y H) as [Q1 Q2]. destruct (utf8_of y); [cbn in Q1; lia|discriminate].
  - destruct b as [|y b].
    + exfalso. inversion Ta as [|? ? [S N] _]; subst. unfold utf8 in E. cbn [flat_map] in E. assert (0 <= x) by (unfold scalar in S; lia). destruct (utf8_len' x H) as [Q1 Q2]. destruct (utf8_of x); [cbn in Q1; lia|discriminate].
    + inversion Ta as [|? ? [S N] Ta']; subst. inversion Tb as [|? ? [S' N'] Tb']; subst. unfold utf8 in E. cbn [flat_map] in E. fold (utf8 a) in E. fold (utf8 b) in E. pose proof (decode_ok x (utf8 a) S) as E1. rewrite E, (decode_ok y (utf8 b) S') in E1. injection E1 as E1 E2. f_equal; [|now apply IH].
      clear - E1 S S'. unfold utf16_of, scalar in *. destruct (Z.ltb_spec x 65536), (Z.ltb_spec y 65536); Z.to_euclidean_division_equations; lia.
Qed.
Theorem one_name v A total c f a b : holds_tree v A total -> In c (nodes A) -> In f (ents A c) -> good_name a -> named a f -> good_name b -> named b f -> zlen (utf8 a) <= 255 -> zlen (utf8 b) <= 255 -> a = b.
Proof.
  intros H I If Ga Na Gb Nb La Lb. destruct (list_tree v A total c (fun _ _ => 0) H I) as (out & _ & F). destruct (Forall2_in_r _ _ _ F f If) as ([[i blk] buf] & _ & Ls).
  destruct (listed_name _ _ _ _ f a Ls Ga Na La) as (x & Ea). destruct (listed_name _ _ _ _ f b Ls Gb Nb Lb) as (y & Eb). rewrite Ea in Eb. injection Eb as Eb _. apply utf8_inj; auto; now apply good_text.
Qed.
