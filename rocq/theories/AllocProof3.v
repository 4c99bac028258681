(* The invariant over whole client histories, at any nesting depth. *)
From Verif Require Import Base BaseLemmas AllocModel AllocSpec AllocProof AllocProof2.
Open Scope Z_scope.

Section Proof3.

Variable P : Z.
Hypothesis HP : P = 4 \/ P = 8.
Variables start size : Z.

Notation load := (load P).
Notation rep := (rep P).
Notation al := (al P).
Notation opres := (opres P).

Definition lives (B : list blk) (l : list Z) : Prop :=
  NoDup l /\ forall p, In p l <-> exists b, In b (used B) /\ p = ba b + P.

Inductive stk (m : mem) : list ctx -> list (list blk) -> list (list Z) -> Prop :=
| stk_base : forall c B l, rep m c B -> lives B l ->
    heap_start c = start -> heap_size c = size -> stk m [c] [B] [l]
| stk_push : forall c B l c' B' l' cs Bs ls f, rep m c B -> lives B l ->
    stk m (c' :: cs) (B' :: Bs) (l' :: ls) -> In f (frees B') ->
    heap_start c = ba f + 2 * P -> heap_size c = bs f - 2 * P -> 1024 <= bs f ->
    stk m (c :: c' :: cs) (B :: B' :: Bs) (l :: l' :: ls).

Definition inv (s : st) (g : ghost) : Prop :=
  exists Bs, stk (sm s) (sctx s :: sparents s) Bs (live g :: outer g).

Definition sblk (Bs : list (list blk)) (b : blk) : Prop := exists B, In B Bs /\ In b (used B).

Lemma stk_head m c cs Bs ls : stk m (c :: cs) Bs ls ->
  exists B Bs' l ls', Bs = B :: Bs' /\ ls = l :: ls' /\ rep m c B /\ lives B l.
Proof. inversion 1; subst; eauto 10. Qed.

Lemma stk_pop m c c' cs Bs l ls : stk m (c :: c' :: cs) Bs (l :: ls) ->
  exists B B' Bs' l' ls' f, Bs = B :: B' :: Bs' /\ ls = l' :: ls' /\
    stk m (c' :: cs) (B' :: Bs') (l' :: ls') /\ rep m c B /\ lives B l /\ In f (frees B') /\
    heap_start c = ba f + 2 * P /\ heap_size c = bs f - 2 * P.
Proof.
  intros H. inversion H; subst.
  match goal with Hf : In ?x (frees ?b), R : rep m c ?b0, S : stk m _ (?b :: ?bs) (?l1 :: ?ls1) |- _ =>
    exists b0, b, bs, l1, ls1, x end.
  repeat (split; [first [reflexivity | assumption]|]). assumption.
Qed.

(* A change inside the region of the innermost context. *)
Lemma stk_tail_frame m m' : forall cs Bs ls, stk m cs Bs ls ->
  same_bounds m m' ->
  forall c cs', cs = c :: cs' ->
  (forall z, ~ in_region c z -> bytes m' z = bytes m z) ->
  match cs', Bs, ls with
  | [], _, _ => True
  | _, _ :: Bs', _ :: ls' => stk m' cs' Bs' ls'
  | _, _, _ => False
  end.
Proof.
  pose proof (P_pos P HP).
  induction 1 as [c B l R L E1 E2 | c B l c' B' l' cs Bs ls f R L S IH Hf E1 E2];
    intros SB c0 cs' [= <- <-] Hz; [exact I|].
  assert (Hz' : forall z, ~ (ba f + 2 * P <= z < ba f + bs f) -> bytes m' z = bytes m z).
  { intros z Hz'. apply Hz. unfold in_region. rewrite E1, E2. lia. }
  destruct (stk_head _ _ _ _ _ S) as (? & ? & ? & ? & [= <- <-] & [= <- <-] & R' & L').
  apply frees_in in Hf. destruct Hf as [Hf Hff].
  destruct (rep_in P HP _ _ _ _ R' Hf) as (I1 & I2 & I3 & I4 & I5 & I6).
  assert (R2 : rep m' c' B').
  { apply (rep_frame P HP m); auto. intros b z Hb Hfo. apply Hz'. unfold foot in Hfo.
    destruct (rep_apart P HP _ _ _ _ _ R' Hb Hf) as [-> | A].
    - rewrite Hff in Hfo. lia.
    - unfold apart in A. destruct (rep_in P HP _ _ _ _ R' Hb). destruct (bf b); lia. }
  assert (Hz2 : forall z, ~ in_region c' z -> bytes m' z = bytes m z).
  { intros z Hc. apply Hz'. unfold in_region in Hc. lia. }
  specialize (IH SB c' cs eq_refl Hz2).
  inversion S; subst.
  - apply stk_base; auto.
  - eapply stk_push; eauto.
Qed.

Lemma stk_top m m' c c' B B' l l' cs Bs ls :
  stk m (c :: cs) (B :: Bs) (l :: ls) ->
  opres m c m' c' B' -> lives B' l' -> stk m' (c' :: cs) (B' :: Bs) (l' :: ls).
Proof.
  intros S [O1 O2 O3 O4 O5] L.
  pose proof (stk_tail_frame _ _ _ _ _ S O4 _ _ eq_refl O5) as T.
  inversion S; subst.
  - apply stk_base; congruence.
  - cbn in T. eapply stk_push; eauto; congruence.
Qed.

Lemma stk_sblk_out m : forall cs Bs ls, stk m cs Bs ls ->
  forall c cs' B Bs', cs = c :: cs' -> Bs = B :: Bs' ->
  forall b z, sblk Bs' b -> ba b <= z < ba b + bs b -> ~ in_region c z.
Proof.
  pose proof (P_pos P HP).
  induction 1 as [c B l R L E1 E2 | c B l c' B' l' cs Bs ls f R L S IH Hf E1 E2];
    intros c0 cs' B0 Bs' [= <- <-] [= <- <-] b z (B1 & HB1 & Hb) Hz Hc.
  - destruct HB1.
  - destruct (stk_head _ _ _ _ _ S) as (? & ? & ? & ? & [= <- <-] & [= <- <-] & R' & L').
    apply frees_in in Hf. destruct Hf as [Hf Hff].
    destruct (rep_in P HP _ _ _ _ R' Hf) as (I1 & I2 & I3 & I4 & I5 & I6).
    unfold in_region in Hc. rewrite E1, E2 in Hc.
    destruct HB1 as [<- | HB1].
    + apply used_in in Hb. destruct Hb as [Hb Hbf].
      destruct (rep_apart P HP _ _ _ _ _ R' Hb Hf) as [-> | A]; [congruence|].
      unfold apart in A. lia.
    + apply (IH c' cs B' Bs eq_refl eq_refl b z); [exists B1; auto|auto|]. unfold in_region. lia.
Qed.

Lemma stk_sblk_facts m : forall cs Bs ls, stk m cs Bs ls ->
  forall c cs', cs = c :: cs' ->
  (start <= heap_start c /\ heap_start c + heap_size c <= start + size) /\
  forall b, sblk Bs b -> load m (ba b) = Ok (bs b) /\ al (ba b) /\ al (bs b) /\ 2 * P <= bs b /\
    start <= ba b /\ ba b + bs b <= start + size /\ 0 < ba b /\ ba b + bs b < W P /\
    size_of P m (ba b + P) = Ok (bs b - P).
Proof.
  pose proof (P_pos P HP).
  induction 1 as [c B l R L E1 E2 | c B l c' B' l' cs Bs ls f R L S IH Hf E1 E2]; intros c0 cs' [= <- <-].
  - split; [lia|]. intros b (B0 & [<- | []] & Hb).
    pose proof (used_sub _ _ Hb) as Hb'. destruct (rep_in P HP _ _ _ _ R Hb') as (? & ? & ? & ? & ? & ?).
    pose proof (r_hi _ _ _ _ R).
    split; [apply (load_hdr P _ _ _ _ R Hb)|]. repeat (split; [first [assumption | lia]|]).
    apply (size_of_used P HP _ _ _ _ R Hb).
  - destruct (IH c' cs eq_refl) as [IHr IHb].
    destruct (stk_head _ _ _ _ _ S) as (? & ? & ? & ? & [= <- <-] & [= <- <-] & R' & L').
    apply frees_in in Hf. destruct Hf as [Hf Hff].
    destruct (rep_in P HP _ _ _ _ R' Hf) as (I1 & I2 & I3 & I4 & I5 & I6).
    split; [lia|]. intros b (B0 & [<- | HB] & Hb).
    + pose proof (used_sub _ _ Hb) as Hb'. destruct (rep_in P HP _ _ _ _ R Hb') as (? & ? & ? & ? & ? & ?).
      pose proof (r_hi _ _ _ _ R).
      split; [apply (load_hdr P _ _ _ _ R Hb)|]. repeat (split; [first [assumption | lia]|]).
      apply (size_of_used P HP _ _ _ _ R Hb).
    + apply IHb. exists B0. auto.
Qed.

Lemma stk_apart m : forall cs Bs ls, stk m cs Bs ls ->
  forall b b', sblk Bs b -> sblk Bs b' -> b = b' \/ apart b b'.
Proof.
  pose proof (P_pos P HP).
  induction 1 as [c B l R L E1 E2 | c B l c' B' l' cs Bs ls f R L S IH Hf E1 E2]; intros b b' Hb Hb'.
  - destruct Hb as (? & [<- | []] & Hb). destruct Hb' as (? & [<- | []] & Hb').
    eapply rep_apart; eauto using used_sub.
  - assert (SS : stk m (c :: c' :: cs) (B :: B' :: Bs) (l :: l' :: ls)) by (eapply stk_push; eauto).
    assert (Hout : forall x y, In x (used B) -> sblk (B' :: Bs) y -> apart x y).
    { intros x y Hx Hy.
      pose proof (rep_in P HP _ _ _ _ R (used_sub _ _ Hx)) as (? & ? & ? & _).
      destruct (stk_sblk_facts _ _ _ _ S _ _ eq_refl) as [_ Fa]. destruct (Fa y Hy) as (_ & _ & _ & ? & _).
      unfold apart.
      destruct (Z.le_gt_cases (ba x + bs x) (ba y)); [lia|].
      destruct (Z.le_gt_cases (ba y + bs y) (ba x)); [lia|]. exfalso.
      eapply (stk_sblk_out _ _ _ _ SS c _ B _ eq_refl eq_refl y (Z.max (ba x) (ba y)) Hy); unfold in_region; lia. }
    destruct Hb as (B1 & [<- | HB1] & Hb); destruct Hb' as (B2 & [<- | HB2] & Hb').
    + eapply rep_apart; eauto using used_sub.
    + right. apply Hout; auto. exists B2. auto.
    + right. assert (A : apart b' b) by (apply Hout; auto; exists B1; auto). unfold apart in *. tauto.
    + apply IH; [exists B1|exists B2]; auto.
Qed.

Lemma stk_lives m : forall cs Bs ls, stk m cs Bs ls ->
  forall p, (exists l, In l ls /\ In p l) <-> exists b, sblk Bs b /\ p = ba b + P.
Proof.
  induction 1 as [c B l R L E1 E2 | c B l c' B' l' cs Bs ls f R L S IH Hf E1 E2]; intros p.
  - split.
    + intros (? & [<- | []] & Hp). apply L in Hp. destruct Hp as (b & Hb & ->).
      exists b. split; auto. exists B. cbn. auto.
    + intros (b & (? & [<- | []] & Hb) & ->). exists l. split; [left; auto|]. apply L. eauto.
  - split.
    + intros (l0 & [<- | Hl] & Hp).
      * apply L in Hp. destruct Hp as (b & Hb & ->). exists b. split; auto. exists B. cbn. auto.
      * destruct (proj1 (IH p)) as (b & (B0 & HB & Hb) & ->); [eauto|]. exists b. split; auto.
        exists B0. split; auto. right. auto.
    + intros (b & (B0 & [<- | HB] & Hb) & ->).
      * exists l. split; [left; auto|]. apply L. eauto.
      * destruct (proj2 (IH (ba b + P))) as (l0 & Hl & Hp); [exists b; split; auto; exists B0; auto|].
        exists l0. split; auto. right. auto.
Qed.

Lemma owned_sblk s g Bs p :
  stk (sm s) (sctx s :: sparents s) Bs (live g :: outer g) ->
  owned g p <-> exists b, sblk Bs b /\ p = ba b + P.
Proof.
  intros S. rewrite <- (stk_lives _ _ _ _ S p). unfold owned. split.
  - intros [Hp | (l & Hl & Hp)]; [exists (live g)|exists l]; cbn; auto.
  - intros (l & [<- | Hl] & Hp); eauto.
Qed.

(* A store into the data of a used block at any level. *)
Lemma stk_poke m m' : forall cs Bs ls, stk m cs Bs ls ->
  same_bounds m m' -> forall b a, sblk Bs b -> ba b + P <= a < ba b + bs b ->
  (forall z, z <> a -> bytes m' z = bytes m z) -> stk m' cs Bs ls.
Proof.
  pose proof (P_pos P HP).
  induction 1 as [c B l R L E1 E2 | c B l c' B' l' cs Bs ls f R L S IH Hf E1 E2];
    intros SB b a (B0 & HB0 & Hb) Ha Hz.
  - destruct HB0 as [<- | []]. apply stk_base; auto. eapply (rep_data P HP m); eauto.
    intros z Hz'. apply Hz. lia.
  - assert (SS : stk m (c :: c' :: cs) (B :: B' :: Bs) (l :: l' :: ls)) by (eapply stk_push; eauto).
    destruct HB0 as [<- | HB0].
    + apply (stk_top m m' c c B B l l (c' :: cs) (B' :: Bs) (l' :: ls)); auto.
      pose proof (used_sub _ _ Hb) as HbB. destruct (rep_in P HP _ _ _ _ R HbB).
      constructor; auto.
      * eapply (rep_data P HP m); eauto. intros z Hz'. apply Hz. lia.
      * intros z Hc. apply Hz. unfold in_region in Hc. lia.
    + assert (Hs : sblk (B' :: Bs) b) by (exists B0; auto).
      assert (S' : stk m' (c' :: cs) (B' :: Bs) (l' :: ls)) by (eapply IH; eauto).
      apply (stk_push _ _ _ _ _ _ _ _ _ _ f); auto.
      apply (rep_frame P HP m); auto. intros x z Hx Hfo. apply Hz. intros ->.
      apply (stk_sblk_out _ _ _ _ SS c _ B _ eq_refl eq_refl b a Hs); [lia|].
      destruct (rep_in P HP _ _ _ _ R Hx). unfold foot in Hfo. unfold in_region. destruct (bf x); lia.
Qed.

(* --- one call on the current context --- *)

Record topres (m : mem) (c : ctx) (B : list blk) (o : op) (m' : mem) (c' : ctx) (B' : list blk)
   (l' : list Z) : Prop := {
  t_op : opres m c m' c' B';
  t_lives : lives B' l';
  t_keep : forall x, In x (used B) -> ~ arg_of o (ba x + P) ->
     In x (used B') /\ forall z, ba x <= z < ba x + bs x -> bytes m' z = bytes m z }.

Lemma keeps_block m c B m' u x :
  rep m c B -> keeps m m' B (ba u) (bs u) -> In u (used B) -> In x (used B) -> x <> u ->
  forall z, ba x <= z < ba x + bs x -> bytes m' z = bytes m z.
Proof.
  intros R K Hu Hx Hne z Hz. apply K.
  - intros b Hb Hc. apply frees_in in Hb. destruct Hb as [Hb Hbf].
    apply used_in in Hx. destruct Hx as [Hx Hxf].
    destruct (rep_apart P HP _ _ _ _ _ R Hb Hx) as [-> | A]; [congruence|]. unfold apart in A. lia.
  - intros Hc. destruct (rep_apart P HP _ _ _ _ _ R (used_sub _ _ Hx) (used_sub _ _ Hu)) as [? | A]; [congruence|].
    unfold apart in A. lia.
Qed.

Lemma keeps_block0 m c B m' x :
  rep m c B -> keeps m m' B 0 0 -> In x (used B) ->
  forall z, ba x <= z < ba x + bs x -> bytes m' z = bytes m z.
Proof.
  intros R K Hx z Hz. apply K; [|lia].
  intros b Hb Hc. apply frees_in in Hb. destruct Hb as [Hb Hbf].
  apply used_in in Hx. destruct Hx as [Hx Hxf].
  destruct (rep_apart P HP _ _ _ _ _ R Hb Hx) as [-> | A]; [congruence|]. unfold apart in A. lia.
Qed.

Lemma used_same_addr m c B x y : rep m c B -> In x (used B) -> In y (used B) -> ba x = ba y -> x = y.
Proof.
  intros R Hx Hy E. pose proof (P_pos P HP).
  destruct (rep_apart P HP _ _ _ _ _ R (used_sub _ _ Hx) (used_sub _ _ Hy)) as [? | A]; auto.
  destruct (rep_in P HP _ _ _ _ R (used_sub _ _ Hx)). destruct (rep_in P HP _ _ _ _ R (used_sub _ _ Hy)).
  unfold apart in A. lia.
Qed.

Lemma opres_refl m c B : rep m c B -> opres m c m c B.
Proof. intros R. constructor; auto. apply same_bounds_refl. Qed.

Lemma NoDup_remove_dec p l : NoDup l -> NoDup (remove Z.eq_dec p l).
Proof.
  induction 1 as [|x l Hn Hl IH]; cbn; [constructor|].
  destruct (Z.eq_dec p x); auto. constructor; auto.
  intros Hin. apply in_remove in Hin. tauto.
Qed.

Lemma In_remove_iff p x l : In x (remove Z.eq_dec p l) <-> In x l /\ x <> p.
Proof.
  split; [apply in_remove|]. intros [H1 H2]. apply in_in_remove; auto.
Qed.

Lemma alloced_top m c B l n m' c' q B' u o :
  rep m c B -> lives B l -> alloced P m c B n m' c' q B' u ->
  (o = OAlloc n \/ o = ODirty n) ->
  topres m c B o m' c' B' (q :: l) /\ q <> 0 /\ ~ In q l.
Proof.
  intros R [L1 L2] [A1 A2 A3 A4 A5 A6 A7 A8 A9 A10 A11 A12] Ho.
  assert (Hq : ~ In q l).
  { rewrite L2. intros (b & Hb & E). destruct (A5 b Hb) as [Hb1 Hb2]. apply Hb2.
    apply (used_same_addr _ _ _ _ _ (o_rep _ _ _ _ _ _ A1)); auto. lia. }
  split; [|split; [lia|auto]]. constructor; auto.
  - split; [constructor; auto|]. intros p. cbn [In]. rewrite L2. split.
    + intros [<- | (b & Hb & ->)]; [exists u; auto|]. exists b. split; auto. apply A5; auto.
    + intros (b & Hb & ->). destruct (A6 b Hb) as [-> | Hb2]; [left; auto|right; eauto].
  - intros x Hx _. split; [apply A5; auto|]. eapply keeps_block0; eauto.
Qed.

Lemma freed_top m c B l u m' c' B' :
  rep m c B -> lives B l -> In u (used B) -> freed P m c B u m' c' B' ->
  forall o, (forall p, arg_of o p <-> p = ba u + P) ->
  topres m c B o m' c' B' (remove Z.eq_dec (ba u + P) l).
Proof.
  intros R [L1 L2] Hu [F1 F2 F3 F4] o Ho. constructor; auto.
  - split; [apply NoDup_remove_dec; auto|]. intros p. rewrite In_remove_iff, L2. split.
    + intros [(b & Hb & ->) Hne]. exists b. split; auto. apply F3. split; auto. intros ->. auto.
    + intros (b & Hb & ->). apply F3 in Hb. destruct Hb as [Hb Hne]. split; [eauto|].
      intros E. apply Hne. apply (used_same_addr _ _ _ _ _ R); auto. lia.
  - intros x Hx Ha. rewrite Ho in Ha. assert (x <> u) by (intros ->; auto). split; [apply F3; auto|].
    eapply keeps_block; eauto.
Qed.

Definition heap_op (o : op) : Prop :=
  match o with OAlloc _ | ODirty _ | OFree _ | ORealloc _ _ | OTruncate _ _ => True | _ => False end.

Lemma top_step s g o B :
  rep (sm s) (sctx s) B -> lives B (live g) -> valid P s g o -> heap_op o ->
  exists m' c' r B', step P s o = Ok (St m' c' (sparents s), r) /\
    topres (sm s) (sctx s) B o m' c' B' (live (after g o r)) /\ outer (after g o r) = outer g.
Proof.
  intros R L V H. pose proof L as [L1 L2]. destruct o as [n | n | p | p n | p n | | | a v]; cbn [heap_op] in H; try tauto; cbn [valid] in V.
  - cbn [step]. destruct (alloc_spec P HP _ _ _ _ R V) as [[_ E] | (m' & c' & q & B' & u & E & A & _)]; rewrite E; cbn [bind].
    + exists (sm s), (sctx s), 0, B. split; [reflexivity|]. split; [|reflexivity]. constructor; auto using opres_refl.
    + exists m', c', q, B'. split; [reflexivity|].
      destruct (alloced_top _ _ _ _ _ _ _ _ _ _ (OAlloc n) R L A) as (T & Hq & _); auto.
      cbn [after]. destruct (Z.eqb_spec q 0); [tauto|]. cbn [live outer]. auto.
  - cbn [step]. destruct (alloc_dirty_ok P HP _ _ _ _ R V) as [[_ E] | (m' & c' & q & E & A)]; rewrite E; cbn [bind].
    + exists (sm s), (sctx s), 0, B. split; [reflexivity|]. split; [|reflexivity]. constructor; auto using opres_refl.
    + destruct (alloc_ok_alloced P HP _ _ _ _ _ _ _ R V A) as (B' & u & A').
      exists m', c', q, B'. split; [reflexivity|].
      destruct (alloced_top _ _ _ _ _ _ _ _ _ _ (ODirty n) R L A') as (T & Hq & _); auto.
      cbn [after]. destruct (Z.eqb_spec q 0); [tauto|]. cbn [live outer]. auto.
  - cbn [step after live outer]. unfold free. destruct (Z.eqb_spec p 0) as [-> | Hp]; cbn [bind].
    + exists (sm s), (sctx s), 0, B. split; [reflexivity|]. split; [|reflexivity].
      assert (E : remove Z.eq_dec 0 (live g) = live g).
      { apply notin_remove. rewrite L2. intros (b & Hb & E). pose proof (P_pos P HP).
        destruct (rep_in P HP _ _ _ _ R (used_sub _ _ Hb)). lia. }
      rewrite E. constructor; auto using opres_refl.
    + destruct V as [? | V]; [tauto|]. apply L2 in V. destruct V as (u & Hu & ->).
      destruct (make_free_ok P HP _ _ _ _ R Hu) as (m' & c' & B' & E & F).
      replace (ba u + P - P) with (ba u) by lia. rewrite E. cbn [bind].
      exists m', c', 0, B'. split; [reflexivity|]. split; [|reflexivity].
      eapply freed_top; eauto. intros; reflexivity.
  - cbn [step]. destruct V as [V Hn]. destruct (Z.eqb_spec p 0) as [-> | Hp].
    + unfold realloc. rewrite Z.eqb_refl. cbn [bind]. exists (sm s), (sctx s), 0, B. split; [reflexivity|].
      cbn [after]. rewrite Z.eqb_refl. split; [|reflexivity]. constructor; auto using opres_refl.
    + destruct V as [? | V]; [tauto|]. apply L2 in V. destruct V as (u & Hu & ->).
      cbn [after]. destruct (Z.eqb_spec (ba u + P) 0); [tauto|].
      destruct (realloc_spec P HP _ _ _ _ _ R Hu Hn) as
        [(Hle & E) | [(Hlt & Hno & m' & c' & B' & E & F) | (Hlt & m' & c' & B' & v & q & E & O & Hv & Hq & Hq0 & Hvu & Hvu2 & Hbig & N1 & N2 & N3 & K & Dat & FS)]];
        rewrite E; cbn [bind].
      * exists (sm s), (sctx s), (ba u + P), B. split; [reflexivity|].
        destruct (Z.eqb_spec (ba u + P) 0); [tauto|]. cbn [live outer]. split; [|reflexivity].
        constructor; auto using opres_refl. split.
        -- constructor; [|apply NoDup_remove_dec; auto]. rewrite In_remove_iff. tauto.
        -- intros p. cbn [In]. rewrite In_remove_iff, L2. split.
           ++ intros [<- | [H1 _]]; eauto.
           ++ intros H1. destruct (Z.eq_dec p (ba u + P)); auto.
      * exists m', c', 0, B'. split; [reflexivity|]. rewrite Z.eqb_refl. cbn [live outer]. split; [|reflexivity].
        eapply freed_top; eauto. intros; reflexivity.
      * exists m', c', q, B'. split; [reflexivity|]. destruct (Z.eqb_spec q 0); [lia|]. cbn [live outer].
        split; [|reflexivity]. constructor; auto.
        -- assert (Hin : forall p, In p (remove Z.eq_dec (ba u + P) (live g)) <-> exists b, In b (used B') /\ b <> v /\ p = ba b + P).
           { intros p. rewrite In_remove_iff, L2. split.
             - intros [(b & Hb & ->) Hne]. exists b. destruct (N2 b Hb) as [Hb1 Hb2]; [intros ->; auto|]. auto.
             - intros (b & Hb & Hbv & ->). destruct (N1 b Hb) as [? | [Hb1 Hb2]]; [tauto|]. split; [eauto|].
               intros E'. apply Hb2. apply (used_same_addr _ _ _ _ _ R); auto. lia. }
           split.
           ++ constructor; [|apply NoDup_remove_dec; auto]. rewrite Hin. intros (b & Hb & Hbv & E').
              apply Hbv. apply (used_same_addr _ _ _ _ _ (o_rep _ _ _ _ _ _ O)); auto. lia.
           ++ intros p. cbn [In]. rewrite Hin. split.
              ** intros [<- | (b & Hb & _ & ->)]; eauto.
              ** intros (b & Hb & ->). destruct (Z.eq_dec (ba b) (ba v)); [left; lia|]. right. exists b.
                 repeat split; auto. intros ->. auto.
        -- intros x Hx Ha. cbn [arg_of] in Ha. assert (x <> u) by (intros ->; auto).
           split; [apply N2; auto|]. eapply keeps_block; eauto.
  - cbn [step after]. destruct V as [V Hn]. destruct (Z.eqb_spec p 0) as [-> | Hp].
    + unfold truncate. rewrite Z.eqb_refl. cbn [bind]. exists (sm s), (sctx s), 0, B. split; [reflexivity|].
      split; [|reflexivity]. constructor; auto using opres_refl.
    + destruct V as [? | V]; [tauto|]. apply L2 in V. destruct V as (u & Hu & ->).
      destruct (truncate_spec P HP _ _ _ _ _ R Hu Hn) as
        (m' & c' & B' & u' & E & O & Hu' & Ea & Hcase & N1 & N2 & K & Dat & FS).
      rewrite E. cbn [bind]. exists m', c', 0, B'. split; [reflexivity|]. split; [|reflexivity].
      constructor; auto.
      * split; auto. intros p. rewrite L2. split.
        -- intros (b & Hb & ->). destruct (Z.eq_dec (ba b) (ba u)) as [Eb | Nb].
           ++ exists u'. split; auto. lia.
           ++ exists b. split; auto. apply N2; auto. intros ->. auto.
        -- intros (b & Hb & ->). destruct (N1 b Hb) as [-> | [Hb1 _]]; [exists u; split; auto; lia|eauto].
      * intros x Hx Ha. cbn [arg_of] in Ha. assert (x <> u) by (intros ->; auto).
        split; [apply N2; auto|]. eapply keeps_block; eauto.
Qed.

(* --- every call preserves the invariant --- *)

(* What a step guarantees about memory it must not touch. *)
Record step_frame (s : st) (Bs : list (list blk)) (o : op) (s' : st) (Bs' : list (list blk)) : Prop := {
  sf_region : (forall a v, o <> OPoke a v) -> forall z, ~ in_region (sctx s) z -> bytes (sm s') z = bytes (sm s) z;
  sf_heap : forall z, ~ (start <= z < start + size) -> bytes (sm s') z = bytes (sm s) z;
  sf_bnd : same_bounds (sm s) (sm s');
  sf_keep : forall b, sblk Bs b -> ~ arg_of o (ba b + P) -> (o = OPop -> sblk Bs' b) ->
     sblk Bs' b /\ load (sm s') (ba b) = Ok (bs b) /\
     forall z, ba b <= z < ba b + bs b -> (forall v, o <> OPoke z v) -> bytes (sm s') z = bytes (sm s) z }.

Lemma stk_length m cs Bs ls : stk m cs Bs ls -> length Bs = length cs /\ length ls = length cs.
Proof. induction 1; cbn in *; lia. Qed.

(* How the stack of contexts changes. *)
Inductive shape (s : st) (g : ghost) (Bs : list (list blk)) (s' : st) (g' : ghost) (Bs' : list (list blk)) : op -> Prop :=
| sh_same o B0 B' Bs0 : Bs = B0 :: Bs0 -> Bs' = B' :: Bs0 -> sparents s' = sparents s -> outer g' = outer g ->
    o <> OPop -> heap_start (sctx s') = heap_start (sctx s) -> heap_size (sctx s') = heap_size (sctx s) ->
    shape s g Bs s' g' Bs' o
| sh_push B' : Bs' = B' :: Bs -> sparents s' = sctx s :: sparents s -> outer g' = live g :: outer g ->
    live g' = [] -> (forall z, in_region (sctx s') z -> in_region (sctx s) z) ->
    (forall z, ~ in_region (sctx s') z -> bytes (sm s') z = bytes (sm s) z) -> shape s g Bs s' g' Bs' OPush
| sh_pop B0 : Bs = B0 :: Bs' -> sparents s = sctx s' :: sparents s' -> outer g = live g' :: outer g' ->
    sm s' = sm s -> shape s g Bs s' g' Bs' OPop.

Lemma inv_step s g Bs o :
  stk (sm s) (sctx s :: sparents s) Bs (live g :: outer g) -> valid P s g o ->
  exists s' r Bs', step P s o = Ok (s', r) /\
    stk (sm s') (sctx s' :: sparents s') Bs' (live (after g o r) :: outer (after g o r)) /\
    step_frame s Bs o s' Bs' /\ shape s g Bs s' (after g o r) Bs' o.
Proof.
  pose proof (P_pos P HP) as HPP.
  intros S V. destruct (stk_head _ _ _ _ _ S) as (B & Bs0 & l & ls & -> & [= <- <-] & R & L).
  destruct (stk_sblk_facts _ _ _ _ S _ _ eq_refl) as [Hreg Hfa].
  assert (Hho : heap_op o -> exists s' r Bs', step P s o = Ok (s', r) /\
    stk (sm s') (sctx s' :: sparents s') Bs' (live (after g o r) :: outer (after g o r)) /\
    step_frame s (B :: Bs0) o s' Bs' /\ shape s g (B :: Bs0) s' (after g o r) Bs' o).
  { intros Ho. destruct (top_step s g o B R L V Ho) as (m' & c' & r & B' & E & T & Eo).
    exists (St m' c' (sparents s)), r, (B' :: Bs0). split; auto. cbn [sm sctx sparents]. rewrite Eo.
    destruct T as [T1 T2 T3]. pose proof (stk_top _ _ _ _ _ _ _ _ _ _ _ S T1 T2) as S'. split; auto.
    split; [|eapply sh_same; eauto; [intros ->; exact Ho|apply T1|apply T1]].
    destruct T1 as [O1 O2 O3 O4 O5].
    constructor; cbn [sm sctx sparents]; auto.
    - intros z Hz. apply O5. unfold in_region. lia.
    - intros b Hb Ha Hpop. destruct Hb as (B0 & [<- | HB0] & Hb).
      + destruct (T3 b Hb Ha) as [T3a T3b].
        split; [exists B'; split; [left; auto|auto]|]. split; [|intros; auto].
        apply (load_hdr P _ _ _ _ O1 T3a).
      + assert (Hs : sblk Bs0 b) by (exists B0; auto).
        assert (Hz : forall z, ba b <= z < ba b + bs b -> bytes m' z = bytes (sm s) z).
        { intros z Hz. apply O5. exact (stk_sblk_out _ _ _ _ S _ _ _ _ eq_refl eq_refl b z Hs Hz). }
        split; [exists B0; split; [right; auto|auto]|]. split; [|intros; auto].
        destruct (Hfa b) as (Hl & _ & _ & Hsz & _); [exists B0; cbn; auto|]. rewrite <- Hl.
        apply (load_frame P HP); auto. intros z Hz2. apply Hz. lia. }
  destruct o as [n | n | p | p n | p n | | | a v]; try (apply Hho; exact I); clear Hho.
  - (* OPush *)
    cbn [step]. destruct (push_spec P HP s B R) as
      [(f & m' & c' & Hf & Hbig & E & R' & Hs & Hz & SB & F) | E]; rewrite E; cbn [bind].
    + eexists _, 1, ([Blk (ba f + 2 * P) (bs f - 2 * P) true] :: B :: Bs0). split; [reflexivity|].
      cbn [sm sctx sparents after]. change (1 =? 0) with false. cbn [live outer].
      pose proof Hf as Hf'. apply frees_in in Hf'. destruct Hf' as [HfB Hff].
      destruct (rep_in P HP _ _ _ _ R HfB) as (I1 & I2 & I3 & I4 & I5 & I6).
      assert (R2 : rep m' (sctx s) B).
      { apply (rep_frame P HP (sm s)); auto. intros b z Hb Hfo. apply F. unfold foot in Hfo.
        destruct (rep_apart P HP _ _ _ _ _ R Hb HfB) as [-> | A].
        - rewrite Hff in Hfo. lia.
        - unfold apart in A. destruct (rep_in P HP _ _ _ _ R Hb). destruct (bf b); lia. }
      assert (O : opres (sm s) (sctx s) m' (sctx s) B).
      { constructor; auto. intros z Hzz. apply F. unfold in_region in Hzz. lia. }
      pose proof (stk_top _ _ _ _ _ _ _ _ _ _ _ S O L) as S2.
      split.
      { eapply stk_push; eauto. split; [constructor|]. intros p. cbn [In used filter bf negb].
        split; [tauto|]. intros (b & [] & _). }
      split; [|eapply sh_push; eauto; cbn [sm sctx]; unfold in_region; intros z Hzz; [lia|apply F; lia]].
      constructor; cbn [sm sctx sparents]; auto.
      * intros _ z Hzz. apply F. unfold in_region in Hzz. lia.
      * intros z Hzz. apply F. lia.
      * intros b Hb _ _.
        assert (Hzb : forall z, ba b <= z < ba b + bs b -> bytes m' z = bytes (sm s) z).
        { intros z Hzz. apply F. intros Hc. destruct Hb as (B0 & [<- | HB0] & Hb).
          - pose proof Hb as Hb2. apply used_in in Hb. destruct Hb as [Hb Hbf].
            destruct (rep_apart P HP _ _ _ _ _ R Hb HfB) as [-> | A]; [congruence|]. unfold apart in A. lia.
          - eapply (stk_sblk_out _ _ _ _ S _ _ B Bs0 eq_refl eq_refl b z); eauto; [exists B0; auto|].
            unfold in_region. lia. }
        destruct (Hfa b Hb) as (Hl & _ & _ & Hsz & _).
        split; [destruct Hb as (B0 & HB0 & Hb); exists B0; split; [right; auto|auto]|].
        split; [|intros; auto].
        rewrite <- Hl. apply (load_frame P HP); auto. intros z Hzz. apply Hzb. lia.
    + exists s, 0, (B :: Bs0). split; [reflexivity|]. cbn [after]. change (0 =? 0) with true. cbn iota.
      split; auto. split; [|eapply sh_same; eauto; discriminate].
      constructor; auto using same_bounds_refl. intros b Hb _ _. split; auto. split; auto.
      apply (Hfa b Hb).
  - (* OPop *)
    cbn [valid] in V. cbn [step]. unfold context_pop.
    pose proof (stk_length _ _ _ _ S) as [Hl1 Hl2]. cbn [length] in Hl1, Hl2.
    destruct (sparents s) as [|c' cs] eqn:Ep; [destruct (outer g); cbn in *; [tauto|lia]|].
    destruct (stk_pop _ _ _ _ _ _ _ S) as (? & B' & Bs' & l' & ls' & f & [= <- ->] & El & S' & _). cbn [bind].
    exists (St (sm s) c' cs), 0, (B' :: Bs'). split; [reflexivity|]. cbn [sm sctx sparents after].
    rewrite El. cbn [live outer]. split; auto.
    split; [|apply (sh_pop _ _ _ _ _ _ B); auto].
    constructor; cbn [sm]; auto using same_bounds_refl. intros b Hb _ Hp. split; auto.
    split; auto. apply (Hfa b Hb).
  - (* OPoke *)
    cbn [valid] in V. destruct V as (p & n & Ho & Hsz & Ha).
    apply (owned_sblk _ _ _ _ S) in Ho. destruct Ho as (b & Hb & ->).
    destruct (Hfa b Hb) as (Hl & Hal & Hal2 & H2P & Hst & Hen & H0 & HWb & Hso).
    rewrite Hso in Hsz. injection Hsz as <-.
    pose proof (r_lom _ _ _ _ R). pose proof (r_him _ _ _ _ R).
    assert (Hm : mlo (sm s) <= start /\ start + size <= mhi (sm s)).
    { clear - S. remember (sctx s :: sparents s) as cs. clear Heqcs. remember (sm s) as m. clear Heqm.
      induction S; auto. pose proof (r_lom _ _ _ _ H). pose proof (r_him _ _ _ _ H). lia. }
    cbn [step]. destruct (Z.leb_spec (mlo (sm s)) a); [|lia]. destruct (Z.ltb_spec a (mhi (sm s))); [|lia].
    cbn [andb]. eexists _, 0, (B :: Bs0). split; [reflexivity|]. cbn [sm sctx sparents after].
    assert (SB : same_bounds (sm s) (Mem (upd (bytes (sm s)) a v) (mlo (sm s)) (mhi (sm s)))) by (split; reflexivity).
    split.
    { apply (stk_poke _ _ _ _ _ S SB b a Hb); [lia|]. intros z Hz. cbn [bytes]. apply upd_other. auto. }
    split; [|eapply sh_same; eauto; discriminate].
    constructor; cbn [sm sctx sparents]; auto.
    + intros Hc. exfalso. apply (Hc a v). reflexivity.
    + intros z Hz. cbn [bytes]. apply upd_other. lia.
    + intros b' Hb' _ _. split; auto. destruct (Hfa b' Hb') as (Hl' & _ & _ & H2P' & _). split.
      * rewrite <- Hl'. apply (load_frame P HP); auto. intros z Hz. cbn [bytes]. apply upd_other.
        destruct (stk_apart _ _ _ _ S b b' Hb Hb') as [<- | A]; [lia|]. unfold apart in A. lia.
      * intros z Hz Hne. cbn [bytes]. apply upd_other. intros ->. apply (Hne v). reflexivity.
Qed.

Lemma init_inv m s :
  heap_ok P m start size -> heap_init P m start size = Ok s ->
  stk (sm s) (sctx s :: sparents s) [[Blk start size true]] [[]].
Proof.
  intros (_ & H1 & H2 & H3 & H4 & H5 & H6 & H7) E. unfold heap_init in E.
  destruct (heap_setup_spec P HP m start size) as (m' & c & E' & R & Hs & Hz & SB & F); auto.
  rewrite E' in E. cbn [bind] in E. injection E as <-. cbn [sm sctx sparents].
  apply stk_base; auto. split; [constructor|]. intros p. cbn. split; [tauto|]. intros (b & [] & _).
Qed.

Lemma init_ok m : heap_ok P m start size -> exists s, heap_init P m start size = Ok s.
Proof.
  intros (_ & H1 & H2 & H3 & H4 & H5 & H6 & H7). unfold heap_init.
  destruct (heap_setup_spec P HP m start size) as (m' & c & E' & _); auto.
  rewrite E'. cbn. eauto.
Qed.

Lemma run_inv d s0 g0 h s g :
  inv s0 g0 -> run P d s0 g0 h s g -> inv s g.
Proof.
  intros I. induction 1 as [|h s1 g1 o s2 r Hr IH V E Hd]; auto.
  destruct IH as (Bs & S). destruct (inv_step _ _ _ _ S V) as (s' & r' & Bs' & E' & S' & _).
  rewrite E in E'. injection E' as <- <-. exists Bs'. auto.
Qed.

Lemma reach_inv m h s g :
  heap_ok P m start size -> reachable P m start size h s g -> inv s g.
Proof.
  intros H (s0 & E & R). eapply run_inv; eauto. exists [[Blk start size true]]. apply (init_inv m); auto.
Qed.

End Proof3.
