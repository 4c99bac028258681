From Coq Require Import Permutation Sorted.
From Verif Require Import Base Arr ArrLemmas DotwModel DirModel DirSpec.
Open Scope Z_scope.
Ltac Zify.zify_post_hook ::= Z.div_mod_to_equations.

Lemma strcmp_opp a : forall b, strcmp b a = - strcmp a b.
Proof. induction a as [|x a IH]; intros [|y b]; cbn [strcmp]; try reflexivity. rewrite (Z.eqb_sym y x). destruct (Z.eqb_spec x y); [apply IH | lia]. Qed.

Lemma strcmp_lt a : forall b, strcmp a b < 0 <-> str_lt a b.
Proof.
  unfold str_lt. induction a as [|x a IH]; intros [|y b]; cbn [strcmp].
  - split; [lia|]. intros (p & [(y & b' & <- & H)|(x & y & a' & b' & H & _)]); [discriminate | destruct p; discriminate].
  - split; [|lia]. intros _. exists []. left. exists y, b. split; reflexivity.
  - split; [lia|]. intros (p & [(z & b' & <- & H)|(u & v & a' & b' & _ & H & _)]); [discriminate | destruct p; discriminate].
  - destruct (Z.eqb_spec x y) as [->|N].
    + rewrite IH. split.
      * intros (p & [(z & b' & -> & ->)|(u & v & a' & b' & -> & -> & L)]); exists (y :: p); [left | right]; cbn; eauto 10.
      * intros ([|q p] & [(z & b' & E & H)|(u & v & a' & b' & E & H & L)]).
        -- discriminate.
        -- cbn in E, H. injection E as <- <-. injection H as <- <-. lia.
        -- cbn in E, H. injection E as <- <-. injection H as ->. exists a. left. eauto.
        -- cbn in E, H. injection E as <- ->. injection H as ->. exists p. right. eauto 10.
    + split.
      * intros L. exists []. right. exists x, y, a, b. cbn. split; [reflexivity|]. split; [reflexivity|lia].
      * intros ([|q p] & [(z & b' & E & H)|(u & v & a' & b' & E & H & L)]).
        -- discriminate.
        -- cbn in E, H. injection E as <- <-. injection H as <- <-. lia.
        -- cbn in E, H. injection E as <- <-. injection H as -> _. lia.
        -- cbn in E, H. injection E as <- ->. injection H as -> _. lia.
Qed.

Lemma strcmp_trans a : forall b c, strcmp a b <= 0 -> strcmp b c <= 0 -> strcmp a c <= 0.
Proof.
  induction a as [|x a IH]; intros [|y b] [|z c]; cbn [strcmp]; try lia.
  destruct (Z.eqb_spec x y), (Z.eqb_spec y z), (Z.eqb_spec x z); subst; try lia. eauto.
Qed.

(* The comparison without overflow. *)
Definition cval (o : options) (a b : item) : Z :=
  let c a b := if o_timesort o && negb (i_mtime a =? i_mtime b) then i_mtime b - i_mtime a else strcmp (i_name a) (i_name b) in
  if o_reversesort o then c b a else c a b.

Lemma compare_ok o a b : date_ok o a -> date_ok o b -> compare o a b = Ok (cval o a b).
Proof.
  intros (A & A') (B & B'). unfold compare, cval, int_of, to_int, INT_MIN, INT_MAX.
  destruct (o_timesort o); cbn [andb].
  - specialize (A' eq_refl). specialize (B' eq_refl).
    replace (i_mtime a <? 2 ^ 31) with true by lia. replace (i_mtime b <? 2 ^ 31) with true by lia.
    destruct (o_reversesort o); cbn [negb]; rewrite ?(Z.eqb_sym (i_mtime b));
      (destruct (i_mtime a =? i_mtime b); cbn [negb]; [reflexivity|]).
    + replace (_ && _) with true by lia. reflexivity.
    + replace (_ && _) with true by lia. reflexivity.
  - destruct (o_reversesort o); reflexivity.
Qed.

Lemma cval_before o a b : cval o a b < 0 <-> goes_before o a b.
Proof.
  unfold cval, goes_before. cbv zeta.
  destruct (o_reversesort o), (o_timesort o); cbn [andb]; unfold time_before, name_before; rewrite <- strcmp_lt; try tauto.
  - rewrite (Z.eqb_sym (i_mtime b)). destruct (Z.eqb_spec (i_mtime a) (i_mtime b)); cbn [negb]; lia.
  - destruct (Z.eqb_spec (i_mtime a) (i_mtime b)); cbn [negb]; lia.
Qed.

Lemma cval_opp o a b : cval o b a = - cval o a b.
Proof.
  unfold cval. destruct (o_reversesort o), (o_timesort o); cbn [andb]; try apply strcmp_opp.
  - rewrite (Z.eqb_sym (i_mtime b)). destruct (i_mtime a =? i_mtime b); cbn [negb]; [apply strcmp_opp | lia].
  - rewrite (Z.eqb_sym (i_mtime b)). destruct (i_mtime a =? i_mtime b); cbn [negb]; [apply strcmp_opp | lia].
Qed.

Lemma cval_trans o a b c : cval o a b <= 0 -> cval o b c <= 0 -> cval o a c <= 0.
Proof.
  unfold cval. destruct (o_reversesort o), (o_timesort o); cbn [andb].
  - destruct (Z.eqb_spec (i_mtime b) (i_mtime a)), (Z.eqb_spec (i_mtime c) (i_mtime b)), (Z.eqb_spec (i_mtime c) (i_mtime a)); cbn [negb]; try lia.
    intros. eapply strcmp_trans; eauto.
  - intros. eapply strcmp_trans; eauto.
  - destruct (Z.eqb_spec (i_mtime a) (i_mtime b)), (Z.eqb_spec (i_mtime b) (i_mtime c)), (Z.eqb_spec (i_mtime a) (i_mtime c)); cbn [negb]; try lia.
    intros. eapply strcmp_trans; eauto.
  - intros. eapply strcmp_trans; eauto.
Qed.

Definition le (o : options) (a b : item) : Prop := cval o a b <= 0.

Lemma merge_ok o a : Forall (date_ok o) a -> StronglySorted (le o) a -> forall b, Forall (date_ok o) b -> StronglySorted (le o) b ->
  exists l, merge o a b = Ok l /\ Permutation (a ++ b) l /\ StronglySorted (le o) l.
Proof.
  induction a as [|x a IHa]; intros DA SA.
  - intros b DB SB. exists b. destruct b; cbn [merge]; auto.
  - induction b as [|y b IHb]; intros DB SB.
    + exists (x :: a). rewrite app_nil_r. auto.
    + inversion DA as [|? ? Dx DA']; subst. inversion DB as [|? ? Dy DB']; subst.
      inversion SA as [|? ? SA' Fx]; subst. inversion SB as [|? ? SB' Fy]; subst.
      cbn [merge]. rewrite compare_ok by auto. cbn [bind]. destruct (Z.ltb_spec (cval o x y) 0) as [C|C].
      * destruct (IHa DA' SA' (y :: b) DB SB) as (l & E & P & S). rewrite E. cbn [bind]. exists (x :: l).
        split; [reflexivity|]. split; [now constructor|]. constructor; [exact S|].
        rewrite <- P. apply Forall_app. split; [exact Fx|].
        constructor; [unfold le; lia|]. rewrite Forall_forall in *. intros z Hz. apply (cval_trans o x y z); [lia | now apply Fy].
      * destruct (IHb DB' SB') as (l & E & P & S). cbn [merge] in E. rewrite E. cbn [bind]. exists (y :: l).
        split; [reflexivity|]. split; [rewrite <- Permutation_middle; now constructor|]. constructor; [exact S|].
        rewrite <- P. apply Forall_app. 
        assert (C' : cval o y x <= 0) by (rewrite cval_opp; lia).
        split; [|exact Fy]. constructor; [exact C'|]. rewrite Forall_forall in *. intros z Hz. apply (cval_trans o y x z); [lia | now apply Fx].
Qed.

Lemma mid_range l : forall slow, (2 <= length l -> slow <= mid_loop l slow /\ S (mid_loop l slow) < slow + length l)%nat.
Proof.
  assert (G : forall n l slow, (length l <= n -> 2 <= length l -> slow <= mid_loop l slow /\ S (mid_loop l slow) < slow + length l)%nat).
  { induction n as [|n IH]; intros l0 slow L H; [lia|]. destruct l0 as [|a [|b [|c l0]]]; cbn [length] in *; try lia.
    - cbn [mid_loop]. lia.
    - change (mid_loop (a :: b :: c :: l0) slow) with (mid_loop (c :: l0) (S slow)).
      destruct l0 as [|d l0]; [cbn [mid_loop length] in *; lia|]. destruct (IH (c :: d :: l0) (S slow)) as (I1 & I2); cbn [length] in *; lia. }
  intros. apply (G (length l)); auto.
Qed.

Lemma Forall_first {A} (P : A -> Prop) n l : Forall P l -> Forall P (firstn n l).
Proof. revert n. induction l; intros [|n] H; cbn; auto. inversion H; subst. constructor; auto. Qed.
Lemma Forall_skip {A} (P : A -> Prop) n l : Forall P l -> Forall P (skipn n l).
Proof. revert n. induction l; intros [|n] H; cbn; auto. inversion H; subst. auto. Qed.

Lemma sort_ok o : forall fuel l, (length l < fuel)%nat -> Forall (date_ok o) l ->
  exists l', sort fuel o l = Ok l' /\ Permutation l l' /\ StronglySorted (le o) l'.
Proof.
  induction fuel as [|fuel IH]; intros l L D; [lia|].
  destruct l as [|a [|b l]].
  - exists []. cbn. auto using SSorted_nil.
  - exists [a]. cbn. split; [reflexivity|]. split; [reflexivity|]. repeat constructor.
  - remember (a :: b :: l) as l0 eqn:E0. assert (L2 : (2 <= length l0)%nat) by (subst; cbn; lia).
    assert (ES : sort (S fuel) o l0 = let m := S (mid_loop l0 0) in
      bind (sort fuel o (firstn m l0)) (fun a => bind (sort fuel o (skipn m l0)) (fun b => merge o a b))) by (subst; reflexivity).
    rewrite ES. cbv zeta. pose proof (mid_range l0 0 L2) as (_ & M). set (m := S (mid_loop l0 0)) in *.
    destruct (IH (firstn m l0)) as (l1 & E1 & P1 & S1); [rewrite firstn_length; lia | now apply Forall_first|].
    destruct (IH (skipn m l0)) as (l2 & E2 & P2 & S2); [rewrite skipn_length; subst m; lia | now apply Forall_skip|].
    rewrite E1, E2. cbn [bind].
    destruct (merge_ok o l1) with (b := l2) as (l' & E & P & S); auto.
    { rewrite <- P1. now apply Forall_first. } { rewrite <- P2. now apply Forall_skip. }
    exists l'. split; [exact E|]. split; [|exact S]. rewrite <- P, <- P1, <- P2. rewrite firstn_skipn. reflexivity.
Qed.

Lemma sorted_iff o l : StronglySorted (le o) l -> sorted o l.
Proof.
  induction 1 as [|x l S IH F]; intros i j a b L A B; [destruct i; discriminate|].
  destruct j as [|j]; [lia|]. cbn in B. destruct i as [|i].
  - injection A as <-. rewrite Forall_forall in F. apply nth_error_In in B. apply F in B. unfold le in B.
    intros G. apply cval_before in G. rewrite cval_opp in G. lia.
  - cbn in A. apply (IH i j); auto. lia.
Qed.

Theorem sort_sorted o l : Forall (date_ok o) l ->
  exists l', sort (S (length l)) o l = Ok l' /\ Permutation l l' /\ sorted o l'.
Proof. intros D. destruct (sort_ok o (S (length l)) l) as (l' & E & P & S); auto. exists l'. auto using sorted_iff. Qed.
