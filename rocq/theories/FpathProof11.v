From Verif Require Import Base CrcSpec FutfModel FutfSpec FutfProof LfnModel LfnSpec LfnProof FdirModel FdirSpec FdirProof FdirProof2 FdirProof3 FnameModel FnameSpec FnameProof FnameProof2 FnameProof3 FnameProof4 FnameProof5 FnameProof6 FpathModel FpathSpec FpathProof FpathProof2 FpathProof3 FpathProof4 FpathProof5 FpathProof6 FpathProof7 FpathProof8 FpathProof9 FpathProof10.
Open Scope Z_scope.

(* --- lists --------------------------------------------------------------------------------- *)
Lemma choose {X} (P : Z -> X -> Prop) (x0 : X) ns : (forall c, In c ns -> exists x, P c x) -> exists L : Z -> X, forall c, In c ns -> P c (L c).
Proof.
  induction ns as [|n ns IH]; intros H; [exists (fun _ => x0); easy|]. destruct IH as [L HL]; [intros c C; apply H; right; auto|]. destruct (H n ltac:(left; auto)) as [x Hx]. exists (put L n x). intros c C. destruct (Z.eq_dec c n) as [->|N]; [now rewrite put_same|]. rewrite put_other by auto. apply HL. destruct C; [congruence|auto].
Qed.
(* A file is on one side of the holes. *)
Lemma after_holes (h : nat) : forall (l1 l2 m2 : list item) w e, l1 ++ File w e :: l2 = repeat Hole h ++ m2 -> exists x, l1 = repeat Hole h ++ x /\ m2 = x ++ File w e :: l2.
Proof.
  induction h as [|h IH]; intros l1 l2 m2 w e E; [exists l1; auto|]. destruct l1 as [|y l1]; [discriminate|]. cbn [repeat app] in E. injection E as -> E. destruct (IH _ _ _ _ _ E) as (x & -> & ->). exists x. auto.
Qed.
Lemma around (l1 l2 m1 m2 : list item) w e h : l1 ++ File w e :: l2 = m1 ++ repeat Hole h ++ m2 ->
  (exists x, m1 = l1 ++ File w e :: x /\ l2 = x ++ repeat Hole h ++ m2) \/ (exists x, l1 = m1 ++ repeat Hole h ++ x /\ m2 = x ++ File w e :: l2).
Proof.
  revert m1. induction l1 as [|y l1 IH]; intros [|z m1] E.
  - right. apply (after_holes h [] l2 m2 w e). exact E.
  - injection E as <- E. left. exists m1. auto.
  - right. apply (after_holes h (y :: l1) l2 m2 w e). exact E.
  - injection E as -> E. destruct (IH m1 E) as [(x & -> & ->)|(x & -> & ->)]; [left; exists x; auto|right; exists x; auto].
Qed.
Lemma sizes_holes h : sizes (repeat Hole h) = Z.of_nat h.
Proof. induction h as [|h IH]; [auto|]. cbn [repeat]. rewrite sizes_cons, IH. cbn [size]. lia. Qed.

(* --- trees --------------------------------------------------------------------------------- *)
Section Move.
Variables (v : volume) (A : tree) (L : Z -> list item) (total : list Z).
Hypothesis V : vol_ok v A L total.
Variables (c : Z) (l1 l2 : list item) (w : list Z) (e : Z -> Z).
Hypothesis I : In c (nodes A).
Hypothesis J : In (w, e) (ents A c).
Hypothesis El : L c = l1 ++ File w e :: l2.
Let k := clu A (w, e).
Let gone := l1 ++ repeat Hole (Z.to_nat (parts w + 1)) ++ l2.
Variables (c2 : Z) (cs : list Z) (fn : Z -> Z).
Hypothesis I2 : In c2 (nodes A).
Hypothesis NU : isdir (w, e) = true -> ~ under A k c2.
Hypothesis G : good_name cs.
Hypothesis F : form (utf16 cs) true fn.
Let w' := if has (fn 11) 2 then utf16 cs else [].
Let base := if c =? c2 then gone else L c2.

Lemma k_not_c : isdir (w, e) = true -> k <> c /\ k <> c2.
Proof.
  intros Di. split; [|intros Q; apply (NU Di); rewrite Q; constructor]. intros Q. apply (not_inside A c (w, e) (vo_shape _ _ _ _ V) I J Di). fold k. rewrite Q. constructor.
Qed.
Lemma move_reads b1 b2 h f0 e2 e' : base = b1 ++ repeat Hole h ++ b2 -> (Z.of_nat h = parts w' + 1 \/ b2 = []) -> Forall (fun g => ~ hit (utf16 cs) fn g) (files base) -> fresh fn base f0 e2 ->
  short_same e' e2 -> e' 12 = e2 12 -> isdir (w', e') = isdir (w, e) -> clu A (w', e') = k ->
  exists A1 A', removed A c (w, e) A1 /\ added A1 c2 (w', e') A' /\ named cs (w', e') /\ reads A' c2 (b1 ++ File w' e' :: b2) /\ (c <> c2 -> reads A' c gone) /\
    (forall p q, parent A p q -> isdir (w, e) = false \/ q <> k -> parent A' p q) /\ (isdir (w, e) = true -> parent A' c2 k).
Proof.
  intros Eb Hh NH Fr Ks K12 Di Cl. destruct (vo_tabs _ _ _ _ V c I) as [La Rd]. rewrite El in La, Rd. assert (Sh : shown (w, e) = true) by (apply (ents_in _ _ _ _ V c) in J; tauto).
  destruct (lay_remove v c l1 w e l2 La) as (d & _ & As & _ & Lr). destruct (reads_remove A c (table v c) l1 w e l2 (Z.to_nat (parts w + 1)) Rd (proj1 La) Sh) as (A1 & Rm & Rd1). fold gone in Lr, Rd1. exists A1.
  assert (P1 : forall p q, parent A p q -> isdir (w, e) = false \/ q <> k -> parent A1 p q) by (intros p q Pq Q; eapply parent_removed; [exact Rm|auto|]; fold k; destruct Q; auto).
  assert (Kc : isdir (w, e) = false \/ c <> k) by (destruct (Sumbool.sumbool_of_bool (isdir (w, e))) as [D|D]; [right; apply k_not_c in D; intuition congruence|auto]). assert (Kc2 : isdir (w, e) = false \/ c2 <> k) by (destruct (Sumbool.sumbool_of_bool (isdir (w, e))) as [D|D]; [right; apply k_not_c in D; intuition congruence|auto]).
  pose proof Rm as (x & y & Ex & Ea). assert (W1 : wide A1 = wide A) by now rewrite Ea. assert (N1 : nodes A1 = nodes A) by now rewrite Ea.
  assert (Rb : reads A1 c2 base /\ exists d, dir_ok d base).
  { unfold base. destruct (Z.eqb_spec c c2) as [<-|N].
    - split; [apply Rd1; auto|]. exists (table (put_table v c d) c). apply Lr.
    - destruct (vo_tabs _ _ _ _ V c2 I2) as [[D2 _] R2]. split; [|eauto]. apply (reads_other A); auto. rewrite Ea. cbn. apply put_other. auto. }
  destruct Rb as [Rb [d' Db]]. rewrite Eb in Rb, Db, NH, Fr. destruct (reads_add A1 c2 cs true fn d' b1 h b2 f0 e2 e' Rb Db G F NH Hh Fr Ks K12) as (A' & Ad & Nm & Rd'). fold w' in Ad, Nm, Rd'. exists A'.
  pose proof (parent_added _ _ _ _ Ad) as P2. pose proof Ad as (x2 & y2 & Ex2 & Ea2). assert (W2 : wide A' = wide A1) by now rewrite Ea2.
  split; [auto|]. split; [auto|]. split; [auto|]. split; [auto|]. split; [|split; [auto|]].
  - intros N. apply (reads_other A1); auto. rewrite Ea2. cbn. now apply put_other.
  - intros D. split; [rewrite Ea2; cbn; rewrite N1; auto|]. exists (w', e'). split; [rewrite Ea2; cbn; rewrite put_same; apply in_or_app; right; left; auto|]. split; [congruence|]. rewrite (clu_wide A A') by congruence. auto.
Qed.
End Move.
