(* Lemmas about Base.v. *)
From Verif Require Import Base.
Open Scope Z_scope.

Lemma upd_same f a v : upd f a v a = v.
Proof. unfold upd. rewrite Z.eqb_refl. reflexivity. Qed.

Lemma upd_other f a v x : x <> a -> upd f a v x = f x.
Proof. unfold upd. intros H. destruct (Z.eqb_spec x a); congruence. Qed.

Lemma store_le_other n : forall f a v x,
  x < a \/ a + Z.of_nat n <= x -> store_le f a n v x = f x.
Proof.
  induction n as [|n IH]; intros f a v x H; [reflexivity|].
  cbn [store_le]. rewrite IH by lia. apply upd_other. lia.
Qed.

Lemma load_le_ext n : forall f g a,
  (forall x, a <= x < a + Z.of_nat n -> f x = g x) -> load_le f a n = load_le g a n.
Proof.
  induction n as [|n IH]; intros f g a H; [reflexivity|].
  cbn [load_le]. rewrite (H a) by lia. f_equal. f_equal. apply IH.
  intros x Hx. apply H. lia.
Qed.

Lemma load_store_le_same n : forall f a v,
  0 <= v < 256 ^ Z.of_nat n -> load_le (store_le f a n v) a n = v.
Proof.
  induction n as [|n IH]; intros f a v H.
  - cbn in *. lia.
  - cbn [store_le load_le]. rewrite store_le_other by lia. rewrite upd_same.
    rewrite IH.
    + rewrite Z.mod_mod by lia. pose proof (Z.div_mod v 256). lia.
    + replace (Z.of_nat (S n)) with (Z.succ (Z.of_nat n)) in H by lia.
      rewrite Z.pow_succ_r in H by lia.
      split; [apply Z.div_pos; lia|]. apply Z.div_lt_upper_bound; lia.
Qed.

Lemma load_store_le_other n k : forall f a v b,
  b + Z.of_nat k <= a \/ a + Z.of_nat n <= b ->
  load_le (store_le f a n v) b k = load_le f b k.
Proof.
  intros f a v b H. apply load_le_ext. intros x Hx. apply store_le_other. lia.
Qed.

Lemma load_le_range n : forall f a, 0 <= load_le f a n < 256 ^ Z.of_nat n.
Proof.
  induction n as [|n IH]; intros f a.
  - cbn. lia.
  - cbn [load_le]. specialize (IH f (a + 1)).
    replace (Z.of_nat (S n)) with (Z.succ (Z.of_nat n)) by lia.
    rewrite Z.pow_succ_r by lia.
    pose proof (Z.mod_pos_bound (f a) 256). lia.
Qed.

Lemma bind_ok {A B} (x : res A) (f : A -> res B) b :
  bind x f = Ok b -> exists a, x = Ok a /\ f a = Ok b.
Proof. destruct x; cbn; intros; try discriminate. eauto. Qed.
