(* Checking a property of all numbers of k bits by computation. *)
From Verif Require Import Base.
Open Scope Z_scope.

Fixpoint allb (k : nat) (f : Z -> bool) (lo : Z) : bool :=
  match k with
  | O => f lo
  | S j => allb j f lo && allb j f (lo + 2 ^ Z.of_nat j)
  end.

Lemma allb_ok k f : forall lo, allb k f lo = true -> forall x, lo <= x < lo + 2 ^ Z.of_nat k -> f x = true.
Proof.
  induction k as [|k IH]; intros lo H x Hx; cbn in H.
  - change (2 ^ Z.of_nat 0) with 1 in Hx. replace x with lo by lia. auto.
  - apply andb_true_iff in H. destruct H as [H1 H2].
    replace (Z.of_nat (S k)) with (1 + Z.of_nat k) in Hx by lia. rewrite Z.pow_add_r in Hx by lia.
    destruct (Z.lt_ge_cases x (lo + 2 ^ Z.of_nat k)).
    + apply (IH lo); auto. lia.
    + apply (IH (lo + 2 ^ Z.of_nat k)); auto. lia.
Qed.

Lemma allb0 k f : allb k f 0 = true -> forall x, 0 <= x < 2 ^ Z.of_nat k -> f x = true.
Proof. intros H x Hx. apply (allb_ok k f 0 H). lia. Qed.
