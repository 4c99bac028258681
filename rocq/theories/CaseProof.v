(* ff_wtoupper against the case pairs. *)
From Verif Require Import Base CrcSpec Finite FutfModel FutfSpec FutfProof CaseSpec.
Open Scope Z_scope.

Lemma case_ok c : 0 <= c < 65536 ->
  (is_turned c = false -> upper c = capital c) /\ upper c = upper (capital c).
Proof.
  intro H. pose proof (allb0 16 (fun c => let k := capital c in
      if k =? c then (if upper c =? c then true else is_turned c)
      else (if upper c =? k then true else is_turned c) && (upper c =? upper k))
    ltac:(vm_cast_no_check (eq_refl true)) c H) as X. cbv beta zeta in X.
  destruct (Z.eqb_spec (capital c) c) as [E|_].
  - rewrite !E. split; [|reflexivity]. intro T. destruct (Z.eqb_spec (upper c) c) as [E'|_]; [exact E'|]. rewrite T in X. discriminate X.
  - apply andb_true_iff in X as [X Y]. apply Z.eqb_eq in Y. split; [|exact Y].
    intro T. destruct (Z.eqb_spec (upper c) (capital c)) as [E'|_]; [exact E'|]. rewrite T in X. discriminate X.
Qed.

Lemma turned_bad : Forall (fun p => capital (fst p) = snd p /\ capital (snd p) = snd p /\ upper (snd p) = fst p /\ upper (fst p) = fst p) turned.
Proof. unfold turned. repeat constructor. Qed.
