From Verif Require Import Base Arr.
Open Scope Z_scope.

(* Arithmetic on lengths. *)
Ltac len := repeat (progress (rewrite ?app_length, ?firstn_length, ?skipn_length in *; cbn [length app] in * )); lia.

Section A.
Context {A : Type}.
Implicit Types (a l : list A) (i : nat) (v : A).

Lemma set_at_length a : forall i v, length (set_at a i v) = length a.
Proof. induction a as [|x a IH]; intros [|i] v; cbn; auto. Qed.

Lemma set_at_app l x r v : set_at (l ++ x :: r) (length l) v = l ++ v :: r.
Proof. induction l as [|y l IH]; cbn; auto. f_equal. auto. Qed.

Lemma rd_app l x r : rd (l ++ x :: r) (length l) = Ok x.
Proof. unfold rd. rewrite nth_error_app2, Nat.sub_diag; auto. Qed.

Lemma wr_app l x r v : wr (l ++ x :: r) (length l) v = Ok (l ++ v :: r).
Proof.
  unfold wr. rewrite app_length. cbn [length].
  destruct (Nat.ltb_spec (length l) (length l + S (length r))); [|lia]. rewrite set_at_app. auto.
Qed.

Lemma rd_app_at l x r i : i = length l -> rd (l ++ x :: r) i = Ok x.
Proof. intros ->. apply rd_app. Qed.

Lemma wr_app_at l x r i v : i = length l -> wr (l ++ x :: r) i v = Ok (l ++ v :: r).
Proof. intros ->. apply wr_app. Qed.

Lemma wr_ub a i v : (length a <= i)%nat -> wr a i v = Ub.
Proof. intros H. unfold wr. destruct (Nat.ltb_spec i (length a)); auto. lia. Qed.

Lemma rd_ub a i : (length a <= i)%nat -> rd a i = Ub.
Proof. intros H. unfold rd. rewrite (proj2 (nth_error_None a i)); auto. Qed.

Lemma wr_ok a i v : (i < length a)%nat -> wr a i v = Ok (set_at a i v).
Proof. intros H. unfold wr. destruct (Nat.ltb_spec i (length a)); auto. lia. Qed.

Lemma wr_inv a i v a' : wr a i v = Ok a' -> (i < length a)%nat /\ a' = set_at a i v.
Proof. unfold wr. destruct (Nat.ltb_spec i (length a)); [|discriminate]. intros [= <-]. auto. Qed.

Lemma nth_error_set_same a : forall i v, (i < length a)%nat -> nth_error (set_at a i v) i = Some v.
Proof. induction a as [|x a IH]; intros [|i] v H; cbn in *; try lia; auto. apply IH. lia. Qed.

Lemma nth_error_set_other a : forall i j v, i <> j -> nth_error (set_at a i v) j = nth_error a j.
Proof. induction a as [|x a IH]; intros [|i] [|j] v H; cbn; auto; try lia. Qed.

Lemma set_at_split a i v : (i < length a)%nat -> set_at a i v = firstn i a ++ v :: skipn (S i) a.
Proof.
  revert i. induction a as [|x a IH]; intros [|i] H; cbn in *; try lia; auto. f_equal. apply IH. lia.
Qed.

Lemma rd_Some a i v : nth_error a i = Some v -> rd a i = Ok v.
Proof. unfold rd. intros ->. auto. Qed.

End A.

Lemma skipn_set_at {A} (a : list A) : forall i k v, (i < k)%nat -> skipn k (set_at a i v) = skipn k a.
Proof.
  induction a as [|x a IH]; intros [|i] [|k] v H; cbn; try lia; auto. apply IH. lia.
Qed.

Lemma firstn_set_at {A} (a : list A) : forall i k v, (k <= i)%nat -> firstn k (set_at a i v) = firstn k a.
Proof.
  induction a as [|x a IH]; intros [|i] [|k] v H; cbn; try lia; auto. f_equal. apply IH. lia.
Qed.

Lemma skipn_app_eq {A} (a b : list A) n : n = length a -> skipn n (a ++ b) = b.
Proof. intros ->. rewrite skipn_app, skipn_all, Nat.sub_diag. auto. Qed.

Lemma skipn_add {A} m : forall n (l : list A), skipn n (skipn m l) = skipn (m + n) l.
Proof. induction m as [|m IH]; intros n [|x l]; cbn; auto. destruct n; auto. Qed.

(* Shift the boundary of a gap by one element. *)
Lemma gap_shift {A} (gap : list A) c : exists g gp, length gp = length gap /\
  forall x, gap ++ c :: x = g :: gp ++ x.
Proof.
  destruct gap as [|g gap].
  - exists c, []. auto.
  - exists g, (gap ++ [c]). split; [rewrite app_length; cbn; lia|]. intros x. rewrite <- app_assoc. auto.
Qed.
