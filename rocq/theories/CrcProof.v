From Verif Require Import Base Arr ArrLemmas Finite CrcModel CrcSpec.
Open Scope Z_scope.

(* --- the shift register --- *)

Definition step (g s : list bool) (b : bool) : list bool :=
  match s with
  | [] => []
  | t :: r => if xorb b t then xor_onto (r ++ [false]) g else r ++ [false]
  end.
Definition run (g : list bool) (s : list bool) (m : list bool) : list bool := fold_left (step g) m s.

Lemma xor_length d : forall g, length (xor_onto d g) = length d.
Proof. induction d; intros [|c g]; cbn; auto. Qed.

Lemma xor_nil d : xor_onto d [] = d.
Proof. destruct d; auto. Qed.

Lemma xor_zeros d : forall n, xor_onto d (zeros n) = d.
Proof. induction d as [|b d IH]; intros [|n]; cbn; auto. rewrite IH, xorb_false_r. auto. Qed.

Lemma xor_assoc d : forall a b, length a = length b -> xor_onto (xor_onto d a) b = xor_onto d (xor_onto a b).
Proof.
  induction d as [|x d IH]; intros [|y a] [|z b] H; cbn in *; auto; try discriminate. rewrite IH by lia. rewrite xorb_assoc. auto.
Qed.

Lemma xor_app_zeros d a n : (length a + n <= length d)%nat -> xor_onto d (a ++ zeros n) = xor_onto d a.
Proof.
  revert d. induction a as [|x a IH]; intros d H; cbn [app].
  - rewrite xor_zeros, xor_nil. auto.
  - destruct d as [|y d]; cbn in *; auto. rewrite IH by lia. auto.
Qed.

Lemma step_length g s b : length (step g s b) = length s.
Proof. destruct s as [|t r]; auto. cbn. destruct (xorb b t); rewrite ?xor_length, app_length; cbn; lia. Qed.

Lemma run_length g m : forall s, length (run g s m) = length s.
Proof. induction m as [|b m IH]; intros s; auto. cbn. unfold run in IH. rewrite IH. apply step_length. Qed.

Lemma run_app g m m' s : run g s (m ++ m') = run g (run g s m) m'.
Proof. apply fold_left_app. Qed.

(* Long division is the shift register. *)
Lemma divide_run g m : forall s, length s = length g -> (1 <= length g)%nat ->
  divide g (length m) (xor_onto (m ++ zeros (length g)) s) = run g s m.
Proof.
  induction m as [|b m IH]; intros s Hs Hg.
  - cbn [length divide app run fold_left]. clear Hg. revert s Hs. generalize g. clear. intros g s Hs.
    assert (E : forall l : list bool, xor_onto (zeros (length l)) l = l) by (unfold zeros; induction l as [|a l IHl]; cbn; auto; rewrite IHl; destruct a; auto).
    rewrite <- Hs. apply E.
  - destruct s as [|t r]; [cbn in Hs; lia|]. cbn [length app xor_onto divide run fold_left step].
    assert (Hl : length (r ++ [false]) = length g) by (rewrite app_length; cbn in *; lia).
    assert (E : xor_onto (m ++ zeros (length g)) r = xor_onto (m ++ zeros (length g)) (r ++ [false])).
    { symmetry. apply (xor_app_zeros _ r 1). rewrite app_length. unfold zeros. rewrite repeat_length. cbn in Hs. lia. }
    rewrite E. destruct (xorb b t).
    + rewrite xor_assoc by auto. apply IH; auto. rewrite xor_length. auto.
    + apply IH; auto.
Qed.

(* --- linearity --- *)

Lemma xor_comm a : forall b, length a = length b -> xor_onto a b = xor_onto b a.
Proof. induction a as [|x a IH]; intros [|y b] H; cbn in *; auto; try discriminate. rewrite IH by lia. rewrite xorb_comm. auto. Qed.

Lemma xor_app a : forall b c d, length a = length b -> xor_onto (a ++ c) (b ++ d) = xor_onto a b ++ xor_onto c d.
Proof. induction a as [|x a IH]; intros [|y b] c d H; cbn in *; auto; try discriminate. rewrite IH by lia. auto. Qed.

Lemma xor_self a : xor_onto a a = zeros (length a).
Proof. induction a as [|x a IH]; cbn; auto. rewrite IH, xorb_nilpotent. auto. Qed.

Lemma xor_cancel a b c : length a = length c -> length b = length c -> xor_onto a c = xor_onto b c -> a = b.
Proof.
  revert b c. induction a as [|x a IH]; intros [|y b] [|z c] H1 H2 H; cbn in *; auto; try discriminate.
  inversion H. f_equal; [destruct x, y, z; cbn in *; congruence|]. apply (IH b c); auto; lia.
Qed.

Lemma xor_shuffle a b c d : length a = length b -> length b = length c -> length c = length d ->
  xor_onto (xor_onto a b) (xor_onto c d) = xor_onto (xor_onto a c) (xor_onto b d).
Proof.
  revert b c d. induction a as [|x a IH]; intros [|y b] [|z c] [|u d] H1 H2 H3; cbn in *; auto; try discriminate.
  rewrite IH by lia. f_equal. destruct x, y, z, u; auto.
Qed.

Lemma step_xor g s t b c : length s = length g -> length t = length g -> (1 <= length g)%nat ->
  step g (xor_onto s t) (xorb b c) = xor_onto (step g s b) (step g t c).
Proof.
  intros Hs Ht Hg. destruct s as [|x s], t as [|y t]; cbn [length] in *; try lia. cbn [xor_onto step].
  assert (Hl : length (s ++ [false]) = length g /\ length (t ++ [false]) = length g) by (rewrite !app_length; cbn; lia). destruct Hl as [Hl Hl'].
  assert (E : xor_onto s t ++ [false] = xor_onto (s ++ [false]) (t ++ [false])) by (rewrite xor_app by lia; auto). rewrite E.
  replace (xorb (xorb b c) (xorb x y)) with (xorb (xorb b x) (xorb c y)) by (destruct b, c, x, y; auto).
  destruct (xorb b x), (xorb c y); cbn [xorb].
  - rewrite xor_shuffle by lia. rewrite xor_self, xor_zeros. auto.
  - rewrite !xor_assoc by lia. f_equal. apply xor_comm. lia.
  - rewrite !xor_assoc by lia. auto.
  - auto.
Qed.

Lemma run_xor g m : forall m' s t, length m = length m' -> length s = length g -> length t = length g -> (1 <= length g)%nat ->
  run g (xor_onto s t) (xor_onto m m') = xor_onto (run g s m) (run g t m').
Proof.
  induction m as [|b m IH]; intros [|c m'] s t Hm Hs Ht Hg; cbn in *; auto; try discriminate.
  rewrite step_xor by auto. apply IH; rewrite ?step_length; auto.
Qed.

Lemma step_zero g n : step g (zeros (S n)) false = zeros (S n).
Proof. unfold zeros. cbn [repeat step xorb]. change [false] with (repeat false 1). rewrite <- repeat_app. rewrite Nat.add_comm. auto. Qed.

Lemma run_zero g k n : run g (zeros (S n)) (zeros k) = zeros (S n).
Proof. induction k as [|k IH]; auto. change (run g (zeros (S n)) (zeros (S k))) with (run g (step g (zeros (S n)) false) (zeros k)). rewrite step_zero. apply IH. Qed.

(* Feeding bits is the same as xoring them onto the register and feeding zeros. *)
Lemma run_absorb g m : forall s, length s = length g -> (length m <= length g)%nat ->
  run g s m = run g (xor_onto s m) (zeros (length m)).
Proof.
  induction m as [|b m IH]; intros s Hs Hm; cbn [length] in *.
  - rewrite xor_nil. auto.
  - destruct s as [|t r]; [cbn in Hs; lia|]. change (run g (t :: r) (b :: m)) with (run g (step g (t :: r) b) m).
    change (run g (xor_onto (t :: r) (b :: m)) (zeros (S (length m)))) with
      (run g (step g (xorb t b :: xor_onto r m) false) (zeros (length m))).
    rewrite IH by (rewrite ?step_length; lia). f_equal. cbn [step].
    assert (E : xor_onto r m ++ [false] = xor_onto (r ++ [false]) m).
    { clear -Hs Hm. cbn in Hs. assert (H : (length m <= length r)%nat) by lia. clear -H. revert m H. induction r as [|x r IH]; intros [|y m] H; cbn in *; auto; try lia.
      rewrite IH by lia. auto. }
    rewrite E, xorb_false_l, (xorb_comm t b). destruct (xorb b t); auto.
    assert (Hl : length (r ++ [false]) = length g) by (rewrite app_length; cbn in *; lia).
    clear -Hl Hm. assert (H : (length m <= length g)%nat) by lia. clear Hm. revert g m Hl H. generalize (r ++ [false]). clear r.
    induction l as [|x l IH]; intros [|y g] [|z m] Hl H; cbn in *; auto; try lia. rewrite IH by lia. f_equal. destruct x, y, z; auto.
Qed.

(* --- error detection --- *)

Section Detect.
Variable g : list bool.
Hypothesis Hg1 : (1 <= length g)%nat.
Hypothesis Hlast : last g false = true.

Lemma last_app_one (l : list bool) b : last (l ++ [b]) false = b.
Proof. induction l as [|x [|y l] IH]; cbn in *; auto. Qed.

Lemma last_xor d : forall c, length d = length c -> last (xor_onto d c) false = xorb (last d false) (last c false).
Proof.
  induction d as [|x d IH]; intros [|y c] H; cbn [length] in *; try discriminate; auto.
  destruct d as [|x' d], c as [|y' c]; cbn [length] in *; try discriminate; auto. cbn [xor_onto].
  change (last (x :: x' :: d) false) with (last (x' :: d) false). change (last (y :: y' :: c) false) with (last (y' :: c) false).
  rewrite <- IH by (cbn; lia). reflexivity.
Qed.

Lemma step_last s b : length s = length g -> last (step g s b) false = xorb b (hd false s).
Proof.
  intros Hs. destruct s as [|t r]; [cbn in Hs; lia|]. cbn [step hd].
  assert (Hl : length (r ++ [false]) = length g) by (rewrite app_length; cbn in *; lia).
  destruct (xorb b t); [rewrite last_xor by auto; rewrite Hlast|]; rewrite last_app_one; auto.
Qed.

Lemma step_inj s t b : length s = length g -> length t = length g -> step g s b = step g t b -> s = t.
Proof.
  intros Hs Ht H. pose proof (step_last s b Hs) as E1. pose proof (step_last t b Ht) as E2. rewrite H, E2 in E1.
  destruct s as [|x s], t as [|y t]; cbn [length] in *; try lia. cbn [hd] in E1.
  assert (x = y) by (destruct b, x, y; cbn in *; congruence). subst y. f_equal. cbn [step] in H.
  assert (Hl : length (s ++ [false]) = length g /\ length (t ++ [false]) = length g) by (rewrite !app_length; cbn; lia). destruct Hl.
  destruct (xorb b x).
  - apply xor_cancel in H; auto. apply app_inj_tail in H. tauto.
  - apply app_inj_tail in H. tauto.
Qed.

Lemma run_inj m : forall s t, length s = length g -> length t = length g -> run g s m = run g t m -> s = t.
Proof.
  induction m as [|b m IH]; intros s t Hs Ht H; auto. cbn in H. apply IH in H; rewrite ?step_length; auto. eapply step_inj; eauto.
Qed.

Lemma run_burst s m m' : length s = length g -> burst (length g) m m' -> run g s m <> run g s m'.
Proof.
  intros Hs (a & e & e' & c & -> & -> & Hl & Hw & Hne) H. rewrite !run_app in H.
  apply run_inj in H; try (rewrite !run_length; auto; fail). set (t := run g s a) in *.
  assert (Ht : length t = length g) by (unfold t; rewrite run_length; auto).
  rewrite (run_absorb g e), (run_absorb g e') in H by lia. rewrite Hl in H. apply run_inj in H; try (rewrite xor_length; auto; fail).
  apply Hne. clear -H Hl Hw Ht. assert (Hw' : (length e <= length t)%nat) by lia. clear Hw Ht. revert e e' H Hl Hw'. clearbody t.
  induction t as [|x t IH]; intros [|y e] [|z e'] H Hl Hw; cbn in *; auto; try lia.
  inversion H. f_equal; [destruct x, y, z; cbn in *; congruence|]. apply IH; auto; lia.
Qed.

(* Odd numbers of errors, when x + 1 divides the generator. *)
Fixpoint parity (l : list bool) : bool := match l with [] => false | b :: r => xorb b (parity r) end.
Hypothesis Hpar : parity g = true.

Lemma parity_app a b : parity (a ++ b) = xorb (parity a) (parity b).
Proof. induction a; cbn; [destruct (parity b); auto|]. rewrite IHa, xorb_assoc. auto. Qed.

Lemma parity_xor a : forall b, length a = length b -> parity (xor_onto a b) = xorb (parity a) (parity b).
Proof. induction a as [|x a IH]; intros [|y b] H; cbn in *; auto; try discriminate. rewrite IH by lia. destruct x, y, (parity a), (parity b); auto. Qed.

Lemma step_parity s b : length s = length g -> parity (step g s b) = xorb (parity s) b.
Proof.
  intros Hs. destruct s as [|t r]; [cbn in Hs; lia|]. cbn [step parity].
  assert (Hl : length (r ++ [false]) = length g) by (rewrite app_length; cbn in *; lia).
  destruct (xorb b t) eqn:E; [rewrite parity_xor by auto; rewrite Hpar|]; rewrite parity_app; cbn; destruct b, t, (parity r); cbn in *; congruence.
Qed.

Lemma run_parity m : forall s, length s = length g -> parity (run g s m) = xorb (parity s) (parity m).
Proof.
  induction m as [|b m IH]; intros s Hs; cbn; [destruct (parity s); auto|].
  change (fold_left (step g) m ?s) with (run g s m). rewrite IH by (rewrite step_length; auto). rewrite step_parity by auto. rewrite xorb_assoc. auto.
Qed.

Lemma flips_parity m : forall m', length m = length m' -> xorb (parity m) (parity m') = Nat.odd (flips m m').
Proof.
  induction m as [|b m IH]; intros [|c m'] H; cbn [length] in *; try discriminate; auto. cbn [parity flips].
  replace (xorb (xorb b (parity m)) (xorb c (parity m'))) with (xorb (xorb b c) (xorb (parity m) (parity m'))) by (destruct b, c, (parity m), (parity m'); auto).
  rewrite IH by lia. destruct (xorb b c).
  - rewrite Nat.add_1_l, Nat.odd_succ, <- Nat.negb_odd. destruct (Nat.odd _); auto.
  - cbn [Nat.add]. apply xorb_false_l.
Qed.

Lemma run_odd s m m' : length s = length g -> length m = length m' -> Nat.odd (flips m m') = true -> run g s m <> run g s m'.
Proof.
  intros Hs Hl Ho H. apply (f_equal parity) in H. rewrite !run_parity in H by auto. rewrite <- flips_parity in Ho by auto.
  destruct (parity s), (parity m), (parity m'); cbn in *; congruence.
Qed.
End Detect.
