From Verif Require Import Base Arr DotwModel DotwSpec.
From Coq Require Import Wf_nat.
Open Scope Z_scope.
Local Ltac Zify.zify_post_hook ::= Z.div_mod_to_equations.

Definition fy (y : Z) : Z := y + y / 4 - y / 100 + y / 400.

Lemma fy_step y : fy y - fy (y - 1) = if leap y then 2 else 1.
Proof.
  unfold fy, leap. destruct (Z.eqb_spec (y mod 4) 0), (Z.eqb_spec (y mod 100) 0), (Z.eqb_spec (y mod 400) 0); cbn [andb orb negb]; lia.
Qed.

Definition off (m : Z) : Z := nth (Z.to_nat (m - 1)) offset 0.
Definition formula (t : date) : Z :=
  fy (if month t <? 3 then year t - 1 else year t) + off (month t) + day t.

Lemma off_range m : 1 <= m <= 12 -> nth_error offset (Z.to_nat (m - 1)) = Some (off m) /\ 0 <= off m <= 6.
Proof.
  intros H. assert (C : m = 1 \/ m = 2 \/ m = 3 \/ m = 4 \/ m = 5 \/ m = 6 \/ m = 7 \/ m = 8 \/ m = 9 \/ m = 10 \/ m = 11 \/ m = 12) by lia.
  repeat (destruct C as [-> | C]; [split; [reflexivity|vm_compute; split; discriminate]|]). subst. split; [reflexivity|vm_compute; split; discriminate].
Qed.

Lemma int_ok x : INT_MIN <= x <= INT_MAX -> int_of x = Ok x.
Proof. intros H. unfold int_of. rewrite (proj2 (Z.leb_le _ _)), (proj2 (Z.leb_le _ _)) by lia. auto. Qed.

Lemma month_days_range y m : 28 <= month_days y m <= 31.
Proof. unfold month_days. destruct (m =? 2), (leap y), ((m =? 4) || (m =? 6) || (m =? 9) || (m =? 11)); lia. Qed.

Lemma dotw_formula t : valid t -> year t <= 1000000000 ->
  fpm_get_dotw (year t) (month t) (day t) = Ok (formula t mod 7).
Proof.
  intros (Hy & Hm & Hd) Hb. pose proof (month_days_range (year t) (month t)). destruct (off_range (month t) Hm) as [Ho Ho'].
  unfold fpm_get_dotw, formula, fy. set (y := if month t <? 3 then year t - 1 else year t).
  assert (Hy' : 0 <= y <= 1000000000) by (unfold y; destruct (month t <? 3); lia).
  assert (B : forall x, -2147483648 <= x <= 2147483647 -> int_of x = Ok x) by (intros; apply int_ok; unfold INT_MIN, INT_MAX; lia).
  rewrite B by lia. cbn [bind]. rewrite !Z.quot_div_nonneg by lia.
  rewrite B by lia. cbn [bind]. rewrite B by lia. cbn [bind]. rewrite B by lia. cbn [bind].
  rewrite (proj2 (Z.leb_le 1 (month t))), (proj2 (Z.leb_le (month t) 12)) by lia. cbn [andb]. rewrite Ho. cbn [bind].
  rewrite B by lia. cbn [bind]. rewrite B by lia. cbn [bind]. rewrite Z.rem_mod_nonneg by lia. auto.
Qed.

Lemma valid_tomorrow t : valid t -> valid (tomorrow t).
Proof.
  intros (Hy & Hm & Hd). unfold tomorrow. pose proof (month_days_range (year t) (month t + 1)).
  destruct (Z.ltb_spec (day t) (month_days (year t) (month t))).
  - repeat split; cbn; lia.
  - destruct (Z.ltb_spec (month t) 12).
    + repeat split; cbn; lia.
    + pose proof (month_days_range (year t + 1) 1). repeat split; cbn; lia.
Qed.

Ltac consts := repeat match goal with
  | |- context [?a =? ?b] => let v := eval vm_compute in (a =? b) in change (a =? b) with v
  | |- context [?a <? ?b] => let v := eval vm_compute in (a <? b) in change (a <? b) with v
  | |- context [off ?a] => let v := eval vm_compute in (off a) in change (off a) with v
  end.

Lemma formula_tomorrow t : valid t -> formula (tomorrow t) mod 7 = (formula t + 1) mod 7.
Proof.
  intros (Hy & Hm & Hd). unfold tomorrow. destruct (Z.ltb_spec (day t) (month_days (year t) (month t))) as [H | H].
  - unfold formula. cbn [year month day]. f_equal. lia.
  - assert (He : day t = month_days (year t) (month t)) by lia. clear H Hd.
    unfold formula. rewrite He. pose proof (fy_step (year t)) as F. clear He. destruct t as [y m d]. cbn [year month day] in *.
    assert (C : m = 1 \/ m = 2 \/ m = 3 \/ m = 4 \/ m = 5 \/ m = 6 \/ m = 7 \/ m = 8 \/ m = 9 \/ m = 10 \/ m = 11 \/ m = 12) by lia.
    unfold month_days.
    destruct C as [-> | [-> | [-> | [-> | [-> | [-> | [-> | [-> | [-> | [-> | [-> | ->]]]]]]]]]]]; consts; cbn [year month day orb]; consts; replace (y + 1 - 1) with y by lia.
    all: try (f_equal; lia).
    all: destruct (leap y); lia.
Qed.

Lemma day_valid n : valid (day_after n) /\ formula (day_after n) mod 7 = weekday n.
Proof.
  unfold day_after, weekday. induction n as [|n [IH1 IH2]].
  - split; [repeat split; discriminate|reflexivity].
  - change (Nat.iter (S n) tomorrow epoch) with (tomorrow (Nat.iter n tomorrow epoch)). split; [apply valid_tomorrow; auto|]. rewrite formula_tomorrow by auto. rewrite Zplus_mod, IH2. lia.
Qed.

Lemma dotw_day n : year (day_after n) <= 1000000000 ->
  fpm_get_dotw (year (day_after n)) (month (day_after n)) (day (day_after n)) = Ok (weekday n).
Proof. intros H. destruct (day_valid n) as [H1 H2]. rewrite dotw_formula by auto. rewrite H2. auto. Qed.

(* Every valid date is reached: by the number of days since the epoch. *)
Definition reach (t : date) : Prop := exists n, day_after n = t.

Lemma reach_next t : reach t -> reach (tomorrow t).
Proof. intros [n <-]. exists (S n). auto. Qed.

Lemma reach_day y m : reach (Date y m 1) -> forall k, Z.of_nat k < month_days y m -> reach (Date y m (1 + Z.of_nat k)).
Proof.
  intros H. induction k as [|k IH]; intros Hk; [auto|]. specialize (IH ltac:(lia)). apply reach_next in IH.
  unfold tomorrow in IH. cbn [year month day] in IH. destruct (Z.ltb_spec (1 + Z.of_nat k) (month_days y m)); [|lia].
  replace (1 + Z.of_nat (S k)) with (1 + Z.of_nat k + 1) by lia. auto.
Qed.

Lemma reach_last y m : reach (Date y m 1) -> reach (Date y m (month_days y m)).
Proof.
  intros H. pose proof (month_days_range y m). replace (month_days y m) with (1 + Z.of_nat (Z.to_nat (month_days y m - 1))) by lia.
  apply reach_day; [auto|lia].
Qed.

Lemma reach_month y : reach (Date y 1 1) -> forall k, Z.of_nat k < 12 -> reach (Date y (1 + Z.of_nat k) 1).
Proof.
  intros H. induction k as [|k IH]; intros Hk; [auto|]. specialize (IH ltac:(lia)). apply reach_last, reach_next in IH.
  unfold tomorrow in IH. cbn [year month day] in IH. destruct (Z.ltb_spec (month_days y (1 + Z.of_nat k)) (month_days y (1 + Z.of_nat k))); [lia|].
  destruct (Z.ltb_spec (1 + Z.of_nat k) 12); [|lia]. replace (1 + Z.of_nat (S k)) with (1 + Z.of_nat k + 1) by lia. auto.
Qed.

Lemma reach_year k : reach (Date (1 + Z.of_nat k) 1 1).
Proof.
  induction k as [|k IH]; [exists O; reflexivity|]. apply reach_month with (k := 11%nat) in IH; [|lia].
  apply reach_last, reach_next in IH. unfold tomorrow in IH. cbn [year month day] in IH. rewrite Z.ltb_irrefl in IH.
  change (1 + Z.of_nat 11 <? 12) with false in IH. cbn iota in IH. replace (1 + Z.of_nat (S k)) with (1 + Z.of_nat k + 1) by lia. auto.
Qed.

Lemma reach_all t : valid t -> reach t.
Proof.
  destruct t as [y m d]. intros (Hy & Hm & Hd). cbn [year month day] in *.
  pose proof (reach_year (Z.to_nat (y - 1))) as H. replace (1 + Z.of_nat (Z.to_nat (y - 1))) with y in H by lia.
  apply reach_month with (k := Z.to_nat (m - 1)) in H; [|lia]. replace (1 + Z.of_nat (Z.to_nat (m - 1))) with m in H by lia.
  apply reach_day with (k := Z.to_nat (d - 1)) in H; [|lia]. replace (1 + Z.of_nat (Z.to_nat (d - 1))) with d in H by lia. auto.
Qed.

Lemma dotw_all t : valid t -> year t <= 1000000000 ->
  exists n, day_after n = t /\ fpm_get_dotw (year t) (month t) (day t) = Ok (weekday n).
Proof. intros H Hy. destruct (reach_all t H) as [n <-]. exists n. split; [auto|]. apply dotw_day. auto. Qed.
