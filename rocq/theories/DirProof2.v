From Coq Require Import String.
From Verif Require Import Base Arr ArrLemmas DotwModel DirModel DirSpec.
Open Scope Z_scope.
Ltac Zify.zify_post_hook ::= Z.div_mod_to_equations.

(* --- decimal digits --- *)

Lemma dl_acc k : forall n acc, digits_loop k n acc = digits_loop k n [] ++ acc.
Proof.
  induction k as [|k IH]; intros n acc; [reflexivity|]. cbn [digits_loop]. cbv zeta.
  destruct (n / 10 =? 0); [reflexivity|].
  rewrite IH, (IH _ [_]), <- app_assoc. reflexivity.
Qed.

Lemma dl_step k m d : 0 < m -> 0 <= d < 10 -> digits_loop (S k) (10 * m + d) [] = digits_loop k m [] ++ [48 + d].
Proof.
  intros M D. cbn [digits_loop]. cbv zeta.
  replace ((10 * m + d) / 10) with m by lia. replace ((10 * m + d) mod 10) with d by lia.
  replace (m =? 0) with false by lia. apply dl_acc.
Qed.

Lemma dl_small k d : 0 <= d < 10 -> digits_loop (S k) d [] = [48 + d].
Proof. intros D. cbn [digits_loop]. cbv zeta. replace (d / 10) with 0 by lia. replace (d mod 10) with d by lia. reflexivity. Qed.

Lemma dl_fuel k : forall n, 0 <= n < 10 ^ Z.of_nat (S k) -> digits_loop (S (S k)) n [] = digits_loop (S k) n [].
Proof.
  induction k as [|k IH]; intros n B.
  - change (10 ^ Z.of_nat 1) with 10 in B. rewrite !dl_small by lia. reflexivity.
  - destruct (Z_lt_le_dec n 10); [rewrite !dl_small by lia; reflexivity|].
    rewrite (Nat2Z.inj_succ (S k)), Z.pow_succ_r in B by lia.
    replace n with (10 * (n / 10) + n mod 10) by lia. rewrite !dl_step by lia. rewrite IH by lia. reflexivity.
Qed.

Definition LIM : Z := 10 ^ 19 * 2.   (* > 2^64 *)

Lemma digits_step m d : 0 < m -> 0 <= d < 10 -> 10 * m + d < 10 ^ 20 -> digits (10 * m + d) = digits m ++ [48 + d].
Proof.
  intros M D B. unfold digits. rewrite dl_step by auto. rewrite (dl_fuel 18) by (change (Z.of_nat 19) with 19; lia). reflexivity.
Qed.
Lemma digits_small d : 0 <= d < 10 -> digits d = [48 + d].
Proof. intros. unfold digits. now apply dl_small. Qed.

Lemma value_app a b : value (a ++ [b]) = 10 * value a + (b - 48).
Proof. unfold value. now rewrite fold_left_app. Qed.

Lemma digits_ne k : forall n, digits_loop (S k) n [] <> [].
Proof.
  intros n. cbn [digits_loop]. cbv zeta. destruct (n / 10 =? 0); [discriminate|]. rewrite dl_acc.
  destruct (digits_loop k (n / 10) []); discriminate.
Qed.

Lemma dl_number k : forall n, 0 <= n < 10 ^ Z.of_nat (S k) -> number (digits_loop (S k) n []) n.
Proof.
  unfold number. induction k as [|k IH]; intros n B.
  - change (10 ^ Z.of_nat 1) with 10 in B. rewrite dl_small by lia. repeat split.
    + constructor; [lia | constructor].
    + unfold value. cbn [fold_left]. lia.
    + discriminate.
    + cbn. intros ->. reflexivity.
  - destruct (Z_lt_le_dec n 10).
    + rewrite dl_small by lia. repeat split.
      * constructor; [lia | constructor].
      * unfold value. cbn [fold_left]. lia.
      * discriminate.
      * cbn. intros ->. reflexivity.
    + rewrite (Nat2Z.inj_succ (S k)), Z.pow_succ_r in B by lia.
      replace n with (10 * (n / 10) + n mod 10) at 1 2 4 5 6 by lia. rewrite !dl_step by lia.
      destruct (IH (n / 10)) as (F & V & N & Hd); [lia|].
      set (ds := digits_loop (S k) (n / 10) []) in *. repeat split.
      * apply Forall_app. split; [exact F|]. constructor; [lia|constructor].
      * rewrite value_app, V. lia.
      * destruct ds; discriminate.
      * destruct ds as [|x ds]; [contradiction|]. cbn. intros E. cbn in Hd. specialize (Hd E). injection Hd as -> ->.
        unfold value in V. cbn [fold_left] in V. lia.
Qed.

Lemma digits_number n : 0 <= n < 10 ^ 20 -> number (digits n) n.
Proof. intros. now apply dl_number. Qed.

(* number is a function of the value *)
Lemma value_bound ds : Forall (fun d => 48 <= d <= 57) ds -> 0 <= value ds.
Proof.
  induction ds as [|b a IH] using rev_ind; intros F; [unfold value; cbn; lia|]. rewrite value_app.
  apply Forall_app in F as (F & G). inversion G; subst. specialize (IH F). lia.
Qed.

Lemma number_unique a : forall b n, number a n -> number b n -> a = b.
Proof.
  induction a as [|x a IH] using rev_ind; intros b n (Fa & Va & Na & Ha) (Fb & Vb & Nb & Hb); [contradiction|].
  destruct b as [|y b _] using rev_ind; [contradiction|]. clear Na Nb.
  rewrite value_app in Va, Vb. apply Forall_app in Fa as (Fa & Fx). apply Forall_app in Fb as (Fb & Fy).
  inversion Fx as [|? ? Bx _]; subst. inversion Fy as [|? ? By _]; subst.
  assert (E : x = y /\ value a = value b) by lia. destruct E as (-> & V). f_equal.
  assert (Z0 : forall c d, Forall (fun d => 48 <= d <= 57) c -> value c = 0 -> (hd 0 (c ++ [d]) = 48 -> c ++ [d] = [48]) -> c = []).
  { intros c d Fc Vc Hc. destruct c as [|c0 c]; [reflexivity|]. exfalso. cbn in Hc.
    assert (G : forall c v, Forall (fun d => 48 <= d <= 57) c -> 0 <= v -> v <= fold_left (fun v d => 10 * v + (d - 48)) c v).
    { clear. induction c as [|c0 c IH]; intros v F V; cbn [fold_left]; [lia|]. inversion F; subst. apply Z.le_trans with (10 * v + (c0 - 48)); [lia|]. apply IH; [assumption | lia]. }
    inversion Fc; subst. unfold value in Vc. cbn [fold_left] in Vc. specialize (G c (10 * 0 + (c0 - 48))).
    assert (c0 = 48) by (specialize (G H2); lia). subst. specialize (Hc eq_refl). destruct c; discriminate. }
  destruct (list_eq_dec Z.eq_dec a []) as [->|Ha'].
  { symmetry. apply (Z0 b y); auto. }
  destruct (list_eq_dec Z.eq_dec b []) as [->|Hb'].
  { apply (Z0 a y); auto. }
  apply (IH b (value b)).
  - repeat split; auto. intros E. destruct a as [|a0 a]; [contradiction|]. cbn in Ha, E. specialize (Ha E). destruct a; discriminate.
  - repeat split; auto. intros E. destruct b as [|b0 b]; [contradiction|]. cbn in Hb, E. specialize (Hb E). destruct b; discriminate.
Qed.

(* three digits *)
Definition dig3 (d : Z) : list Z := [48 + d / 100; 48 + d / 10 mod 10; 48 + d mod 10].

Lemma dig3_ok d : 0 <= d < 1000 -> pad_left 48 3 (digits d) = dig3 d.
Proof.
  intros B. unfold pad_left, dig3.
  destruct (Z_lt_le_dec d 10).
  { rewrite digits_small by lia. cbn. replace (d / 100) with 0 by lia. replace (d / 10 mod 10) with 0 by lia. replace (d mod 10) with d by lia. reflexivity. }
  replace d with (10 * (d / 10) + d mod 10) at 1 2 by lia. rewrite digits_step by lia.
  destruct (Z_lt_le_dec d 100).
  { rewrite digits_small by lia. cbn. replace (d / 100) with 0 by lia. replace (d / 10 mod 10) with (d / 10) by lia. reflexivity. }
  replace (d / 10) with (10 * (d / 100) + d / 10 mod 10) at 1 2 by lia. rewrite digits_step by lia. rewrite digits_small by lia. reflexivity.
Qed.

Lemma digits_1000 m d : 0 < m -> 0 <= d < 1000 -> 1000 * m + d < 10 ^ 20 -> digits (1000 * m + d) = digits m ++ dig3 d.
Proof.
  intros M D B. replace (1000 * m + d) with (10 * (10 * (10 * m + d / 100) + d / 10 mod 10) + d mod 10) by lia.
  rewrite !digits_step by lia. rewrite <- !app_assoc. reflexivity.
Qed.

(* --- groups --- *)

Fixpoint groups (k : nat) (n2 : Z) : list Z :=
  match k with O => [] | S k => [44] ++ dig3 (n2 / 1000 ^ Z.of_nat k) ++ groups k (n2 mod 1000 ^ Z.of_nat k) end.

Lemma pow1000 k : 1000 ^ Z.of_nat (S k) = 1000 * 1000 ^ Z.of_nat k.
Proof. rewrite Nat2Z.inj_succ, Z.pow_succ_r by lia. reflexivity. Qed.

Lemma groups_end k : forall n2, 0 <= n2 < 1000 ^ Z.of_nat (S k) -> groups (S k) n2 = groups k (n2 / 1000) ++ [44] ++ dig3 (n2 mod 1000).
Proof.
  induction k as [|k IH]; intros n2 B.
  - change (1000 ^ Z.of_nat 1) with 1000 in B. cbn [groups]. change (1000 ^ Z.of_nat 0) with 1. rewrite Z.div_1_r, app_nil_r, (Z.mod_small n2 1000) by lia. reflexivity.
  - remember (S k) as k1 eqn:Ek. cbn [groups]. subst k1. rewrite IH.
    2: { apply Z.mod_pos_bound. lia. }
    cbn [groups]. rewrite <- !app_assoc. rewrite pow1000. set (P := 1000 ^ Z.of_nat k) in *.
    assert (0 < P) by (subst P; lia).
    replace (n2 / 1000 / P) with (n2 / (1000 * P)) by (rewrite Z.div_div; lia).
    replace (n2 mod (1000 * P) / 1000) with (n2 / 1000 mod P).
    2: { rewrite Z.rem_mul_r by lia. rewrite Z.mul_comm, Z.div_add by lia. replace (n2 mod 1000 / 1000) with 0 by lia. reflexivity. }
    replace (n2 mod (1000 * P) mod 1000) with (n2 mod 1000).
    2: { rewrite Z.rem_mul_r by lia. rewrite Z.mul_comm, Z.mod_add by lia. rewrite Z.mod_mod by lia. reflexivity. }
    reflexivity.
Qed.

Lemma commas_last3 ds a b c : ds <> [] -> rev (commas (rev (ds ++ [a; b; c]))) = rev (commas (rev ds)) ++ [44; a; b; c].
Proof.
  intros N. rewrite rev_app_distr. cbn [rev app].
  assert (rev ds <> []) by (intros E; apply N; rewrite <- (rev_involutive ds), E; reflexivity).
  destruct (rev ds) as [|x r] eqn:E; [contradiction|].
  change (commas (c :: b :: a :: x :: r)) with (c :: b :: a :: 44 :: commas (x :: r)).
  cbn [rev]. rewrite <- !app_assoc. reflexivity.
Qed.

Lemma small_group n : 0 <= n < 1000 -> rev (commas (rev (digits n))) = digits n.
Proof.
  intros B. destruct (Z_lt_le_dec n 10); [rewrite digits_small by lia; reflexivity|].
  replace n with (10 * (n / 10) + n mod 10) by lia. rewrite digits_step by lia.
  destruct (Z_lt_le_dec n 100); [rewrite digits_small by lia; reflexivity|].
  replace (n / 10) with (10 * (n / 100) + n / 10 mod 10) by lia. rewrite digits_step by lia.
  rewrite digits_small by lia. reflexivity.
Qed.

Lemma grouping k : forall n n2, (k = O \/ 0 < n) -> 0 <= n < 1000 -> 0 <= n2 < 1000 ^ Z.of_nat k -> n * 1000 ^ Z.of_nat k + n2 < 10 ^ 20 ->
  digits n ++ groups k n2 = rev (commas (rev (digits (n * 1000 ^ Z.of_nat k + n2)))).
Proof.
  induction k as [|k IH]; intros n n2 N B B2 L.
  - change (1000 ^ Z.of_nat 0) with 1 in *. cbn [groups]. rewrite app_nil_r. replace (n * 1 + n2) with n by lia. symmetry. now apply small_group.
  - destruct N as [N|N]; [discriminate|]. rewrite groups_end by exact B2. rewrite pow1000 in *. set (P := 1000 ^ Z.of_nat k) in *.
    assert (0 < P) by (subst P; lia).
    replace (n * (1000 * P) + n2) with (1000 * (n * P + n2 / 1000) + n2 mod 1000) by lia.
    assert (0 < n * P) by nia.
    rewrite digits_1000 by lia. unfold dig3. rewrite commas_last3 by (apply digits_ne). rewrite app_assoc. rewrite IH by (try lia; auto). reflexivity.
Qed.

(* --- print_size --- *)

Definition wrap32 (w : Z) : Z := w mod 2 ^ 32.

(* [k] groups of three after the first. *)
Definition top (k : nat) (n : Z) : Prop := n / 1000 ^ Z.of_nat k < 1000 /\ (k = O \/ 0 < n / 1000 ^ Z.of_nat k).

Lemma size_split_ok fuel : forall n0 k n n2 w, (length (repeat tt (S k)) + fuel = 9)%nat -> 0 <= n0 < 2 ^ 64 -> n = n0 / 1000 ^ Z.of_nat k -> n2 = n0 mod 1000 ^ Z.of_nat k ->
  (k = O \/ 0 < n) -> n < 1000 ^ Z.of_nat fuel ->
  exists k', size_split fuel n n2 (1000 ^ Z.of_nat k) (wrap32 (w - 4 * Z.of_nat k)) =
     Ok (n0 / 1000 ^ Z.of_nat k', n0 mod 1000 ^ Z.of_nat k', 1000 ^ Z.of_nat k', wrap32 (w - 4 * Z.of_nat k')) /\ top k' n0 /\ (k' < 8)%nat.
Proof.
  induction fuel as [|fuel IH]; intros n0 k n n2 w K B En En2 N F.
  { change (1000 ^ Z.of_nat 0) with 1 in F. rewrite repeat_length in K. assert (k = 8)%nat by lia. subst k. destruct N; [discriminate|lia]. }
  rewrite repeat_length in K. cbn [size_split]. destruct (Z.ltb_spec n 1000) as [H|H].
  { exists k. subst. split; [reflexivity|]. split; [split; auto|]. lia. }
  rewrite pow1000 in F.
  assert (P0 : 0 < 1000 ^ Z.of_nat k) by lia.
  assert (Ps : 1000 ^ Z.of_nat (S k) < 2 ^ 64).
  { assert (K7 : (k <= 7)%nat) by lia. rewrite pow1000.
    assert (1000 ^ Z.of_nat k * 1000 <= n0) by nia. lia. }
  rewrite pow1000 in Ps.
  specialize (IH n0 (S k) (n / 1000) (n0 mod 1000 ^ Z.of_nat (S k)) w).
  destruct IH as (k' & E & T & L).
  - rewrite repeat_length. lia.
  - lia.
  - rewrite pow1000. subst n. rewrite Z.div_div by lia. f_equal. lia.
  - reflexivity.
  - right. lia.
  - lia.
  - exists k'. split; [|auto]. rewrite <- E. f_equal.
    + rewrite pow1000. subst n n2. rewrite (Z.mul_comm 1000 (1000 ^ _)), (Z.rem_mul_r n0 (1000 ^ Z.of_nat k) 1000) by lia.
      rewrite Z.mod_small; [reflexivity|].
      pose proof (Z.mod_pos_bound n0 (1000 ^ Z.of_nat k) P0). pose proof (Z.mod_pos_bound (n0 / 1000 ^ Z.of_nat k) 1000 ltac:(lia)). nia.
    + rewrite pow1000, Z.mul_comm. apply Z.mod_small. lia.
    + unfold wrap32. rewrite Zminus_mod_idemp_l. f_equal. lia.
Qed.

Lemma size_groups_ok k : forall fuel n2, (k < fuel)%nat -> 0 <= n2 < 1000 ^ Z.of_nat k -> size_groups fuel n2 (1000 ^ Z.of_nat k) = Ok (groups k n2).
Proof.
  induction k as [|k IH]; intros [|fuel] n2 F B; try lia; cbn [size_groups groups].
  - reflexivity.
  - rewrite pow1000 in *. set (P := 1000 ^ Z.of_nat k) in *. assert (0 < P) by (subst P; lia).
    replace (1000 * P =? 1) with false by lia. cbv zeta. replace (1000 * P / 1000) with P by lia. replace (P =? 0) with false by lia.
    rewrite IH by (try lia; apply Z.mod_pos_bound; lia). cbn [bind].
    assert (Q : 0 <= n2 / P < 1000) by (split; [apply Z.div_pos; lia | apply Z.div_lt_upper_bound; lia]).
    rewrite (Z.mod_small (n2 / P)) by lia. rewrite dig3_ok by lia. reflexivity.
Qed.

Lemma groups_length k : forall n, length (groups k n) = (4 * k)%nat.
Proof. induction k as [|k IH]; intros n; [reflexivity|]. cbn [groups]. rewrite !app_length, IH. cbn [length dig3]. lia. Qed.

Lemma top_fun k k' n : 0 <= n -> top k n -> top k' n -> k = k'.
Proof.
  assert (G : forall k k', (k < k')%nat -> 0 <= n -> top k n -> top k' n -> False).
  { clear k k'. intros k k' L B (T & _) (_ & [U|U]); [lia|].
    assert (1000 * 1000 ^ Z.of_nat k <= 1000 ^ Z.of_nat k') by (rewrite <- pow1000; apply Z.pow_le_mono_r; lia).
    assert (0 < 1000 ^ Z.of_nat k) by lia. assert (0 < 1000 ^ Z.of_nat k') by lia.
    assert (1000 ^ Z.of_nat k' <= n) by nia.
    assert (n < 1000 * 1000 ^ Z.of_nat k) by nia. lia. }
  intros B T T'. destruct (Nat.lt_trichotomy k k') as [L|[->|L]]; [exfalso; eauto | reflexivity | exfalso; eauto].
Qed.

Lemma size_len_ok fuel : forall n0 k n, (S k + fuel = 9)%nat -> 0 <= n0 < 2 ^ 64 -> n = n0 / 1000 ^ Z.of_nat k -> (k = O \/ 0 < n) -> n < 1000 ^ Z.of_nat fuel ->
  exists k', size_len fuel n (4 * Z.of_nat k) = Ok (4 * Z.of_nat k' + Z.of_nat (length (digits (n0 / 1000 ^ Z.of_nat k')))) /\ top k' n0.
Proof.
  induction fuel as [|fuel IH]; intros n0 k n K B En N F.
  { change (1000 ^ Z.of_nat 0) with 1 in F. assert (k = 8)%nat by lia. subst k. destruct N; [discriminate|lia]. }
  cbn [size_len]. destruct (Z.ltb_spec n 1000) as [H|H].
  - exists k. rewrite <- En. split; [|split; subst; auto]. f_equal. f_equal.
    assert (0 <= n) by (subst; apply Z.div_pos; lia). clear - H H0.
    destruct (Z_lt_le_dec n 10). { rewrite digits_small by lia. replace (100 <=? n) with false by lia. replace (10 <=? n) with false by lia. reflexivity. }
    replace n with (10 * (n / 10) + n mod 10) at 3 by lia. rewrite digits_step by lia. rewrite app_length.
    destruct (Z_lt_le_dec n 100). { rewrite digits_small by lia. replace (100 <=? n) with false by lia. replace (10 <=? n) with true by lia. reflexivity. }
    replace (n / 10) with (10 * (n / 100) + n / 10 mod 10) by lia. rewrite digits_step by lia. rewrite app_length.
    rewrite digits_small by lia. replace (100 <=? n) with true by lia. reflexivity.
  - rewrite pow1000 in F. destruct (IH n0 (S k) (n / 1000)) as (k' & E & T); try lia.
    + rewrite pow1000. subst n. rewrite Z.div_div by lia. f_equal. lia.
    + exists k'. split; [|exact T]. rewrite <- E. f_equal. lia.
Qed.

Lemma fmt_ok w s : Z.of_nat (length s) <= w < 2 ^ 31 -> fmt_width (wrap32 w) s = repeat 32 (Z.to_nat (w - Z.of_nat (length s))) ++ s.
Proof.
  intros B. unfold fmt_width, wrap32, to_int, pad_left. rewrite Z.mod_mod, Z.mod_small by lia.
  replace (w <? 2 ^ 31) with true by lia. replace (w <? 0) with false by lia. reflexivity.
Qed.

(* The text of a size, and its length. *)
Theorem size_text n : 0 <= n < 2 ^ 64 ->
  exists s, grouped n s /\ size_len 8 n 0 = Ok (Z.of_nat (length s)) /\
    forall w, Z.of_nat (length s) <= w < 2 ^ 31 -> print_size n w = Ok (repeat 32 (Z.to_nat (w - Z.of_nat (length s))) ++ s).
Proof.
  intros B.
  destruct (size_len_ok 8 n 0 n) as (k & E & T); auto; try (change (1000 ^ Z.of_nat 0) with 1; rewrite Z.div_1_r; reflexivity).
  { change (Z.of_nat 8) with 8. lia. }
  set (P := 1000 ^ Z.of_nat k) in *. assert (0 < P) by (subst P; lia).
  assert (Q0 : 0 <= n / P) by (apply Z.div_pos; lia).
  exists (digits (n / P) ++ groups k (n mod P)). pose proof T as (T1 & T2). fold P in T1, T2.
  split; [|split].
  - exists (digits n). split; [apply digits_number; lia|]. 
    rewrite (grouping k) by (try (apply Z.mod_pos_bound; exact H); fold P; try lia; auto). fold P. do 4 f_equal. pose proof (Z.div_mod n P). lia.
  - change (4 * Z.of_nat 0) with 0 in E. rewrite E. rewrite app_length, groups_length. f_equal. lia.
  - intros w L. rewrite app_length, groups_length in *. unfold print_size.
    destruct (size_split_ok 8 n 0 n 0 w) as (k' & E' & T' & K'); auto; try (change (1000 ^ Z.of_nat 0) with 1; rewrite ?Z.div_1_r, ?Z.mod_1_r; reflexivity).
    { change (Z.of_nat 8) with 8. lia. }
    change (1000 ^ Z.of_nat 0) with 1 in E'. change (4 * Z.of_nat 0) with 0 in E'. rewrite Z.sub_0_r in E'.
    assert (W : wrap32 w = w) by (apply Z.mod_small; lia). rewrite W in E'. rewrite E'. cbn [bind].
    assert (k' = k) by (apply (top_fun k' k n); auto; lia). subst k'.
    rewrite (size_groups_ok k) by (auto; apply Z.mod_pos_bound; exact H). cbn [bind]. fold P.
    rewrite fmt_ok by lia. rewrite <- app_assoc. do 2 f_equal. f_equal. lia.
Qed.
