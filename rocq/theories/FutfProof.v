(* FatFs characters: proofs. *)
From Verif Require Import Base Finite CrcSpec CatProof FutfModel FutfSpec.
Open Scope Z_scope.
Ltac Zify.zify_post_hook ::= Z.div_mod_to_equations.

Lemma byte_all f : allb 8 f 0 = true -> forall b, byte b -> f b = true.
Proof. intros H b Hb. apply (allb0 8 f H). exact Hb. Qed.

Definition lead_arith (b : Z) : option (Z * nat) :=
  if (192 <=? b) && (b <? 224) then Some (b - 192, 1%nat)
  else if (224 <=? b) && (b <? 240) then Some (b - 224, 2%nat)
  else if (240 <=? b) && (b <? 248) then Some (b - 240, 3%nat) else None.

Lemma lead_ok b : byte b -> (Z.land b 128 =? 0) = (b <? 128) /\ leading b = lead_arith b /\
  (Z.land b 192 =? 128) = ((128 <=? b) && (b <? 192)) /\ Z.land b 63 = b mod 64.
Proof.
  intros Hb.
  pose proof (byte_all (fun b => Bool.eqb (Z.land b 128 =? 0) (b <? 128) &&
    match leading b, lead_arith b with
    | Some (x, n), Some (y, m) => (x =? y) && (n =? m)%nat | None, None => true | _, _ => false end &&
    Bool.eqb (Z.land b 192 =? 128) ((128 <=? b) && (b <? 192))) ltac:(vm_compute; reflexivity) b Hb) as H.
  cbv beta in H. rewrite !andb_true_iff in H. destruct H as [[H1 H2] H3].
  apply eqb_prop in H1, H3. split; [exact H1|]. split; [|split; [exact H3|]].
  - destruct (leading b) as [[x n]|], (lead_arith b) as [[y m]|]; try discriminate; [|reflexivity].
    rewrite andb_true_iff in H2. destruct H2 as [A B]. apply Z.eqb_eq in A. apply Nat.eqb_eq in B. congruence.
  - change 63 with (Z.ones 6). now rewrite Z.land_ones by lia.
Qed.

Lemma push6 uc b : 0 <= uc < 67108864 -> byte b -> w32 (Z.lor (Z.shiftl uc 6) (Z.land b 63)) = uc * 64 + b mod 64.
Proof.
  intros Hu Hb. destruct (lead_ok b Hb) as (_ & _ & _ & ->).
  rewrite Z.shiftl_mul_pow2 by lia. change (2 ^ 6) with 64.
  replace (Z.lor (uc * 64) (b mod 64)) with (uc * 64 + b mod 64).
  - unfold w32. apply Z.mod_small. lia.
  - symmetry. change 64 with (2 ^ 6). apply lor_low; [lia|]. change (2 ^ 6) with 64. lia.
Qed.

(* --- decoding --- *)

Definition tail_byte (b : Z) : Prop := 128 <= b < 192.
Definition value (uc : Z) (f : list Z) : Z := fold_left (fun a b => a * 64 + (b - 128)) f uc.

Lemma trailing_step k uc b p : tail_byte b -> 0 <= uc < 67108864 -> trailing (S k) uc (b :: p) = trailing k (uc * 64 + (b - 128)) p.
Proof.
  unfold tail_byte. intros Hb Hu. cbn [trailing next bind]. assert (Bb : byte b) by (unfold byte; lia).
  destruct (lead_ok b Bb) as (_ & _ & Hc & _). rewrite Hc.
  replace ((128 <=? b) && (b <? 192)) with true by lia. cbn [negb]. rewrite push6 by auto. f_equal. lia.
Qed.

Lemma trailing_any n : forall uc p, 0 <= uc -> (uc + 1) * 64 ^ Z.of_nat n <= 4294967296 -> Forall byte p -> In 0 p ->
  exists o, trailing n uc p = Ok o /\
    match o with None => True | Some (v, r) => exists f, p = f ++ r /\ length f = n /\ Forall tail_byte f /\ v = value uc f end.
Proof.
  induction n as [|n IH]; intros uc p Hu Hm B I.
  - exists (Some (uc, p)). split; [reflexivity|]. exists []. auto.
  - destruct p as [|b p]; [destruct I|]. inversion B; subst. destruct (lead_ok b H1) as (_ & _ & Hc & _).
    rewrite Nat2Z.inj_succ, Z.pow_succ_r in Hm by lia.
    assert (1 <= 64 ^ Z.of_nat n) by (apply (Z.pow_le_mono_r 64 0); lia).
    destruct ((128 <=? b) && (b <? 192)) eqn:Q.
    + assert (Tb : tail_byte b) by (unfold tail_byte; lia). rewrite trailing_step by (auto; nia).
      destruct (IH (uc * 64 + (b - 128)) p) as (o & E & F); [unfold tail_byte in Tb; lia| |auto|destruct I; [lia|auto]|].
      { unfold tail_byte in Tb. nia. }
      exists o. split; [exact E|]. destruct o as [[v r]|]; [|auto]. destruct F as (f & -> & L & T & V).
      exists (b :: f). split; [reflexivity|]. split; [cbn; lia|]. split; [constructor; auto|]. exact V.
    + exists None. split; [|auto]. cbn [trailing next bind]. rewrite Hc. reflexivity.
Qed.

Lemma lor_lowk k a b : 0 <= k -> 0 <= a -> 0 <= b < 2 ^ k -> Z.lor (a * 2 ^ k) b = a * 2 ^ k + b.
Proof.
  intros K A B. assert (L0 : Z.land (a * 2 ^ k) b = 0); [|now rewrite Z.add_nocarry_lxor, Z.lxor_lor by exact L0].
  apply Z.bits_inj_0. intros n. rewrite Z.land_spec. rewrite <- Z.shiftl_mul_pow2 by lia.
  destruct (Z_lt_le_dec n k).
  - destruct (Z_lt_le_dec n 0); [rewrite Z.testbit_neg_r by lia; reflexivity|]. rewrite Z.shiftl_spec_low by lia. reflexivity.
  - destruct (Z.eq_dec b 0) as [->|]; [rewrite Z.bits_0; apply Bool.andb_false_r|].
    rewrite (Z.bits_above_log2 b n); [apply Bool.andb_false_r | lia|]. apply Z.log2_lt_pow2; [lia|].
    assert (2 ^ k <= 2 ^ n) by (apply Z.pow_le_mono_r; lia). lia.
Qed.

Lemma high_part h l : 0 <= h < 1024 -> 0 <= l < 1024 ->
  Z.land (w32 (Z.shiftl (h * 1024 + l) 6)) 67043328 = h * 65536 /\ Z.lor 3623934976 (h * 65536) = 3623934976 + h * 65536.
Proof.
  intros Hh Hl. change 1024 with (2 ^ Z.of_nat 10) in Hh, Hl.
  pose proof (allb0 10 (fun h => (Z.land (h * 65536) 67043328 =? h * 65536) && (Z.lor 3623934976 (h * 65536) =? 3623934976 + h * 65536))
    ltac:(vm_compute; reflexivity) h Hh) as A.
  pose proof (allb0 10 (fun l => (Z.land (l * 64) 67043328 =? 0)) ltac:(vm_compute; reflexivity) l Hl) as B.
  change (2 ^ Z.of_nat 10) with 1024 in Hh, Hl. cbv beta in A, B. apply andb_true_iff in A. destruct A as [A1 A2].
  apply Z.eqb_eq in A1, A2, B. split; [|exact A2].
  rewrite Z.shiftl_mul_pow2 by lia. change (2 ^ 6) with 64. unfold w32. rewrite Z.mod_small by lia.
  replace ((h * 1024 + l) * 64) with (h * 2 ^ 16 + l * 64) by lia. rewrite <- lor_lowk by (change (2 ^ 16) with 65536; lia).
  rewrite Z.land_lor_distr_l. change (2 ^ 16) with 65536. rewrite A1, B. apply Z.lor_0_r.
Qed.

Lemma pair_ok c : 0 <= c < 1114112 -> to_pair c = utf16_of c.
Proof.
  intros Hc. unfold to_pair, utf16_of. destruct (65536 <=? c) eqn:Q.
  - replace (c <? 65536) with false by lia. set (v := c - 65536).
    destruct (high_part (v / 1024) (v mod 1024)) as [E1 E2]; [subst v; lia|lia|].
    replace (v / 1024 * 1024 + v mod 1024) with v in E1 by lia. rewrite E1, E2.
    change 1023 with (Z.ones 10). rewrite Z.land_ones by lia. change (2 ^ 10) with 1024.
    replace (c mod 1024) with (v mod 1024) by (subst v; lia).
    replace (3623934976 + v / 1024 * 65536) with ((3538999 + v / 1024 * 64) * 2 ^ 10) by (change (2 ^ 10) with 1024; lia).
    rewrite lor_lowk by (change (2 ^ 10) with 1024; subst v; lia). change (2 ^ 10) with 1024. lia.
  - now replace (c <? 65536) with true by lia.
Qed.

Lemma wrong_value v : ((v <? 128) || is_surrogate v || (1114112 <=? v)) = true \/ (128 <= v /\ scalar v /\
  ((v <? 128) || is_surrogate v || (1114112 <=? v)) = false).
Proof. unfold scalar, is_surrogate. lia. Qed.

Lemma decode_any l : Forall byte l -> In 0 l -> exists o r, tchar2uni l = Ok (o, r) /\
  match o with
  | None => r = l
  | Some u => exists c f, scalar c /\ u = utf16_of c /\ l = f ++ r /\ (f = utf8_of c \/ overlong f c)
  end.
Proof.
  intros B I. destruct l as [|b p]; [destruct I|]. inversion B; subst.
  unfold tchar2uni. cbn [next bind]. destruct (lead_ok b H1) as (E1 & E2 & _ & _). rewrite E1, E2.
  destruct (b <? 128) eqn:Q.
  { exists (Some b), p. split; [reflexivity|]. unfold byte in H1. exists b, [b].
    unfold scalar, utf16_of, utf8_of, utf8_count. rewrite Q. replace (b <? 65536) with true by lia.
    split; [lia|]. auto. }
  assert (I' : In 0 p) by (destruct I; [lia|auto]). unfold lead_arith.
  assert (Run : forall x n, 0 <= x -> (x + 1) * 64 ^ Z.of_nat n <= 4294967296 ->
    (forall f, length f = n -> Forall tail_byte f -> 128 <= value x f ->
       exists m, utf8_count (value x f) <= m <= 4 /\ b :: f = utf8_form m (value x f)) ->
    exists o r, (t <- trailing n x p ;; match t with
        | None => Ok (None, b :: p)
        | Some (uc, q) => if (uc <? 128) || is_surrogate uc || (1114112 <=? uc) then Ok (None, b :: p) else Ok (Some (to_pair uc), q)
        end) = Ok (o, r) /\
      match o with None => r = b :: p
      | Some u => exists c f, scalar c /\ u = utf16_of c /\ b :: p = f ++ r /\ (f = utf8_of c \/ overlong f c) end).
  { intros x n Hx Hm HF. destruct (trailing_any n x p Hx Hm H2 I') as (o & E & F). rewrite E. cbn [bind].
    destruct o as [[v r]|]; [|exists None, (b :: p); auto]. destruct F as (f & -> & L & T & V).
    destruct (wrong_value v) as [W|(W1 & W2 & W)]; rewrite W; [exists None, (b :: f ++ r); auto|].
    exists (Some (to_pair v)), r. split; [reflexivity|]. exists v. exists (b :: f). split; [exact W2|].
    split; [apply pair_ok; unfold scalar in W2; lia|]. split; [reflexivity|]. subst v.
    destruct (HF f L T W1) as (m & M1 & M2). destruct (Z.eq_dec m (utf8_count (value x f))) as [->|N].
    - left. exact M2.
    - right. exists m. auto with zarith. }
  unfold byte in H1. destruct ((192 <=? b) && (b <? 224)) eqn:Q2; [|destruct ((224 <=? b) && (b <? 240)) eqn:Q3;
    [|destruct ((240 <=? b) && (b <? 248)) eqn:Q4]].
  - apply Run; [lia|change (64 ^ Z.of_nat 1) with 64; lia|]. intros f L T V. exists 2.
    destruct f as [|b1 [|]]; try discriminate. inversion T; subst. unfold tail_byte in *. unfold value in *. cbn [fold_left] in *.
    unfold utf8_count, utf8_form. cbn [Z.eqb]. change (2 =? 1) with false. change (2 =? 2) with true. cbv iota.
    split; [repeat match goal with |- context [?a <? ?b] => destruct (Z.ltb_spec a b) end; lia|]. f_equal; [lia|f_equal; lia].
  - apply Run; [lia|change (64 ^ Z.of_nat 2) with 4096; lia|]. intros f L T V. exists 3.
    destruct f as [|b1 [|b2 [|]]]; try discriminate. inversion T; subst. inversion H4; subst. unfold tail_byte in *. unfold value in *. cbn [fold_left] in *.
    unfold utf8_count, utf8_form. change (3 =? 1) with false. change (3 =? 2) with false. change (3 =? 3) with true. cbv iota.
    split; [repeat match goal with |- context [?a <? ?b] => destruct (Z.ltb_spec a b) end; lia|].
    f_equal; [lia|f_equal; [lia|f_equal; lia]].
  - apply Run; [lia|change (64 ^ Z.of_nat 3) with 262144; lia|]. intros f L T V. exists 4.
    destruct f as [|b1 [|b2 [|b3 [|]]]]; try discriminate. inversion T; subst. inversion H4; subst. inversion H6; subst. unfold tail_byte in *. unfold value in *. cbn [fold_left] in *.
    unfold utf8_count, utf8_form. change (4 =? 1) with false. change (4 =? 2) with false. change (4 =? 3) with false. cbv iota.
    split; [repeat match goal with |- context [?a <? ?b] => destruct (Z.ltb_spec a b) end; lia|].
    f_equal; [lia|f_equal; [lia|f_equal; [lia|f_equal; lia]]].
  - exists None, (b :: p). auto.
Qed.

Lemma decode_form n c r : scalar c -> 128 <= c -> utf8_count c <= n <= 4 -> tchar2uni (utf8_form n c ++ r) = Ok (Some (utf16_of c), r).
Proof.
  intros Hs Hc Hn. rewrite <- (pair_ok c) by (unfold scalar in Hs; lia).
  assert (W : ((c <? 128) || is_surrogate c || (1114112 <=? c)) = false) by (unfold scalar, is_surrogate in *; lia).
  assert (Hn' : n = 2 \/ n = 3 \/ n = 4).
  { unfold utf8_count in Hn. destruct (c <? 128); [lia|]. destruct (c <? 2048); [lia|]. destruct (c <? 65536); lia. }
  assert (Hf : (n = 2 -> c < 2048) /\ (n = 3 -> c < 65536)).
  { unfold utf8_count in Hn. destruct (c <? 128) eqn:R1; [lia|]. destruct (c <? 2048) eqn:R2; [lia|]. destruct (c <? 65536) eqn:R3; lia. }
  assert (Hm : c < 1114112) by (unfold scalar in Hs; lia). clear Hs.
  unfold utf8_form. destruct Hn' as [->|[->| ->]]; destruct Hf as [F1 F2].
  - change (2 =? 1) with false. change (2 =? 2) with true. cbv iota. specialize (F1 eq_refl). cbn [app].
    unfold tchar2uni. cbn [next bind]. destruct (lead_ok (192 + c / 64) ltac:(unfold byte; lia)) as (-> & -> & _).
    replace (192 + c / 64 <? 128) with false by lia. unfold lead_arith.
    replace ((192 <=? 192 + c / 64) && (192 + c / 64 <? 224)) with true by lia. cbv iota.
    rewrite trailing_step by (unfold tail_byte; lia). cbn [trailing bind].
    replace ((192 + c / 64 - 192) * 64 + (128 + c mod 64 - 128)) with c by lia. rewrite W. reflexivity.
  - change (3 =? 1) with false. change (3 =? 2) with false. change (3 =? 3) with true. cbv iota. specialize (F2 eq_refl). cbn [app].
    unfold tchar2uni. cbn [next bind]. destruct (lead_ok (224 + c / 4096) ltac:(unfold byte; lia)) as (-> & -> & _).
    replace (224 + c / 4096 <? 128) with false by lia. unfold lead_arith.
    replace ((192 <=? 224 + c / 4096) && (224 + c / 4096 <? 224)) with false by lia.
    replace ((224 <=? 224 + c / 4096) && (224 + c / 4096 <? 240)) with true by lia. cbv iota.
    rewrite !trailing_step by (unfold tail_byte; lia). cbn [trailing bind].
    replace (((224 + c / 4096 - 224) * 64 + (128 + c / 64 mod 64 - 128)) * 64 + (128 + c mod 64 - 128)) with c by lia. rewrite W. reflexivity.
  - change (4 =? 1) with false. change (4 =? 2) with false. change (4 =? 3) with false. cbv iota. cbn [app].
    unfold tchar2uni. cbn [next bind]. destruct (lead_ok (240 + c / 262144) ltac:(unfold byte; lia)) as (-> & -> & _).
    replace (240 + c / 262144 <? 128) with false by lia. unfold lead_arith.
    replace ((192 <=? 240 + c / 262144) && (240 + c / 262144 <? 224)) with false by lia.
    replace ((224 <=? 240 + c / 262144) && (240 + c / 262144 <? 240)) with false by lia.
    replace ((240 <=? 240 + c / 262144) && (240 + c / 262144 <? 248)) with true by lia. cbv iota.
    rewrite !trailing_step by (unfold tail_byte; lia). cbn [trailing bind].
    replace ((((240 + c / 262144 - 240) * 64 + (128 + c / 4096 mod 64 - 128)) * 64 + (128 + c / 64 mod 64 - 128)) * 64 + (128 + c mod 64 - 128)) with c by lia. rewrite W. reflexivity.
Qed.

Lemma decode_ok c r : scalar c -> tchar2uni (utf8_of c ++ r) = Ok (Some (utf16_of c), r).
Proof.
  intros Hs. destruct (Z_lt_le_dec c 128) as [H|H].
  - unfold utf8_of, utf8_count. replace (c <? 128) with true by lia. cbn [app].
    change (utf8_form 1 c) with [c]. cbn [app]. unfold tchar2uni. cbn [next bind].
    assert (0 <= c) by (unfold scalar in Hs; lia).
    destruct (lead_ok c ltac:(unfold byte; lia)) as (-> & _). replace (c <? 128) with true by lia.
    unfold utf16_of. replace (c <? 65536) with true by lia. reflexivity.
  - apply decode_form; auto. unfold utf8_count. destruct (c <? 128), (c <? 2048), (c <? 65536); lia.
Qed.

(* --- encoding --- *)

Lemma low6 x : Z.lor 128 (Z.land x 63) = 128 + x mod 64.
Proof.
  change 63 with (Z.ones 6). rewrite Z.land_ones by lia. change (2 ^ 6) with 64.
  change 128 with (2 * 2 ^ 6) at 1. rewrite lor_lowk by (change (2 ^ 6) with 64; lia). change (2 ^ 6) with 64. lia.
Qed.
Lemma top5 x : Z.lor 192 (Z.land x 31) = 192 + x mod 32.
Proof.
  change 31 with (Z.ones 5). rewrite Z.land_ones by lia. change (2 ^ 5) with 32.
  change 192 with (6 * 2 ^ 5) at 1. rewrite lor_lowk by (change (2 ^ 5) with 32; lia). change (2 ^ 5) with 32. lia.
Qed.
Lemma top4 x : Z.lor 224 (Z.land x 15) = 224 + x mod 16.
Proof.
  change 15 with (Z.ones 4). rewrite Z.land_ones by lia. change (2 ^ 4) with 16.
  change 224 with (14 * 2 ^ 4) at 1. rewrite lor_lowk by (change (2 ^ 4) with 16; lia). change (2 ^ 4) with 16. lia.
Qed.
Lemma top3 x : Z.lor 240 (Z.land x 7) = 240 + x mod 8.
Proof.
  change 7 with (Z.ones 3). rewrite Z.land_ones by lia. change (2 ^ 3) with 8.
  change 240 with (30 * 2 ^ 3) at 1. rewrite lor_lowk by (change (2 ^ 3) with 8; lia). change (2 ^ 3) with 8. lia.
Qed.

(* The code as units. *)
Lemma split_units x : 0 <= x < 4294967296 -> Z.land x 4294901760 = x / 65536 * 65536 /\ Z.land x 65535 = x mod 65536.
Proof.
  intros Hx. split.
  - replace 4294901760 with (Z.ldiff (Z.ones 32) (Z.ones 16)) by reflexivity.
    replace (Z.land x (Z.ldiff (Z.ones 32) (Z.ones 16))) with (Z.ldiff (Z.land x (Z.ones 32)) (Z.ones 16)).
    + rewrite Z.land_ones by lia. rewrite Z.ldiff_ones_r by lia. rewrite Z.shiftl_mul_pow2, Z.shiftr_div_pow2 by lia.
      change (2 ^ 16) with 65536. change (2 ^ 32) with 4294967296. rewrite Z.mod_small by lia. reflexivity.
    + apply Z.bits_inj'. intros n Hn. rewrite Z.ldiff_spec, !Z.land_spec, Z.ldiff_spec. now rewrite Bool.andb_assoc.
  - change 65535 with (Z.ones 16). rewrite Z.land_ones by lia. reflexivity.
Qed.

Lemma encode_any u n : 0 <= u < 4294967296 -> 0 <= n ->
  (exists c, scalar c /\ u = utf16_of c /\ put_utf u n = (if n <? utf8_count c then [] else utf8_of c)) \/
  ((forall c, scalar c -> u <> utf16_of c) /\ put_utf u n = []).
Proof.
  intros Hu Hn. unfold put_utf.
  destruct (Z.ltb_spec u 128).
  { left. exists u. unfold scalar, utf16_of, utf8_of, utf8_count. replace (u <? 65536) with true by lia.
    replace (u <? 128) with true by lia. split; [lia|]. split; [reflexivity|]. reflexivity. }
  destruct (Z.ltb_spec u 2048).
  { left. exists u. unfold scalar, utf16_of, utf8_of, utf8_count. replace (u <? 65536) with true by lia.
    replace (u <? 128) with false by lia. replace (u <? 2048) with true by lia. split; [lia|]. split; [reflexivity|].
    rewrite low6, top5, Z.shiftr_div_pow2 by lia. change (2 ^ 6) with 64.
    destruct (n <? 2); [reflexivity|]. change (utf8_form 2 u) with [192 + u / 64; 128 + u mod 64]. f_equal. lia. }
  destruct (Z.ltb_spec u 65536).
  { destruct (is_surrogate u) eqn:S.
    - right. rewrite Bool.orb_true_r. split; [|reflexivity]. intros c Hc E. unfold is_surrogate in S. unfold scalar, utf16_of in *.
      destruct (Z.ltb_spec c 65536); lia.
    - left. exists u. unfold is_surrogate in S. unfold scalar, utf16_of, utf8_of, utf8_count. replace (u <? 65536) with true by lia.
      replace (u <? 128) with false by lia. replace (u <? 2048) with false by lia. split; [lia|]. split; [reflexivity|].
      rewrite !low6, top4, !Z.shiftr_div_pow2 by lia. change (2 ^ 6) with 64. change (2 ^ 12) with 4096. rewrite Bool.orb_false_r.
      destruct (n <? 3); [reflexivity|]. change (utf8_form 3 u) with [224 + u / 4096; 128 + u / 64 mod 64; 128 + u mod 64]. f_equal. lia. }
  destruct (split_units u Hu) as [-> ->].
  rewrite Z.shiftr_div_pow2 by lia. change (2 ^ 6) with 64. unfold w32.
  set (hi := u / 65536). set (lo := u mod 65536).
  assert (Hh : 1 <= hi < 65536) by (subst hi; lia). assert (Hl : 0 <= lo < 65536) by (subst lo; lia).
  destruct ((1048576 <=? (hi * 65536 - 3623878656) mod 4294967296 / 64) || (1024 <=? (lo - 56320) mod 4294967296)) eqn:W.
  - right. split; [|destruct (n <? 4); reflexivity]. intros c Hc E. unfold scalar, utf16_of in *.
    destruct (Z.ltb_spec c 65536); [lia|].
    assert (hi = 55296 + (c - 65536) / 1024 /\ lo = 56320 + (c - 65536) mod 1024) by (subst hi lo; lia). lia.
  - left. assert (D1 : 55296 <= hi < 56320) by lia. assert (D2 : 56320 <= lo < 57344) by lia.
    exists ((hi - 55296) * 1024 + (lo - 56320) + 65536).
    replace ((hi * 65536 - 3623878656) mod 4294967296 / 64) with ((hi - 55296) * 2 ^ 10) by (change (2 ^ 10) with 1024; lia).
    replace ((lo - 56320) mod 4294967296) with (lo - 56320) by lia.
    rewrite lor_lowk by (change (2 ^ 10) with 1024; lia). change (2 ^ 10) with 1024.
    set (c := (hi - 55296) * 1024 + (lo - 56320) + 65536). assert (Rc : 65536 <= c < 1114112) by (subst c; lia).
    rewrite (Z.mod_small c) by lia. unfold scalar, utf16_of, utf8_of, utf8_count.
    replace (c <? 65536) with false by lia. replace (c <? 128) with false by lia. replace (c <? 2048) with false by lia.
    split; [lia|]. split; [subst c hi lo; lia|].
    rewrite !low6, top3, !Z.shiftr_div_pow2 by lia. change (2 ^ 6) with 64. change (2 ^ 12) with 4096. change (2 ^ 18) with 262144.
    destruct (n <? 4); [reflexivity|]. change (utf8_form 4 c) with [240 + c / 262144; 128 + c / 4096 mod 64; 128 + c / 64 mod 64; 128 + c mod 64].
    f_equal. lia.
Qed.

Lemma utf16_inj c d : scalar c -> scalar d -> utf16_of c = utf16_of d -> c = d.
Proof. unfold scalar, utf16_of. intros. destruct (Z.ltb_spec c 65536), (Z.ltb_spec d 65536); lia. Qed.
Lemma utf16_range c : scalar c -> 0 <= utf16_of c < 4294967296.
Proof. unfold scalar, utf16_of. intros. destruct (Z.ltb_spec c 65536); lia. Qed.

Lemma encode_ok c n : scalar c -> 0 <= n -> put_utf (utf16_of c) n = if n <? utf8_count c then [] else utf8_of c.
Proof.
  intros Hc Hn. destruct (encode_any (utf16_of c) n (utf16_range c Hc) Hn) as [(d & Hd & E & P)|(N & _)].
  - apply utf16_inj in E; auto. subst d. exact P.
  - exfalso. eapply N; eauto.
Qed.
Lemma utf8_len' c : 0 <= c -> Z.of_nat (length (utf8_of c)) = utf8_count c /\ 1 <= utf8_count c <= 4.
Proof.
  intros. unfold utf8_of, utf8_count. destruct (c <? 128), (c <? 2048), (c <? 65536); split; try reflexivity; lia.
Qed.
Lemma utf8_of_bytes c : scalar c -> Forall byte (utf8_of c).
Proof.
  unfold scalar, utf8_of, utf8_count, byte. intros.
  destruct (Z.ltb_spec c 128); [|destruct (Z.ltb_spec c 2048); [|destruct (Z.ltb_spec c 65536)]].
  all: unfold utf8_form; cbn; repeat (apply Forall_cons; [lia|]); apply Forall_nil.
Qed.
Lemma utf8_of_nz c : scalar c -> c <> 0 -> Forall (fun b => b <> 0) (utf8_of c).
Proof.
  unfold scalar, utf8_of, utf8_count. intros.
  destruct (Z.ltb_spec c 128); [|destruct (Z.ltb_spec c 2048); [|destruct (Z.ltb_spec c 65536)]].
  all: unfold utf8_form; cbn; repeat (apply Forall_cons; [lia|]); apply Forall_nil.
Qed.

(* --- upper case --- *)

Lemma upper_ok c : 0 <= c < 65536 -> ff_wtoupper c = Ok (upper c) /\ 0 <= upper c < 65536 /\ upper (upper c) = upper c /\
  (128 <= c -> 128 <= upper c) /\ (c < 128 -> upper c = if (97 <=? c) && (c <=? 122) then c - 32 else c) /\
  is_surrogate (upper c) = is_surrogate c.
Proof.
  intros Hc.
  pose proof (allb0 16 (fun c => match ff_wtoupper c with
    | Ok u => (0 <=? u) && (u <? 65536) && (if u =? c then true else upper u =? u) &&
      (if c <? 128 then u =? (if (97 <=? c) && (c <=? 122) then c - 32 else c) else 128 <=? u) &&
      Bool.eqb (is_surrogate u) (is_surrogate c)
    | _ => false end) ltac:(vm_cast_no_check (eq_refl true)) c Hc) as H.
  cbv beta in H. destruct (ff_wtoupper c) as [u| |] eqn:E; try discriminate.
  assert (U : upper c = u) by (unfold upper; rewrite E; reflexivity). rewrite !U.
  rewrite !andb_true_iff in H. destruct H as [[[[H1 H2] H3] H4] H5].
  split; [reflexivity|]. split; [lia|].
  split; [destruct (u =? c) eqn:Q; [apply Z.eqb_eq in Q; subst u; exact U|apply Z.eqb_eq in H3; exact H3]|].
  split; [intros; replace (c <? 128) with false in H4 by lia; lia|].
  split; [intros Hs; replace (c <? 128) with true in H4 by lia; apply Z.eqb_eq in H4; exact H4|now apply eqb_prop].
Qed.
Lemma upper_pair c : 65536 <= c -> ff_wtoupper c = Ok c /\ upper c = c.
Proof. intros. unfold upper, ff_wtoupper. replace (c <? 65536) with false by lia. auto. Qed.
Lemma overlong_accepted : exists f g r, f <> g /\ tchar2uni (f ++ r) = tchar2uni (g ++ r) /\ g = utf8_of 169.
Proof. exists [224; 130; 169], [194; 169], [0]. split; [discriminate|]. split; reflexivity. Qed.
