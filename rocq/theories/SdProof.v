(* Proofs about the SD card driver: registers and bus conversations. *)
From Verif Require Import Base CrcModel CrcSpec CrcProof CatProof DiskModel DiskProof SdModel SdSpec.
Open Scope Z_scope.
Ltac Zify.zify_post_hook ::= Z.div_mod_to_equations.

(* --- registers --- *)

Lemma register_acc l : forall a, fold_left (fun a b => a * 256 + b) l a = a * 256 ^ Z.of_nat (length l) + register l.
Proof.
  induction l as [|b l IH]; intros a; unfold register; cbn [fold_left length].
  - change (Z.of_nat 0) with 0. rewrite Z.pow_0_r. lia.
  - rewrite IH. rewrite (IH (0 * 256 + b)). rewrite Nat2Z.inj_succ, Z.pow_succ_r by lia. nia.
Qed.

Lemma register_cons b l : register (b :: l) = b * 256 ^ Z.of_nat (length l) + register l.
Proof. unfold register at 1. cbn [fold_left]. rewrite register_acc. f_equal. Qed.

Lemma register_range l : Forall byte l -> 0 <= register l < 256 ^ Z.of_nat (length l).
Proof.
  induction 1 as [|b l Hb Hl IH].
  - cbn. change (Z.of_nat 0) with 0. rewrite Z.pow_0_r. unfold register. cbn. lia.
  - rewrite register_cons. cbn [length]. rewrite Nat2Z.inj_succ, Z.pow_succ_r by lia.
    unfold byte in Hb. nia.
Qed.

(* bit p of the register is bit p mod 8 of byte 15 - p / 8 *)
Lemma register_bit l : Forall byte l -> forall p, 0 <= p < 8 * Z.of_nat (length l) ->
  Z.testbit (register l) p = Z.testbit (nth (length l - 1 - Z.to_nat (p / 8)) l 0) (p mod 8).
Proof.
  induction 1 as [|b l Hb Hl IH]; intros p Hp; cbn [length] in *; [lia|].
  rewrite register_cons. pose proof (register_range l Hl) as R.
  set (n := Z.of_nat (length l)) in *.
  assert (P : 256 ^ n = 2 ^ (8 * n)) by (change 256 with (2 ^ 8); rewrite <- Z.pow_mul_r by lia; reflexivity).
  rewrite P in *.
  assert (E : b * 2 ^ (8 * n) + register l = Z.lor (Z.shiftl b (8 * n)) (register l)).
  { assert (D : Z.land (Z.shiftl b (8 * n)) (register l) = 0).
    { apply Z.bits_inj'; intros k Hk; rewrite Z.land_spec, Z.bits_0.
      destruct (Z_lt_dec k (8 * n)).
      - rewrite Z.shiftl_spec_low by lia; reflexivity.
      - rewrite <- (Z.mod_small (register l) (2 ^ (8 * n))), Z.mod_pow2_bits_high by lia; apply andb_false_r. }
    rewrite <- Z.lxor_lor, <- Z.add_nocarry_lxor by exact D. rewrite Z.shiftl_mul_pow2 by lia. reflexivity. }
  rewrite E, Z.lor_spec.
  destruct (Z_lt_dec p (8 * n)).
  - rewrite Z.shiftl_spec_low by lia. cbn [orb]. rewrite IH by lia.
    replace (S (length l) - 1 - Z.to_nat (p / 8))%nat with (S (length l - 1 - Z.to_nat (p / 8))) by lia.
    reflexivity.
  - rewrite Z.shiftl_spec by lia.
    rewrite <- (Z.mod_small (register l) (2 ^ (8 * n))), Z.mod_pow2_bits_high by lia. rewrite orb_false_r.
    replace (S (length l) - 1 - Z.to_nat (p / 8))%nat with 0%nat by lia. cbn [nth].
    f_equal. lia.
Qed.

Lemma land1_testbit x n : 0 <= n -> Z.land (Z.shiftr x n) 1 = Z.b2z (Z.testbit x n).
Proof.
  intros. change 1 with (Z.ones 1) at 1. rewrite Z.land_ones by lia. change (2 ^ 1) with 2.
  rewrite <- Z.bit0_mod. rewrite Z.shiftr_spec by lia. reflexivity.
Qed.

Lemma ext_loop_bits data lsb n : 0 <= lsb -> forall i, 0 <= i ->
  Z.testbit (ext_loop data lsb n) i =
  (i <? Z.of_nat n) && Z.testbit (nth (Z.to_nat (15 - (lsb + i) / 8)) data 0) ((lsb + i) mod 8).
Proof.
  intros Hl. induction n as [|k IH]; intros i Hi; cbn [ext_loop].
  - rewrite Z.bits_0. replace (i <? Z.of_nat 0) with false by lia. reflexivity.
  - rewrite Z.lor_spec, IH by auto. clear IH.
    set (pos := lsb + Z.of_nat k).
    assert (L7 : Z.land pos 7 = pos mod 8) by (change 7 with (Z.ones 3); apply Z.land_ones; lia).
    assert (S3 : Z.shiftr pos 3 = pos / 8) by (apply Z.shiftr_div_pow2; lia).
    rewrite L7, S3. rewrite land1_testbit by lia.
    destruct (Z.eq_dec i (Z.of_nat k)) as [->|Ne].
    + replace (Z.of_nat k <? Z.of_nat k) with false by lia. cbn [andb orb].
      rewrite Z.shiftl_spec by lia. rewrite Z.sub_diag. rewrite Z.b2z_bit0.
      replace (Z.of_nat k <? Z.of_nat (S k)) with true by lia. reflexivity.
    + replace (Z.testbit (Z.shiftl _ (Z.of_nat k)) i) with false.
      * rewrite orb_false_r. f_equal. lia.
      * symmetry. destruct (Z_lt_dec i (Z.of_nat k)); [apply Z.shiftl_spec_low; lia|].
        rewrite Z.shiftl_spec by lia.
        destruct (Z.testbit (nth (Z.to_nat (15 - pos / 8)) data 0) (pos mod 8)); cbn [Z.b2z];
        [|apply Z.bits_0]. change 1 with (2 ^ 0). apply Z.pow2_bits_false. lia.
Qed.

Lemma field_bits r hi lo i : 0 <= r -> 0 <= lo <= hi -> 0 <= i ->
  Z.testbit (field r hi lo) i = (i <? hi - lo + 1) && Z.testbit r (lo + i).
Proof.
  intros Hr Hl Hi. unfold field. destruct (i <? hi - lo + 1) eqn:E; cbn [andb].
  - rewrite Z.mod_pow2_bits_low by lia. rewrite Z.div_pow2_bits by lia. f_equal; lia.
  - apply Z.mod_pow2_bits_high; lia.
Qed.

Lemma field_range r hi lo : 0 <= lo <= hi -> 0 <= field r hi lo < 2 ^ (hi - lo + 1).
Proof. intros. unfold field. apply Z.mod_pos_bound. apply Z.pow_pos_nonneg; lia. Qed.

Lemma ext_bits_ok data msb lsb : reg16 data -> 0 <= lsb <= msb -> msb <= 127 -> msb - lsb < 32 ->
  ext_bits data msb lsb = field (register data) msb lsb.
Proof.
  intros [L B] Hl Hm Hs. pose proof (register_range data B) as R.
  assert (E : ext_loop data lsb (Z.to_nat (1 + msb - lsb)) = field (register data) msb lsb).
  { apply Z.bits_inj'. intros i Hi. rewrite ext_loop_bits, field_bits by lia.
    replace (Z.of_nat (Z.to_nat (1 + msb - lsb))) with (msb - lsb + 1) by lia.
    destruct (i <? msb - lsb + 1) eqn:Q; cbn [andb]; [|reflexivity].
    rewrite register_bit by (auto; rewrite L; lia). rewrite L. do 2 f_equal. lia. }
  unfold ext_bits. rewrite E. apply u32_id. pose proof (field_range (register data) msb lsb ltac:(lia)).
  assert (2 ^ (msb - lsb + 1) <= 2 ^ 32) by (apply Z.pow_le_mono_r; lia).
  change (2 ^ 32) with 4294967296 in *. lia.
Qed.

Lemma pow2_bound e n : 0 <= e <= n -> 0 < 2 ^ e <= 2 ^ n.
Proof. intros. split; [apply Z.pow_pos_nonneg; lia|apply Z.pow_le_mono_r; lia]. Qed.

Lemma csd_sectors_ok csd : reg16 csd ->
  ~ (field (register csd) 127 126 = 1 /\ field (register csd) 69 48 = 4194303) ->
  csd_sectors csd = capacity_sectors (register csd).
Proof.
  intros R N. unfold csd_sectors, capacity_sectors. rewrite !ext_bits_ok by (auto; lia).
  destruct (field (register csd) 127 126 =? 0).
  - pose proof (field_range (register csd) 73 62 ltac:(lia)) as F1.
    pose proof (field_range (register csd) 49 47 ltac:(lia)) as F2.
    pose proof (field_range (register csd) 83 80 ltac:(lia)) as F3.
    set (a := field _ 73 62) in *. set (b := field _ 49 47) in *. set (c := field _ 83 80) in *.
    change (2 ^ (73 - 62 + 1)) with 4096 in F1. change (2 ^ (49 - 47 + 1)) with 8 in F2.
    change (2 ^ (83 - 80 + 1)) with 16 in F3.
    rewrite !Z.shiftl_1_l.
    pose proof (pow2_bound (b + 2) 9 ltac:(lia)) as P1. pose proof (pow2_bound c 15 ltac:(lia)) as P2.
    change (2 ^ 9) with 512 in P1. change (2 ^ 15) with 32768 in P2.
    rewrite !u32_id by (try rewrite u32_id by lia; nia). reflexivity.
  - destruct (field (register csd) 127 126 =? 1) eqn:E1; [|reflexivity].
    apply Z.eqb_eq in E1.
    pose proof (field_range (register csd) 69 48 ltac:(lia)) as F1.
    set (a := field _ 69 48) in *. change (2 ^ (69 - 48 + 1)) with 4194304 in F1.
    assert (a <> 4194303) by (intro; apply N; auto).
    rewrite Z.shiftl_mul_pow2 by lia. change (2 ^ 10) with 1024.
    rewrite !u32_id by (try rewrite u32_id by lia; lia). reflexivity.
Qed.

Lemma csd_sectors_2tb csd : reg16 csd -> field (register csd) 127 126 = 1 -> field (register csd) 69 48 = 4194303 ->
  csd_sectors csd = 0.
Proof.
  intros R E1 E2. unfold csd_sectors. rewrite !ext_bits_ok by (auto; lia). rewrite E1, E2. reflexivity.
Qed.

Lemma byte_fields cid i : reg16 cid -> 0 <= i < 16 -> field (register cid) (127 - 8 * i) (120 - 8 * i) = nth (Z.to_nat i) cid 0.
Proof.
  intros [L B] Hi.
  assert (Bi : byte (nth (Z.to_nat i) cid 0)) by (apply Forall_nth; [exact B|lia]).
  unfold byte in Bi. pose proof (register_range cid B) as R.
  apply Z.bits_inj'. intros k Hk. rewrite field_bits by lia.
  destruct (k <? 127 - 8 * i - (120 - 8 * i) + 1) eqn:Q; cbn [andb].
  - rewrite register_bit by (auto; lia). rewrite L. f_equal; [|lia]. f_equal. lia.
  - symmetry. change 256 with (2 ^ 8) in Bi.
    rewrite <- (Z.mod_small (nth (Z.to_nat i) cid 0) (2 ^ 8)) by lia. apply Z.mod_pow2_bits_high. lia.
Qed.
