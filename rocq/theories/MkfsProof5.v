(* The fields of the boot record, of the FSINFO record and of the partition table. *)
From Verif Require Import Base FatModel MkfsModel MountModel MkfsProof MkfsProof3 MkfsProof4.
Open Scope Z_scope.

Lemma le2_val x : 0 <= x < 65536 -> w8 x + 256 * w8 (x / 256) = x.
Proof. unfold w8. intro H. lia. Qed.
Lemma le4_val x : 0 <= x < 4294967296 -> w8 x + 256 * w8 (x / 256) + 65536 * w8 (x / 65536) + 16777216 * w8 (x / 16777216) = x.
Proof. unfold w8. intro H. lia. Qed.



(* A byte of a record. *)
Ltac byte_of :=
  repeat (rewrite poke_out by (unfold le2, le4, msdos, no_name, fat_, fat32_; cbn [length app]; lia));
  first [reflexivity | rewrite poke_in by (unfold le2, le4, msdos, no_name, fat_, fat32_; cbn [length app]; lia); reflexivity].

Section fields.
Variable D : drive.
Variable b_vol sz_vol vsn : Z.
Variable l : layout.
Let v := vbr D b_vol sz_vol vsn l nil_buf.

Ltac fld := unfold v, vbr; cbv zeta; destruct (l_type l), (sz_vol <? 65536); byte_of.

Lemma v_jmp : v 0 = 235. Proof. fld. Qed.
Lemma v_jmp1 : v 1 = 254. Proof. fld. Qed.
Lemma v_ss0 : v 11 = w8 (d_ss D). Proof. fld. Qed.
Lemma v_ss1 : v 12 = w8 (d_ss D / 256). Proof. fld. Qed.
Lemma v_pau : v 13 = w8 (l_pau l). Proof. fld. Qed.
Lemma v_rsv0 : v 14 = w8 (l_rsv l). Proof. fld. Qed.
Lemma v_rsv1 : v 15 = w8 (l_rsv l / 256). Proof. fld. Qed.
Lemma v_nf : v 16 = 1. Proof. fld. Qed.
Lemma v_root : ld2 v 17 = match l_type l with FAT32 => 0 | _ => 512 end.
Proof. unfold ld2. change (17 + 1) with 18. unfold v, vbr; cbv zeta; destruct (l_type l), (sz_vol <? 65536);
  (match goal with |- ?a + 256 * ?b = ?c => assert (a = w8 c) as -> by byte_of; assert (b = w8 (c / 256)) as -> by byte_of end); reflexivity. Qed.
Lemma v_tot0 : v 19 = if sz_vol <? 65536 then w8 sz_vol else 0. Proof. fld. Qed.
Lemma v_tot1 : v 20 = if sz_vol <? 65536 then w8 (sz_vol / 256) else 0. Proof. fld. Qed.
Lemma v_tot32 i : 32 <= i < 36 -> v i = if sz_vol <? 65536 then 0 else nth (Z.to_nat (i - 32)) (le4 sz_vol) 0.
Proof.
  intro I. unfold v, vbr; cbv zeta; destruct (l_type l), (sz_vol <? 65536);
  repeat (rewrite poke_out by (unfold le2, le4, msdos, no_name, fat_, fat32_; cbn [length app]; lia));
  first [reflexivity | rewrite poke_in by (unfold le2, le4, msdos, no_name, fat_, fat32_; cbn [length app]; lia); reflexivity].
Qed.
Lemma v_fat0 : v 22 = match l_type l with FAT32 => 0 | _ => w8 (l_fat l) end. Proof. fld. Qed.
Lemma v_fat1 : v 23 = match l_type l with FAT32 => 0 | _ => w8 (l_fat l / 256) end. Proof. fld. Qed.
Lemma v_fat32 i : l_type l = FAT32 -> 36 <= i < 40 -> v i = nth (Z.to_nat (i - 36)) (le4 (l_fat l)) 0.
Proof.
  intros T I. unfold v, vbr; cbv zeta; rewrite T; destruct (sz_vol <? 65536);
  repeat (rewrite poke_out by (unfold le2, le4, msdos, no_name, fat_, fat32_; cbn [length app]; lia));
  rewrite poke_in by (unfold le2, le4, msdos, no_name, fat_, fat32_; cbn [length app]; lia); reflexivity.
Qed.
Lemma v_ver0 : l_type l = FAT32 -> v 42 = 0. Proof. intro T. unfold v, vbr; cbv zeta; rewrite T; destruct (sz_vol <? 65536); byte_of. Qed.
Lemma v_ver1 : l_type l = FAT32 -> v 43 = 0. Proof. intro T. unfold v, vbr; cbv zeta; rewrite T; destruct (sz_vol <? 65536); byte_of. Qed.
Lemma v_rclus i : l_type l = FAT32 -> 44 <= i < 48 -> v i = nth (Z.to_nat (i - 44)) (le4 2) 0.
Proof.
  intros T I. unfold v, vbr; cbv zeta; rewrite T; destruct (sz_vol <? 65536);
  repeat (rewrite poke_out by (unfold le2, le4, msdos, no_name, fat_, fat32_; cbn [length app]; lia));
  rewrite poke_in by (unfold le2, le4, msdos, no_name, fat_, fat32_; cbn [length app]; lia); reflexivity.
Qed.
Lemma v_fsi0 : l_type l = FAT32 -> v 48 = 1. Proof. intro T. unfold v, vbr; cbv zeta; rewrite T; destruct (sz_vol <? 65536); byte_of. Qed.
Lemma v_fsi1 : l_type l = FAT32 -> v 49 = 0. Proof. intro T. unfold v, vbr; cbv zeta; rewrite T; destruct (sz_vol <? 65536); byte_of. Qed.
Lemma v_name i : l_type l = FAT32 -> 82 <= i < 90 -> v i = nth (Z.to_nat (i - 82)) fat32_ 0.
Proof.
  intros T I. unfold v, vbr; cbv zeta; rewrite T; destruct (sz_vol <? 65536);
  repeat (rewrite poke_out by (unfold le2, le4, msdos, no_name, fat_, fat32_; cbn [length app]; lia));
  rewrite poke_in by (unfold le2, le4, msdos, no_name, fat_, fat32_; cbn [length app]; lia).
  all: replace (Z.to_nat (i - 71)) with (11 + Z.to_nat (i - 82))%nat by lia; reflexivity.
Qed.
Lemma v_name16 : l_type l <> FAT32 -> v 82 = 0.
Proof. intro T. unfold v, vbr; cbv zeta; destruct (l_type l); [| |now elim T]; destruct (sz_vol <? 65536); byte_of. Qed.
Lemma v_sig0 : v 510 = 85. Proof. fld. Qed.
Lemma v_sig1 : v 511 = 170. Proof. fld. Qed.
Lemma v_zero i : 90 <= i < 510 -> v i = 0.
Proof.
  intro I. unfold v, vbr; cbv zeta; destruct (l_type l), (sz_vol <? 65536);
  repeat (rewrite poke_out by (unfold le2, le4, msdos, no_name, fat_, fat32_; cbn [length app]; lia)); reflexivity.
Qed.
End fields.

Section info.
Variable n : Z.
Let f := fsinfo n nil_buf.
Lemma i_sig : ld2 f 510 = 43605.
Proof. unfold ld2. change (510 + 1) with 511. unfold f, fsinfo. cbv zeta.
  assert (E : forall a b, a = 85 -> b = 170 -> a + 256 * b = 43605) by lia. apply E; byte_of. Qed.
Lemma i_lead : ld4 f 0 = 1096897106.
Proof. unfold ld4. change (0 + 1) with 1. change (0 + 2) with 2. change (0 + 3) with 3. unfold f, fsinfo. cbv zeta.
  assert (E : forall a b c d, a = 82 -> b = 82 -> c = 97 -> d = 65 -> a + 256 * b + 65536 * c + 16777216 * d = 1096897106) by lia. apply E; byte_of. Qed.
Lemma i_struc : ld4 f 484 = 1631679090.
Proof. unfold ld4. change (484 + 1) with 485. change (484 + 2) with 486. change (484 + 3) with 487. unfold f, fsinfo. cbv zeta.
  assert (E : forall a b c d, a = 114 -> b = 114 -> c = 65 -> d = 97 -> a + 256 * b + 65536 * c + 16777216 * d = 1631679090) by lia. apply E; byte_of. Qed.
Lemma i_free : ld4 f 488 = w32 (n - 1).
Proof.
  rewrite <- (le4_val (w32 (n - 1))) by apply w32_range.
  unfold ld4. change (488 + 1) with 489. change (488 + 2) with 490. change (488 + 3) with 491. unfold f, fsinfo. cbv zeta.
  assert (E : forall a b c d a' b' c' d', a = a' -> b = b' -> c = c' -> d = d' -> a + 256 * b + 65536 * c + 16777216 * d = a' + 256 * b' + 65536 * c' + 16777216 * d')
    by (intros; subst; reflexivity).
  apply E; byte_of.
Qed.
Lemma i_next : ld4 f 492 = 2.
Proof. unfold ld4. change (492 + 1) with 493. change (492 + 2) with 494. change (492 + 3) with 495. unfold f, fsinfo. cbv zeta.
  assert (E : forall a b c d, a = 2 -> b = 0 -> c = 0 -> d = 0 -> a + 256 * b + 65536 * c + 16777216 * d = 2) by lia. apply E; byte_of. Qed.
End info.

(* --- the partition table ------------------------------------------------------- *)

Lemma pte_tame p nxt sz sys h b : tame b -> 0 <= sys < 256 -> tame (pte p nxt sz sys h b).
Proof.
  intros T S. unfold pte. cbv zeta. repeat (apply poke_tame; [|first [apply le4_bytes|apply one_byte; first [apply w8_range|exact S]]]). exact T.
Qed.

Lemma pte_out p nxt sz sys h b i : i < p + 1 \/ p + 16 <= i -> pte p nxt sz sys h b i = b i.
Proof. intro H. unfold pte. cbv zeta. repeat (rewrite poke_out by (unfold le4; cbn [length]; lia)). reflexivity. Qed.
Lemma pte_start p nxt sz sys h b i : p + 8 <= i < p + 12 -> pte p nxt sz sys h b i = nth (Z.to_nat (i - (p + 8))) (le4 nxt) 0.
Proof.
  intro H. unfold pte. cbv zeta. repeat (rewrite poke_out by (unfold le4; cbn [length]; lia)).
  rewrite poke_in by (unfold le4; cbn [length]; lia). reflexivity.
Qed.
Lemma pte_size p nxt sz sys h b i : p + 12 <= i < p + 16 -> pte p nxt sz sys h b i = nth (Z.to_nat (i - (p + 12))) (le4 sz) 0.
Proof.
  intro H. unfold pte. cbv zeta. repeat (rewrite poke_out by (unfold le4; cbn [length]; lia)).
  rewrite poke_in by (unfold le4; cbn [length]; lia). reflexivity.
Qed.
Lemma pte_sys p nxt sz sys h b : pte p nxt sz sys h b (p + 4) = sys.
Proof.
  unfold pte. cbv zeta. repeat (rewrite poke_out by (unfold le4; cbn [length]; lia)).
  rewrite poke_in by (cbn [length]; lia). rewrite Z.sub_diag. reflexivity.
Qed.

(* The sector with the partition table: one partition from sector 63 to the end. *)
Record table (w : Z -> Z) (sz sys : Z) : Prop := {
  tb_code : forall o, 0 <= o < 446 -> w o = 0;
  tb_start : ld4 w 454 = 63;
  tb_size : ld4 w 458 = sz;
  tb_sys : w 450 = sys;
  tb_rest : forall o, 462 <= o < 510 -> w o = 0;
  tb_sig : ld2 w 510 = 43605 }.

Lemma partition_ok D d sz sys b len : 512 <= d_ss D <= 4096 -> 4096 <= len -> 128 <= sz -> d_size D = 63 + sz -> d_size D < 4294967296 ->
  0 <= sys < 256 -> tame b -> tame2 d ->
  exists r d', create_partition D d [sz; 0] sys b len = Ok (r, d') /\ tame2 d' /\ (forall s, s <> 0 -> d' s = d s) /\
    (r = MK_OK \/ r = MK_DISK_ERR) /\ (r = MK_OK -> table (d' 0) sz sys) /\ (d_wr D 0 = true -> r = MK_OK) /\ (r = MK_DISK_ERR -> d' = d).
Proof.
  intros S1 L Z1 Z2 Z3 Sy Tb Td. unfold create_partition.
  destruct (clear_ok b len 4096) as (b1 & E1 & C1 & _ & C3); [lia|]. rewrite E1. cbn [bind].
  set (h := heads [8; 16; 32; 64; 128] (d_size D)).
  assert (P : parts 4 [sz; 0] 446 63 (d_size D) sys h b1 = Ok (pte 446 63 sz sys h b1)).
  { cbn [parts]. destruct (Z.eqb_spec 63 0); [lia|]. destruct (Z.ltb_spec 63 (d_size D)); [|lia]. cbn [negb andb].
    destruct (Z.leb_spec sz 100); [lia|]. rewrite (w32_id (63 + sz)) by lia.
    destruct (Z.ltb_spec (d_size D) (63 + sz)); [lia|]. destruct (Z.ltb_spec (63 + sz) 63); [lia|]. cbn [orb].
    destruct (Z.eqb_spec sz 0); [lia|]. rewrite ?(w32_id (63 + sz)) by lia.
    destruct (Z.ltb_spec (63 + sz) (d_size D)); [lia|]. destruct (Z.eqb_spec (63 + sz) 0); reflexivity. }
  rewrite P. cbn [bind]. set (m := poke (pte 446 63 sz sys h b1) 510 (le2 43605)).
  assert (Tm : tame m) by (apply poke_tame; [apply pte_tame; auto|apply le2_bytes]).
  destruct (put_ok D d m len 0 1) as (ok & d1 & E & Q1 & Q2 & Q3 & Q4 & Q5 & Q6); [lia|lia|]. rewrite E. cbn [bind].
  exists (if ok then MK_OK else MK_DISK_ERR), d1. split; [destruct ok; reflexivity|]. split; [auto|].
  split; [intros s S; apply Q1; lia|]. split; [destruct ok; auto|]. split.
  - intro R. assert (O : ok = true) by (destruct ok; [reflexivity|discriminate R]). destruct (Q4 O) as (_ & _ & V).
    assert (W : forall o, d1 0 o = m o) by (intro o; rewrite V by lia; f_equal; lia).
    constructor.
    + intros o Ho. rewrite W. unfold m. rewrite poke_out by (unfold le2; cbn [length]; lia). rewrite pte_out by lia. apply C1. lia.
    + unfold ld4. rewrite !W. unfold m. rewrite !poke_out by (unfold le2; cbn [length]; lia). rewrite !pte_start by lia. reflexivity.
    + unfold ld4. rewrite !W. unfold m. rewrite !poke_out by (unfold le2; cbn [length]; lia). rewrite !pte_size by lia.
      change (Z.to_nat (458 - (446 + 12))) with 0%nat. change (Z.to_nat (458 + 1 - (446 + 12))) with 1%nat.
      change (Z.to_nat (458 + 2 - (446 + 12))) with 2%nat. change (Z.to_nat (458 + 3 - (446 + 12))) with 3%nat.
      cbn [nth le4]. apply le4_val. lia.
    + rewrite W. unfold m. rewrite poke_out by (unfold le2; cbn [length]; lia). exact (pte_sys 446 63 sz sys h b1).
    + intros o Ho. rewrite W. unfold m. rewrite poke_out by (unfold le2; cbn [length]; lia). rewrite pte_out by lia. apply C1. lia.
    + unfold ld2. rewrite !W. unfold m. rewrite !poke_in by (unfold le2; cbn [length]; lia). reflexivity.
  - split; [|intro X; apply Q3; destruct ok; [discriminate X|reflexivity]].
    intro X. assert (O : ok = true).
    { apply Q5; [lia|lia|]. intros t T. replace t with 0 by lia. exact X. }
    now rewrite O.
Qed.
