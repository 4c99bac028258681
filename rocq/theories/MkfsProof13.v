(* Formatting a drive which does not fail. *)
From Verif Require Import Base FatModel FatSpec MkfsModel MountModel MkfsSpec MkfsProof MkfsProof2 MkfsProof3 MkfsProof4 MkfsProof5 MkfsProof6 MkfsProof8 MkfsProof12.
Open Scope Z_scope.

Lemma bit_exfat a : negb (Z.land a 4 =? 0) = wants a 2.
Proof. change 4 with (2 ^ 2). rewrite bit_land by lia. now destruct (wants a 2) eqn:E; unfold wants in E; rewrite E. Qed.

Lemma low_bits a : (Z.land a 7 =? 4) = wants a 2 && negb (wants a 1) && negb (wants a 0).
Proof.
  unfold wants. change 7 with (Z.ones 3). rewrite Z.land_ones by lia. change (2 ^ 3) with 8.
  assert (B : forall i, 0 <= i < 3 -> Z.testbit a i = Z.testbit (a mod 8) i).
  { intros i I. change 8 with (2 ^ 3). rewrite Z.mod_pow2_bits_low by lia. reflexivity. }
  rewrite !B by lia. assert (R : 0 <= a mod 8 < 8) by (apply Z.mod_pos_bound; lia). clear B. revert R. generalize (a mod 8). intros x X.
  assert (Y : x = 0 \/ x = 1 \/ x = 2 \/ x = 3 \/ x = 4 \/ x = 5 \/ x = 6 \/ x = 7) by lia.
  repeat (destruct Y as [->|Y]; [reflexivity|]). rewrite Y. reflexivity.
Qed.

Lemma perfect_ok D d fmt b len t fuel : perfect D -> tame2 d -> tame b -> 4096 <= len -> (4 <= fuel)%nat ->
  exists d', f_mkfs fuel D d fmt b len t = Ok (verdict D fmt, d').
Proof.
  intros [Us Ss Bk [R1 R2] Wr] Td Tb Le Fu. unfold f_mkfs. rewrite R1, R2. fold (sizes (d_ss D)) in Ss.
  assert (S : 512 <= d_ss D <= 4096) by (clear - Ss; destruct Ss as [E|[E|[E|E]]]; lia).
  assert (E1 : (4096 <? d_ss D) || (d_ss D <? 512) || negb (Z.land (d_ss D) (d_ss D - 1) =? 0) = false).
  { rewrite (land_pow _ Ss). change (0 =? 0) with true. cbn [negb]. clear - S. lia. }
  rewrite E1. clear E1.
  assert (Lb : 1 <= len / d_ss D) by (apply Z.div_le_lower_bound; lia).
  assert (Lc : len / d_ss D * d_ss D <= len) by (rewrite Z.mul_comm; apply Z.mul_div_le; lia).
  destruct (Z.eqb_spec (len / d_ss D) 0) as [X|_]; [clear - X Lb; lia|].
  rewrite bit_sfd, bit_fat32, bit_fat, bit_exfat, low_bits.
  assert (St : (if negb (wants fmt 3) && (63 <? d_size D) then (63, d_size D - 63) else (0, d_size D)) = (start D fmt, d_size D - start D fmt)).
  { unfold start. destruct (negb _ && _); f_equal; lia. }
  rewrite St. clear St. unfold verdict. cbv zeta.
  destruct (Z.ltb_spec (d_size D - start D fmt) 128) as [Sv|Sv]; [exists d; reflexivity|].
  assert (Ex : wants fmt 2 && (wants fmt 2 && negb (wants fmt 1) && negb (wants fmt 0) || (67108864 <=? d_size D - start D fmt)) =
               wants fmt 2 && ((negb (wants fmt 1) && negb (wants fmt 0)) || (67108864 <=? d_size D - start D fmt))).
  { destruct (wants fmt 2); reflexivity. }
  rewrite Ex. clear Ex.
  destruct (wants fmt 2 && ((negb (wants fmt 1) && negb (wants fmt 0)) || (67108864 <=? d_size D - start D fmt))); [exists d; reflexivity|].
  destruct (negb (wants fmt 1) && negb (wants fmt 0)) eqn:E2.
  { exists d. destruct (wants fmt 1), (wants fmt 0); try discriminate E2. reflexivity. }
  pose proof (start_two D fmt) as Bv.
  assert (Bk' : d_blk (drive' D) = 1) by (unfold drive'; cbn [d_blk]; rewrite Bk; reflexivity).
  assert (Ub' : 0 <= d_blk D) by lia.
  change (mkDrive (d_size D) (d_ss D) _ false false (d_wr D)) with (drive' D).
  assert (Sm : start D fmt + (d_size D - start D fmt) < 4294967296) by (clear - Us; lia).
  destruct (choose_ok (drive' D) (start D fmt) (d_size D - start D fmt) Ss (drive_block D Ub') Bv Sv) with
    (f32 := wants fmt 1) (ty := if wants fmt 0 then FAT16 else FAT32) (k := fuel) as (rl & Ec & Q).
  { exact Sm. }
  { destruct (wants fmt 0); discriminate. }
  { exact Fu. }
  set (V := if wants fmt 0 then if wants fmt 1 then MK_OK else if d_size D - start D fmt <=? fat_limit (d_ss D) then MK_OK else MK_ABORTED
            else if wants fmt 1 then if fat32_least (d_ss D) <=? d_size D - start D fmt then MK_OK else MK_ABORTED else MK_INVALID_PARAMETER).
  assert (Fd : match rl with Some _ => V = MK_OK | None => V = MK_ABORTED end).
  { destruct fuel as [|[|[|fuel]]]; [lia|lia|lia|].
    pose proof (fat_try (drive' D) (start D fmt) (d_size D - start D fmt) Ss Bk' Bv Sv Sm (wants fmt 1) fuel) as F1.
    pose proof (fat32_try (drive' D) (start D fmt) (d_size D - start D fmt) Ss Bk' Bv Sv Sm (wants fmt 1) (Datatypes.S fuel)) as F2.
    change (d_ss (drive' D)) with (d_ss D) in *. unfold V. clear V.
    destruct (wants fmt 0).
    - rewrite Ec in F1. cbn [found] in F1. destruct (wants fmt 1); [destruct rl; [reflexivity|discriminate F1]|].
      rewrite <- F1. destruct rl; reflexivity.
    - rewrite Ec in F2. cbn [found] in F2. destruct (wants fmt 1); [|discriminate E2]. rewrite <- F2. destruct rl; reflexivity. }
  rewrite Ec. cbn [bind]. destruct rl as [l|]; [|exists d; now rewrite Fd]. rewrite Fd. clear V Fd.
  destruct (Q l eq_refl) as [So _]. clear Q Ec E2.
  destruct (write_ok (drive' D) (start D fmt) (d_size D - start D fmt) (w32 (d_size D - start D fmt + t)) len (len / d_ss D) l) with (d := d) (b := b)
    as (ok & d1 & b1 & Ew & W1 & W2 & W3 & W4 & W5); try assumption.
  { clear. cbn [d_size drive']. lia. }
  rewrite Ew. cbn [bind]. rewrite (W5 Wr). cbn [negb].
  destruct (wants fmt 3) eqn:Sf; [exists d1; reflexivity|].
  assert (B63 : start D fmt = 63).
  { unfold start in *. rewrite Sf in *. cbn [negb andb] in *. destruct (Z.ltb_spec 63 (d_size D)) as [_|X]; [reflexivity|]. clear - X Sv. lia. }
  destruct (partition_ok (drive' D) d1 (d_size D - start D fmt) (sys_id (l_type l) (d_size D - start D fmt)) b1 len) as (r & d2 & Ep & _ & _ & _ & _ & K2 & _);
    try assumption.
  { rewrite B63. clear. cbn [d_size drive']. lia. }
  { clear - Us. cbn [d_size drive']. lia. }
  { clear. unfold sys_id. destruct (l_type l); try (destruct (Z.leb_spec 65536 (d_size D - start D fmt))); lia. }
  exists d2. rewrite Ep. rewrite K2; [reflexivity|]. apply Wr. clear - Sv B63. lia.
Qed.
