(* A volume which has been written can be mounted. *)
From Verif Require Import Base FatModel MkfsModel MountModel MkfsProof MkfsProof3 MkfsProof4 MkfsProof5.
Open Scope Z_scope.

Definition nroot_of (l : layout) : Z := match l_type l with FAT32 => 0 | _ => 512 end.

(* What mount_volume reads from the boot record. *)
Record bpb (w : Z -> Z) (s sz : Z) (l : layout) : Prop := {
  bp_jmp : w 0 = 235;
  bp_jmp1 : w 1 = 254;
  bp_sig : ld2 w 510 = 43605;
  bp_ss : ld2 w 11 = s;
  bp_pau : w 13 = l_pau l;
  bp_rsv : ld2 w 14 = l_rsv l;
  bp_nf : w 16 = 1;
  bp_root : ld2 w 17 = nroot_of l;
  bp_tot : (if ld2 w 19 =? 0 then ld4 w 32 else ld2 w 19) = sz;
  bp_tot1 : (128 <=? ld2 w 19) || (65536 <=? ld4 w 32) = true;
  bp_fat16 : l_type l <> FAT32 -> ld2 w 22 = l_fat l /\ w 82 = 0;
  bp_fat32 : l_type l = FAT32 -> ld2 w 22 = 0 /\ ld4 w 36 = l_fat l /\ ld2 w 42 = 0 /\ ld4 w 44 = 2 /\ ld2 w 48 = 1 /\ same w 82 fat32_ = true }.

Lemma bpb_ok D bv sz vsn l w : sizes (d_ss D) -> places D bv sz l -> 128 <= sz < 4294967296 ->
  (forall o, 0 <= o < d_ss D -> w o = vbr D bv sz vsn l nil_buf o) -> bpb w (d_ss D) sz l.
Proof.
  intros Ss [P1 P2 P3 P4 P5] Sz W.
  assert (S : 512 <= d_ss D <= 4096) by (clear - Ss; destruct Ss as [E|[E|[E|E]]]; lia).
  assert (P : 1 <= l_pau l <= 128) by (clear - P1; unfold pows in P1; cbn [In] in P1; lia).
  assert (R : 0 <= l_rsv l < 65536) by (clear - P2; destruct (l_type l); lia).
  clear P1 P2 Ss.
  constructor.
  - rewrite W by lia. apply v_jmp.
  - rewrite W by lia. apply v_jmp1.
  - unfold ld2. change (510 + 1) with 511. rewrite !W by lia. rewrite v_sig0, v_sig1. reflexivity.
  - unfold ld2. change (11 + 1) with 12. rewrite !W by lia. rewrite v_ss0, v_ss1. apply le2_val. lia.
  - rewrite W by lia. rewrite v_pau. unfold w8. apply Z.mod_small. lia.
  - unfold ld2. change (14 + 1) with 15. rewrite !W by lia. rewrite v_rsv0, v_rsv1. apply le2_val. lia.
  - rewrite W by lia. apply v_nf.
  - pose proof (v_root D bv sz vsn l) as X. unfold ld2 in *. change (17 + 1) with 18 in *. rewrite !W by lia. exact X.
  - assert (A : ld2 w 19 = if sz <? 65536 then sz else 0).
    { unfold ld2. change (19 + 1) with 20. rewrite !W by lia. rewrite v_tot0, v_tot1.
      destruct (Z.ltb_spec sz 65536); [apply le2_val; lia|reflexivity]. }
    assert (B : ld4 w 32 = if sz <? 65536 then 0 else sz).
    { unfold ld4. change (32 + 1) with 33. change (32 + 2) with 34. change (32 + 3) with 35. rewrite !W by lia. rewrite !v_tot32 by lia.
      destruct (Z.ltb_spec sz 65536); [reflexivity|]. apply (le4_val sz). lia. }
    rewrite A, B. destruct (Z.ltb_spec sz 65536); [destruct (Z.eqb_spec sz 0); lia|reflexivity].
  - assert (A : ld2 w 19 = if sz <? 65536 then sz else 0).
    { unfold ld2. change (19 + 1) with 20. rewrite !W by lia. rewrite v_tot0, v_tot1.
      destruct (Z.ltb_spec sz 65536); [apply le2_val; lia|reflexivity]. }
    assert (B : ld4 w 32 = if sz <? 65536 then 0 else sz).
    { unfold ld4. change (32 + 1) with 33. change (32 + 2) with 34. change (32 + 3) with 35. rewrite !W by lia. rewrite !v_tot32 by lia.
      destruct (Z.ltb_spec sz 65536); [reflexivity|]. apply (le4_val sz). lia. }
    rewrite A, B. destruct (Z.ltb_spec sz 65536).
    + destruct (Z.leb_spec 128 sz); [reflexivity|lia].
    + destruct (Z.leb_spec 65536 sz); [reflexivity|lia].
  - intro T. split.
    + unfold ld2. change (22 + 1) with 23. rewrite !W by lia. rewrite v_fat0, v_fat1.
      destruct (l_type l); [apply le2_val; lia|apply le2_val; lia|now elim T].
    + rewrite W by lia. now apply v_name16.
  - intro T. rewrite T in P5. split.
    { unfold ld2. change (22 + 1) with 23. rewrite !W by lia. rewrite v_fat0, v_fat1. rewrite T. reflexivity. }
    split.
    { unfold ld4. change (36 + 1) with 37. change (36 + 2) with 38. change (36 + 3) with 39. rewrite !W by lia. rewrite !v_fat32 by (auto; lia).
      apply (le4_val (l_fat l)). lia. }
    split.
    { unfold ld2. change (42 + 1) with 43. rewrite !W by lia. rewrite v_ver0, v_ver1 by exact T. reflexivity. }
    split.
    { unfold ld4. change (44 + 1) with 45. change (44 + 2) with 46. change (44 + 3) with 47. rewrite !W by lia. rewrite !v_rclus by (auto; lia). reflexivity. }
    split.
    { unfold ld2. change (48 + 1) with 49. rewrite !W by lia. rewrite v_fsi0, v_fsi1 by exact T. reflexivity. }
    unfold fat32_. cbn [same]. rewrite !W by lia. rewrite !v_name by (auto; lia). reflexivity.
Qed.

Lemma land_pow s : sizes s -> Z.land s (s - 1) = 0.
Proof. intros [E|[E|[E|E]]]; rewrite E; reflexivity. Qed.
Lemma land_pau s : In s pows -> Z.land s (s - 1) = 0.
Proof.
  unfold pows. cbn [In]. intro H. repeat (destruct H as [H|H]; [subst s; reflexivity|]). tauto.
Qed.

Lemma kind_ok D bv sz l w : sizes (d_ss D) -> places D bv sz l -> 128 <= sz -> bpb w (d_ss D) sz l -> vbr_kind w = 0.
Proof.
  intros Ss Pl Sz B. destruct Pl as [P1 P2 P3 P4 P5].
  assert (S : 512 <= d_ss D <= 4096) by (clear - Ss; destruct Ss as [E|[E|[E|E]]]; lia).
  assert (P : 1 <= l_pau l <= 128) by (clear - P1; unfold pows in P1; cbn [In] in P1; lia).
  pose proof (land_pow _ Ss) as L1. pose proof (land_pau _ P1) as L2. clear P1 Ss.
  destruct B as [B1 B2 B3 B4 B5 B6 B7 B8 B9 B10 B11 B12].
  unfold vbr_kind. rewrite B3. change (43605 =? 43605) with true. cbn [andb].
  assert (Ex : same w 0 exfat_ = false).
  { unfold exfat_. cbn [same]. change (0 + 1) with 1. rewrite B2. change (254 =? 118) with false. cbn [andb]. apply andb_false_r. }
  rewrite Ex, B1. change (235 =? 235) with true. cbn [orb].
  destruct (l_type l) eqn:T.
  3:{ destruct B12 as (_ & _ & _ & _ & _ & X); [reflexivity|]. rewrite X. reflexivity. }
  all: destruct B11 as [X Y]; [discriminate|].
  all: assert (N : same w 82 fat32_ = false) by (unfold fat32_; cbn [same]; rewrite Y; reflexivity).
  all: rewrite N, B4, L1, B5, L2, B6, B7, B8, B10, X; unfold nroot_of; rewrite T.
  all: change (0 =? 0) with true; change (w32 (1 - 1) <=? 1) with true; change (512 =? 0) with false.
  all: destruct (Z.leb_spec 512 (d_ss D)); [|lia]; destruct (Z.leb_spec (d_ss D) 4096); [|lia].
  all: destruct (Z.eqb_spec (l_pau l) 0); [lia|]; destruct (Z.eqb_spec (l_rsv l) 0); [lia|]; destruct (Z.eqb_spec (l_fat l) 0); [lia|].
  all: reflexivity.
Qed.

(* The mounted volume. *)
Definition geo_of (D : drive) (b_vol : Z) (l : layout) : geo :=
  mkGeo (d_ss D) (l_base l) (l_fat l) 1 (l_ncl l + 2) (l_type l) (l_pau l) (l_base l + l_fat l + l_dir l) b_vol (d_size D).

Lemma room t n z f : 0 <= n -> 512 <= z <= 4096 -> n <= most t -> need t n <= f * z ->
  (w32 (match t with FAT32 => w32 ((n + 2) * 4) | FAT16 => w32 ((n + 2) * 2) | FAT12 => (n + 2) * 3 / 2 + Z.land (n + 2) 1 end + (z - 1)) / z) <= f.
Proof.
  intros N Z M H. assert (E : Z.land (n + 2) 1 = n mod 2).
  { change 1 with (Z.ones 1). rewrite Z.land_ones by lia. change (2 ^ 1) with 2. lia. }
  rewrite E.
  assert (X : exists x, (match t with FAT32 => w32 ((n + 2) * 4) | FAT16 => w32 ((n + 2) * 2) | FAT12 => (n + 2) * 3 / 2 + n mod 2 end) = x
              /\ x <= need t n /\ 0 <= x <= 1073741824).
  { eexists. split; [reflexivity|]. unfold most, MAX_FAT12, MAX_FAT16, MAX_FAT32 in M. unfold need.
    destruct t; unfold w32.
    - lia.
    - rewrite Z.mod_small by lia. lia.
    - rewrite Z.mod_small by lia. lia. }
  destruct X as (x & -> & X1 & X2). rewrite w32_id by lia.
  apply Z.lt_succ_r. apply Z.div_lt_upper_bound; [lia|]. nia.
Qed.

Section mount.
Variable D : drive.
Variable b_vol sz_vol vsn : Z.
Variable l : layout.
Hypothesis Ss : sizes (d_ss D).
Hypothesis Bv : b_vol = 0 \/ b_vol = 63.
Hypothesis Sv : 128 <= sz_vol.
Hypothesis Sm : b_vol + sz_vol < 4294967296.
Hypothesis Sz : b_vol + sz_vol <= d_size D.
Hypothesis So : sound D b_vol sz_vol l.
Hypothesis Nc : 1 <= l_ncl l.

Lemma find_ok d w sys : bpb (d b_vol) (d_ss D) sz_vol l -> (b_vol = 63 -> table (d 0) sz_vol sys) ->
  find_volume D d w = (0, d b_vol, b_vol).
Proof.
  intros B T.
  assert (K : vbr_kind (d b_vol) = 0) by (destruct So as [Pl _ _ _ _ _]; now apply (kind_ok D b_vol sz_vol l)).
  unfold find_volume, check_fs. change (0 <=? 0) with true. destruct (Z.ltb_spec 0 (d_size D)); [|lia]. cbn [andb].
  destruct Bv as [E|E]; rewrite E in *.
  - rewrite K. reflexivity.
  - destruct (T eq_refl) as [T1 T2 T3 T4 T5 T6].
    assert (K0 : vbr_kind (d 0) = 2).
    { unfold vbr_kind. rewrite T6. change (43605 =? 43605) with true. cbn [andb].
      assert (Z0 : d 0 0 = 0) by (apply T1; lia).
      unfold exfat_. cbn [same]. rewrite Z0. reflexivity. }
    rewrite K0. change (negb (2 =? 2)) with false. cbv iota.
    unfold find_part. rewrite T2. change (63 =? 0) with false. cbv iota.
    unfold check_fs. change (0 <=? 63) with true. destruct (Z.ltb_spec 63 (d_size D)); [|lia]. cbn [andb].
    rewrite K. reflexivity.
Qed.

Lemma mount_ok d w sys : bpb (d b_vol) (d_ss D) sz_vol l -> (b_vol = 63 -> table (d 0) sz_vol sys) ->
  exists v, mount D d w = Mounted (mkMounted (geo_of D b_vol l) v (match l_type l with FAT32 => 2 | _ => l_base l + l_fat l end) (nroot_of l) sz_vol) /\
    match l_type l with
    | FAT32 => v = mkVol d (d (b_vol + 1)) (b_vol + 1) false (free_clst v) (last_clst v) 0 /\
               ((free_clst v = ERR /\ last_clst v = ERR) \/ (free_clst v = ld4 (d (b_vol + 1)) 488 /\ last_clst v = ld4 (d (b_vol + 1)) 492)) /\
               (ld2 (d (b_vol + 1)) 510 = 43605 -> ld4 (d (b_vol + 1)) 0 = 1096897106 -> ld4 (d (b_vol + 1)) 484 = 1631679090 ->
                free_clst v = ld4 (d (b_vol + 1)) 488 /\ last_clst v = ld4 (d (b_vol + 1)) 492)
    | _ => v = mkVol d (d b_vol) b_vol false ERR ERR 128
    end.
Proof.
  intros B T. pose proof (find_ok d w sys B T) as F. clear T.
  unfold mount. rewrite F. clear F.
  assert (S : 512 <= d_ss D <= 4096) by (clear - Ss; destruct Ss as [E|[E|[E|E]]]; lia).
  destruct (Z.ltb_spec 4096 (d_ss D)); [lia|]. destruct (Z.ltb_spec (d_ss D) 512); [lia|].
  rewrite (land_pow _ Ss). change (0 =? 0) with true. change (0 =? 4) with false. change (2 <=? 0) with false. change (0 =? 1) with false. cbn [orb negb].
  destruct B as [B1 B2 B3 B4 B5 B6 B7 B8 B9 B10 B11 B12].
  rewrite B4. rewrite Z.eqb_refl. cbn [negb].
  destruct So as [[P1 P2 P3 P4 P5] Fi N Ty R _].
  assert (Fz : (if ld2 (d b_vol) 22 =? 0 then ld4 (d b_vol) 36 else ld2 (d b_vol) 22) = l_fat l).
  { destruct (l_type l) eqn:E.
    - destruct B11 as [X _]; [discriminate|]. rewrite X. destruct (Z.eqb_spec (l_fat l) 0); [lia|reflexivity].
    - destruct B11 as [X _]; [discriminate|]. rewrite X. destruct (Z.eqb_spec (l_fat l) 0); [lia|reflexivity].
    - destruct B12 as (X & Y & _); [reflexivity|]. rewrite X, Y. reflexivity. }
  rewrite Fz, B7. change (1 =? 1) with true. cbn [negb andb].
  assert (P : 1 <= l_pau l <= 128) by (clear - P1; unfold pows in P1; cbn [In] in P1; lia).
  pose proof (land_pau _ P1) as L2. rewrite B5, L2. change (0 =? 0) with true. destruct (Z.eqb_spec (l_pau l) 0); [lia|]. cbn [negb orb].
  rewrite B8. assert (Nr : nroot_of l mod (d_ss D / 32) = 0 /\ nroot_of l / (d_ss D / 32) = l_dir l /\ 0 <= l_dir l).
  { clear - Ss P4. unfold nroot_of. destruct (l_type l); destruct Ss as [E|[E|[E|E]]]; rewrite E in *; rewrite P4;
      (split; [reflexivity|split; [reflexivity|]]); vm_compute; discriminate. }
  destruct Nr as (N1 & N2 & N3). rewrite N1. change (0 =? 0) with true. cbn [negb].
  rewrite B9, B6. destruct (Z.eqb_spec (l_rsv l) 0) as [E0|_]; [destruct (l_type l); lia|].
  rewrite N2.
  assert (Rs : 1 <= l_rsv l) by (clear - P2; destruct (l_type l); lia).
  assert (Fa : 1 <= l_fat l) by (clear - P5; destruct (l_type l); lia).
  assert (Bb : 0 <= b_vol) by (clear - Bv; lia).
  rewrite (w32_id (l_fat l * 1)) by (clear - Fa Fi N3 Rs Sm Bb; lia).
  rewrite Z.mul_1_r. rewrite (w32_id (l_rsv l + l_fat l + l_dir l)) by (clear - Fa Fi N3 Rs Sm Bb; lia).
  destruct (Z.ltb_spec sz_vol (l_rsv l + l_fat l + l_dir l)) as [X|_]; [lia|].
  replace (sz_vol - (l_rsv l + l_fat l + l_dir l)) with (sz_vol - l_rsv l - l_fat l - l_dir l) by lia.
  rewrite <- N. destruct (Z.eqb_spec (l_ncl l) 0); [lia|].
  assert (Mo : l_ncl l <= most (l_type l)) by apply Ty.
  assert (M32 : most (l_type l) <= MAX_FAT32) by (destruct (l_type l); vm_compute; discriminate).
  destruct (Z.ltb_spec MAX_FAT32 (l_ncl l)) as [X|_]; [clear - X Mo M32; lia|].
  assert (Tt : (if l_ncl l <=? MAX_FAT12 then FAT12 else if l_ncl l <=? MAX_FAT16 then FAT16 else FAT32) = l_type l).
  { clear - Ty. destruct (l_type l); cbn [least most] in Ty; unfold MAX_FAT12, MAX_FAT16, MAX_FAT32 in *.
    - destruct (Z.leb_spec (l_ncl l) 4085); [reflexivity|lia].
    - destruct (Z.leb_spec (l_ncl l) 4085); [lia|]. destruct (Z.leb_spec (l_ncl l) 65525); [reflexivity|lia].
    - destruct (Z.leb_spec (l_ncl l) 4085); [lia|]. destruct (Z.leb_spec (l_ncl l) 65525); [lia|reflexivity]. }
  rewrite Tt. rewrite <- P3.
  rewrite (w32_id (l_base l)) by (clear - P3 Fa Fi N3 Rs Sm Bb; lia).
  rewrite (w32_id (l_base l + l_fat l)) by (clear - P3 Fa Fi N3 Rs Sm Bb; lia).
  assert (Dv : (match l_type l with FAT32 => negb (ld2 (d b_vol) 42 =? 0) || negb (nroot_of l =? 0) | _ => nroot_of l =? 0 end) = false).
  { unfold nroot_of. destruct (l_type l) eqn:E; [reflexivity|reflexivity|]. destruct B12 as (_ & _ & X & _); [reflexivity|]. rewrite X. reflexivity. }
  rewrite Dv. clear Dv.
  assert (Rm := room (l_type l) (l_ncl l) (d_ss D) (l_fat l)).
  match type of Rm with _ -> _ -> _ -> _ -> ?x <= _ => destruct (Z.ltb_spec (l_fat l) x) as [X|_] end.
  { assert (Y : 0 <= l_ncl l) by (clear - Nc; lia). specialize (Rm Y S Mo R). clear - Rm X. lia. }
  assert (Db : w32 (b_vol + (l_rsv l + l_fat l + l_dir l)) = l_base l + l_fat l + l_dir l).
  { rewrite w32_id by (clear - Fa Fi N3 Rs Sm Bb; lia). clear - P3. lia. }
  assert (Di : match l_type l with FAT32 => ld4 (d b_vol) 44 | _ => l_base l + l_fat l end = match l_type l with FAT32 => 2 | _ => l_base l + l_fat l end).
  { destruct (l_type l) eqn:E; [reflexivity|reflexivity|]. destruct B12 as (_ & _ & _ & X & _); [reflexivity|]. exact X. }
  rewrite Di, Db. unfold geo_of.
  destruct (l_type l) eqn:E.
  - eexists. split; reflexivity.
  - eexists. split; reflexivity.
  - destruct B12 as (_ & _ & _ & _ & X & _); [reflexivity|]. rewrite X. change (1 =? 1) with true. cbv iota.
    rewrite (w32_id (b_vol + 1)) by (clear - Bb Sm Sv; lia). destruct (Z.ltb_spec (b_vol + 1) (d_size D)) as [_|Y]; [|clear - Y Sz Sv; lia].
    destruct (Z.eqb_spec (ld2 (d (b_vol + 1)) 510) 43605) as [Y1|Y1].
    2:{ eexists. split; [reflexivity|]. cbn. split; [reflexivity|]. split; [now left|]. intro Y. now elim Y1. }
    destruct (Z.eqb_spec (ld4 (d (b_vol + 1)) 0) 1096897106) as [Y2|Y2].
    2:{ eexists. split; [reflexivity|]. cbn. split; [reflexivity|]. split; [now left|]. intros _ Y. now elim Y2. }
    destruct (Z.eqb_spec (ld4 (d (b_vol + 1)) 484) 1631679090) as [Y3|Y3].
    2:{ eexists. split; [reflexivity|]. cbn. split; [reflexivity|]. split; [now left|]. intros _ _ Y. now elim Y3. }
    eexists. split; [reflexivity|]. cbn. split; [reflexivity|]. split; [now right|]. intros _ _ _. now split.
Qed.
End mount.
