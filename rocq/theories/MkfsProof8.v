(* The outcomes of f_mkfs. *)
From Verif Require Import Base FatModel FatSpec MkfsModel MountModel MkfsSpec MkfsProof MkfsProof2 MkfsProof3 MkfsProof4 MkfsProof5 MkfsProof6 MkfsProof7.
Open Scope Z_scope.

Lemma bit_land a i : 0 <= i -> (Z.land a (2 ^ i) =? 0) = negb (Z.testbit a i).
Proof.
  intro I. assert (E : Z.land a (2 ^ i) = if Z.testbit a i then 2 ^ i else 0).
  { apply Z.bits_inj'. intros n N. rewrite Z.land_spec. destruct (Z.eq_dec n i) as [->|X].
    - rewrite Z.pow2_bits_true by lia. rewrite andb_true_r. destruct (Z.testbit a i) eqn:B; [now rewrite Z.pow2_bits_true by lia|now rewrite Z.bits_0].
    - rewrite Z.pow2_bits_false by lia. rewrite andb_false_r. destruct (Z.testbit a i); [now rewrite Z.pow2_bits_false by lia|now rewrite Z.bits_0]. }
  rewrite E. assert (P : 0 < 2 ^ i) by (apply Z.pow_pos_nonneg; lia).
  destruct (Z.testbit a i); [destruct (Z.eqb_spec (2 ^ i) 0); [lia|reflexivity]|reflexivity].
Qed.
Lemma bit_sfd a : negb (Z.land a 8 =? 0) = wants a 3.
Proof. change 8 with (2 ^ 3). rewrite bit_land by lia. apply negb_involutive. Qed.
Lemma bit_fat32 a : negb (Z.land a 2 =? 0) = wants a 1.
Proof. change 2 with (2 ^ 1). rewrite bit_land by lia. apply negb_involutive. Qed.
Lemma bit_fat a : negb (Z.land a 1 =? 0) = wants a 0.
Proof. change 1 with (2 ^ 0) at 1. rewrite bit_land by lia. apply negb_involutive. Qed.

(* The drive with the block size which f_mkfs uses. *)
Definition drive' (D : drive) : drive :=
  let blk := d_blk D in
  mkDrive (d_size D) (d_ss D) (if (blk =? 0) || (32768 <? blk) || negb (Z.land blk (blk - 1) =? 0) then 1 else blk)
    false false (d_wr D).

Lemma drive_block D : 0 <= d_blk D -> block (drive' D).
Proof.
  intro B. unfold block, drive'. cbn [d_blk].
  destruct (Z.eqb_spec (d_blk D) 0) as [Z|Z]; [exists 0; split; [lia|reflexivity]|].
  destruct (Z.ltb_spec 32768 (d_blk D)) as [L|L]; [exists 0; split; [lia|reflexivity]|]. cbn [orb].
  destruct (Z.eqb_spec (Z.land (d_blk D) (d_blk D - 1)) 0) as [E|E]; cbn [negb]; [|exists 0; split; [lia|reflexivity]].
  destruct (pow2 16 (d_blk D)) as (i & I & J); [change (2 ^ Z.of_nat 16) with 65536; lia|exact E|].
  exists i. split; [lia|exact J].
Qed.

Lemma drive_small D : 0 <= d_blk D <= 16 -> d_blk (drive' D) <= 16.
Proof. intro B. unfold drive'. cbn [d_blk]. destruct (_ || _); lia. Qed.

Lemma ss_sizes s : (4096 <? s) || (s <? 512) || negb (Z.land s (s - 1) =? 0) = false -> sizes s.
Proof.
  intro H. apply orb_false_elim in H as [H H3]. apply orb_false_elim in H as [H1 H2].
  apply Z.ltb_ge in H1, H2. apply negb_false_iff in H3. apply Z.eqb_eq in H3.
  destruct (pow2 13 s) as (i & I & J); [change (2 ^ Z.of_nat 13) with 8192; lia|exact H3|].
  assert (X : i = 0 \/ i = 1 \/ i = 2 \/ i = 3 \/ i = 4 \/ i = 5 \/ i = 6 \/ i = 7 \/ i = 8 \/ i = 9 \/ i = 10 \/ i = 11 \/ i = 12) by lia.
  clear I H3. unfold sizes. repeat (destruct X as [X|X]; [rewrite X in J; cbn in J; lia|]). rewrite X in J. cbn in J. lia.
Qed.

Lemma start_two D fmt : start D fmt = 0 \/ start D fmt = 63.
Proof. unfold start. destruct (negb (wants fmt 3) && (63 <? d_size D)); [now right|now left]. Qed.

(* Sectors which formatting may change. *)
Definition changed (D : drive) (fmt : Z) (l : layout) (s : Z) : Prop :=
  writes (start D fmt) l s \/ (start D fmt = 63 /\ s = 0).

Definition asked (fmt : Z) (t : fat) : Prop := match t with FAT32 => wants fmt 1 = true | _ => wants fmt 0 = true end.

(* Success. *)
Definition done (D : drive) (fmt vsn : Z) (d d' : store) (l : layout) : Prop :=
  sizes (d_ss D) /\ 128 <= d_size D - start D fmt /\
  sound (drive' D) (start D fmt) (d_size D - start D fmt) l /\ asked fmt (l_type l) /\
  written (drive' D) (start D fmt) (d_size D - start D fmt) vsn l d d' /\
  (start D fmt = 63 -> table (d' 0) (d_size D - 63) (sys_id (l_type l) (d_size D - 63))) /\
  (forall s, ~ changed D fmt l s -> d' s = d s).

Lemma mkfs_cases D d fmt b len t fuel : usable D -> tame2 d -> tame b -> 0 <= len -> (4 <= fuel)%nat ->
  (f_mkfs fuel D d fmt b len t = Ub /\ wants fmt 3 = false /\ len < 4096) \/
  exists r d', f_mkfs fuel D d fmt b len t = Ok (r, d') /\ tame2 d' /\
    match r with
    | MK_OK => exists vsn l, vsn = w32 (d_size D - start D fmt + t) /\ done D fmt vsn d d' l
    | MK_DISK_ERR => d' = d \/ exists l, sizes (d_ss D) /\ sound (drive' D) (start D fmt) (d_size D - start D fmt) l /\ forall s, ~ writes (start D fmt) l s -> d' s = d s
    | _ => d' = d
    end.
Proof.
  intros [Us Ub'] Td Tb Le Fu. unfold f_mkfs.
  destruct (d_noinit D); [right; exists MK_NOT_READY, d; auto|].
  destruct (d_protect D); [right; exists MK_WRITE_PROTECTED, d; auto|].
  destruct ((4096 <? d_ss D) || (d_ss D <? 512) || negb (Z.land (d_ss D) (d_ss D - 1) =? 0)) eqn:E1.
  { right. exists MK_DISK_ERR, d. auto. }
  pose proof (ss_sizes _ E1) as Ss. clear E1.
  assert (S : 512 <= d_ss D <= 4096) by (clear - Ss; destruct Ss as [E|[E|[E|E]]]; lia).
  destruct (Z.eqb_spec (len / d_ss D) 0) as [Z|Z]; [right; exists MK_NOT_ENOUGH_CORE, d; auto|].
  assert (Lb : 1 <= len / d_ss D) by (pose proof (Z.div_pos len (d_ss D)); lia).
  assert (Lc : len / d_ss D * d_ss D <= len) by (rewrite Z.mul_comm; apply Z.mul_div_le; lia).
  rewrite bit_sfd, bit_fat32, bit_fat.
  assert (St : (if negb (wants fmt 3) && (63 <? d_size D) then (63, d_size D - 63) else (0, d_size D)) = (start D fmt, d_size D - start D fmt)).
  { unfold start. destruct (negb _ && _); f_equal; lia. }
  rewrite St. clear St.
  destruct (Z.ltb_spec (d_size D - start D fmt) 128) as [Sv|Sv]; [right; exists MK_ABORTED, d; auto|].
  destruct (negb (Z.land fmt 4 =? 0) && ((Z.land fmt 7 =? 4) || (67108864 <=? d_size D - start D fmt))).
  { right. exists MK_EXFAT, d. auto. }
  destruct (negb (wants fmt 1) && negb (wants fmt 0)) eqn:E2; [right; exists MK_INVALID_PARAMETER, d; auto|].
  pose proof (start_two D fmt) as Bv.
  change (mkDrive (d_size D) (d_ss D) _ false false (d_wr D)) with (drive' D).
  destruct (choose_ok (drive' D) (start D fmt) (d_size D - start D fmt) Ss (drive_block D Ub') Bv Sv) with
    (f32 := wants fmt 1) (ty := if wants fmt 0 then FAT16 else FAT32) (k := fuel) as (rl & Ec & Q).
  { clear - Us Bv. cbn [d_size]. lia. }
  { destruct (wants fmt 0); discriminate. }
  { exact Fu. }
  rewrite Ec. cbn [bind]. destruct rl as [l|]; [|right; exists MK_ABORTED, d; auto].
  destruct (Q l eq_refl) as [So My]. clear Q Ec.
  assert (Ak : asked fmt (l_type l)).
  { clear - My E2. unfold may in My. unfold asked. revert My E2. destruct (wants fmt 0), (wants fmt 1), (l_type l); intros My E2;
      first [reflexivity|discriminate E2|exact (My eq_refl)|discriminate My]. }
  clear My E2.
  destruct (write_ok (drive' D) (start D fmt) (d_size D - start D fmt) (w32 (d_size D - start D fmt + t)) len (len / d_ss D) l) with (d := d) (b := b)
    as (ok & d1 & b1 & Ew & W1 & W2 & W3 & W4 & W5); try assumption.
  { clear - Us Bv. cbn [d_size]. lia. }
  { clear. cbn [d_size drive']. lia. }
  rewrite Ew. cbn [bind]. destruct ok; cbn [negb].
  2:{ right. exists MK_DISK_ERR, d1. split; [reflexivity|]. split; [exact W2|]. right. exists l. split; [exact Ss|]. split; [exact So|].
      exact W3. }
  destruct W4 as [W4 _]; [reflexivity|].
  destruct (wants fmt 3) eqn:Sf.
  - right. exists MK_OK, d1. split; [reflexivity|]. split; [exact W2|].
    exists (w32 (d_size D - start D fmt + t)), l. split; [reflexivity|]. split; [exact Ss|]. split; [exact Sv|]. split; [exact So|]. split; [exact Ak|]. split; [exact W4|].
    split; [intro X; unfold start in X; rewrite Sf in X; discriminate X|].
    intros s X. apply W3. intro Y. apply X. now left.
  - destruct (Z.ltb_spec len 4096) as [L4|L4].
    { left. split; [|split; [reflexivity|exact L4]]. unfold create_partition, clear.
      destruct (Z.ltb_spec len 4096) as [_|L5]; [reflexivity|clear - L4 L5; lia]. }
    assert (B63 : start D fmt = 63).
    { unfold start in *. rewrite Sf in *. cbn [negb andb] in *. destruct (Z.ltb_spec 63 (d_size D)) as [_|X]; [reflexivity|]. clear - X Sv. lia. }
    destruct (partition_ok (drive' D) d1 (d_size D - start D fmt) (sys_id (l_type l) (d_size D - start D fmt)) b1 len) as (r & d2 & Ep & T2 & O2 & R2 & K2 & _ & K3);
      try assumption.
    { rewrite B63. clear. cbn [d_size drive']. lia. }
    { clear - Us. cbn [d_size drive']. lia. }
    { clear. unfold sys_id. destruct (l_type l); try (destruct (Z.leb_spec 65536 (d_size D - start D fmt))); lia. }
    right. exists r, d2. split; [exact Ep|]. split; [exact T2|].
    assert (Cf : forall s, ~ changed D fmt l s -> d2 s = d s).
    { intros s X. rewrite O2 by (intro Y; apply X; right; now split). apply W3. intro Y. apply X. now left. }
    destruct R2 as [R2|R2]; rewrite R2.
    + exists (w32 (d_size D - start D fmt + t)), l. split; [reflexivity|]. split; [exact Ss|]. split; [exact Sv|]. split; [exact So|]. split; [exact Ak|]. split.
      { assert (Lb0 : 0 < l_base l).
        { destruct So as [[_ P2 P3 _ _] _ _ _ _ _]. rewrite P3, B63. clear - P2. destruct (l_type l); lia. }
        destruct W4 as [X1 X2 X3 X4 X5]. rewrite B63 in *. constructor.
        - intros o O. rewrite O2 by discriminate. now apply X1.
        - intro T. specialize (X2 T). destruct (d_wr (drive' D) (63 + 1)).
          + intros o O. rewrite O2 by discriminate. now apply X2.
          + rewrite O2 by discriminate. exact X2.
        - intros o O. rewrite O2 by (clear - Lb0; lia). now apply X3.
        - intros s o Y O. rewrite O2 by (clear - Y Lb0; lia). now apply X4.
        - intros s o Y O. assert (1 <= l_fat l) by (destruct So as [[_ _ _ _ P5] _ _ _ _ _]; clear - P5; destruct (l_type l); lia).
          rewrite O2 by (clear - Y Lb0 H; lia). now apply X5. }
      split; [intros _; rewrite <- B63; apply K2; exact R2|exact Cf].
    + right. exists l. split; [exact Ss|]. split; [exact So|]. rewrite (K3 R2). exact W3.
Qed.

(* Mounting what has been formatted. *)
Lemma done_mount D fmt vsn d d' l w : 0 <= d_size D < 4294967295 -> done D fmt vsn d d' l -> 1 <= l_ncl l -> tame2 d' ->
  exists m, mount D d' w = Mounted m /\ m_geo m = geo_of D (start D fmt) l /\ laid_out D fmt m /\ blank m /\ disk (m_vol m) = d' /\
    (ftype (m_geo m) <> FAT32 -> free_clst (m_vol m) = ERR /\ last_clst (m_vol m) = ERR) /\
    (ftype (m_geo m) = FAT32 -> d_wr D (volbase (m_geo m) + 1) = true ->
       free_clst (m_vol m) = n_clst (m_geo m) - 1 /\ last_clst (m_vol m) = 2) /\
    (ftype (m_geo m) = FAT32 -> d_wr D (volbase (m_geo m) + 1) = false -> d' (volbase (m_geo m) + 1) = d (volbase (m_geo m) + 1)).
Proof.
  intros Us (Ss & Sv & So & Ak & W & Tb & _) Nc Td.
  pose proof (start_two D fmt) as Bv.
  pose proof (bpb_ok (drive' D) (start D fmt) (d_size D - start D fmt) vsn l (d' (start D fmt)) Ss (so_places _ _ _ _ So)) as Bp.
  assert (S : 512 <= d_ss D <= 4096) by (clear - Ss; destruct Ss as [E|[E|[E|E]]]; lia).
  destruct (mount_ok (drive' D) (start D fmt) (d_size D - start D fmt) l Ss Bv Sv) with (d := d') (w := w) (sys := sys_id (l_type l) (d_size D - 63))
    as (v & Em & Ev); try assumption.
  { clear - Us Bv. cbn [d_size]. lia. }
  { clear. cbn [d_size drive']. lia. }
  { apply Bp; [clear - Us Bv Sv; lia|]. apply W. }
  { intro X. rewrite X at 1. now apply Tb. }
  eexists. split; [exact Em|]. cbn [m_geo m_vol m_dirbase m_nroot m_totsec]. split; [reflexivity|].
  assert (Vv : forall s o, view v s o = d' s o).
  { intros s o. unfold view. destruct (l_type l).
    - rewrite Ev. cbn [winsect win disk]. destruct (Z.eqb_spec s (start D fmt)) as [->|_]; reflexivity.
    - rewrite Ev. cbn [winsect win disk]. destruct (Z.eqb_spec s (start D fmt)) as [->|_]; reflexivity.
    - destruct Ev as (Ev & _). rewrite Ev. cbn [winsect win disk]. destruct (Z.eqb_spec s (start D fmt + 1)) as [->|_]; reflexivity. }
  assert (Dv : disk v = d') by (destruct (l_type l); [rewrite Ev|rewrite Ev|destruct Ev as [Ev _]; rewrite Ev]; reflexivity).
  pose proof (geo_of_ok (drive' D) (start D fmt) (d_size D - start D fmt) l Ss) as Go.
  assert (Go' : geo_ok (geo_of D (start D fmt) l)).
  { apply Go; try assumption; [clear - Bv; lia|clear; cbn [d_size drive']; lia|clear - Us; cbn [d_size drive']; lia]. }
  clear Go. destruct So as [[P1 P2 P3 P4 P5] Fi N Ty R _].
  assert (Rs : 1 <= l_rsv l) by (clear - P2; destruct (l_type l); lia).
  assert (Fa : 1 <= l_fat l) by (clear - P5; destruct (l_type l); lia).
  assert (Dr : 0 <= l_dir l) by (clear - P4 Ss; cbn [d_ss drive'] in P4; destruct (l_type l); [| |lia]; destruct Ss as [E|[E|[E|E]]]; rewrite E in P4; lia).
  assert (P : 1 <= l_pau l <= 128) by (clear - P1; unfold pows in P1; cbn [In] in P1; lia).
  assert (Bb : 0 <= start D fmt <= 63) by (clear - Bv; lia).
  split.
  { constructor; cbn [m_geo m_vol m_dirbase m_nroot m_totsec geo_of volbase ss dsize n_fats csize fatbase fsize ftype database n_fatent].
    - exact Go'.
    - reflexivity.
    - clear. lia.
    - reflexivity.
    - reflexivity.
    - reflexivity.
    - exact P1.
    - clear - P3 Rs. lia.
    - unfold nroot_of. cbn [d_ss drive'] in P4 |- *. destruct (l_type l); rewrite P4.
      + change (512 * 32) with 16384. repeat split; reflexivity.
      + change (512 * 32) with 16384. repeat split; reflexivity.
      + split; [reflexivity|]. split; [reflexivity|]. clear. lia.
    - unfold n_clst. cbn [geo_of n_fatent].
      pose proof (Z.mul_div_le (d_size D - start D fmt - l_rsv l - l_fat l - l_dir l) (l_pau l)) as D1.
      pose proof (Z.mul_succ_div_gt (d_size D - start D fmt - l_rsv l - l_fat l - l_dir l) (l_pau l)) as D2.
      rewrite <- N in D1, D2. cbn [d_size drive']. clear - D1 D2 P P3. replace (l_ncl l + 2 - 2) with (l_ncl l) by lia. nia.
    - unfold n_clst. cbn [geo_of n_fatent]. clear - Ty Nc. unfold least, most, MAX_FAT12, MAX_FAT16, MAX_FAT32 in Ty. destruct (l_type l); lia.
    - exact Ak. }
  assert (Vk : vol_ok (geo_of D (start D fmt) l) v).
  { assert (Ws : (exists s, 0 <= s < d_size D /\ winsect v = s /\ win v = d' s) /\ wflag v = false).
    { destruct (l_type l).
      - rewrite Ev. split; [|reflexivity]. exists (start D fmt). split; [clear - Bb Sv; lia|]. split; reflexivity.
      - rewrite Ev. split; [|reflexivity]. exists (start D fmt). split; [clear - Bb Sv; lia|]. split; reflexivity.
      - destruct Ev as (Ev & _). rewrite Ev. split; [|reflexivity]. exists (start D fmt + 1). split; [clear - Bb Sv; lia|]. split; reflexivity. }
    destruct Ws as ((s & S1 & S2 & S3) & S4). constructor.
    - intros s' o. rewrite Dv. apply Td.
    - intros o. rewrite S3. apply Td.
    - left. rewrite S2. split; [exact S1|]. unfold second. intros [X _]. discriminate X.
    - intros _ _ o _. rewrite S3, S2, Dv. reflexivity.
    - intro X. discriminate X. }
  assert (En := fun c => entry_ok (drive' D) (start D fmt) (d_size D - start D fmt) vsn l d d' v S W Vv Nc R c).
  split.
  { constructor; cbn [m_geo m_vol geo_of ss].
    - intros s o Rt O. rewrite Vv. apply (wv_root _ _ _ _ _ _ _ W); [|exact O].
      unfold root_sector in Rt. cbn [m_geo m_dirbase geo_of ftype database csize] in Rt. unfold root_len.
      destruct (l_type l); [exact Rt|exact Rt|]. rewrite P4 in Rt. clear - Rt. lia.
    - intros c C X. change (geo_of (drive' D) (start D fmt) l) with (geo_of D (start D fmt) l) in *. cbn [geo_of n_fatent] in C.
      rewrite En by (clear - C; lia). unfold files in X. cbn [geo_of ftype] in X.
      destruct c as [|p|p]; [clear - C; lia| |clear - C; lia].
      destruct p; [| |clear - C; lia].
      + destruct (l_type l); reflexivity.
      + destruct (l_type l); [reflexivity|reflexivity|].
        destruct (Z.eqb_spec (Z.pos (xO p)) 2) as [Y|_]; [|reflexivity]. elim X. rewrite Y. now left.
    - unfold files. cbn [geo_of ftype]. destruct (l_type l) eqn:T; constructor; [|constructor].
      cbn [chain geo_of n_fatent]. split; [clear - Nc; lia|]. split; [|exact I].
      change (geo_of (drive' D) (start D fmt) l) with (geo_of D (start D fmt) l) in En. rewrite En by (clear - Nc; lia).
      cbn [most] in Ty. clear - Ty. unfold MAX_FAT32 in Ty. change (2 =? 2) with true. cbv iota. lia.
    - split; apply En; clear - Nc; lia.
    - exact Vk.
    - destruct (l_type l); [rewrite Ev|rewrite Ev|destruct Ev as [Ev _]; rewrite Ev]; reflexivity. }
  split; [exact Dv|]. cbn [geo_of ftype volbase]. split.
  { intro T. destruct (l_type l); [rewrite Ev; split; reflexivity|rewrite Ev; split; reflexivity|now elim T]. }
  pose proof (wv_info _ _ _ _ _ _ _ W) as Wi. cbn [d_wr drive'] in Wi.
  split.
  { intros T Wr. rewrite T in Ev. destruct Ev as (_ & _ & Ev). specialize (Wi T). rewrite Wr in Wi. change (d_ss (drive' D)) with (d_ss D) in Wi.
    assert (L2 : forall i, 0 <= i < 511 -> ld2 (d' (start D fmt + 1)) i = ld2 (fsinfo (l_ncl l) nil_buf) i).
    { intros i I. unfold ld2. rewrite !Wi by (clear - I S; lia). reflexivity. }
    assert (L4 : forall i, 0 <= i < 509 -> ld4 (d' (start D fmt + 1)) i = ld4 (fsinfo (l_ncl l) nil_buf) i).
    { intros i I. unfold ld4. rewrite !Wi by (clear - I S; lia). reflexivity. }
    clear Wi. rewrite !L2, !L4 in Ev by (clear; lia). rewrite i_sig, i_lead, i_struc, i_free, i_next in Ev.
    destruct Ev as [V1 V2]; [reflexivity|reflexivity|reflexivity|]. split; [|exact V2]. rewrite V1.
    unfold n_clst. cbn [geo_of n_fatent]. rewrite T in Ty. cbn [most least] in Ty. unfold MAX_FAT32, MAX_FAT16 in Ty.
    rewrite w32_id; clear - Ty; lia. }
  { intros T Wr. specialize (Wi T). rewrite Wr in Wi. exact Wi. }
Qed.
