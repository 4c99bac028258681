(* Mounting whatever is on the drive. *)
From Verif Require Import Base FatModel FatSpec MkfsModel MountModel MkfsSpec MkfsProof MkfsProof8.
Open Scope Z_scope.

Lemma find_part_ok D d : forall pts w s fmt w' s', find_part D d w s pts fmt = (0, w', s') -> 2 <= fmt -> w' = d s' /\ 0 <= s' < d_size D.
Proof.
  induction pts as [|p pts IH]; intros w s fmt w' s' H F; cbn [find_part] in H.
  - injection H as H1 H2 H3. lia.
  - destruct (Z.eqb_spec p 0) as [->|P].
    + change (2 <=? 3) with true in H. cbv iota in H. apply (IH _ _ _ _ _ H). lia.
    + unfold check_fs in H. destruct ((0 <=? p) && (p <? d_size D)) eqn:B.
      * destruct (Z.leb_spec 2 (vbr_kind (d p))) as [K|K]; [apply (IH _ _ _ _ _ H K)|].
        injection H as H1 H2 H3. subst w' s'. split; [reflexivity|]. lia.
      * change (2 <=? 4) with true in H. cbv iota in H. apply (IH _ _ _ _ _ H). lia.
Qed.

Lemma find_ok0 D d w w' s : find_volume D d w = (0, w', s) -> w' = d s /\ 0 <= s < d_size D.
Proof.
  unfold find_volume, check_fs. change (0 <=? 0) with true. destruct (Z.ltb_spec 0 (d_size D)) as [L|L]; cbn [andb].
  - destruct (Z.eqb_spec (vbr_kind (d 0)) 2) as [E|E]; cbn [negb].
    + rewrite E. intro H. apply (find_part_ok _ _ _ _ _ _ _ _ H). lia.
    + intro H. injection H as H1 H2 H3. subst w' s. split; [reflexivity|lia].
  - change (negb (4 =? 2)) with true. cbv iota. intro H. discriminate H.
Qed.

Lemma kind_values w : vbr_kind w = 0 \/ vbr_kind w = 1 \/ vbr_kind w = 2 \/ vbr_kind w = 3.
Proof.
  unfold vbr_kind. repeat match goal with |- context [if ?b then _ else _] => destruct b end; auto.
Qed.

Lemma find_values D d w fmt w' s : find_volume D d w = (fmt, w', s) -> 0 <= fmt.
Proof.
  assert (X : forall pts w s fmt fmt' w' s', find_part D d w s pts fmt = (fmt', w', s') -> 0 <= fmt -> 0 <= fmt').
  { induction pts as [|p pts IH]; intros w0 s0 f0 f1 w1 s1 H F; cbn [find_part] in H; [injection H as H1 H2 H3; lia|].
    destruct (p =? 0).
    - change (2 <=? 3) with true in H. cbv iota in H. apply (IH _ _ _ _ _ _ H). lia.
    - unfold check_fs in H. pose proof (kind_values (d p)). destruct ((0 <=? p) && (p <? d_size D)).
      + destruct (2 <=? vbr_kind (d p)); [apply (IH _ _ _ _ _ _ H); lia|]. injection H as H1 H2 H3. lia.
      + change (2 <=? 4) with true in H. cbv iota in H. apply (IH _ _ _ _ _ _ H). lia. }
  unfold find_volume, check_fs. pose proof (kind_values (d 0)) as K. destruct ((0 <=? 0) && (0 <? d_size D)).
  - destruct (negb (vbr_kind (d 0) =? 2)); intro H; [injection H as H1 H2 H3; lia|]. apply (X _ _ _ _ _ _ _ H). lia.
  - change (negb (4 =? 2)) with true. cbv iota. intro H. injection H as H1 H2 H3. lia.
Qed.

Lemma pau_range c : 0 <= c < 256 -> c <> 0 -> Z.land c (c - 1) = 0 -> In c pows.
Proof.
  intros C N L. destruct (pow2 8 c) as (i & I & J); [change (2 ^ Z.of_nat 8) with 256; lia|exact L|].
  assert (X : i = 0 \/ i = 1 \/ i = 2 \/ i = 3 \/ i = 4 \/ i = 5 \/ i = 6 \/ i = 7) by lia. clear I L.
  unfold pows. repeat (destruct X as [X|X]; [rewrite X in J; cbn in J; subst c; cbn; tauto|]). rewrite X in J. cbn in J. subst c. cbn. tauto.
Qed.

Lemma root_secs s n : sizes s -> n mod (s / 32) = 0 -> (n * 32 + (s - 1)) / s = n / (s / 32).
Proof.
  intros [E|[E|[E|E]]] H; rewrite E in *.
  - change (512 / 32) with 16 in *. lia.
  - change (1024 / 32) with 32 in *. lia.
  - change (2048 / 32) with 64 in *. lia.
  - change (4096 / 32) with 128 in *. lia.
Qed.

Lemma mount_recorded D d w m : 0 <= d_size D < 4294967295 -> bytes d -> mount D d w = Mounted m ->
  no_wrap (d (volbase (m_geo m))) ->
  volbase (m_geo m) + m_totsec m <= d_size D ->
  as_recorded D d m /\ geo_ok (m_geo m) /\ In (csize (m_geo m)) [1; 2; 4; 8; 16; 32; 64; 128] /\
  volbase (m_geo m) < fatbase (m_geo m) /\
  database (m_geo m) + n_clst (m_geo m) * csize (m_geo m) <= volbase (m_geo m) + m_totsec m.
Proof.
  intros Us By H Nw Fit. unfold mount in H.
  destruct ((4096 <? d_ss D) || (d_ss D <? 512) || negb (Z.land (d_ss D) (d_ss D - 1) =? 0)) eqn:E1; [discriminate H|].
  pose proof (ss_sizes _ E1) as Ss. clear E1.
  assert (S : 512 <= d_ss D <= 4096) by (clear - Ss; destruct Ss as [E|[E|[E|E]]]; lia).
  destruct (find_volume D d w) as [[fmt w'] b] eqn:Ef.
  destruct (Z.eqb_spec fmt 4) as [_|F4]; [discriminate H|]. destruct (Z.leb_spec 2 fmt) as [_|F2]; [discriminate H|].
  destruct (Z.eqb_spec fmt 1) as [_|F1]; [discriminate H|].
  pose proof (find_values D d w _ _ _ Ef) as F0. assert (fmt = 0) as -> by lia. clear F0 F1 F2 F4.
  destruct (find_ok0 D d w w' b Ef) as [Ew Rb]. subst w'. clear Ef w.
  set (x := d b) in *. assert (Bx : forall i, 0 <= x i < 256) by (intro i; apply By).
  assert (L2 : forall i, ld2 x i = u16 x i) by reflexivity.
  assert (L4 : forall i, ld4 x i = u32 x i) by (intro i; unfold ld4, u32, u16; replace (i + 2 + 1) with (i + 3) by lia; lia).
  change ld2 with u16 in H. rewrite !L4 in H.
  assert (R2 : forall i, 0 <= u16 x i < 65536) by (intro i; unfold u16; pose proof (Bx i); pose proof (Bx (i + 1)); lia).
  assert (R4 : forall i, 0 <= u32 x i < 4294967296) by (intro i; unfold u32; pose proof (R2 i); pose proof (R2 (i + 2)); lia).
  destruct (Z.eqb_spec (u16 x 11) (d_ss D)) as [Es|_]; [|discriminate H]. cbn [negb] in H.
  fold (FATSz x) in H. fold (TotSec x) in H.
  assert (Rf : 0 <= FATSz x < 4294967296) by (unfold FATSz; destruct (u16 x 22 =? 0); [apply R4|pose proof (R2 22); lia]).
  assert (Rt : 0 <= TotSec x < 4294967296) by (unfold TotSec; destruct (u16 x 19 =? 0); [apply R4|pose proof (R2 19); lia]).
  destruct (negb (x 16 =? 1) && negb (x 16 =? 2)) eqn:En; [discriminate H|].
  assert (Nf : x 16 = 1 \/ x 16 = 2) by (clear - En; lia). clear En.
  destruct (Z.eqb_spec (x 13) 0) as [_|C0]; [discriminate H|]; cbn [orb] in H.
  destruct (Z.eqb_spec (Z.land (x 13) (x 13 - 1)) 0) as [C1|_]; [|discriminate H]; cbn [negb] in H.
  destruct (Z.eqb_spec (u16 x 17 mod (d_ss D / 32)) 0) as [Rm|_]; [|discriminate H]; cbn [negb] in H.
  destruct (Z.eqb_spec (u16 x 14) 0) as [_|Rs]; [discriminate H|].
  pose proof (root_secs _ _ Ss Rm) as Rd; rewrite <- Rd in H.
  pose proof (pau_range _ (Bx 13) C0 C1) as Cp.
  assert (Cr : 1 <= x 13 <= 128) by (clear - Cp; unfold pows in Cp; cbn [In] in Cp; lia).
  assert (Rd0 : 0 <= (u16 x 17 * 32 + (d_ss D - 1)) / d_ss D < 4294967296).
  1: rewrite Rd; pose proof (R2 17) as R17; clear - R17 Ss; destruct Ss as [E|[E|[E|E]]]; rewrite E;
    change (512 / 32) with 16; change (1024 / 32) with 32; change (2048 / 32) with 64; change (4096 / 32) with 128; lia.
  clear Rd.
  assert (Key : SystemSectors x < 4294967296 -> b + TotSec x <= d_size D ->
      forall sys, sys = w32 (u16 x 14 + w32 (FATSz x * x 16) + (u16 x 17 * 32 + (d_ss D - 1)) / d_ss D) -> sys = SystemSectors x /\ w32 (FATSz x * x 16) = x 16 * FATSz x).
  1: unfold SystemSectors, RsvdSecCnt, NumFATs, RootDirSectors, RootEntCnt, BytsPerSec; rewrite Es; intros W1 W2 sys ->;
    pose proof (R2 14) as R14; rewrite (w32_id (FATSz x * x 16)) by (clear - W1 Rf Nf R14 Rd0; nia);
    rewrite w32_id by (clear - W1 Rf Nf R14 Rd0; nia); split; [clear; lia|clear; lia].
  match type of H with context [TotSec x <? ?e] => set (sys := e) in H; specialize (fun a b => Key a b sys eq_refl) end.
  destruct (Z.ltb_spec (TotSec x) sys) as [_|Ts]; [discriminate H|].
  destruct (Z.eqb_spec ((TotSec x - sys) / x 13) 0) as [_|Nc0]; [discriminate H|].
  destruct (Z.ltb_spec MAX_FAT32 ((TotSec x - sys) / x 13)) as [_|Nc1]; [discriminate H|].
  set (n := (TotSec x - sys) / x 13) in *.
  set (t := if n <=? MAX_FAT12 then FAT12 else if n <=? MAX_FAT16 then FAT16 else FAT32) in *.
  match type of H with (if ?c then _ else _) = _ => destruct c eqn:Er; [discriminate H|] end.
  match type of H with (if FATSz x <? ?e then _ else _) = _ => destruct (Z.ltb_spec (FATSz x) e) as [_|Rom]; [discriminate H|] end.
  match type of H with (match ?e with _ => _ end) = _ => destruct e as [[[[w1 ws] fr] la] fi] end.
  injection H as H; subst m; cbn [m_geo m_vol m_dirbase m_nroot m_totsec volbase] in Nw, Fit |- *.
  cbn [fatbase csize database n_fatent ss fsize n_fats ftype dsize disk wflag] in *; fold x in Nw |- *; destruct (Key Nw Fit) as [Ks Kf]; clear Key.
  assert (Sys : sys = u16 x 14 + x 16 * FATSz x + (u16 x 17 * 32 + (d_ss D - 1)) / d_ss D)
    by (rewrite Ks; unfold SystemSectors, RsvdSecCnt, NumFATs, RootDirSectors, RootEntCnt, BytsPerSec; rewrite Es; reflexivity).
  assert (Nn : 1 <= n) by (clear - Nc0 Ts Cr; unfold n in *; pose proof (Z.div_pos (TotSec x - sys) (x 13)); lia).
  assert (Dm : n * x 13 <= TotSec x - sys) by (unfold n; rewrite Z.mul_comm; apply Z.mul_div_le; clear - Cr; lia).
  pose proof (R2 14) as R14.
  assert (Fb : w32 (b + u16 x 14) = b + u16 x 14) by (apply w32_id; clear - Rb R14 Us Fit Sys Ts Rd0 Nf Rf; nia).
  assert (Db : w32 (b + sys) = b + sys) by (apply w32_id; clear - Rb R14 Us Fit Sys Ts Rd0 Nf Rf; nia).
  assert (Db2 : w32 (b + u16 x 14 + w32 (FATSz x * x 16)) = b + u16 x 14 + x 16 * FATSz x) by (rewrite Kf; apply w32_id; clear - Rb R14 Us Fit Sys Ts Rd0 Nf Rf; nia).
  match type of Rom with w32 (?e + _) / _ <= _ => set (sb := e) in Rom end.
  assert (Sb : sb = match t with FAT32 => (n + 2) * 4 | FAT16 => (n + 2) * 2 | FAT12 => (n + 2) * 3 / 2 + n mod 2 end).
  { clear - Nn Nc1 t. unfold sb, MAX_FAT32 in *. clear sb.
    assert (Lb : Z.land (n + 2) 1 = n mod 2) by (change 1 with (Z.ones 1); rewrite Z.land_ones by lia; change (2 ^ 1) with 2; lia).
    rewrite Lb. destruct t; [reflexivity|apply w32_id; lia|apply w32_id; lia]. }
  assert (Sr : 1 <= sb <= 4 * (n + 2)) by (rewrite Sb; clear - Nn t; destruct t; lia).
  rewrite w32_id in Rom by (clear - Sr Nc1 S; unfold MAX_FAT32 in Nc1; lia).
  assert (Room : sb <= FATSz x * d_ss D)
    by (clear - Rom S; pose proof (Z.mul_succ_div_gt (sb + (d_ss D - 1)) (d_ss D)); nia).
  assert (Fpos : 1 <= FATSz x) by (clear - Room Sr S; nia).
  clearbody sb.
  split; [|split; [|split; [exact Cp|split; [rewrite Fb; clear - R14 Rs; lia|]]]].
  - constructor; cbn [m_geo m_vol m_dirbase m_nroot m_totsec volbase ss fatbase fsize n_fats csize database n_fatent ftype disk wflag]; fold x;
    [exact Rb|split; [reflexivity|exact Es]|exact Fb|reflexivity|reflexivity|reflexivity|rewrite Db, Ks; reflexivity|reflexivity
    |unfold n_clst; cbn [n_fatent]; unfold CountOfClusters, SecPerClus; rewrite <- Ks; fold n; clear; lia
    |split; [reflexivity|rewrite Fb, Db2; reflexivity]
    |unfold n_clst; cbn [n_fatent]; replace (n + 2 - 2) with n by (clear; lia); reflexivity
    |split; reflexivity].
  - constructor; cbn [ss fatbase fsize n_fats dsize n_fatent ftype];
    [exact Ss|rewrite Fb; clear - Rb R14 Rs; lia|clear - Fpos; lia|exact Nf
    |rewrite Fb; clear - Fit Ts Sys Nf Rd0; nia|apply Us|clear - Nn; lia
    |clear - Nc1 t; unfold t, MAX_FAT12, MAX_FAT16, MAX_FAT32 in *; destruct (Z.leb_spec n 4085); [lia|]; destruct (Z.leb_spec n 65525); lia
    |rewrite Sb in Room; clear - Room Nn; destruct t; lia].
  - rewrite Db; unfold n_clst; cbn [n_fatent]; replace (n + 2 - 2) with n by (clear; lia); clear - Dm; lia.
Qed.
