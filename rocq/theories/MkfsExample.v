(* Drives which are formatted, and what goes wrong. *)
From Verif Require Import Base FatModel FatSpec MkfsModel MountModel MkfsSpec MkfsProof14.
Open Scope Z_scope.

(* The flash memory: 480 sectors of 4096 bytes, erased; one volume (FM_FAT | FM_SFD).  A
   memory card: 70000 sectors, with a partition table (FM_FAT32). *)
Definition flash : drive := mkDrive 480 4096 1 false false (fun _ => true).
Definition card : drive := mkDrive 70000 512 1 false false (fun _ => true).
Definition erased : store := fun _ _ => 255.
Definition any_buf : Z -> Z := fun _ => 7.

Lemma erased_bytes : bytes erased. Proof. intros s o. unfold erased, vbyte. lia. Qed.
Lemma any_bytes o : vbyte (any_buf o). Proof. unfold any_buf, vbyte. lia. Qed.
Lemma flash_usable : usable flash. Proof. split; cbn; lia. Qed.
Lemma card_usable : usable card. Proof. split; cbn; lia. Qed.
Lemma flash_perfect : perfect flash. Proof. split; cbn; auto; lia. Qed.
Lemma card_perfect : perfect card. Proof. split; cbn; auto; lia. Qed.

Lemma flash_done : exists d', f_mkfs 4 flash erased 9 any_buf 4096 12345 = Ok (MK_OK, d').
Proof. exact (format_perfect 4 flash erased 9 any_buf 4096 12345 flash_perfect erased_bytes any_bytes (Z.le_refl _) (le_n _)). Qed.
Lemma card_done : exists d', f_mkfs 4 card erased 2 any_buf 4096 12345 = Ok (MK_OK, d').
Proof. exact (format_perfect 4 card erased 2 any_buf 4096 12345 card_perfect erased_bytes any_bytes (Z.le_refl _) (le_n _)). Qed.

(* What is found on the drives. *)
Definition seen (D : drive) (r : res (mkrc * store)) : option (fat * Z * Z * Z * Z * Z * Z) :=
  match r with
  | Ok (MK_OK, d') =>
      match mount D d' (fun _ => 0) with
      | Mounted m => Some (ftype (m_geo m), volbase (m_geo m), fatbase (m_geo m), database (m_geo m), csize (m_geo m), n_clst (m_geo m), free_clst (m_vol m))
      | _ => None
      end
  | _ => None
  end.
Lemma flash_seen : seen flash (f_mkfs 4 flash erased 9 any_buf 4096 12345) = Some (FAT12, 0, 1, 6, 1, 474, ERR).
Proof. vm_compute. reflexivity. Qed.
Lemma card_seen : seen card (f_mkfs 4 card erased 2 any_buf 4096 12345) = Some (FAT32, 63, 95, 642, 1, 69358, 69357).
Proof. vm_compute. reflexivity. Qed.

(* Erase blocks of 1024 sectors: the FAT is extended to the end of the drive. *)
Definition blocks : drive := mkDrive 1024 512 1024 false false (fun _ => true).
Lemma blocks_lost : exists d', f_mkfs 4 blocks erased 9 any_buf 4096 0 = Ok (MK_OK, d') /\ forall w, mount blocks d' w = No_filesystem.
Proof.
  assert (X : match f_mkfs 4 blocks erased 9 any_buf 4096 0 with
              | Ok (MK_OK, d') => match mount blocks d' (fun _ => 0) with No_filesystem => true | _ => false end
              | _ => false end = true) by (vm_compute; reflexivity).
  destruct (f_mkfs 4 blocks erased 9 any_buf 4096 0) as [[[] d']| |]; try discriminate X.
  exists d'. split; [reflexivity|]. intro w.
  assert (Y : mount blocks d' w = mount blocks d' (fun _ => 0)) by reflexivity.
  rewrite Y. destruct (mount blocks d' (fun _ => 0)); try discriminate X. reflexivity.
Qed.

(* A card whose sector 64 cannot be written, with the count of an earlier volume. *)
Definition worn : drive := mkDrive 70000 512 1 false false (fun s => negb (s =? 64)).
Definition old : store := fun s => if s =? 64 then fsinfo 6 (fun _ => 0) else fun _ => 0.
Lemma worn_usable : usable worn. Proof. split; cbn; lia. Qed.
Lemma old_bytes : bytes old.
Proof.
  intros s o. unfold old. destruct (s =? 64); [|unfold vbyte; lia].
  apply MkfsProof3.fsinfo_tame. intro i. lia.
Qed.
Lemma stale : exists d' m m' info, f_mkfs 4 worn old 2 any_buf 4096 0 = Ok (MK_OK, d') /\
  mount worn d' (fun _ => 0) = Mounted m /\ blank m /\ n_clst (m_geo m) = 69358 /\
  f_statfs 1 m = Ok (m', FR_OK, Some info) /\ f_bfree info = 5.
Proof.
  assert (X : match f_mkfs 4 worn old 2 any_buf 4096 0 with
              | Ok (MK_OK, d') => match mount worn d' (fun _ => 0) with
                                  | Mounted m => if n_clst (m_geo m) =? 69358 then free_clst (m_vol m) =? 5 else false
                                  | _ => false end
              | _ => false end = true) by (vm_compute; reflexivity).
  destruct (f_mkfs 4 worn old 2 any_buf 4096 0) as [[[] d']| |] eqn:E; try discriminate X.
  destruct (format_blank 4 worn old 2 any_buf 4096 0 d' worn_usable old_bytes any_bytes ltac:(lia) (le_n _) ltac:(cbn; lia) E (fun _ => 0)) as (m & M & B & _).
  rewrite M in X. destruct (Z.eqb_spec (n_clst (m_geo m)) 69358) as [N|]; [|discriminate X].
  apply Z.eqb_eq in X.
  exists d', m, (mkMounted (m_geo m) (m_vol m) (m_dirbase m) (m_nroot m) (m_totsec m)), (answer m 5).
  repeat (split; [first [exact M|exact B|exact N|reflexivity]|]).
  split; [|reflexivity]. unfold n_clst in N. unfold f_statfs, answer. rewrite X.
  replace (n_fatent (m_geo m)) with 69360 by lia. reflexivity.
Qed.

(* A work buffer of one sector is too small for the partition table. *)
Lemma small_buffer : f_mkfs 4 card erased 2 any_buf 512 0 = Ub.
Proof. vm_compute. reflexivity. Qed.

(* Boot records: a FAT32 volume of 70000 sectors with two FATs of [fz] sectors. *)
Definition boot (fz : Z) : Z -> Z :=
  poke (poke (poke (poke (poke (poke (poke (poke (fun _ => 0) 0 [235]) 11 (le2 512)) 13 [1; 32; 0; 2]) 32 (le4 70000)) 36 (le4 fz)) 44 [2]) 82 fat32_) 510 [85; 170].
Definition on (w : Z -> Z) : store := fun s => if s =? 0 then w else fun _ => 0.
Lemma boot_bytes fz : bytes (on (boot fz)).
Proof.
  intros s o. unfold on. destruct (s =? 0); [|unfold vbyte; lia].
  unfold boot. repeat (apply MkfsProof3.poke_tame; [|first [apply MkfsProof3.le2_bytes|apply MkfsProof3.le4_bytes|repeat constructor; lia]]).
  intro i. lia.
Qed.
Definition big : drive := mkDrive 100000 512 1 false false (fun _ => true).
Definition small : drive := mkDrive 1000 512 1 false false (fun _ => true).

Lemma boot_ok : exists m, mount big (on (boot 600)) (fun _ => 0) = Mounted m /\ no_wrap (on (boot 600) (volbase (m_geo m))) /\
  volbase (m_geo m) + m_totsec m <= d_size big /\ ftype (m_geo m) = FAT32 /\ n_clst (m_geo m) = 68768.
Proof.
  eexists. split; [vm_compute; reflexivity|]. cbn [m_geo volbase m_totsec ftype]. split; [|split; [|split]]; vm_compute; try reflexivity. discriminate.
Qed.
Lemma boot_wrap : exists m, mount big (on (boot 2147483649)) (fun _ => 0) = Mounted m /\ volbase (m_geo m) + m_totsec m <= d_size big /\
  300 < n_fatent (m_geo m) /\ fatbase (m_geo m) + 4 * 300 / ss (m_geo m) = database (m_geo m).
Proof.
  eexists. split; [vm_compute; reflexivity|]. cbn [m_geo volbase m_totsec ftype]. split; [|split]; vm_compute; try reflexivity. discriminate.
Qed.
Lemma boot_beyond : exists m, mount small (on (boot 600)) (fun _ => 0) = Mounted m /\ no_wrap (on (boot 600) (volbase (m_geo m))) /\
  d_size small < database (m_geo m).
Proof.
  eexists. split; [vm_compute; reflexivity|]. cbn [m_geo volbase m_totsec ftype]. split; vm_compute; reflexivity.
Qed.

(* The flash memory has 474 clusters, but 480 are reported. *)
Lemma overstated : exists d' m m' info, f_mkfs 4 flash erased 9 any_buf 4096 0 = Ok (MK_OK, d') /\
  mount flash d' (fun _ => 0) = Mounted m /\ blank m /\ f_statfs 1000 m = Ok (m', FR_OK, Some info) /\
  f_bfree info = n_clst (m_geo m) /\ n_clst (m_geo m) < f_blocks info.
Proof.
  assert (X : match f_mkfs 4 flash erased 9 any_buf 4096 0 with
              | Ok (MK_OK, d') => match mount flash d' (fun _ => 0) with
                                  | Mounted m => match f_statfs 1000 m with
                                                 | Ok (m', FR_OK, Some info) => if f_bfree info =? n_clst (m_geo m) then n_clst (m_geo m) <? f_blocks info else false
                                                 | _ => false end
                                  | _ => false end
              | _ => false end = true) by (vm_compute; reflexivity).
  destruct (f_mkfs 4 flash erased 9 any_buf 4096 0) as [[[] d']| |] eqn:E; try discriminate X.
  destruct (format_blank 4 flash erased 9 any_buf 4096 0 d' flash_usable erased_bytes any_bytes ltac:(lia) (le_n _) ltac:(cbn; lia) E (fun _ => 0)) as (m & M & B & _).
  rewrite M in X. destruct (f_statfs 1000 m) as [[[m' []] [info|]]| |] eqn:F; try discriminate X.
  exists d', m, m', info. destruct (Z.eqb_spec (f_bfree info) (n_clst (m_geo m))) as [N|]; [|discriminate X]. apply Z.ltb_lt in X.
  repeat (split; [first [exact M|exact B|exact F|exact N|reflexivity]|]). exact X.
Qed.

Lemma flash_owned : exists d' m, f_mkfs 4 flash erased 9 any_buf 4096 12345 = Ok (MK_OK, d') /\ mount flash d' (fun _ => 0) = Mounted m /\
  geo_ok (m_geo m) /\ owns (m_geo m) (m_vol m) (files (m_geo m)).
Proof.
  destruct flash_done as (d' & E).
  destruct (format_mount 4 flash erased 9 any_buf 4096 12345 d' flash_usable erased_bytes any_bytes ltac:(lia) (le_n _) ltac:(cbn; lia) E (fun _ => 0)) as (m & M & L & _).
  destruct (format_blank 4 flash erased 9 any_buf 4096 12345 d' flash_usable erased_bytes any_bytes ltac:(lia) (le_n _) ltac:(cbn; lia) E (fun _ => 0)) as (m2 & M2 & _ & O).
  rewrite M in M2. injection M2 as <-. exists d', m. split; [exact E|]. split; [exact M|]. split; [apply L|]. apply O. right. reflexivity.
Qed.

Lemma flash_blk : d_blk flash <= 16. Proof. cbn. lia. Qed.
Lemma blocks_refuted : exists D d', usable D /\ bytes erased /\
  f_mkfs 4 D erased 9 any_buf 4096 0 = Ok (MK_OK, d') /\ forall w, mount D d' w = No_filesystem.
Proof. destruct blocks_lost as (d' & H). exists blocks, d'. split; [split; cbn; lia|]. split; [exact erased_bytes|exact H]. Qed.
Lemma stale_refuted : exists d' m m' info, usable worn /\ bytes old /\ f_mkfs 4 worn old 2 any_buf 4096 0 = Ok (MK_OK, d') /\
  mount worn d' (fun _ => 0) = Mounted m /\ blank m /\ n_clst (m_geo m) = 69358 /\
  f_statfs 1 m = Ok (m', FR_OK, Some info) /\ f_bfree info = 5.
Proof.
  destruct stale as (d' & m & m' & info & H). exists d', m, m', info. split; [exact worn_usable|]. split; [exact old_bytes|]. exact H.
Qed.
Lemma wrap_refuted : exists D d m, 0 <= d_size D < 4294967295 /\ bytes d /\ mount D d (fun _ => 0) = Mounted m /\
  volbase (m_geo m) + m_totsec m <= d_size D /\ 300 < n_fatent (m_geo m) /\
  fatbase (m_geo m) + 4 * 300 / ss (m_geo m) = database (m_geo m).
Proof.
  destruct boot_wrap as (m & H). exists big, (on (boot 2147483649)), m. split; [cbn; lia|]. split; [apply boot_bytes|exact H].
Qed.
Lemma size_refuted : exists D d m, 0 <= d_size D < 4294967295 /\ bytes d /\ mount D d (fun _ => 0) = Mounted m /\
  no_wrap (d (volbase (m_geo m))) /\ d_size D < database (m_geo m).
Proof.
  destruct boot_beyond as (m & H). exists small, (on (boot 600)), m. split; [cbn; lia|]. split; [apply boot_bytes|exact H].
Qed.
