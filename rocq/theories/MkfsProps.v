(* Formatting a drive, mounting a volume and counting its free clusters: f_mkfs,
   mount_volume and f_statfs (fatfs/fatfs.c). *)
From Verif Require Import Base FatModel FatSpec MkfsModel MountModel MkfsSpec MkfsProof10 MkfsProof11 MkfsProof14 MkfsExample.
Open Scope Z_scope.

(* After a successful f_mkfs the drive can be mounted, and the volume is laid out as it
   must be. *)
Theorem C88_mount fuel D d fmt buf len t d' : usable D -> bytes d -> (forall o, vbyte (buf o)) -> 0 <= len -> (4 <= fuel)%nat ->
  d_blk D <= 16 -> f_mkfs fuel D d fmt buf len t = Ok (MK_OK, d') -> forall w, exists m,
  mount D d' w = Mounted m /\ laid_out D fmt m /\ disk (m_vol m) = d' /\
  (start D fmt = 63 -> one_partition (d' 0) (d_size D - 63) (kind_id (ftype (m_geo m)) (d_size D - 63))).
Proof. exact (format_mount fuel D d fmt buf len t d'). Qed.
Print Assumptions C88_mount.

(* Not so on a drive with large erase blocks. *)
Theorem C88_refuted : exists D d', usable D /\ bytes erased /\
  f_mkfs 4 D erased 9 any_buf 4096 0 = Ok (MK_OK, d') /\ forall w, mount D d' w = No_filesystem.
Proof. exact blocks_refuted. Qed.
Print Assumptions C88_refuted.

Example C88_example : usable flash /\ bytes erased /\ (forall o, vbyte (any_buf o)) /\ d_blk flash <= 16 /\
  (exists d', f_mkfs 4 flash erased 9 any_buf 4096 12345 = Ok (MK_OK, d')) /\
  (exists d', f_mkfs 4 card erased 2 any_buf 4096 12345 = Ok (MK_OK, d')) /\
  seen flash (f_mkfs 4 flash erased 9 any_buf 4096 12345) = Some (FAT12, 0, 1, 6, 1, 474, ERR) /\
  seen card (f_mkfs 4 card erased 2 any_buf 4096 12345) = Some (FAT32, 63, 95, 642, 1, 69358, 69357).
Proof. exact (conj flash_usable (conj erased_bytes (conj any_bytes (conj flash_blk (conj flash_done (conj card_done (conj flash_seen card_seen))))))). Qed.

(* The volume is empty; every cluster is free, except for the root directory of a FAT32
   volume, and f_statfs says so. *)
Theorem C89_empty fuel D d fmt buf len t d' : usable D -> bytes d -> (forall o, vbyte (buf o)) -> 0 <= len -> (4 <= fuel)%nat ->
  d_blk D <= 16 -> f_mkfs fuel D d fmt buf len t = Ok (MK_OK, d') -> forall w, exists m,
  mount D d' w = Mounted m /\ blank m /\
  (ftype (m_geo m) <> FAT32 \/ d_wr D (volbase (m_geo m) + 1) = true ->
     owns (m_geo m) (m_vol m) (files (m_geo m)) /\
     forall fuel', (Z.to_nat (n_fatent (m_geo m)) <= fuel')%nat -> exists m',
       f_statfs fuel' m = Ok (m', FR_OK, Some (answer m (n_clst (m_geo m) - Z.of_nat (length (files (m_geo m)))))) /\ kept m m').
Proof. exact (format_blank fuel D d fmt buf len t d'). Qed.
Print Assumptions C89_empty.

(* If the FSINFO sector cannot be written, f_mkfs succeeds all the same, and f_statfs
   gives the count of an earlier volume. *)
Theorem C89_refuted : exists d' m m' info, usable worn /\ bytes old /\ f_mkfs 4 worn old 2 any_buf 4096 0 = Ok (MK_OK, d') /\
  mount worn d' (fun _ => 0) = Mounted m /\ blank m /\ n_clst (m_geo m) = 69358 /\
  f_statfs 1 m = Ok (m', FR_OK, Some info) /\ f_bfree info = 5.
Proof. exact stale_refuted. Qed.
Print Assumptions C89_refuted.

Example C89_example : d_wr card 64 = true /\ exists d', f_mkfs 4 card erased 2 any_buf 4096 12345 = Ok (MK_OK, d').
Proof. exact (conj eq_refl card_done). Qed.

(* What f_mkfs leaves alone: everything, if it refuses; the data area, if it succeeds; the
   partition table and the sectors outside of the volume, if the drive fails. *)
Theorem C90_frame fuel D d fmt buf len t d' r : usable D -> bytes d -> (forall o, vbyte (buf o)) -> 0 <= len -> (4 <= fuel)%nat ->
  f_mkfs fuel D d fmt buf len t = Ok (r, d') ->
  match r with
  | MK_OK => d_blk D <= 16 -> forall w m, mount D d' w = Mounted m -> forall s, ~ overwritten m s -> d' s = d s
  | MK_DISK_ERR => forall s, s < start D fmt \/ d_size D <= s -> d' s = d s
  | _ => d' = d
  end.
Proof. exact (fun U B V L F => format_frame fuel D d fmt buf len t d' U B V L F r). Qed.
Print Assumptions C90_frame.

(* It ends and stays within the work buffer if there is no partition table or the buffer
   has 4096 bytes. *)
Theorem C90_safe fuel D d fmt buf len t : usable D -> bytes d -> (forall o, vbyte (buf o)) -> 0 <= len -> (4 <= fuel)%nat ->
  wants fmt 3 = true \/ 4096 <= len -> exists r d', f_mkfs fuel D d fmt buf len t = Ok (r, d').
Proof. exact (format_safe fuel D d fmt buf len t). Qed.
Print Assumptions C90_safe.

(* A work buffer of one sector, which f_mkfs accepts, is written beyond its end. *)
Theorem C90_refuted : usable card /\ bytes erased /\ (forall o, vbyte (any_buf o)) /\ f_mkfs 4 card erased 2 any_buf 512 0 = Ub.
Proof. exact (conj card_usable (conj erased_bytes (conj any_bytes small_buffer))). Qed.
Print Assumptions C90_refuted.

Example C90_example : wants 9 3 = true /\ wants 2 3 = false /\ start card 2 = 63 /\ start flash 9 = 0.
Proof. exact (conj eq_refl (conj eq_refl (conj eq_refl eq_refl))). Qed.

(* Which volumes can be made: on a drive which does not fail, the answer depends only on
   the size of the volume and the options. *)
Theorem C91_verdict fuel D d fmt buf len t : perfect D -> bytes d -> (forall o, vbyte (buf o)) -> 4096 <= len -> (4 <= fuel)%nat ->
  exists d', f_mkfs fuel D d fmt buf len t = Ok (verdict D fmt, d').
Proof. exact (format_perfect fuel D d fmt buf len t). Qed.
Print Assumptions C91_verdict.

Example C91_example : perfect flash /\ perfect card /\ verdict flash 9 = MK_OK /\ verdict flash 10 = MK_ABORTED /\ verdict flash 1 = MK_OK /\
  verdict card 2 = MK_OK /\ verdict card 1 = MK_OK /\ verdict card 8 = MK_INVALID_PARAMETER /\
  fat_limit 512 = 8387616 /\ fat32_least 512 = 66075.
Proof. exact (conj flash_perfect (conj card_perfect (conj eq_refl (conj eq_refl (conj eq_refl (conj eq_refl (conj eq_refl (conj eq_refl (conj eq_refl eq_refl))))))))). Qed.

(* Whatever the drive contains: a volume which is mounted is what its boot record says,
   and nothing overlaps. *)
Theorem C92_sound D d w m : 0 <= d_size D < 4294967295 -> bytes d -> mount D d w = Mounted m ->
  no_wrap (d (volbase (m_geo m))) -> volbase (m_geo m) + m_totsec m <= d_size D ->
  as_recorded D d m /\ geo_ok (m_geo m) /\ In (csize (m_geo m)) [1; 2; 4; 8; 16; 32; 64; 128] /\
  volbase (m_geo m) < fatbase (m_geo m) /\
  database (m_geo m) + n_clst (m_geo m) * csize (m_geo m) <= volbase (m_geo m) + m_totsec m.
Proof. exact (mount_recorded D d w m). Qed.
Print Assumptions C92_sound.

(* The size of the FATs is not checked: cluster 2 and the FAT entry of cluster 300 are in
   the same sector. *)
Theorem C92_wrap_refuted : exists D d m, 0 <= d_size D < 4294967295 /\ bytes d /\ mount D d (fun _ => 0) = Mounted m /\
  volbase (m_geo m) + m_totsec m <= d_size D /\ 300 < n_fatent (m_geo m) /\
  fatbase (m_geo m) + 4 * 300 / ss (m_geo m) = database (m_geo m).
Proof. exact wrap_refuted. Qed.
Print Assumptions C92_wrap_refuted.

(* The size of the drive is not checked: all clusters are beyond its end. *)
Theorem C92_size_refuted : exists D d m, 0 <= d_size D < 4294967295 /\ bytes d /\ mount D d (fun _ => 0) = Mounted m /\
  no_wrap (d (volbase (m_geo m))) /\ d_size D < database (m_geo m).
Proof. exact size_refuted. Qed.
Print Assumptions C92_size_refuted.

Example C92_example : exists m, mount big (on (boot 600)) (fun _ => 0) = Mounted m /\ no_wrap (on (boot 600) (volbase (m_geo m))) /\
  volbase (m_geo m) + m_totsec m <= d_size big /\ ftype (m_geo m) = FAT32 /\ n_clst (m_geo m) = 68768.
Proof. exact boot_ok. Qed.

(* f_statfs counts the free clusters and changes nothing. *)
Theorem C93_count m fuel cs : geo_ok (m_geo m) -> owns (m_geo m) (m_vol m) cs ->
  (ftype (m_geo m) <> FAT12 -> entry (m_geo m) (m_vol m) 0 <> 0 /\ entry (m_geo m) (m_vol m) 1 <> 0) ->
  (Z.to_nat (n_fatent (m_geo m)) <= fuel)%nat ->
  exists m', f_statfs fuel m = Ok (m', FR_OK, Some (answer m (count_free (m_geo m) (entry (m_geo m) (m_vol m))))) /\ kept m m' /\
    owns (m_geo m) (m_vol m') cs /\ free_clst (m_vol m') = count_free (m_geo m) (entry (m_geo m) (m_vol m)).
Proof. exact (statfs_owns m fuel cs). Qed.
Print Assumptions C93_count.

(* The number of blocks is that of the whole volume, not of its clusters. *)
Theorem C93_refuted : exists d' m m' info, f_mkfs 4 flash erased 9 any_buf 4096 0 = Ok (MK_OK, d') /\
  mount flash d' (fun _ => 0) = Mounted m /\ blank m /\ f_statfs 1000 m = Ok (m', FR_OK, Some info) /\
  f_bfree info = n_clst (m_geo m) /\ n_clst (m_geo m) < f_blocks info.
Proof. exact overstated. Qed.
Print Assumptions C93_refuted.

Example C93_example : exists d' m, f_mkfs 4 flash erased 9 any_buf 4096 12345 = Ok (MK_OK, d') /\ mount flash d' (fun _ => 0) = Mounted m /\
  geo_ok (m_geo m) /\ owns (m_geo m) (m_vol m) (files (m_geo m)).
Proof. exact flash_owned. Qed.
