(* What formatting a drive must achieve: what mount_volume finds afterwards. *)
From Verif Require Import Base FatModel FatSpec MkfsModel MountModel.
Open Scope Z_scope.

(* The options: bit 0 FM_FAT, bit 1 FM_FAT32, bit 2 FM_EXFAT, bit 3 FM_SFD (the whole
   drive is one volume, without a partition table). *)
Definition wants (fmt i : Z) : bool := Z.testbit fmt i.

(* First sector of the volume. *)
Definition start (D : drive) (fmt : Z) : Z := if negb (wants fmt 3) && (63 <? d_size D) then 63 else 0.

Definition bytes (d : store) : Prop := forall s o, vbyte (d s o).

(* A drive of the modelled kind; sector numbers have 32 bits. *)
Record usable (D : drive) : Prop := {
  us_size : 0 <= d_size D < 4294967295;
  us_blk : 0 <= d_blk D }.

(* Clusters of a volume. *)
Definition n_clst (g : geo) : Z := n_fatent g - 2.

(* The volume [m] takes the rest of the drive behind its first sector: boot record and
   reserved sectors, one FAT, root directory, clusters, in this order; nothing overlaps,
   the clusters fill the drive, and the kind of FAT follows from their number and is one
   of those asked for. *)
Record laid_out (D : drive) (fmt : Z) (m : mounted) : Prop := {
  lo_geo : geo_ok (m_geo m);
  lo_start : volbase (m_geo m) = start D fmt;
  lo_whole : volbase (m_geo m) + m_totsec m = d_size D;
  lo_ss : ss (m_geo m) = d_ss D;
  lo_dsize : dsize (m_geo m) = d_size D;
  lo_fats : n_fats (m_geo m) = 1;
  lo_csize : In (csize (m_geo m)) [1; 2; 4; 8; 16; 32; 64; 128];
  lo_order : volbase (m_geo m) < fatbase (m_geo m);
  lo_root : match ftype (m_geo m) with
            | FAT32 => m_dirbase m = 2 /\ m_nroot m = 0 /\ database (m_geo m) = fatbase (m_geo m) + fsize (m_geo m)
            | _ => m_dirbase m = fatbase (m_geo m) + fsize (m_geo m) /\ m_nroot m = 512 /\
                   database (m_geo m) = m_dirbase m + 512 * 32 / ss (m_geo m)
            end;
  lo_data : database (m_geo m) + n_clst (m_geo m) * csize (m_geo m) <= d_size D < database (m_geo m) + (n_clst (m_geo m) + 1) * csize (m_geo m);
  lo_kind : match ftype (m_geo m) with
            | FAT12 => 1 <= n_clst (m_geo m) <= 4085
            | FAT16 => 4085 < n_clst (m_geo m) <= 65525
            | FAT32 => 65525 < n_clst (m_geo m) <= 268435445
            end;
  lo_asked : match ftype (m_geo m) with FAT32 => wants fmt 1 = true | _ => wants fmt 0 = true end }.

(* A master boot record with one partition from sector 63 to the end of the drive. *)
Definition kind_id (t : fat) (sz : Z) : Z :=
  match t with
  | FAT12 => if sz <? 65536 then 1 else 6
  | FAT16 => if sz <? 65536 then 4 else 6
  | FAT32 => 12
  end.
Record one_partition (w : Z -> Z) (sz id : Z) : Prop := {
  op_code : forall o, 0 <= o < 446 -> w o = 0;
  op_start : ld4 w 454 = 63;
  op_size : ld4 w 458 = sz;
  op_id : w 450 = id;
  op_rest : forall o, 462 <= o < 510 -> w o = 0;
  op_sig : w 510 = 85 /\ w 511 = 170 }.

(* The sectors of the root directory. *)
Definition root_sector (m : mounted) (s : Z) : Prop :=
  match ftype (m_geo m) with
  | FAT32 => database (m_geo m) <= s < database (m_geo m) + csize (m_geo m)
  | _ => m_dirbase m <= s < database (m_geo m)
  end.

(* An empty volume: the root directory is empty; no cluster is in use, except for the one
   of the root directory of a FAT32 volume. *)
Definition files (g : geo) : list (list Z) := match ftype g with FAT32 => [[2]] | _ => [] end.
Record blank (m : mounted) : Prop := {
  bl_root : forall s o, root_sector m s -> 0 <= o < ss (m_geo m) -> view (m_vol m) s o = 0;
  bl_entry : forall c, 2 <= c < n_fatent (m_geo m) -> ~ In c (concat (files (m_geo m))) -> entry (m_geo m) (m_vol m) c = 0;
  bl_chain : Forall (chain (m_geo m) (entry (m_geo m) (m_vol m))) (files (m_geo m));
  bl_media : entry (m_geo m) (m_vol m) 0 = modulus (ftype (m_geo m)) - 8 /\ entry (m_geo m) (m_vol m) 1 = modulus (ftype (m_geo m)) - 1;
  bl_vol : vol_ok (m_geo m) (m_vol m);
  bl_clean : wflag (m_vol m) = false }.

(* Every sector can be written, and the drive is ready. *)
Record perfect (D : drive) : Prop := {
  pf_size : 0 <= d_size D < 4294967295;
  pf_ss : d_ss D = 512 \/ d_ss D = 1024 \/ d_ss D = 2048 \/ d_ss D = 4096;
  pf_blk : d_blk D = 1;
  pf_ready : d_noinit D = false /\ d_protect D = false;
  pf_wr : forall s, 0 <= s < d_size D -> d_wr D s = true }.

(* The largest FAT16 volume has 65525 clusters of 128 sectors, behind the boot record, the
   FAT and the root directory; the smallest FAT32 volume has 65526 clusters of one sector,
   behind 32 reserved sectors and the FAT. *)
Definition fat_limit (ss : Z) : Z := 65525 * 128 + 127 + 1 + 131072 / ss + 16384 / ss.
Definition fat32_least (ss : Z) : Z :=
  65526 + 32 + if ss =? 512 then 517 else if ss =? 1024 then 258 else if ss =? 2048 then 129 else 65.

(* What f_mkfs must answer for such a drive: the volume has at least 128 sectors; FAT12 and
   FAT16 are for volumes up to the limit, FAT32 for volumes from the least size, and if
   both are allowed, there is always a suitable one. *)
Definition verdict (D : drive) (fmt : Z) : mkrc :=
  let sz := d_size D - start D fmt in
  if sz <? 128 then MK_ABORTED
  else if wants fmt 2 && ((negb (wants fmt 1) && negb (wants fmt 0)) || (67108864 <=? sz)) then MK_EXFAT
  else if wants fmt 0 then
    if wants fmt 1 then MK_OK else if sz <=? fat_limit (d_ss D) then MK_OK else MK_ABORTED
  else if wants fmt 1 then if fat32_least (d_ss D) <=? sz then MK_OK else MK_ABORTED
  else MK_INVALID_PARAMETER.

(* The sectors which may be written: the partition table, and everything from the boot
   record to the end of the root directory. *)
Definition overwritten (m : mounted) (s : Z) : Prop :=
  volbase (m_geo m) = 63 /\ s = 0 \/
  volbase (m_geo m) <= s < database (m_geo m) + match ftype (m_geo m) with FAT32 => csize (m_geo m) | _ => 0 end.

(* --- f_statfs ------------------------------------------------------------------- *)

(* The answer if [n] clusters are free. *)
Definition answer (m : mounted) (n : Z) : fs_info :=
  mkInfo (ftype (m_geo m)) (ss (m_geo m) * csize (m_geo m)) (m_totsec m / csize (m_geo m)) n n.

(* The volume is the same, sector by sector. *)
Definition kept (m m' : mounted) : Prop :=
  m_geo m' = m_geo m /\ m_dirbase m' = m_dirbase m /\ m_nroot m' = m_nroot m /\ m_totsec m' = m_totsec m /\
  vol_ok (m_geo m) (m_vol m') /\ last_clst (m_vol m') = last_clst (m_vol m) /\
  (forall s o, mine (m_geo m) s -> 0 <= o < ss (m_geo m) -> view (m_vol m') s o = view (m_vol m) s o).

(* --- mounting whatever is on the drive ---------------------------------------- *)

(* The fields of a boot record, Microsoft FAT specification 1.03 pages 9-12. *)
Definition u16 (w : Z -> Z) (i : Z) : Z := w i + 256 * w (i + 1).
Definition u32 (w : Z -> Z) (i : Z) : Z := u16 w i + 65536 * u16 w (i + 2).
Definition BytsPerSec w := u16 w 11.
Definition SecPerClus (w : Z -> Z) := w 13.
Definition RsvdSecCnt w := u16 w 14.
Definition NumFATs (w : Z -> Z) := w 16.
Definition RootEntCnt w := u16 w 17.
Definition TotSec w := if u16 w 19 =? 0 then u32 w 32 else u16 w 19.
Definition FATSz w := if u16 w 22 =? 0 then u32 w 36 else u16 w 22.
Definition RootDirSectors w := (RootEntCnt w * 32 + (BytsPerSec w - 1)) / BytsPerSec w.
Definition SystemSectors w := RsvdSecCnt w + NumFATs w * FATSz w + RootDirSectors w.
Definition CountOfClusters w := (TotSec w - SystemSectors w) / SecPerClus w.

(* The volume is what its boot record says. *)
Record as_recorded (D : drive) (d : store) (m : mounted) : Prop := {
  ar_boot : 0 <= volbase (m_geo m) < d_size D;
  ar_ss : ss (m_geo m) = d_ss D /\ BytsPerSec (d (volbase (m_geo m))) = d_ss D;
  ar_fat : fatbase (m_geo m) = volbase (m_geo m) + RsvdSecCnt (d (volbase (m_geo m)));
  ar_fsize : fsize (m_geo m) = FATSz (d (volbase (m_geo m)));
  ar_fats : n_fats (m_geo m) = NumFATs (d (volbase (m_geo m)));
  ar_csize : csize (m_geo m) = SecPerClus (d (volbase (m_geo m)));
  ar_data : database (m_geo m) = volbase (m_geo m) + SystemSectors (d (volbase (m_geo m)));
  ar_total : m_totsec m = TotSec (d (volbase (m_geo m)));
  ar_count : n_clst (m_geo m) = CountOfClusters (d (volbase (m_geo m)));
  ar_root : m_nroot m = RootEntCnt (d (volbase (m_geo m))) /\
            m_dirbase m = match ftype (m_geo m) with FAT32 => u32 (d (volbase (m_geo m))) 44
                          | _ => fatbase (m_geo m) + n_fats (m_geo m) * fsize (m_geo m) end;
  (* the specification has 4085 and 65525 in the other class *)
  ar_kind : ftype (m_geo m) = (if n_clst (m_geo m) <=? 4085 then FAT12 else if n_clst (m_geo m) <=? 65525 then FAT16 else FAT32);
  ar_disk : disk (m_vol m) = d /\ wflag (m_vol m) = false }.

(* The system areas do not reach 2^32 sectors, so that sums do not wrap. *)
Definition no_wrap (w : Z -> Z) : Prop := SystemSectors w < 4294967296.
