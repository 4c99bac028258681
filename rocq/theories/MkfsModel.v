(* Model of f_mkfs and create_partition in fatfs/fatfs.c for FAT12, FAT16 and FAT32
   volumes.  The exFAT part (lines 5730-5905) is left out: where f_mkfs would begin
   it, the model gives the outcome MK_EXFAT.  f_mkfs always uses the default
   parameters (line 5659), so there is one FAT and 512 entries in the root directory
   of a FAT12 or FAT16 volume; these constants are substituted. *)
From Verif Require Import Base FatModel.
Open Scope Z_scope.

(* A drive, as seen through disk_initialize, disk_ioctl and disk_write: sectors, bytes
   of a sector, sectors of an erase block, status, and the sectors which can be
   written. *)
Record drive := mkDrive {
  d_size : Z; d_ss : Z; d_blk : Z; d_noinit : bool; d_protect : bool; d_wr : Z -> bool }.

(* fs_result_t, include/fpm/fs.h:18-41, as far as it is needed *)
Inductive mkrc := MK_OK | MK_DISK_ERR | MK_NOT_READY | MK_WRITE_PROTECTED | MK_ABORTED
                | MK_NOT_ENOUGH_CORE | MK_INVALID_PARAMETER | MK_EXFAT.

Definition store := Z -> Z -> Z.

Definition sectors (s n : Z) : list Z := map (fun i => s + Z.of_nat i) (seq 0 (Z.to_nat n)).

(* disk_write: [n] sectors from the work buffer, whose size is [len].  A write fails if
   it is empty, leaves the drive or meets a sector which cannot be written; then nothing
   is written (a simplification). *)
Definition put (D : drive) (d : store) (buf : Z -> Z) (len s n : Z) : res (bool * store) :=
  if len <? n * d_ss D then Ub
  else if (n =? 0) || (d_size D <? s + n) || negb (forallb (d_wr D) (sectors s n)) then Ok (false, d)
  else Ok (true, fun t => if (s <=? t) && (t <? s + n) then fun o => buf ((t - s) * d_ss D + o) else d t).

(* memset(buf, 0, n) *)
Definition clear (buf : Z -> Z) (len n : Z) : res (Z -> Z) :=
  if len <? n then Ub else Ok (fun o => if (0 <=? o) && (o <? n) then 0 else buf o).

(* Storing bytes.  All offsets are constants below 512, and the work buffer is at least
   one sector long. *)
Fixpoint poke (b : Z -> Z) (o : Z) (l : list Z) : Z -> Z :=
  match l with
  | [] => b
  | x :: l => poke (upd b o x) (o + 1) l
  end.
(* st_word, st_dword, fatfs/fatfs.c:461-478 *)
Definition le2 (x : Z) : list Z := [w8 x; w8 (x / 256)].
Definition le4 (x : Z) : list Z := [w8 x; w8 (x / 256); w8 (x / 65536); w8 (x / 16777216)].

Definition MAX_FAT12 := 4085.
Definition MAX_FAT16 := 65525.
Definition MAX_FAT32 := 268435445.

(* --- choosing the layout, fatfs/fatfs.c:5911-6015 ----------------------------- *)

Record layout := mkLay { l_type : fat; l_pau : Z; l_rsv : Z; l_fat : Z; l_dir : Z; l_base : Z; l_ncl : Z }.

(* The cluster sizes, fatfs/fatfs.c:5616-5621 and 5918-5920, 5931-5933 *)
Fixpoint auto (cs : list Z) (n pau : Z) : Z :=
  match cs with
  | c :: cs => if c <=? n then auto cs n (w32 (pau * 2)) else pau
  | [] => pau
  end.
Definition cst := [1; 4; 16; 64; 256; 512].
Definition cst32 := [1; 2; 4; 8; 16; 32].

(* One pass of the loop up to the final check, fatfs/fatfs.c:5912-5981: the cluster size
   and, unless the volume is unsuitable, the layout. *)
Definition try (D : drive) (b_vol sz_vol : Z) (ty : fat) (sz_au : Z) : Z * option layout :=
  let s := d_ss D in
  let '(pau, ty, sz_fat, sz_rsv, sz_dir, bad) :=
    match ty with
    | FAT32 =>
        let pau := if sz_au =? 0 then auto cst32 (sz_vol / 131072) 1 else sz_au in
        let n_clst := sz_vol / pau in
        (pau, FAT32, w32 (w32 (n_clst * 4) + 8 + s - 1) / s, 32, 0, (n_clst <=? MAX_FAT16) || (MAX_FAT32 <? n_clst))
    | _ =>
        let pau := if sz_au =? 0 then auto cst (sz_vol / 4096) 1 else sz_au in
        let n_clst := sz_vol / pau in
        let '(ty, n) := if MAX_FAT12 <? n_clst then (ty, w32 (n_clst * 2 + 4)) else (FAT12, w32 (w32 (n_clst * 3 + 1) / 2 + 3)) in
        (pau, ty, w32 (n + s - 1) / s, 1, 512 * 32 / s, false)
    end in
  if (bad : bool) then (pau, None)
  else
    let b_fat := w32 (b_vol + sz_rsv) in
    let b_data := w32 (b_fat + sz_fat + sz_dir) in
    let n := w32 (Z.ldiff (w32 (b_data + d_blk D - 1)) (d_blk D - 1) - b_data) in
    let '(sz_rsv, b_fat, sz_fat) :=
      match ty with FAT32 => (w32 (sz_rsv + n), w32 (b_fat + n), sz_fat) | _ => (sz_rsv, b_fat, w32 (sz_fat + n)) end in
    if sz_vol <? w32 (b_data + pau * 16 - b_vol) then (pau, None)
    else (pau, Some (mkLay ty pau sz_rsv sz_fat sz_dir b_fat (w32 (sz_vol - sz_rsv - sz_fat - sz_dir) / pau))).

(* The loop, fatfs/fatfs.c:5911-6015; [f32]: FAT32 is allowed.  No layout: aborted. *)
Fixpoint choose (fuel : nat) (D : drive) (b_vol sz_vol : Z) (f32 : bool) (ty : fat) (sz_au : Z) : res (option layout) :=
  match fuel with
  | O => NoFuel
  | S k =>
      match try D b_vol sz_vol ty sz_au with
      | (_, None) => Ok None
      | (pau, Some l) =>
          match l_type l with
          | FAT32 =>
              if l_ncl l <=? MAX_FAT16 then
                if (sz_au =? 0) && negb (pau / 2 =? 0) then choose k D b_vol sz_vol f32 FAT32 (pau / 2) else Ok None
              else Ok (Some l)
          | FAT16 =>
              if MAX_FAT16 <? l_ncl l then
                if (sz_au =? 0) && (pau * 2 <=? 64) then choose k D b_vol sz_vol f32 FAT16 (pau * 2)
                else if f32 then choose k D b_vol sz_vol f32 FAT32 sz_au
                else if (sz_au =? 0) && (pau * 2 <=? 128) then choose k D b_vol sz_vol f32 FAT16 (pau * 2)
                else Ok None
              else if l_ncl l <=? MAX_FAT12 then
                if (sz_au =? 0) && (pau * 2 <=? 128) then choose k D b_vol sz_vol f32 FAT16 (pau * 2) else Ok None
              else Ok (Some l)
          | FAT12 => if MAX_FAT12 <? l_ncl l then Ok None else Ok (Some l)
          end
      end
  end.

(* --- the records -------------------------------------------------------------- *)

Definition msdos := [235; 254; 144; 77; 83; 68; 79; 83; 53; 46; 48]. (* EB FE 90 MSDOS5.0 *)
Definition no_name := [78; 79; 32; 78; 65; 77; 69; 32; 32; 32; 32].
Definition fat32_ := [70; 65; 84; 51; 50; 32; 32; 32].
Definition fat_ := [70; 65; 84; 32; 32; 32; 32; 32].

(* The boot record, fatfs/fatfs.c:6023-6071; the sector is clear before. *)
Definition vbr (D : drive) (b_vol sz_vol vsn : Z) (l : layout) (b : Z -> Z) : Z -> Z :=
  let b := poke b 0 msdos in
  let b := poke b 11 (le2 (d_ss D)) in
  let b := poke b 13 [w8 (l_pau l)] in
  let b := poke b 14 (le2 (l_rsv l)) in
  let b := poke b 16 [1] in
  let b := poke b 17 (le2 (match l_type l with FAT32 => 0 | _ => 512 end)) in
  let b := if sz_vol <? 65536 then poke b 19 (le2 sz_vol) else poke b 32 (le4 sz_vol) in
  let b := poke b 21 [248] in
  let b := poke b 24 (le2 63) in
  let b := poke b 26 (le2 255) in
  let b := poke b 28 (le4 b_vol) in
  let b :=
    match l_type l with
    | FAT32 =>
        let b := poke b 67 (le4 vsn) in
        let b := poke b 36 (le4 (l_fat l)) in
        let b := poke b 44 (le4 2) in
        let b := poke b 48 (le2 1) in
        let b := poke b 50 (le2 6) in
        let b := poke b 64 [128] in
        let b := poke b 66 [41] in
        poke b 71 (no_name ++ fat32_)
    | _ =>
        let b := poke b 39 (le4 vsn) in
        let b := poke b 22 (le2 (l_fat l)) in
        let b := poke b 36 [128] in
        let b := poke b 38 [41] in
        poke b 43 (no_name ++ fat_)
    end in
  poke b 510 (le2 43605).

(* The FSINFO record, fatfs/fatfs.c:6079-6084 *)
Definition fsinfo (n_clst : Z) (b : Z -> Z) : Z -> Z :=
  let b := poke b 0 (le4 1096897106) in
  let b := poke b 484 (le4 1631679090) in
  let b := poke b 488 (le4 (w32 (n_clst - 1))) in
  let b := poke b 492 (le4 2) in
  poke b 510 (le2 43605).

(* The first entries of the FAT, fatfs/fatfs.c:6093-6100 *)
Definition fat_head (t : fat) (b : Z -> Z) : Z -> Z :=
  match t with
  | FAT32 => poke (poke (poke b 0 (le4 4294967288)) 4 (le4 4294967295)) 8 (le4 268435455)
  | FAT16 => poke b 0 (le4 4294967288)
  | FAT12 => poke b 0 (le4 16777208)
  end.

(* Filling [nsect] sectors, fatfs/fatfs.c:6101-6109 and 6114-6120; only the first loop
   clears the first sector of the buffer after each write ([wipe]).  A pass writes at
   least one sector if the buffer holds one. *)
Fixpoint fill (fuel : nat) (D : drive) (d : store) (buf : Z -> Z) (len sz_buf : Z) (wipe : bool) (sect nsect : Z)
    : res (bool * store * (Z -> Z) * Z) :=
  match fuel with
  | O => NoFuel
  | S k =>
      let n := if sz_buf <? nsect then sz_buf else nsect in
      '(ok, d) <- put D d buf len sect n ;;
      if (ok : bool) then
        buf <- (if wipe then clear buf len (d_ss D) else Ok buf) ;;
        let sect := w32 (sect + n) in
        let nsect := w32 (nsect - n) in
        if nsect =? 0 then Ok (true, d, buf, sect) else fill k D d buf len sz_buf wipe sect nsect
      else Ok (false, d, buf, sect)
  end.

(* --- create_partition, fatfs/fatfs.c:5545-5608 -------------------------------- *)

(* The number of heads, lines 5566-5569 *)
Fixpoint heads (l : list Z) (sz : Z) : Z :=
  match l with
  | h :: l => if 1024 <? sz / h / 63 then heads l sz else h
  | [] => 255
  end.

(* One entry of the table at offset [p], lines 5587-5603 *)
Definition pte (p nxt sz sys n_hd : Z) (b : Z -> Z) : Z -> Z :=
  let b := poke b (p + 8) (le4 nxt) in
  let b := poke b (p + 12) (le4 sz) in
  let b := poke b (p + 4) [sys] in
  let cy := nxt / 63 / n_hd in
  let b := poke b (p + 1) [w8 (nxt / 63 mod n_hd)] in
  let b := poke b (p + 2) [w8 (Z.lor (Z.land (Z.shiftr cy 2) 192) (w8 (nxt mod 63 + 1)))] in
  let b := poke b (p + 3) [w8 cy] in
  let e := w32 (nxt + sz - 1) in
  let cy := e / 63 / n_hd in
  let b := poke b (p + 5) [w8 (e / 63 mod n_hd)] in
  let b := poke b (p + 6) [w8 (Z.lor (Z.land (Z.shiftr cy 2) 192) (w8 (e mod 63 + 1)))] in
  poke b (p + 7) [w8 cy].

(* The loop, lines 5573-5605; [plst] is the rest of the partition list, [k] the number of
   entries left in the table. *)
Fixpoint parts (k : nat) (plst : list Z) (p nxt sz_drv sys n_hd : Z) (b : Z -> Z) : res (Z -> Z) :=
  match k with
  | O => Ok b
  | S k =>
      if negb (nxt =? 0) && (nxt <? sz_drv) then
        match plst with
        | [] => Ub
        | x :: plst =>
            let sz := if x <=? 100 then if x =? 100 then sz_drv else w32 (sz_drv / 100 * x) else x in
            let sz := if (sz_drv <? w32 (nxt + sz)) || (w32 (nxt + sz) <? nxt) then w32 (sz_drv - nxt) else sz in
            if sz =? 0 then Ok b
            else parts k plst (p + 16) (w32 (nxt + sz)) sz_drv sys n_hd (pte p nxt sz sys n_hd b)
        end
      else Ok b
  end.

(* memset clears FF_MAX_SS bytes, whatever the size of the sector (line 5571). *)
Definition create_partition (D : drive) (d : store) (plst : list Z) (sys : Z) (buf : Z -> Z) (len : Z) : res (mkrc * store) :=
  b <- clear buf len 4096 ;;
  b <- parts 4 plst 446 63 (d_size D) sys (heads [8; 16; 32; 64; 128] (d_size D)) b ;;
  '(ok, d) <- put D d (poke b 510 (le2 43605)) len 0 1 ;;
  if (ok : bool) then Ok (MK_OK, d) else Ok (MK_DISK_ERR, d).

(* --- f_mkfs, fatfs/fatfs.c:5610-6161 ------------------------------------------ *)

(* The system ID, lines 6127-6137 *)
Definition sys_id (t : fat) (sz_vol : Z) : Z :=
  match t with
  | FAT32 => 12
  | _ => if 65536 <=? sz_vol then 6 else match t with FAT16 => 4 | _ => 1 end
  end.

(* Writing a volume with the layout [l], lines 6022-6124 *)
Definition write_volume (D : drive) (d : store) (buf : Z -> Z) (len sz_buf b_vol sz_vol vsn : Z) (l : layout)
    : res (bool * store * (Z -> Z)) :=
  b <- clear buf len (d_ss D) ;;
  let b := vbr D b_vol sz_vol vsn l b in
  '(ok, d) <- put D d b len b_vol 1 ;;
  if negb (ok : bool) then Ok (false, d, b)
  else
    '(d, b) <-
      match l_type l with
      | FAT32 =>
          '(_, d) <- put D d b len (w32 (b_vol + 6)) 1 ;;
          b <- clear b len (d_ss D) ;;
          let b := fsinfo (l_ncl l) b in
          '(_, d) <- put D d b len (w32 (b_vol + 7)) 1 ;;
          '(_, d) <- put D d b len (w32 (b_vol + 1)) 1 ;;
          Ok (d, b)
      | _ => Ok (d, b)
      end ;;
    b <- clear b len (sz_buf * d_ss D) ;;
    let b := fat_head (l_type l) b in
    '(ok, d, b, sect) <- fill (Z.to_nat (l_fat l)) D d b len sz_buf true (l_base l) (l_fat l) ;;
    if negb (ok : bool) then Ok (false, d, b)
    else
      let nsect := match l_type l with FAT32 => l_pau l | _ => l_dir l end in
      '(ok, d, b, _) <- fill (Z.to_nat nsect) D d b len sz_buf false sect nsect ;;
      Ok (ok, d, b).

(* [fmt]: format options; [len]: size of the work buffer, [buf] what it contains; [t]:
   the time, which goes into the serial number.  The drive name is taken to be valid and
   the work buffer not null. *)
Definition f_mkfs (fuel : nat) (D : drive) (d : store) (fmt : Z) (buf : Z -> Z) (len t : Z) : res (mkrc * store) :=
  if d_noinit D then Ok (MK_NOT_READY, d)
  else if d_protect D then Ok (MK_WRITE_PROTECTED, d)
  else
    let blk := d_blk D in
    let blk := if (blk =? 0) || (32768 <? blk) || negb (Z.land blk (blk - 1) =? 0) then 1 else blk in
    let s := d_ss D in
    if (4096 <? s) || (s <? 512) || negb (Z.land s (s - 1) =? 0) then Ok (MK_DISK_ERR, d)
    else
      let D' := mkDrive (d_size D) s blk (d_noinit D) (d_protect D) (d_wr D) in
      let sfd := negb (Z.land fmt 8 =? 0) in
      let sz_buf := len / s in
      if sz_buf =? 0 then Ok (MK_NOT_ENOUGH_CORE, d)
      else
        let '(b_vol, sz_vol) := if negb sfd && (63 <? d_size D) then (63, d_size D - 63) else (0, d_size D) in
        if sz_vol <? 128 then Ok (MK_ABORTED, d)
        else if negb (Z.land fmt 4 =? 0) && ((Z.land fmt 7 =? 4) || (67108864 <=? sz_vol)) then Ok (MK_EXFAT, d)
        else
          let f32 := negb (Z.land fmt 2 =? 0) in
          let f16 := negb (Z.land fmt 1 =? 0) in
          if negb f32 && negb f16 then Ok (MK_INVALID_PARAMETER, d)
          else
            l <- choose fuel D' b_vol sz_vol f32 (if f16 then FAT16 else FAT32) 0 ;;
            match l with
            | None => Ok (MK_ABORTED, d)
            | Some l =>
                '(ok, d, b) <- write_volume D' d buf len sz_buf b_vol sz_vol (w32 (sz_vol + t)) l ;;
                if negb (ok : bool) then Ok (MK_DISK_ERR, d)
                else if sfd then Ok (MK_OK, d)
                else create_partition D' d [sz_vol; 0] (sys_id (l_type l) sz_vol) b len
            end.
