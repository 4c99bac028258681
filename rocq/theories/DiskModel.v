(* Model of the sector interface: unix/diskio_unix.c (disk images kept in two
   files of the host) and pico/flash.c with the drive 0 branches of
   pico/diskio.c (flash memory behind the program image).
   Numbers are the mathematical values; every unsigned int result is reduced
   modulo 2^32 by [u32].  Bytes are Z in 0..255. *)
From Verif Require Import Base.
Open Scope Z_scope.

Definition u32 (x : Z) : Z := x mod 4294967296.

(* disk_result_t, include/fpm/diskio.h:54-60 *)
Inductive drc := DISK_OK | DISK_ERROR | DISK_WRPRT | DISK_NOTRDY | DISK_PARERR.

(* n bytes of l from offset off; fewer when l ends before. *)
Definition slice (l : list Z) (off n : Z) : list Z :=
  firstn (Z.to_nat n) (skipn (Z.to_nat off) l).

(* l with the bytes from off on replaced by d. *)
Definition splice (l : list Z) (off : Z) (d : list Z) : list Z :=
  firstn (Z.to_nat off) l ++ d ++ skipn (Z.to_nat off + length d) l.

(* --- unix/diskio_unix.c --------------------------------------------------- *)

(* The contents of the files flash.img and sd.img behind disk_fd[0] and
   disk_fd[1].  The host's lseek, read and write are taken to succeed; read
   stops at the end of the file, write beyond it extends the file. *)
Record disks := mkDisks { img0 : list Z; img1 : list Z }.

Definition img (d : disks) (unit : Z) : list Z := if unit =? 0 then img0 d else img1 d.
Definition set_img (d : disks) (unit : Z) (l : list Z) : disks :=
  if unit =? 0 then mkDisks l (img1 d) else mkDisks (img0 d) l.

(* sector_size and disk_size, unix/diskio_unix.c:22-30 *)
Definition sector_size (unit : Z) : Z := if unit =? 0 then 4096 else 512.
Definition disk_size (unit : Z) : Z := if unit =? 0 then 2 * 1024 * 1024 else 40 * 1024 * 1024.

(* int status = lseek(...): the off_t result is cut to 32 bits and is negative
   from 2^31 on. *)
Definition seek_fails (offset : Z) : bool := 2147483648 <=? offset.

(* disk_read, unix/diskio_unix.c:185-205: the result code and the bytes stored
   in buf.  A short read counts as success. *)
Definition unix_read (d : disks) (unit sector count : Z) : drc * list Z :=
  if (2 <=? unit) || (count =? 0) then (DISK_PARERR, [])
  else
    let offset := u32 (sector * sector_size unit) in
    let nbytes := u32 (count * sector_size unit) in
    if disk_size unit <? u32 (offset + nbytes) then (DISK_PARERR, [])
    else if seek_fails offset then (DISK_ERROR, [])
    else (DISK_OK, slice (img d unit) offset nbytes).

(* The file after write(fd, buf, nbytes) at offset. *)
Definition host_write (l : list Z) (offset : Z) (b : list Z) : list Z :=
  splice (l ++ repeat 0 (Z.to_nat offset - length l)) offset b.

(* disk_write, unix/diskio_unix.c:210-230.  Taking more bytes than buf holds is
   undefined. *)
Definition unix_write (d : disks) (unit : Z) (buf : list Z) (sector count : Z) : res (disks * drc) :=
  if (2 <=? unit) || (count =? 0) then Ok (d, DISK_PARERR)
  else
    let offset := u32 (sector * sector_size unit) in
    let nbytes := u32 (count * sector_size unit) in
    if disk_size unit <? u32 (offset + nbytes) then Ok (d, DISK_PARERR)
    else if seek_fails offset then Ok (d, DISK_ERROR)
    else if Z.of_nat (length buf) <? nbytes then Ub
    else Ok (set_img d unit (host_write (img d unit) offset (firstn (Z.to_nat nbytes) buf)), DISK_OK).

(* disk_ioctl, unix/diskio_unix.c:235-264: the code and the number stored.
   Commands are CTRL_SYNC 0, GET_SECTOR_COUNT 1, GET_SECTOR_SIZE 2,
   GET_BLOCK_SIZE 3 (include/fpm/diskio.h:86-90). *)
Definition unix_ioctl (unit cmd : Z) : drc * option Z :=
  if 2 <=? unit then (DISK_PARERR, None)
  else if cmd =? 1 then (DISK_OK, Some (disk_size unit / sector_size unit))
  else if cmd =? 2 then (DISK_OK, Some (sector_size unit))
  else if cmd =? 3 then (DISK_OK, Some 1)
  else if cmd =? 0 then (DISK_OK, None)
  else (DISK_PARERR, None).

(* --- pico/flash.c ---------------------------------------------------------- *)

(* The whole flash memory chip, flash_base_offset and flash_info.num_bytes. *)
Record flash := mkFlash { mem : list Z; base : Z; num_bytes : Z }.

Definition flash_bytes_per_block : Z := 4096.

(* The chip size chosen by flash_probe, pico/flash.c:90-120. *)
Definition chip_size (mf_id dev_id : Z) : Z :=
  let M := 1024 * 1024 in
  if mf_id =? 239 then
    if dev_id =? 16405 then 2 * M else if dev_id =? 16406 then 4 * M
    else if dev_id =? 16407 then 8 * M else if dev_id =? 16408 then 16 * M
    else if dev_id =? 28693 then 2 * M else if dev_id =? 28694 then 4 * M
    else if dev_id =? 28695 then 8 * M else if dev_id =? 28696 then 16 * M
    else 2 * M
  else if mf_id =? 31 then
    if dev_id =? 34305 then 2 * M else if dev_id =? 34561 then 4 * M
    else if dev_id =? 34817 then 8 * M else if dev_id =? 35073 then 16 * M
    else 2 * M
  else 2 * M.

(* flash_probe, pico/flash.c:81-130, for a program image of binary_size bytes.
   num_bytes is a uint64_t. *)
Definition flash_probe (m : list Z) (mf_id dev_id binary_size : Z) : flash :=
  let base := Z.land (u32 (binary_size + 65535)) 4294901760 in
  mkFlash m base ((chip_size mf_id dev_id - base) mod 18446744073709551616).

(* flash_block_count, pico/flash.c:135-141 *)
Definition flash_block_count (f : flash) : Z := u32 (num_bytes f / flash_bytes_per_block).

(* flash_read, pico/flash.c:151-167.  memcpy from outside the chip is
   undefined. *)
Definition flash_read (f : flash) (block count : Z) : res (drc * list Z) :=
  if count =? 0 then Ok (DISK_PARERR, [])
  else
    let offset := u32 (block * flash_bytes_per_block) in
    let nbytes := u32 (count * flash_bytes_per_block) in
    if num_bytes f <? u32 (offset + nbytes) then Ok (DISK_PARERR, [])
    else if Z.of_nat (length (mem f)) <? base f + offset + nbytes then Ub
    else Ok (DISK_OK, slice (mem f) (base f + offset) nbytes).

(* flash_range_erase of the SDK: the bytes become 0xff.  Outside the chip:
   undefined. *)
Definition flash_range_erase (m : list Z) (off n : Z) : res (list Z) :=
  if Z.of_nat (length m) <? off + n then Ub
  else Ok (splice m off (repeat 255 (Z.to_nat n))).

(* flash_range_program of the SDK: programming only clears bits. *)
Definition flash_range_program (m : list Z) (off : Z) (b : list Z) (n : Z) : res (list Z) :=
  if (Z.of_nat (length m) <? off + n) || (Z.of_nat (length b) <? n) then Ub
  else Ok (splice m off (map (fun xy => Z.land (fst xy) (snd xy)) (combine (slice m off n) b))).

(* flash_write, pico/flash.c:169-191 *)
Definition flash_write (f : flash) (buf : list Z) (block count : Z) : res (flash * drc) :=
  let offset := u32 (block * flash_bytes_per_block) in
  let nbytes := u32 (count * flash_bytes_per_block) in
  if (nbytes =? 0) || (num_bytes f <? u32 (offset + nbytes)) then Ok (f, DISK_PARERR)
  else
    m1 <- flash_range_erase (mem f) (u32 (base f + offset)) nbytes ;;
    m2 <- flash_range_program m1 (u32 (base f + offset)) buf nbytes ;;
    Ok (mkFlash m2 (base f) (num_bytes f), DISK_OK).

(* disk_ioctl of pico/diskio.c:303-384 for drive 0. *)
Definition flash_ioctl (f : flash) (cmd : Z) : drc * option Z :=
  if cmd =? 1 then (if flash_block_count f =? 0 then DISK_ERROR else DISK_OK, Some (flash_block_count f))
  else if cmd =? 2 then (DISK_OK, Some flash_bytes_per_block)
  else if cmd =? 3 then (DISK_OK, Some 1)
  else if cmd =? 0 then (DISK_OK, None)
  else (DISK_PARERR, None).

(* --- histories -------------------------------------------------------------- *)

(* A request: drive, first sector, number of sectors, and the data to write. *)
Inductive req :=
| Rd (unit sector count : Z)
| Wr (unit sector count : Z) (data : list Z).

Definition unix_step (d : disks) (r : req) : res (disks * (drc * list Z)) :=
  match r with
  | Rd u s c => Ok (d, unix_read d u s c)
  | Wr u s c data => '(d', rc) <- unix_write d u data s c ;; Ok (d', (rc, []))
  end.

(* The drive number is ignored: these are the requests for drive 0. *)
Definition flash_step (f : flash) (r : req) : res (flash * (drc * list Z)) :=
  match r with
  | Rd _ s c => o <- flash_read f s c ;; Ok (f, o)
  | Wr _ s c data => '(f', rc) <- flash_write f data s c ;; Ok (f', (rc, []))
  end.

Fixpoint run {A} (step : A -> req -> res (A * (drc * list Z))) (d : A) (rs : list req)
  : res (A * list (drc * list Z)) :=
  match rs with
  | [] => Ok (d, [])
  | r :: rs' => '(d1, o) <- step d r ;; '(d2, os) <- run step d1 rs' ;; Ok (d2, o :: os)
  end.
