(* What a disk is: a byte for every drive, sector and offset, changed only by
   writes to that sector. *)
From Verif Require Import Base DiskModel.
Open Scope Z_scope.

(* Sector size and number of sectors of each drive. *)
Record geometry := mkGeo { gsize : Z -> Z; gcount : Z -> Z }.

(* flash.img: 512 sectors of 4096 bytes; sd.img: 81920 sectors of 512. *)
Definition unix_geo : geometry :=
  mkGeo (fun u => if u =? 0 then 4096 else 512)
        (fun u => if u =? 0 then 512 else if u =? 1 then 81920 else 0).

Definition flash_geo (n : Z) : geometry := mkGeo (fun _ => 4096) (fun _ => n).

Definition content := Z -> Z -> Z -> Z.

Definition valid (g : geometry) (u s c : Z) : bool :=
  (0 <? c) && (s + c <=? gcount g u).

(* The ideal disk after a request. *)
Definition after (g : geometry) (f : content) (r : req) : content :=
  match r with
  | Rd _ _ _ => f
  | Wr u s c data =>
      if valid g u s c
      then fun u' i j =>
             if (u' =? u) && (s <=? i) && (i <? s + c)
             then nth (Z.to_nat ((i - s) * gsize g u + j)) data 0
             else f u' i j
      else f
  end.

(* The answer an ideal disk gives. *)
Definition answer (g : geometry) (f : content) (r : req) (o : drc * list Z) : Prop :=
  match r with
  | Rd u s c =>
      if valid g u s c
      then fst o = DISK_OK /\ Z.of_nat (length (snd o)) = c * gsize g u /\
           forall i j, 0 <= i < c -> 0 <= j < gsize g u ->
             nth (Z.to_nat (i * gsize g u + j)) (snd o) 0 = f u (s + i) j
      else o = (DISK_PARERR, [])
  | Wr u s c _ => o = (if valid g u s c then DISK_OK else DISK_PARERR, [])
  end.

Fixpoint answers (g : geometry) (f : content) (rs : list req) (os : list (drc * list Z)) : Prop :=
  match rs, os with
  | [], [] => True
  | r :: rs', o :: os' => answer g f r o /\ answers g (after g f r) rs' os'
  | _, _ => False
  end.

(* Requests whose byte range does not reach 2^32, with data of the announced
   size. *)
Definition addressable (g : geometry) (r : req) : Prop :=
  match r with
  | Rd u s c => 0 <= u < 256 /\ 0 <= s /\ 0 <= c /\ (s + c) * gsize g u < 4294967296
  | Wr u s c data =>
      0 <= u < 256 /\ 0 <= s /\ 0 <= c /\ (s + c) * gsize g u < 4294967296 /\
      Z.of_nat (length data) = c * gsize g u /\ Forall (fun b => 0 <= b < 256) data
  end.

(* The disk images have the size given when they are created. *)
Definition unix_ok (d : disks) : Prop :=
  Z.of_nat (length (img0 d)) = 2097152 /\ Z.of_nat (length (img1 d)) = 41943040.

Definition unix_holds (d : disks) (f : content) : Prop :=
  forall u i j, 0 <= u < 2 -> 0 <= i < gcount unix_geo u -> 0 <= j < gsize unix_geo u ->
    nth (Z.to_nat (i * gsize unix_geo u + j)) (img d u) 0 = f u i j.

(* A probed flash: the disk area starts at a 64-kbyte boundary at or above the
   end of the program and ends with the chip. *)
Definition flash_ok (f : flash) : Prop :=
  exists mf dev bin, 0 < bin <= chip_size mf dev - 65536 /\
    Z.of_nat (length (mem f)) = chip_size mf dev /\ f = flash_probe (mem f) mf dev bin.

Definition flash_holds (f : flash) (g : content) : Prop :=
  forall i j, 0 <= i < flash_block_count f -> 0 <= j < 4096 ->
    nth (Z.to_nat (base f + i * 4096 + j)) (mem f) 0 = g 0 i j.

Definition drive0 (r : req) : Prop := match r with Rd u _ _ | Wr u _ _ _ => u = 0 end.
