(* tools/uf2fat/format.cpp: placing a filesystem image behind the program of a UF2 file.
   Files are lists of whole blocks (a shorter rest is not read and dropped); messages and
   failing file operations left out. *)
From Verif Require Import Base.
Open Scope Z_scope.

(* UF2_Block, tools/uf2fat/uf2.h:47-65; data has 476 bytes *)
Record block := mkBlock { magic0 : Z; magic1 : Z; flags : Z; addr : Z; psize : Z; bno : Z; bnum : Z; reserved : Z; data : Z -> Z; magicE : Z }.
Definition MAGIC0 : Z := 0x0A324655.
Definition MAGIC1 : Z := 0x9E5D5157.
Definition MAGICE : Z := 0x0AB16F30.
Definition NOFLASH : Z := 1.
Definition FAMILY : Z := 0x2000.
Definition SECTOR : Z := 4096.
Definition uns (x : Z) : Z := x mod 4294967296.
Definition bit (x m : Z) : bool := negb (Z.land x m =? 0).

(* The loop of get_location_and_family with scan_block, format.cpp:141-203: start and end
   of the program and the family; None: not a UF2 file (the program ends). *)
Definition scan_block (b : block) (s : Z * Z * Z) : option (Z * Z * Z) :=
  let '(fstart, pend, fam) := s in
  if negb (magic0 b =? MAGIC0) || negb (magic1 b =? MAGIC1) || negb (magicE b =? MAGICE) then None
  else
    let start := addr b in
    let stop := uns (start + psize b) in
    Some (if start <? fstart then start else fstart,
          if pend <? stop then stop else pend,
          if bit (flags b) FAMILY && (fam =? 0) then reserved b else fam).
Definition is_last (b : block) : bool := uns (bno b + 1) =? bnum b.
Fixpoint get_location (bs : list block) (s : Z * Z * Z) : option (Z * Z * Z) :=
  match bs with
  | [] => Some s
  | b :: bs =>
      if bit (flags b) NOFLASH then get_location bs s
      else
        match scan_block b s with
        | None => None
        | Some s => if is_last b then Some s else get_location bs s
        end
  end.

(* write_sector, format.cpp:245-267 *)
Definition sector_block (address fam : Z) (d : Z -> Z) (k : Z) : block :=
  mkBlock MAGIC0 MAGIC1 (if fam =? 0 then 0 else FAMILY) (uns (address + 256 * k)) 256 k 16 (if fam =? 0 then 0 else fam)
    (fun o => if (0 <=? o) && (o <? 256) then d (256 * k + o) else 0) MAGICE.
Definition write_sector (address fam : Z) (d : Z -> Z) : list block := map (sector_block address fam d) [0; 1; 2; 3; 4; 5; 6; 7; 8; 9; 10; 11; 12; 13; 14; 15].

(* The blocks kept by save_image, format.cpp:275-310, and whether there is a last one. *)
Fixpoint kept (bs : list block) : list block * bool :=
  match bs with
  | [] => ([], false)
  | b :: bs => if negb (bit (flags b) NOFLASH) && is_last b then ([b], true) else let '(k, l) := kept bs in (b :: k, l)
  end.

(* format_filesystem with save_image, format.cpp:272-350.  image n: the contents of
   fs_image after building a filesystem of n bytes, ordered by sector numbers.  In place
   (no output file), without a last block out.tellg() is -1 and resize_file throws. *)
Definition format (in_place : bool) (bs : list block) (flash_bytes : Z) (image : Z -> list (Z * (Z -> Z))) : option (list block) :=
  match get_location bs (4294967295, 0, 0) with
  | None => None
  | Some (fstart, pend, fam) =>
      let fs_start := Z.land (uns (pend + 65536)) 4294901760 in
      if (fstart + flash_bytes) mod 18446744073709551616 <? uns (fs_start + 5 * SECTOR) then None
      else
        let nbytes := uns (fstart + flash_bytes - fs_start) in
        let '(k, l) := kept bs in
        if in_place && negb l then None
        else Some (k ++ flat_map (fun p => write_sector (uns (fs_start + uns (fst p * SECTOR))) fam (snd p)) (image nbytes))
  end.
