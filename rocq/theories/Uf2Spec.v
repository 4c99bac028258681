(* What a loader makes of a UF2 file. *)
From Verif Require Import Base Uf2Model.
Open Scope Z_scope.

(* The contents of flash memory after loading the blocks one by one (None: untouched). *)
Definition load (b : block) (f : Z -> option Z) : Z -> option Z :=
  fun x => if (negb (bit (flags b) NOFLASH)) && (addr b <=? x) && (x <? addr b + psize b) then Some (data b (x - addr b)) else f x.
Definition flashed (bs : list block) : Z -> option Z := fold_left (fun f b => load b f) bs (fun _ => None).

Definition good (b : block) : Prop := magic0 b = MAGIC0 /\ magic1 b = MAGIC1 /\ magicE b = MAGICE.
(* A program: any number of blocks, each for flash memory (addresses below the last 128
   kbytes of the address space) or a comment, up to the first with the number of the last
   block. *)
Definition flash_block (b : block) : Prop := good b /\ Z.land (flags b) NOFLASH = 0 /\ 0 <= addr b /\ 1 <= psize b <= 476 /\ addr b + psize b <= 4294836224.
Definition comment (b : block) : Prop := Z.land (flags b) NOFLASH <> 0.
Record program (bs : list block) : Prop := {
  pr_blocks : Forall (fun b => flash_block b \/ comment b) bs;
  pr_last : exists pre b, bs = pre ++ [b] /\ flash_block b /\ bno b + 1 = bnum b /\ 0 <= bno b < 4294967295 /\
    Forall (fun c => flash_block c -> 0 <= bno c < 4294967295 /\ bno c + 1 <> bnum c) pre }.
(* From the first to behind the last byte of the program. *)
Definition extent (bs : list block) (lo hi : Z) : Prop :=
  (exists b, In b bs /\ flash_block b /\ addr b = lo) /\ (exists b, In b bs /\ flash_block b /\ addr b + psize b = hi) /\
  forall b, In b bs -> flash_block b -> lo <= addr b /\ addr b + psize b <= hi.

(* The sectors of an image: in order, and less than n. *)
Fixpoint image_ok (img : list (Z * (Z -> Z))) (from n : Z) : Prop :=
  match img with
  | [] => True
  | (s, _) :: img => from <= s < n /\ image_ok img (s + 1) n
  end.

(* The family of a file: that of the first block which gives one. *)
Definition family (bs : list block) : Z :=
  match find (fun b => negb (bit (flags b) NOFLASH) && bit (flags b) FAMILY && negb (reserved b =? 0)) bs with
  | Some b => reserved b
  | None => 0
  end.
(* A block of the filesystem: 16 for each sector, marked with the family if there is one. *)
Definition fs_block (fam : Z) (b : block) : Prop :=
  flash_block b /\ psize b = 256 /\ 0 <= bno b < 16 /\ bnum b = 16 /\ reserved b = fam /\ flags b = if fam =? 0 then 0 else FAMILY.

(* The first 64-kbyte boundary behind hi. *)
Definition base_of (hi : Z) : Z := 65536 * (hi / 65536 + 1).
