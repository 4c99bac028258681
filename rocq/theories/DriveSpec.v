(* What format, mount, free and vol -t should do. *)
From Coq Require Import String.
From Verif Require Import Base ExecModel DirModel EditSpec FpatSpec DriveModel.
Open Scope Z_scope.

(* A whole argument naming a drive: flash:, sd:, 0:, 1: in any case, or nothing for the current one *)
Definition selects (curr : Z) (name : list Z) (d : Z) : Prop :=
  (exists pre, name = pre ++ [58] /\ Forall plain_byte pre /\ drive_named pre d) \/ (name = [] /\ d = curr).
(* What f_mkfs is asked for: FAT without partitions on the flash, FAT32 on the card *)
Definition format_of (d : Z) : Z := if d =? 0 then 9 else 2.
(* the line begins with y or Y *)
Definition agreed (line : list Z) : bool := match line with c :: _ => (c =? 121) || (c =? 89) | [] => false end.
(* the line an ideal editor makes of the keys *)
Definition line_of (keys : list Z) : list Z := EditSpec.text (fst (zrun 31 (zstart [] None) keys)).
Definition entered (keys : list Z) : bool := snd (zrun 31 (zstart [] None) keys).

(* One row of the table of mounted volumes *)
Definition kind_of_fs (t : Z) : list Z := nth (Z.to_nat t) (map str ["Unknwn"; "FAT-12"; "FAT-16"; "FAT-32"; " exFAT"]%string) (str "Unknwn").
Definition row (d : Z) (f : fsinfo) (total used free percent : Z) : list Z :=
  str (if d =? 0 then "flash:  " else "   sd:  ") ++ kind_of_fs (f_type f) ++ [32] ++ pad_left 32 10 (digits total) ++ [32] ++ pad_left 32 9 (digits used) ++
  [32] ++ pad_left 32 9 (digits free) ++ [32] ++ pad_left 32 5 (digits percent) ++ str "%" ++ [13; 10].
(* a file system as f_statfs describes it: clusters of 512 bytes or a power of two of kbytes *)
Definition fs_ok (f : fsinfo) : Prop :=
  (f_bsize f = 512 \/ exists k, 0 <= k /\ f_bsize f = 1024 * 2 ^ k) /\ 0 <= f_bfree f <= f_blocks f /\ f_bavail f = f_bfree f /\ 0 < f_blocks f < 2 ^ 32 /\
  f_blocks f * f_bsize f < 2 ^ 42 /\ 0 < f_type f.
Definition kbytes (blocks bsize : Z) : Z := blocks * bsize / 1024.
