(* The serial number of a volume: the second half of f_getlabel, fatfs/fatfs.c:5215-5233,
   on FAT volumes. *)
From Verif Require Import Base FatModel MkfsModel MountModel.
Open Scope Z_scope.

(* BS_VolID32 and BS_VolID, fatfs/fatfs.c:91,103 *)
Definition get_serial (m : mounted) : vol * frc * Z :=
  let g := m_geo m in
  match move_window g (m_vol m) (volbase g) with
  | (v, FR_OK) => (v, FR_OK, ld4 (win v) (match ftype g with FAT32 => 67 | _ => 39 end))
  | (v, r) => (v, r, 0)
  end.
