(* Model of check_fs, find_volume, mount_volume and f_statfs in fatfs/fatfs.c for FAT12,
   FAT16 and FAT32 volumes.  An exFAT volume is recognised, but the model does not go
   further.  The drive is ready; its sectors can be read. *)
From Verif Require Import Base FatModel MkfsModel.
Open Scope Z_scope.

(* ld_word, ld_dword, fatfs/fatfs.c:426-445, at constant offsets below 512 *)
Definition ld2 (w : Z -> Z) (i : Z) : Z := w i + 256 * w (i + 1).
Definition ld4 (w : Z -> Z) (i : Z) : Z := w i + 256 * w (i + 1) + 65536 * w (i + 2) + 16777216 * w (i + 3).

(* memcmp(w + i, l, length l) == 0 *)
Fixpoint same (w : Z -> Z) (i : Z) (l : list Z) : bool :=
  match l with
  | [] => true
  | x :: l => (w i =? x) && same w (i + 1) l
  end.
Definition exfat_ := [235; 118; 144; 69; 88; 70; 65; 84; 32; 32; 32].

(* check_fs, fatfs/fatfs.c:2906-2952, on the content of a sector *)
Definition vbr_kind (w : Z -> Z) : Z :=
  let sign := ld2 w 510 in
  if (sign =? 43605) && same w 0 exfat_ then 1
  else
    let b := w 0 in
    let no := if sign =? 43605 then 2 else 3 in
    if (b =? 235) || (b =? 233) || (b =? 232) then
      if (sign =? 43605) && same w 82 fat32_ then 0
      else
        let x := ld2 w 11 in
        let b := w 13 in
        if (Z.land x (x - 1) =? 0) && (512 <=? x) && (x <=? 4096)
           && negb (b =? 0) && (Z.land b (b - 1) =? 0)
           && negb (ld2 w 14 =? 0)
           && (w32 (w 16 - 1) <=? 1)
           && negb (ld2 w 17 =? 0)
           && ((128 <=? ld2 w 19) || (65536 <=? ld4 w 32))
           && negb (ld2 w 22 =? 0)
        then 0 else no
    else no.

(* check_fs: kind of sector [s], the window and its sector *)
Definition check_fs (D : drive) (d : store) (w : Z -> Z) (s : Z) : Z * (Z -> Z) * Z :=
  if (0 <=? s) && (s <? d_size D) then (vbr_kind (d s), d s, s) else (4, w, ERR).

(* The loop of find_volume, fatfs/fatfs.c:2982-2985 *)
Fixpoint find_part (D : drive) (d : store) (w : Z -> Z) (s : Z) (pts : list Z) (fmt : Z) : Z * (Z -> Z) * Z :=
  match pts with
  | [] => (fmt, w, s)
  | p :: pts =>
      let '(fmt, w, s) := if p =? 0 then (3, w, s) else check_fs D d w p in
      if 2 <=? fmt then find_part D d w s pts fmt else (fmt, w, s)
  end.

(* find_volume, fatfs/fatfs.c:2960-2987, with part = 0 *)
Definition find_volume (D : drive) (d : store) (w : Z -> Z) : Z * (Z -> Z) * Z :=
  let '(fmt, w, s) := check_fs D d w 0 in
  if negb (fmt =? 2) then (fmt, w, s)
  else find_part D d w s [ld4 w 454; ld4 w 470; ld4 w 486; ld4 w 502] fmt.

(* A mounted volume: what FatModel uses, and the size and the place of the root
   directory (sector, or cluster for FAT32). *)
Record mounted := mkMounted { m_geo : geo; m_vol : vol; m_dirbase : Z; m_nroot : Z; m_totsec : Z }.
Inductive mount_res := Mounted (m : mounted) | No_filesystem | Mount_error | Exfat.

(* mount_volume, fatfs/fatfs.c:3024-3278: the volume is not mounted yet, the drive can be
   initialised; [w] is what the window contained. *)
Definition mount (D : drive) (d : store) (w : Z -> Z) : mount_res :=
  let s := d_ss D in
  if (4096 <? s) || (s <? 512) || negb (Z.land s (s - 1) =? 0) then Mount_error
  else
    let '(fmt, w, bsect) := find_volume D d w in
    if fmt =? 4 then Mount_error
    else if 2 <=? fmt then No_filesystem
    else if fmt =? 1 then Exfat
    else if negb (ld2 w 11 =? s) then No_filesystem
    else
      let fz := if ld2 w 22 =? 0 then ld4 w 36 else ld2 w 22 in
      let nf := w 16 in
      if negb (nf =? 1) && negb (nf =? 2) then No_filesystem
      else
        let fasize := w32 (fz * nf) in
        let cs := w 13 in
        if (cs =? 0) || negb (Z.land cs (cs - 1) =? 0) then No_filesystem
        else
          let nroot := ld2 w 17 in
          if negb (nroot mod (s / 32) =? 0) then No_filesystem
          else
            let tsect := if ld2 w 19 =? 0 then ld4 w 32 else ld2 w 19 in
            let nrsv := ld2 w 14 in
            if nrsv =? 0 then No_filesystem
            else
              let sysect := w32 (nrsv + fasize + nroot / (s / 32)) in
              if tsect <? sysect then No_filesystem
              else
                let nclst := (tsect - sysect) / cs in
                if nclst =? 0 then No_filesystem
                else if MAX_FAT32 <? nclst then No_filesystem
                else
                  let t := if nclst <=? MAX_FAT12 then FAT12 else if nclst <=? MAX_FAT16 then FAT16 else FAT32 in
                  let nent := nclst + 2 in
                  let fbase := w32 (bsect + nrsv) in
                  if match t with FAT32 => negb (ld2 w 42 =? 0) || negb (nroot =? 0) | _ => nroot =? 0 end then No_filesystem
                  else
                    let dbase := match t with FAT32 => ld4 w 44 | _ => w32 (fbase + fasize) end in
                    let szbfat := match t with
                                  | FAT32 => w32 (nent * 4)
                                  | FAT16 => w32 (nent * 2)
                                  | FAT12 => nent * 3 / 2 + Z.land nent 1
                                  end in
                    if fz <? w32 (szbfat + (s - 1)) / s then No_filesystem
                    else
                      let '(w, ws, free, last, fsi) :=
                        match t with
                        | FAT32 =>
                            if ld2 w 48 =? 1 then
                              let s1 := w32 (bsect + 1) in
                              if s1 <? d_size D then
                                let w := d s1 in
                                if (ld2 w 510 =? 43605) && (ld4 w 0 =? 1096897106) && (ld4 w 484 =? 1631679090)
                                then (w, s1, ld4 w 488, ld4 w 492, 0)
                                else (w, s1, ERR, ERR, 0)
                              else (w, ERR, ERR, ERR, 128)
                            else (w, bsect, ERR, ERR, 128)
                        | _ => (w, bsect, ERR, ERR, 128)
                        end in
                      Mounted (mkMounted (mkGeo s fbase fz nf nent t cs (w32 (bsect + sysect)) bsect (d_size D))
                                 (mkVol d w ws false free last fsi) dbase nroot tsect).

(* --- f_statfs, fatfs/fatfs.c:4597-4714, on a mounted volume ------------------- *)

(* FAT12, lines 4632-4645: number of free clusters from [c] on *)
Fixpoint scan12 (fuel : nat) (g : geo) (v : vol) (c nfree : Z) : res (vol * frc * Z) :=
  match fuel with
  | O => NoFuel
  | S k =>
      '(v, stat) <- get_fat g v c ;;
      if stat =? ERR then Ok (v, FR_DISK_ERR, nfree)
      else if stat =? 1 then Ok (v, FR_INT_ERR, nfree)
      else
        let nfree := if stat =? 0 then w32 (nfree + 1) else nfree in
        if w32 (c + 1) <? n_fatent g then scan12 k g v (w32 (c + 1)) nfree else Ok (v, FR_OK, nfree)
  end.

(* FAT16 and FAT32, lines 4670-4696 *)
Fixpoint scan (fuel : nat) (g : geo) (v : vol) (clst sect i nfree : Z) : res (vol * frc * Z) :=
  match fuel with
  | O => NoFuel
  | S k =>
      let '(v, sect, r) :=
        if i =? 0 then let '(v, r) := move_window g v sect in (v, w32 (sect + 1), r) else (v, sect, FR_OK) in
      match r with
      | FR_OK =>
          '(nfree, i) <-
            match ftype g with
            | FAT16 => x <- ld_word (win v) i ;; Ok (if x =? 0 then w32 (nfree + 1) else nfree, i + 2)
            | _ => x <- ld_dword (win v) i ;; Ok (if Z.land x 268435455 =? 0 then w32 (nfree + 1) else nfree, i + 4)
            end ;;
          let i := i mod ss g in
          let clst := w32 (clst - 1) in
          if clst =? 0 then Ok (v, FR_OK, nfree) else scan k g v clst sect i nfree
      | e => Ok (v, e, nfree)
      end
  end.

(* fs_info_t, include/fpm/fs.h:74-81, without the drive number *)
Record fs_info := mkInfo { f_type : fat; f_bsize : Z; f_blocks : Z; f_bfree : Z; f_bavail : Z }.

Definition f_statfs (fuel : nat) (m : mounted) : res (mounted * frc * option fs_info) :=
  let g := m_geo m in
  let v := m_vol m in
  '(v, r, bfree) <-
    (if free_clst v <=? w32 (n_fatent g - 2) then Ok (v, FR_OK, free_clst v)
     else
       '(v, r, nfree) <-
         match ftype g with
         | FAT12 => scan12 fuel g v 2 0
         | _ => scan fuel g v (n_fatent g) (fatbase g) 0 0
         end ;;
       match r with
       | FR_OK => Ok (set_info v nfree (last_clst v) (Z.lor (fsi_flag v) 1), FR_OK, nfree)
       | e => Ok (v, e, 0)
       end) ;;
  let m := mkMounted g v (m_dirbase m) (m_nroot m) (m_totsec m) in
  match r with
  | FR_OK => Ok (m, FR_OK, Some (mkInfo (ftype g) (ss g * csize g) (m_totsec m / csize g) bfree bfree))
  | e => Ok (m, e, None)
  end.
