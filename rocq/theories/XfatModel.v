(* Model of cluster allocation on exFAT volumes in fatfs/fatfs.c: the allocation
   bitmap, the FAT of exFAT, chains which have no FAT entries as long as they are
   contiguous, and the way f_write, f_lseek, f_truncate, f_sync and f_open use them;
   f_expand and the count of f_statfs.  The window and the drive are those of
   FatModel: the drive fails exactly on sectors outside it.  [bb] is fs->bitbase. *)
From Verif Require Import Base FatModel.
Open Scope Z_scope.

(* obj_id_t, fatfs/fatfs.h:84-96, without the fields for the containing directory;
   stat: 0 the FAT chain is valid, 2 contiguous and no FAT chain, 3 became fragmented. *)
Record xobj := mkObj { sclust : Z; stat : Z; n_cont : Z; n_frag : Z; objsize : Z }.
Definition set_stat (o : xobj) (s : Z) : xobj := mkObj (sclust o) s (n_cont o) (n_frag o) (objsize o).
Definition set_frag (o : xobj) (n : Z) : xobj := mkObj (sclust o) (stat o) (n_cont o) n (objsize o).
Definition set_cont (o : xobj) (n : Z) : xobj := mkObj (sclust o) (stat o) n (n_frag o) (objsize o).
Definition set_start (o : xobj) (c : Z) : xobj := mkObj c (stat o) (n_cont o) (n_frag o) (objsize o).
Definition set_size (o : xobj) (n : Z) : xobj := mkObj (sclust o) (stat o) (n_cont o) (n_frag o) n.

Definition w64 (x : Z) : Z := x mod 18446744073709551616.

(* 0x7FFFFFFF *)
Definition EOC : Z := 2147483647.

(* get_fat, fatfs/fatfs.c:880-898 and 917-951, FS_EXFAT *)
Definition xget (g : geo) (v : vol) (o : xobj) (c : Z) : res (vol * Z) :=
  if (c <? 2) || (n_fatent g <=? c) then Ok (v, 1)
  else if (negb (objsize o =? 0) && negb (sclust o =? 0)) || (stat o =? 0) then
    let cofs := w32 (c - sclust o) in
    let clen := w32 (w64 (objsize o - 1) / ss g) / csize g in
    if (stat o =? 2) && (cofs <=? clen) then Ok (v, if cofs =? clen then EOC else w32 (c + 1))
    else if (stat o =? 3) && (cofs <? n_cont o) then Ok (v, w32 (c + 1))
    else if negb (stat o =? 2) then
      if negb (n_frag o =? 0) then Ok (v, EOC)
      else
        let '(v, r) := move_window g v (w32 (fatbase g + c / (ss g / 4))) in
        match r with
        | FR_OK => x <- ld_dword (win v) (w32 (c * 4) mod ss g) ;; Ok (v, Z.land x EOC)
        | _ => Ok (v, ERR)
        end
    else Ok (v, 1)
  else Ok (v, 1).

(* put_fat, fatfs/fatfs.c:962-1013, FS_EXFAT *)
Definition xput (g : geo) (v : vol) (c val : Z) : res (vol * frc) :=
  if (2 <=? c) && (c <? n_fatent g) then
    let '(v, r) := move_window g v (w32 (fatbase g + c / (ss g / 4))) in
    match r with
    | FR_OK => w <- st_dword (win v) (w32 (c * 4) mod ss g) val ;; Ok (dirty v w, FR_OK)
    | e => Ok (v, e)
    end
  else Ok (v, FR_INT_ERR).

(* The loops of find_bitmap, fatfs/fatfs.c:1041-1067.  Each round looks at one bit,
   of byte i of the window; the last lines go to the next bit, byte or sector. *)
Fixpoint find_loop (fuel : nat) (g : geo) (bb : Z) (v : vol) (clst ncl val scl ctr i bm : Z) : res (vol * Z) :=
  match fuel with
  | O => NoFuel
  | S k =>
      b <- rd (win v) i ;;
      let bv := Z.land b bm in
      let bm := w8 (Z.shiftl bm 1) in
      let val := w32 (val + 1) in
      let '(val, bm, i) := if w32 (n_fatent g - 2) <=? val then (0, 0, ss g) else (val, bm, i) in
      let '(scl, ctr) := if bv =? 0 then (scl, w32 (ctr + 1)) else (val, 0) in
      if (bv =? 0) && (ctr =? ncl) then Ok (v, w32 (scl + 2))
      else if val =? clst then Ok (v, 0)
      else if negb (bm =? 0) then find_loop k g bb v clst ncl val scl ctr i bm
      else if i + 1 <? ss g then find_loop k g bb v clst ncl val scl ctr (i + 1) 1
      else
        let '(v, r) := move_window g v (w32 (bb + val / 8 / ss g)) in
        match r with
        | FR_OK => find_loop k g bb v clst ncl val scl ctr (val / 8 mod ss g) (Z.shiftl 1 (val mod 8))
        | _ => Ok (v, ERR)
        end
  end.

(* find_bitmap, fatfs/fatfs.c:1027-1069 *)
Definition find_bitmap (fuel : nat) (g : geo) (bb : Z) (v : vol) (clst ncl : Z) : res (vol * Z) :=
  let clst := w32 (clst - 2) in
  let clst := if w32 (n_fatent g - 2) <=? clst then 0 else clst in
  let '(v, r) := move_window g v (w32 (bb + clst / 8 / ss g)) in
  match r with
  | FR_OK => find_loop fuel g bb v clst ncl clst clst 0 (clst / 8 mod ss g) (Z.shiftl 1 (clst mod 8))
  | _ => Ok (v, ERR)
  end.

(* The loops of change_bitmap, fatfs/fatfs.c:1088-1104; sect is that of the next
   sector. *)
Fixpoint change_loop (fuel : nat) (g : geo) (v : vol) (sect i bm ncl : Z) (bv : bool) : res (vol * frc) :=
  match fuel with
  | O => NoFuel
  | S k =>
      b <- rd (win v) i ;;
      if Bool.eqb bv (negb (Z.land b bm =? 0)) then Ok (v, FR_INT_ERR)
      else
        w <- wr (win v) i (Z.lxor b bm) ;;
        let v := dirty v w in
        let ncl := w32 (ncl - 1) in
        if ncl =? 0 then Ok (v, FR_OK)
        else
          let bm := w8 (Z.shiftl bm 1) in
          if negb (bm =? 0) then change_loop k g v sect i bm ncl bv
          else if i + 1 <? ss g then change_loop k g v sect (i + 1) 1 ncl bv
          else
            let '(v, r) := move_window g v sect in
            match r with
            | FR_OK => change_loop k g v (w32 (sect + 1)) 0 1 ncl bv
            | _ => Ok (v, FR_DISK_ERR)
            end
  end.

(* change_bitmap, fatfs/fatfs.c:1075-1105 *)
Definition change_bitmap (fuel : nat) (g : geo) (bb : Z) (v : vol) (clst ncl : Z) (bv : bool) : res (vol * frc) :=
  let clst := w32 (clst - 2) in
  let sect := w32 (bb + clst / 8 / ss g) in
  let '(v, r) := move_window g v sect in
  match r with
  | FR_OK => change_loop fuel g v (w32 (sect + 1)) (clst / 8 mod ss g) (Z.shiftl 1 (clst mod 8)) ncl bv
  | _ => Ok (v, FR_DISK_ERR)
  end.

(* The loop of fill_first_frag, fatfs/fatfs.c:1116-1121; n clusters from cl on. *)
Fixpoint first_loop (n : nat) (g : geo) (v : vol) (cl : Z) : res (vol * frc) :=
  match n with
  | O => Ok (v, FR_OK)
  | S m =>
      '(v, r) <- xput g v cl (w32 (cl + 1)) ;;
      match r with FR_OK => first_loop m g v (w32 (cl + 1)) | e => Ok (v, e) end
  end.
(* fill_first_frag, fatfs/fatfs.c:1110-1125 *)
Definition fill_first (g : geo) (v : vol) (o : xobj) : res (vol * xobj * frc) :=
  if stat o =? 3 then
    '(v, r) <- first_loop (Z.to_nat (n_cont o)) g v (sclust o) ;;
    match r with FR_OK => Ok (v, set_stat o 0, FR_OK) | e => Ok (v, o, e) end
  else Ok (v, o, FR_OK).

(* The loop of fill_last_frag, fatfs/fatfs.c:1137-1143, while n_frag = n *)
Fixpoint last_loop (n : nat) (g : geo) (v : vol) (lcl term : Z) : res (vol * frc * nat) :=
  match n with
  | O => Ok (v, FR_OK, O)
  | S m =>
      '(v, r) <- xput g v (w32 (lcl - Z.of_nat n + 1)) (if 1 <? Z.of_nat n then w32 (lcl - Z.of_nat n + 2) else term) ;;
      match r with FR_OK => last_loop m g v lcl term | e => Ok (v, e, n) end
  end.
(* fill_last_frag, fatfs/fatfs.c:1131-1145 *)
Definition fill_last (g : geo) (v : vol) (o : xobj) (lcl term : Z) : res (vol * xobj * frc) :=
  '(v, r, n) <- last_loop (Z.to_nat (n_frag o)) g v lcl term ;;
  Ok (v, set_frag o (Z.of_nat n), r).

(* The loop of remove_chain, fatfs/fatfs.c:1178-1212; scl and ecl: the contiguous
   block not yet marked as free. *)
Fixpoint xremove_loop (fuel : nat) (g : geo) (bb : Z) (v : vol) (o : xobj) (clst scl ecl : Z) : res (vol * frc) :=
  match fuel with
  | O => NoFuel
  | S k =>
      '(v, nxt) <- xget g v o clst ;;
      if nxt =? 0 then Ok (v, FR_OK)
      else if nxt =? 1 then Ok (v, FR_INT_ERR)
      else if nxt =? ERR then Ok (v, FR_DISK_ERR)
      else
        let v := if free_clst v <? w32 (n_fatent g - 2) then set_info v (w32 (free_clst v + 1)) (last_clst v) (Z.lor (fsi_flag v) 1) else v in
        if w32 (ecl + 1) =? nxt then
          if nxt <? n_fatent g then xremove_loop k g bb v o nxt scl nxt else Ok (v, FR_OK)
        else
          '(v, r) <- change_bitmap k g bb v scl (w32 (w32 (ecl - scl) + 1)) false ;;
          match r with
          | FR_OK => if nxt <? n_fatent g then xremove_loop k g bb v o nxt nxt nxt else Ok (v, FR_OK)
          | e => Ok (v, e)
          end
  end.

(* Whether the chain up to pclst is contiguous, fatfs/fatfs.c:1222-1236 *)
Fixpoint contig (fuel : nat) (g : geo) (v : vol) (o : xobj) (clst pclst : Z) : res (vol * bool * frc) :=
  match fuel with
  | O => NoFuel
  | S k =>
      if clst =? pclst then Ok (v, true, FR_OK)
      else
        '(v, nxt) <- xget g v o clst ;;
        if nxt <? 2 then Ok (v, false, FR_INT_ERR)
        else if nxt =? ERR then Ok (v, false, FR_DISK_ERR)
        else if negb (nxt =? w32 (clst + 1)) then Ok (v, false, FR_OK)
        else contig k g v o (w32 (clst + 1)) pclst
  end.

(* remove_chain, fatfs/fatfs.c:1155-1247, FS_EXFAT *)
Definition xremove (fuel : nat) (g : geo) (bb : Z) (v : vol) (o : xobj) (clst pclst : Z) : res (vol * xobj * frc) :=
  if (clst <? 2) || (n_fatent g <=? clst) then Ok (v, o, FR_INT_ERR)
  else
    '(v, r) <- (if negb (pclst =? 0) && negb (stat o =? 2) then xput g v pclst ERR else Ok (v, FR_OK)) ;;
    match r with
    | FR_OK =>
        '(v, r) <- xremove_loop fuel g bb v o clst clst clst ;;
        match r with
        | FR_OK =>
            if pclst =? 0 then Ok (v, set_stat o 0, FR_OK)
            else if stat o =? 0 then
              '(v, b, r) <- contig fuel g v o (sclust o) pclst ;;
              match r with
              | FR_OK => Ok (v, if (b : bool) then set_stat o 2 else o, FR_OK)
              | e => Ok (v, o, e)
              end
            else if (stat o =? 3) && (sclust o <=? pclst) && (pclst <=? w32 (sclust o + n_cont o)) then Ok (v, set_stat o 2, FR_OK)
            else Ok (v, o, FR_OK)
        | e => Ok (v, o, e)
        end
    | e => Ok (v, o, e)
    end.

(* create_chain from the test of free_clst on, fatfs/fatfs.c:1276-1309 and 1351-1361 *)
Definition xallocate (fuel : nat) (g : geo) (bb : Z) (v : vol) (o : xobj) (clst scl : Z) : res (vol * xobj * Z) :=
  if free_clst v =? 0 then Ok (v, o, 0)
  else
    '(v, ncl) <- find_bitmap fuel g bb v scl 1 ;;
    if (ncl =? 0) || (ncl =? ERR) then Ok (v, o, ncl)
    else
      '(v, r) <- change_bitmap fuel g bb v ncl 1 true ;;
      match r with
      | FR_INT_ERR => Ok (v, o, 1)
      | FR_DISK_ERR => Ok (v, o, ERR)
      | _ =>
          let o := if clst =? 0 then set_stat o 2
                   else if (stat o =? 2) && negb (ncl =? w32 (scl + 1)) then set_stat (set_cont o (w32 (scl - sclust o))) 3
                   else o in
          '(v, o, r) <-
            (if negb (stat o =? 2) then
               if ncl =? w32 (clst + 1) then Ok (v, set_frag o (if n_frag o =? 0 then 2 else w32 (n_frag o + 1)), FR_OK)
               else
                 let o := if n_frag o =? 0 then set_frag o 1 else o in
                 '(v, o, r) <- fill_last g v o clst ncl ;;
                 match r with FR_OK => Ok (v, set_frag o 1, FR_OK) | e => Ok (v, o, e) end
             else Ok (v, o, FR_OK)) ;;
          match r with
          | FR_OK =>
              let free := if free_clst v <=? w32 (n_fatent g - 2) then w32 (free_clst v - 1) else free_clst v in
              Ok (set_info v free ncl (Z.lor (fsi_flag v) 1), o, ncl)
          | FR_DISK_ERR => Ok (v, o, ERR)
          | _ => Ok (v, o, 1)
          end
      end.

(* create_chain, fatfs/fatfs.c:1255-1361, FS_EXFAT *)
Definition xcreate (fuel : nat) (g : geo) (bb : Z) (v : vol) (o : xobj) (clst : Z) : res (vol * xobj * Z) :=
  if clst =? 0 then
    xallocate fuel g bb v o clst (if (last_clst v =? 0) || (n_fatent g <=? last_clst v) then 1 else last_clst v)
  else
    '(v, cs) <- xget g v o clst ;;
    if cs <? 2 then Ok (v, o, 1)
    else if cs =? ERR then Ok (v, o, cs)
    else if cs <? n_fatent g then Ok (v, o, cs)
    else xallocate fuel g bb v o clst clst.

(* --- an open file, as far as its clusters are concerned ------------------------- *)

(* fp->obj and fp->clust, fatfs/fatfs.h:99-107 *)
Record xfil := mkXfil { obj : xobj; clust : Z }.

Definition cbytes (g : geo) : Z := csize g * ss g.

(* f_write at the end of a file of whole clusters, of one more cluster of data,
   fatfs/fatfs.c:3774-3803: the cluster, and the new size.  The result is that of
   create_chain; 0: the disk is full. *)
Definition grow (fuel : nat) (g : geo) (bb : Z) (v : vol) (f : xfil) : res (vol * xfil * Z) :=
  '(v, o, c) <- xcreate fuel g bb v (obj f) (if sclust (obj f) =? 0 then 0 else clust f) ;;
  if (c <? 2) || (c =? ERR) then Ok (v, mkXfil o (clust f), c)
  else
    let o := if sclust o =? 0 then set_start o c else o in
    Ok (v, mkXfil (set_size o (w64 (objsize o + cbytes g))) c, c).

(* f_lseek backwards to an offset in the cluster number k of the file,
   fatfs/fatfs.c:4226-4234 and 4318-4355: from the first cluster on, create_chain
   leads to the next one. *)
Fixpoint walk (fuel : nat) (g : geo) (bb : Z) (v : vol) (o : xobj) (clst : Z) (k : nat) : res (vol * xobj * Z) :=
  match k with
  | O => Ok (v, o, clst)
  | S m =>
      '(v, o, c) <- xcreate fuel g bb v o clst ;;
      if (c <? 2) || (c =? ERR) then Ok (v, o, c) else walk fuel g bb v o c m
  end.
Definition seek (fuel : nat) (g : geo) (bb : Z) (v : vol) (f : xfil) (k : nat) : res (vol * xfil * Z) :=
  '(v, o, r) <- fill_last g v (obj f) (clust f) ERR ;;
  match r with
  | FR_OK => '(v, o, c) <- walk fuel g bb v o (sclust o) k ;; Ok (v, mkXfil o c, c)
  | _ => Ok (v, mkXfil o (clust f), 1)
  end.

(* f_truncate, fatfs/fatfs.c:4719-4765: at the beginning of the file, or at the end of
   the cluster number k, which is the current one. *)
Definition empty (fuel : nat) (g : geo) (bb : Z) (v : vol) (f : xfil) : res (vol * xfil * frc) :=
  '(v, o, r) <- xremove fuel g bb v (obj f) (sclust (obj f)) 0 ;;
  match r with
  | FR_OK => Ok (v, mkXfil (set_size (set_start o 0) 0) (clust f), FR_OK)
  | e => Ok (v, mkXfil o (clust f), e)
  end.
Definition cut (fuel : nat) (g : geo) (bb : Z) (v : vol) (f : xfil) (k : nat) : res (vol * xfil * frc) :=
  '(v, ncl) <- xget g v (obj f) (clust f) ;;
  if ncl =? ERR then Ok (v, f, FR_DISK_ERR)
  else if ncl =? 1 then Ok (v, f, FR_INT_ERR)
  else
    '(v, o, r) <- (if ncl <? n_fatent g then xremove fuel g bb v (obj f) ncl (clust f) else Ok (v, obj f, FR_OK)) ;;
    match r with
    | FR_OK => Ok (v, mkXfil (set_size o (w64 ((Z.of_nat k + 1) * cbytes g))) (clust f), FR_OK)
    | e => Ok (v, mkXfil o (clust f), e)
    end.

(* f_sync, fatfs/fatfs.c:3904-3924; and what f_open finds in the directory afterwards:
   GenFlags is stat | 1, of which init_alloc_info (fatfs/fatfs.c:1923-1930) takes bit 1. *)
Definition xsync (g : geo) (v : vol) (f : xfil) : res (vol * xfil * frc) :=
  '(v, o, r) <- fill_first g v (obj f) ;;
  match r with
  | FR_OK =>
      '(v, o, r) <- fill_last g v o (clust f) ERR ;;
      Ok (v, mkXfil o (clust f), r)
  | e => Ok (v, mkXfil o (clust f), e)
  end.
Definition reopen (f : xfil) : xfil :=
  mkXfil (mkObj (sclust (obj f)) (Z.land (Z.lor (stat (obj f)) 1) 2) 0 0 (objsize (obj f))) 0.

(* f_expand, fatfs/fatfs.c:5369-5446, FS_EXFAT, of an empty file that can be written *)
Definition xexpand (fuel : nat) (g : geo) (bb : Z) (v : vol) (o : xobj) (fsz : Z) (opt : bool) : res (vol * xobj * frc) :=
  let n := cbytes g in
  let tcl := w32 (w32 (fsz / n) + (if Z.land fsz (n - 1) =? 0 then 0 else 1)) in
  let stcl := if (last_clst v <? 2) || (n_fatent g <=? last_clst v) then 2 else last_clst v in
  '(v, scl) <- find_bitmap fuel g bb v stcl tcl ;;
  if scl =? 0 then Ok (v, o, FR_DENIED)
  else if scl =? ERR then Ok (v, o, FR_DISK_ERR)
  else if opt then
    '(v, r) <- change_bitmap fuel g bb v scl tcl true ;;
    match r with
    | FR_OK =>
        let v := set_info v (free_clst v) (w32 (scl + tcl - 1)) (fsi_flag v) in
        let v := if free_clst v <=? w32 (n_fatent g - 2) then set_info v (w32 (free_clst v - tcl)) (last_clst v) (Z.lor (fsi_flag v) 1) else v in
        Ok (v, set_size (set_stat (set_start o scl) 2) fsz, FR_OK)
    | e => Ok (v, o, e)
    end
  else Ok (set_info v (free_clst v) (w32 (scl - 1)) (fsi_flag v), o, FR_OK).

(* The count of f_statfs, fatfs/fatfs.c:4649-4671: the bits of one byte, then all bytes. *)
Fixpoint count8 (n : nat) (bm clst nfree : Z) : Z * Z :=
  match n with
  | O => (clst, nfree)
  | S m => if clst =? 0 then (clst, nfree) else count8 m (Z.shiftr bm 1) (w32 (clst - 1)) (w32 (nfree + Z.land bm 1))
  end.
Fixpoint count_loop (fuel : nat) (g : geo) (v : vol) (sect i clst nfree : Z) : res (vol * frc * Z) :=
  match fuel with
  | O => NoFuel
  | S k =>
      let '(v, r) := if i =? 0 then move_window g v sect else (v, FR_OK) in
      let sect := if i =? 0 then w32 (sect + 1) else sect in
      match r with
      | FR_OK =>
          b <- rd (win v) i ;;
          let '(clst, nfree) := count8 8 (255 - b) clst nfree in
          let i := (i + 1) mod ss g in
          if clst =? 0 then Ok (v, FR_OK, nfree) else count_loop k g v sect i clst nfree
      | e => Ok (v, e, nfree)
      end
  end.
Definition count_bitmap (fuel : nat) (g : geo) (bb : Z) (v : vol) : res (vol * frc * Z) :=
  count_loop fuel g v bb 0 (w32 (n_fatent g - 2)) 0.
