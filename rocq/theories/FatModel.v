(* Model of FAT access in fatfs/fatfs.c: the one-sector window, FAT entries,
   cluster chains; for FAT12, FAT16 and FAT32 (exFAT is left out).  A sector is a
   function from byte offset to byte.  The disk fails exactly on sectors outside
   it; other read and write errors are not modelled. *)
From Verif Require Import Base.
Open Scope Z_scope.

Inductive fat := FAT12 | FAT16 | FAT32.
Inductive frc := FR_OK | FR_DISK_ERR | FR_INT_ERR | FR_DENIED.

(* What mount_volume computes and nothing changes later (filesystem_t,
   fatfs/fatfs.h:42-77), and the number of sectors on the drive. *)
Record geo := mkGeo {
  ss : Z; fatbase : Z; fsize : Z; n_fats : Z; n_fatent : Z; ftype : fat;
  csize : Z; database : Z; volbase : Z; dsize : Z }.

(* The rest of filesystem_t, and the drive. *)
Record vol := mkVol {
  disk : Z -> Z -> Z; win : Z -> Z; winsect : Z; wflag : bool;
  free_clst : Z; last_clst : Z; fsi_flag : Z }.

Definition w32 (x : Z) : Z := x mod 4294967296.
Definition w8 (x : Z) : Z := x mod 256.
Definition upd {A} (f : Z -> A) (i : Z) (x : A) (j : Z) : A := if j =? i then x else f j.

Definition set_disk (v : vol) (d : Z -> Z -> Z) : vol := mkVol d (win v) (winsect v) (wflag v) (free_clst v) (last_clst v) (fsi_flag v).
Definition set_win (v : vol) (w : Z -> Z) (s : Z) : vol := mkVol (disk v) w s (wflag v) (free_clst v) (last_clst v) (fsi_flag v).
Definition set_wflag (v : vol) (b : bool) : vol := mkVol (disk v) (win v) (winsect v) b (free_clst v) (last_clst v) (fsi_flag v).
Definition set_info (v : vol) (f l i : Z) : vol := mkVol (disk v) (win v) (winsect v) (wflag v) f l i.

(* One sector; the buffer is [w]. *)
Definition disk_write (g : geo) (v : vol) (w : Z -> Z) (s : Z) : option vol :=
  if (0 <=? s) && (s <? dsize g) then Some (set_disk v (upd (disk v) s w)) else None.
Definition disk_read (g : geo) (v : vol) (s : Z) : option (Z -> Z) :=
  if (0 <=? s) && (s <? dsize g) then Some (disk v s) else None.

(* sync_window, fatfs/fatfs.c:781-799 *)
Definition sync_window (g : geo) (v : vol) : vol * frc :=
  if wflag v then
    match disk_write g v (win v) (winsect v) with
    | Some v =>
        let v := set_wflag v false in
        if (w32 (winsect v - fatbase g) <? fsize g) && (n_fats g =? 2) then
          match disk_write g v (win v) (w32 (winsect v + fsize g)) with
          | Some v => (v, FR_OK)
          | None => (v, FR_OK)
          end
        else (v, FR_OK)
    | None => (v, FR_DISK_ERR)
    end
  else (v, FR_OK).

(* move_window, fatfs/fatfs.c:803-822 *)
Definition move_window (g : geo) (v : vol) (s : Z) : vol * frc :=
  if negb (s =? winsect v) then
    let '(v, r) := sync_window g v in
    match r with
    | FR_OK =>
        match disk_read g v s with
        | Some w => (set_win v w s, FR_OK)
        | None => (set_win v (win v) 4294967295, FR_DISK_ERR)
        end
    | e => (v, e)
    end
  else (v, FR_OK).

(* Bytes of win[4096]; outside is undefined. *)
Definition rd (w : Z -> Z) (i : Z) : res Z := if (0 <=? i) && (i <? 4096) then Ok (w i) else Ub.
Definition wr (w : Z -> Z) (i b : Z) : res (Z -> Z) := if (0 <=? i) && (i <? 4096) then Ok (upd w i (w8 b)) else Ub.

(* ld_word, ld_dword, st_word, st_dword, fatfs/fatfs.c:426-478 *)
Definition ld_word (w : Z -> Z) (i : Z) : res Z :=
  b1 <- rd w (i + 1) ;; b0 <- rd w i ;;
  Ok (Z.lor (Z.shiftl b1 8) b0).
Definition ld_dword (w : Z -> Z) (i : Z) : res Z :=
  b3 <- rd w (i + 3) ;; b2 <- rd w (i + 2) ;; b1 <- rd w (i + 1) ;; b0 <- rd w i ;;
  Ok (Z.lor (Z.shiftl (Z.lor (Z.shiftl (Z.lor (Z.shiftl b3 8) b2) 8) b1) 8) b0).
Definition st_word (w : Z -> Z) (i x : Z) : res (Z -> Z) :=
  w <- wr w i x ;; wr w (i + 1) (Z.shiftr x 8).
Definition st_dword (w : Z -> Z) (i x : Z) : res (Z -> Z) :=
  w <- wr w i x ;; w <- wr w (i + 1) (Z.shiftr x 8) ;; w <- wr w (i + 2) (Z.shiftr x 16) ;; wr w (i + 3) (Z.shiftr x 24).

(* clst2sect, fatfs/fatfs.c:863-870 *)
Definition clst2sect (g : geo) (c : Z) : Z :=
  let c := w32 (c - 2) in
  if w32 (n_fatent g - 2) <=? c then 0 else w32 (database g + w32 (csize g * c)).

Definition ERR : Z := 4294967295.

(* get_fat, fatfs/fatfs.c:880-951 *)
Definition get_fat (g : geo) (v : vol) (c : Z) : res (vol * Z) :=
  if (c <? 2) || (n_fatent g <=? c) then Ok (v, 1)
  else
    match ftype g with
    | FAT12 =>
        let bc := w32 (c + c / 2) in
        let '(v, r) := move_window g v (w32 (fatbase g + bc / ss g)) in
        match r with
        | FR_OK =>
            b0 <- rd (win v) (bc mod ss g) ;;
            let bc := w32 (bc + 1) in
            let '(v, r) := move_window g v (w32 (fatbase g + bc / ss g)) in
            match r with
            | FR_OK =>
                b1 <- rd (win v) (bc mod ss g) ;;
                let wc := Z.lor b0 (Z.shiftl b1 8) in
                Ok (v, if Z.land c 1 =? 0 then Z.land wc 4095 else Z.shiftr wc 4)
            | _ => Ok (v, ERR)
            end
        | _ => Ok (v, ERR)
        end
    | FAT16 =>
        let '(v, r) := move_window g v (w32 (fatbase g + c / (ss g / 2))) in
        match r with
        | FR_OK => x <- ld_word (win v) (w32 (c * 2) mod ss g) ;; Ok (v, x)
        | _ => Ok (v, ERR)
        end
    | FAT32 =>
        let '(v, r) := move_window g v (w32 (fatbase g + c / (ss g / 4))) in
        match r with
        | FR_OK => x <- ld_dword (win v) (w32 (c * 4) mod ss g) ;; Ok (v, Z.land x 268435455)
        | _ => Ok (v, ERR)
        end
    end.

Definition dirty (v : vol) (w : Z -> Z) : vol := set_wflag (set_win v w (winsect v)) true.

(* put_fat, fatfs/fatfs.c:962-1013 *)
Definition put_fat (g : geo) (v : vol) (c val : Z) : res (vol * frc) :=
  if (2 <=? c) && (c <? n_fatent g) then
    match ftype g with
    | FAT12 =>
        let bc := w32 (c + c / 2) in
        let '(v, r) := move_window g v (w32 (fatbase g + bc / ss g)) in
        match r with
        | FR_OK =>
            p <- rd (win v) (bc mod ss g) ;;
            w <- wr (win v) (bc mod ss g) (if Z.land c 1 =? 0 then w8 val else Z.lor (Z.land p 15) (Z.shiftl (w8 val) 4)) ;;
            let v := dirty v w in
            let bc := w32 (bc + 1) in
            let '(v, r) := move_window g v (w32 (fatbase g + bc / ss g)) in
            match r with
            | FR_OK =>
                p <- rd (win v) (bc mod ss g) ;;
                w <- wr (win v) (bc mod ss g)
                       (if Z.land c 1 =? 0 then Z.lor (Z.land p 240) (Z.land (w8 (Z.shiftr val 8)) 15) else w8 (Z.shiftr val 4)) ;;
                Ok (dirty v w, FR_OK)
            | e => Ok (v, e)
            end
        | e => Ok (v, e)
        end
    | FAT16 =>
        let '(v, r) := move_window g v (w32 (fatbase g + c / (ss g / 2))) in
        match r with
        | FR_OK => w <- st_word (win v) (w32 (c * 2) mod ss g) (val mod 65536) ;; Ok (dirty v w, FR_OK)
        | e => Ok (v, e)
        end
    | FAT32 =>
        let '(v, r) := move_window g v (w32 (fatbase g + c / (ss g / 4))) in
        match r with
        | FR_OK =>
            old <- ld_dword (win v) (w32 (c * 4) mod ss g) ;;
            w <- st_dword (win v) (w32 (c * 4) mod ss g) (Z.lor (Z.land val 268435455) (Z.land old 4026531840)) ;;
            Ok (dirty v w, FR_OK)
        | e => Ok (v, e)
        end
    end
  else Ok (v, FR_INT_ERR).

(* --- chains ----------------------------------------------------------------- *)

(* The loop of remove_chain, fatfs/fatfs.c:1178-1212. *)
Fixpoint remove_loop (fuel : nat) (g : geo) (v : vol) (c : Z) : res (vol * frc) :=
  match fuel with
  | O => NoFuel
  | S k =>
      '(v, nxt) <- get_fat g v c ;;
      if nxt =? 0 then Ok (v, FR_OK)
      else if nxt =? 1 then Ok (v, FR_INT_ERR)
      else if nxt =? ERR then Ok (v, FR_DISK_ERR)
      else
        '(v, r) <- put_fat g v c 0 ;;
        match r with
        | FR_OK =>
            let v := if free_clst v <? w32 (n_fatent g - 2) then set_info v (w32 (free_clst v + 1)) (last_clst v) (Z.lor (fsi_flag v) 1) else v in
            if nxt <? n_fatent g then remove_loop k g v nxt else Ok (v, FR_OK)
        | e => Ok (v, e)
        end
  end.

(* remove_chain, fatfs/fatfs.c:1155-1243, without the exFAT parts *)
Definition remove_chain (fuel : nat) (g : geo) (v : vol) (c p : Z) : res (vol * frc) :=
  if (c <? 2) || (n_fatent g <=? c) then Ok (v, FR_INT_ERR)
  else if negb (p =? 0) then
    '(v, r) <- put_fat g v p ERR ;;
    match r with FR_OK => remove_loop fuel g v c | e => Ok (v, e) end
  else remove_loop fuel g v c.

(* The search loop of create_chain, fatfs/fatfs.c:1330-1344; the result is the
   free cluster and true (break), or the value returned: 0 if there is none, or an
   error code. *)
Fixpoint search (fuel : nat) (g : geo) (v : vol) (ncl scl : Z) : res (vol * Z * bool) :=
  match fuel with
  | O => NoFuel
  | S k =>
      let ncl := w32 (ncl + 1) in
      let '(ncl, wrapped) := if n_fatent g <=? ncl then (2, true) else (ncl, false) in
      if wrapped && (scl <? ncl) then Ok (v, 0, false)
      else
        '(v, cs) <- get_fat g v ncl ;;
        if cs =? 0 then Ok (v, ncl, true)
        else if (cs =? 1) || (cs =? ERR) then Ok (v, cs, false)
        else if ncl =? scl then Ok (v, 0, false)
        else search k g v ncl scl
  end.

(* The end of create_chain, fatfs/fatfs.c:1346-1361: linking cluster ncl. *)
Definition link (g : geo) (v : vol) (c ncl : Z) : res (vol * Z) :=
  '(v, r) <- put_fat g v ncl ERR ;;
  '(v, r) <- (match r with FR_OK => if negb (c =? 0) then put_fat g v c ncl else Ok (v, FR_OK) | e => Ok (v, e) end) ;;
  match r with
  | FR_OK =>
      let free := if free_clst v <=? w32 (n_fatent g - 2) then w32 (free_clst v - 1) else free_clst v in
      Ok (set_info v free ncl (Z.lor (fsi_flag v) 1), ncl)
  | FR_DISK_ERR => Ok (v, ERR)
  | _ => Ok (v, 1)
  end.

(* The part of create_chain from the test of free_clst on, fatfs/fatfs.c:1276-1361,
   for FAT volumes. *)
Definition allocate (fuel : nat) (g : geo) (v : vol) (c scl : Z) : res (vol * Z) :=
  if free_clst v =? 0 then Ok (v, 0)
  else
    '(v, scl, ncl, stop) <-
      (if scl =? c then
         let ncl := w32 (scl + 1) in
         let ncl := if n_fatent g <=? ncl then 2 else ncl in
         '(v, cs) <- get_fat g v ncl ;;
         if (cs =? 1) || (cs =? ERR) then Ok (v, scl, cs, true)
         else if negb (cs =? 0) then
           Ok (v, if (2 <=? last_clst v) && (last_clst v <? n_fatent g) then last_clst v else scl, 0, false)
         else Ok (v, scl, ncl, false)
       else Ok (v, scl, 0, false)) ;;
    if (stop : bool) then Ok (v, ncl)
    else if ncl =? 0 then
      '(v, x, found) <- search fuel g v scl scl ;;
      if (found : bool) then link g v c x else Ok (v, x)
    else link g v c ncl.

(* create_chain, fatfs/fatfs.c:1255-1361 *)
Definition create_chain (fuel : nat) (g : geo) (v : vol) (c : Z) : res (vol * Z) :=
  if c =? 0 then
    allocate fuel g v c (if (last_clst v =? 0) || (n_fatent g <=? last_clst v) then 1 else last_clst v)
  else
    '(v, cs) <- get_fat g v c ;;
    if cs <? 2 then Ok (v, 1)
    else if cs =? ERR then Ok (v, cs)
    else if cs <? n_fatent g then Ok (v, cs)
    else allocate fuel g v c c.
