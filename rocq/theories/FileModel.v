(* Model of open files in fatfs/fatfs.c: f_read, f_write, f_lseek, f_truncate and the
   state f_open leaves, on FAT12/16/32 volumes, without fast seek (cltbl = 0) and for a
   valid file object (validate succeeds).  User buffers are functions from offset to
   byte together with a length; access outside is Ub. *)
From Verif Require Import Base FatModel.
Open Scope Z_scope.

(* file_t, fatfs/fatfs.h:102-121: the flags FA_READ, FA_WRITE, FA_DIRTY, FA_MODIFIED
   are separate. *)
Record fil := mkFil {
  fptr : Z; objsize : Z; sclust : Z; clust : Z; fsect : Z; fbuf : Z -> Z;
  fdirty : bool; fmodif : bool; fread : bool; fwrite : bool; ferr : frc }.

Definition set_pos (f : fil) (p n : Z) : fil := mkFil p n (sclust f) (clust f) (fsect f) (fbuf f) (fdirty f) (fmodif f) (fread f) (fwrite f) (ferr f).
Definition set_start (f : fil) (s c : Z) : fil := mkFil (fptr f) (objsize f) s c (fsect f) (fbuf f) (fdirty f) (fmodif f) (fread f) (fwrite f) (ferr f).
Definition set_buf (f : fil) (s : Z) (b : Z -> Z) (d : bool) : fil := mkFil (fptr f) (objsize f) (sclust f) (clust f) s b d (fmodif f) (fread f) (fwrite f) (ferr f).
Definition set_modif (f : fil) : fil := mkFil (fptr f) (objsize f) (sclust f) (clust f) (fsect f) (fbuf f) (fdirty f) true (fread f) (fwrite f) (ferr f).
Definition set_err (f : fil) (e : frc) : fil := mkFil (fptr f) (objsize f) (sclust f) (clust f) (fsect f) (fbuf f) (fdirty f) (fmodif f) (fread f) (fwrite f) e.

(* disk_read and disk_write of n sectors. *)
Definition read_n (g : geo) (v : vol) (s n : Z) : option (Z -> Z) :=
  if (0 <=? s) && (s + n <=? dsize g) then Some (fun k => disk v (s + k / ss g) (k mod ss g)) else None.
Definition write_n (g : geo) (v : vol) (b : Z -> Z) (s n : Z) : option vol :=
  if (0 <=? s) && (s + n <=? dsize g) then
    Some (set_disk v (fun s' o => if (s <=? s') && (s' <? s + n) && (0 <=? o) && (o <? ss g) then b ((s' - s) * ss g + o) else disk v s' o))
  else None.

(* memcpy of n bytes from [src + so] to [dst + d], where the buffers hold dl and sl bytes. *)
Definition memcpy (dst : Z -> Z) (dl d : Z) (src : Z -> Z) (sl so n : Z) : res (Z -> Z) :=
  if (0 <=? d) && (d + n <=? dl) && (0 <=? so) && (so + n <=? sl) then
    Ok (fun k => if (d <=? k) && (k <? d + n) then src (so + (k - d)) else dst k)
  else Ub.

Definition MAXSS : Z := 4096.

(* How the part of the loops done on a sector boundary ends: with an error, with
   "continue" after n bytes, with "break", or by falling through. *)
Inductive outcome := Fail (r : frc) | Direct (n : Z) | Break | Through.

(* Writing the sector buffer back, as in fatfs/fatfs.c:3715-3719, 3813-3817. *)
Definition write_back (g : geo) (v : vol) (f : fil) : option (vol * fil) :=
  if fdirty f then
    match write_n g v (fbuf f) (fsect f) 1 with
    | Some v => Some (v, set_buf f (fsect f) (fbuf f) false)
    | None => None
    end
  else Some (v, f).

(* Finding the cluster when reading, fatfs/fatfs.c:3665-3686. *)
Definition read_cluster (g : geo) (v : vol) (f : fil) : res (vol * fil * outcome) :=
  '(v, c) <- (if fptr f =? 0 then Ok (v, sclust f) else get_fat g v (clust f)) ;;
  if c <? 2 then Ok (v, f, Fail FR_INT_ERR)
  else if c =? ERR then Ok (v, f, Fail FR_DISK_ERR)
  else Ok (v, set_start f (sclust f) c, Through).

(* The sector boundary part of f_read, fatfs/fatfs.c:3662-3726; rb is the user buffer of
   bl bytes, filled up to rpos, btr bytes still to read. *)
Definition read_boundary (g : geo) (v : vol) (f : fil) (rb : Z -> Z) (bl rpos btr : Z) : res (vol * fil * (Z -> Z) * outcome) :=
  let csect := Z.land (fptr f / ss g) (csize g - 1) in
  '(v, f, o) <- (if csect =? 0 then read_cluster g v f else Ok (v, f, Through)) ;;
  match o with
  | Through =>
      let sect := clst2sect g (clust f) in
      if sect =? 0 then Ok (v, f, rb, Fail FR_INT_ERR)
      else
        let sect := w32 (sect + csect) in
        let cc := btr / ss g in
        if 0 <? cc then
          let cc := if csize g <? csect + cc then csize g - csect else cc in
          match read_n g v sect cc with
          | None => Ok (v, f, rb, Fail FR_DISK_ERR)
          | Some d =>
              rb <- memcpy rb bl rpos d (ss g * cc) 0 (ss g * cc) ;;
              rb <- (if fdirty f && (w32 (fsect f - sect) <? cc)
                     then memcpy rb bl (rpos + w32 (fsect f - sect) * ss g) (fbuf f) MAXSS 0 (ss g)
                     else Ok rb) ;;
              Ok (v, f, rb, Direct (ss g * cc))
          end
        else if negb (fsect f =? sect) then
          match write_back g v f with
          | None => Ok (v, f, rb, Fail FR_DISK_ERR)
          | Some (v, f) =>
              match read_n g v sect 1 with
              | None => Ok (v, f, rb, Fail FR_DISK_ERR)
              | Some d =>
                  b <- memcpy (fbuf f) MAXSS 0 d (ss g) 0 (ss g) ;;
                  Ok (v, set_buf f sect b (fdirty f), rb, Through)
              end
          end
        else Ok (v, set_buf f sect (fbuf f) (fdirty f), rb, Through)
  | o => Ok (v, f, rb, o)
  end.

(* The loop of f_read, fatfs/fatfs.c:3660-3739. *)
Fixpoint read_loop (fuel : nat) (g : geo) (v : vol) (f : fil) (rb : Z -> Z) (bl rpos btr : Z) : res (vol * fil * (Z -> Z) * Z * frc) :=
  match fuel with
  | O => NoFuel
  | S k =>
      if btr <=? 0 then Ok (v, f, rb, rpos, FR_OK)
      else
        '(v, f, rb, o) <- (if fptr f mod ss g =? 0 then read_boundary g v f rb bl rpos btr else Ok (v, f, rb, Through)) ;;
        match o with
        | Fail r => Ok (v, set_err f r, rb, rpos, r)
        | Break => Ok (v, f, rb, rpos, FR_OK)
        | Direct n => read_loop k g v (set_pos f (fptr f + n) (objsize f)) rb bl (rpos + n) (btr - n)
        | Through =>
            let n := ss g - fptr f mod ss g in
            let n := if btr <? n then btr else n in
            rb <- memcpy rb bl rpos (fbuf f) MAXSS (fptr f mod ss g) n ;;
            read_loop k g v (set_pos f (fptr f + n) (objsize f)) rb bl (rpos + n) (btr - n)
        end
  end.

(* f_read, fatfs/fatfs.c:3639-3742: number of bytes read and result. *)
Definition f_read (fuel : nat) (g : geo) (v : vol) (f : fil) (rb : Z -> Z) (bl btr : Z) : res (vol * fil * (Z -> Z) * Z * frc) :=
  match ferr f with
  | FR_OK =>
      if fread f then
        let remain := objsize f - fptr f in
        read_loop fuel g v f rb bl 0 (if remain <? btr then remain else btr)
      else Ok (v, f, rb, 0, FR_DENIED)
  | e => Ok (v, f, rb, 0, e)
  end.

(* Finding or making the cluster when writing, fatfs/fatfs.c:3783-3808. *)
Definition write_cluster (fuel : nat) (g : geo) (v : vol) (f : fil) : res (vol * fil * outcome) :=
  '(v, c) <- (if fptr f =? 0 then (if sclust f =? 0 then create_chain fuel g v 0 else Ok (v, sclust f))
              else create_chain fuel g v (clust f)) ;;
  if c =? 0 then Ok (v, f, Break)
  else if c =? 1 then Ok (v, f, Fail FR_INT_ERR)
  else if c =? ERR then Ok (v, f, Fail FR_DISK_ERR)
  else Ok (v, set_start f (if sclust f =? 0 then c else sclust f) c, Through).

(* The sector boundary part of f_write, fatfs/fatfs.c:3780-3862; wb is the user's data of
   bl bytes, wpos of them written, btw to go. *)
Definition write_boundary (fuel : nat) (g : geo) (v : vol) (f : fil) (wb : Z -> Z) (bl wpos btw : Z) : res (vol * fil * outcome) :=
  let csect := Z.land (fptr f / ss g) (csize g - 1) in
  '(v, f, o) <- (if csect =? 0 then write_cluster fuel g v f else Ok (v, f, Through)) ;;
  match o with
  | Through =>
      match write_back g v f with
      | None => Ok (v, f, Fail FR_DISK_ERR)
      | Some (v, f) =>
          let sect := clst2sect g (clust f) in
          if sect =? 0 then Ok (v, f, Fail FR_INT_ERR)
          else
            let sect := w32 (sect + csect) in
            let cc := btw / ss g in
            if 0 <? cc then
              let cc := if csize g <? csect + cc then csize g - csect else cc in
              d <- memcpy (fun _ => 0) (ss g * cc) 0 wb bl wpos (ss g * cc) ;;
              match write_n g v d sect cc with
              | None => Ok (v, f, Fail FR_DISK_ERR)
              | Some v =>
                  f <- (if w32 (fsect f - sect) <? cc then
                          b <- memcpy (fbuf f) MAXSS 0 wb bl (wpos + w32 (fsect f - sect) * ss g) (ss g) ;;
                          Ok (set_buf f (fsect f) b false)
                        else Ok f) ;;
                  Ok (v, f, Direct (ss g * cc))
              end
            else if negb (fsect f =? sect) && (fptr f <? objsize f) then
              match read_n g v sect 1 with
              | None => Ok (v, f, Fail FR_DISK_ERR)
              | Some d =>
                  b <- memcpy (fbuf f) MAXSS 0 d (ss g) 0 (ss g) ;;
                  Ok (v, set_buf f sect b (fdirty f), Through)
              end
            else Ok (v, set_buf f sect (fbuf f) (fdirty f), Through)
      end
  | o => Ok (v, f, o)
  end.

(* The end of an iteration of f_write: pointer and size. *)
Definition advance (f : fil) (n : Z) : fil :=
  let p := fptr f + n in set_pos f p (if objsize f <? p then p else objsize f).

(* The loop of f_write, fatfs/fatfs.c:3775-3876. *)
Fixpoint write_loop (fuel : nat) (g : geo) (v : vol) (f : fil) (wb : Z -> Z) (bl wpos btw : Z) : res (vol * fil * Z * frc) :=
  match fuel with
  | O => NoFuel
  | S k =>
      if btw <=? 0 then Ok (v, set_modif f, wpos, FR_OK)
      else
        '(v, f, o) <- (if fptr f mod ss g =? 0 then write_boundary (Z.to_nat (n_fatent g)) g v f wb bl wpos btw else Ok (v, f, Through)) ;;
        match o with
        | Fail r => Ok (v, set_err f r, wpos, r)
        | Break => Ok (v, set_modif f, wpos, FR_OK)
        | Direct n => write_loop k g v (advance f n) wb bl (wpos + n) (btw - n)
        | Through =>
            let n := ss g - fptr f mod ss g in
            let n := if btw <? n then btw else n in
            b <- memcpy (fbuf f) MAXSS (fptr f mod ss g) wb bl wpos n ;;
            write_loop k g v (advance (set_buf f (fsect f) b true) n) wb bl (wpos + n) (btw - n)
        end
  end.

(* f_write, fatfs/fatfs.c:3750-3879: number of bytes written and result. *)
Definition f_write (fuel : nat) (g : geo) (v : vol) (f : fil) (wb : Z -> Z) (bl btw : Z) : res (vol * fil * Z * frc) :=
  match ferr f with
  | FR_OK =>
      if fwrite f then
        let btw := if w32 (fptr f + btw) <? w32 (fptr f) then 4294967295 - w32 (fptr f) else btw in
        write_loop fuel g v f wb bl 0 btw
      else Ok (v, f, 0, FR_DENIED)
  | e => Ok (v, f, 0, e)
  end.

(* The cluster following loop of f_lseek, fatfs/fatfs.c:4327-4361: the remaining offset
   and the current cluster, or an error. *)
Fixpoint seek_loop (fuel : nat) (g : geo) (v : vol) (f : fil) (bcs ofs c : Z) : res (vol * fil * Z * Z * option frc) :=
  match fuel with
  | O => NoFuel
  | S k =>
      if bcs <? ofs then
        let ofs := ofs - bcs in
        let f := set_pos f (fptr f + bcs) (objsize f) in
        '(v, f, c, stop) <-
          (if fwrite f then
             let f := if objsize f <? fptr f then set_modif (set_pos f (fptr f) (fptr f)) else f in
             '(v, c) <- create_chain (Z.to_nat (n_fatent g)) g v c ;;
             Ok (v, f, c, c =? 0)
           else '(v, c) <- get_fat g v c ;; Ok (v, f, c, false)) ;;
        if (stop : bool) then Ok (v, f, 0, c, None)
        else if c =? ERR then Ok (v, f, ofs, c, Some FR_DISK_ERR)
        else if (c <=? 1) || (n_fatent g <=? c) then Ok (v, f, ofs, c, Some FR_INT_ERR)
        else seek_loop k g v (set_start f (sclust f) c) bcs ofs c
      else Ok (v, f, ofs, c, None)
  end.

(* Where f_lseek starts to follow the chain, fatfs/fatfs.c:4300-4325. *)
Definition seek_start (g : geo) (v : vol) (f : fil) (ifptr bcs ofs : Z) : res (vol * fil * Z * Z * option frc) :=
  if (0 <? ifptr) && ((ifptr - 1) / bcs <=? (ofs - 1) / bcs) then
    let p := Z.land (ifptr - 1) (Z.lnot (bcs - 1)) in
    Ok (v, set_pos f p (objsize f), ofs - p, clust f, None)
  else if sclust f =? 0 then
    '(v, c) <- create_chain (Z.to_nat (n_fatent g)) g v 0 ;;
    if c =? 1 then Ok (v, f, ofs, c, Some FR_INT_ERR)
    else if c =? ERR then Ok (v, f, ofs, c, Some FR_DISK_ERR)
    else Ok (v, set_start f c c, ofs, c, None)
  else Ok (v, set_start f (sclust f) (sclust f), ofs, sclust f, None).

(* The end of f_lseek, fatfs/fatfs.c:4370-4391. *)
Definition seek_end (g : geo) (v : vol) (f : fil) (nsect : Z) : res (vol * fil * frc) :=
  let f := if objsize f <? fptr f then set_modif (set_pos f (fptr f) (fptr f)) else f in
  if negb (fptr f mod ss g =? 0) && negb (nsect =? fsect f) then
    match write_back g v f with
    | None => Ok (v, set_err f FR_DISK_ERR, FR_DISK_ERR)
    | Some (v, f) =>
        match read_n g v nsect 1 with
        | None => Ok (v, set_err f FR_DISK_ERR, FR_DISK_ERR)
        | Some d =>
            b <- memcpy (fbuf f) MAXSS 0 d (ss g) 0 (ss g) ;;
            Ok (v, set_buf f nsect b (fdirty f), FR_OK)
        end
    end
  else Ok (v, f, FR_OK).

(* f_lseek, fatfs/fatfs.c:4209-4394, the normal seek *)
Definition f_lseek (fuel : nat) (g : geo) (v : vol) (f : fil) (ofs : Z) : res (vol * fil * frc) :=
  match ferr f with
  | FR_OK =>
      let ofs := if 4294967296 <=? ofs then 4294967295 else ofs in
      let ofs := if (objsize f <? ofs) && negb (fwrite f) then objsize f else ofs in
      let ifptr := fptr f in
      let f := set_pos f 0 (objsize f) in
      if 0 <? ofs then
        let bcs := csize g * ss g in
        '(v, f, ofs, c, e) <- seek_start g v f ifptr bcs ofs ;;
        match e with
        | Some r => Ok (v, set_err f r, r)
        | None =>
            if negb (c =? 0) then
              '(v, f, ofs, c, e) <- seek_loop fuel g v f bcs ofs c ;;
              match e with
              | Some r => Ok (v, set_err f r, r)
              | None =>
                  let f := set_pos f (fptr f + ofs) (objsize f) in
                  if negb (ofs mod ss g =? 0) then
                    let n := clst2sect g c in
                    if n =? 0 then Ok (v, set_err f FR_INT_ERR, FR_INT_ERR)
                    else seek_end g v f (w32 (n + ofs / ss g))
                  else seek_end g v f 0
              end
            else seek_end g v f 0
        end
      else seek_end g v f 0
  | e => Ok (v, f, e)
  end.

(* f_truncate, fatfs/fatfs.c:4719-4764 *)
Definition f_truncate (g : geo) (v : vol) (f : fil) : res (vol * fil * frc) :=
  match ferr f with
  | FR_OK =>
      if fwrite f then
        if fptr f <? objsize f then
          '(v, f, r) <-
            (if fptr f =? 0 then
               '(v, r) <- remove_chain (Z.to_nat (n_fatent g)) g v (sclust f) 0 ;;
               Ok (v, set_start f 0 (clust f), r)
             else
               '(v, n) <- get_fat g v (clust f) ;;
               if n =? ERR then Ok (v, f, FR_DISK_ERR)
               else if n =? 1 then Ok (v, f, FR_INT_ERR)
               else if n <? n_fatent g then
                 '(v, r) <- remove_chain (Z.to_nat (n_fatent g)) g v n (clust f) ;;
                 Ok (v, f, r)
               else Ok (v, f, FR_OK)) ;;
          let f := set_modif (set_pos f (fptr f) (fptr f)) in
          match r with
          | FR_OK =>
              match write_back g v f with
              | None => Ok (v, set_err f FR_DISK_ERR, FR_DISK_ERR)
              | Some (v, f) => Ok (v, f, FR_OK)
              end
          | e => Ok (v, set_err f e, e)
          end
        else Ok (v, f, FR_OK)
      else Ok (v, f, FR_DENIED)
  | e => Ok (v, f, e)
  end.

(* What f_open leaves for a file with the given first cluster and size, not opened for
   appending, fatfs/fatfs.c:3575-3592.  clust is not set there. *)
Definition opened (s n c : Z) (r w : bool) : fil := mkFil 0 n s c 0 (fun _ => 0) false false r w FR_OK.
