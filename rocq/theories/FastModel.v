(* Model of further ways to access a file in fatfs/fatfs.c, on FAT12/16/32 volumes and for
   a valid file object: the cluster link map (fast seek) and f_forward.  The table cltbl is
   a function from index to value together with its size; access outside is Ub.  In
   f_read only the choice of the cluster differs from FileModel. *)
From Verif Require Import Base FatModel FileModel.
Open Scope Z_scope.

Definition rdt (tab : Z -> Z) (size i : Z) : res Z := if (0 <=? i) && (i <? size) then Ok (tab i) else Ub.
Definition wrt (tab : Z -> Z) (size i x : Z) : res (Z -> Z) := if (0 <=? i) && (i <? size) then Ok (upd tab i x) else Ub.

(* The loop of clmt_clust, fatfs/fatfs.c:1381-1389. *)
Fixpoint clmt_loop (fuel : nat) (tab : Z -> Z) (size i cl : Z) : res Z :=
  match fuel with
  | O => NoFuel
  | S k =>
      ncl <- rdt tab size i ;;
      if ncl =? 0 then Ok 0
      else if cl <? ncl then c <- rdt tab size (i + 1) ;; Ok (w32 (cl + c))
      else clmt_loop k tab size (i + 2) (cl - ncl)
  end.
(* clmt_clust, fatfs/fatfs.c:1372-1391 *)
Definition clmt_clust (g : geo) (tab : Z -> Z) (size ofs : Z) : res Z :=
  clmt_loop (S (Z.to_nat size)) tab size 1 (w32 (ofs / ss g / csize g)).

(* FR_NOT_ENOUGH_CORE or another result. *)
Inductive lrc := LDone (r : frc) | LNotEnough.

(* One fragment, fatfs/fatfs.c:4248-4256: the next cluster and the number of clusters, or
   an error. *)
Fixpoint fragment (fuel : nat) (g : geo) (v : vol) (cl ncl : Z) : res (vol * Z * Z * option frc) :=
  match fuel with
  | O => NoFuel
  | S k =>
      let pcl := cl in
      let ncl := w32 (ncl + 1) in
      '(v, cl) <- get_fat g v cl ;;
      if cl <=? 1 then Ok (v, cl, ncl, Some FR_INT_ERR)
      else if cl =? ERR then Ok (v, cl, ncl, Some FR_DISK_ERR)
      else if cl =? w32 (pcl + 1) then fragment k g v cl ncl
      else Ok (v, cl, ncl, None)
  end.

(* The loop over the fragments, fatfs/fatfs.c:4242-4262; i is where tbl points to. *)
Fixpoint map_loop (fuel : nat) (g : geo) (v : vol) (tab : Z -> Z) (size i tlen ulen cl : Z) : res (vol * (Z -> Z) * Z * Z * option frc) :=
  match fuel with
  | O => NoFuel
  | S k =>
      let tcl := cl in
      let ulen := w32 (ulen + 2) in
      '(v, cl, ncl, e) <- fragment (Z.to_nat (n_fatent g)) g v cl 0 ;;
      match e with
      | Some r => Ok (v, tab, i, ulen, Some r)
      | None =>
          '(tab, i) <- (if ulen <=? tlen then tab <- wrt tab size i ncl ;; tab <- wrt tab size (i + 1) tcl ;; Ok (tab, i + 2) else Ok (tab, i)) ;;
          if cl <? n_fatent g then map_loop k g v tab size i tlen ulen cl else Ok (v, tab, i, ulen, None)
      end
  end.

(* f_lseek with CREATE_LINKMAP, fatfs/fatfs.c:4236-4270 *)
Definition create_linkmap (fuel : nat) (g : geo) (v : vol) (f : fil) (tab : Z -> Z) (size : Z) : res (vol * fil * (Z -> Z) * lrc) :=
  match ferr f with
  | FR_OK =>
      tlen <- rdt tab size 0 ;;
      '(v, tab, i, ulen, e) <- (if negb (sclust f =? 0) then map_loop fuel g v tab size 1 tlen 2 (sclust f) else Ok (v, tab, 1, 2, None)) ;;
      match e with
      | Some r => Ok (v, set_err f r, tab, LDone r)
      | None =>
          tab <- wrt tab size 0 ulen ;;
          if ulen <=? tlen then tab <- wrt tab size i 0 ;; Ok (v, f, tab, LDone FR_OK)
          else Ok (v, f, tab, LNotEnough)
      end
  | e => Ok (v, f, tab, LDone e)
  end.

(* f_lseek with a link map, fatfs/fatfs.c:4271-4297 *)
Definition fast_seek (g : geo) (v : vol) (f : fil) (tab : Z -> Z) (size ofs : Z) : res (vol * fil * frc) :=
  match ferr f with
  | FR_OK =>
      let ofs := if objsize f <? ofs then objsize f else ofs in
      let f := set_pos f ofs (objsize f) in
      if 0 <? ofs then
        c <- clmt_clust g tab size (ofs - 1) ;;
        let f := set_start f (sclust f) c in
        let dsc := clst2sect g c in
        if dsc =? 0 then Ok (v, set_err f FR_INT_ERR, FR_INT_ERR)
        else
          let dsc := w32 (dsc + Z.land (w32 ((ofs - 1) / ss g)) (csize g - 1)) in
          if negb (fptr f mod ss g =? 0) && negb (dsc =? fsect f) then
            match write_back g v f with
            | None => Ok (v, set_err f FR_DISK_ERR, FR_DISK_ERR)
            | Some (v, f) =>
                match read_n g v dsc 1 with
                | None => Ok (v, set_err f FR_DISK_ERR, FR_DISK_ERR)
                | Some d => b <- memcpy (fbuf f) MAXSS 0 d (ss g) 0 (ss g) ;; Ok (v, set_buf f dsc b (fdirty f), FR_OK)
                end
            end
          else Ok (v, f, FR_OK)
      else Ok (v, f, FR_OK)
  | e => Ok (v, f, e)
  end.

(* --- f_read with a link map --------------------------------------------------------- *)

(* fatfs/fatfs.c:3665-3686 *)
Definition fast_cluster (tab : Z -> Z) (size : Z) (g : geo) (v : vol) (f : fil) : res (vol * fil * outcome) :=
  c <- (if fptr f =? 0 then Ok (sclust f) else clmt_clust g tab size (fptr f)) ;;
  if c <? 2 then Ok (v, f, Fail FR_INT_ERR)
  else if c =? ERR then Ok (v, f, Fail FR_DISK_ERR)
  else Ok (v, set_start f (sclust f) c, Through).

(* fatfs/fatfs.c:3662-3726, like read_boundary *)
Definition fast_boundary (tab : Z -> Z) (size : Z) (g : geo) (v : vol) (f : fil) (rb : Z -> Z) (bl rpos btr : Z) : res (vol * fil * (Z -> Z) * outcome) :=
  let csect := Z.land (fptr f / ss g) (csize g - 1) in
  '(v, f, o) <- (if csect =? 0 then fast_cluster tab size g v f else Ok (v, f, Through)) ;;
  match o with
  | Through =>
      let sect := clst2sect g (clust f) in
      if sect =? 0 then Ok (v, f, rb, Fail FR_INT_ERR)
      else
        let sect := w32 (sect + csect) in
        let cc := btr / ss g in
        if 0 <? cc then
          let cc := if csize g <? csect + cc then csize g - csect else cc in
          match read_n g v sect cc with
          | None => Ok (v, f, rb, Fail FR_DISK_ERR)
          | Some d =>
              rb <- memcpy rb bl rpos d (ss g * cc) 0 (ss g * cc) ;;
              rb <- (if fdirty f && (w32 (fsect f - sect) <? cc)
                     then memcpy rb bl (rpos + w32 (fsect f - sect) * ss g) (fbuf f) MAXSS 0 (ss g)
                     else Ok rb) ;;
              Ok (v, f, rb, Direct (ss g * cc))
          end
        else if negb (fsect f =? sect) then
          match write_back g v f with
          | None => Ok (v, f, rb, Fail FR_DISK_ERR)
          | Some (v, f) =>
              match read_n g v sect 1 with
              | None => Ok (v, f, rb, Fail FR_DISK_ERR)
              | Some d =>
                  b <- memcpy (fbuf f) MAXSS 0 d (ss g) 0 (ss g) ;;
                  Ok (v, set_buf f sect b (fdirty f), rb, Through)
              end
          end
        else Ok (v, set_buf f sect (fbuf f) (fdirty f), rb, Through)
  | o => Ok (v, f, rb, o)
  end.

(* fatfs/fatfs.c:3660-3739, like read_loop *)
Fixpoint fast_loop (fuel : nat) (tab : Z -> Z) (size : Z) (g : geo) (v : vol) (f : fil) (rb : Z -> Z) (bl rpos btr : Z) : res (vol * fil * (Z -> Z) * Z * frc) :=
  match fuel with
  | O => NoFuel
  | S k =>
      if btr <=? 0 then Ok (v, f, rb, rpos, FR_OK)
      else
        '(v, f, rb, o) <- (if fptr f mod ss g =? 0 then fast_boundary tab size g v f rb bl rpos btr else Ok (v, f, rb, Through)) ;;
        match o with
        | Fail r => Ok (v, set_err f r, rb, rpos, r)
        | Break => Ok (v, f, rb, rpos, FR_OK)
        | Direct n => fast_loop k tab size g v (set_pos f (fptr f + n) (objsize f)) rb bl (rpos + n) (btr - n)
        | Through =>
            let n := ss g - fptr f mod ss g in
            let n := if btr <? n then btr else n in
            rb <- memcpy rb bl rpos (fbuf f) MAXSS (fptr f mod ss g) n ;;
            fast_loop k tab size g v (set_pos f (fptr f + n) (objsize f)) rb bl (rpos + n) (btr - n)
        end
  end.

(* f_read with a link map, fatfs/fatfs.c:3639-3742 *)
Definition fast_read (fuel : nat) (tab : Z -> Z) (size : Z) (g : geo) (v : vol) (f : fil) (rb : Z -> Z) (bl btr : Z) : res (vol * fil * (Z -> Z) * Z * frc) :=
  match ferr f with
  | FR_OK =>
      if fread f then
        let remain := objsize f - fptr f in
        fast_loop fuel tab size g v f rb bl 0 (if remain <? btr then remain else btr)
      else Ok (v, f, rb, 0, FR_DENIED)
  | e => Ok (v, f, rb, 0, e)
  end.

(* --- f_forward ------------------------------------------------------------------------ *)

(* What the streaming function does in one round: it says that it is busy, or it takes at
   most n bytes of those offered (none if n is not positive).  After the last of a list of
   turns it is busy. *)
Inductive turn := Busy | Accept (n : Z).

(* The bytes buf[o], ..., buf[o + n - 1] of the sector buffer. *)
Definition bytes_at (buf : Z -> Z) (o n : Z) : res (list Z) :=
  if (0 <=? o) && (o + n <=? MAXSS) then Ok (map (fun j => buf (o + Z.of_nat j)) (seq 0 (Z.to_nat n))) else Ub.

(* The preparation of one round of f_forward, fatfs/fatfs.c:5489-5519: the file with the
   sector in its buffer, or an error. *)
Definition forward_sector (g : geo) (v : vol) (f : fil) : res (vol * fil * option frc) :=
  let csect := Z.land (fptr f / ss g) (csize g - 1) in
  '(v, f, e) <-
    (if (fptr f mod ss g =? 0) && (csect =? 0) then
       '(v, c) <- (if fptr f =? 0 then Ok (v, sclust f) else get_fat g v (clust f)) ;;
       if c <=? 1 then Ok (v, f, Some FR_INT_ERR)
       else if c =? ERR then Ok (v, f, Some FR_DISK_ERR)
       else Ok (v, set_start f (sclust f) c, None)
     else Ok (v, f, None)) ;;
  match e with
  | Some r => Ok (v, f, Some r)
  | None =>
      let sect := clst2sect g (clust f) in
      if sect =? 0 then Ok (v, f, Some FR_INT_ERR)
      else
        let sect := w32 (sect + csect) in
        if negb (fsect f =? sect) then
          match write_back g v f with
          | None => Ok (v, f, Some FR_DISK_ERR)
          | Some (v, f) =>
              match read_n g v sect 1 with
              | None => Ok (v, f, Some FR_DISK_ERR)
              | Some d => b <- memcpy (fbuf f) MAXSS 0 d (ss g) 0 (ss g) ;; Ok (v, set_buf f sect b (fdirty f), None)
              end
          end
        else Ok (v, set_buf f sect (fbuf f) (fdirty f), None)
  end.

(* The loop of f_forward, fatfs/fatfs.c:5486-5527; out are the bytes taken by the stream. *)
Fixpoint forward_loop (ts : list turn) (g : geo) (v : vol) (f : fil) (btf : Z) (out : list Z) : res (vol * fil * list Z * frc) :=
  if btf <=? 0 then Ok (v, f, out, FR_OK)
  else
    match ts with
    | [] | Busy :: _ => Ok (v, f, out, FR_OK)
    | Accept n :: ts =>
        '(v, f, e) <- forward_sector g v f ;;
        match e with
        | Some r => Ok (v, set_err f r, out, r)
        | None =>
            let rcnt := ss g - fptr f mod ss g in
            let rcnt := if btf <? rcnt then btf else rcnt in
            offered <- bytes_at (fbuf f) (fptr f mod ss g) rcnt ;;
            let rcnt := if n <? rcnt then n else rcnt in
            if rcnt <=? 0 then Ok (v, set_err f FR_INT_ERR, out, FR_INT_ERR)
            else forward_loop ts g v (set_pos f (fptr f + rcnt) (objsize f)) (btf - rcnt) (out ++ firstn (Z.to_nat rcnt) offered)
        end
    end.

(* f_forward, fatfs/fatfs.c:5458-5530; *bf is the number of bytes taken. *)
Definition f_forward (ts : list turn) (g : geo) (v : vol) (f : fil) (btf : Z) : res (vol * fil * list Z * frc) :=
  match ferr f with
  | FR_OK =>
      if fread f then
        let remain := objsize f - fptr f in
        forward_loop ts g v f (if remain <? btf then remain else btf) []
      else Ok (v, f, [], FR_DENIED)
  | e => Ok (v, f, [], e)
  end.
