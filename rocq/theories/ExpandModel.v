(* Model of f_expand in fatfs/fatfs.c, on FAT12/16/32 volumes and for a valid file object
   (validate succeeds), with the volume of FatModel and the files of FileModel.  obj.stat,
   which only exFAT uses, is left out. *)
From Verif Require Import Base FatModel FileModel.
Open Scope Z_scope.

(* The search for a block of tcl free clusters, fatfs/fatfs.c:5397-5420: where the block
   starts, and the result. *)
Fixpoint find_block (fuel : nat) (g : geo) (v : vol) (stcl tcl scl clst ncl : Z) : res (vol * Z * frc) :=
  match fuel with
  | O => NoFuel
  | S k =>
      '(v, n) <- get_fat g v clst ;;
      let clst := w32 (clst + 1) in
      let clst := if n_fatent g <=? clst then 2 else clst in
      if n =? 1 then Ok (v, scl, FR_INT_ERR)
      else if n =? ERR then Ok (v, scl, FR_DISK_ERR)
      else if n =? 0 then
        let ncl := w32 (ncl + 1) in
        if ncl =? tcl then Ok (v, scl, FR_OK)
        else if clst =? stcl then Ok (v, scl, FR_DENIED)
        else find_block k g v stcl tcl scl clst ncl
      else if clst =? stcl then Ok (v, clst, FR_DENIED)
      else find_block k g v stcl tcl clst clst 0
  end.

(* Linking n clusters from clst on, fatfs/fatfs.c:5423-5428: the result and the last
   cluster linked. *)
Fixpoint link_block (n : nat) (g : geo) (v : vol) (clst lclst : Z) : res (vol * Z * frc) :=
  match n with
  | O => Ok (v, lclst, FR_OK)
  | S k =>
      '(v, r) <- put_fat g v clst (match k with O => ERR | _ => w32 (clst + 1) end) ;;
      match r with
      | FR_OK => link_block k g v (w32 (clst + 1)) clst
      | e => Ok (v, lclst, e)
      end
  end.

(* What f_expand stores in the file and in the free count on success,
   fatfs/fatfs.c:5435-5446. *)
Definition expanded (f : fil) (scl fsz : Z) : fil := set_modif (set_pos (set_start f scl (clust f)) (fptr f) fsz).

(* f_expand, fatfs/fatfs.c:5355-5449 *)
Definition f_expand (fuel : nat) (g : geo) (v : vol) (f : fil) (fsz : Z) (opt : bool) : res (vol * fil * frc) :=
  match ferr f with
  | FR_OK =>
      if (fsz =? 0) || negb (objsize f =? 0) || negb (fwrite f) then Ok (v, f, FR_DENIED)
      else if 4294967296 <=? fsz then Ok (v, f, FR_DENIED)
      else
        let n := csize g * ss g in
        let tcl := w32 (w32 (fsz / n) + (if Z.land fsz (n - 1) =? 0 then 0 else 1)) in
        let stcl := last_clst v in
        let stcl := if (stcl <? 2) || (n_fatent g <=? stcl) then 2 else stcl in
        '(v, scl, r) <- find_block fuel g v stcl tcl stcl stcl 0 ;;
        match r with
        | FR_OK =>
            if opt then
              '(v, lclst, r) <- link_block (Z.to_nat tcl) g v scl 0 ;;
              match r with
              | FR_OK =>
                  let v := if free_clst v <=? w32 (n_fatent g - 2)
                           then set_info v (w32 (free_clst v - tcl)) lclst (Z.lor (fsi_flag v) 1)
                           else set_info v (free_clst v) lclst (fsi_flag v) in
                  Ok (v, expanded f scl fsz, FR_OK)
              | e => Ok (v, f, e)
              end
            else Ok (set_info v (free_clst v) (w32 (scl - 1)) (fsi_flag v), f, FR_OK)
        | e => Ok (v, f, e)
        end
  | e => Ok (v, f, e)
  end.
