(* Names of directory objects, fatfs/fatfs.c: from a path to directory form (create_name)
   and back to a listing (get_fileinfo).  Paths are byte lists, reading past them is
   undefined; the long name buffer is as in LfnModel. *)
From Verif Require Import Base FutfModel LfnModel FdirModel.
Open Scope Z_scope.

Definition MAX_LFN : Z := 255.
Definition one_of (c : Z) (s : list Z) : bool := existsb (Z.eqb c) s.
(* IsSeparator, fatfs/fatfs.c:51 *)
Definition is_sep (c : Z) : bool := (c =? 47) || (c =? 92).
(* The characters rejected, fatfs/fatfs.c:2597: star, colon, angles, bar, quote, question
   mark, DEL. *)
Definition BAD_LFN : list Z := [42; 58; 60; 62; 124; 34; 63; 127].
(* The characters replaced, fatfs/fatfs.c:2671: plus, comma, semicolon, equals, brackets. *)
Definition BAD_SFN : list Z := [43; 44; 59; 61; 91; 93].

(* fatfs/fatfs.c:2587-2602: the rest of the path, the buffer, the length and the last
   character; None for FR_INVALID_NAME. *)
Fixpoint seg_loop (fuel : nat) (p : list Z) (lfn : Z -> Z) (di : Z) : res (option (list Z * (Z -> Z) * Z * Z)) :=
  match fuel with
  | 0%nat => NoFuel
  | S fuel =>
      '(o, p) <- tchar2uni p ;;
      match o with
      | None => Ok None
      | Some uc =>
          '(lfn, di) <- (if 65536 <=? uc then lfn <- wr lfn di (uc / 65536 mod 65536) ;; Ok (lfn, di + 1) else Ok (lfn, di)) ;;
          let wc := uc mod 65536 in
          if (wc <? 32) || is_sep wc then Ok (Some (p, lfn, di, wc))
          else if (wc <? 128) && one_of wc BAD_LFN then Ok None
          else if MAX_LFN <=? di then Ok None
          else lfn <- wr lfn di wc ;; seg_loop fuel p lfn (di + 1)
      end
  end.

(* Skipping separators, fatfs/fatfs.c:2606-2607 *)
Fixpoint skip_seps (p : list Z) : res (list Z) :=
  match p with [] => Ub | c :: r => if is_sep c then skip_seps r else Ok p end.

(* Trailing spaces and dots, fatfs/fatfs.c:2625-2630 *)
Fixpoint snip_loop (n : nat) (lfn : Z -> Z) : res Z :=
  match n with
  | 0%nat => Ok 0
  | S m => wc <- rd lfn (Z.of_nat m) ;; if negb (wc =? 32) && negb (wc =? 46) then Ok (Z.of_nat n) else snip_loop m lfn
  end.
(* Leading spaces, fatfs/fatfs.c:2636-2637 *)
Fixpoint lead_loop (fuel : nat) (lfn : Z -> Z) (si : Z) : res Z :=
  match fuel with
  | 0%nat => NoFuel
  | S fuel => wc <- rd lfn si ;; if wc =? 32 then lead_loop fuel lfn (si + 1) else Ok si
  end.
(* The last dot, fatfs/fatfs.c:2640-2641 *)
Fixpoint dot_loop (n : nat) (lfn : Z -> Z) : res Z :=
  match n with
  | 0%nat => Ok 0
  | S m => wc <- rd lfn (Z.of_nat m) ;; if wc =? 46 then Ok (Z.of_nat n) else dot_loop m lfn
  end.

(* The short name, fatfs/fatfs.c:2643-2685: the end of the field, the case flags, the
   name flags and the name. *)
Fixpoint sfn_loop (fuel : nat) (lfn : Z -> Z) (si di i ni b cf : Z) (fn : Z -> Z) : res (Z * Z * Z * (Z -> Z)) :=
  match fuel with
  | 0%nat => NoFuel
  | S fuel =>
      wc <- rd lfn si ;;
      let si := si + 1 in
      if wc =? 0 then Ok (ni, b, cf, fn)
      else if (wc =? 32) || (wc =? 46) && negb (si =? di) then sfn_loop fuel lfn si di i ni b (Z.lor cf 3) fn
      else if (ni <=? i) || (si =? di) then
        if ni =? 11 then Ok (ni, b, Z.lor cf 3, fn)
        else
          let cf := if si =? di then cf else Z.lor cf 3 in
          if di <? si then Ok (ni, b, cf, fn)
          else sfn_loop fuel lfn di di 8 11 (b * 4 mod 256) cf fn
      else if (126 <? wc) || one_of wc BAD_SFN then sfn_loop fuel lfn si di (i + 1) ni b (Z.lor cf 3) (upd fn i 95)
      else
        let b := if (65 <=? wc) && (wc <=? 90) then Z.lor b 2 else b in
        if (97 <=? wc) && (wc <=? 122) then sfn_loop fuel lfn si di (i + 1) ni (Z.lor b 1) cf (upd fn i (wc - 32))
        else sfn_loop fuel lfn si di (i + 1) ni b cf (upd fn i wc)
  end.

(* The name flags at the end, fatfs/fatfs.c:2691-2703 *)
Definition case_flags (ni b cf : Z) : Z :=
  let b := if ni =? 8 then b * 4 mod 256 else b in
  let cf := if (Z.land b 12 =? 12) || (Z.land b 3 =? 3) then Z.lor cf 2 else cf in
  if has cf 2 then cf
  else
    let cf := if has b 1 then Z.lor cf 16 else cf in
    if has b 4 then Z.lor cf 8 else cf.

(* fatfs/fatfs.c:2625-2705, for a buffer of di units; byte 11 are the flags. *)
Definition dir_form (lfn : Z -> Z) (di cf : Z) : res (option ((Z -> Z) * (Z -> Z))) :=
  di <- snip_loop (Z.to_nat di) lfn ;;
  lfn <- wr lfn di 0 ;;
  if di =? 0 then Ok None
  else
    si <- lead_loop (Z.to_nat LFNBUF) lfn 0 ;;
    x <- rd lfn si ;;
    let cf := if (0 <? si) || (x =? 46) then Z.lor cf 3 else cf in
    di <- dot_loop (Z.to_nat di) lfn ;;
    '(ni, b, cf, fn) <- sfn_loop 600 lfn si di 0 8 0 cf (fun _ => 32) ;;
    let fn := if fn 0 =? DDEM then upd fn 0 5 else fn in
    Ok (Some (upd fn 11 (case_flags ni b cf), lfn)).

(* create_name, fatfs/fatfs.c:2572-2708: the rest of the path, the short name with flags
   and the buffer; None for FR_INVALID_NAME. *)
Definition create_name (path : list Z) (lfn : Z -> Z) : res (option (list Z * (Z -> Z) * (Z -> Z))) :=
  r <- seg_loop 300 path lfn 0 ;;
  match r with
  | None => Ok None
  | Some (p, lfn, di, wc) =>
      '(p, cf) <- (if wc <? 32 then Ok (p, 4)
                   else p <- skip_seps p ;; '(c, _) <- next p ;; Ok (p, if c <? 32 then 4 else 0)) ;;
      dot1 <- (if di =? 1 then a <- rd lfn 0 ;; Ok (a =? 46) else Ok false) ;;
      dot2 <- (if di =? 2 then a <- rd lfn 1 ;; b <- rd lfn 0 ;; Ok ((a =? 46) && (b =? 46)) else Ok false) ;;
      if dot1 || dot2 then
        lfn <- wr lfn di 0 ;;
        Ok (Some (p, fun k => if k <? 11 then if k <? di then 46 else 32 else Z.lor cf 32, lfn))
      else
        r <- dir_form lfn di cf ;;
        match r with None => Ok None | Some (fn, lfn) => Ok (Some (p, fn, lfn)) end
  end.

(* --- get_fileinfo, fatfs/fatfs.c:2346-2477, the names ------------------------------------ *)

(* FF_LFN_BUF and FF_SFN_BUF, include/fpm/fs.h:59-60 *)
Definition LFN_BUF : Z := 255.
Definition SFN_BUF : Z := 12.
Definition len (l : list Z) : Z := Z.of_nat (length l).

(* fatfs/fatfs.c:2403-2423: fname from the long name, empty if invalid. *)
Fixpoint lfn_loop (fuel : nat) (lfn : Z -> Z) (si hs : Z) (out : list Z) : res (list Z) :=
  match fuel with
  | 0%nat => NoFuel
  | S fuel =>
      wc <- rd lfn si ;;
      if wc =? 0 then Ok (if hs =? 0 then out else [])
      else if (hs =? 0) && is_surrogate wc then lfn_loop fuel lfn (si + 1) wc out
      else
        match put_utf (hs * 65536 + wc) (LFN_BUF - len out) with
        | [] => Ok []
        | bs => lfn_loop fuel lfn (si + 1) 0 (out ++ bs)
        end
  end.

(* fatfs/fatfs.c:2427-2454: altname from the short name, empty if invalid. *)
Fixpoint alt_loop (n : nat) (e : Z -> Z) (si : Z) (out : list Z) : list Z :=
  match n with
  | 0%nat => out
  | S n =>
      let wc := e si in
      let si := si + 1 in
      if wc =? 32 then alt_loop n e si out
      else
        let wc := if wc =? 5 then DDEM else wc in
        let out := if (si =? 9) && (len out <? SFN_BUF) then out ++ [46] else out in
        let wc := ff_oem2uni wc in
        if wc =? 0 then []
        else
          match put_utf wc (SFN_BUF - len out) with
          | [] => []
          | bs => alt_loop n e si (out ++ bs)
          end
  end.

(* fatfs/fatfs.c:2460-2470: altname in the case kept in NTres. *)
Fixpoint case_loop (alt : list Z) (nt lcf : Z) : list Z :=
  match alt with
  | [] => []
  | wc :: alt =>
      let lcf := if wc =? 46 then 16 else lcf in
      (if (65 <=? wc) && (wc <=? 90) && has nt lcf then wc + 32 else wc) :: case_loop alt nt lcf
  end.

(* fname and altname *)
Definition file_names (e : Z -> Z) (blk : Z) (lfn : Z -> Z) : res (list Z * list Z) :=
  fname <- (if negb (blk =? NONE) then lfn_loop (Z.to_nat LFNBUF) lfn 0 0 [] else Ok []) ;;
  let alt := alt_loop 11 e 0 [] in
  match fname with
  | [] =>
      let fname := match alt with [] => [63] | _ => case_loop alt (e 12) 8 end in
      Ok (fname, if e 12 =? 0 then [] else alt)
  | _ => Ok (fname, alt)
  end.
