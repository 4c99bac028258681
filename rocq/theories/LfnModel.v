(* Long file name entries of a directory, fatfs/fatfs.c.  A directory entry is a function
   from offsets (0..31) to bytes, the working buffer fs->lfnbuf a function from indices
   to 16-bit units; an access outside its FF_MAX_LFN + 1 units is undefined. *)
From Verif Require Import Base FutfModel.
Open Scope Z_scope.

(* FF_MAX_LFN + 1, fatfs/ffconf.h:68 *)
Definition LFNBUF : Z := 256.
Definition rd (buf : Z -> Z) (i : Z) : res Z := if (0 <=? i) && (i <? LFNBUF) then Ok (buf i) else Ub.
Definition wr (buf : Z -> Z) (i x : Z) : res (Z -> Z) := if (0 <=? i) && (i <? LFNBUF) then Ok (upd buf i x) else Ub.

(* ld_word and st_word, fatfs/fatfs.c:360-400 *)
Definition ld_word (e : Z -> Z) (o : Z) : Z := e o + 256 * e (o + 1).
Definition st_word (e : Z -> Z) (o x : Z) : Z -> Z := upd (upd e o (x mod 256)) (o + 1) (x / 256 mod 256).

(* fatfs/fatfs.c:352 *)
Definition LfnOfs : list Z := [1; 3; 5; 7; 9; 14; 16; 18; 20; 22; 24; 28; 30].

Definition u32 (x : Z) : Z := x mod 4294967296.

(* The loop of cmp_lfn: the index reached and the last unit, or None when not matched. *)
Fixpoint cmp_loop (ofs : list Z) (e buf : Z -> Z) (i wc : Z) : res (option (Z * Z)) :=
  match ofs with
  | [] => Ok (Some (i, wc))
  | o :: ofs =>
      let uc := ld_word e o in
      if negb (wc =? 0) then
        if LFNBUF <=? i then Ok None
        else
          x <- rd buf i ;;
          a <- ff_wtoupper uc ;;
          b <- ff_wtoupper x ;;
          if negb (a =? b) then Ok None else cmp_loop ofs e buf (i + 1) uc
      else if negb (uc =? 65535) then Ok None else cmp_loop ofs e buf i wc
  end.

(* cmp_lfn, fatfs/fatfs.c:1633-1665 *)
Definition cmp_lfn (buf e : Z -> Z) : res bool :=
  if negb (ld_word e 26 =? 0) then Ok false
  else
    r <- cmp_loop LfnOfs e buf (u32 ((Z.land (e 0) 63 - 1) * 13)) 1 ;;
    match r with
    | None => Ok false
    | Some (i, wc) =>
        if negb (Z.land (e 0) 64 =? 0) && negb (wc =? 0) then x <- rd buf i ;; Ok (x =? 0) else Ok true
    end.

(* The loop of pick_lfn: the buffer, and the index and last unit unless it failed. *)
Fixpoint pick_loop (ofs : list Z) (e buf : Z -> Z) (i wc : Z) : res ((Z -> Z) * option (Z * Z)) :=
  match ofs with
  | [] => Ok (buf, Some (i, wc))
  | o :: ofs =>
      let uc := ld_word e o in
      if negb (wc =? 0) then
        if LFNBUF <=? i then Ok (buf, None)
        else buf <- wr buf i uc ;; pick_loop ofs e buf (i + 1) uc
      else if negb (uc =? 65535) then Ok (buf, None) else pick_loop ofs e buf i wc
  end.

(* pick_lfn, fatfs/fatfs.c:1671-1703 *)
Definition pick_lfn (buf e : Z -> Z) : res ((Z -> Z) * bool) :=
  if negb (ld_word e 26 =? 0) then Ok (buf, false)
  else
    '(buf, r) <- pick_loop LfnOfs e buf (u32 ((Z.land (e 0) 191 - 1) * 13)) 1 ;;
    match r with
    | None => Ok (buf, false)
    | Some (i, wc) =>
        if negb (Z.land (e 0) 64 =? 0) && negb (wc =? 0) then
          if LFNBUF <=? i then Ok (buf, false) else buf <- wr buf i 0 ;; Ok (buf, true)
        else Ok (buf, true)
    end.

(* The loop of put_lfn. *)
Fixpoint put_loop (ofs : list Z) (lfn e : Z -> Z) (i wc : Z) : res ((Z -> Z) * Z * Z) :=
  match ofs with
  | [] => Ok (e, i, wc)
  | o :: ofs =>
      '(wc, i) <- (if negb (wc =? 65535) then x <- rd lfn i ;; Ok (x, i + 1) else Ok (wc, i)) ;;
      put_loop ofs lfn (st_word e o wc) i (if wc =? 0 then 65535 else wc)
  end.

(* put_lfn, fatfs/fatfs.c:1709-1735 *)
Definition put_lfn (lfn e : Z -> Z) (ord sum : Z) : res (Z -> Z) :=
  let e := st_word (upd (upd (upd e 13 sum) 11 15) 12 0) 26 0 in
  '(e, i, wc) <- put_loop LfnOfs lfn e (u32 ((ord - 1) * 13)) 0 ;;
  last <- (if wc =? 65535 then Ok true else x <- rd lfn i ;; Ok (x =? 0)) ;;
  Ok (upd e 0 (if last then Z.lor ord 64 else ord)).

(* sum_sfn, fatfs/fatfs.c:1799-1808 *)
Fixpoint sum_loop (n : nat) (e : Z -> Z) (o sum : Z) : Z :=
  match n with
  | 0%nat => sum
  | S n => sum_loop n e (o + 1) ((sum / 2 + sum * 128 + e o) mod 256)
  end.
Definition sum_sfn (e : Z -> Z) : Z := sum_loop 11 e 0 0.
