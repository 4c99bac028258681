(* The volume label: f_getlabel and f_setlabel of fatfs/fatfs.c on FAT volumes, and the
   label shown by the command vol.  The root directory is a table as in FdirModel; disk
   errors, and with them sync_fs, are left out, and exFAT is not modelled.  The drive name
   in front of the label is already taken off (mount_volume). *)
From Verif Require Import Base FutfModel LfnModel FdirModel FnameModel.
Open Scope Z_scope.

(* DIR_READ_LABEL, fatfs/fatfs.c:2034,2036-2101 with vol = 1, from entry i: an entry which
   passes the test of line 2071 is no part of a long name, so lines 2074-2085 never run. *)
Fixpoint label_loop (fuel : nat) (d : dirt) (i : Z) : res (drc * Z) :=
  match fuel with
  | 0%nat => NoFuel
  | S fuel =>
      let e := tab d i in
      let b := e 0 in
      if b =? 0 then Ok (D_NO_FILE, i)
      else if (b =? DDEM) || (b =? 46) || negb (Z.land (Z.land (e 11) 63) 223 =? 8) then
        match dir_next d i false with
        | (_, D_OK) => label_loop fuel d (i + 1)
        | (_, r) => Ok (r, i)
        end
      else Ok (D_OK, i)
  end.
Definition read_label (d : dirt) : res (drc * Z) := label_loop (Z.to_nat (cap d)) d 0.

(* The label in Unicode, fatfs/fatfs.c:5186-5199: what is in the buffer up to di.  No byte
   starts a double byte character (dbc_1st, code page 437).  Writing past the room of the
   buffer is undefined; put_utf is told there are 4 bytes whatever is left. *)
Fixpoint get_loop (n : nat) (room : Z) (e : Z -> Z) (si : Z) (out : list Z) : res (list Z) :=
  match n with
  | 0%nat => Ok out
  | S n =>
      let wc := ff_oem2uni (e si) in
      if wc =? 0 then Ok []
      else
        let bs := put_utf wc 4 in
        if room <? len out + len bs then Ub else get_loop n room e (si + 1) (out ++ bs)
  end.

(* Trailing spaces, fatfs/fatfs.c:5200-5204; the first NUL is stored at the end. *)
Fixpoint drop_spaces (r : list Z) : list Z :=
  match r with [] => [] | c :: r' => if c =? 32 then drop_spaces r' else r end.
Definition trim (out : list Z) : list Z := rev (drop_spaces (rev out)).

(* The label part of f_getlabel, fatfs/fatfs.c:5150-5212: the string stored. *)
Definition get_label (d : dirt) (room : Z) : res (drc * list Z) :=
  '(r, i) <- read_label d ;;
  match r with
  | D_OK =>
      out <- get_loop 11 room (tab d i) 0 [] ;;
      if room <=? len out then Ub else Ok (D_OK, trim out)
  | D_NO_FILE => if room <=? 0 then Ub else Ok (D_OK, [])
  | r => Ok (r, [])
  end.

(* The buffer of print_volume_info, kernel/cmd/cmd_vol.c:34 *)
Definition VOL_BUF : Z := 32.

(* badchr, fatfs/fatfs.c:5250-5252 *)
Definition BADCHR : list Z := [43; 46; 44; 59; 61; 91; 93; 47; 42; 58; 60; 62; 124; 92; 34; 63; 127].

(* fatfs/fatfs.c:5286-5299: dirvn up to di; None for FR_INVALID_NAME. *)
Fixpoint make_loop (fuel : nat) (p : list Z) (vn : list Z) : res (option (list Z)) :=
  match fuel with
  | 0%nat => NoFuel
  | S fuel =>
      '(c, _) <- next p ;;
      if c <? 32 then Ok (Some vn)
      else
        '(o, p) <- tchar2uni p ;;
        wc <- match o with
              | Some dc => if dc <? 65536 then u <- ff_wtoupper dc ;; Ok (ff_uni2oem u) else Ok 0
              | None => Ok 0
              end ;;
        if (wc =? 0) || one_of wc BADCHR || ((if 256 <=? wc then 10 else 11) <=? len vn) then Ok None
        else make_loop fuel p (vn ++ (if 256 <=? wc then [wc / 256] else []) ++ [wc mod 256])
  end.

(* fatfs/fatfs.c:5302-5303 *)
Fixpoint snip (n : nat) (vn : Z -> Z) : Z :=
  match n with
  | 0%nat => 0
  | S m => if vn (Z.of_nat m) =? 32 then snip m vn else Z.of_nat n
  end.

(* f_setlabel, fatfs/fatfs.c:5240-5352 *)
Definition set_label (d : dirt) (p : list Z) : res (dirt * drc) :=
  r <- make_loop 13 p [] ;;
  match r with
  | None => Ok (d, D_INVALID_NAME)
  | Some vn =>
      let dirvn := fun k => nth (Z.to_nat k) vn 32 in
      if dirvn 0 =? DDEM then Ok (d, D_INVALID_NAME)
      else
        let di := snip (length vn) dirvn in
        '(r, i) <- read_label d ;;
        match r with
        | D_OK =>
            let e := tab d i in
            let e := if negb (di =? 0) then fun k => if (0 <=? k) && (k <? 11) then dirvn k else e k else upd e 0 DDEM in
            Ok (set_tab d (set_ent (tab d) i e), D_OK)
        | D_NO_FILE =>
            if di =? 0 then Ok (d, D_OK)
            else
              '(d, r, i) <- dir_alloc d 1 ;;
              match r with
              | D_OK =>
                  let e := fun k => if (0 <=? k) && (k <? 32) then if k =? 11 then 8 else if k <? 11 then dirvn k else 0 else tab d i k in
                  Ok (set_tab d (set_ent (tab d) i e), D_OK)
              | r => Ok (d, r)
              end
        | r => Ok (d, r)
        end
  end.
