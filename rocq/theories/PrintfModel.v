(* Model of apps/printf/printf.c.  Strings are lists of bytes without the zero, char is
   unsigned as on ARM.  The C library is taken as the standard says: strtol is a parameter,
   and of fpm_printf (unix/fpm_unix.c, pico/fpm_pico.c call vprintf) what it is asked to
   convert is kept; floating point arguments are kept as text. *)
From Verif Require Import Base.
Open Scope Z_scope.

(* A C array: reading or writing behind it is undefined. *)
Definition rd (m : list Z) (i : nat) : res Z := match nth_error m i with Some b => Ok b | None => Ub end.
Fixpoint wr (m : list Z) (i : nat) (b : Z) : res (list Z) :=
  match m, i with
  | [], _ => Ub
  | _ :: m, O => Ok (b :: m)
  | a :: m, S i => m <- wr m i b ;; Ok (a :: m)
  end.
(* The string at i *)
Fixpoint until0 (l : list Z) : res (list Z) :=
  match l with [] => Ub | b :: l => if b =? 0 then Ok [] else s <- until0 l ;; Ok (b :: s) end.
Definition string_at (m : list Z) (i : nat) : res (list Z) := until0 (skipn i m).

(* --- escape, apps/printf/printf.c:73-135 --------------------------------------------------- *)
Definition octal (b : Z) : bool := (48 <=? b) && (b <=? 55).
(* The loop over octal digits, apps/printf/printf.c:122-125: value and fmt *)
Fixpoint digits8 (c : nat) (m : list Z) (value : Z) (fmt : nat) : res (Z * nat) :=
  match c with
  | O => Ok (value, fmt)
  | S c => b <- rd m fmt ;; if octal b then digits8 c m (value * 8 + (b - 48)) (S fmt) else Ok (value, fmt)
  end.
(* The simple escapes, apps/printf/printf.c:88-109, 129-131; anything else is itself *)
Definition simple (b : Z) : Z :=
  if b =? 97 then 7 else if b =? 98 then 8 else if b =? 102 then 12 else if b =? 110 then 10
  else if b =? 114 then 13 else if b =? 116 then 9 else if b =? 118 then 11 else b.
Fixpoint escape (fuel : nat) (m : list Z) (fmt store : nat) : res (list Z) :=
  match fuel with
  | O => NoFuel
  | S fuel =>
      c <- rd m fmt ;;
      if c =? 0 then wr m store 0
      else if negb (c =? 92) then m <- wr m store c ;; escape fuel m (S fmt) (S store)
      else
        b <- rd m (S fmt) ;;
        if b =? 0 then m <- wr m store 92 ;; wr m (S store) 0
        else if octal b then
          '(value, f) <- digits8 3 m 0 (S fmt) ;;
          m <- wr m store (value mod 256) ;; escape fuel m f (S store)
        else m <- wr m store (simple b) ;; escape fuel m (S (S fmt)) (S store)
  end.

(* --- fpm_printf ---------------------------------------------------------------------------- *)
Inductive value := VChar (c : Z) | VStr (s : list Z) | VLong (n : Z) | VText (s : list Z) | VCode (n : Z).
Inductive fault := Illegal | Bounds | Missing | Wrong.
(* What is shown: a byte, a conversion with flags, width and precision, or a message. *)
Inductive atom := Byte (b : Z) | Conv (flags : list Z) (w p : option Z) (c : Z) (v : value) | Msg (f : fault) (arg : list Z).
Definition flag (b : Z) : bool := existsb (Z.eqb b) [35; 45; 43; 32; 48].
Definition digit (b : Z) : bool := (48 <=? b) && (b <=? 57).
Fixpoint span (f : Z -> bool) (l : list Z) : list Z * list Z :=
  match l with
  | [] => ([], [])
  | b :: r => if f b then let '(x, y) := span f r in (b :: x, y) else ([], l)
  end.
Definition number (ds : list Z) : Z := fold_left (fun n d => n * 10 + (d - 48)) ds 0.
(* Width or precision: an asterisk takes an argument *)
Definition size_arg (l : list Z) (stars : list Z) : res (list Z * list Z * option Z) :=
  match l with
  | 42 :: l => match stars with [] => Ub | n :: stars => Ok (l, stars, Some n) end
  | _ => let '(ds, l) := span digit l in Ok (l, stars, match ds with [] => None | _ => Some (number ds) end)
  end.
Definition precision (l : list Z) (stars : list Z) : res (list Z * list Z * option Z) :=
  match l with
  | 46 :: l => '(l, stars, p) <- size_arg l stars ;; Ok (l, stars, Some (match p with Some n => n | None => 0 end))
  | _ => Ok (l, stars, None)
  end.
(* The conversion and its argument, ISO C 7.21.6.1; a conversion that does not fit its
   argument is undefined. *)
Definition convert (l : list Z) (v : value) : res Z :=
  match v, l with
  | VChar _, [99] => Ok 99
  | VStr _, [115] => Ok 115
  | VLong _, [108; c] => if existsb (Z.eqb c) [100; 105; 111; 117; 120; 88] then Ok c else Ub
  | VText _, [c] | VCode _, [c] => if existsb (Z.eqb c) [101; 69; 102; 103; 71] then Ok c else Ub
  | _, _ => Ub
  end.
(* fpm_printf with text and one conversion; stars: the arguments before the value *)
Definition fpm_printf (f : list Z) (stars : list Z) (v : value) : res (list atom) :=
  let '(t, l) := span (fun b => negb (b =? 37)) f in
  match l with
  | [] => Ok (map Byte t)
  | _ :: l =>
      let '(fl, l) := span flag l in
      '(l, stars, w) <- size_arg l stars ;;
      '(l, stars, p) <- precision l stars ;;
      c <- convert l v ;;
      match stars with [] => Ok (map Byte t ++ [Conv fl w p c v]) | _ => Ub end
  end.

(* --- arguments ----------------------------------------------------------------------------- *)
(* strtol with base 0: the value, how many bytes were used, errno != 0 *)
Definition strtol_t := list Z -> Z * nat * bool.
(* strchr(Number, b), apps/printf/printf.c:44; the zero is found too *)
Definition numeric (b : Z) : bool := existsb (Z.eqb b) [43; 45; 46; 48; 49; 50; 51; 52; 53; 54; 55; 56; 57; 0].
Definition first (a : list Z) : Z := hd 0 a.
(* asciicode, apps/printf/printf.c:151-160 *)
Definition asciicode (a : list Z) : Z :=
  let ch := first a in if (ch =? 39) || (ch =? 34) then hd 0 (tl a) else ch.
Inductive got := Value (n : Z) (args : list (list Z)) | Fault (a : atom).
(* getlong, apps/printf/printf.c:162-187 *)
Definition getlong (strtol : strtol_t) (args : list (list Z)) : got :=
  match args with
  | [] => Value 0 []
  | a :: args =>
      if numeric (first a) then
        let '(val, n, err) := strtol a in
        if negb (Nat.eqb n (length a)) then Fault (Msg Illegal a)
        else if err then Fault (Msg Bounds a)
        else Value val args
      else Value (asciicode a) args
  end.
(* getint, apps/printf/printf.c:189-201; a null pointer for %s is undefined *)
Definition int (n : Z) : Z := (n + 2147483648) mod 4294967296 - 2147483648.
Definition getint (strtol : strtol_t) (args : list (list Z)) : res got :=
  match getlong strtol args with
  | Fault a => Ok (Fault a)
  | Value val args =>
      if 65535 <? val then match args with [] => Ub | a :: _ => Ok (Fault (Msg Bounds a)) end
      else Ok (Value (int val) args)
  end.
(* getchr, getstr, getdouble, apps/printf/printf.c:137-149, 203-210 *)
Definition getchr (args : list (list Z)) : Z * list (list Z) := match args with [] => (0, []) | a :: args => (first a, args) end.
Definition getstr (args : list (list Z)) : list Z * list (list Z) := match args with [] => ([], []) | a :: args => (a, args) end.
Definition getdouble (args : list (list Z)) : value * list (list Z) :=
  match args with [] => (VCode 0, []) | a :: args => (if numeric (first a) then VText a else VCode (asciicode a), args) end.

(* --- main ---------------------------------------------------------------------------------- *)
(* mklong, apps/printf/printf.c:59-71: the buffer has 64 bytes *)
Definition mklong (str : list Z) (ch : Z) : res (list Z) :=
  if 64 <? Z.of_nat (length str) + 2 then Ub
  else Ok (removelast str ++ [108; if ch =? 88 then 120 else ch]).
(* PF, apps/printf/printf.c:46-57 *)
Definition pf (f : list Z) (fieldwidth prec : Z) (v : value) : res (list atom) :=
  fpm_printf f ((if fieldwidth =? 0 then [] else [fieldwidth]) ++ (if prec =? 0 then [] else [prec])) v.
(* Up to the next conversion, apps/printf/printf.c:246-269 *)
Inductive stop := End (fmt : nat) | Percent (fmt : nat) | Spec (fmt : nat).
Fixpoint scan (fuel : nat) (m : list Z) (fmt : nat) : res stop :=
  match fuel with
  | O => NoFuel
  | S fuel =>
      b <- rd m fmt ;;
      if b =? 0 then Ok (End fmt)
      else if b =? 37 then
        b <- rd m (S fmt) ;;
        if b =? 37 then Ok (Percent (S fmt)) else Ok (Spec (S fmt))
      else scan fuel m (S fmt)
  end.
(* for (; strchr(set, *fmt); ++fmt), apps/printf/printf.c:272, 281, 292; the zero is found *)
Definition skip1 : list Z := [35; 45; 43; 32; 48; 0].
Definition skip2 : list Z := [42; 48; 49; 50; 51; 52; 53; 54; 55; 56; 57; 0].
Fixpoint skip (fuel : nat) (set m : list Z) (fmt : nat) : res nat :=
  match fuel with
  | O => NoFuel
  | S fuel => b <- rd m fmt ;; if existsb (Z.eqb b) set then skip fuel set m (S fmt) else Ok fmt
  end.
(* One argument for an asterisk, apps/printf/printf.c:274-278, 285-289 *)
Definition star (strtol : strtol_t) (m : list Z) (fmt : nat) (args : list (list Z)) : res got :=
  b <- rd m fmt ;; if b =? 42 then getint strtol args else Ok (Value 0 args).
Definition is_int (c : Z) : bool := existsb (Z.eqb c) [100; 105; 111; 117; 120; 88].
Definition is_double (c : Z) : bool := existsb (Z.eqb c) [101; 69; 102; 103; 71].
(* The conversion, apps/printf/printf.c:302-346, with the zero already behind it: what is
   shown and the arguments left, or the message *)
Definition conversion (strtol : strtol_t) (str : list Z) (convch fieldwidth prec : Z) (args : list (list Z)) : res (list atom * option (list (list Z))) :=
  if convch =? 99 then let '(c, args) := getchr args in o <- pf str fieldwidth prec (VChar c) ;; Ok (o, Some args)
  else if convch =? 115 then let '(s, args) := getstr args in o <- pf str fieldwidth prec (VStr s) ;; Ok (o, Some args)
  else if is_int convch then
    buf <- mklong str convch ;;
    match getlong strtol args with
    | Fault a => Ok ([a], None)
    | Value n args => o <- pf buf fieldwidth prec (VLong n) ;; Ok (o, Some args)
    end
  else if is_double convch then let '(v, args) := getdouble args in o <- pf str fieldwidth prec v ;; Ok (o, Some args)
  else Ok ([Msg Wrong []], None).
(* The main loop, apps/printf/printf.c:242-348: fmt, end, the arguments left; the result: what is
   shown and the exit code. *)
Fixpoint loop (fuel : nat) (strtol : strtol_t) (m : list Z) (fmt : nat) (end_ : bool) (args : list (list Z)) : res (list atom * Z) :=
  match fuel with
  | O => NoFuel
  | S fuel =>
      let start := fmt in
      s <- scan (S (length m)) m start ;;
      match s with
      | End fmt =>
          if end_ then Ok ([Msg Missing []], 1)
          else
            t <- (if (start <? fmt)%nat then string_at m start else Ok []) ;;
            match args with
            | [] => Ok (map Byte t, 0)
            | _ => '(o, rc) <- loop fuel strtol m 0 true args ;; Ok (map Byte t ++ o, rc)
            end
      | Percent fmt =>
          m <- wr m fmt 0 ;;
          t <- string_at m start ;;
          '(o, rc) <- loop fuel strtol m (S fmt) end_ args ;; Ok (map Byte t ++ o, rc)
      | Spec fmt =>
          fmt <- skip (S (length m)) skip1 m fmt ;;
          g <- star strtol m fmt args ;;
          match g with
          | Fault a => Ok ([a], 1)
          | Value fieldwidth args =>
              fmt <- skip (S (length m)) skip2 m fmt ;;
              b <- rd m fmt ;;
              let fmt := if b =? 46 then S fmt else fmt in
              g <- star strtol m fmt args ;;
              match g with
              | Fault a => Ok ([a], 1)
              | Value prec args =>
                  fmt <- skip (S (length m)) skip2 m fmt ;;
                  convch <- rd m fmt ;;
                  if convch =? 0 then Ok ([Msg Missing []], 1)
                  else
                    nextch <- rd m (S fmt) ;;
                    m' <- wr m (S fmt) 0 ;;
                    str <- string_at m' start ;;
                    '(o, a) <- conversion strtol str convch fieldwidth prec args ;;
                    match a with
                    | None => Ok (o, 1)
                    | Some args =>
                        m <- wr m' (S fmt) nextch ;;
                        '(o2, rc) <- loop fuel strtol m (S fmt) false args ;; Ok (o ++ o2, rc)
                    end
              end
          end
      end
  end.
(* main, apps/printf/printf.c:218-350: the words after the name of the command *)
Definition printf_main (fuel : nat) (strtol : strtol_t) (args : list (list Z)) : res (list atom * Z) :=
  match args with
  | [] => Ok ([], 1)
  | f :: args =>
      m <- escape (S (S (length f))) (f ++ [0]) 0 0 ;;
      loop fuel strtol m 0 false args
  end.
