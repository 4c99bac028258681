(* Model of the output functions of FatFs: putc_bfd, putc_flush, putc_init, f_putc, f_puts and
   f_printf, fatfs/fatfs.c:6261-6731 (FF_USE_STRFUNC, FF_PRINT_LLI and FF_PRINT_FLOAT are 1).
   int and long have 32 bits, char is unsigned, as on ARM.  A string is the list of its bytes
   without the zero. *)
From Verif Require Import Base FutfModel FtoaModel.
Open Scope Z_scope.

(* A file for f_write: what is in it up to the place of writing, how many bytes it still takes,
   and whether f_write says FR_OK when it does not take all.  What f_write does on the disk is C53;
   this is a simplification of it. *)
Record sink := { data : list Z; room : nat; mild : bool }.
Definition f_write (f : sink) (l : list Z) : sink * nat * bool :=
  if (length l <=? room f)%nat then ({| data := data f ++ l; room := room f - length l; mild := mild f |}, length l, true)
  else ({| data := data f ++ firstn (room f) l; room := 0; mild := mild f |}, room f, mild f).

(* putbuff, fatfs/fatfs.c:6272-6279.  [buf] holds the bytes below idx, None is an idx of -1. *)
Definition size_putc : nat := 64.
Record putbuff := { fp : sink; buf : option (list Z); nchr : Z; bs : list Z; wi : nat; ct : nat }.
(* putc_init, fatfs/fatfs.c:6378-6382 *)
Definition putc_init (f : sink) : putbuff := {| fp := f; buf := Some []; nchr := 0; bs := [0; 0; 0; 0]; wi := 0; ct := 0 |}.
(* a[i] = b *)
Fixpoint upd (a : list Z) (i : nat) (b : Z) : res (list Z) :=
  match a, i with
  | [], _ => Ub
  | _ :: a, O => Ok (b :: a)
  | x :: a, S i => a <- upd a i b ;; Ok (x :: a)
  end.
(* The first byte of a sequence, fatfs/fatfs.c:6303-6312 *)
Definition first_byte (c : Z) : nat :=
  let n := 0%nat in
  let n := if Z.land c 224 =? 192 then 1%nat else n in
  let n := if Z.land c 240 =? 224 then 2%nat else n in
  if Z.land c 248 =? 240 then 3%nat else n.
(* The loop, fatfs/fatfs.c:6301-6322: bs, wi, ct, and whether the sequence is complete *)
Definition start (bs : list Z) (c : Z) : res (list Z * nat * nat * bool) :=
  bs <- upd bs 0 c ;; if c <? 128 then Ok (bs, 0%nat, 0%nat, true) else Ok (bs, 0%nat, first_byte c, false).
Definition collect (bs : list Z) (wi ct : nat) (c : Z) : res (list Z * nat * nat * bool) :=
  match ct with
  | O => start bs c
  | S n => if negb (Z.land c 192 =? 128) then start bs c else bs <- upd bs (S wi) c ;; Ok (bs, S wi, n, Nat.eqb n 0)
  end.
(* A character in UTF-8, fatfs/fatfs.c:6327-6355 *)
Definition encode (dc : Z) : list Z :=
  let hs := w16 (Z.shiftr dc 16) in
  let wc := w16 dc in
  if negb (hs =? 0) then
    let hs := Z.land hs 1023 + 64 in
    [Z.lor 240 (Z.shiftr hs 8); Z.lor 128 (Z.land (Z.shiftr hs 2) 63);
     Z.lor (Z.lor 128 (Z.shiftl (Z.land hs 3) 4)) (Z.land (Z.shiftr wc 6) 15); Z.lor 128 (Z.land wc 63)]
  else if wc <? 128 then [wc]
  else if wc <? 2048 then [Z.lor 192 (Z.shiftr wc 6); Z.lor 128 (Z.land wc 63)]
  else [Z.lor 224 (Z.shiftr wc 12); Z.lor 128 (Z.land (Z.shiftr wc 6) 63); Z.lor 128 (Z.land wc 63)].
(* putc_bfd, fatfs/fatfs.c:6283-6362; nchr is an int *)
Definition putc_bfd (pb : putbuff) (c : Z) : res putbuff :=
  match buf pb with
  | None => Ok pb
  | Some b =>
      '(bs', wi', ct', full) <- collect (bs pb) (wi pb) (ct pb) c ;;
      let pb' b f n := {| fp := f; buf := b; nchr := n; bs := bs'; wi := wi'; ct := ct' |} in
      if negb full then Ok (pb' (Some b) (fp pb) (nchr pb))
      else
        '(dc, _) <- tchar2uni bs' ;;
        match dc with
        | None => Ok (pb' (Some b) (fp pb) (nchr pb))
        | Some dc =>
            let e := encode dc in
            let b := b ++ e in
            if (size_putc <? length b)%nat then Ub
            else
              let n := nchr pb + Z.of_nat (length e) in
              if 2147483647 <? n then Ub
              else if (size_putc - 4 <=? length b)%nat then
                let '(f, k, _) := f_write (fp pb) b in
                Ok (pb' (if Nat.eqb k (length b) then Some [] else None) f n)
              else Ok (pb' (Some b) (fp pb) n)
        end
  end.
(* putc_flush, fatfs/fatfs.c:6366-6374 *)
Definition putc_flush (pb : putbuff) : sink * Z :=
  match buf pb with
  | None => (fp pb, -1)
  | Some b => let '(f, k, ok) := f_write (fp pb) b in if ok && Nat.eqb k (length b) then (f, nchr pb) else (f, -1)
  end.
Fixpoint putall (pb : putbuff) (l : list Z) : res putbuff := match l with [] => Ok pb | c :: l => pb <- putc_bfd pb c ;; putall pb l end.
(* f_putc, fatfs/fatfs.c:6384-6392 *)
Definition f_putc (f : sink) (c : Z) : res (sink * Z) := pb <- putc_bfd (putc_init f) c ;; Ok (putc_flush pb).
(* f_puts, fatfs/fatfs.c:6398-6407 *)
Definition f_puts (f : sink) (s : list Z) : res (sink * Z) := pb <- putall (putc_init f) s ;; Ok (putc_flush pb).

(* --- f_printf ------------------------------------------------------------------------------ *)
(* The arguments; of another type than asked for, or missing, they are undefined. *)
Inductive arg := Int (n : Z) | Long (n : Z) | Llong (n : Z) | Str (s : option (list Z)) | Double (x : double).
Definition get_int (a : list arg) : res (Z * list arg) := match a with Int n :: a => Ok (n, a) | _ => Ub end.
(* Reading the format: the zero at its end, again and again only there *)
Definition getc (fmt : list Z) : Z * list Z := match fmt with [] => (0, []) | c :: fmt => (c, fmt) end.
Definition isdig (c : Z) : bool := (48 <=? c) && (c <=? 57).
(* Minimum width in digits, fatfs/fatfs.c:6593-6596: unsigned *)
Fixpoint width (fmt : list Z) (w : Z) : Z * list Z :=
  match fmt with c :: r => if isdig c then width r ((w * 10 + c - 48) mod 4294967296) else (w, fmt) | [] => (w, []) end.
(* Precision in digits, fatfs/fatfs.c:6605-6608: int *)
Fixpoint precn (fmt : list Z) (p : Z) : res (Z * list Z) :=
  match fmt with
  | c :: r => if isdig c then if 2147483647 <? p * 10 + c then Ub else precn r (p * 10 + c - 48) else Ok (p, fmt)
  | [] => Ok (p, [])
  end.
Record conv := { left : bool; pad : Z; w : Z; prec : Z; size : nat }.
(* Flag, width, precision and size, fatfs/fatfs.c:6578-6620; the format from the type on *)
Definition parse (fmt : list Z) (a : list arg) : res (conv * list Z * list arg) :=
  let '(tc, r) := getc fmt in
  let '(lf, pd, fmt) := if tc =? 48 then (false, 48, r) else if tc =? 45 then (true, 32, r) else (false, 32, fmt) in
  '(wd, fmt, a) <- (let '(tc, r) := getc fmt in
                    if tc =? 42 then '(n, a) <- get_int a ;; Ok (n mod 4294967296, r, a)
                    else let '(wd, fmt) := width fmt 0 in Ok (wd, fmt, a)) ;;
  '(pr, fmt, a) <- (let '(tc, r) := getc fmt in
                    if tc =? 46 then
                      let '(tc, r2) := getc r in
                      if tc =? 42 then '(n, a) <- get_int a ;; Ok (n, r2, a) else '(p, fmt) <- precn r 0 ;; Ok (p, fmt, a)
                    else Ok (-1, fmt, a)) ;;
  let '(tc, r) := getc fmt in
  let '(sz, fmt) := if tc =? 108 then let '(tc, r2) := getc r in if tc =? 108 then (2%nat, r2) else (1%nat, r) else (0%nat, fmt) in
  Ok ({| left := lf; pad := pd; w := wd; prec := pr; size := sz |}, fmt, a).
(* Left pads, body and right pads: n is the length of the body *)
Definition pads (c : conv) (n : Z) : nat := Z.to_nat (w c - n).
Definition field (pb : putbuff) (c : conv) (n : Z) (body : list Z) : res putbuff :=
  pb <- (if left c then Ok pb else putall pb (repeat (pad c) (pads c n))) ;;
  pb <- putall pb body ;;
  if left c then putall pb (repeat 32 (pads c n)) else Ok pb.
(* %s, fatfs/fatfs.c:6646-6661; prec counts down below zero *)
Definition put_str (pb : putbuff) (c : conv) (s : list Z) : res putbuff :=
  let j := Z.of_nat (length s) in
  if prec c <? 0 then if prec c - j <? -2147483648 then Ub else field pb c j s
  else field pb c (Z.min j (prec c)) (firstn (Z.to_nat (prec c)) s).
(* The digits, fatfs/fatfs.c:6706-6713, lowest first *)
Fixpoint digits (fuel : nat) (v r : Z) (low : bool) (o : list Z) : list Z :=
  match fuel with
  | O => o
  | S k =>
      let d := v mod r in
      let v := v / r in
      let d := if 9 <? d then d + (if low then 39 else 7) else d in
      let o := o ++ [d + 48] in
      if v =? 0 then o else digits k v r low o
  end.
Definition radix (tc : Z) : option Z :=
  if tc =? 98 then Some 2 else if tc =? 111 then Some 8 else if (tc =? 100) || (tc =? 117) then Some 10
  else if (tc =? 120) || (tc =? 88) then Some 16 else None.
(* The integer argument, fatfs/fatfs.c:6681-6689 *)
Definition integer (sz : nat) (signed : bool) (a : list arg) : res (Z * list arg) :=
  match sz, a with
  | 2%nat, Llong n :: a => Ok (n mod 2 ^ 64, a)
  | 1%nat, Long n :: a => Ok ((if signed then n else n mod 2 ^ 32) mod 2 ^ 64, a)
  | 0%nat, Int n :: a => Ok ((if signed then n else n mod 2 ^ 32) mod 2 ^ 64, a)
  | _, _ => Ub
  end.
(* An integer, fatfs/fatfs.c:6679-6725 *)
Definition put_num (pb : putbuff) (c : conv) (tc r : Z) (a : list arg) : res (putbuff * list arg) :=
  '(v, a) <- integer (size c) (tc =? 100) a ;;
  let neg := (tc =? 100) && (2 ^ 63 <=? v) in
  let v := if neg then (0 - v) mod 2 ^ 64 else v in
  let str := digits size_num v r (tc =? 120) [] in
  if neg && (size_num <=? length str)%nat then Ub
  else
    let str := if neg then str ++ [45] else str in
    pb <- field pb c (Z.of_nat (length str)) (rev str) ;; Ok (pb, a).
(* The loop, fatfs/fatfs.c:6570-6726; [fl] is for the loops of ftoa *)
Fixpoint print (fuel fl : nat) (pb : putbuff) (fmt : list Z) (a : list arg) : res putbuff :=
  match fuel with
  | O => NoFuel
  | S k =>
      match fmt with
      | [] => Ok pb
      | tc :: fmt =>
          if negb (tc =? 37) then pb <- putc_bfd pb tc ;; print k fl pb fmt a
          else
            '(c, fmt, a) <- parse fmt a ;;
            match fmt with
            | [] => Ok pb
            | tc :: fmt =>
                match radix tc with
                | Some r => '(pb, a) <- put_num pb c tc r a ;; print k fl pb fmt a
                | None =>
                    if tc =? 99 then '(n, a) <- get_int a ;; pb <- putc_bfd pb (n mod 256) ;; print k fl pb fmt a
                    else if tc =? 115 then
                      match a with
                      | Str s :: a => pb <- put_str pb c (match s with Some s => s | None => [] end) ;; print k fl pb fmt a
                      | _ => Ub
                      end
                    else if (tc =? 102) || (tc =? 101) || (tc =? 69) then
                      match a with
                      | Double x :: a =>
                          str <- ftoa fl x (prec c) tc ;;
                          pb <- field pb c (Z.of_nat (length str)) str ;; print k fl pb fmt a
                      | _ => Ub
                      end
                    else pb <- putc_bfd pb tc ;; print k fl pb fmt a
                end
            end
      end
  end.
(* f_printf, fatfs/fatfs.c:6548-6731 *)
Definition f_printf (fl : nat) (f : sink) (fmt : list Z) (a : list arg) : res (sink * Z) :=
  pb <- print (S (length fmt)) fl (putc_init f) fmt a ;; Ok (putc_flush pb).
