(* Model of ilog10, i10x and ftoa, fatfs/fatfs.c:6412-6546 (FF_PRINT_FLOAT is 1).  A double is
   a spec_float of the standard library, with binary64 arithmetic rounded to nearest even.  The
   counters of ilog10 and sums with prec are unbounded integers.  A double out of the range of int gives the
   nearest int, as the conversion of ARM does; C leaves it undefined. *)
From Coq Require Import SpecFloat.
From Verif Require Import Base.
Open Scope Z_scope.

Definition double := spec_float.
Definition fadd : double -> double -> double := SFadd 53 1024.
Definition fsub : double -> double -> double := SFsub 53 1024.
Definition fmul : double -> double -> double := SFmul 53 1024.
Definition fdiv : double -> double -> double := SFdiv 53 1024.
Definition of_int (n : Z) : double := binary_normalize 53 1024 n 0 false.
Definition to_int (x : double) : Z :=
  match x with
  | S754_zero _ => 0
  | S754_nan => 0
  | S754_infinity s => if s then -2147483648 else 2147483647
  | S754_finite s m e =>
      let t := if 0 <=? e then Z.pos m * 2 ^ e else Z.pos m / 2 ^ (- e) in
      Z.max (-2147483648) (Z.min 2147483647 (if s then - t else t))
  end.
Definition isnan (x : double) : bool := match x with S754_nan => true | _ => false end.
Definition isinf (x : double) : bool := match x with S754_infinity _ => true | _ => false end.
Definition f0 : double := S754_zero false.
Definition f1 : double := of_int 1.
Definition f2 : double := of_int 2.
Definition f10 : double := of_int 10.
Definition f1e5 : double := of_int 100000.
(* 0.00001 *)
Definition f1em5 : double := fdiv f1 f1e5.

(* ilog10, fatfs/fatfs.c:6415-6438: the first loop, n and rv *)
Fixpoint log_down (fuel : nat) (n : double) (rv : Z) : res (double * Z) :=
  match fuel with
  | O => NoFuel
  | S k =>
      if SFleb f10 n then if SFleb f1e5 n then log_down k (fdiv n f1e5) (rv + 5) else log_down k (fdiv n f10) (rv + 1)
      else Ok (n, rv)
  end.
(* the second loop *)
Fixpoint log_up (fuel : nat) (n : double) (rv : Z) : res Z :=
  match fuel with
  | O => NoFuel
  | S k =>
      if SFltb n f1 then if SFltb n f1em5 then log_up k (fmul n f1e5) (rv - 5) else log_up k (fmul n f10) (rv - 1)
      else Ok rv
  end.
Definition ilog10 (fuel : nat) (n : double) : res Z := '(n, rv) <- log_down fuel n 0 ;; log_up fuel n rv.

(* i10x, fatfs/fatfs.c:6440-6463 *)
Fixpoint pow_up (fuel : nat) (n : Z) (rv : double) : res (double * Z) :=
  match fuel with
  | O => NoFuel
  | S k =>
      if 0 <? n then if 5 <=? n then pow_up k (n - 5) (fmul rv f1e5) else pow_up k (n - 1) (fmul rv f10)
      else Ok (rv, n)
  end.
Fixpoint pow_down (fuel : nat) (n : Z) (rv : double) : res double :=
  match fuel with
  | O => NoFuel
  | S k =>
      if n <? 0 then if n <=? -5 then pow_down k (n + 5) (fdiv rv f1e5) else pow_down k (n + 1) (fdiv rv f10)
      else Ok rv
  end.
Definition i10x (fuel : nat) (n : Z) : res double := '(rv, n) <- pow_up fuel n f1 ;; pow_down fuel n rv.

(* *buf++ = b: [o] is what has been put, the buffer has SZ_NUM_BUF bytes *)
Definition size_num : nat := 32.
Definition put (o : list Z) (b : Z) : res (list Z) := if (length o <? size_num)%nat then Ok (o ++ [b]) else Ub.
(* char of int *)
Definition chr (n : Z) : Z := n mod 256.
(* The digits, fatfs/fatfs.c:6515-6523 *)
Fixpoint put_digits (fuel fl : nat) (o : list Z) (val : double) (m prec : Z) : res (list Z) :=
  match fuel with
  | O => NoFuel
  | S k =>
      o <- (if m =? -1 then put o 46 else Ok o) ;;
      w <- i10x fl m ;;
      let d := to_int (fdiv val w) in
      let val := fsub val (fmul (of_int d) w) in
      o <- put o (chr (48 + d)) ;;
      if - prec <=? m - 1 then put_digits k fl o val (m - 1) prec else Ok o
  end.
(* The exponent, fatfs/fatfs.c:6524-6534 *)
Definition put_exp (o : list Z) (fmt e : Z) : res (list Z) :=
  o <- put o fmt ;;
  o <- put o (if e <? 0 then 45 else 43) ;;
  let e := Z.abs e in
  o <- put o (chr (48 + e / 10)) ;;
  put o (chr (48 + e mod 10)).
(* The error symbol, fatfs/fatfs.c:6537-6543 *)
Fixpoint put_all (o : list Z) (l : list Z) : res (list Z) := match l with [] => Ok o | b :: l => o <- put o b ;; put_all o l end.
(* What has to be written, fatfs/fatfs.c:6488-6511: a symbol, or value, m and e *)
Inductive plan := Symbol (er : list Z) | Digits (val : double) (m e : Z).
Definition f_plan (fl : nat) (val : double) (prec : Z) : res plan :=
  p <- i10x fl (0 - prec) ;;
  let val := fadd val (fdiv p f2) in
  m <- ilog10 fl val ;;
  let m := if m <? 0 then 0 else m in
  if Z.of_nat size_num <=? m + prec + 3 then Ok (Symbol [79; 86]) else Ok (Digits val m 0).
Definition e_plan (fl : nat) (val : double) (prec : Z) : res plan :=
  if SFeqb val f0 then Ok (Digits val 0 0)
  else
    l <- ilog10 fl val ;;
    p <- i10x fl (l - prec) ;;
    let val := fadd val (fdiv p f2) in
    e <- ilog10 fl val ;;
    if (99 <? e) || (Z.of_nat size_num <=? prec + 7) then Ok (Symbol [79; 86])
    else
      let e := if e <? -99 then -99 else e in
      w <- i10x fl e ;;
      Ok (Digits (fdiv val w) 0 e).
(* ftoa, fatfs/fatfs.c:6465-6545: the string, without its zero *)
Definition ftoa (fl : nat) (val : double) (prec fmt : Z) : res (list Z) :=
  o <- (if isnan val then put_all [] [78; 97; 78]
        else
          let prec := if prec <? 0 then 6 else prec in
          let neg := SFltb val f0 in
          let val := if neg then fsub f0 val else val in
          p <- (if isinf val then Ok (Symbol [73; 78; 70]) else if fmt =? 102 then f_plan fl val prec else e_plan fl val prec) ;;
          match p with
          | Symbol er => put_all [if neg then 45 else 43] er
          | Digits val m e =>
              o <- put_digits fl fl (if neg then [45] else []) val m prec ;;
              if fmt =? 102 then Ok o else put_exp o fmt e
          end) ;;
  _ <- put o 0 ;; Ok o.
