(* The program apps/gpio/gpio.c.  The functions gpio_... are those of the Pico SDK, which is
   not in the repository: modelled from its documentation for the RP2040, as are strtoul
   and strchr of the C library.  unsigned long has 32 bits. *)
From Coq Require Import String Ascii.
From Verif Require Import Base ExecModel GetoptModel DirModel CliModel.
Open Scope Z_scope.

(* --- hardware --- *)

(* NUM_BANK0_GPIOS; enum gpio_function *)
Definition PINS : Z := 30.
Definition SIO : Z := 5.
Definition FUNC_NULL : Z := 31.
(* One pin: its function, the bits of GPIO_OE and GPIO_OUT, the pulls of its pad. *)
Record pin := Pin { func : Z; oe : bool; level : bool; pu : bool; pd : bool }.
Definition board := Z -> pin.
Definition set_pin (b : board) (p : Z) (x : pin) : board := fun q => if q =? p then x else b q.

(* The registers of SIO have 32 bits, of which 30 exist; 1ul << gpio with 32 or more is
   undefined.  Those of IO_BANK0 and PADS_BANK0 are arrays of 30. *)
Definition gpio_put (b : board) (p : Z) (v : bool) : res board :=
  if p <? PINS then Ok (set_pin b p (Pin (func (b p)) (oe (b p)) v (pu (b p)) (pd (b p)))) else if p <? 32 then Ok b else Ub.
Definition gpio_set_dir (b : board) (p : Z) (v : bool) : res board :=
  if p <? PINS then Ok (set_pin b p (Pin (func (b p)) v (level (b p)) (pu (b p)) (pd (b p)))) else if p <? 32 then Ok b else Ub.
Definition gpio_set_function (b : board) (p : Z) (f : Z) : res board :=
  if p <? PINS then Ok (set_pin b p (Pin f (oe (b p)) (level (b p)) (pu (b p)) (pd (b p)))) else Ub.
Definition gpio_set_pulls (b : board) (p : Z) (u d : bool) : res board :=
  if p <? PINS then Ok (set_pin b p (Pin (func (b p)) (oe (b p)) (level (b p)) u d)) else Ub.
(* What the pin shows: its own level if it drives one, otherwise what is outside. *)
Definition shows (ext : Z -> bool) (b : board) (p : Z) : bool := if (func (b p) =? SIO) && oe (b p) then level (b p) else ext p.
Definition gpio_get (ext : Z -> bool) (b : board) (p : Z) : res bool :=
  if p <? PINS then Ok (shows ext b p) else if p <? 32 then Ok false else Ub.

(* --- the C library --- *)

Definition ULONG_MAX : Z := 4294967295.
Definition isspace (c : Z) : bool := (c =? 32) || ((9 <=? c) && (c <=? 13)).
Fixpoint skip_space (s : list Z) : list Z := match s with c :: r => if isspace c then skip_space r else s | [] => [] end.
Definition digit_of (c : Z) : Z :=
  if (48 <=? c) && (c <=? 57) then c - 48 else if (97 <=? c) && (c <=? 122) then c - 87 else if (65 <=? c) && (c <=? 90) then c - 55 else 99.
Fixpoint scan (base : Z) (s : list Z) (n : Z) : Z :=
  match s with c :: r => if digit_of c <? base then scan base r (n * base + digit_of c) else n | [] => n end.
(* fpm_strtoul, kernel/fpm_strtol.c:21-26: strtoul (s, NULL, 0), the value, and whether errno is set.  A text without digits is 0
   without an error. *)
Definition strtoul (s : list Z) : Z * bool :=
  let s := skip_space s in
  let '(neg, s) := match s with c :: r => if c =? 45 then (true, r) else if c =? 43 then (false, r) else (false, s) | [] => (false, []) end in
  let n := match s with
           | 48 :: x :: d :: r => if ((x =? 120) || (x =? 88)) && (digit_of d <? 16) then scan 16 (d :: r) 0 else scan 8 s 0
           | 48 :: _ => scan 8 s 0
           | _ => scan 10 s 0
           end in
  if ULONG_MAX <? n then (ULONG_MAX, true) else (if neg : bool then (- n) mod (ULONG_MAX + 1) else n, false).
(* strchr (s, c) + 1 *)
Fixpoint behind (c : Z) (s : list Z) : option (list Z) := match s with x :: r => if x =? c then Some r else behind c r | [] => None end.

(* --- the program --- *)

Definition bad (what : string) (arg : list Z) : list Z := crlf ++ str what ++ arg ++ crlf.

(* Number and limit, apps/gpio/gpio.c:90-103 and 128-140; on the right a message. *)
Definition range (arg : list Z) : (Z * Z) + list Z :=
  let '(p, err) := strtoul arg in
  if err then inr (bad "Bad pin: " arg)
  else match behind 45 arg with
       | None => inl (p, p)
       | Some r => let '(limit, err) := strtoul r in if err then inr (bad "Bad limit: " arg) else inl (p, limit)
       end.

(* for (; pin <= limit; pin++): the body is undefined for pins of 32 and more, so at most
   32 rounds are made. *)
Fixpoint each {T} (fuel : nat) (body : T -> Z -> res T) (s : T) (p limit : Z) : res T :=
  match fuel with
  | O => NoFuel
  | S k => if p <=? limit then s <- body s p ;; each k body s (p + 1) limit else Ok s
  end.
Definition ROUNDS : nat := 34.

(* get_set, apps/gpio/gpio.c:88-120: the board and the output *)
Definition get_set (ext : Z -> bool) (b : board) (arg : list Z) : res (board * list Z) :=
  match range arg with
  | inr msg => Ok (b, msg)
  | inl (p, limit) =>
      match behind 61 arg with
      | None =>
          out <- each ROUNDS (fun out p => v <- gpio_get ext b p ;; Ok (out ++ [32; if v : bool then 49 else 48])) [] p limit ;;
          Ok (b, out)
      | Some r =>
          let '(value, err) := strtoul r in
          if err then Ok (b, bad "Bad value: " arg)
          else b <- each ROUNDS (fun b p => gpio_put b p (negb (value =? 0))) b p limit ;; Ok (b, [])
      end
  end.

Inductive mode := GETSET | OUT | IN | PU | PD.
(* configure, apps/gpio/gpio.c:126-164 *)
Definition configure1 (m : mode) (b : board) (p : Z) : res board :=
  match m with
  | GETSET => Ok b
  | OUT => b <- gpio_set_dir b p true ;; b <- gpio_put b p false ;; gpio_set_function b p SIO
  | _ =>
      b <- gpio_set_dir b p false ;; b <- gpio_put b p false ;; b <- gpio_set_function b p SIO ;;
      b <- gpio_set_pulls b p false false ;;
      match m with PU => gpio_set_pulls b p true false | PD => gpio_set_pulls b p false true | _ => Ok b end
  end.
Definition configure (b : board) (arg : list Z) (m : mode) : res (board * list Z) :=
  match range arg with
  | inr msg => Ok (b, msg)
  | inl (p, limit) => b <- each ROUNDS (configure1 m) b p limit ;; Ok (b, [])
  end.

(* func_name, apps/gpio/gpio.c:20-36 *)
Definition func_name (f : Z) : list Z :=
  match f with
  | 0 => str "XIP" | 1 => str "SPI" | 2 => str "UART" | 3 => str "I2C" | 4 => str "PWM" | 5 => str "SIO" | 6 => str "PIO0" | 7 => str "PIO1"
  | 8 => str "GPCK" | 9 => str "USB" | 31 => str "NULL" | _ => str "(unknown)"
  end.
(* show_signal, apps/gpio/gpio.c:41-56 *)
Definition show_signal (ext : Z -> bool) (b : board) (p : Z) : res (list Z) :=
  v <- gpio_get ext b p ;;
  let d := if v : bool then 49 else 48 in
  Ok (if oe (b p) then str " out " ++ [d]
      else str " in " ++ [d] ++ (if pu (b p) then str " pull up" else if pd (b p) then str " pull down" else [])).
(* show_all, apps/gpio/gpio.c:61-80 *)
Definition show_pin (ext : Z -> bool) (b : board) (out : list Z) (p : Z) : res (list Z) :=
  let head := str "gpio " ++ digits p ++ str ": " in
  if func (b p) =? FUNC_NULL then Ok (out ++ head ++ str "unused" ++ crlf)
  else if func (b p) =? SIO then s <- show_signal ext b p ;; Ok (out ++ head ++ s ++ crlf)
  else Ok (out ++ head ++ str "function " ++ func_name (func (b p)) ++ crlf).
Definition show_all (ext : Z -> bool) (b : board) : res (list Z) := each ROUNDS (show_pin ext b) [] 0 (PINS - 1).

(* main, apps/gpio/gpio.c:166-229; the text of -h is left out *)
Record st := St { now : board; md : mode; argcount : Z; out : list Z }.
Definition is (a : list Z) (s : string) : bool := if list_eq_dec Z.eq_dec a (str s) then true else false.
Definition gpio_round (ext : Z -> bool) (s : st) (ret : Z) (arg : option (list Z)) : res (round st) :=
  if ret =? 1 then
    match arg with
    | None => Ub
    | Some a =>
        let n := argcount s + 1 in
        if is a "info" then o <- show_all ext (now s) ;; Ok (Go (St (now s) (md s) n (out s ++ o)))
        else if is a "out" then Ok (Go (St (now s) OUT n (out s)))
        else if is a "in" then Ok (Go (St (now s) IN n (out s)))
        else if is a "pu" then Ok (Go (St (now s) PU n (out s)))
        else if is a "pd" then Ok (Go (St (now s) PD n (out s)))
        else
          '(b, o) <- match md s with GETSET => get_set ext (now s) a | m => configure (now s) a m end ;;
          Ok (Go (St b (md s) n (out s ++ o)))
    end
  else if ret =? 63 then Ok (Stop (St (now s) (md s) (argcount s) (out s ++ crlf)))
  else if ret =? 104 then Ok (Stop s)
  else Ok (Go s).
Definition gpio_main (fuel : nat) (ext : Z -> bool) (b : board) (argv : list (list Z)) : res (board * list Z) :=
  r <- options fuel [104] (gpio_round ext) argv (St b GETSET 0 []) opt0 ;;
  match r with
  | Stop s => Ok (now s, out s)
  | Go s => if argcount s =? 0 then o <- show_all ext (now s) ;; Ok (now s, out s ++ o) else Ok (now s, out s)
  end.
