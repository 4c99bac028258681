(* What f_puts and f_printf write. *)
From Verif Require Import Base CrcSpec FutfSpec FtoaModel PutModel.
Open Scope Z_scope.

(* --- Text ---------------------------------------------------------------------------------- *)
Definition cont (b : Z) : Prop := 128 <= b < 192.
(* A first byte: the bits of the character in it, and how many bytes follow. *)
Inductive opens : Z -> Z -> nat -> Prop :=
| op_two : forall b, 192 <= b < 224 -> opens b (b - 192) 1
| op_three : forall b, 224 <= b < 240 -> opens b (b - 224) 2
| op_four : forall b, 240 <= b < 248 -> opens b (b - 240) 3.
Definition code (x : Z) (t : list Z) : Z := fold_left (fun a b => a * 64 + (b - 128)) t x.
(* The characters in a string of bytes; what is no character is left out. *)
Inductive reads : list Z -> list Z -> Prop :=
| rs_end : reads [] []
| rs_ascii : forall b s cs, 0 <= b < 128 -> reads s cs -> reads (b :: s) (b :: cs)
| rs_char : forall b x n t s cs, opens b x n -> length t = n -> Forall cont t -> 128 <= code x t -> scalar (code x t) -> reads s cs -> reads (b :: t ++ s) (code x t :: cs)
| rs_wrong : forall b x n t s cs, opens b x n -> length t = n -> Forall cont t -> code x t < 128 \/ ~ scalar (code x t) -> reads s cs -> reads (b :: t ++ s) cs
| rs_cut : forall b x n t s cs, opens b x n -> (length t < n)%nat -> Forall cont t -> (forall c r, s = c :: r -> ~ cont c) -> reads s cs -> reads (b :: t ++ s) cs
| rs_stray : forall b s cs, cont b \/ 248 <= b < 256 -> reads s cs -> reads (b :: s) cs.
Definition text (cs : list Z) : list Z := flat_map utf8_of cs.
(* A text written: the file and the result. *)
Definition written (f : sink) (l : list Z) : sink * Z :=
  if (length l <=? room f)%nat then ({| data := data f ++ l; room := room f - length l; mild := mild f |}, Z.of_nat (length l))
  else ({| data := data f ++ firstn (room f) l; room := 0; mild := mild f |}, -1).

(* --- Formats ------------------------------------------------------------------------------- *)
Inductive amount := No | Dec (ds : list Z) | Star.
Inductive flag := Plain | Zeros | Left.
Inductive piece := Lit (b : Z) | Cv (fl : flag) (wd pr : amount) (size : nat) (c : Z).
Definition flag_text (f : flag) : list Z := match f with Plain => [] | Zeros => [48] | Left => [45] end.
Definition amount_text (a : amount) : list Z := match a with No => [] | Dec ds => ds | Star => [42] end.
Definition show (x : piece) : list Z :=
  match x with
  | Lit b => [b]
  | Cv fl wd pr sz c => 37 :: flag_text fl ++ amount_text wd ++ (match pr with No => [] | _ => 46 :: amount_text pr end) ++ repeat 108 sz ++ [c]
  end.
Definition format (ps : list piece) : list Z := flat_map show ps.
Definition digit (b : Z) : Prop := 48 <= b <= 57.
Definition decimal (ds : list Z) : Z := fold_left (fun n d => n * 10 + (d - 48)) ds 0.
(* A type is none of 0-9 * . - l *)
Definition good (x : piece) : Prop :=
  match x with
  | Lit b => b <> 37 /\ b <> 0
  | Cv fl wd pr sz c => (forall ds, wd = Dec ds -> Forall digit ds /\ decimal ds < 4294967296 /\ ds <> [] /\ (fl = Plain -> hd 0 ds <> 48)) /\
      (forall ds, pr = Dec ds -> Forall digit ds /\ decimal ds < 2147483590) /\ (sz <= 2)%nat /\ ~ digit c /\ ~ In c [0; 42; 46; 45; 108]
  end.
(* How many; -1 if not said *)
Inductive amounts : amount -> list arg -> Z -> list arg -> Prop :=
| am_no : forall a, amounts No a (-1) a
| am_dec : forall ds a, amounts (Dec ds) a (decimal ds) a
| am_star : forall n a, amounts Star (Int n :: a) n a.
(* A number in base r *)
Definition digit_of (low : bool) (d : Z) : Z := if d <? 10 then 48 + d else if low then 87 + d else 55 + d.
Definition number (r : Z) (ds : list Z) : Z := fold_left (fun n d => n * r + d) ds 0.
Definition numeral (r : Z) (low : bool) (v : Z) (t : list Z) : Prop :=
  exists ds, t = map (digit_of low) ds /\ Forall (fun d => 0 <= d < r) ds /\ number r ds = v /\ (ds = [0] \/ exists d ds', ds = d :: ds' /\ d <> 0).
Definition bits (sz : nat) : Z := match sz with 2%nat => 64 | _ => 32 end.
Definition int_arg (sz : nat) (n : Z) : arg := match sz with 2%nat => Llong n | 1%nat => Long n | _ => Int n end.
(* b o u x X *)
Inductive base : Z -> Z -> bool -> Prop :=
| ba_b : base 98 2 false
| ba_o : base 111 8 false
| ba_u : base 117 10 false
| ba_x : base 120 16 true
| ba_X : base 88 16 false.
(* What a conversion shows before it is padded *)
Inductive body (fl : nat) : nat -> Z -> Z -> list arg -> list Z -> list arg -> Prop :=
| bo_nat : forall sz c r low n p t a, base c r low -> 0 <= n < 2 ^ bits sz -> (r = 2 -> n < 2 ^ 32) -> numeral r low n t -> body fl sz c p (int_arg sz n :: a) t a
| bo_pos : forall sz n p t a, 0 <= n < 2 ^ (bits sz - 1) -> numeral 10 false n t -> body fl sz 100 p (int_arg sz n :: a) t a
| bo_neg : forall sz n p t a, - 2 ^ (bits sz - 1) <= n < 0 -> numeral 10 false (- n) t -> body fl sz 100 p (int_arg sz n :: a) (45 :: t) a
| bo_str : forall sz s p a, -2147483648 <= p - Z.of_nat (length s) -> p < 0 -> body fl sz 115 p (Str (Some s) :: a) s a
| bo_cut : forall sz s p a, 0 <= p -> body fl sz 115 p (Str (Some s) :: a) (firstn (Z.to_nat p) s) a
| bo_null : forall sz p a, -2147483648 <= p -> body fl sz 115 p (Str None :: a) [] a
| bo_float : forall sz c x p t a, In c [102; 101; 69] -> ftoa fl x p c = Ok t -> body fl sz c p (Double x :: a) t a.
Definition padded (f : flag) (wd : Z) (t : list Z) : list Z :=
  let n := Z.to_nat (wd - Z.of_nat (length t)) in
  match f with Plain => repeat 32 n ++ t | Zeros => repeat 48 n ++ t | Left => t ++ repeat 32 n end.
Inductive shows (fl : nat) : list piece -> list arg -> list Z -> Prop :=
| sh_end : forall a, shows fl [] a []
| sh_lit : forall b ps a o, shows fl ps a o -> shows fl (Lit b :: ps) a (b :: o)
| sh_conv : forall f wd pr sz c ps a a1 a2 a3 wn pn t o, amounts wd a wn a1 -> -1 <= wn < 4294967296 -> (wd = Star -> 0 <= wn) -> amounts pr a1 pn a2 -> body fl sz c pn a2 t a3 -> shows fl ps a3 o ->
    shows fl (Cv f wd pr sz c :: ps) a (padded f wn t ++ o)
| sh_char : forall f wd pr sz ps a a1 a2 wn pn n o, amounts wd a wn a1 -> amounts pr a1 pn (Int n :: a2) -> shows fl ps a2 o ->
    shows fl (Cv f wd pr sz 99 :: ps) a (n mod 256 :: o)
| sh_other : forall f wd pr sz c ps a a1 a2 wn pn o, ~ In c [98; 111; 100; 117; 120; 88; 99; 115; 102; 101; 69] -> amounts wd a wn a1 -> amounts pr a1 pn a2 -> shows fl ps a2 o ->
    shows fl (Cv f wd pr sz c :: ps) a (c :: o).

(* --- Floating point ------------------------------------------------------------------------ *)
(* i characters, and, if p is not zero, a point and p characters *)
Definition fixed (i p : Z) (t : list Z) : Prop :=
  exists a b, t = a ++ (if p =? 0 then [] else 46 :: b) /\ Z.of_nat (length a) = i /\ (p <> 0 -> Z.of_nat (length b) = p).
Definition minus (x : double) : bool := SpecFloat.SFltb x f0.
Definition sign (x : double) : list Z := if minus x then [45] else [].
Definition signed (x : double) : Z := if minus x then 45 else 43.
(* NaN, +INF, +OV, 12.50, 1.25e+01 *)
Definition float_shape (x : double) (prec fmt : Z) (t : list Z) : Prop :=
  let p := if prec <? 0 then 6 else prec in
  if isnan x then t = [78; 97; 78]
  else if isinf x then t = [signed x; 73; 78; 70]
  else t = [signed x; 79; 86] \/
       (fmt = 102 /\ exists i u, 1 <= i /\ fixed i p u /\ t = sign x ++ u) \/
       (fmt <> 102 /\ exists u e1 e2 s, fixed 1 p u /\ t = sign x ++ u ++ [fmt; s; e1; e2] /\ (s = 43 \/ s = 45)).
