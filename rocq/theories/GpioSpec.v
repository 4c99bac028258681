(* What the program gpio should do. *)
From Coq Require Import String.
From Verif Require Import Base ExecModel DirModel GpioModel.
Open Scope Z_scope.

(* Numbers as in C: decimal, octal with 0, hexadecimal with 0x. *)
Definition is_digit (c d : Z) : Prop := 0 <= d <= 9 /\ c = 48 + d \/ 10 <= d <= 15 /\ (c = 87 + d \/ c = 55 + d).
Inductive reads (base : Z) : list Z -> Z -> Prop :=
| R_none : reads base [] 0
| R_more s v c d : reads base s v -> is_digit c d -> d < base -> reads base (s ++ [c]) (v * base + d).
Inductive numeral : list Z -> Z -> Prop :=
| N_dec c s v : c <> 48 -> reads 10 (c :: s) v -> numeral (c :: s) v
| N_oct s v : reads 8 s v -> numeral (48 :: s) v
| N_hex x c s v : x = 120 \/ x = 88 -> reads 16 (c :: s) v -> numeral (48 :: x :: c :: s) v.
(* NUM and NUM-NUM *)
Inductive target : list Z -> Z -> Z -> Prop :=
| T_one s p : numeral s p -> target s p p
| T_range a b lo hi : numeral a lo -> numeral b hi -> target (a ++ 45 :: b) lo hi.

(* What can be asked. *)
Inductive act := Info | Mode (m : mode) | Get (lo hi : Z) | Put (lo hi v : Z) | Conf (lo hi : Z).
Inductive spelled : list Z -> act -> Prop :=
| S_info : spelled (str "info") Info
| S_out : spelled (str "out") (Mode OUT)
| S_in : spelled (str "in") (Mode IN)
| S_pu : spelled (str "pu") (Mode PU)
| S_pd : spelled (str "pd") (Mode PD)
| S_get w lo hi : target w lo hi -> spelled w (Get lo hi)
| S_put w n lo hi v : target w lo hi -> numeral n v -> spelled (w ++ 61 :: n) (Put lo hi v)
| S_conf w lo hi : target w lo hi -> spelled w (Conf lo hi).

(* Pins are 0 to 29.  Numbers alone mean reading before the first mode, configuring after it. *)
Definition pins (lo hi : Z) : Prop := lo < 30 /\ hi < 30.
Definition allowed1 (m : mode) (a : act) : Prop :=
  match a with
  | Info => True
  | Mode m => m <> GETSET
  | Get lo hi => m = GETSET /\ pins lo hi
  | Put lo hi v => m = GETSET /\ pins lo hi /\ v <= 4294967295
  | Conf lo hi => m <> GETSET /\ pins lo hi
  end.
Definition after (m : mode) (a : act) : mode := match a with Mode m => m | _ => m end.
Fixpoint allowed (m : mode) (l : list act) : Prop := match l with [] => True | a :: l => allowed1 m a /\ allowed (after m a) l end.

(* The numbers from lo to hi. *)
Definition from_to (lo hi : Z) : list Z := map (fun i => lo + Z.of_nat i) (seq 0 (Z.to_nat (hi + 1 - lo))).
Definition bit (v : bool) : Z := if v then 49 else 48.
(* Level seen at a pin *)
Definition seen (ext : Z -> bool) (b : board) (p : Z) : bool := if func (b p) =? 5 then if oe (b p) then level (b p) else ext p else ext p.
Definition configured (m : mode) (x : pin) : pin :=
  match m with
  | GETSET => x
  | OUT => Pin 5 true false (pu x) (pd x)
  | IN => Pin 5 false false false false
  | PU => Pin 5 false false true false
  | PD => Pin 5 false false false true
  end.
(* A line of the table *)
Definition functions : list (list Z) := map str ["XIP"; "SPI"; "UART"; "I2C"; "PWM"; "SIO"; "PIO0"; "PIO1"; "GPCK"; "USB"]%string.
Definition line (ext : Z -> bool) (b : board) (p : Z) : list Z :=
  str "gpio " ++ digits p ++ str ": " ++
  (if func (b p) =? 31 then str "unused"
   else if func (b p) =? 5 then
     if oe (b p) then str " out " ++ [bit (seen ext b p)]
     else str " in " ++ [bit (seen ext b p)] ++ (if pu (b p) then str " pull up" else if pd (b p) then str " pull down" else [])
   else str "function " ++ (if 0 <=? func (b p) then nth (Z.to_nat (func (b p))) functions (str "(unknown)") else str "(unknown)")) ++ [13; 10].
Definition table (ext : Z -> bool) (b : board) : list Z := flat_map (line ext b) (from_to 0 29).

(* One request: the board afterwards and the output. *)
Inductive performed (ext : Z -> bool) (m : mode) (b : board) : act -> board -> list Z -> Prop :=
| P_info : performed ext m b Info b (table ext b)
| P_mode m' : performed ext m b (Mode m') b []
| P_get lo hi : performed ext m b (Get lo hi) b (flat_map (fun p => [32; bit (seen ext b p)]) (from_to lo hi))
| P_put lo hi v b' :
    (forall p, lo <= p <= hi -> b' p = Pin (func (b p)) (oe (b p)) (negb (v =? 0)) (pu (b p)) (pd (b p))) ->
    (forall p, ~ lo <= p <= hi -> b' p = b p) -> performed ext m b (Put lo hi v) b' []
| P_conf lo hi b' :
    (forall p, lo <= p <= hi -> b' p = configured m (b p)) -> (forall p, ~ lo <= p <= hi -> b' p = b p) -> performed ext m b (Conf lo hi) b' [].
Inductive performs (ext : Z -> bool) : mode -> board -> list act -> board -> list Z -> Prop :=
| Ps_done m b : performs ext m b [] b []
| Ps_more m b a l b1 o1 b2 o2 : performed ext m b a b1 o1 -> performs ext (after m a) b1 l b2 o2 -> performs ext m b (a :: l) b2 (o1 ++ o2).
