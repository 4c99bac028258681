(* What printf shows. *)
From Verif Require Import Base PrintfModel.
Open Scope Z_scope.

(* --- Escapes ------------------------------------------------------------------------------- *)
(* \a \b \f \n \r \t \v *)
Definition letters : list (Z * Z) := [(97, 7); (98, 8); (102, 12); (110, 10); (114, 13); (116, 9); (118, 11)].
Definition octal_digit (b : Z) : Prop := 48 <= b <= 55.
Definition octal_number (ds : list Z) : Z := fold_left (fun n d => 8 * n + (d - 48)) ds 0.
(* Text as typed, and the bytes it stands for. *)
Inductive escaped : list Z -> list Z -> Prop :=
| esc_end : escaped [] []
| esc_last : escaped [92] [92]
| esc_char : forall b s t, b <> 92 -> escaped s t -> escaped (b :: s) (b :: t)
| esc_letter : forall b c s t, In (b, c) letters -> escaped s t -> escaped (92 :: b :: s) (c :: t)
| esc_other : forall b s t, ~ In b (map fst letters) -> ~ octal_digit b -> escaped s t -> escaped (92 :: b :: s) (b :: t)
| esc_octal : forall ds s t, ds <> [] -> Forall octal_digit ds -> (length ds <= 3)%nat -> (length ds = 3%nat \/ ~ octal_digit (hd 0 s)) -> escaped s t ->
    escaped (92 :: ds ++ s) (octal_number ds mod 256 :: t).

(* --- Formats ------------------------------------------------------------------------------- *)
Inductive size := None_ | Num (ds : list Z) | Star.
Inductive piece := Lit (b : Z) | Pct | Cv (flags : list Z) (w p : size) (c : Z).
Definition text_of (s : size) : list Z := match s with None_ => [] | Num ds => ds | Star => [42] end.
Definition show (x : piece) : list Z :=
  match x with
  | Lit b => [b]
  | Pct => [37; 37]
  | Cv fl w p c => 37 :: fl ++ text_of w ++ (match p with None_ => [] | _ => 46 :: text_of p end) ++ [c]
  end.
Definition format (ps : list piece) : list Z := flat_map show ps.
Definition isdigit (d : Z) : Prop := 48 <= d <= 57.
(* # - + space 0 *)
Definition isflag (b : Z) : Prop := In b [35; 45; 43; 32; 48].
(* d i o u x, and e E f g G *)
Definition integer (c : Z) : Prop := In c [100; 105; 111; 117; 120].
Definition floating (c : Z) : Prop := In c [101; 69; 102; 103; 71].
Definition good (x : piece) : Prop :=
  match x with
  | Lit b => b <> 0 /\ b <> 37
  | Pct => True
  | Cv fl w p c => Forall isflag fl /\ (forall ds, w = Num ds -> Forall isdigit ds /\ exists d r, ds = d :: r /\ d <> 48) /\ (forall ds, p = Num ds -> Forall isdigit ds) /\
      (c = 99 \/ c = 115 \/ integer c \/ floating c)
  end.
(* No integer conversion has more than 62 bytes with the text before it. *)
Fixpoint fits (n : nat) (ps : list piece) : Prop :=
  match ps with
  | [] => True
  | Lit _ :: ps => fits (S n) ps
  | Pct :: ps => fits 0 ps
  | Cv fl w p c :: ps => (integer c -> (n + length (show (Cv fl w p c)) <= 62)%nat) /\ fits 0 ps
  end.

(* --- Arguments ----------------------------------------------------------------------------- *)
Section Args.
Variable strtol : strtol_t.
Definition numeral (b : Z) : Prop := In b [43; 45; 46] \/ isdigit b.
(* The number an argument stands for: a numeral, the code of the character after a quote, or
   the code of its first character. *)
Inductive means : list Z -> Z -> Prop :=
| me_number : forall a n, (a = [] \/ numeral (hd 0 a)) -> strtol a = (n, length a, false) -> means a n
| me_quote : forall q b r, q = 39 \/ q = 34 -> means (q :: b :: r) b
| me_quote0 : forall q, q = 39 \/ q = 34 -> means [q] 0
| me_code : forall c r, c <> 0 -> c <> 39 -> c <> 34 -> ~ numeral c -> means (c :: r) c.
(* Missing arguments are zero or empty. *)
Inductive takes : list (list Z) -> Z -> list (list Z) -> Prop :=
| tk_none : takes [] 0 []
| tk_arg : forall a n r, means a n -> takes (a :: r) n r.
Definition decimal (ds : list Z) : Z := fold_left (fun n d => n * 10 + (d - 48)) ds 0.
(* Width and precision; an asterisk takes an argument, which must not be zero. *)
Inductive sized : size -> list (list Z) -> option Z -> list (list Z) -> Prop :=
| sz_none : forall args, sized None_ args None args
| sz_num : forall ds args, sized (Num ds) args (Some (decimal ds)) args
| sz_star : forall args n r, takes args n r -> n <> 0 -> -2147483648 <= n <= 65535 -> sized Star args (Some n) r.
Inductive valued : Z -> list (list Z) -> value -> list (list Z) -> Prop :=
| va_char0 : valued 99 [] (VChar 0) []
| va_char : forall a r, valued 99 (a :: r) (VChar (hd 0 a)) r
| va_str0 : valued 115 [] (VStr []) []
| va_str : forall a r, valued 115 (a :: r) (VStr a) r
| va_int : forall c args n r, integer c -> takes args n r -> valued c args (VLong n) r
| va_float0 : forall c, floating c -> valued c [] (VCode 0) []
| va_float : forall c a r, floating c -> a = [] \/ numeral (hd 0 a) -> valued c (a :: r) (VText a) r
| va_floatc : forall c a n r, floating c -> a <> [] -> ~ numeral (hd 0 a) -> means a n -> valued c (a :: r) (VCode n) r.
(* The format once: what is shown and the arguments left. *)
Inductive prints : list piece -> list (list Z) -> list atom -> list (list Z) -> Prop :=
| pr_end : forall args, prints [] args [] args
| pr_lit : forall b ps args o r, prints ps args o r -> prints (Lit b :: ps) args (Byte b :: o) r
| pr_pct : forall ps args o r, prints ps args o r -> prints (Pct :: ps) args (Byte 37 :: o) r
| pr_cv : forall fl w p c ps args a1 a2 a3 wv pv v o r, sized w args wv a1 -> sized p a1 pv a2 -> valued c a2 v a3 -> prints ps a3 o r ->
    prints (Cv fl w p c :: ps) args (Conv fl wv pv c v :: o) r.
(* Again and again while there are arguments. *)
Inductive repeats (ps : list piece) : list (list Z) -> list atom -> Prop :=
| re_last : forall args o, prints ps args o [] -> repeats ps args o
| re_more : forall args o r o2, prints ps args o r -> r <> [] -> (exists fl w p c, In (Cv fl w p c) ps) -> repeats ps r o2 -> repeats ps args (o ++ o2).
End Args.
