(* What cat should print. *)
From Verif Require Import Base.
Open Scope Z_scope.

(* Unicode characters and their UTF-8 form. *)
Definition char_ok (c : Z) : Prop := 0 <= c < 1114112 /\ ~ (55296 <= c < 57344).
Definition utf8_of (c : Z) : list Z :=
  if c <? 128 then [c]
  else if c <? 2048 then [192 + c / 64; 128 + c mod 64]
  else if c <? 65536 then [224 + c / 4096; 128 + c / 64 mod 64; 128 + c mod 64]
  else [240 + c / 262144; 128 + c / 4096 mod 64; 128 + c / 64 mod 64; 128 + c mod 64].
Definition text (cs : list Z) : list Z := flat_map utf8_of cs.

(* A byte after which a line feed needs a carriage return. *)
Definition ordinary (b : Z) : Prop := b <> 10 /\ b <> 13.

(* [out] is [s] with a CR before every LF that comes after an ordinary byte, and
   CR LF at the end after an ordinary byte: byte [i] of [s] turns into piece
   [i] of [out]. *)
Definition with_cr (s out : list Z) : Prop :=
  exists pieces last, out = concat pieces ++ last /\ length pieces = length s /\
    (forall i b, nth_error s i = Some b ->
       exists p, nth_error pieces i = Some p /\
         (b = 10 /\ (exists j a, i = S j /\ nth_error s j = Some a /\ ordinary a) /\ p = [13; 10] \/
          ~ (b = 10 /\ (exists j a, i = S j /\ nth_error s j = Some a /\ ordinary a)) /\ p = [b])) /\
    ((exists s' a, s = s' ++ [a] /\ ordinary a) /\ last = [13; 10] \/
     ~ (exists s' a, s = s' ++ [a] /\ ordinary a) /\ last = []).

(* Every LF is printed at the left margin. *)
Definition no_staircase (out : list Z) : Prop :=
  forall i a, nth_error out i = Some a -> nth_error out (S i) = Some 10 -> ~ ordinary a.
