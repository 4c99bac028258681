(* UTF-8 for characters of the basic plane, by arithmetic. *)
From Verif Require Import Base Utf8Model.
Open Scope Z_scope.

Definition wide (c : Z) : Prop := 0 < c < 65536.

Definition utf8_char (c : Z) : list Z :=
  if c <? 128 then [c]
  else if c <? 2048 then [192 + c / 64; 128 + c mod 64]
  else [224 + c / 4096; 128 + (c / 64) mod 64; 128 + c mod 64].

Definition utf8 (w : list Z) : list Z := flat_map utf8_char w.

(* Read [n] characters from the console: the characters and the input left. *)
Fixpoint getwchs (n : nat) (inp : list Z) : option (list Z * list Z) :=
  match n with
  | O => Some ([], inp)
  | S k =>
      match getwch inp with
      | None => None
      | Some (c, r) =>
          match getwchs k r with
          | None => None
          | Some (w, r') => Some (c :: w, r')
          end
      end
  end.
