(* What wildcard patterns and drive prefixes mean. *)
From Verif Require Import Base CrcSpec FutfModel FutfSpec FpatModel.
Open Scope Z_scope.

(* A text of code points, as stored: UTF-8 and a zero, then anything. *)
Definition text (w : list Z) (tail : list Z) : list Z := flat_map utf8_of w ++ 0 :: tail.
Definition char (c : Z) : Prop := scalar c /\ c <> 0.

(* Characters that differ at most in case. *)
Definition same_char (c d : Z) : Prop := upper (utf16_of c) = upper (utf16_of d).

(* '?' (63) stands for one character, '*' (42) for any sequence, anything else
   for itself ignoring case. *)
Inductive glob : list Z -> list Z -> Prop :=
| glob_end : glob [] []
| glob_any : forall p c n, glob p n -> glob (63 :: p) (c :: n)
| glob_star : forall p s n, glob p n -> glob (42 :: p) (s ++ n)
| glob_char : forall c d p n, c <> 63 -> c <> 42 -> same_char c d -> glob p n -> glob (c :: p) (d :: n).

(* Maximal runs of wildcards in a pattern. *)
Fixpoint groups_from (inside : bool) (p : list Z) : nat :=
  match p with
  | [] => 0
  | c :: r => if wild c then (if inside then groups_from true r else S (groups_from true r)) else groups_from false r
  end.
Definition groups (p : list Z) : nat := groups_from false p.

(* No run of wildcards has 256 question marks. *)
Fixpoint runs (n : nat) (p : list Z) : Prop :=
  match p with
  | [] => (n < 256)%nat
  | c :: r => if c =? 63 then runs (S n) r else if c =? 42 then runs n r else (n < 256)%nat /\ runs 0 r
  end.

(* The drive named by what stands before the colon. *)
Definition fold_case (l : list Z) : list Z := map (fun c => if (97 <=? c) && (c <=? 122) then c - 32 else c) l.
Definition drive_named (pre : list Z) (d : Z) : Prop :=
  (d = 0 /\ (pre = [48] \/ fold_case pre = [70; 76; 65; 83; 72])) \/
  (d = 1 /\ (pre = [49] \/ fold_case pre = [83; 68])).
Definition plain_byte (c : Z) : Prop := 32 <= c < 256 /\ c <> 58.
