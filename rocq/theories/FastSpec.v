(* What the link map and f_forward mean. *)
From Verif Require Import Base FatModel FatSpec FileModel FileSpec ExpandSpec FastModel.
Open Scope Z_scope.

(* The clusters l consist of runs: (n, c) stands for c, c + 1, ..., c + n - 1.  No run
   could be longer. *)
Fixpoint runs_of (rs : list (Z * Z)) (l : list Z) : Prop :=
  match rs with
  | [] => l = []
  | (n, c) :: rs => 0 < n /\ exists rest, l = block c n ++ rest /\ hd 0 rest <> c + n /\ runs_of rs rest
  end.

(* The table holds these runs from index i on, and then 0. *)
Fixpoint holds (tab : Z -> Z) (i : Z) (rs : list (Z * Z)) : Prop :=
  match rs with
  | [] => tab i = 0
  | (n, c) :: rs => tab i = n /\ tab (i + 1) = c /\ holds tab (i + 2) rs
  end.
Definition items (rs : list (Z * Z)) : Z := 2 * Z.of_nat (length rs) + 2.

(* A link map of the clusters l in a table of the given size. *)
Definition linkmap (tab : Z -> Z) (size : Z) (l : list Z) : Prop :=
  exists rs, runs_of rs l /\ holds tab 1 rs /\ items rs <= size.

(* The end mark of a chain is not the number following its last cluster (for marks from
   0xFF8, 0xFFF8 and 0xFFFFFF8 on it never is). *)
Definition plain_end (E : Z -> Z) (l : list Z) : Prop := l <> [] -> E (ends l) <> ends l + 1.

(* How many of n bytes at position p the stream takes in sectors of s bytes, and whether
   it gave up in spite of not being busy. *)
Fixpoint taken (s : Z) (ts : list turn) (p n : Z) : Z * bool :=
  if n <=? 0 then (0, true)
  else
    match ts with
    | [] | Busy :: _ => (0, true)
    | Accept a :: ts =>
        let r := Z.min a (Z.min n (s - p mod s)) in
        if r <=? 0 then (0, false)
        else let '(k, ok) := taken s ts (p + r) (n - r) in (r + k, ok)
    end.
