(* C arrays as lists: a read or write outside the array is undefined
   behaviour. *)
From Verif Require Import Base.
Open Scope Z_scope.

Definition rd {A} (a : list A) (i : nat) : res A :=
  match nth_error a i with Some v => Ok v | None => Ub end.

Fixpoint set_at {A} (a : list A) (i : nat) (v : A) : list A :=
  match a, i with
  | [], _ => []
  | _ :: a', O => v :: a'
  | x :: a', S j => x :: set_at a' j v
  end.

Definition wr {A} (a : list A) (i : nat) (v : A) : res (list A) :=
  if (i <? length a)%nat then Ok (set_at a i v) else Ub.
