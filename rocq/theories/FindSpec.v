(* What a search finds. *)
From Verif Require FpatSpec.
From Verif Require Import Base FutfModel FutfSpec LfnModel LfnSpec FdirModel FdirSpec FnameModel FnameSpec FpathModel FpathSpec.
Open Scope Z_scope.

(* A pattern that f_findnext can handle: at most four groups of wildcards, none with 256
   question marks. *)
Definition pattern (ps : list Z) : Prop := Forall FpatSpec.char ps /\ FpatSpec.runs 0 ps /\ (FpatSpec.groups ps <= 4)%nat.
(* Of the files l those that match are found, in order, with name and entry. *)
Inductive finds (pat : list Z) : list entry_t -> list (list Z * (Z -> Z)) -> Prop :=
| finds_end : finds pat [] []
| finds_hit : forall f cs l r, good_name cs -> named cs f -> FpatSpec.glob pat cs -> finds pat l r -> finds pat (f :: l) ((utf8 cs, snd f) :: r)
| finds_miss : forall f cs l r, good_name cs -> named cs f -> ~ FpatSpec.glob pat cs -> finds pat l r -> finds pat (f :: l) r.
