(* What echo should write. *)
From Verif Require Import Base GetoptModel GetoptSpec CliModel.
Open Scope Z_scope.

(* An argument: a word, or -n, -nn ... *)
Inductive word := W (s : list Z) | N (more : nat).
Definition text (w : word) : list Z := match w with W s => s | N k => 45 :: repeat 110 k ++ [110] end.
Definition word_ok (w : word) : Prop := match w with W s => hd 0 s <> 45 \/ s = [45] | N _ => True end.
Fixpoint join (ws : list (list Z)) : list Z :=
  match ws with [] => [] | [w] => w | w :: r => w ++ [32] ++ join r end.
Definition words (ws : list word) : list (list Z) := flat_map (fun w => match w with W s => [s] | N _ => [] end) ws.
Definition has_n (ws : list word) : bool := existsb (fun w => match w with N _ => true | W _ => false end) ws.
Definition weight (ws : list word) : nat := length (flat_map (fun w => match w with W _ => [0%nat] | N k => repeat 0%nat (S k) end) ws).
