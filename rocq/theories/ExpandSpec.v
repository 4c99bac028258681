(* What f_expand is to do. *)
From Verif Require Import Base FatModel FatSpec FileModel FileSpec.
Open Scope Z_scope.

(* Clusters s, s + 1, ..., s + n - 1. *)
Definition block (s n : Z) : list Z := map (fun i => s + Z.of_nat i) (seq 0 (Z.to_nat n)).
(* They exist and are free. *)
Definition free_block (g : geo) (E : Z -> Z) (s n : Z) : Prop :=
  2 <= s /\ s + n <= n_fatent g /\ forall c, s <= c < s + n -> E c = 0.
(* Clusters for a file of n bytes. *)
Definition needed (g : geo) (n : Z) : Z := (n + bcs g - 1) / bcs g.
(* Where the search starts. *)
Definition hint (g : geo) (v : vol) : Z := if (last_clst v <? 2) || (n_fatent g <=? last_clst v) then 2 else last_clst v.
(* n free clusters, some at the end of the volume and some at its begin. *)
Definition split_block (g : geo) (E : Z -> Z) (s n : Z) : Prop :=
  2 <= s < n_fatent g /\ n_fatent g < s + n /\
  (forall c, s <= c < n_fatent g -> E c = 0) /\ (forall c, 2 <= c < 2 + (s + n - n_fatent g) -> E c = 0).
