(* C75: conversion to capitals. *)
From Verif Require Import Base FutfModel FutfSpec CaseSpec CaseProof.
Open Scope Z_scope.

(* Every small letter of the tables becomes its capital and nothing else changes, except
   for three pairs; the letters of any pair become the same. *)
Theorem C75_capital : forall c, 0 <= c < 65536 ->
  (is_turned c = false -> upper c = capital c) /\ upper c = upper (capital c).
Proof. exact case_ok. Qed.
Print Assumptions C75_capital.
(* In these three, the capital letter becomes the small one. *)
Theorem C75_capital_refuted :
  Forall (fun p => capital (fst p) = snd p /\ capital (snd p) = snd p /\ upper (snd p) = fst p /\ upper (fst p) = fst p) turned.
Proof. exact turned_bad. Qed.
Print Assumptions C75_capital_refuted.
Example C75_capital_example : capital 1078 = 1046 /\ capital 255 = 376 /\ is_turned 1078 = false /\ capital 7829 = 7828 /\
  capital 7829 <> 7829 /\ upper 7829 = 7828 /\ upper 570 = 11365.
Proof. vm_compute. repeat split; discriminate. Qed.
