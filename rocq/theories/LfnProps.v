(* Property C52. *)
From Verif Require Import Base FutfModel FutfSpec LfnModel LfnSpec LfnProof LfnExample.
Open Scope Z_scope.

(* C52.  The entries put_lfn makes of a name give back exactly that name (nothing else in
   the buffer changes), and match just the names which differ in case only.  The buffer
   compared with may have anything behind its NUL. *)
Theorem C52_name w lfn es sum : name_ok w -> holds lfn w -> 0 <= sum < 256 -> Forall bytes es -> Z.of_nat (length es) = parts w ->
  exists es', store (length es) lfn es sum = Ok es' /\ parts_of w (parts w) sum es' /\ Forall bytes es' /\
    (forall buf, exists buf', recover buf es' = Ok (buf', true) /\ holds buf' w /\ forall j, ~ (0 <= j <= Z.of_nat (length w)) -> buf' j = buf j) /\
    (forall buf x, units buf -> Forall (fun u => 0 < u < 65536) x -> holds buf x -> exists b, matches buf es' = Ok b /\ (b = true <-> same_name w x)).
Proof. exact (store_parts w lfn es sum). Qed.
Print Assumptions C52_name.

(* C52.  Whatever an entry contains, nothing outside the buffer is read or written. *)
Theorem C52_safe buf e : bytes e -> units buf ->
  (exists b, cmp_lfn buf e = Ok b) /\ exists buf' b, pick_lfn buf e = Ok (buf', b) /\ units buf'.
Proof. exact (fun B U => conj (cmp_safe buf e B U) (match pick_safe buf e B with ex_intro _ b' (ex_intro _ b (conj H1 H2)) => ex_intro _ b' (ex_intro _ b (conj H1 (H2 U))) end)). Qed.
Print Assumptions C52_safe.

(* C52.  A name with the unit 0xFFFF is not stored in full and not found again. *)
Theorem C52_ffff_refuted : exists w lfn, Forall (fun u => 0 < u < 65536) w /\ holds lfn w /\
  exists es, store 1 lfn [fun _ => 0] 17 = Ok es /\ matches lfn es = Ok false /\
    exists buf, recover (fun _ => 0) es = Ok (buf, true) /\ ~ holds buf w.
Proof. exact (ex_intro _ odd_name (ex_intro _ (in_buf odd_name) odd_lost)). Qed.
Print Assumptions C52_ffff_refuted.

Example C52_example :
  name_ok quick /\ holds (in_buf quick) quick /\ parts quick = 3 /\ same_name quick loud /\
  match store 3 (in_buf quick) zeros 170 with
  | Ok es => map (fun e => e 0) es = [67; 2; 1] /\
             matches (in_buf loud) es = Ok true /\ matches (in_buf (loud ++ [97])) es = Ok false /\ matches (in_buf (removelast loud)) es = Ok false /\
             match recover (fun _ => 7) es with Ok (b, r) => r = true /\ map b (map Z.of_nat (seq 0 29)) = quick ++ [0; 7] | _ => False end
  | _ => False
  end.
Proof.
  split; [exact quick_ok|]. split; [exact quick_holds|]. split; [reflexivity|]. split; [vm_compute; reflexivity|]. vm_compute. repeat split; reflexivity.
Qed.
Print Assumptions C52_example.
