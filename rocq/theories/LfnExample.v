(* A name of 27 units. *)
From Verif Require Import Base FutfModel FutfSpec FutfProof LfnModel LfnSpec LfnProof.
Open Scope Z_scope.

Definition in_buf (w : list Z) (k : Z) : Z := nth (Z.to_nat k) w 0.
(* "The_quick_brown_fox.jump.é" with a letter of upper and one of lower case each *)
Definition quick : list Z := [84; 104; 101; 95; 113; 117; 105; 99; 107; 95; 98; 114; 111; 119; 110; 95; 102; 111; 120; 46; 106; 117; 109; 112; 46; 233; 1078].
Definition loud : list Z := [84; 72; 69; 95; 81; 85; 73; 67; 75; 95; 66; 82; 79; 87; 78; 95; 70; 79; 88; 46; 74; 85; 77; 80; 46; 201; 1046].
Lemma quick_ok : name_ok quick.
Proof. split; [|cbn; lia]. unfold quick, unit_ok. repeat (constructor; [lia|]). constructor. Qed.
Lemma quick_holds : holds (in_buf quick) quick.
Proof. split; [intros; reflexivity|reflexivity]. Qed.

Definition zeros : list (Z -> Z) := [fun _ => 0; fun _ => 0; fun _ => 0].
(* a, U+FFFF, b *)
Definition odd_name : list Z := [97; 65535; 98].

Lemma odd_lost : Forall (fun u => 0 < u < 65536) odd_name /\ holds (in_buf odd_name) odd_name /\
  exists es, store 1 (in_buf odd_name) [fun _ => 0] 17 = Ok es /\ matches (in_buf odd_name) es = Ok false /\
    exists buf, recover (fun _ => 0) es = Ok (buf, true) /\ ~ holds buf odd_name.
Proof.
  split; [repeat (constructor; [lia|]); constructor|]. split; [split; [intros; reflexivity|reflexivity]|].
  eexists. split; [reflexivity|]. split; [vm_compute; reflexivity|]. eexists. split; [reflexivity|]. intros [H _]. specialize (H 2 ltac:(cbn; lia)). vm_compute in H. discriminate.
Qed.
