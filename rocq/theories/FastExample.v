(* A file in two fragments, with a link map. *)
From Coq Require Import ZifyClasses ZifyInst ZifyBool.
From Verif Require Import Base FatModel FatSpec FatExample FileModel FileSpec FileProof8 FileExample ExpandSpec FastModel FastSpec.
Open Scope Z_scope.

Definition steps : list (nat * call) := [(0%nat, Write ramp 600); (1%nat, Write rest 600); (0%nat, Write ramp 600)].
Definition begun : res (vol * list fil * list (answer * vol)) := do_calls 3000 floppy blank two steps.
Definition table (n : Z) : Z -> Z := fun i => if i =? 0 then n else 99.
Definition row (f : Z -> Z) (n : nat) : list Z := map f (map Z.of_nat (seq 0 n)).

Lemma begun_ok : match begun with Ok (v, fs, _) => exists cs ds, open_files floppy v cs fs ds | _ => False end.
Proof.
  destruct (calls_ok floppy 3000 steps blank [[]; []] two [empty; empty] floppy_ok floppy_data two_ok) as (v & cs & fs & ds & out & E & O & _).
  - assert (forall k, vbyte (ramp k) /\ vbyte (rest k)) by (intros k; unfold vbyte, ramp, rest; split; [pose proof (Z.mod_pos_bound k 251)|pose proof (Z.mod_pos_bound (7 * k + 3) 256)]; lia).
    repeat constructor; cbn; try lia; apply H.
  - unfold begun. rewrite E. eauto.
Qed.

Definition shown_map (r : res (vol * fil * (Z -> Z) * lrc)) : option (list Z * lrc) := match r with Ok (_, _, t, r) => Some (row t 8, r) | _ => None end.
Lemma map_example :
  match begun with
  | Ok (v, fs, _) =>
      let f := nth 0 fs (opened 0 0 77 true true) in
      shown_map (create_linkmap 400 floppy v f (table 7) 8) = Some ([6; 2; 2; 1; 6; 0; 99; 99], LDone FR_OK) /\
      shown_map (create_linkmap 400 floppy v f (table 5) 8) = Some ([6; 2; 2; 99; 99; 99; 99; 99], LNotEnough)
  | _ => False
  end.
Proof. vm_compute. auto. Qed.

Definition lm : Z -> Z := fun i => nth (Z.to_nat i) [6; 2; 2; 1; 6; 0] 0.
Lemma lm_ok : linkmap lm 6 [2; 3; 6].
Proof.
  exists [(2, 2); (1, 6)]. split; [|split; [repeat split|vm_compute; discriminate]].
  cbn. split; [lia|]. exists [6]. split; [reflexivity|]. split; [cbn; lia|]. split; [lia|]. exists []. split; [reflexivity|]. split; [cbn; lia|reflexivity].
Qed.
Lemma seek_example :
  match begun with
  | Ok (v, fs, _) =>
      match fast_seek floppy v (nth 0 fs (opened 0 0 77 true true)) lm 6 1020 with
      | Ok (v, f, r) =>
          r = FR_OK /\ fptr f = 1020 /\ clust f = 3 /\
          match fast_read 100 lm 6 floppy v f buffer 8 8 with
          | Ok (v, f, rb, n, r) => n = 8 /\ r = FR_OK /\ fptr f = 1028 /\ clust f = 6 /\ row rb 8 = map (fun k => ramp (1020 - 600 + k)) [0; 1; 2; 3; 4; 5; 6; 7]
          | _ => False
          end /\
          match f_forward [Accept 3; Accept 100; Busy] floppy v f 50 with
          | Ok (v, f, w, r) => r = FR_OK /\ w = map (fun k => ramp (1020 - 600 + k)) [0; 1; 2; 3] /\ fptr f = 1024
          | _ => False
          end /\
          match f_forward [Accept 2; Accept 0] floppy v f 50 with
          | Ok (v, f, w, r) => r = FR_INT_ERR /\ w = map (fun k => ramp (1020 - 600 + k)) [0; 1] /\ fptr f = 1022
          | _ => False
          end
      | _ => False
      end
  | _ => False
  end.
Proof. vm_compute. repeat split. Qed.

Lemma both_maps :
  match begun with Ok (v, fs, _) => exists cs ds, open_files floppy v cs fs ds | _ => False end /\
  match begun with
  | Ok (v, fs, _) =>
      let f := nth 0 fs (opened 0 0 77 true true) in
      shown_map (create_linkmap 400 floppy v f (table 7) 8) = Some ([6; 2; 2; 1; 6; 0; 99; 99], LDone FR_OK) /\
      shown_map (create_linkmap 400 floppy v f (table 5) 8) = Some ([6; 2; 2; 99; 99; 99; 99; 99], LNotEnough)
  | _ => False
  end.
Proof. split; [exact begun_ok|exact map_example]. Qed.
Lemma both_seeks : linkmap lm 6 [2; 3; 6] /\
  match begun with
  | Ok (v, fs, _) =>
      match fast_seek floppy v (nth 0 fs (opened 0 0 77 true true)) lm 6 1020 with
      | Ok (v, f, r) =>
          r = FR_OK /\ fptr f = 1020 /\ clust f = 3 /\
          match fast_read 100 lm 6 floppy v f buffer 8 8 with
          | Ok (v, f, rb, n, r) => n = 8 /\ r = FR_OK /\ fptr f = 1028 /\ clust f = 6 /\ row rb 8 = map (fun k => ramp (1020 - 600 + k)) [0; 1; 2; 3; 4; 5; 6; 7]
          | _ => False
          end /\
          match f_forward [Accept 3; Accept 100; Busy] floppy v f 50 with
          | Ok (v, f, w, r) => r = FR_OK /\ w = map (fun k => ramp (1020 - 600 + k)) [0; 1; 2; 3] /\ fptr f = 1024
          | _ => False
          end /\
          match f_forward [Accept 2; Accept 0] floppy v f 50 with
          | Ok (v, f, w, r) => r = FR_INT_ERR /\ w = map (fun k => ramp (1020 - 600 + k)) [0; 1] /\ fptr f = 1022
          | _ => False
          end
      | _ => False
      end
  | _ => False
  end.
Proof. split; [exact lm_ok|exact seek_example]. Qed.
