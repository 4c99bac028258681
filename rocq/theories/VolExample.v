(* The directory of FdirExample, whose label is DISK1. *)
From Verif Require Import Base CrcSpec FutfModel FutfSpec LfnModel LfnSpec LfnExample FdirModel FdirSpec FdirExample FnameModel VolModel VolSpec.
Open Scope Z_scope.

Definition my_disk : list Z := [77; 121; 32; 100; 105; 115; 107; 32; 0].
Lemma my_disk_says : says my_disk [77; 121; 32; 100; 105; 115; 107; 32] /\ good_text [77; 121; 32; 100; 105; 115; 107; 32].
Proof.
  split.
  - exists 0, []. split; [reflexivity|]. split; [repeat (constructor; [lia|]); constructor|]. split; [lia|]. split; [constructor|now left].
  - split; [|cbn; lia]. repeat (constructor; [split; [lia|cbn; lia]|]). constructor.
Qed.
Lemma l0_labelled : labelled l0 [] disk1 [Hole; File [] readme] /\ unlabelled [Hole; File [] readme].
Proof. split; [split; [reflexivity|split; [constructor|discriminate]]|repeat constructor]. Qed.

(* Labels in turn: My disk, then none, then a bad one, then a new one. *)
Definition session : res (list (drc * list Z)) :=
  '(r0, s0) <- get_label d0 VOL_BUF ;;
  '(d1, r1) <- set_label d0 my_disk ;;
  '(_, s1) <- get_label d1 VOL_BUF ;;
  '(d2, r2) <- set_label d1 [32; 0] ;;
  '(_, s2) <- get_label d2 VOL_BUF ;;
  '(d3, r3) <- set_label d2 [65; 43; 66; 0] ;;
  '(d4, r4) <- set_label d3 [195; 137; 0] ;;
  '(d5, r5) <- set_label d4 [49; 50; 51; 52; 53; 54; 55; 56; 57; 48; 97; 0] ;;
  '(_, s5) <- get_label d5 VOL_BUF ;;
  '(d6, r6) <- set_label d5 [49; 50; 51; 52; 53; 54; 55; 56; 57; 48; 97; 98; 0] ;;
  Ok [(r0, s0); (r1, s1); (r2, s2); (r3, []); (r4, []); (r5, s5); (r6, [])].
Lemma session_ok : session = Ok [(D_OK, [68; 73; 83; 75; 49]); (D_OK, [77; 89; 32; 68; 73; 83; 75]); (D_OK, []); (D_INVALID_NAME, []); (D_INVALID_NAME, []);
  (D_OK, [49; 50; 51; 52; 53; 54; 55; 56; 57; 48; 65]); (D_INVALID_NAME, [])].
Proof. vm_compute. reflexivity. Qed.

(* A label of eleven characters which take two bytes each. *)
Definition wide : dirt := mkDir (fun j => if j =? 0 then in_buf [201; 201; 201; 201; 201; 201; 201; 201; 201; 201; 201; 8] else fun _ => 0) 16 16 1.
Lemma wide_bytes : forall i, bytes (tab wide i).
Proof. intros i. cbn [tab wide]. destruct (i =? 0); [apply in_buf_bytes; repeat (constructor; [lia|]); constructor|]. intros o. lia. Qed.
Lemma wide_22 : get_label wide 22 = Ub /\ exists t, get_label wide 23 = Ok (D_OK, t) /\ length t = 22%nat.
Proof. split; [vm_compute; reflexivity|]. eexists. split; [vm_compute; reflexivity|reflexivity]. Qed.
