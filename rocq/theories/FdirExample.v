(* A directory with a volume label, a deleted entry and README.TXT. *)
From Verif Require Import Base FutfModel FutfSpec LfnModel LfnSpec LfnProof LfnExample FdirModel FdirSpec.
Open Scope Z_scope.

Lemma in_buf_bytes w : Forall (fun b => 0 <= b < 256) w -> bytes (in_buf w).
Proof.
  intros F o. unfold in_buf. destruct (Nat.lt_ge_cases (Z.to_nat o) (length w)) as [L|L]; [|rewrite nth_overflow by lia; lia].
  rewrite Forall_forall in F. apply F, nth_In. auto.
Qed.
Definition disk1 : Z -> Z := in_buf [68; 73; 83; 75; 49; 32; 32; 32; 32; 32; 32; 40].
Definition gone : Z -> Z := in_buf [229; 66; 67; 32; 32; 32; 32; 32; 32; 32; 32; 32].
Definition readme : Z -> Z := in_buf [82; 69; 65; 68; 77; 69; 32; 32; 84; 88; 84; 32; 8].
Definition d0 : dirt := mkDir (fun j => if j =? 0 then disk1 else if j =? 1 then gone else if j =? 2 then readme else fun _ => 0) 16 16 1.
Definition l0 : list item := [Label disk1; Hole; File [] readme].
Lemma d0_ok : dir_ok d0 l0.
Proof.
  assert (B : bytes disk1 /\ bytes gone /\ bytes readme) by (repeat split; apply in_buf_bytes; repeat (constructor; [lia|]); constructor). destruct B as (B1 & B2 & B3).
  constructor; cbn [tab cap chunk spare d0].
  - cbn [laid l0 stored size]. unfold label_ok, short_ok, DDEM. repeat split; auto; try (vm_compute; congruence); try easy; try (intros; apply B1); try apply B2; try apply B3.
  - vm_compute. discriminate.
  - unfold MAXENT. lia.
  - lia.
  - split; [exists 1; lia|]. exists 4096. reflexivity.
  - lia.
  - intros j J. assert (Z3 : sizes l0 = 3) by reflexivity. rewrite Z3 in J. replace (j =? 0) with false by lia. replace (j =? 1) with false by lia. replace (j =? 2) with false by lia. split; [auto|]. intros o. lia.
Qed.

(* THE_QUIC as the short name of the long name, lossy (flags LOSS, LFN, LAST). *)
Definition fn_quick : Z -> Z := in_buf [84; 72; 69; 95; 81; 85; 73; 67; 74; 85; 77; 7].
Definition quicker : list Z := removelast quick.
Lemma fn_quick_ok : fn_ok fn_quick.
Proof. split; [apply in_buf_bytes; repeat (constructor; [lia|]); constructor|]. vm_compute. repeat split; discriminate. Qed.
Definition units_ok w : Forall (fun u => 0 <= u < 65536) w -> units (in_buf w).
Proof.
  intros F o. unfold in_buf. destruct (Nat.lt_ge_cases (Z.to_nat o) (length w)) as [L|L]; [|rewrite nth_overflow by lia; lia].
  rewrite Forall_forall in F. apply F, nth_In. auto.
Qed.
Lemma quick_units : units (in_buf quick).
Proof. apply units_ok. repeat (constructor; [lia|]). constructor. Qed.

(* What is listed: per file the first 9 bytes of the entry and, if any, the long name. *)
Definition show (d : dirt) : res (list (list Z * list Z)) :=
  out <- list_dir d (fun _ _ => 7) ;;
  Ok (map (fun '(i, b, buf) => (map (tab d i) [0; 1; 2; 3; 4; 5; 6; 7; 8], if b =? NONE then [] else map buf (map Z.of_nat (seq 0 28)))) out).

Definition session : res (list (drc * Z) * list (list (list Z * list Z))) :=
  '(d1, r1, i1) <- dir_register d0 fn_quick (in_buf quick) ;;
  '(d2, r2, i2) <- dir_register d1 fn_quick (in_buf quicker) ;;
  s2 <- show d2 ;;
  '(r3, i3, b3) <- dir_find d2 fn_quick (in_buf loud) ;;
  '(d3, r4) <- dir_remove d2 i3 b3 ;;
  s3 <- show d3 ;;
  '(r5, i5, b5) <- dir_find d3 fn_quick (in_buf loud) ;;
  '(r6, i6, b6) <- dir_find d3 (upd readme 11 4) (in_buf [82; 101; 97; 100; 109; 101; 46; 116; 120; 116]) ;;
  Ok ([(r1, i1); (r2, i2); (r3, i3); (r3, b3); (r4, 0); (r5, 0); (r6, i6); (r6, b6)], [s2; s3]).
