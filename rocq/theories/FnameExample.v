From Verif Require Import Base CrcSpec FutfModel FutfSpec LfnModel LfnSpec LfnExample FdirModel FdirSpec FdirExample FnameModel FnameSpec.
Open Scope Z_scope.

Definition buf0 : Z -> Z := fun _ => 7.
(* The short name with flags, the first n units of the buffer, and the rest of the path. *)
Definition see (n : nat) (r : res (option (list Z * (Z -> Z) * (Z -> Z)))) : option (list Z * list Z * list Z) :=
  match r with
  | Ok (Some (p, fn, lfn)) => Some (map (fun k => fn (Z.of_nat k)) (seq 0 12), map (fun k => lfn (Z.of_nat k)) (seq 0 n), p)
  | _ => None
  end.

(* Makes a file in a directory, and looks it up again. *)
Definition make (d : dirt) (path : list Z) : res (dirt * Z * Z * (Z -> Z)) :=
  r <- create_name path buf0 ;;
  match r with
  | None => Ub
  | Some (_, fn, lfn) =>
      '(d, r, i) <- dir_register d fn lfn ;;
      '(r2, j, blk) <- dir_find d fn lfn ;;
      '(r3, j3, blk3, lfn3) <- dir_read d buf0 (if blk =? NONE then i else blk) NONE ;;
      Ok (d, (if match r with D_OK => true | _ => false end then 1 else 0) + (if match r2 with D_OK => true | _ => false end then 2 else 0), blk3, lfn3)
  end.

(* U+FFFF in a name: the file is made but not found by its name. *)
Definition ffff : list Z := [97; 239; 191; 191; 98; 0].
Lemma ffff_lost : exists p fn lfn d i, create_name ffff buf0 = Ok (Some (p, fn, lfn)) /\ dir_register d0 fn lfn = Ok (d, D_OK, i) /\ exists j b, dir_find d fn lfn = Ok (D_NO_FILE, j, b).
Proof.
  destruct (create_name ffff buf0) as [[[[p fn] lfn]|]| |] eqn:E; [|vm_compute in E; discriminate..].
  destruct (dir_register d0 fn lfn) as [[[d r] i]| |] eqn:R.
  - assert (Q : (x <- create_name ffff buf0 ;; match x with None => Ub | Some (_, fn, lfn) => '(d, r, i) <- dir_register d0 fn lfn ;; '(r2, j, b) <- dir_find d fn lfn ;; Ok (r, r2) end) = Ok (D_OK, D_NO_FILE)) by (vm_compute; reflexivity).
    rewrite E in Q. cbn [bind] in Q. rewrite R in Q. cbn [bind] in Q. destruct (dir_find d fn lfn) as [[[r2 j] b]| |] eqn:G; cbn [bind] in Q; try discriminate. injection Q as -> ->. do 5 eexists. split; [reflexivity|]. split; [exact R|]. eauto.
  - assert (Q : (x <- create_name ffff buf0 ;; match x with None => Ub | Some (_, fn, lfn) => '(d, r, i) <- dir_register d0 fn lfn ;; Ok r end) = Ok D_OK) by (vm_compute; reflexivity).
    rewrite E in Q. cbn [bind] in Q. rewrite R in Q. discriminate.
  - assert (Q : (x <- create_name ffff buf0 ;; match x with None => Ub | Some (_, fn, lfn) => '(d, r, i) <- dir_register d0 fn lfn ;; Ok r end) = Ok D_OK) by (vm_compute; reflexivity).
    rewrite E in Q. cbn [bind] in Q. rewrite R in Q. discriminate.
Qed.

(* A short name of another system with the byte 0xC4. *)
Definition foreign : Z -> Z := in_buf [65; 196; 66; 32; 32; 32; 32; 32; 84; 88; 84; 32].
Definition d1 : dirt := mkDir (fun j => if j =? 0 then foreign else fun _ => 0) 16 16 1.
Lemma d1_ok : dir_ok d1 [File [] foreign].
Proof.
  assert (B : bytes foreign) by (apply in_buf_bytes; repeat (constructor; [lia|]); constructor).
  constructor; cbn [tab cap chunk spare d1].
  - cbn [laid stored]. unfold short_ok, DDEM. repeat split; auto; try (vm_compute; congruence); try easy; try (intros; apply B).
  - vm_compute. discriminate.
  - unfold MAXENT. lia.
  - lia.
  - split; [exists 1; lia|]. exists 4096. reflexivity.
  - lia.
  - intros j J. assert (Z1 : sizes [File [] foreign] = 1) by reflexivity. rewrite Z1 in J. replace (j =? 0) with false by lia. split; [auto|]. intros o. lia.
Qed.
Lemma foreign_lost : exists j b fname alt, file_names foreign NONE buf0 = Ok (fname, alt) /\
  match create_name (fname ++ [0]) buf0 with Ok (Some (_, fn, lfn)) => dir_find d1 fn lfn = Ok (D_NO_FILE, j, b) | _ => False end.
Proof. do 4 eexists. split; [vm_compute; reflexivity|]. vm_compute. reflexivity. Qed.
