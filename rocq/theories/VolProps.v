(* C119: the volume label.  C120: f_getlabel stays within its buffer. *)
From Verif Require Import Base CrcSpec FutfModel FutfSpec LfnModel LfnSpec LfnExample FdirModel FdirSpec FdirExample FnameModel VolModel VolSpec VolProof VolProof2 VolExample.
Open Scope Z_scope.

(* What f_setlabel does to the root directory: it changes, makes or deletes the one label
   entry, or refuses. *)
Theorem C119_set : forall d l p s, dir_ok d l -> says p s ->
  (~ good_text s -> set_label d p = Ok (d, D_INVALID_NAME)) /\
  (good_text s -> forall t, snipped (map capital s) t ->
    (forall l1 e l2, labelled l l1 e l2 -> exists d', set_label d p = Ok (d', D_OK) /\
       match t with
       | [] => dir_ok d' (l1 ++ Hole :: l2)
       | _ => exists e', dir_ok d' (l1 ++ Label e' :: l2) /\ names e' t /\ forall k, 11 <= k -> e' k = e k
       end) /\
    (unlabelled l ->
       match t with
       | [] => set_label d p = Ok (d, D_OK)
       | _ =>
           (exists d' l1 h l2 e', set_label d p = Ok (d', D_OK) /\ l = l1 ++ repeat Hole h ++ l2 /\ (h = 1%nat \/ h = 0%nat /\ l2 = []) /\
              dir_ok d' (l1 ++ Label e' :: l2) /\ names e' t /\ e' 11 = 8 /\ forall k, 12 <= k < 32 -> e' k = 0) \/
           (exists d', set_label d p = Ok (d', D_DENIED) /\ dir_ok d' l /\ no_room d' 1 /\ forall j, j < cap d -> tab d' j = tab d j)
       end)).
Proof. exact set_ok. Qed.
Print Assumptions C119_set.

(* What is set is what f_getlabel gives, in capitals and without spaces at the end; the
   files are the same. *)
Theorem C119_again : forall d l p s room, dir_ok d l -> says p s -> 23 <= room -> unlabelled l \/ (exists l1 e l2, labelled l l1 e l2 /\ unlabelled l2) ->
  exists d' r l', set_label d p = Ok (d', r) /\ dir_ok d' l' /\ files l' = files l /\
    match r with
    | D_OK => good_text s /\ exists t, snipped (map capital s) t /\ get_label d' room = Ok (D_OK, t)
    | D_INVALID_NAME => ~ good_text s /\ d' = d
    | D_DENIED => good_text s /\ unlabelled l /\ no_room d' 1 /\ get_label d' room = Ok (D_OK, [])
    | _ => False
    end.
Proof. exact again_ok. Qed.
Print Assumptions C119_again.

(* The label given is that of the first label entry, or none. *)
Theorem C119_get : forall d l room, dir_ok d l -> 23 <= room ->
  (forall l1 e l2, labelled l l1 e l2 -> exists t, get_label d room = Ok (D_OK, t) /\ shows e t) /\
  (unlabelled l -> get_label d room = Ok (D_OK, [])).
Proof. exact get_ok. Qed.
Print Assumptions C119_get.

Example C119_example : dir_ok d0 l0 /\ labelled l0 [] disk1 [Hole; File [] readme] /\ unlabelled [Hole; File [] readme] /\
  says my_disk [77; 121; 32; 100; 105; 115; 107; 32] /\ good_text [77; 121; 32; 100; 105; 115; 107; 32].
Proof. exact (conj d0_ok (conj (proj1 l0_labelled) (conj (proj2 l0_labelled) my_disk_says))). Qed.
Example C119_session : session = Ok [(D_OK, [68; 73; 83; 75; 49]); (D_OK, [77; 89; 32; 68; 73; 83; 75]); (D_OK, []); (D_INVALID_NAME, []); (D_INVALID_NAME, []);
  (D_OK, [49; 50; 51; 52; 53; 54; 55; 56; 57; 48; 65]); (D_INVALID_NAME, [])].
Proof. exact session_ok. Qed.

(* Any bytes in the root directory: f_getlabel ends, stays in the table and needs no more
   than 23 bytes, of which the command vol has 32. *)
Theorem C120_safe : forall d room, 1 <= cap d <= MAXENT -> (forall i, 0 <= i < cap d -> bytes (tab d i)) -> 23 <= room ->
  exists t, get_label d room = Ok (D_OK, t) /\ (length t <= 22)%nat.
Proof. exact get_safe. Qed.
Print Assumptions C120_safe.
Example C120_example : 23 <= VOL_BUF /\ (forall i, bytes (tab wide i)) /\ get_label wide 22 = Ub /\ exists t, get_label wide 23 = Ok (D_OK, t) /\ length t = 22%nat.
Proof. exact (conj (ltac:(discriminate) : 23 <= VOL_BUF) (conj wide_bytes wide_22)). Qed.
