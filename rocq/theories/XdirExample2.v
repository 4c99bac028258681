(* A directory with a label, a deleted entry, the file of XdirExample, a stray entry and the end. *)
From Coq Require Import String Ascii.
From Verif Require Import Base Arr LfnSpec FutfModel XdirModel XdirSpec XdirExample.
Open Scope Z_scope.

Definition ent (t : Z) : list Z := t :: repeat 1 31.
Definition items2 : list item := [Other (ent 131); Other (ent 5); File name e_h e_s e_names; Other (ent 64)].
Definition dir2 : list (list Z) := concat (map entries items2) ++ [repeat 0 32; ent 133].

Lemma ent_ok t : 0 <= t < 256 -> entry_ok (ent t).
Proof. intros H. split; [reflexivity|]. constructor; [exact H|]. apply Forall_forall. intros x I. apply repeat_spec in I. subst x. unfold byte_ok. lia. Qed.

Lemma name_set : file_set name e_h e_s e_names.
Proof.
  destruct set_ok as (A & B & C & D & E & _ & _). destruct units_ok as (U & _). constructor; [exact A|exact B|exact C|exact D|exact E|exact U| | |].
  - vm_compute; reflexivity.
  - vm_compute; reflexivity.
  - assert (X : forallb (fun j => let i := (32 * (j / 15) + 2 + 2 * (j mod 15))%nat in at_ (concat e_names) i + 256 * at_ (concat e_names) (S i) =? nth j name 0) (seq 0 (length name)) = true) by (vm_compute; reflexivity).
    intros j J. rewrite forallb_forall in X. apply Z.eqb_eq. apply (X j). apply in_seq. lia.
Qed.

Lemma dir2_ok : directory items2 dir2.
Proof.
  split.
  - apply Forall_cons; [split; [apply ent_ok; lia|split; discriminate]|]. apply Forall_cons; [split; [apply ent_ok; lia|split; discriminate]|].
    apply Forall_cons; [exact name_set|]. apply Forall_cons; [split; [apply ent_ok; lia|split; discriminate]|]. apply Forall_nil.
  - exists [repeat 0 32; ent 133]. split; [reflexivity|]. intros e [= <-]. split; [|reflexivity]. apply entry_dec; reflexivity.
Qed.

Definition place (r : res xread) : option nat := match r with Ok (Xfound k _ _) => Some k | _ => None end.
Lemma search2 : directory items2 dir2 /\ place (dir_find_x dir2 (repeat 9 608) (units "README.txt with A long name" ++ [0])) = Some 2%nat /\
  dir_find_x dir2 (repeat 9 608) (units "README.txt" ++ [0]) = Ok Xnone.
Proof. split; [exact dir2_ok|]. split; vm_compute; reflexivity. Qed.

(* listed: the one file; with a changed byte in the set: an error *)
Definition shown (r : res (list (nat * list Z) * bool)) : option (list nat * bool) := match r with Ok (l, ok) => Some (map fst l, ok) | _ => None end.
Lemma list2 : directory items2 dir2 /\ shown (readdir_x dir2 (repeat 9 608)) = Some ([2%nat], true) /\
  shown (readdir_x (set_at dir2 4 (set_at (nth 4 dir2 []) 6 100)) (repeat 9 608)) = Some ([], false).
Proof. split; [exact dir2_ok|]. split; vm_compute; reflexivity. Qed.

(* removed: the types are 5, 64 and 65 then, and the file is not found again *)
Definition dir3 : list (list Z) := match unlink_x dir2 (repeat 9 608) (units "readme.txt with a long name" ++ [0]) with Ok (t, _) => t | _ => [] end.
Lemma remove2 : directory ([Other (ent 131); Other (ent 5)] ++ File name e_h e_s e_names :: [Other (ent 64)]) dir2 /\
  map (fun e => at_ e 0) dir3 = [131; 5; 5; 64; 65; 65; 64; 0; 133] /\ dir_find_x dir3 (repeat 9 608) (name ++ [0]) = Ok Xnone.
Proof. split; [exact dir2_ok|]. split; vm_compute; reflexivity. Qed.

(* a second file goes where the first was removed; with no room for it nothing is written *)
Definition entry_dec_b (e : list Z) : bool := (length e =? 32)%nat && forallb (fun x => (0 <=? x) && (x <? 256)) e && negb (at_ e 0 =? 0) && negb (at_ e 0 =? 133).
Definition old3 : list item := [Other (ent 131); Other (ent 5); Other (unused e_h); Other (unused e_s)] ++ map Other (map unused e_names) ++ [Other (ent 64)].
Definition types (r : res (option (list (list Z)))) : option (list Z) := match r with Ok (Some t) => Some (map (fun e => at_ e 0) t) | _ => None end.
Lemma new2 : Forall item_ok old3 /\ Forall zero [repeat 0 32] /\ Forall unit_ok' name /\ (1 <= length name <= 255)%nat /\ meta_in 32 3 5 1000 1234567 /\
  types (new_x (concat (map entries old3) ++ [repeat 0 32]) junk (name ++ [0]) facts) = Some [131; 133; 192; 193; 193; 65; 64; 0] /\
  new_x dir1 junk (repeat 65 60 ++ [0]) facts = Ok None.
Proof.
  split.
  { assert (A : forall e, entry_dec_b e = true -> item_ok (Other e)).
    { intros e H. unfold entry_dec_b in H. apply andb_prop in H as (H & H3). apply andb_prop in H as (H & H2). apply andb_prop in H as (H0 & H1).
      split; [now apply entry_dec|]. lia. }
    repeat (apply Forall_cons; [apply A; vm_compute; reflexivity|]). apply Forall_nil. }
  split; [constructor; [split; [apply entry_dec; reflexivity|reflexivity]|constructor]|].
  destruct units_ok as (U1 & U2 & U3). split; [exact U1|]. split; [exact U2|]. split; [exact U3|]. split; vm_compute; reflexivity.
Qed.
