(* C48: a file open for writing is open exactly once. *)
From Verif Require Import Base LockModel LockSpec LockProof.
Open Scope Z_scope.

(* Every history from start-up gets the answers of the ideal table; a writer is
   always alone, and no more than 16 objects are open. *)
Theorem C48_history : forall os, all_allowed ideal_start os ->
  snd (run start os) = snd (ideal_run ideal_start os) /\
  exclusive (sessions (fst (ideal_run ideal_start os))) /\ (n_objects (sessions (fst (ideal_run ideal_start os))) <= 16)%nat.
Proof. exact history. Qed.
Print Assumptions C48_history.
(* Even without the check before it, inc_share gives no lock for writing on an object
   which is open. *)
Theorem C48_backstop : forall files fs clu ofs acc, 1 <= acc ->
  (exists f, In f files /\ s_fs f = fs /\ s_clu f = clu /\ s_ofs f = ofs) ->
  (forall f, In f files -> s_fs f = fs -> s_clu f = clu -> s_ofs f = ofs -> s_ctr f <> 0) ->
  inc_share files (mkKey fs clu ofs) acc = (files, 0).
Proof. exact inc_backstop. Qed.
Print Assumptions C48_backstop.
Example C48_backstop_example : inc_share [mkSem 1 5 64 2; mkSem 0 0 0 0] (mkKey 1 5 64) 1 = ([mkSem 1 5 64 2; mkSem 0 0 0 0], 0) /\
  snd (inc_share [mkSem 1 5 64 2; mkSem 0 0 0 0] (mkKey 1 5 96) 1) = 2.
Proof. vm_compute. auto. Qed.
(* With 256 readers the count is the mark of a writer: the next reader is refused,
   and when one of the 256 closes, a writer is let in beside 255 readers. *)
Theorem C48_readers_refuted :
  snd (run start (repeat (Open obj1 false) 256 ++ [Close 0; Open obj1 true])) = repeat FR_OK 258 /\
  nth 256 (snd (run start (repeat (Open obj1 false) 257))) FR_OK = FR_LOCKED.
Proof. exact readers_overflow. Qed.
Print Assumptions C48_readers_refuted.
(* An open directory is not locked against removal: f_opendir and f_unlink use
   different keys for it. *)
Theorem C48_directory_refuted : exists fs own parent ofs, own <> 0 /\ parent <> own /\
  snd (run start [OpenDir fs own; Delete (mkKey fs parent ofs)]) = [FR_OK; FR_OK].
Proof. exact dir_removable. Qed.
Print Assumptions C48_directory_refuted.
(* Mount identifiers wrap: after 65536 remounts a stale handle can unlock a file
   open for writing, which can then be deleted. *)
Theorem C48_stale_refuted : exists n other,
  snd (run start ([Open obj1 false; Unmount 1; Mount 1] ++ cycles n ++ [Open other true; Close 0; Delete other])) =
  [FR_OK; FR_OK; FR_OK] ++ repeat FR_OK (2 * n) ++ [FR_OK; FR_OK; FR_OK].
Proof. exact stale_handle. Qed.
Print Assumptions C48_stale_refuted.

(* Two readers; a writer waits for both to close; the file cannot be deleted while
   open; a directory and the root directory; unmounting closes all. *)
Definition demo : list op :=
  [Open obj1 false; Open obj1 false; Open obj1 true; Close 0; Delete obj1; Close 1; Open obj1 true; Open obj1 false;
   OpenDir 1 7; OpenDir 1 0; Close 5; Close 5; Create (mkKey 2 3 96); Unmount 1; Close 3; Delete obj1; Close 7].
Example C48_example : all_allowed ideal_start demo /\
  snd (run start demo) = [FR_OK; FR_OK; FR_LOCKED; FR_OK; FR_LOCKED; FR_OK; FR_OK; FR_LOCKED; FR_OK; FR_OK; FR_OK;
    FR_INVALID_OBJECT; FR_OK; FR_OK; FR_INVALID_OBJECT; FR_OK; FR_OK].
Proof.
  split; [|vm_compute; reflexivity]. cbn [all_allowed demo].
  repeat match goal with
  | |- _ /\ _ => split
  | |- True => exact I
  | |- Z.of_nat _ < 65535 => vm_compute; reflexivity
  | |- (_ < 255)%nat => vm_compute; lia
  | |- _ <> 0 => vm_compute; discriminate
  | |- _ = _ => vm_compute; reflexivity
  | |- allowed _ _ => unfold allowed
  end.
Qed.
