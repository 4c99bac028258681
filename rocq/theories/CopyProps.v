(* The properties of cp. *)
From Verif Require Import Base CopyModel CopySpec CopyProof4 CopyProof3.
Open Scope Z_scope.

(* C125: one file. *)
Theorem C125_question luck fuel o w s d p q data old : sane w -> leads w s p -> leads w d q -> apart p q -> reliable luck -> force o = false ->
  find (fs w) p = Some (F data) -> find (fs w) q = Some (F old) -> free w q -> (length (opened w) + 2 <= LOCKS)%nat ->
  exists w', fpm_cmd_copy luck fuel o w [s; d] = Ok w' /\ closed w w' /\
    (hd 0 (keys w) = 121 \/ hd 0 (keys w) = 89 -> copied (fs w) (fs w') p q /\ find (fs w') q = Some (F data)) /\
    (~ (hd 0 (keys w) = 121 \/ hd 0 (keys w) = 89) -> fs w' = fs w /\ out w' = Kept :: Ask d :: out w).
Proof. exact (cmd_file_asked luck fuel o w s d p q data old). Qed.
Print Assumptions C125_question.
Theorem C125_onto_itself luck fuel o w s d p data : sane w -> leads w s p -> leads w d p -> find (fs w) p = Some (F data) ->
  exists w', fpm_cmd_copy luck fuel o w [s; d] = Ok w' /\ fs w' = fs w /\ closed w w' /\
    (reliable luck -> force o = true -> (length (opened w) < LOCKS)%nat -> out w' = Failed d LOCKED :: out w).
Proof. exact (cmd_self luck fuel o w s d p data). Qed.
Print Assumptions C125_onto_itself.
Theorem C125_directory_without_r luck fuel o w s d p q : sane w -> leads w s p -> leads w d q -> reliable luck -> recursive o = false ->
  find (fs w) p = Some D -> find (fs w) q <> Some D ->
  exists w', fpm_cmd_copy luck fuel o w [s; d] = Ok w' /\ fs w' = fs w /\ closed w w' /\ out w' = NeedsR s :: out w.
Proof. exact (cmd_no_r luck fuel o w s d p q). Qed.
Print Assumptions C125_directory_without_r.

(* C126: files and whole trees, to a name or into a directory. *)
Theorem C126_to_name luck fuel o w s d p q : sane w -> leads w s p -> leads w d q -> reliable luck -> ready fuel o w p q ->
  find (fs w) q <> Some D \/ slash_end s /\ slash_end d ->
  exists w', fpm_cmd_copy luck fuel o w [s; d] = Ok w' /\ copied (fs w) (fs w') p q /\ closed w w' /\ shown o w w'.
Proof. exact (cmd_single_ok luck fuel o w s d p q). Qed.
Print Assumptions C126_to_name.
Theorem C126_into_directory luck fuel o w ss d ps c : sane w -> into w d c -> given w ss ps -> reliable luck -> ss <> [] ->
  NoDup (map snd ps) -> (forall p m p' m', In (p, m) ps -> In (p', m') ps -> apart p (c ++ [m'])) ->
  (forall p m, In (p, m) ps -> ready fuel o w p (c ++ [m])) ->
  exists w', fpm_cmd_copy luck fuel o w (ss ++ [d]) = Ok w' /\ copied_all (fs w) (fs w') ps c /\ closed w w' /\ shown o w w'.
Proof. exact (to_directory_ok luck fuel o w ss d ps c). Qed.
Print Assumptions C126_into_directory.

(* C127: whatever fails, only the destination changes, and nothing in it is gone. *)
Theorem C127_confined luck fuel o w ss d ps c : sane w -> leads w d c -> given w ss ps ->
  (forall p m, In (p, m) ps -> apart p c /\ (size (fs w) p < fuel)%nat) ->
  exists w', fpm_cmd_copy luck fuel o w (ss ++ [d]) = Ok w' /\ confined (fs w) (fs w') c /\ sane w' /\ cwd w' = cwd w /\
    exists leaks, opened w' = leaks ++ opened w /\ Forall (under c) leaks.
Proof. exact (cmd_confined luck fuel o w ss d ps c). Qed.
Print Assumptions C127_confined.

(* C128: a slash behind the source. *)
Theorem C128_defined_refuted : ~ (forall fuel o w s d c, sane w -> leads w s c -> leads w d [nb] -> exists w', fpm_cmd_copy fine fuel o w [s; d] = Ok w').
Proof. exact slash_no_end. Qed.
Print Assumptions C128_defined_refuted.
Theorem C128_place_refuted : exists w', fpm_cmd_copy fine 9 rec (w_of wf) [[120]; [102; 47]; [98; 47]] = Ok w' /\
  find (fs w') [nb; ng] = None /\ find (fs w') [nb; nx; ng] = Some (F [1; 2; 3]) /\ out w' = [].
Proof. exact slash_wrong_name. Qed.
Print Assumptions C128_place_refuted.
Theorem C128_empty_refuted : fpm_cmd_copy fine 9 rec (w_of wf) [[]; [98]] = Ub.
Proof. exact empty_source. Qed.
Print Assumptions C128_empty_refuted.

(* C129: errors without a message. *)
Theorem C129_readdir_refuted : exists k w', fpm_cmd_copy (once k) 9 rec (w_of wf) [[102]; [99]] = Ok w' /\
  find (fs w') [[99]; ng] = None /\ out w' = [].
Proof. exact silent_readdir. Qed.
Print Assumptions C129_readdir_refuted.
Theorem C129_close_refuted : exists k w', fpm_cmd_copy (once k) 9 (Opts false true true) (w_of wf) [[102]; [99]] = Ok w' /\
  find (fs w') [[99]; ng] = Some (F []) /\ out w' = [Copied [102; 47; 103] [99; 47; 103]] /\ opened w' = [[[99]; ng]].
Proof. exact silent_close. Qed.
Print Assumptions C129_close_refuted.

(* C130: a directory into itself. *)
Theorem C130_into_itself_refuted : exists w', fpm_cmd_copy fine 40 rec (w_of wf) [[120]; [120; 47; 98]] = Ok w' /\
  find (fs w') (nx :: times 17 nb) = Some D /\ (exists s, out w' = [Failed s TOO_MANY]) /\ ~ copied wf (fs w') [nx] [nx; nb].
Proof. exact into_itself. Qed.
Print Assumptions C130_into_itself_refuted.
