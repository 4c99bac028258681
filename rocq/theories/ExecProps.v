(* C38, C65, C66: running commands. *)
From Coq Require Import String.
From Verif Require Import Base Arr CrcSpec LoadModel LoadSpec LoadProof3 ExecModel ExecSpec ExecProof ExecProof2.
Open Scope Z_scope.

(* Every name has exactly one meaning, and fpm_exec acts on it.  [junk]: the
   uninitialised array. *)
Theorem C38_meaning : forall b64 machine bindings w (junk name : list Z) args m,
  name <> [] -> ~ In 0 name -> (length name + 16 <= length junk)%nat -> means (w_stat w) name m ->
  exec b64 machine bindings w junk (name :: args) =
    match m with
    | MeansDrive => Ok (Chdrive name :: if w_drive w name then [] else [Say MDrive])
    | MeansBuiltin c => Ok [Builtin c (name :: args)]
    | MeansFile p => run_file b64 machine bindings w p (name :: args)
    | MeansNothing => Ok [Say MNotFound]
    end.
Proof. exact exec_means. Qed.
Print Assumptions C38_meaning.

Theorem C38_one_meaning : forall st name, exists m, means st name m /\ forall m', means st name m' -> m' = m.
Proof. exact (fun st name => match means_total st name with ex_intro _ m H => ex_intro _ m (conj H (fun m' H' => means_unique st name m' m H' H)) end). Qed.
Print Assumptions C38_one_meaning.

Example C38_example : means (fun _ => true) (str "LS") (MeansBuiltin CDir) /\ means (fun _ => true) (str "sd:") MeansDrive /\
  means (fun p => Zs_eqb p (str "flash:/bin/rz.exe")) (str "rz") (MeansFile (str "flash:/bin/rz.exe")) /\
  means (fun _ => true) (str "cat2") (MeansFile (str "cat2.exe")) /\ means (fun _ => false) (str "a.out") (MeansFile (str "a.out")).
Proof.
  assert (D : forall name, last name 0 <> 58 -> ~ is_drive name) by (intros name L (p & ->); apply L; apply last_last).
  assert (B : forall name, find_cmd cmd_tab name = None -> forall c, ~ is_builtin name c).
  { intros name H c C. apply find_cmd_iff in C. congruence. }
  split; [split; [now apply D | apply find_cmd_iff; reflexivity]|].
  split; [now exists (str "sd")|].
  assert (P : forall name, existsb (fun x => (x =? 47) || (x =? 46)) name = false -> ~ is_path name).
  { intros name H [I|I]; apply Bool.not_true_iff_false in H; apply H, existsb_exists; eexists; (split; [exact I|reflexivity]). }
  split; [|split].
  - split; [now apply D|]. split; [now apply B|]. right. right. split; [now apply P|]. split; [reflexivity|]. split; reflexivity.
  - split; [now apply D|]. split; [now apply B|]. right. left. split; [now apply P|]. split; reflexivity.
  - split; [now apply D|]. split; [now apply B|]. left. split; [|reflexivity]. right. cbn. tauto.
Qed.

(* A program is called once, with the arguments given and everything it took is
   given back in the opposite order. *)
Theorem C65_program : forall b64 machine bindings w path argv fd f imps e got,
  w_open w path = fd -> 0 < fd -> w_fstat w path = true -> w_map w path = Some f -> w_stack w = true -> w_push w = true ->
  Forall byte f -> program b64 machine f imps -> entry_point b64 f e -> Forall2 (resolves bindings) imps got ->
  run_file b64 machine bindings w path argv = Ok [Open path fd; Map f; Push; Call e got argv; Unmap; Close fd; Pop].
Proof. exact run_program. Qed.
Print Assumptions C65_program.

Theorem C65_unresolved : forall b64 machine bindings w path argv fd f imps l,
  w_open w path = fd -> 0 < fd -> w_fstat w path = true -> w_map w path = Some f -> w_stack w = true -> w_push w = true ->
  Forall byte f -> program b64 machine f imps -> missing bindings imps l -> l <> [] ->
  run_file b64 machine bindings w path argv = Ok [Open path fd; Map f; Push; Say (MMissing l); Unmap; Close fd; Pop].
Proof. exact run_unresolved. Qed.
Print Assumptions C65_unresolved.

Theorem C65_nothing_else_called : forall b64 machine bindings w path argv tr e got args,
  (forall f, w_map w path = Some f -> Forall byte f) ->
  run_file b64 machine bindings w path argv = Ok tr -> In (Call e got args) tr ->
  args = argv /\ exists f imps, w_map w path = Some f /\ program b64 machine f imps /\ entry_point b64 f e /\ Forall2 (resolves bindings) imps got.
Proof. exact run_only. Qed.
Print Assumptions C65_nothing_else_called.

(* Also for refused files, if there is stack and heap. *)
Theorem C65_balanced : forall b64 machine bindings w path argv tr, 0 <> w_open w path ->
  (0 < w_open w path -> w_fstat w path = true /\ exists f, w_map w path = Some f) -> w_stack w = true -> w_push w = true ->
  run_file b64 machine bindings w path argv = Ok tr -> balanced tr.
Proof. exact run_balanced. Qed.
Print Assumptions C65_balanced.

Theorem C65_always_balanced_refuted :
  ~ (forall b64 machine bindings w path argv tr, 0 < w_open w path -> w_fstat w path = true -> w_map w path <> None ->
     run_file b64 machine bindings w path argv = Ok tr -> balanced tr).
Proof. exact leaks_exist. Qed.
Print Assumptions C65_always_balanced_refuted.

Example C65_example : run_file false 40 small_chain (leak_world true (Some small_file) true true) (str "a.exe") [str "a"; str "b"] =
  Ok [Open (str "a.exe") 3; Map small_file; Push; Call 4096 [Extern 4711; Local 4096] [str "a"; str "b"]; Unmap; Close 3; Pop].
Proof. vm_compute. reflexivity. Qed.

Theorem C66_closed_once_refuted : forall b64 machine bindings fst path argv,
  exists tr, run_file b64 machine bindings (leak_world fst None true true) path argv = Ok tr /\
    count (opens 3) tr = 1%nat /\ count (closes 3) tr = 2%nat /\ count is_unmap tr = (if fst then 1 else 0)%nat /\ count is_map tr = 0%nat.
Proof. exact twice. Qed.
Print Assumptions C66_closed_once_refuted.
