(* C37, C64: the program loader. *)
From Verif Require Import Base Arr CrcSpec LoadModel LoadSpec LoadProof LoadProof2 LoadProof3.
Open Scope Z_scope.

(* The entry point is called exactly for program files all of whose imports
   resolve, and the table then holds their addresses in order. *)
Theorem C37_called : forall b64 machine f chain e got, Forall byte f ->
  load_invoke b64 machine f chain = Ok (inr (Called e got)) <->
  exists imps, program b64 machine f imps /\ entry_point b64 f e /\ Forall2 (resolves chain) imps got.
Proof. exact called_iff. Qed.
Print Assumptions C37_called.

Theorem C37_missing : forall b64 machine f chain l, Forall byte f ->
  load_invoke b64 machine f chain = Ok (inr (Missing l)) <->
  l <> [] /\ exists imps, program b64 machine f imps /\ missing chain imps l.
Proof. exact missing_iff. Qed.
Print Assumptions C37_missing.

(* A program file never fails in another way. *)
Theorem C37_program_runs : forall b64 machine f imps e chain, Forall byte f -> program b64 machine f imps -> entry_point b64 f e ->
  (exists got, load_invoke b64 machine f chain = Ok (inr (Called e got)) /\ length got = length imps) \/
  (exists l, load_invoke b64 machine f chain = Ok (inr (Missing l)) /\ l <> []).
Proof. exact program_runs. Qed.
Print Assumptions C37_program_runs.

Theorem C37_refused : forall b64 machine f chain e, Forall byte f ->
  load_invoke b64 machine f chain = Ok (inl e) -> forall imps, ~ program b64 machine f imps.
Proof. exact refused. Qed.
Print Assumptions C37_refused.

Example C37_example :
  Forall byte small_file /\ program false 40 small_file [Named puts; Defined 4096] /\
  load_invoke false 40 small_file small_chain = Ok (inr (Called 4096 [Extern 4711; Local 4096])) /\
  load_invoke false 40 small_file [[(puts, 0)]] = Ok (inr (Missing [puts])) /\
  load_invoke false 62 small_file small_chain = Ok (inl BadMachine).
Proof.
  split; [exact small_bytes|]. split; [exact small_imports|]. split; [exact small_run|]. split; [exact small_lost|].
  vm_compute. reflexivity.
Qed.

(* A damaged file is read outside its bounds: headers, names; or divided by 0. *)
Theorem C64_reads_inside_refuted :
  (forall chain, load_invoke false 40 far_file chain = Ub) /\ (forall chain, load_invoke false 40 wild_file chain = Ub) /\
  exists f, Forall byte f /\ good_header false 40 f /\ (forall chain, load_invoke false 40 f chain = Ub) /\
    exists g, good_header false 40 g /\ Forall byte g /\ firstn 128 g = firstn 128 f /\ length g = length f /\
      (forall chain, load_invoke false 40 g chain <> Ub).
Proof. exact (conj far_ub (conj wild_ub outside)). Qed.
Print Assumptions C64_reads_inside_refuted.
