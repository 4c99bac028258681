From Coq Require Import String.
From Verif Require Import Base Arr ArrLemmas CrcSpec LoadModel LoadSpec LoadProof LoadProof2 LoadProof3 ExecModel ExecSpec ExecProof.
Open Scope Z_scope.

(* With what the file means instead of the loader's steps. *)
Theorem run_program b64 machine bindings w path argv fd f imps e got : w_open w path = fd -> 0 < fd -> w_fstat w path = true ->
  w_map w path = Some f -> w_stack w = true -> w_push w = true -> Forall byte f ->
  program b64 machine f imps -> entry_point b64 f e -> Forall2 (resolves bindings) imps got ->
  run_file b64 machine bindings w path argv = Ok [Open path fd; Map f; Push; Call e got argv; Unmap; Close fd; Pop].
Proof.
  intros O F S M K P FB PR E R.
  assert (L : load_invoke b64 machine f bindings = Ok (inr (Called e got))) by (apply called_iff; [exact FB | exists imps; auto]).
  unfold load_invoke in L. apply bind_ok in L as ([er|(rel & num)] & C & L); [discriminate|].
  apply bind_ok in L as (x & I & L). injection L as ->. eapply run_called; eauto.
Qed.

Theorem run_unresolved b64 machine bindings w path argv fd f imps l : w_open w path = fd -> 0 < fd -> w_fstat w path = true ->
  w_map w path = Some f -> w_stack w = true -> w_push w = true -> Forall byte f ->
  program b64 machine f imps -> missing bindings imps l -> l <> [] ->
  run_file b64 machine bindings w path argv = Ok [Open path fd; Map f; Push; Say (MMissing l); Unmap; Close fd; Pop].
Proof.
  intros O F S M K P FB PR R N.
  assert (L : load_invoke b64 machine f bindings = Ok (inr (Missing l))) by (apply missing_iff; [exact FB | split; [exact N|]; exists imps; auto]).
  unfold load_invoke in L. apply bind_ok in L as ([er|(rel & num)] & C & L); [discriminate|].
  apply bind_ok in L as (x & I & L). injection L as ->.
  unfold run_file, load, load_arch. rewrite O, S, M. replace (fd <? 0) with false by lia. cbn [negb].
  rewrite C. cbn [bind]. rewrite K, P. cbn [negb]. rewrite I. cbn [bind]. unfold unload_arch. replace (0 <? fd) with true by lia. reflexivity.
Qed.

(* Nothing is called unless all of the above holds. *)
Theorem run_only b64 machine bindings w path argv tr e got args : (forall f, w_map w path = Some f -> Forall byte f) ->
  run_file b64 machine bindings w path argv = Ok tr -> In (Call e got args) tr ->
  args = argv /\ exists f imps, w_map w path = Some f /\ program b64 machine f imps /\ entry_point b64 f e /\ Forall2 (resolves bindings) imps got.
Proof.
  intros FB. unfold run_file, load, load_arch. destruct (w_open w path <? 0) eqn:E.
  { cbn. intros H. apply (f_equal (fun r => match r with Ok t => t | _ => [] end)) in H. subst tr. 
    unfold unload_arch. destruct (0 <? w_open w path); cbn; intuition discriminate. }
  destruct (w_fstat w path); cbn [negb].
  2:{ cbn. intros H. injection H as <-. unfold unload_arch. destruct (0 <? w_open w path); cbn; intuition discriminate. }
  destruct (w_map w path) as [f|] eqn:M.
  2:{ cbn. intros H. injection H as <-. unfold unload_arch. destruct (0 <? w_open w path); cbn; intuition discriminate. }
  specialize (FB f eq_refl). destruct (check_file b64 machine f) as [[er|(rel & num)]| |] eqn:C; cbn [bind]; try discriminate.
  { cbn. intros H. injection H as <-. unfold unload_arch. destruct (0 <? w_open w path); cbn; intuition discriminate. }
  destruct (w_stack w); cbn [negb].
  2:{ cbn. intros H. injection H as <-. cbn. intuition discriminate. }
  destruct (w_push w); cbn [negb].
  2:{ cbn. intros H. injection H as <-. cbn. intuition discriminate. }
  destruct (invoke b64 f bindings rel num) as [[l|e' g]| |] eqn:I; cbn [bind]; try discriminate; intros H; injection H as <-.
  { unfold unload_arch. destruct (0 <? w_open w path); cbn; intuition discriminate. }
  intros IN. assert (X : e' = e /\ g = got /\ argv = args).
  { unfold unload_arch in IN. destruct (0 <? w_open w path); cbn in IN; intuition congruence. }
  destruct X as (-> & -> & ->). split; [reflexivity|]. exists f.
  assert (L : load_invoke b64 machine f bindings = Ok (inr (Called e got))) by (unfold load_invoke; rewrite C; cbn [bind]; rewrite I; reflexivity).
  apply called_iff in L as (imps & L); [|exact FB]. exists imps. tauto.
Qed.

Definition leak_world (fst : bool) (mp : option (list Z)) (st ps : bool) : world :=
  World (fun _ => true) (fun _ => 3) (fun _ => fst) (fun _ => mp) (fun _ => true) st ps.

(* No stack or no heap left: descriptor and mapping stay. *)
Lemma leak st ps path argv : st && ps = false ->
  exists tr, run_file false 40 small_chain (leak_world true (Some small_file) st ps) path argv = Ok tr /\
    count (opens 3) tr = 1%nat /\ count (closes 3) tr = 0%nat /\ count is_map tr = 1%nat /\ count is_unmap tr = 0%nat.
Proof.
  intros H. destruct st, ps; try discriminate; eexists; (split; [vm_compute; reflexivity|]); repeat split.
Qed.

Lemma leaks_exist : ~ (forall b64 machine bindings w path argv tr, 0 < w_open w path -> w_fstat w path = true -> w_map w path <> None ->
  run_file b64 machine bindings w path argv = Ok tr -> balanced tr).
Proof.
  intros H. destruct (leak false true [97] [[97]] eq_refl) as (tr & R & O & C & _).
  destruct (H false 40 small_chain (leak_world true (Some small_file) false true) [97] [[97]] tr) as (B & _);
    [reflexivity|reflexivity|discriminate|exact R|]. specialize (B 3). congruence.
Qed.

(* fstat or mmap fails: closed twice, and the failure value unmapped. *)
Lemma twice b64 machine bindings fst path argv :
  exists tr, run_file b64 machine bindings (leak_world fst None true true) path argv = Ok tr /\
    count (opens 3) tr = 1%nat /\ count (closes 3) tr = 2%nat /\ count is_unmap tr = (if fst then 1 else 0)%nat /\ count is_map tr = 0%nat.
Proof. destruct fst; eexists; (split; [vm_compute; reflexivity|]); repeat split. Qed.

Lemma exec_means b64 machine bindings w (junk name : list Z) args m : name <> [] -> ~ In 0 name -> (length name + 16 <= length junk)%nat ->
  means (w_stat w) name m ->
  exec b64 machine bindings w junk (name :: args) =
    match m with
    | MeansDrive => Ok (Chdrive name :: if w_drive w name then [] else [Say MDrive])
    | MeansBuiltin c => Ok [Builtin c (name :: args)]
    | MeansFile p => run_file b64 machine bindings w p (name :: args)
    | MeansNothing => Ok [Say MNotFound]
    end.
Proof. apply exec_ok. Qed.
