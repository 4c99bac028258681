(* Witnesses for the refutations and examples of AllocProps, and a few
   consequences assembled from AllocProof4. *)
From Verif Require Import Base AllocModel AllocSpec AllocExec AllocProof3 AllocProof4.
Open Scope Z_scope.

Lemma calls_total P m start size : heap_ok P m start size ->
  (exists s, heap_init P m start size = Ok s) /\
  forall h s g o, reachable P m start size h s g -> valid P s g o ->
  exists s' r, step P s o = Ok (s', r).
Proof.
  intros HO. split; [apply init_ok; [apply HO|exact HO]|].
  intros h s g o. apply (total P m start size HO).
Qed.

Lemma all_freed_one P m start size h s g fl : heap_ok P m start size ->
  reachable P m start size h s g -> live g = [] -> free_blocks P s fl ->
  fl = [(heap_start (sctx s), heap_size (sctx s))].
Proof.
  intros HO R L F. apply (all_freed P m start size HO h s g); auto. apply (heap_size_pos P m start size HO h s g R).
Qed.

Lemma all_freed_alloc P m start size h s g o n s' r : heap_ok P m start size ->
  reachable P m start size h s g -> live g = [] -> is_alloc o n -> req_ok P n ->
  chunk_size P n <= heap_size (sctx s) -> step P s o = Ok (s', r) -> r = heap_start (sctx s) + P.
Proof.
  intros HO R L Ho Hn Hc E.
  destruct (available_exact P m start size HO h s g R) as (fl & F & _).
  pose proof (all_freed_one _ _ _ _ _ _ _ _ HO R L F) as ->.
  destruct (first_fit P m start size HO h s g o n s' r _ R Ho Hn E F) as [(_ & _ & H) | (_ & l1 & a & k & l2 & Efl & _ & _ & ->)].
  - inversion H as [|? ? H1 _]; subst. cbn in H1. lia.
  - destruct l1 as [|x l1]; cbn in Efl; [injection Efl as <- <- _; auto|].
    injection Efl as _ Efl. destruct l1; discriminate.
Qed.

(* A 32-bit heap of 4096 bytes after a history that splits, merges, moves and
   truncates blocks; three blocks are live. *)
Definition ex_hist : list op :=
  [OAlloc 10; ODirty 20; OAlloc 30; OPoke 116 7; OFree 84; ORealloc 108 100; OTruncate 144 8;
   OAlloc 400; OAlloc 5; OFree 68].

Definition ex_mem : mem := mem0 64 4160.

Fixpoint eqbl (a b : list Z) : bool :=
  match a, b with
  | [], [] => true
  | x :: a', y :: b' => (x =? y) && eqbl a' b'
  | _, _ => false
  end.

Lemma eqbl_eq a : forall b, eqbl a b = true -> a = b.
Proof.
  induction a as [|x a IH]; destruct b; cbn; try discriminate; auto.
  rewrite andb_true_iff, Z.eqb_eq. intros [-> H]. f_equal; auto.
Qed.

Lemma reachable_example_proof : exists s g, reachable 4 ex_mem 64 4096 ex_hist s g /\
  live g = [84; 156; 144] /\ heap_available (sctx s) = 3668.
Proof.
  destruct (tryb_reach 4 ex_mem 64 4096 ex_hist
    (fun s g => eqbl (live g) [84; 156; 144] && (heap_available (sctx s) =? 3668))) as (s & g & R & E).
  - vm_compute. reflexivity.
  - rewrite andb_true_iff, Z.eqb_eq in E. destruct E as [E1 E2]. apply eqbl_eq in E1. eauto.
Qed.

(* Run one more call and test its outcome. *)
Definition thenb P o (q : st -> Z -> bool) (s : st) (g : ghost) : bool :=
  match step P s o with Ok (s', r) => q s' r | _ => false end.

Lemma thenb_ok P o q s g : thenb P o q s g = true -> exists s' r, step P s o = Ok (s', r) /\ q s' r = true.
Proof. unfold thenb. destruct (step P s o) as [[s' r]| |]; try discriminate. eauto. Qed.

Definition sizeb P (s : st) p k : bool :=
  negb (p =? 0) && match size_of P (sm s) p with Ok n => n =? k | _ => false end.

Lemma sizeb_ok P s p k : sizeb P s p k = true -> usable P (sm s) p k.
Proof.
  unfold sizeb, usable. rewrite andb_true_iff, negb_true_iff, Z.eqb_neq. intros [H E]. split; auto.
  destruct (size_of P (sm s) p); try discriminate. apply Z.eqb_eq in E. congruence.
Qed.

Lemma huge_one P n : (P = 4 /\ n = 2 ^ 32 - 1) \/ (P = 8 /\ n = 2 ^ 32) ->
  exists s g s1 r, reachable P ex_mem 64 4096 [] s g /\ step P s (ODirty n) = Ok (s1, r) /\ usable P (sm s1) r 0.
Proof.
  intros H.
  destruct (tryb_reach P ex_mem 64 4096 [] (thenb P (ODirty n) (fun s1 r => sizeb P s1 r 0))) as (s & g & R & E).
  - destruct H as [[-> ->] | [-> ->]]; vm_compute; reflexivity.
  - apply thenb_ok in E. destruct E as (s1 & r & E & E2). apply sizeb_ok in E2. eauto 10.
Qed.

Lemma huge_request :
  (exists s g s1 r, reachable 4 ex_mem 64 4096 [] s g /\
     step 4 s (ODirty (2 ^ 32 - 1)) = Ok (s1, r) /\ usable 4 (sm s1) r 0) /\
  (exists s g s1 r, reachable 8 ex_mem 64 4096 [] s g /\
     step 8 s (ODirty (2 ^ 32)) = Ok (s1, r) /\ usable 8 (sm s1) r 0).
Proof. split; apply huge_one; auto. Qed.

Lemma huge_truncate :
  exists s g s1 r, reachable 8 ex_mem 64 4096 [OAlloc 200] s g /\
    In 72 (live g) /\ usable 8 (sm s) 72 200 /\
    step 8 s (OTruncate 72 (2 ^ 32)) = Ok (s1, r) /\ usable 8 (sm s1) 72 0.
Proof.
  destruct (tryb_reach 8 ex_mem 64 4096 [OAlloc 200]
    (fun s g => memb 72 (live g) && sizeb 8 s 72 200 && thenb 8 (OTruncate 72 (2 ^ 32)) (fun s1 r => sizeb 8 s1 72 0) s g))
    as (s & g & R & E).
  - vm_compute. reflexivity.
  - rewrite !andb_true_iff in E. destruct E as [[E1 E2] E3].
    apply thenb_ok in E3. destruct E3 as (s1 & r & E3 & E4).
    exists s, g, s1, r. eauto 10 using memb_in, sizeb_ok.
Qed.

(* fpm_alloc of such a size then clears far beyond the block. *)
Lemma huge_zeroing :
  exists s g, reachable 4 ex_mem 64 4096 [] s g /\ step 4 s (OAlloc (2 ^ 32 - 1)) = Ub.
Proof.
  destruct (tryb_reach 4 ex_mem 64 4096 []
    (fun s g => match step 4 s (OAlloc (2 ^ 32 - 1)) with Ub => true | _ => false end)) as (s & g & R & E).
  - vm_compute. reflexivity.
  - exists s, g. split; auto. destruct (step 4 s (OAlloc (2 ^ 32 - 1))); auto; discriminate.
Qed.

(* Runs that never drop below depth [d]. *)
Fixpoint execd (P : Z) (d : nat) (s : st) (g : ghost) (h : list op) : option (st * ghost) :=
  match h with
  | [] => Some (s, g)
  | o :: h' =>
      if validb P s g o then
        match step P s o with
        | Ok (s', r) =>
            if (d <=? length (outer (after g o r)))%nat then execd P d s' (after g o r) h' else None
        | _ => None
        end
      else None
  end.

Lemma execd_run P d h2 : forall s0 g0 h1 s g s' g', run P d s0 g0 h1 s g -> execd P d s g h2 = Some (s', g') ->
  run P d s0 g0 (h1 ++ h2) s' g'.
Proof.
  induction h2 as [|o h2 IH]; cbn; intros s0 g0 h1 s g s' g' H E.
  - injection E as <- <-. rewrite app_nil_r. auto.
  - destruct (validb P s g o) eqn:V; [|discriminate]. apply validb_ok in V.
    destruct (step P s o) as [[s1 r]| |] eqn:St; try discriminate.
    destruct (Nat.leb_spec d (length (outer (after g o r)))); [|discriminate].
    replace (h1 ++ o :: h2) with ((h1 ++ [o]) ++ h2) by (rewrite <- app_assoc; auto).
    eapply IH; [|exact E]. eapply run_snoc; eauto.
Qed.

Definition ex_nested : list op := [OAlloc 50; OPush; OAlloc 70; OPoke 636 9; OPop; OAlloc 60].

Lemma nested_example : exists s g s1 s2 g2 s3,
  reachable 4 ex_mem 64 4096 ex_hist s g /\
  step 4 s OPush = Ok (s1, 1) /\
  run 4 (S (length (outer g))) s1 (after g OPush 1) ex_nested s2 g2 /\
  length (outer g2) = S (length (outer g)) /\ step 4 s2 OPop = Ok (s3, 0).
Proof.
  destruct (tryb_reach 4 ex_mem 64 4096 ex_hist
    (fun s g => thenb 4 OPush (fun s1 r => (r =? 1) &&
       match execd 4 (S (length (outer g))) s1 (after g OPush 1) ex_nested with
       | Some (s2, g2) => (length (outer g2) =? S (length (outer g)))%nat && thenb 4 OPop (fun _ r => r =? 0) s2 g2
       | None => false
       end) s g)) as (s & g & R & E).
  - vm_compute. reflexivity.
  - apply thenb_ok in E. destruct E as (s1 & r & E1 & E).
    rewrite andb_true_iff, Z.eqb_eq in E. destruct E as [-> E].
    destruct (execd 4 (S (length (outer g))) s1 (after g OPush 1) ex_nested) as [[s2 g2]|] eqn:Ex; [|discriminate].
    rewrite andb_true_iff, Nat.eqb_eq in E. destruct E as [El E].
    apply thenb_ok in E. destruct E as (s3 & r & E3 & Er). apply Z.eqb_eq in Er. subst r.
    exists s, g, s1, s2, g2, s3. repeat (split; [solve [auto]|]). split; auto.
    apply (execd_run 4 _ ex_nested _ _ [] _ _ _ _ (run_nil _ _ _ _) Ex).
Qed.
