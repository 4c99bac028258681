From Verif Require Import Base CrcSpec FutfModel FutfSpec FutfProof LfnModel LfnSpec LfnProof FdirModel FdirSpec FdirProof FdirProof3 FnameModel FnameSpec FnameProof FnameProof2 FnameProof3 FnameProof4 FnameProof5.
Open Scope Z_scope.

Lemma form_fn_ok x last fn : form x last fn -> fn_ok fn.
Proof.
  intros F. pose proof (fm_bytes _ _ _ F 0 ltac:(lia)) as B. assert (R : 32 <= fn 0 <= 126 /\ fn 0 <> 46) by (destruct B as [->|[[A N] _]]; [lia|cbn in N; lia]).
  split; [apply (fm_all _ _ _ F)|]. split; [lia|]. split; [unfold DDEM; lia|]. split; [lia|]. pose proof (fm_range _ _ _ F).
  assert (Q : forallb (fun v => negb (has v 160)) (map Z.of_nat (seq 0 32)) = true) by reflexivity. rewrite forallb_forall in Q. specialize (Q (fn 11)). rewrite in_map_iff in Q. apply negb_true_iff, Q. exists (Z.to_nat (fn 11)). split; [lia|apply in_seq; lia].
Qed.
Lemma dir_u16 d l : dir_ok d l -> long_clean l.
Proof.
  intros D. pose proof (stored_units _ _ _ (dk_laid _ _ D)) as S. unfold long_clean. revert S. apply Forall_impl. intros f N Q. destruct (N Q) as [N1 _]. revert N1. apply Forall_impl. unfold unit_ok. lia.
Qed.

Theorem one_file d l x last fn a f b : dir_ok d l -> names_ok l -> form x last fn -> files l = a ++ f :: b -> hit x fn f -> Forall (fun g => ~ hit x fn g) (a ++ b).
Proof. intros D N. eapply hit_one; eauto using dir_u16. Qed.

Theorem create_names d l x last fn buf : dir_ok d l -> names_ok l -> form x last fn -> clean x -> name_ok x -> holds buf x -> units buf -> Forall (fun g => ~ hit x fn g) (files l) ->
  (exists d' i l' e a b, dir_register d fn buf = Ok (d', D_OK, i) /\ dir_ok d' l' /\ names_ok l' /\ tab d' i = e /\
     files l = a ++ b /\ files l' = a ++ (if has (fn 11) 2 then x else [], e) :: b /\ hit x fn (if has (fn 11) 2 then x else [], e) /\
     e 11 = 0 /\ e 12 = Z.land (fn 11) 24 /\ (forall k, 13 <= k < 32 -> e k = 0) /\ (has (fn 11) 1 = false -> short_same e fn)) \/
  (exists d' i, dir_register d fn buf = Ok (d', D_DENIED, i) /\ dir_ok d' l).
Proof.
  intros D N F C O H U NH. destruct (register_ok d l fn buf x D (form_fn_ok _ _ _ F) O H U) as [(d' & i & l1 & l2 & h & f & e & E & El & _ & D' & Ei & Et & Ne & Sh)|(d' & i & E & D' & _)].
  - left. destruct Ne as (Ne1 & Ne2 & Ne3 & Ne4). rewrite El in *.
    destruct (insert_names l1 h l2 x last fn (if has (fn 11) 2 then x else []) e f) as (N' & _ & Hi); auto.
    + destruct O as [_ O]. intros ->. cbn in O. lia.
    + eapply dir_u16; eauto.
    + destruct (has (fn 11) 1); [apply Sh|auto].
    + exists d', i, (l1 ++ File (if has (fn 11) 2 then x else []) e :: l2), e, (files l1), (files l2). split; [auto|]. split; [auto|]. split; [auto|]. split; [auto|].
      split; [rewrite !files_app, files_holes; auto|]. split; [now rewrite files_app|]. split; [auto|]. split; [auto|]. split; [auto|]. split; [auto|].
      intros Lo. rewrite Lo in Sh. eapply short_trans; eauto.
  - right. exists d', i. auto.
Qed.

Theorem remove_one d l1 w e l2 : dir_ok d (l1 ++ File w e :: l2) -> names_ok (l1 ++ File w e :: l2) ->
  exists d' l', dir_remove d (sizes l1 + parts w) (read_blk w (sizes l1)) = Ok (d', D_OK) /\ dir_ok d' l' /\ names_ok l' /\ files l' = files l1 ++ files l2.
Proof.
  intros D N. destruct (remove_ok d l1 w e l2 D) as (d' & E & D'). exists d', (l1 ++ repeat Hole (Z.to_nat (parts w + 1)) ++ l2). split; [auto|]. split; [auto|].
  split; [eapply remove_names; eauto using dir_u16|]. now rewrite !files_app, files_holes.
Qed.

Theorem found_again x l1 l2 fn fn' e : form x l1 fn -> form x l2 fn' -> x <> [] -> (has (fn 11) 1 = false -> short_same e fn) -> hit x fn' (if has (fn 11) 2 then x else [], e).
Proof.
  intros F F' Nx Sh. assert (H64 : has (fn' 11) 64 = false).
  { pose proof (fm_range _ _ _ F'). assert (Q : forallb (fun v => negb (has v 64)) (map Z.of_nat (seq 0 32)) = true) by reflexivity. rewrite forallb_forall in Q. specialize (Q (fn' 11)). rewrite in_map_iff in Q. apply negb_true_iff, Q. exists (Z.to_nat (fn' 11)). split; [lia|apply in_seq; lia]. }
  destruct (has (fn 11) 2) eqn:L2.
  - left. cbn. split; [auto|]. split; [auto|]. reflexivity.
  - right. assert (Lo : has (fn 11) 1 = false).
    { destruct (has (fn 11) 1) eqn:Lo; [|auto]. pose proof (fm_long _ _ _ F (some_loss _ _ _ F Lo)). congruence. }
    pose proof (no_loss _ _ _ F Lo) as I. split.
    + destruct (has (fn' 11) 1) eqn:Lo'; [|auto]. exfalso. apply (some_loss _ _ _ F' Lo'). auto.
    + cbn. destruct I as (b & ex & Sp & Ft). intros k K. rewrite (Sh Lo), (fm_short _ _ _ F b ex), (fm_short _ _ _ F' b ex) by auto. auto.
Qed.
