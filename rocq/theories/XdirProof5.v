(* Lemmas: the number of entries is damaged. *)
From Verif Require Import Base Arr ArrLemmas LfnSpec XdirModel XdirSpec XdirProof XdirProof2.
Open Scope Z_scope.

Lemma names_more names x : forall pre post done rest, Forall (fun e => length e = 32%nat) names ->
  (32 * length names <= length rest)%nat -> (length done + 32 * length names <= 608)%nat ->
  (forall e, hd_error post = Some e -> length e = 32%nat /\ at_ e 0 <> 193) ->
  exists b, load_names (length names + S x) (pre ++ names ++ post) (length pre) (done ++ rest) (length done) = Ok (b, false).
Proof.
  induction names as [|e names IH]; intros pre post done rest F R D P.
  - cbn [length Nat.add load_names app]. destruct post as [|e post].
    + unfold typed. rewrite app_nil_r, (proj2 (nth_error_None pre (length pre))) by lia. cbn [bind]. eauto.
    + destruct (P e eq_refl) as (E & T). rewrite typed_at by auto. cbn [bind]. destruct (Z.eqb_spec (at_ e 0) 193); [contradiction|]. eauto.
  - inversion F as [|? ? E F']; subst. cbn [length Nat.add load_names app]. rewrite typed_at by auto. cbn [bind].
    destruct (at_ e 0 =? 193); [|eauto].
    cbn [length] in R, D. replace (length done <? 608)%nat with true by lia.
    destruct (take32 rest) as (o & r & -> & O & Er); [lia|]. rewrite copy_ok by auto. cbn [bind].
    destruct (IH (pre ++ [e]) post (done ++ e) r F') as (b & B1); auto.
    { rewrite app_length in R. lia. } { rewrite app_length. lia. }
    rewrite <- !app_assoc in B1. cbn [app] in B1. rewrite !app_length in B1. cbn [length] in B1. rewrite E in B1.
    replace (S (length pre)) with (length pre + 1)%nat by lia. exists b. exact B1.
Qed.

Lemma count_damaged pre h s names post v b : entry_ok h -> entry_ok s -> Forall entry_ok names -> good h s names -> at_ h 1 = Z.of_nat (length names) + 1 ->
  Z.of_nat (length names) = (at_ s 3 + 14) / 15 -> (forall e, hd_error post = Some e -> entry_ok e /\ at_ e 0 <> 193) ->
  byte_ok v -> v <> at_ h 1 -> length b = 608%nat ->
  exists b', load_xdir (pre ++ set_at h 1 v :: s :: names ++ post) (length pre) b = Ok (b', false).
Proof.
  intros (Lh & Bh) (Ls & Bs) F G A M P V N Lb.
  assert (Fn : Forall (fun e => length e = 32%nat) names) by (eapply Forall_impl; [|exact F]; intros ? (? & _); auto).
  set (h' := set_at h 1 v). assert (Lh' : length h' = 32%nat) by (unfold h'; now rewrite set_at_length).
  assert (H0 : at_ h' 0 = 133) by (rewrite <- (g_file _ _ _ G); unfold h'; destruct h as [|? [|? ?]]; [discriminate|discriminate|reflexivity]).
  assert (H1 : at_ h' 1 = v) by (unfold h'; destruct h as [|? [|? ?]]; [discriminate|discriminate|reflexivity]).
  unfold load_xdir. rewrite typed_at by auto. cbn [bind]. rewrite H0. change (133 =? 133) with true. cbv iota.
  destruct (take32 b) as (o & b1 & -> & O & Eb1); [lia|].
  pose proof (copy_ok [] o b1 h' 0 eq_refl O Lh') as C. cbn [app] in C. rewrite C. cbn [bind]. clear C.
  rewrite rd_at by (rewrite app_length; lia). rewrite at_app by lia. cbn [bind]. rewrite H1.
  destruct ((v + 1 <? 3) || (19 <? v + 1)) eqn:S1; [eauto|].
  replace (pre ++ h' :: s :: names ++ post) with ((pre ++ [h']) ++ s :: names ++ post) by (now rewrite <- app_assoc).
  rewrite typed_at by (rewrite ?app_length; cbn; lia). cbn [bind]. rewrite (g_stream _ _ _ G). change (192 =? 192) with true. cbv iota.
  rewrite app_length in Lb. destruct (take32 b1) as (o2 & b2 & -> & O2 & Eb2); [lia|]. rewrite app_length in Lb.
  rewrite copy_ok by auto. cbn [bind].
  rewrite rd_at by (rewrite !app_length; lia).
  replace (at_ (h' ++ s ++ b2) 35) with (at_ s 3). 2:{ unfold at_. rewrite (app_nth2 h') by lia. rewrite app_nth1 by lia. now rewrite Lh'. }
  cbn [bind].
  destruct (Z.ltb_spec (v + 1) ((at_ s 3 + 44) / 15)) as [L|L]; [eauto|].
  replace (at_ s 3 + 44) with (at_ s 3 + 14 + 2 * 15) in L by lia. rewrite Z.div_add in L by lia.
  pose proof (g_size _ _ _ G) as Sz.
  replace (Z.to_nat (v - 1)) with (length names + S (Z.to_nat (v - 2 - Z.of_nat (length names))))%nat by lia.
  replace ((pre ++ [h']) ++ s :: names ++ post) with ((pre ++ [h'; s]) ++ names ++ post) by (now rewrite <- !app_assoc).
  destruct (names_more names (Z.to_nat (v - 2 - Z.of_nat (length names))) (pre ++ [h'; s]) post (h' ++ s) b2 Fn) as (b' & B1).
  { lia. } { rewrite app_length. lia. } { intros e E. destruct (P e E) as ((? & _) & ?). auto. }
  replace (S (S (length pre))) with (length (pre ++ [h'; s])) by (rewrite app_length; cbn; lia).
  replace (h' ++ s ++ b2) with ((h' ++ s) ++ b2) by (now rewrite <- app_assoc). replace 64%nat with (length (h' ++ s)) by (rewrite app_length; lia). rewrite B1.
  cbn [bind negb]. eauto.
Qed.
