(* Lemmas: sums, and loading a set of entries. *)
From Verif Require Import Base Arr ArrLemmas LfnSpec FutfModel FutfSpec XdirModel XdirSpec.
Open Scope Z_scope.

Lemma add_step s b : add s b = step s b.
Proof. unfold add, step, rot. rewrite (Zmod_odd s). destruct (Z.odd s); f_equal; lia. Qed.
Lemma step_inj s s' b : 0 <= s < 65536 -> 0 <= s' < 65536 -> step s b = step s' b -> s = s'.
Proof. unfold step. intros. Z.to_euclidean_division_equations. lia. Qed.
Lemma step_inj_byte s b b' : byte_ok b -> byte_ok b' -> step s b = step s b' -> b = b'.
Proof. unfold step, byte_ok. intros. Z.to_euclidean_division_equations. lia. Qed.
Lemma step_range s b : 0 <= step s b < 65536.
Proof. apply Z.mod_pos_bound. lia. Qed.
Lemma fold_range l : forall s, 0 <= s < 65536 -> 0 <= fold_left step l s < 65536.
Proof. induction l as [|b l IH]; cbn; auto using step_range. Qed.
Lemma fold_inj l : forall s s', 0 <= s < 65536 -> 0 <= s' < 65536 -> fold_left step l s = fold_left step l s' -> s = s'.
Proof. induction l as [|b l IH]; cbn; intros s s' H H' E; auto. apply IH in E; auto using step_range. eapply step_inj; eauto. Qed.
Lemma fold_change l1 l2 b b' : byte_ok b -> byte_ok b' -> b <> b' -> fold_left step (l1 ++ b :: l2) 0 <> fold_left step (l1 ++ b' :: l2) 0.
Proof.
  intros B B' N E. rewrite !fold_left_app in E. cbn in E. apply fold_inj in E; auto using step_range. apply step_inj_byte in E; auto.
Qed.

Lemma sum_tail l : forall done rest s, (4 <= length done)%nat ->
  sum_loop (length l) (done ++ l ++ rest) (length done) s = Ok (fold_left step l s).
Proof.
  induction l as [|b l IH]; intros done rest s H; cbn [length sum_loop fold_left]; auto.
  destruct (Nat.eqb_spec (length done) 2); [lia|]. cbn [app]. rewrite rd_app. cbn [bind]. rewrite add_step.
  specialize (IH (done ++ [b]) rest (step s b)). rewrite <- app_assoc in IH. cbn [app] in IH. rewrite app_length in IH. cbn [length] in IH.
  replace (S (length done)) with (length done + 1)%nat by lia. apply IH. lia.
Qed.
Lemma sum_ok blk rest : (4 <= length blk)%nat -> Z.of_nat (length blk) = (at_ blk 1 + 1) * 32 -> xdir_sum (blk ++ rest) = Ok (checksum blk).
Proof.
  intros H L. destruct blk as [|a [|b [|c [|d l]]]]; cbn [length] in H; try lia.
  unfold xdir_sum. cbn [at_ nth] in L. unfold at_ in L. cbn [nth] in L. cbn [app]. unfold rd at 1. cbn [nth_error bind].
  replace (Z.to_nat ((b + 1) * 32)) with (length (a :: b :: c :: d :: l)) by lia. cbn [length].
  unfold checksum. cbn [firstn skipn app fold_left].
  cbn [sum_loop Nat.eqb]. unfold rd at 1 2. cbn [nth_error bind]. rewrite !add_step.
  apply (sum_tail l [a; b; c; d]). cbn. lia.
Qed.

(* --- loading ---------------------------------------------------------------------- *)

Lemma copy_ok done old rest e i : i = length done -> length old = 32%nat -> length e = 32%nat -> copy (done ++ old ++ rest) i e = Ok (done ++ e ++ rest).
Proof.
  intros -> O E. unfold copy. rewrite !app_length, O, E.
  replace (length done + 32 <=? length done + (32 + length rest))%nat with true by lia. cbn [andb Nat.leb].
  rewrite firstn_app, Nat.sub_diag, firstn_all, firstn_O, app_nil_r.
  rewrite (firstn_all2 e) by lia.
  replace (skipn (length done + 32) (done ++ old ++ rest)) with rest; auto. rewrite app_assoc, skipn_app_eq; [auto|rewrite app_length; lia].
Qed.
Lemma typed_at pre e post t k : k = length pre -> length e = 32%nat -> typed (pre ++ e :: post) k t = Ok (if at_ e 0 =? t then Some e else None).
Proof.
  intros -> E. unfold typed. rewrite nth_error_app2, Nat.sub_diag by lia. cbn [nth_error].
  destruct e as [|x e]; [discriminate|]. reflexivity.
Qed.
Lemma take32 (l : list Z) : (32 <= length l)%nat -> exists o r, l = o ++ r /\ length o = 32%nat /\ r = skipn 32 l.
Proof. intros. exists (firstn 32 l), (skipn 32 l). rewrite firstn_skipn. repeat split. rewrite firstn_length. lia. Qed.
Lemma concat32 (es : list (list Z)) : Forall (fun e => length e = 32%nat) es -> length (concat es) = (32 * length es)%nat.
Proof. induction 1; cbn; auto. rewrite app_length. lia. Qed.

Definition all193 (names : list (list Z)) : bool := forallb (fun e => at_ e 0 =? 193) names.

Lemma names_ok_ names : forall pre post done rest, Forall (fun e => length e = 32%nat) names ->
  (32 * length names <= length rest)%nat -> (length done + 32 * length names <= 608)%nat ->
  exists b, load_names (length names) (pre ++ names ++ post) (length pre) (done ++ rest) (length done) = Ok (b, all193 names) /\
    (all193 names = true -> b = done ++ concat names ++ skipn (32 * length names) rest).
Proof.
  induction names as [|e names IH]; intros pre post done rest F R D.
  - cbn. eexists. split; reflexivity.
  - inversion F as [|? ? E F']; subst. cbn [length load_names app]. rewrite typed_at by auto. cbn [bind all193 forallb].
    destruct (at_ e 0 =? 193); cbn [andb]; [|eexists; split; [reflexivity|discriminate]].
    cbn [length] in R, D. replace (length done <? 608)%nat with true by lia.
    destruct (take32 rest) as (o & r & -> & O & Er); [lia|]. rewrite copy_ok by auto. cbn [bind].
    destruct (IH (pre ++ [e]) post (done ++ e) r F') as (b & B1 & B2).
    { rewrite app_length in R. lia. } { rewrite app_length. lia. }
    rewrite <- !app_assoc in B1. cbn [app] in B1. rewrite !app_length in B1. cbn [length] in B1. rewrite E in B1.
    replace (S (length pre)) with (length pre + 1)%nat by lia. exists b. split; [exact B1|].
    intros A. rewrite (B2 A). cbn [concat]. rewrite <- !app_assoc. do 3 f_equal.
    replace (32 * S (length names))%nat with (32 + 32 * length names)%nat by lia. rewrite <- skipn_add. rewrite <- Er. reflexivity.
Qed.

Lemma at_app (e l : list Z) i : (i < length e)%nat -> at_ (e ++ l) i = at_ e i.
Proof. intros. unfold at_. now rewrite app_nth1. Qed.
Lemma rd_at (e : list Z) i : (i < length e)%nat -> rd e i = Ok (at_ e i).
Proof. intros. unfold rd, at_. rewrite (nth_error_nth' e 0); auto. Qed.

Lemma load_ok tab k h s names b : entry_ok h -> entry_ok s -> Forall entry_ok names -> placed tab k (h :: s :: names) -> length b = 608%nat ->
  at_ h 1 = Z.of_nat (length names) + 1 ->
  exists b' r, load_xdir tab k b = Ok (b', r) /\ (r = true <-> good h s names) /\
    (r = true -> b' = concat (h :: s :: names) ++ skipn (length (concat (h :: s :: names))) b).
Proof.
  intros (Lh & Bh) (Ls & Bs) F (pre & post & -> & <-) Lb N.
  assert (Fn : Forall (fun e => length e = 32%nat) names) by (eapply Forall_impl; [|exact F]; intros ? (? & _); auto).
  assert (G1 : forall P : Prop, (P -> False) -> forall b', exists b'' r, Ok (b', false) = @Ok (list Z * bool) (b'', r) /\ (r = true <-> P) /\ (r = true -> b'' = concat (h :: s :: names) ++ skipn (length (concat (h :: s :: names))) b)).
  { intros P HP b'. exists b', false. repeat split; intros; try discriminate; tauto. }
  unfold load_xdir. cbn [app]. rewrite typed_at by auto. cbn [bind].
  destruct (Z.eqb_spec (at_ h 0) 133) as [T0|T0]; [|apply G1; intros []; auto].
  destruct (take32 b) as (o & b1 & -> & O & Eb1); [lia|].
  pose proof (copy_ok [] o b1 h 0 eq_refl O Lh) as C. cbn [app] in C. rewrite C. cbn [bind]. clear C.
  rewrite rd_at by (rewrite app_length; lia). rewrite at_app by lia. cbn [bind]. rewrite N.
  destruct ((Z.of_nat (length names) + 1 + 1 <? 3) || (19 <? Z.of_nat (length names) + 1 + 1)) eqn:S1; [apply G1; intros []; lia|].
  replace (pre ++ h :: s :: names ++ post) with ((pre ++ [h]) ++ s :: names ++ post) by (now rewrite <- app_assoc).
  rewrite typed_at by (rewrite ?app_length; cbn; lia). cbn [bind].
  destruct (Z.eqb_spec (at_ s 0) 192) as [T1|T1]; [|apply G1; intros []; auto].
  rewrite app_length in Lb. destruct (take32 b1) as (o2 & b2 & -> & O2 & Eb2); [lia|]. rewrite app_length in Lb.
  rewrite copy_ok by auto. cbn [bind].
  rewrite rd_at by (rewrite !app_length; lia).
  replace (at_ (h ++ s ++ b2) 35) with (at_ s 3). 2:{ unfold at_. rewrite (app_nth2 h) by lia. rewrite app_nth1 by lia. now rewrite Lh. }
  cbn [bind].
  destruct (Z.ltb_spec (Z.of_nat (length names) + 1 + 1) ((at_ s 3 + 44) / 15)) as [L|L].
  { apply G1. intros Gd. pose proof (g_length _ _ _ Gd) as Q. clear - L Q. Z.to_euclidean_division_equations. lia. }
  replace (Z.to_nat (Z.of_nat (length names) + 1 - 1)) with (length names) by lia.
  replace ((pre ++ [h]) ++ s :: names ++ post) with ((pre ++ [h; s]) ++ names ++ post) by (now rewrite <- !app_assoc).
  destruct (names_ok_ names (pre ++ [h; s]) post (h ++ s) b2 Fn) as (b' & B1 & B2). { lia. } { rewrite app_length. lia. }
  replace (S (S (length pre))) with (length (pre ++ [h; s])) by (rewrite app_length; cbn; lia).
  replace (h ++ s ++ b2) with ((h ++ s) ++ b2) by (now rewrite <- app_assoc). replace 64%nat with (length (h ++ s)) by (rewrite app_length; lia). rewrite B1. cbn [bind].
  assert (Lc : length (concat (h :: s :: names)) = (64 + 32 * length names)%nat) by (cbn [concat]; rewrite !app_length, concat32; auto; lia).
  destruct (all193 names) eqn:A; cbn [negb].
  2:{ apply G1. intros Gd. assert (all193 names = true); [|congruence]. pose proof (g_names _ _ _ Gd) as Q. apply forallb_forall. intros e I. rewrite Forall_forall in Q. rewrite Q; auto. }
  rewrite (B2 eq_refl).
  replace ((h ++ s) ++ concat names ++ skipn (32 * length names) b2) with (concat (h :: s :: names) ++ skipn (32 * length names) b2) by (cbn [concat]; now rewrite <- !app_assoc).
  rewrite sum_ok.
  2:{ rewrite Lc. lia. } 2:{ rewrite Lc. cbn [concat]. rewrite at_app by lia. rewrite N. lia. }
  cbn [bind]. unfold ld_word. rewrite !rd_at by (rewrite app_length, Lc; lia). rewrite !at_app by (rewrite Lc; lia).
  cbn [concat]. rewrite !at_app by lia. cbn [bind].
  eexists _, _. split; [reflexivity|]. split.
  - split.
    + intros Q. constructor; [exact T0|exact T1| |clear - S1; lia| |].
      * apply Forall_forall. intros e I. unfold all193 in A. rewrite forallb_forall in A. specialize (A e I). clear - A. cbv beta in A. lia.
      * replace (at_ s 3 + 44) with (at_ s 3 + 14 + 2 * 15) in L by lia. rewrite Z.div_add in L by lia. clear - L. lia.
      * cbn [concat]. clear - Q. lia.
    + intros Gd. pose proof (g_sum _ _ _ Gd) as Q. cbn [concat] in Q. lia.
  - intros _. cbn [concat] in *. f_equal. rewrite Lc.
    replace (64 + 32 * length names)%nat with (32 + (32 + 32 * length names))%nat by lia. rewrite <- !skipn_add. rewrite (skipn_app_eq o) by auto. rewrite (skipn_app_eq o2) by auto. reflexivity.
Qed.

(* --- damage ------------------------------------------------------------------------- *)
Lemma set_split (l : list Z) p v : (p < length l)%nat -> exists l1 l2, l = l1 ++ nth p l 0 :: l2 /\ set_at l p v = l1 ++ v :: l2 /\ length l1 = p.
Proof.
  intros H. exists (firstn p l), (skipn (S p) l). rewrite set_at_split by auto. repeat split.
  - rewrite <- (firstn_skipn p l) at 1. f_equal. 
    clear v. revert p H. induction l as [|x l IH]; intros [|p] H; cbn in *; try lia; auto. apply IH. lia.
  - rewrite firstn_length. lia.
Qed.
Lemma changed blk p v : (4 <= p < length blk)%nat \/ (p < 2)%nat /\ (4 <= length blk)%nat -> Forall byte_ok blk -> byte_ok v -> v <> at_ blk p -> checksum (set_at blk p v) <> checksum blk.
Proof.
  intros H F V N. unfold checksum. rewrite Forall_forall in F.
  assert (B : byte_ok (nth p blk 0)) by (apply F, nth_In; lia). unfold at_ in N.
  destruct blk as [|a [|b [|c [|d l]]]]; cbn [length] in H; try lia.
  destruct p as [|[|[|[|p]]]]; try lia.
  - cbn. apply (fold_change [] (b :: l) v a); auto.
  - cbn. apply (fold_change [a] l v b); auto.
  - cbn [set_at firstn skipn app nth] in *. destruct (set_split l p v) as (l1 & l2 & E1 & E2 & _); [lia|]. rewrite E2. rewrite E1 at 1.
    apply (fold_change (a :: b :: l1) l2); auto.
Qed.
