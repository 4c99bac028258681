(* cp: copying files and directories. *)
From Coq Require Import Lia.
From Verif Require Import Base CopyModel CopySpec CopyProof.
Open Scope Z_scope.

(* --- parts of a copy --- *)

Definition over (P : path -> bool) (l l' : files) (p q : path) : Prop :=
  (forall t x, P t = true -> find l (p ++ t) = Some x -> find l' (q ++ t) = Some x) /\
  forall r, (forall t, r = q ++ t -> P t = true -> find l (p ++ t) = None) -> find l' r = find l r.
Definition all (t : path) : bool := true.
Lemma over_copied l l' p q : over all l l' p q -> copied l l' p q.
Proof. intros [A B]. split; [intros t x; now apply A|]. intros r H. apply B. intros t E _. auto. Qed.

Lemma over_src P l l' p q t : apart p q -> over P l l' p q -> find l' (p ++ t) = find l (p ++ t).
Proof. intros A [_ B]. apply B. intros u E. exfalso. now apply (apart_ne p q) in E. Qed.
Lemma over_trans P Q l l1 l2 p q : apart p q -> over P l l1 p q -> over Q l1 l2 p q -> over (fun t => P t || Q t) l l2 p q.
Proof.
  intros A O1 O2. pose proof (fun t => over_src P l l1 p q t A O1) as S. destruct O1 as [A1 B1], O2 as [A2 B2]. split.
  - intros t x H E. destruct (Q t) eqn:QT.
    + apply A2; [exact QT|]. now rewrite S.
    + rewrite orb_false_r in H. rewrite B2; [now apply A1|]. intros u Eu Qu. apply app_inv_head in Eu. congruence.
  - intros r H. rewrite B2, B1; [reflexivity| |].
    + intros t E Pt. apply (H t E). now rewrite Pt.
    + intros t E Qt. rewrite S. apply (H t E). rewrite Qt. apply orb_true_r.
Qed.
Lemma over_ext P Q l l' p q : (forall t, find l (p ++ t) <> None -> P t = Q t) -> over P l l' p q -> over Q l l' p q.
Proof.
  intros E [A B]. split.
  - intros t x H F. apply A; [|exact F]. rewrite E; [exact H|congruence].
  - intros r H. apply B. intros t Er Pt. destruct (find l (p ++ t)) eqn:F; [|reflexivity]. rewrite <- F. apply (H t Er). rewrite <- E; [exact Pt|congruence].
Qed.
Definition heads (n : name) (t : path) : bool := match t with m :: _ => if list_eq_dec Z.eq_dec n m then true else false | [] => false end.
Lemma over_child l l' p q n : over all l l' (p ++ [n]) (q ++ [n]) -> over (heads n) l l' p q.
Proof.
  intros [A B]. split.
  - intros [|m t] x H F; [discriminate|]. cbn [heads] in H. destruct (list_eq_dec Z.eq_dec n m) as [->|]; [|discriminate].
    specialize (A t x eq_refl). rewrite <- !app_assoc in A. now apply A.
  - intros r H. apply B. intros t E _. rewrite <- app_assoc in E |- *. apply (H _ E). cbn [app heads]. destruct (list_eq_dec Z.eq_dec n n); congruence.
Qed.
Definition top (t : path) : bool := match t with [] => true | _ => false end.
Lemma over_refl l p q : (forall x, find l p = Some x -> find l q = Some x) -> over top l l p q.
Proof.
  intros H. split; [|auto]. intros [|m t] x E F; [|discriminate]. rewrite app_nil_r in *. auto.
Qed.
Lemma over_set l p q x : find l p = Some x -> over top l (set l q x) p q.
Proof.
  intros E. split.
  - intros [|m t] y H F; [|discriminate]. rewrite app_nil_r in *. rewrite find_set. destruct (path_dec q q); congruence.
  - intros r H. rewrite find_set. destruct (path_dec q r) as [<-|]; [|reflexivity]. exfalso. specialize (H [] (eq_sym (app_nil_r q)) eq_refl). rewrite app_nil_r in H. congruence.
Qed.

(* above every entry are directories *)
Lemma tree_up l p : tree l -> forall t, t <> [] -> find l (p ++ t) <> None -> p = [] \/ find l p = Some D.
Proof.
  intros T t. rewrite tree_find in T. destruct T as [_ T]. induction t as [|n t IH] using rev_ind; [congruence|]. intros _ F.
  destruct (find l (p ++ t ++ [n])) as [x|] eqn:E; [|congruence]. destruct (T _ _ E) as (a & m & Ea & _ & P).
  rewrite app_assoc in Ea. apply app_inj_tail in Ea as [<- <-]. destruct t as [|u t].
  - rewrite app_nil_r in P. exact P.
  - apply IH; [discriminate|]. destruct P as [P|P]; [|congruence]. destruct p; discriminate.
Qed.
Lemma tree_first l p n t : tree l -> find l (p ++ n :: t) <> None -> find l (p ++ [n]) <> None.
Proof.
  intros T F. destruct t as [|m t]; [exact F|]. destruct (tree_up l (p ++ [n]) T (m :: t)) as [E|E]; [discriminate|now rewrite <- app_assoc| |].
  - destruct p; discriminate.
  - congruence.
Qed.
Lemma file_alone l p d t : tree l -> find l p = Some (F d) -> t <> [] -> find l (p ++ t) = None.
Proof.
  intros T E N. destruct (find l (p ++ t)) eqn:F; [|reflexivity]. destruct (tree_up l p T t N) as [->|E']; [congruence| |congruence].
  rewrite tree_find in T. destruct T as [_ T]. destruct (T _ _ E) as ([|? ?] & n & X & _); discriminate.
Qed.
Lemma file_top l p d : tree l -> find l p = Some (F d) -> forall t, find l (p ++ t) <> None -> top t = all t.
Proof. intros T E [|m t] N; [reflexivity|]. exfalso. apply N. eapply file_alone; eauto. discriminate. Qed.

(* --- worlds --- *)

Definition St (q : path) (w w' : world) : Prop :=
  touched q (fs w) (fs w') /\ cwd w' = cwd w /\ exists leaks, opened w' = leaks ++ opened w /\ Forall (under q) leaks.
Lemma St_refl q w w' : fs w' = fs w -> cwd w' = cwd w -> opened w' = opened w -> St q w w'.
Proof. intros A B C. split; [rewrite A; constructor|]. split; [exact B|]. exists []. now split. Qed.
Lemma St_trans q w w1 w2 : St q w w1 -> St q w1 w2 -> St q w w2.
Proof.
  intros (A & B & l & C & C') (A' & B' & l' & E & E'). split; [eapply touched_trans; eauto|]. split; [congruence|]. exists (l' ++ l). split.
  - rewrite E, C. now rewrite app_assoc.
  - apply Forall_app. now split.
Qed.
Lemma St_up q q' w w' : under q' q -> St q w w' -> St q' w w'.
Proof.
  intros U (A & B & l & C & C'). split; [eapply touched_up; eauto|]. split; [exact B|]. exists l. split; [exact C|].
  eapply Forall_impl; [|exact C']. intros r H. eapply under_trans; eauto.
Qed.
Lemma St_sane q w w' : sane w -> St q w w' -> sane w'.
Proof.
  intros [T C] (A & B & _). split; [eapply touched_tree; eauto|]. rewrite B. destruct C as [C|C]; [now left|right]. eapply touched_dir; eauto.
Qed.
Lemma St_leads q w w' s p : St q w w' -> leads w s p -> leads w' s p.
Proof. intros (A & B & _) L. eapply leads_keep; eauto. intros r. eapply touched_dir; eauto. Qed.

Lemma free_existsb w q : free w q -> existsb (fun r => if path_dec q r then true else false) (opened w) = false.
Proof.
  unfold free. induction (opened w) as [|r l IH]; intros F; [reflexivity|]. inversion F as [|? ? N F']; subst. cbn [existsb]. rewrite IH by exact F'.
  destruct (path_dec q r) as [->|]; [|reflexivity]. exfalso. apply N. exists []. now rewrite app_nil_r.
Qed.

Lemma shown_refl o w w' : out w' = out w -> shown o w w'.
Proof. intros E. exists []. repeat split; auto. Qed.
Lemma shown_trans o w w1 w2 : shown o w w1 -> shown o w1 w2 -> shown o w w2.
Proof.
  intros (a & A & A' & A'') (b & B & B' & B''). exists (b ++ a). split; [rewrite B, A; now rewrite app_assoc|]. split; [apply Forall_app; now split|].
  intros V. now rewrite A'', B''.
Qed.

Section Luck.
Variable luck : nat -> verdict.
Definition lucky : Prop := forall k, luck k = Fine.
Lemma not_bad w : lucky -> bad luck w = false.
Proof. intros L. unfold bad. now rewrite L. Qed.

Lemma buf_cons c (r : list Z) : firstn BUF (c :: r) = c :: firstn (pred BUF) r.
Proof. reflexivity. Qed.
Lemma buf_skip c (r : list Z) : (length (skipn BUF (c :: r)) <= length r)%nat.
Proof. rewrite skipn_length. cbn [length]. unfold BUF. lia. Qed.

Lemma copy_loop_ok s d : forall fuel rest done w, (length rest < fuel)%nat -> exists w' done' fine, copy_loop luck fuel w s d rest done = Ok (w', done', fine) /\
  fs w' = fs w /\ cwd w' = cwd w /\ opened w' = opened w /\ (fine = true -> done' = done ++ rest /\ out w' = out w) /\ (lucky -> fine = true).
Proof.
  induction fuel as [|fuel IH]; intros rest done w L; [lia|]. cbn [copy_loop].
  destruct (bad luck w) eqn:B.
  { do 3 eexists. split; [reflexivity|]. repeat split; try discriminate. intros K. rewrite (not_bad w K) in B. discriminate. }
  destruct rest as [|c rest].
  { rewrite firstn_nil. do 3 eexists. split; [reflexivity|]. repeat split; auto. now rewrite app_nil_r. }
  rewrite buf_cons. rewrite <- (buf_cons c rest).
  assert (R : forall done1, done1 = done ++ firstn BUF (c :: rest) -> exists w' done' fine, copy_loop luck fuel (tick (tick w)) s d (skipn BUF (c :: rest)) done1 = Ok (w', done', fine) /\
    fs w' = fs w /\ cwd w' = cwd w /\ opened w' = opened w /\ (fine = true -> done' = done ++ c :: rest /\ out w' = out w) /\ (lucky -> fine = true)).
  { intros done1 ->. pose proof (buf_skip c rest) as BS. cbn [length] in L. destruct (IH (skipn BUF (c :: rest)) (done ++ firstn BUF (c :: rest)) (tick (tick w)) ltac:(lia)) as (w' & done' & fine & E & A & A' & A'' & G & K).
    exists w', done', fine. split; [exact E|]. repeat split; auto; destruct (G H) as [G1 G2]; [|exact G2]. rewrite G1, <- app_assoc, firstn_skipn. reflexivity. }
  destruct (luck (calls (tick w))) as [|n|] eqn:V.
  - now apply R.
  - destruct (n <? length (firstn BUF (c :: rest)))%nat; [|now apply R].
    do 3 eexists. split; [reflexivity|]. repeat split; try discriminate. intros K. rewrite K in V. discriminate.
  - do 3 eexists. split; [reflexivity|]. repeat split; try discriminate. intros K. rewrite K in V. discriminate.
Qed.

(* the states of the world inside of copy_contents *)
Lemma remove1_head p l : remove1 p (p :: l) = l.
Proof. cbn [remove1]. destruct (path_dec p p); congruence. Qed.
Lemma remove1_other p q l : p <> q -> remove1 p (q :: l) = q :: remove1 p l.
Proof. intros N. cbn [remove1]. destruct (path_dec p q); congruence. Qed.

Lemma contents_ok o w s d p q data : sane w -> leads w s p -> leads w d q -> apart p q -> find (fs w) p = Some (F data) ->
  exists w', copy_contents luck w s d o = Ok w' /\ St q w w' /\
    (lucky -> fits (fs w) p q -> free w q -> (length (opened w) + 2 <= LOCKS)%nat -> over all (fs w) (fs w') p q /\ opened w' = opened w /\ shown o w w').
Proof.
  intros SN LP LQ A EP. unfold copy_contents, open_read. rewrite (leads_follow w s p LP), EP.
  assert (PQ : p <> q) by (intros ->; destruct A as [A _]; apply A; exists []; now rewrite app_nil_r).
  destruct (bad luck w) eqn:B1.
  { eexists. split; [reflexivity|]. split; [now apply St_refl|]. intros K. rewrite (not_bad w K) in B1. discriminate. }
  destruct (Nat.ltb_spec (length (opened w)) LOCKS) as [LK|LK]; cycle 1.
  { eexists. split; [reflexivity|]. split; [now apply St_refl|]. intros K Ft Fr SH. lia. }
  cbn [is_ok negb]. set (w1 := tick (with_opened w (p :: opened w))).
  assert (LQ1 : leads w1 d q) by (eapply leads_keep; eauto).
  assert (BACK : forall m, St q w (close (say (tick w1) m) p)) by (intros m; apply St_refl; try reflexivity; apply remove1_head).
  unfold open_write. rewrite (leads_follow w1 d q LQ1). change (fs w1) with (fs w).
  destruct (bad luck w1) eqn:B2.
  { eexists. split; [reflexivity|]. split; [apply BACK|]. intros K. rewrite (not_bad w1 K) in B2. discriminate. }
  (* it is opened *)
  assert (GO : (find (fs w) q = None \/ exists dq, find (fs w) q = Some (F dq)) ->
    exists w', (let '(w2, r, q0) := if (length (opened w1) <? LOCKS)%nat then (tick (with_opened (with_fs w1 (set (fs w) q (F []))) (q :: opened w1)), OK, q) else (tick w1, TOO_MANY, []) in
      if negb (is_ok r) then Ok (close (say w2 (Failed d r)) p)
      else '(w3, done, fine) <- copy_loop luck (S (length data)) w2 s d data [] ;;
           Ok (if fine && verbose o then say (close_write luck (close w3 p) q0 done) (Copied s d) else close_write luck (close w3 p) q0 done)) = Ok w' /\ St q w w' /\
      (lucky -> (length (opened w) + 2 <= LOCKS)%nat -> over all (fs w) (fs w') p q /\ opened w' = opened w /\ shown o w w')).
  { intros NF. destruct (Nat.ltb_spec (length (opened w1)) LOCKS) as [LK1|LK1]; cycle 1.
    { cbn [is_ok negb]. eexists. split; [reflexivity|]. split; [apply BACK|]. intros _ SH. cbn in LK1. lia. }
    cbn [is_ok negb]. set (w2 := tick (with_opened (with_fs w1 (set (fs w) q (F []))) (q :: opened w1))).
    destruct (copy_loop_ok s d (S (length data)) data [] w2 ltac:(lia)) as (w3 & done & fine & E3 & F3 & C3 & O3 & G3 & K3).
    rewrite E3. cbn [bind]. cbn [app] in G3.
    assert (C0 : opened (close w3 p) = q :: opened w).
    { cbn. rewrite O3. change (opened w2) with (q :: p :: opened w). rewrite remove1_other by exact PQ. now rewrite remove1_head. }
    destruct (leads_parent w d q LQ SN) as (a & n & Eq & Gn & Pa).
    assert (NEa : a <> q) by (rewrite Eq; intros X; apply (f_equal (@length _)) in X; rewrite app_length in X; cbn in X; lia).
    assert (UQ : under q (a ++ [n])) by (rewrite Eq; exists []; now rewrite app_nil_r).
    assert (T1 : forall dd, touched q (fs w) (set (fs w) q (F dd))).
    { intros dd. rewrite Eq at 2. apply TSet; [constructor|exact UQ|exact Gn|exact Pa|]. rewrite <- Eq. intros x Ex. destruct NF as [NF|[dq NF]]; rewrite NF in Ex; [discriminate|]. injection Ex as <-. reflexivity. }
    assert (T2 : forall dd, touched q (fs w) (set (set (fs w) q (F [])) q (F dd))).
    { intros dd. rewrite Eq at 3. apply TSet; [apply T1|exact UQ|exact Gn| |].
      - destruct Pa as [Pa|Pa]; [now left|right]. rewrite find_set. destruct (path_dec q a); congruence.
      - rewrite <- Eq, find_set. destruct (path_dec q q); [|congruence]. now intros x [= <-]. }
    set (w4 := close_write luck (close w3 p) q done).
    assert (S4 : St q w w4).
    { unfold w4, close_write. destruct (bad luck (close w3 p)).
      - split; [cbn; rewrite F3; apply T1|]. split; [cbn; exact C3|]. exists [q]. split; [exact C0|]. constructor; [exists []; now rewrite app_nil_r|constructor].
      - split; [cbn; rewrite F3; apply T2|]. split; [cbn; exact C3|]. exists []. split; [|constructor]. cbn in *. rewrite C0. apply remove1_head. }
    exists (if fine && verbose o then say w4 (Copied s d) else w4). split; [reflexivity|].
    split; [destruct (fine && verbose o); exact S4|]. intros K SH. specialize (K3 K). subst fine. destruct (G3 eq_refl) as [-> OUT]. cbn [andb].
    assert (FS : fs (if verbose o then say w4 (Copied s d) else w4) = set (set (fs w) q (F [])) q (F data)).
    { unfold w4, close_write. rewrite not_bad by exact K. cbn. rewrite F3. destruct (verbose o); reflexivity. }
    assert (OP : opened (if verbose o then say w4 (Copied s d) else w4) = opened w).
    { unfold w4, close_write. rewrite not_bad by exact K. transitivity (remove1 q (opened (close w3 p))); [destruct (verbose o); reflexivity|]. rewrite C0. apply remove1_head. }
    split; [|split; [exact OP|]].
    - rewrite FS. apply (over_ext top).
      + intros t. apply (file_top _ _ data); [apply SN|exact EP].
      + destruct (over_set (fs w) p q (F data) EP) as [A1 A2]. split.
        * intros [|m t] x H Fx; [|discriminate]. rewrite app_nil_r in *. rewrite find_set. destruct (path_dec q q); congruence.
        * intros r H. rewrite <- (A2 r H). rewrite !find_set. destruct (path_dec q r); reflexivity.
    - assert (O4 : out w4 = out w). { unfold w4, close_write. rewrite not_bad by exact K. cbn. rewrite OUT. reflexivity. }
      destruct (verbose o) eqn:VO.
      + exists [Copied s d]. split; [cbn; rewrite O4; reflexivity|]. split; [repeat constructor; eauto|congruence].
      + exists []. split; [exact O4|]. split; [constructor|auto]. }
  destruct (find (fs w) q) as [[dq|]|] eqn:EQ.
  - destruct (existsb _ (opened w1)) eqn:EX.
    + eexists. split; [reflexivity|]. split; [apply BACK|]. intros _ _ Fr _. exfalso. cbn [existsb] in EX. change (opened w1) with (p :: opened w) in EX. cbn [existsb] in EX.
      rewrite (free_existsb w q Fr) in EX. destruct (path_dec q p); [congruence|discriminate].
    + destruct (GO ltac:(eauto)) as (w' & E & S1 & X). exists w'. split; [exact E|]. split; [exact S1|]. intros K _ _ SH. auto.
  - eexists. split; [reflexivity|]. split; [apply BACK|]. intros _ Ft. exfalso. specialize (Ft [] (F data) D). rewrite !app_nil_r in Ft. specialize (Ft EP EQ). discriminate.
  - destruct (GO ltac:(eauto)) as (w' & E & S1 & X). exists w'. split; [exact E|]. split; [exact S1|]. intros K _ _ SH. auto.
Qed.

Lemma St_same q w w' w'' : fs w' = fs w -> cwd w' = cwd w -> opened w' = opened w -> St q w' w'' -> St q w w''.
Proof. intros. eapply St_trans; [|eassumption]. now apply St_refl. Qed.

Lemma file_ok o w s d p q data : sane w -> leads w s p -> leads w d q -> apart p q -> find (fs w) p = Some (F data) ->
  exists w', copy_file luck w s d o = Ok w' /\ St q w w' /\
    (lucky -> quiet o (fs w) p q -> fits (fs w) p q -> free w q -> (length (opened w) + 2 <= LOCKS)%nat -> over all (fs w) (fs w') p q /\ opened w' = opened w /\ shown o w w').
Proof.
  intros SN LP LQ A EP. unfold copy_file. destruct (force o) eqn:FO.
  { destruct (contents_ok o w s d p q data SN LP LQ A EP) as (w' & E & S1 & X). exists w'. auto. }
  unfold stat. rewrite (leads_follow w d q LQ).
  assert (GO : forall w1, fs w1 = fs w -> cwd w1 = cwd w -> opened w1 = opened w -> exists w', copy_contents luck w1 s d o = Ok w' /\ St q w w' /\
    (out w1 = out w -> lucky -> fits (fs w) p q -> free w q -> (length (opened w) + 2 <= LOCKS)%nat -> over all (fs w) (fs w') p q /\ opened w' = opened w /\ shown o w w')).
  { intros w1 E1 E2 E3. destruct (contents_ok o w1 s d p q data) as (w' & E & S1 & X).
    - destruct SN as [T C]. split; [now rewrite E1|now rewrite E1, E2].
    - eapply leads_keep; eauto. intros r. now rewrite E1.
    - eapply leads_keep; eauto. intros r. now rewrite E1.
    - exact A.
    - now rewrite E1.
    - exists w'. split; [exact E|]. split; [eapply St_same; [exact E1|exact E2|exact E3|exact S1]|]. intros EO K Ft Fr SH. rewrite E1, E3 in X.
      destruct X as (X1 & X2 & X3); auto; [unfold free in *; now rewrite E3|]. split; [exact X1|]. split; [exact X2|].
      eapply shown_trans; [|exact X3]. now apply shown_refl. }
  destruct (bad luck w) eqn:B.
  { cbn [is_ok]. destruct (GO (tick w) eq_refl eq_refl eq_refl) as (w' & E & S1 & X). exists w'. split; [exact E|]. split; [exact S1|]. intros K. rewrite (not_bad w K) in B. discriminate. }
  destruct (find (fs w) q) as [x|] eqn:EQ.
  - cbn [is_ok]. destruct (ask (tick w) d) as [w1 yes] eqn:EA.
    assert (W1 : fs w1 = fs w /\ cwd w1 = cwd w /\ opened w1 = opened w) by (unfold ask in EA; injection EA as <- _; auto). destruct W1 as (E1 & E2 & E3).
    assert (NO : quiet o (fs w) p q -> fits (fs w) p q -> False).
    { intros [Q|Q] Ft; [congruence|]. specialize (Ft [] (F data) x). specialize (Q []). rewrite !app_nil_r in *. specialize (Ft EP EQ). destruct x as [dq|]; [|discriminate]. apply (Q dq); congruence. }
    destruct yes.
    + destruct (GO w1 E1 E2 E3) as (w' & E & S1 & X). exists w'. split; [exact E|]. split; [exact S1|]. intros K Q Ft. destruct (NO Q Ft).
    + eexists. split; [reflexivity|]. split; [now apply St_refl|]. intros K Q Ft. destruct (NO Q Ft).
  - cbn [is_ok]. destruct (GO (tick w) eq_refl eq_refl eq_refl) as (w' & E & S1 & X). exists w'. split; [exact E|]. split; [exact S1|]. intros K _ Ft Fr SH. now apply X.
Qed.

(* --- directories --- *)

Lemma fits_over P l l' p q : apart p q -> over P l l' p q -> fits l p q -> fits l' p q.
Proof.
  intros A O Ft t a b Ea Eb. rewrite (over_src P l l' p q t A O) in Ea. destruct O as [O1 O2]. destruct (P t) eqn:Pt.
  - rewrite (O1 t a Pt Ea) in Eb. congruence.
  - rewrite O2 in Eb; [eauto|]. intros u E Pu. apply app_inv_head in E. congruence.
Qed.
Lemma fits_child l p q n : fits l p q -> fits l (p ++ [n]) (q ++ [n]).
Proof. intros Ft t a b. rewrite <- !app_assoc. apply Ft. Qed.

Lemma nth_snoc {A} (l : list A) i x : nth_error l i = Some x -> firstn (S i) l = firstn i l ++ [x].
Proof. revert i. induction l as [|y l IH]; intros [|i] E; try discriminate; cbn in *; [now injection E as ->|]. f_equal. now apply IH. Qed.
Lemma append_ok n a b : Z.of_nat (length a) + Z.of_nat (length b) + 1 <= n -> append n a b = Ok (a ++ b).
Proof. intros H. unfold append. rewrite (proj2 (Z.leb_le _ _) H). reflexivity. Qed.

Definition among (ns : list name) (t : path) : bool := match t with [] => true | n :: _ => if in_dec (list_eq_dec Z.eq_dec) n ns then true else false end.
Lemma among_snoc ns n t : among ns t || heads n t = among (ns ++ [n]) t.
Proof.
  destruct t as [|m t]; [reflexivity|]. cbn [among heads]. destruct (in_dec (list_eq_dec Z.eq_dec) m ns) as [I|I], (in_dec (list_eq_dec Z.eq_dec) m (ns ++ [n])) as [J|J]; cbn [orb]; auto.
  - exfalso. apply J. apply in_or_app. now left.
  - apply in_app_or in J as [J|[->|[]]]; [easy|]. now destruct (list_eq_dec Z.eq_dec m m).
  - destruct (list_eq_dec Z.eq_dec n m) as [->|]; [|reflexivity]. exfalso. apply J. apply in_or_app. right. now left.
Qed.

(* what rec has to do *)
Definition rec_ok (fuel : nat) (o : opts) (rec : world -> list Z -> list Z -> res world) : Prop :=
  forall w s d p q, sane w -> leads w s p -> leads w d q -> apart p q -> find (fs w) p = Some D -> (size (fs w) p < fuel)%nat ->
    exists w', rec w s d = Ok w' /\ St q w w' /\
      (lucky -> quiet o (fs w) p q -> fits (fs w) p q -> free w q -> shallow w p -> over all (fs w) (fs w') p q /\ opened w' = opened w /\ shown o w w').

Lemma nodup_at {A B} (l : list (A * B)) i n x : NoDup (map fst l) -> nth_error l i = Some (n, x) -> ~ In n (map fst (firstn i l)).
Proof.
  revert i. induction l as [|[m y] l IH]; intros i N E; [destruct i; discriminate|]. cbn [map fst] in N. inversion N as [|? ? N1 N2]; subst. destruct i as [|i]; [easy|].
  cbn [nth_error firstn map fst] in *. intros [->|I]; [|now apply (IH i)]. apply N1. apply nth_error_In in E. apply (in_map fst) in E. exact E.
Qed.
Lemma among_all l p : tree l -> forall t, find l (p ++ t) <> None -> among (map fst (children l p)) t = all t.
Proof.
  intros T [|n t] H; [reflexivity|]. cbn [among]. destruct (in_dec (list_eq_dec Z.eq_dec) n _) as [|N]; [reflexivity|]. exfalso. apply N.
  pose proof (tree_first l p n t T H) as H1. destruct (find l (p ++ [n])) as [x|] eqn:E; [|congruence]. apply find_In in E. apply children_In in E. apply (in_map fst) in E. exact E.
Qed.

Lemma entries_ok o rec n0 : rec_ok n0 o rec -> forall s d p q from to w0,
  sane w0 -> leads w0 s p -> leads w0 d q -> apart p q -> find (fs w0) p = Some D -> find (fs w0) q = Some D -> (size (fs w0) p <= n0)%nat ->
  slashed s = Ok from -> slashed d = Ok to -> forall fuel w i, St q w0 w -> (length (children (fs w0) p) < i + fuel)%nat -> (i <= length (children (fs w0) p))%nat ->
  exists w', copy_entries luck fuel rec w p i (Z.of_nat (length s) + 1 + LFN_BUF + 1) (Z.of_nat (length d) + 1 + LFN_BUF + 1) from to o = Ok w' /\ St q w0 w' /\
    (lucky -> quiet o (fs w0) p q -> fits (fs w0) p q -> free w0 q -> (forall t, t <> [] -> find (fs w0) (p ++ t) <> None -> (length (opened w0) + length t + 1 <= LOCKS)%nat) ->
     over (among (map fst (firstn i (children (fs w0) p)))) (fs w0) (fs w) p q /\ opened w = opened w0 /\ shown o w0 w ->
     over all (fs w0) (fs w') p q /\ opened w' = opened w0 /\ shown o w0 w').
Proof.
  intros RO s d p q from to w0 SN LP LQ A EP EQ SZ SF SD.
  destruct (leads_child w0 s p LP) as (b1 & E1 & L1 & N1 & C1). destruct (leads_child w0 d q LQ) as (b2 & E2 & L2 & N2 & C2).
  rewrite SF in E1. injection E1 as <-. rewrite SD in E2. injection E2 as <-.
  induction fuel as [|fuel IH]; intros w i S1 B BI; [lia|].
  assert (CH : children (fs w) p = children (fs w0) p) by (destruct S1 as [S1 _]; eapply touched_children; eauto).
  cbn [copy_entries]. unfold readdir. rewrite CH. destruct (bad luck w) eqn:BW.
  { cbn [is_ok negb]. eexists. split; [reflexivity|]. split; [exact S1|]. intros K. rewrite (not_bad w K) in BW. discriminate. }
  cbn [is_ok negb]. destruct (nth_error (children (fs w0) p) i) as [[n x]|] eqn:EN.
  2: { eexists. split; [reflexivity|]. split; [exact S1|]. intros K Q Ft Fr SH (X1 & X2 & X3). split; [|split; assumption].
       apply nth_error_None in EN. rewrite firstn_all2 in X1 by lia. revert X1. apply over_ext. apply among_all. apply SN. }
  assert (I0 : In (p ++ [n], x) (fs w0)) by (apply children_In; eapply nth_error_In; eauto).
  assert (FX0 : find (fs w0) (p ++ [n]) = Some x) by (apply In_find; [apply SN|exact I0]).
  assert (G : good n). { destruct SN as [[_ T] _]. destruct (T _ _ I0) as (a & m & E & Gm & _). apply app_inj_tail in E as [_ ->]. exact Gm. }
  assert (NP : forall t, find (fs w) (p ++ t) = find (fs w0) (p ++ t)).
  { intros t. destruct S1 as [S1 _]. eapply touched_frame; [exact S1|]. intros U. apply (apart_not q p (p ++ t)) in U; [exact U|now apply apart_sym|apply under_app]. }
  assert (GL : (length n <= 255)%nat) by apply G.
  rewrite append_ok by (unfold LFN_BUF; lia). cbn [bind]. rewrite append_ok by (unfold LFN_BUF; lia). cbn [bind].
  set (w1 := tick w). assert (S01 : St q w0 w1) by exact S1.
  assert (SN1 : sane w1) by (eapply St_sane; [exact SN|exact S01]).
  assert (DK : forall r, find (fs w0) r = Some D -> find (fs w1) r = Some D) by (intros r; destruct S01 as [T _]; eapply touched_dir; exact T).
  assert (LC1 : leads w1 (from ++ n) (p ++ [n])) by (apply C1; [apply S01|exact DK|apply DK; exact EP|exact G]).
  assert (LC2 : leads w1 (to ++ n) (q ++ [n])) by (apply C2; [apply S01|exact DK|apply DK; exact EQ|exact G]).
  assert (AC : apart (p ++ [n]) (q ++ [n])) by now apply apart_app.
  assert (FX : find (fs w1) (p ++ [n]) = Some x) by (change (fs w1) with (fs w); now rewrite NP).
  assert (STEP : exists w2, (match x with D => rec w1 (from ++ n) (to ++ n) | F _ => copy_file luck w1 (from ++ n) (to ++ n) o end) = Ok w2 /\ St (q ++ [n]) w1 w2 /\
    (lucky -> quiet o (fs w1) (p ++ [n]) (q ++ [n]) -> fits (fs w1) (p ++ [n]) (q ++ [n]) -> free w1 (q ++ [n]) -> shallow w1 (p ++ [n]) ->
     over all (fs w1) (fs w2) (p ++ [n]) (q ++ [n]) /\ opened w2 = opened w1 /\ shown o w1 w2)).
  { destruct x as [data|].
    - destruct (file_ok o w1 _ _ _ _ data SN1 LC1 LC2 AC FX) as (w2 & E & S2 & X). exists w2. split; [exact E|]. split; [exact S2|]. intros K Q Ft Fr SH. apply X; auto.
      specialize (SH []). rewrite app_nil_r in SH. specialize (SH ltac:(congruence)). cbn [length] in SH. lia.
    - apply RO; auto. change (fs w1) with (fs w). destruct S1 as [S1 _]. rewrite (touched_size q (fs w0) (fs w)); [|exact S1|].
      + pose proof (size_lt (fs w0) p n D (find_In _ _ _ EP)). lia.
      + rewrite <- (app_nil_r q). now apply apart_app. }
  destruct STEP as (w2 & E2 & S2 & X2). rewrite E2. cbn [bind].
  assert (S02 : St q w0 w2) by (eapply St_trans; [exact S01|]; eapply St_up; [apply under_app|exact S2]).
  assert (ILT : (i < length (children (fs w0) p))%nat) by (apply nth_error_Some; congruence).
  destruct (IH w2 (S i) S02 ltac:(lia) ltac:(lia)) as (w' & E' & S' & X').
  exists w'. split; [exact E'|]. split; [exact S'|]. intros K Q Ft Fr SH (O1 & O2 & O3). apply X'; auto.
  assert (NI : ~ In n (map fst (firstn i (children (fs w0) p)))) by (eapply nodup_at; [apply children_names; apply SN|exact EN]).
  assert (NQ : forall t, find (fs w) (q ++ n :: t) = find (fs w0) (q ++ n :: t)).
  { intros t. destruct O1 as [_ O1]. apply O1. intros u Eu Pu. apply app_inv_head in Eu. subst u. cbn [among] in Pu. destruct (in_dec (list_eq_dec Z.eq_dec) n _); [easy|discriminate]. }
  destruct X2 as (Y1 & Y2 & Y3); auto.
  - destruct Q as [Q|Q]; [now left|right]. intros t dd. rewrite <- !app_assoc. change (fs w1) with (fs w). rewrite NP. cbn [app]. rewrite NQ. apply Q.
  - intros t a b. rewrite <- !app_assoc. change (fs w1) with (fs w). rewrite NP. cbn [app]. rewrite NQ. apply Ft.
  - unfold free. change (opened w1) with (opened w). rewrite O2. eapply Forall_impl; [|exact Fr]. intros r NU U. apply NU. eapply under_trans; [apply under_app|exact U].
  - intros t. rewrite <- app_assoc. change (fs w1) with (fs w). change (opened w1) with (opened w). rewrite NP, O2. cbn [app]. intros H. specialize (SH (n :: t) ltac:(discriminate) H). cbn [length] in SH. lia.
  - split; [|split].
    + rewrite (nth_snoc _ i _ EN), map_app. cbn [map fst]. eapply over_ext; [intros t _; apply among_snoc|].
      apply over_trans with (l1 := fs w); [exact A|exact O1|]. apply over_child. exact Y1.
    + rewrite Y2. exact O2.
    + eapply shown_trans; [exact O3|]. eapply shown_trans; [|exact Y3]. now apply shown_refl.
Qed.

Lemma remove1_leaks p leaks l : Forall (fun r => r <> p) leaks -> remove1 p (leaks ++ p :: l) = leaks ++ l.
Proof.
  induction leaks as [|r leaks IH]; intros FA; [apply remove1_head|]. inversion FA as [|? ? N FA']; subst. cbn [app remove1]. destruct (path_dec p r); [congruence|]. now rewrite IH.
Qed.

Lemma recursive_ok o : forall fuel, rec_ok fuel o (copy_recursive luck fuel o).
Proof.
  induction fuel as [|fuel IH]; intros w s d p q SN LP LQ A EP SZ; [lia|]. cbn [copy_recursive].
  destruct (leads_child w s p LP) as (from & E1 & _ & _ & _). destruct (leads_child w d q LQ) as (to & E2 & _ & _ & _). rewrite E1, E2. cbn [bind].
  assert (SQ : exists a n, q = a ++ [n] /\ good n /\ (a = [] \/ find (fs w) a = Some D)) by (now apply (leads_parent w d)).
  assert (PN : p <> []). { destruct (leads_parent w s p LP SN) as (a & n & -> & _). destruct a; discriminate. }
  assert (QP : find (fs w) q = find (fs w) q) by reflexivity.
  (* reading the directory *)
  assert (SCAN : forall w1, St q w w1 -> find (fs w1) q = Some D -> exists w',
    (let '(w2, r, p0) := opendir luck w1 s in
     if negb (is_ok r) then Ok (say w2 (Failed s r))
     else w3 <- copy_entries luck fuel (copy_recursive luck fuel o) w2 p0 0 (Z.of_nat (length s) + 1 + LFN_BUF + 1) (Z.of_nat (length d) + 1 + LFN_BUF + 1) from to o ;; Ok (closedir w3 p0)) = Ok w' /\
    St q w w' /\
    (lucky -> quiet o (fs w1) p q -> fits (fs w1) p q -> free w1 q -> shallow w1 p -> opened w1 = opened w -> out w1 = out w -> over top (fs w) (fs w1) p q -> over all (fs w) (fs w') p q /\ opened w' = opened w /\ shown o w w')).
  { intros w1 S1 EQ. unfold opendir. rewrite (leads_follow w1 s p) by (eapply St_leads; eauto).
    assert (NP : forall t, find (fs w1) (p ++ t) = find (fs w) (p ++ t)).
    { intros t. destruct S1 as [S1 _]. eapply touched_frame; [exact S1|]. intros U. apply (apart_not q p (p ++ t)) in U; [exact U|now apply apart_sym|apply under_app]. }
    assert (EP1 : find (fs w1) p = Some D) by (specialize (NP []); rewrite app_nil_r in NP; congruence). rewrite EP1.
    destruct (bad luck w1) eqn:BW.
    { cbn [is_ok negb]. eexists. split; [reflexivity|]. split; [exact S1|]. intros K. rewrite (not_bad w1 K) in BW. discriminate. }
    assert (GOP : forall T (x y : T), match p with [] => x | _ :: _ => y end = y) by (destruct p; [congruence|reflexivity]). rewrite GOP.
    destruct (Nat.ltb_spec (length (opened w1)) LOCKS) as [LK|LK].
    2: { cbn [is_ok negb]. eexists. split; [reflexivity|]. split; [exact S1|]. intros K Q Ft Fr SH. exfalso. specialize (SH []). rewrite app_nil_r in SH. specialize (SH ltac:(congruence)). lia. }
    cbn [is_ok negb]. set (w2 := tick (with_opened w1 (p :: opened w1))).
    assert (SN1 : sane w1) by (eapply St_sane; eauto).
    assert (SZ1 : size (fs w1) p = size (fs w) p) by (destruct S1 as [S1 _]; eapply touched_size; eauto).
    destruct (entries_ok o (copy_recursive luck fuel o) fuel IH s d p q from to w2) with (fuel := fuel) (w := w2) (i := O) as (w3 & E3 & S3 & X3); auto.
    - eapply leads_keep; [eapply St_leads; [exact S1|exact LP]|reflexivity|auto].
    - eapply leads_keep; [eapply St_leads; [exact S1|exact LQ]|reflexivity|auto].
    - change (fs w2) with (fs w1). lia.
    - now apply St_refl.
    - pose proof (children_lt (fs w1) p D (find_In _ _ _ EP1)). change (fs w2) with (fs w1). lia.
    - lia.
    - match goal with |- context [copy_entries ?a ?b ?c ?e ?f ?g ?h ?i ?j ?k ?m] => replace (copy_entries a b c e f g h i j k m) with (Ok w3) by (symmetry; exact E3) end.
      cbn [bind]. exists (closedir w3 p). split; [reflexivity|].
      replace (closedir w3 p) with (close w3 p) by (destruct p; [congruence|reflexivity]).
      destruct S3 as (T3 & C3 & leaks & O3 & FL). change (opened w2) with (p :: opened w1) in O3.
      assert (OC : opened (close w3 p) = leaks ++ opened w1).
      { cbn. rewrite O3. apply remove1_leaks. eapply Forall_impl; [|exact FL]. intros r U ->. destruct A as [_ A]. auto. }
      split.
      + eapply St_trans; [exact S1|]. split; [exact T3|]. split; [exact C3|]. exists leaks. split; [exact OC|exact FL].
      + intros K Q Ft Fr SH OE OU OT. destruct X3 as (Y1 & Y2 & Y3); auto.
        * constructor; [|exact Fr]. destruct A; auto.
        * intros t NE H. specialize (SH t H). cbn. lia.
        * split; [|split; [reflexivity|now apply shown_refl]]. cbn [firstn map]. change (fs w2) with (fs w1).
          assert (O0 : over top (fs w1) (fs w1) p q) by (apply over_refl; congruence). revert O0. apply over_ext. intros [|m t] _; reflexivity.
        * split; [|split].
          -- eapply over_ext; [|apply over_trans with (l1 := fs w1); [exact A|exact OT|exact Y1]]. intros t _. cbn. apply orb_true_r.
          -- rewrite OC. change (opened w2) with (p :: opened w1) in Y2. rewrite Y2 in O3. assert (LE : leaks = []).
             { apply (f_equal (@length _)) in O3. rewrite app_length in O3. cbn [length] in O3. destruct leaks; [reflexivity|cbn in O3; lia]. }
             rewrite LE. exact OE.
          -- eapply shown_trans; [apply shown_refl; exact OU|]. exact Y3. }
  unfold stat. rewrite (leads_follow w d q LQ). destruct (bad luck w) eqn:BW.
  - cbn [is_ok negb].
    assert (LQ1 : leads (tick w) d q) by (eapply leads_keep; eauto). unfold mkdir. rewrite (leads_follow _ d q LQ1). destruct (bad luck (tick w)).
    { cbn [is_ok negb]. eexists. split; [reflexivity|]. split; [now apply St_refl|]. intros K. rewrite (not_bad w K) in BW. discriminate. }
    destruct (find (fs (tick w)) q) as [x|] eqn:EQ.
    { cbn [is_ok negb]. eexists. split; [reflexivity|]. split; [now apply St_refl|]. intros K. rewrite (not_bad w K) in BW. discriminate. }
    cbn [is_ok negb]. destruct (SCAN (tick (with_fs (tick w) (set (fs (tick w)) q D)))) as (w' & E & S' & _).
    + destruct SQ as (a & n & Eq & Gn & Pa). split; [|split; [reflexivity|exists []; auto]]. cbn. rewrite Eq at 2. apply TSet; [constructor|rewrite Eq; apply (under_app _ [] ) || (exists []; now rewrite app_nil_r)|exact Gn|exact Pa|]. rewrite <- Eq. cbn in EQ. congruence.
    + cbn. rewrite find_set. destruct (path_dec q q); congruence.
    + exists w'. split; [exact E|]. split; [exact S'|]. intros K. rewrite (not_bad w K) in BW. discriminate.
  - destruct (find (fs w) q) as [[dq|]|] eqn:EQ; cbn [is_ok negb].
    + eexists. split; [reflexivity|]. split; [now apply St_refl|]. intros K Q Ft. exfalso. specialize (Ft [] D (F dq)). rewrite !app_nil_r in Ft. specialize (Ft EP EQ). discriminate.
    + destruct (SCAN (tick w)) as (w' & E & S' & X); [now apply St_refl|exact EQ|]. exists w'. split; [exact E|]. split; [exact S'|]. intros K Q Ft Fr SH.
      apply X; auto. apply over_refl. cbn. congruence.
    + assert (LQ1 : leads (tick w) d q) by (eapply leads_keep; eauto). unfold mkdir. rewrite (leads_follow _ d q LQ1). change (fs (tick w)) with (fs w). rewrite EQ.
      destruct (bad luck (tick w)) eqn:BW1.
      { cbn [is_ok negb]. eexists. split; [reflexivity|]. split; [now apply St_refl|]. intros K. rewrite (not_bad (tick w) K) in BW1. discriminate. }
      cbn [is_ok negb]. set (w1 := tick (with_fs (tick w) (set (fs w) q D))).
      assert (S1 : St q w w1).
      { destruct SQ as (a & n & Eq & Gn & Pa). split; [|split; [reflexivity|exists []; auto]]. cbn. rewrite Eq at 2. apply TSet; [constructor|rewrite Eq; exists []; now rewrite app_nil_r|exact Gn|exact Pa|]. rewrite <- Eq. congruence. }
      assert (OT : over top (fs w) (fs w1) p q) by (apply over_set; exact EP).
      assert (NP : forall t, find (fs w1) (p ++ t) = find (fs w) (p ++ t)) by (intros t; eapply over_src; eauto).
      assert (NQ : forall t, t <> [] -> find (fs w1) (q ++ t) = find (fs w) (q ++ t)).
      { intros t NE. cbn. rewrite find_set. destruct (path_dec q (q ++ t)) as [X|]; [|reflexivity]. exfalso. rewrite <- (app_nil_r q) in X at 1. apply app_inv_head in X. congruence. }
      assert (Q0 : find (fs w1) q = Some D) by (cbn; rewrite find_set; destruct (path_dec q q); congruence).
      destruct (SCAN w1 S1 Q0) as (w' & E & S' & X). exists w'. split; [exact E|]. split; [exact S'|]. intros K Q Ft Fr SH. apply X; auto.
      * destruct Q as [Q|Q]; [now left|right]. intros [|m t] dd H; [rewrite app_nil_r, Q0; discriminate|]. rewrite NQ by discriminate. apply Q. now rewrite <- NP.
      * intros [|m t] a b Ea Eb; [rewrite app_nil_r in *; specialize (NP []); rewrite app_nil_r in NP; congruence|]. rewrite NP in Ea. rewrite NQ in Eb by discriminate. eapply Ft; eauto.
      * intros t H. apply (SH t). now rewrite <- NP.
Qed.

(* --- copy_object --- *)

Lemma object_ok fuel o w s d p q x : sane w -> leads w s p -> leads w d q -> apart p q -> find (fs w) p = Some x -> (size (fs w) p < fuel)%nat ->
  exists w', copy_object luck fuel o w s d = Ok w' /\ St q w w' /\
    (lucky -> recursive o = true \/ kind x = false -> quiet o (fs w) p q -> fits (fs w) p q -> free w q -> shallow w p -> over all (fs w) (fs w') p q /\ opened w' = opened w /\ shown o w w').
Proof.
  intros SN LP LQ A EP SZ. unfold copy_object, stat. rewrite (leads_follow w s p LP), EP. destruct (bad luck w) eqn:BW.
  { cbn [is_ok negb]. eexists. split; [reflexivity|]. split; [now apply St_refl|]. intros K. rewrite (not_bad w K) in BW. discriminate. }
  cbn [is_ok negb].
  assert (SN1 : sane (tick w)) by exact SN. assert (LP1 : leads (tick w) s p) by (eapply leads_keep; eauto). assert (LQ1 : leads (tick w) d q) by (eapply leads_keep; eauto).
  destruct x as [data|].
  - destruct (file_ok o (tick w) s d p q data) as (w' & E & S' & X); auto. exists w'. split; [exact E|]. split; [exact S'|]. intros K _ Q Ft Fr SH. apply X; auto.
    specialize (SH []). rewrite app_nil_r in SH. specialize (SH ltac:(congruence)). cbn [length] in SH. cbn. lia.
  - destruct (recursive o) eqn:RO.
    + destruct (recursive_ok o fuel (tick w) s d p q) as (w' & E & S' & X); auto. exists w'. split; [exact E|]. split; [exact S'|]. intros K _ Q Ft Fr SH. apply X; auto.
    + eexists. split; [reflexivity|]. split; [now apply St_refl|]. intros K [H|H]; discriminate.
Qed.
End Luck.
