(* cp: single files, and what goes wrong. *)
From Coq Require Import Lia.
From Verif Require Import Base CopyModel CopySpec CopyProof CopyProof2 CopyProof3.
Open Scope Z_scope.

Definition yes_key (w : world) : Prop := hd 0 (keys w) = 121 \/ hd 0 (keys w) = 89.

Lemma cmd_file_asked luck fuel o w s d p q data old : sane w -> leads w s p -> leads w d q -> apart p q -> reliable luck -> force o = false ->
  find (fs w) p = Some (F data) -> find (fs w) q = Some (F old) -> free w q -> (length (opened w) + 2 <= LOCKS)%nat ->
  exists w', fpm_cmd_copy luck fuel o w [s; d] = Ok w' /\ closed w w' /\
    (yes_key w -> copied (fs w) (fs w') p q /\ find (fs w') q = Some (F data)) /\
    (~ yes_key w -> fs w' = fs w /\ out w' = Kept :: Ask d :: out w).
Proof.
  intros SN LP LQ A RL FO EP EQ Fr LK. change [s; d] with ([s] ++ [d]). rewrite cmd_args by discriminate.
  unfold stat. rewrite (leads_follow w d q LQ), EQ. unfold bad. rewrite RL. cbn [is_ok negb orb].
  assert (LP1 : forall w1, fs w1 = fs w -> cwd w1 = cwd w -> leads w1 s p) by (intros w1 X Y; eapply leads_keep; eauto; now rewrite X).
  assert (LQ1 : forall w1, fs w1 = fs w -> cwd w1 = cwd w -> leads w1 d q) by (intros w1 X Y; eapply leads_keep; eauto; now rewrite X).
  unfold copy_object, stat. rewrite (leads_follow (tick w) s p) by now apply LP1. cbn [tick fs]. rewrite EP. unfold bad. rewrite RL. cbn [is_ok negb].
  unfold copy_file, stat. rewrite FO. rewrite (leads_follow (tick (tick w)) d q) by now apply LQ1. cbn [tick fs]. rewrite EQ. unfold bad. rewrite RL. cbn [is_ok].
  unfold ask. set (w1 := World _ _ _ _ _ _).
  destruct ((hd 0 (keys (tick (tick (tick w)))) =? 121) || (hd 0 (keys (tick (tick (tick w)))) =? 89)) eqn:Y; cbn [tick keys] in Y.
  - destruct (contents_ok luck o w1 s d p q data) as (w' & E & S1 & X); [exact SN|now apply LP1|now apply LQ1|exact A|exact EP|].
    exists w'. split; [exact E|]. destruct X as (O1 & P1 & _); [exact RL| |exact Fr|exact LK|].
    { intros t a b Ea Eb. destruct t as [|m t]; [rewrite app_nil_r in *; cbn in Ea, Eb; rewrite EP in Ea; rewrite EQ in Eb; injection Ea as <-; injection Eb as <-; reflexivity|].
      exfalso. rewrite (file_alone _ p data (m :: t)) in Ea; [discriminate|apply SN|exact EP|discriminate]. }
    split; [|split].
    + split; [exact P1|]. split; [apply S1|]. eapply St_sane; [|exact S1]. exact SN.
    + intros _. apply over_copied in O1. split; [exact O1|]. destruct O1 as [O1 _]. specialize (O1 [] (F data)). rewrite !app_nil_r in O1. now apply O1.
    + intros NY. exfalso. apply NY. apply orb_true_iff in Y as [Y|Y]; [left|right]; lia.
  - eexists. split; [reflexivity|]. split; [|split].
    + split; [reflexivity|]. split; [reflexivity|exact SN].
    + intros [H|H]; rewrite H in Y; discriminate.
    + intros _. split; reflexivity.
Qed.

(* a file onto itself *)
Lemma cmd_self luck fuel o w s d p data : sane w -> leads w s p -> leads w d p -> find (fs w) p = Some (F data) ->
  exists w', fpm_cmd_copy luck fuel o w [s; d] = Ok w' /\ fs w' = fs w /\ closed w w' /\
    (reliable luck -> force o = true -> (length (opened w) < LOCKS)%nat -> out w' = Failed d LOCKED :: out w).
Proof.
  intros SN LP LQ EP. change [s; d] with ([s] ++ [d]). rewrite cmd_args by discriminate.
  assert (C : forall w1, fs w1 = fs w -> cwd w1 = cwd w -> opened w1 = opened w -> exists w', copy_contents luck w1 s d o = Ok w' /\ fs w' = fs w /\ closed w w' /\
    (out w1 = out w -> reliable luck -> (length (opened w) < LOCKS)%nat -> out w' = Failed d LOCKED :: out w)).
  { intros w1 E1 E2 E3. assert (K : forall r, find (fs w) r = Some D -> find (fs w1) r = Some D) by (intros r; now rewrite E1).
    assert (CL : forall w', fs w' = fs w -> cwd w' = cwd w -> opened w' = opened w -> fs w' = fs w /\ closed w w').
    { intros w' F1 F2 F3. split; [exact F1|]. split; [exact F3|]. split; [exact F2|]. destruct SN as [T X]. split; [now rewrite F1|now rewrite F1, F2]. }
    unfold copy_contents, open_read. rewrite (leads_follow w1 s p) by (eapply leads_keep; eauto). rewrite E1, EP, E3.
    destruct (bad luck w1) eqn:B1.
    { eexists. split; [reflexivity|]. rewrite <- and_assoc. split; [now apply CL|]. intros _ RL. unfold bad in B1. rewrite RL in B1. discriminate. }
    destruct (Nat.ltb_spec (length (opened w)) LOCKS) as [LK|LK].
    2: { eexists. split; [reflexivity|]. rewrite <- and_assoc. split; [now apply CL|]. intros _ _ X. lia. }
    cbn [is_ok negb]. set (w2 := tick _).
    assert (L2 : leads w2 d p) by (eapply leads_keep; eauto).
    unfold open_write. rewrite (leads_follow w2 d p L2). change (fs w2) with (fs w1). rewrite E1, EP.
    destruct (bad luck w2) eqn:B2.
    { eexists. split; [reflexivity|]. rewrite <- and_assoc. split; [apply CL; [exact E1|exact E2|apply remove1_head]|]. intros _ RL. unfold bad in B2. rewrite RL in B2. discriminate. }
    change (opened w2) with (p :: opened w). cbn [existsb]. destruct (path_dec p p) as [_|X]; [|congruence]. cbn [orb]. cbn [is_ok negb].
    eexists. split; [reflexivity|]. rewrite <- and_assoc. split; [apply CL; [exact E1|exact E2|apply remove1_head]|]. intros OU _ _. cbn. now rewrite OU. }
  unfold stat. rewrite (leads_follow w d p LQ), EP.
  assert (GO : exists w', copy_object luck fuel o (tick w) s d = Ok w' /\ fs w' = fs w /\ closed w w' /\
    (reliable luck -> force o = true -> (length (opened w) < LOCKS)%nat -> out w' = Failed d LOCKED :: out w)).
  { unfold copy_object, stat. rewrite (leads_follow (tick w) s p) by (eapply leads_keep; eauto). cbn [tick fs]. rewrite EP.
    destruct (bad luck (tick w)) eqn:B.
    { cbn [is_ok negb]. eexists. split; [reflexivity|]. split; [reflexivity|]. split; [split; [reflexivity|split; [reflexivity|exact SN]]|]. intros RL. unfold bad in B. rewrite RL in B. discriminate. }
    cbn [is_ok negb]. unfold copy_file. destruct (force o).
    { destruct (C (tick (tick w)) eq_refl eq_refl eq_refl) as (w' & E & F' & CL' & X). exists w'. split; [exact E|]. split; [exact F'|]. split; [exact CL'|]. intros RL _ LK. now apply X. }
    unfold stat. rewrite (leads_follow (tick (tick w)) d p) by (eapply leads_keep; eauto). cbn [tick fs]. rewrite EP.
    destruct (bad luck (tick (tick w))); cbn [is_ok].
    { destruct (C (tick (tick (tick w))) eq_refl eq_refl eq_refl) as (w' & E & F' & CL' & X). exists w'. split; [exact E|]. split; [exact F'|]. split; [exact CL'|]. intros _ X0. discriminate. }
    unfold ask. set (w1 := World _ _ _ _ _ _). destruct (_ || _).
    { destruct (C w1 eq_refl eq_refl eq_refl) as (w' & E & F' & CL' & X). exists w'. split; [exact E|]. split; [exact F'|]. split; [exact CL'|]. intros _ X0. discriminate. }
    eexists. split; [reflexivity|]. split; [reflexivity|]. split; [split; [reflexivity|split; [reflexivity|exact SN]]|]. intros _ X0. discriminate. }
  destruct (bad luck w); cbn [is_ok negb orb]; exact GO.
Qed.

(* a directory without -r *)
Lemma cmd_no_r luck fuel o w s d p q : sane w -> leads w s p -> leads w d q -> reliable luck -> recursive o = false -> find (fs w) p = Some D -> find (fs w) q <> Some D ->
  exists w', fpm_cmd_copy luck fuel o w [s; d] = Ok w' /\ fs w' = fs w /\ closed w w' /\ out w' = NeedsR s :: out w.
Proof.
  intros SN LP LQ RL RO EP EQ. change [s; d] with ([s] ++ [d]). rewrite cmd_args by discriminate.
  assert (GO : exists w', copy_object luck fuel o (tick w) s d = Ok w' /\ fs w' = fs w /\ closed w w' /\ out w' = NeedsR s :: out w).
  { unfold copy_object, stat. rewrite (leads_follow (tick w) s p) by (eapply leads_keep; eauto). cbn [tick fs]. rewrite EP. unfold bad. rewrite RL. cbn [is_ok negb]. rewrite RO.
    eexists. split; [reflexivity|]. split; [reflexivity|]. split; [|reflexivity]. split; [reflexivity|]. split; [reflexivity|exact SN]. }
  unfold stat. rewrite (leads_follow w d q LQ). unfold bad. rewrite RL. destruct (find (fs w) q) as [[dq|]|]; [|congruence|]; cbn [is_ok negb orb]; exact GO.
Qed.

(* --- witnesses --- *)

Definition nf : name := [102]. Definition ng : name := [103]. Definition nb : name := [98]. Definition nx : name := [120].
Definition fine : nat -> verdict := fun _ => Fine.
Definition once (k : nat) : nat -> verdict := fun n => if (n =? k)%nat then Bad else Fine.
(* f is a directory with the file g *)
Definition wf : files := [([nf], D); ([nf; ng], F [1; 2; 3]); ([nx], D); ([nb], D)].
Definition w_of (l : files) : world := World l [] [] [] 0 [].
Definition rec : opts := Opts false true false.

Lemma wf_tree : tree wf.
Proof.
  split; [repeat constructor; cbn; intuition discriminate|]. intros p o I. cbn in I.
  assert (G : forall c, c <> 47 -> c <> 46 -> good [c]).
  { intros c A B. repeat split; try (intros [= E]; congruence); try discriminate; [|cbn; lia]. intros [E|[]]. congruence. }
  destruct I as [E|[E|[E|[E|[]]]]]; injection E as <- <-.
  - exists [], nf. repeat split; auto; try (apply G; discriminate).
  - exists [nf], ng. split; [reflexivity|]. split; [apply G; discriminate|]. right. now left.
  - exists [], nx. repeat split; auto; apply G; discriminate.
  - exists [], nb. repeat split; auto; apply G; discriminate.
Qed.
Lemma good1 c : c <> 47 -> c <> 46 -> good [c].
Proof. intros A B. repeat split; try (intros [= E]; congruence); try discriminate; [|cbn; lia]. intros [E|[]]. congruence. Qed.

(* cp -r f/ b: the text of the destination has no end *)
Lemma slash_no_end : ~ (forall fuel o w s d c, sane w -> leads w s c -> leads w d [nb] -> exists w', fpm_cmd_copy fine fuel o w [s; d] = Ok w').
Proof.
  intros H. destruct (H 9%nat rec (w_of wf) [102; 47] [98] [nf]) as [w' E].
  - split; [exact wf_tree|now left].
  - exists [nf], []. split; [apply (PNext nf [] []); [apply good1; discriminate|constructor]|]. split; [discriminate|]. split; [right; split; [discriminate|reflexivity]|]. split; [reflexivity|].
    intros [|u a] b X Na Nb; [congruence|]. injection X as _ X. destruct a; [|discriminate]. cbn in X. congruence.
  - exists [nb], []. split; [constructor; apply good1; discriminate|]. split; [discriminate|]. split; [right; split; [discriminate|reflexivity]|]. split; [reflexivity|].
    intros [|u a] b X Na Nb; [congruence|]. injection X as _ X. destruct a; [|discriminate]. cbn in X. congruence.
  - vm_compute in E. discriminate.
Qed.
(* cp -r x f/ b/: f is not copied to b but to b/x *)
Lemma slash_wrong_name : exists w', fpm_cmd_copy fine 9 rec (w_of wf) [[120]; [102; 47]; [98; 47]] = Ok w' /\ find (fs w') [nb; ng] = None /\ find (fs w') [nb; nx; ng] = Some (F [1; 2; 3]) /\ out w' = [].
Proof. eexists. split; [vm_compute; reflexivity|]. repeat split. Qed.
Lemma empty_source : fpm_cmd_copy fine 9 rec (w_of wf) [[]; [98]] = Ub.
Proof. reflexivity. Qed.

(* an error of f_readdir, or of f_close, goes unnoticed; the place in Files[] is lost *)
Lemma silent_readdir : exists k w', fpm_cmd_copy (once k) 9 rec (w_of wf) [[102]; [99]] = Ok w' /\ find (fs w') [[99]; ng] = None /\ out w' = [].
Proof. exists 5%nat. eexists. split; [vm_compute; reflexivity|]. repeat split. Qed.
Lemma silent_close : exists k w', fpm_cmd_copy (once k) 9 (Opts false true true) (w_of wf) [[102]; [99]] = Ok w' /\ find (fs w') [[99]; ng] = Some (F []) /\
  out w' = [Copied [102; 47; 103] [99; 47; 103]] /\ opened w' = [[[99]; ng]].
Proof. exists 13%nat. eexists. split; [vm_compute; reflexivity|]. repeat split. Qed.

(* cp -r x x/b copies the copy, until no more can be opened *)
Fixpoint times (n : nat) (m : name) : path := match n with O => [] | S n => m :: times n m end.
Lemma into_itself : exists w', fpm_cmd_copy fine 40 rec (w_of wf) [[120]; [120; 47; 98]] = Ok w' /\ find (fs w') (nx :: times 17 nb) = Some D /\ (exists s, out w' = [Failed s TOO_MANY]) /\ ~ copied wf (fs w') [nx] [nx; nb].
Proof.
  eexists. split; [vm_compute; reflexivity|]. split; [reflexivity|]. split; [eexists; reflexivity|]. intros [_ H]. specialize (H [nx; nb; nb]).
  assert (E : find wf [nx; nb; nb] = None) by reflexivity. rewrite E in H. cbn [fs] in H. discriminate H.
  intros t X. injection X as <-. reflexivity.
Qed.
