(* cp: the command. *)
From Coq Require Import Lia.
From Verif Require Import Base CopyModel CopySpec CopyProof CopyProof2.
Open Scope Z_scope.

(* --- last names --- *)

Lemma after_slash_app : forall a b cur, after_slash (a ++ 47 :: b) cur = after_slash b [].
Proof. induction a as [|c a IH]; intros b cur; cbn [app after_slash]; [now rewrite Z.eqb_refl|apply IH]. Qed.
Lemma after_slash_name : forall n cur, ~ In 47 n -> after_slash n cur = cur ++ n.
Proof.
  induction n as [|c n IH]; intros cur S; cbn [after_slash]; [now rewrite app_nil_r|]. destruct (Z.eqb_spec c 47) as [->|]; [exfalso; apply S; now left|].
  rewrite IH by (intros I; apply S; now right). now rewrite <- app_assoc.
Qed.
Lemma parts_nil s : parts s [] -> Forall (fun x => x = 47) s.
Proof. intros P. remember [] as ns eqn:E. revert E. induction P; intros E; [constructor| |discriminate|discriminate]. constructor; auto. Qed.
Lemma all_slash_end s : s <> [] -> Forall (fun x => x = 47) s -> slash_end s.
Proof. intros N F. destruct (exists_last N) as [s' [c ->]]. exists s'. apply Forall_app in F as [_ F]. inversion F; subst. reflexivity. Qed.
Lemma slash_end_app a b : slash_end b -> slash_end (a ++ b).
Proof. intros [b' ->]. exists (a ++ b'). now rewrite app_assoc. Qed.
Lemma parts_last s ns : parts s ns -> forall a n, ns = a ++ [n] -> ~ slash_end s -> after_slash s [] = n.
Proof.
  induction 1 as [|s ns P IH|m G|m s ns G P IH]; intros a n E N.
  - destruct a; discriminate.
  - change (47 :: s) with ([] ++ 47 :: s). rewrite after_slash_app. apply (IH a n E). intros X. apply N. apply (slash_end_app [47]). exact X.
  - destruct a as [|? [|? ?]]; try discriminate. injection E as ->. rewrite after_slash_name; [reflexivity|apply G].
  - rewrite after_slash_app. destruct a as [|x a].
    + injection E as -> ->. exfalso. apply N. apply slash_end_app. destruct s as [|c s]; [now exists []|]. apply (slash_end_app [47]). apply all_slash_end; [discriminate|]. now apply parts_nil.
    + injection E as -> ->. apply (IH a n eq_refl). intros X. apply N. apply slash_end_app. now apply (slash_end_app [47]).
Qed.
Lemma leads_last w s p a n : leads w s p -> p = a ++ [n] -> ~ slash_end s -> after_slash s [] = n.
Proof.
  intros (ns & start & P & NE & S & E & C) En NS. destruct (exists_last NE) as [b [m Eb]]. eapply parts_last; [exact P| |exact NS]. rewrite Eb. f_equal. f_equal.
  rewrite E, Eb, app_assoc in En. apply app_inj_tail in En as [_ ->]. reflexivity.
Qed.

Lemma parts_slashes d n : Forall (fun x => x = 47) d -> good n -> parts (d ++ n) [n].
Proof. intros F G. induction F as [|x d E F IH]; [now constructor|]. subst x. cbn [app]. now constructor. Qed.
Lemma comps_slashes d : Forall (fun x => x = 47) d -> comps d [] = [].
Proof. induction 1 as [|x d E F IH]; [reflexivity|]. subst x. exact IH. Qed.

(* destinations below the directory *)
Lemma into_child w d c : into w d c -> exists base, (match rev d with 47 :: _ => d | _ => d ++ [47] end) = base /\ (length base <= length d + 1)%nat /\
  forall w' n, cwd w' = cwd w -> (forall r, find (fs w) r = Some D -> find (fs w') r = Some D) -> good n -> leads w' (base ++ n) (c ++ [n]).
Proof.
  intros [[L E]|(NE & F & ->)].
  - destruct (leads_child w d c L) as (b & SB & LB & NB & C). exists b. split; [|split; [exact LB|]].
    + unfold slashed in SB. destruct (rev d) as [|x r]; [discriminate|]. destruct (Z.eqb_spec x 47) as [->|N]; injection SB as <-; [reflexivity|].
      destruct x as [|x|x]; try reflexivity. repeat (destruct x as [x|x|]; try reflexivity). congruence.
    + intros w' n CW K G. apply C; auto.
  - exists d. split; [|split; [lia|]].
    + destruct (all_slash_end d NE F) as [d' ->]. rewrite rev_app_distr. reflexivity.
    + intros w' n _ _ G. exists [n], []. split; [now apply parts_slashes|]. split; [discriminate|]. split.
      * left. split; [|reflexivity]. rewrite hd_app by exact NE. destruct d as [|x d]; [congruence|]. now inversion F.
      * split; [reflexivity|]. intros [|u a] b X Na Nb; [congruence|]. injection X as _ X. destruct a; [|discriminate]. cbn in X. congruence.
Qed.

Lemma into_stat luck w d c : into w d c -> exists r dir, stat luck w d = (tick w, r, dir) /\
  (luck (calls w) <> Bad -> (match r with INVALID_NAME => (OK, true) | _ => (r, dir) end) = (OK, true)).
Proof.
  intros I. unfold stat. do 2 eexists. split; [reflexivity|]. intros K. assert (B : bad luck w = false) by (unfold bad; destruct (luck (calls w)); congruence). rewrite B.
  destruct I as [[L E]|(NE & F & ->)].
  - rewrite (leads_follow w d c L), E. reflexivity.
  - unfold follow. rewrite (comps_slashes d F). reflexivity.
Qed.

Lemma Forall2_impl {A B} (P Q : A -> B -> Prop) l m : (forall a b, P a b -> Q a b) -> Forall2 P l m -> Forall2 Q l m.
Proof. intros H F. induction F; constructor; auto. Qed.
Section Luck.
Variable luck : nat -> verdict.

Lemma ready_keep fuel o w w' q p q0 : apart p q0 -> apart q q0 -> St q0 w w' -> opened w' = opened w -> ready fuel o w p q -> ready fuel o w' p q.
Proof.
  intros A1 A2 (T & _) OE (AP & (x & E & R) & Q & Ft & Fr & SH & SZ).
  assert (NP : forall a t, apart a q0 -> find (fs w') (a ++ t) = find (fs w) (a ++ t)).
  { intros a t A. eapply touched_frame; [exact T|]. intros U. apply (apart_not q0 a (a ++ t)) in U; [exact U|now apply apart_sym|apply under_app]. }
  split; [exact AP|]. split; [|split; [|split; [|split; [|split]]]].
  - exists x. split; [|exact R]. specialize (NP p [] A1). rewrite app_nil_r in NP. congruence.
  - destruct Q as [Q|Q]; [now left|right]. intros t d. rewrite !NP by assumption. apply Q.
  - intros t a b. rewrite !NP by assumption. apply Ft.
  - unfold free. now rewrite OE.
  - intros t. rewrite NP, OE by assumption. apply SH.
  - erewrite touched_size; eauto.
Qed.

Lemma copied_all_cons l l1 l2 p n ps c : (forall q m, In (q, m) ps -> m <> n) -> (forall q m, In (q, m) ps -> apart q (c ++ [n])) ->
  (forall q m, In (q, m) ((p, n) :: ps) -> apart p (c ++ [m])) ->
  over all l l1 p (c ++ [n]) -> copied_all l1 l2 ps c -> copied_all l l2 ((p, n) :: ps) c.
Proof.
  intros ND A1 A2 [O1 O2] [C1 C2].
  assert (SRC : forall q m t, In (q, m) ps -> find l1 (q ++ t) = find l (q ++ t)).
  { intros q m t I. apply O2. intros u E. exfalso. apply (apart_ne q (c ++ [n])) in E; [easy|eauto]. }
  split.
  - intros q m t x [[= <- <-]|I] E.
    + rewrite C2.
      * specialize (O1 t x eq_refl E). rewrite <- app_assoc in O1. exact O1.
      * intros q m u I X. apply app_inv_head in X. injection X as X _. exfalso. eapply ND; eauto.
    + eapply C1; [exact I|]. now rewrite (SRC q m).
  - intros r H. rewrite C2.
    + apply O2. intros t E _. rewrite <- app_assoc in E. eapply H; [now left|exact E].
    + intros q m t I E. rewrite (SRC q m) by exact I. eapply H; [right; exact I|exact E].
Qed.

Lemma each_ok o fuel n base c w0 : (forall w' m, cwd w' = cwd w0 -> (forall r, find (fs w0) r = Some D -> find (fs w') r = Some D) -> good m -> leads w' (base ++ m) (c ++ [m])) ->
  Z.of_nat (length base) + 256 <= n ->
  forall ss ps w tail, sane w -> cwd w = cwd w0 -> (forall r, find (fs w0) r = Some D -> find (fs w) r = Some D) -> given w ss ps -> reliable luck ->
  NoDup (map snd ps) -> (forall p m p' m', In (p, m) ps -> In (p', m') ps -> apart p (c ++ [m'])) -> (forall p m, In (p, m) ps -> ready fuel o w p (c ++ [m])) ->
  exists w', copy_each luck fuel o w n base tail ss = Ok w' /\ copied_all (fs w) (fs w') ps c /\ opened w' = opened w /\ cwd w' = cwd w /\ sane w' /\ shown o w w'.
Proof.
  intros LB BL. induction ss as [|s ss IH]; intros ps w tail SN CW K G RL ND AP RD.
  - inversion G; subst. exists w. split; [reflexivity|]. split; [split; [easy|auto]|]. repeat split; auto; try apply SN. now apply shown_refl.
  - inversion G as [|? [p m] ? ps' G1 G']; subst. destruct G1 as (L & [a En] & NS). cbn [fst snd] in *. cbn [copy_each].
    assert (NE : s <> []). { destruct L as (ns & start & P & X & _). eapply parts_ne; eauto. }
    destruct (exists_last NE) as [s' [x Es]]. assert (ER : rev s = x :: rev s') by (rewrite Es, rev_app_distr; reflexivity). rewrite ER.
    destruct (Z.eqb_spec x 47) as [->|NX]; [exfalso; apply NS; now exists s'|].
    rewrite (leads_last w s p a m L En NS).
    assert (Gm : good m). { destruct (leads_parent w s p L SN) as (a' & m' & E' & Gm & _). rewrite En in E'. apply app_inj_tail in E' as [_ <-]. exact Gm. }
    assert (ML : (length m <= 255)%nat) by apply Gm.
    rewrite append_ok by lia. cbn [bind].
    destruct (RD p m (or_introl eq_refl)) as (A & (x0 & Ex & R) & Q & Ft & Fr & SH & SZ).
    destruct (object_ok luck fuel o w s (base ++ m) p (c ++ [m]) x0) as (w1 & E1 & S1 & X1); auto.
    destruct X1 as (O1 & P1 & H1); auto. rewrite E1. cbn [bind]. cbn [map snd] in ND. inversion ND as [|? ? ND1 ND2].
    assert (NM : forall q m0, In (q, m0) ps' -> m0 <> m). { intros q m0 I ->. apply ND1. apply (in_map snd) in I. exact I. }
    destruct (IH ps' w1 (Some m)) as (w' & E' & C' & P' & CW' & SN' & H').
    + eapply St_sane; eauto.
    + destruct S1 as (_ & S1 & _). congruence.
    + intros r D0. destruct S1 as (T & _). eapply touched_dir; eauto.
    + unfold given. eapply Forall2_impl; [|exact G']. intros s0 e (L0 & X & N0). split; [eapply St_leads; eauto|auto].
    + exact RL.
    + exact ND2.
    + intros. eapply AP; right; eauto.
    + intros q m0 I. eapply ready_keep; [| |exact S1|exact P1|apply RD; now right].
      * eapply AP; [right; exact I|now left].
      * split; intros [t X]; rewrite <- app_assoc in X; apply app_inv_head in X; injection X as X _; apply (NM q m0 I); congruence.
    + exists w'. split; [exact E'|]. split; [|split; [congruence|split; [|split; [exact SN'|]]]].
      * eapply copied_all_cons; [exact NM| | |exact O1|exact C'].
        -- intros q m0 I. eapply AP; [right; exact I|now left].
        -- intros q m0 I. eapply AP; [now left|exact I].
      * destruct S1 as (_ & S1 & _). congruence.
      * eapply shown_trans; eauto.
Qed.

(* any luck *)
Lemma each_St o fuel n base c w0 : (forall w' m, cwd w' = cwd w0 -> (forall r, find (fs w0) r = Some D -> find (fs w') r = Some D) -> good m -> leads w' (base ++ m) (c ++ [m])) ->
  Z.of_nat (length base) + 256 <= n ->
  forall ss ps w tail, sane w -> cwd w = cwd w0 -> (forall r, find (fs w0) r = Some D -> find (fs w) r = Some D) -> given w ss ps ->
  (forall p m, In (p, m) ps -> apart p c /\ (size (fs w) p < fuel)%nat) ->
  exists w', copy_each luck fuel o w n base tail ss = Ok w' /\ St c w w'.
Proof.
  intros LB BL. induction ss as [|s ss IH]; intros ps w tail SN CW K G RD.
  - exists w. split; [reflexivity|]. now apply St_refl.
  - inversion G as [|? [p m] ? ps' G1 G']; subst. destruct G1 as (L & [a En] & NS). cbn [fst snd] in *. cbn [copy_each].
    assert (NE : s <> []). { destruct L as (ns & start & P & X & _). eapply parts_ne; eauto. }
    destruct (exists_last NE) as [s' [x Es]]. assert (ER : rev s = x :: rev s') by (rewrite Es, rev_app_distr; reflexivity). rewrite ER.
    destruct (Z.eqb_spec x 47) as [->|NX]; [exfalso; apply NS; now exists s'|].
    rewrite (leads_last w s p a m L En NS).
    assert (Gm : good m). { destruct (leads_parent w s p L SN) as (a' & m' & E' & Gm & _). rewrite En in E'. apply app_inj_tail in E' as [_ <-]. exact Gm. }
    assert (ML : (length m <= 255)%nat) by apply Gm.
    rewrite append_ok by lia. cbn [bind].
    destruct (RD p m (or_introl eq_refl)) as (A & SZ).
    assert (X1 : exists w1, copy_object luck fuel o w s (base ++ m) = Ok w1 /\ St c w w1).
    { destruct (find (fs w) p) as [x0|] eqn:EX.
      - destruct (object_ok luck fuel o w s (base ++ m) p (c ++ [m]) x0) as (w1 & E1 & S1 & _); auto.
        + rewrite <- (app_nil_r p). now apply apart_app.
        + exists w1. split; [exact E1|]. eapply St_up; [apply under_app|exact S1].
      - unfold copy_object, stat. rewrite (leads_follow w s p L), EX. destruct (bad luck w); cbn [is_ok negb]; (eexists; split; [reflexivity|now apply St_refl]). }
    destruct X1 as (w1 & E1 & S1). rewrite E1. cbn [bind].
    destruct (IH ps' w1 (Some m)) as (w' & E' & S').
    + eapply St_sane; eauto.
    + destruct S1 as (_ & S1 & _). congruence.
    + intros r D0. destruct S1 as (T & _). eapply touched_dir; eauto.
    + unfold given. eapply Forall2_impl; [|exact G']. intros s0 e (L0 & X & N0). split; [eapply St_leads; eauto|auto].
    + intros q m0 I. destruct (RD q m0 (or_intror I)) as [A0 SZ0]. split; [exact A0|]. destruct S1 as (T & _). erewrite touched_size; eauto.
    + exists w'. split; [exact E'|]. eapply St_trans; eauto.
Qed.
End Luck.

Lemma rev_args {A} (ss : list A) d : rev (ss ++ [d]) = d :: rev ss.
Proof. now rewrite rev_app_distr. Qed.
Lemma cmd_args luck fuel o w ss d : ss <> [] -> fpm_cmd_copy luck fuel o w (ss ++ [d]) =
  (let '(w, r, dir) := stat luck w d in
   let '(r, dir) := match r with INVALID_NAME => (OK, true) | _ => (r, dir) end in
   if negb (is_ok r) || negb dir then match ss with [s] => copy_object luck fuel o w s d | _ => Ok (say w (NotDir d)) end
   else copy_to_directory luck fuel o w ss d).
Proof.
  intros N. unfold fpm_cmd_copy. rewrite rev_args. destruct (rev ss) as [|y r] eqn:E.
  - exfalso. apply N. rewrite <- (rev_involutive ss), E. reflexivity.
  - rewrite <- E, rev_involutive. reflexivity.
Qed.

Lemma ready_tick fuel o w p q : ready fuel o w p q -> ready fuel o (tick w) p q.
Proof. exact (fun H => H). Qed.
Lemma dest_size (d base : list Z) : (length base <= length d + 1)%nat -> Z.of_nat (length base) + 256 <= Z.of_nat (length d) + LFN_BUF + 2.
Proof. unfold LFN_BUF. lia. Qed.

(* several sources into a directory *)
Lemma to_directory_ok luck fuel o w ss d ps c : sane w -> into w d c -> given w ss ps -> reliable luck -> ss <> [] ->
  NoDup (map snd ps) -> (forall p m p' m', In (p, m) ps -> In (p', m') ps -> apart p (c ++ [m'])) -> (forall p m, In (p, m) ps -> ready fuel o w p (c ++ [m])) ->
  exists w', fpm_cmd_copy luck fuel o w (ss ++ [d]) = Ok w' /\ copied_all (fs w) (fs w') ps c /\ closed w w' /\ shown o w w'.
Proof.
  intros SN I G RL NS ND AP RD. rewrite cmd_args by exact NS. destruct (into_stat luck w d c I) as (r & dir & E & X). rewrite E, X by (rewrite RL; discriminate). cbn [is_ok negb orb].
  destruct (into_child w d c I) as (base & EB & BL & LB). unfold copy_to_directory.
  assert (H : forall tail, exists w', copy_each luck fuel o (tick w) (Z.of_nat (length d) + LFN_BUF + 2) base tail ss = Ok w' /\ copied_all (fs w) (fs w') ps c /\ closed w w' /\ shown o w w').
  { intros tail. destruct (each_ok luck o fuel (Z.of_nat (length d) + LFN_BUF + 2) base c w LB (dest_size d base BL) ss ps (tick w) tail) as (w' & E' & C' & P' & CW' & SN' & H'); auto.
    exists w'. split; [exact E'|]. split; [exact C'|]. split; [split; [exact P'|]; split; [exact CW'|exact SN']|exact H']. }
  destruct (rev d) as [|x l] eqn:ER; [subst base; apply H|]. destruct (Z.eq_dec x 47) as [->|NX]; [subst base; apply H|].
  assert (M : forall T (a b : T), match x :: l with 47 :: _ => a | _ => b end = b).
  { intros T a b. destruct x as [|x|x]; try reflexivity. repeat (destruct x as [x|x|]; try reflexivity). congruence. }
  rewrite M in *. subst base. apply H.
Qed.

(* one source, onto a name that is no directory, or a directory with a slash at both ends *)
Lemma cmd_single_ok luck fuel o w s d p q : sane w -> leads w s p -> leads w d q -> reliable luck -> ready fuel o w p q ->
  find (fs w) q <> Some D \/ slash_end s /\ slash_end d ->
  exists w', fpm_cmd_copy luck fuel o w [s; d] = Ok w' /\ copied (fs w) (fs w') p q /\ closed w w' /\ shown o w w'.
Proof.
  intros SN LP LQ RL RD H. change [s; d] with ([s] ++ [d]). rewrite cmd_args by discriminate.
  assert (LP1 : leads (tick w) s p) by (eapply leads_keep; eauto). assert (LQ1 : leads (tick w) d q) by (eapply leads_keep; eauto).
  destruct RD as (A & (x & Ex & R) & Q & Ft & Fr & SH & SZ).
  destruct (object_ok luck fuel o (tick w) s d p q x) as (w' & E & S1 & X); auto. destruct X as (O1 & P1 & H1); auto.
  assert (GO : exists w', copy_object luck fuel o (tick w) s d = Ok w' /\ copied (fs w) (fs w') p q /\ closed w w' /\ shown o w w').
  { exists w'. split; [exact E|]. split; [now apply over_copied|]. split; [|exact H1]. split; [exact P1|]. split; [apply S1|]. eapply St_sane; [|exact S1]. exact SN. }
  unfold stat. rewrite (leads_follow w d q LQ). unfold bad. rewrite RL. destruct H as [H|[[s' ->] [d' ->]]].
  - destruct (find (fs w) q) as [[dq|]|] eqn:EQ; [|congruence|]; cbn [is_ok negb orb]; exact GO.
  - destruct (find (fs w) q) as [[dq|]|] eqn:EQ; cbn [is_ok negb orb]; [exact GO| |exact GO].
    unfold copy_to_directory. rewrite rev_app_distr. cbn [rev app copy_each]. rewrite rev_app_distr. cbn [rev app]. rewrite Z.eqb_refl. cbn [bind]. rewrite app_nil_r.
    destruct GO as (w2 & E2 & X2). rewrite E2. cbn [bind]. exists w2. split; [reflexivity|exact X2].
Qed.

(* any luck: nothing outside of the destination changes *)
Lemma cmd_confined luck fuel o w ss d ps c : sane w -> leads w d c -> given w ss ps ->
  (forall p m, In (p, m) ps -> apart p c /\ (size (fs w) p < fuel)%nat) ->
  exists w', fpm_cmd_copy luck fuel o w (ss ++ [d]) = Ok w' /\ confined (fs w) (fs w') c /\ sane w' /\ cwd w' = cwd w /\ exists leaks, opened w' = leaks ++ opened w /\ Forall (under c) leaks.
Proof.
  intros SN L G RD.
  assert (FIN : forall w', St c w w' -> confined (fs w) (fs w') c /\ sane w' /\ cwd w' = cwd w /\ exists leaks, opened w' = leaks ++ opened w /\ Forall (under c) leaks).
  { intros w' S1. split; [apply touched_confined; apply S1|]. split; [eapply St_sane; eauto|]. apply S1. }
  destruct ss as [|s ss]; [exists (say w Usage); split; [reflexivity|]; apply FIN; now apply St_refl|].
  rewrite cmd_args by discriminate. unfold stat. rewrite (leads_follow w d c L).
  assert (ONE : exists w', match ss with [] => copy_object luck fuel o (tick w) s d | _ => Ok (say (tick w) (NotDir d)) end = Ok w' /\ St c w w').
  { destruct ss as [|s2 ss]; [|eexists; split; [reflexivity|now apply St_refl]].
    inversion G as [|? [p m] ? ps' G1 G']; subst. destruct G1 as (LP & En & NS). cbn [fst snd] in *. destruct (RD p m (or_introl eq_refl)) as [A SZ].
    assert (LP1 : leads (tick w) s p) by (eapply leads_keep; eauto). assert (LQ1 : leads (tick w) d c) by (eapply leads_keep; eauto).
    destruct (find (fs (tick w)) p) as [x|] eqn:EX.
    - destruct (object_ok luck fuel o (tick w) s d p c x) as (w' & E & S1 & _); auto. exists w'. split; [exact E|exact S1].
    - unfold copy_object, stat. rewrite (leads_follow _ s p LP1), EX. destruct (bad luck (tick w)); cbn [is_ok negb]; (eexists; split; [reflexivity|now apply St_refl]). }
  destruct (bad luck w) eqn:BW.
  { cbn [is_ok negb orb]. destruct ONE as (w' & E & S1). exists w'. split; [exact E|auto]. }
  destruct (find (fs w) c) as [[dq|]|] eqn:EC; cbn [is_ok negb orb]; try (destruct ONE as (w' & E & S1); exists w'; split; [exact E|auto]).
  assert (I : into w d c) by (left; auto). destruct (into_child w d c I) as (base & EB & BL & LB). unfold copy_to_directory.
  assert (H : forall tail, exists w', copy_each luck fuel o (tick w) (Z.of_nat (length d) + LFN_BUF + 2) base tail (s :: ss) = Ok w' /\ St c w w').
  { intros tail. destruct (each_St luck o fuel (Z.of_nat (length d) + LFN_BUF + 2) base c w LB (dest_size d base BL) (s :: ss) ps (tick w) tail) as (w' & E' & S'); auto.
    exists w'. split; [exact E'|exact S']. }
  assert (H' : exists w', (match rev d with 47 :: _ => copy_each luck fuel o (tick w) (Z.of_nat (length d) + LFN_BUF + 2) d (Some []) (s :: ss) | _ => copy_each luck fuel o (tick w) (Z.of_nat (length d) + LFN_BUF + 2) (d ++ [47]) None (s :: ss) end) = Ok w' /\ St c w w').
  { destruct (rev d) as [|x l] eqn:ER; [subst base; apply H|]. destruct (Z.eq_dec x 47) as [->|NX]; [subst base; apply H|].
    assert (M : forall T (a b : T), match x :: l with 47 :: _ => a | _ => b end = b).
    { intros T a b. destruct x as [|x|x]; try reflexivity. repeat (destruct x as [x|x|]; try reflexivity). congruence. }
    rewrite M in *. subst base. apply H. }
  destruct H' as (w' & E' & S'). exists w'. split; [exact E'|auto].
Qed.
