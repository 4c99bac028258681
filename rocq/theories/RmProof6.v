From Verif Require Import Base CrcSpec FutfModel FutfSpec FutfProof LfnModel LfnSpec LfnProof FdirModel FdirSpec FdirProof FdirProof2 FdirProof3 FnameModel FnameSpec FnameProof FnameProof2 FnameProof3 FnameProof4 FnameProof5 FnameProof6 FpathModel FpathSpec FpathProof FpathProof2 FpathProof3 FpathProof4 FpathProof5 FpathProof6 FpathProof7 FpathProof8 FpathProof9 FpathProof12 FpathProof14 FpathProof15 FpathProof16 FpathProof17 LockModel RmModel RmSpec RmProof RmProof2 RmProof3 RmProof4 RmProof5.
Open Scope Z_scope.

(* --- paths --------------------------------------------------------------------------------- *)
Lemma utf8_noslash cs : Forall name_char cs -> Forall (fun b => b <> 47) (utf8 cs).
Proof.
  unfold utf8. induction 1 as [|c cs (Sc & _ & C32 & Nb) F IH]; cbn [flat_map]; [constructor|]. apply Forall_app. split; [|auto]. assert (N47 : c <> 47) by (intros ->; apply Nb; cbn; auto). unfold scalar in Sc. unfold utf8_of, utf8_form, utf8_count.
  destruct (Z.ltb_spec c 128); [cbn; repeat constructor; lia|]. destruct (Z.ltb_spec c 2048); [cbn; repeat constructor; Z.to_euclidean_division_equations; lia|]. destruct (Z.ltb_spec c 65536); cbn; repeat constructor; Z.to_euclidean_division_equations; lia.
Qed.
Lemma take_all p (l r : list Z) : Forall (fun c => p c = true) l -> take_while p (l ++ r) = l ++ take_while p r.
Proof. induction 1 as [|c l H F IH]; cbn; [auto|]. now rewrite H, IH. Qed.
Lemma last_part_ok path cs : good_name cs -> ends_in path cs -> last_part path = utf8 cs.
Proof.
  intros G E. pose proof (utf8_noslash cs (proj1 G)) as F. pose proof (utf8_some cs G) as Ns. assert (Rv : rev (utf8 cs) <> []) by (intros Q; apply Ns; rewrite <- (rev_involutive (utf8 cs)), Q; auto). assert (Fr : Forall (fun b => b <> 47) (rev (utf8 cs))) by now apply Forall_rev.
  assert (P : exists t, rev path = rev (utf8 cs) ++ t /\ take_while (fun c => negb (c =? 47)) t = []).
  { destruct E as [->|[p ->]]; [exists []; split; [now rewrite app_nil_r|auto]|]. exists (47 :: rev p). split; [|auto]. rewrite rev_app_distr. cbn [rev]. now rewrite <- app_assoc. }
  destruct P as (t & Er & Et). unfold last_part. rewrite Er. cbv zeta. rewrite <- (rev_involutive (utf8 cs)) at 3. destruct (rev (utf8 cs)) as [|u us] eqn:Eu; [congruence|]. inversion Fr as [|? ? Hu Hus]; subst.
  assert (Tk : take_while (fun c => c =? 47) ((u :: us) ++ t) = []) by (cbn; destruct (Z.eqb_spec u 47); [congruence|auto]). assert (Dr : drop_while (fun c => c =? 47) ((u :: us) ++ t) = (u :: us) ++ t) by (cbn; destruct (Z.eqb_spec u 47); [congruence|auto]). rewrite Tk, Dr, take_all, Et, app_nil_r; [auto|]. revert Fr. apply Forall_impl. intros; lia.
Qed.
Lemma slashed_ok d : d <> [] -> (slashed d = d ++ [47]) \/ (slashed d = d /\ exists d0, d = d0 ++ [47]).
Proof.
  intros N. unfold slashed. destruct (rev d) as [|x r] eqn:E; [left; auto|]. destruct (Z.eq_dec x 47) as [->|Nx].
  - right. split; [auto|]. exists (rev r). rewrite <- (rev_involutive d), E. auto.
  - left. destruct x as [|p|p]; auto. do 6 (destruct p as [p|p|]; auto). congruence.
Qed.
Lemma ends_seps seps cs : Forall sep seps -> seps <> [] -> good_name cs -> ends (seps ++ utf8 cs ++ [0]) (utf8 cs ++ [0]) false.
Proof.
  intros F N G. destruct (good_head cs [0] G) as (h & q & -> & Nh & H32). destruct seps as [|s seps]; [congruence|]. inversion F as [|? ? Fs Fr]; subst. pose proof (ends_sep s seps h q Fs Fr Nh) as E. replace (h <? 32) with false in E by lia. exact E.
Qed.
Lemma app_last (a b : list Z) p0 : b <> [] -> a ++ b = p0 ++ [47] -> exists b0, b = b0 ++ [47].
Proof.
  intros N E. destruct (exists_last N) as (b0 & y & ->). exists b0. rewrite app_assoc in E. apply app_inj_tail in E as [_ ->]. auto.
Qed.
Lemma spells_under ss x : spells ss x -> forall p ex, x = p ++ [0] -> Forall (fun x => 32 <= x) p -> ss <> [] -> ~ In Bad ss -> Forall sep ex -> (ex <> [] \/ exists p0, p = p0 ++ [47]) -> forall cs, good_name cs -> spells (ss ++ [Name cs]) (p ++ ex ++ utf8 cs ++ [0]).
Proof.
  induction 1 as [t q T|cs0 s rest q Nm E|cs0 s rest q ss Nm E Sp IH|cs0 t ss F Le|cs0 c t ss F B]; intros p ex Ep Fp Ns Nb Fx Xx cs G; try (exfalso; apply Nb; left; auto; fail); [easy| |].
  - assert (R : exists seps, Forall sep seps /\ p = utf8 cs0 ++ seps).
    { inversion E as [t q' T|s0 seps c q' Hs Hss Hc E1 E2 E3]; subst.
      - exists []. rewrite app_nil_r. split; [auto|]. symmetry in Ep. apply ctl_end in Ep; [tauto|auto|lia].
      - exists (s0 :: seps). split; [constructor; auto|]. symmetry in Ep. change (s0 :: seps ++ c :: q') with ((s0 :: seps) ++ c :: q') in Ep. rewrite app_assoc in Ep. apply ctl_end in Ep; [tauto|auto|lia]. }
    destruct R as (seps & Fs & ->). rewrite <- app_assoc. cbn [app]. eapply sp_more; [exact Nm| |now apply child_last]. rewrite app_assoc. apply ends_seps; [apply Forall_app; auto| |auto].
    intros Q. apply app_eq_nil in Q as [-> ->]. destruct Xx as [Q|[p0 Q]]; [congruence|]. rewrite app_nil_r in Q. pose proof (utf8_noslash cs0 (proj1 Nm)) as F. rewrite Q in F. apply Forall_app in F as [_ F]. inversion F; congruence.
  - inversion E as [|s0 seps c q' Hs Hss Hc E1 E2 E3]; subst. assert (C32 : 32 <= c) by lia.
    assert (R : exists p', p = utf8 cs0 ++ (s0 :: seps) ++ p' /\ c :: q' = p' ++ [0]).
    { enough (exists p', p = (utf8 cs0 ++ s0 :: seps) ++ p' /\ c :: q' = p' ++ [0]) as (p' & Q1 & Q2) by (exists p'; split; [now rewrite app_assoc|auto]). rewrite app_comm_cons, app_assoc in Ep. remember (utf8 cs0 ++ s0 :: seps) as z. clear - Ep C32. revert p Ep. induction z as [|y z IHz]; intros p Ep; [exists p; auto|]. destruct p as [|y' p]; cbn in Ep; [injection Ep as _ Ep; now destruct z|]. injection Ep as <- Ep. destruct (IHz p Ep) as (p' & -> & E). exists p'. auto. }
    destruct R as (p' & -> & Ep'). assert (N2 : ss <> []) by (intros ->; inversion Sp; subst; lia). rewrite !Forall_app in Fp. assert (Np' : p' <> []) by (intros ->; cbn in Ep'; injection Ep' as -> _; lia).
    assert (IH' : spells (ss ++ [Name cs]) (p' ++ ex ++ utf8 cs ++ [0])).
    { apply IH; auto; [apply Fp|intros Q; apply Nb; right; auto|]. destruct Xx as [Xx|[p0 Q]]; [auto|right]. rewrite app_assoc in Q. eapply app_last; eauto. }
    destruct p' as [|c' p']; [congruence|]. cbn in Ep'. injection Ep' as <- Ep'. cbn [app]. rewrite <- app_assoc. cbn [app]. eapply sp_more; [exact Nm| |exact IH'].
    cbn [app]. rewrite <- app_assoc. cbn [app]. pose proof (ends_sep s0 seps c (p' ++ ex ++ utf8 cs ++ [0]) Hs Hss Hc) as En. replace (c <? 32) with false in En by lia. exact En.
Qed.
Lemma path_under dst root ss cs : path_of (dst ++ [0]) root ss -> Forall (fun x => 32 <= x) dst -> dst <> [] -> ~ In Bad ss -> good_name cs -> path_of (slashed dst ++ utf8 cs ++ [0]) root (ss ++ [Name cs]).
Proof.
  intros P F N Nb G. assert (X : exists ex, slashed dst = dst ++ ex /\ Forall sep ex /\ (ex <> [] \/ exists p0, dst = p0 ++ [47])).
  { destruct (slashed_ok dst N) as [E|[E Q]]; [exists [47]|exists []]; (split; [rewrite ?app_nil_r; auto|]); split; auto; [constructor; [left; auto|constructor]|left; discriminate]. }
  destruct X as (ex & -> & Fx & Xx). rewrite <- app_assoc. remember (dst ++ [0]) as y eqn:Ey. destruct P as [s seps ch q ss Hs Hss Hc Sp|ch q ss Hc Sp].
  - destruct (Z.ltb_spec ch 32) as [C|C].
    + assert (ss = []) by (eapply spells_nil; eauto; pose proof (spells_head _ _ _ Sp); lia). subst ss. change (s :: seps ++ ch :: q) with ((s :: seps) ++ ch :: q) in Ey. symmetry in Ey. apply ctl_end in Ey as (-> & _); [|auto|auto]. cbn [app].
      pose proof (child_last cs G) as Sl. destruct (good_head cs [0] G) as (h & q' & E & Nh & H32). rewrite E in Sl |- *. rewrite app_assoc. apply po_root; auto. apply Forall_app. auto.
    + assert (Ns : ss <> []) by (intros ->; inversion Sp; lia).
      assert (R : exists p', dst = (s :: seps) ++ p' /\ ch :: q = p' ++ [0]).
      { rewrite app_comm_cons in Ey. remember (s :: seps) as z. clear - Ey C. revert dst Ey. induction z as [|y z IHz]; intros p Ep; [exists p; auto|]. destruct p as [|y' p]; cbn in Ep; [injection Ep as _ Ep; now destruct z|]. injection Ep as <- Ep. destruct (IHz p Ep) as (p' & -> & E). exists p'. auto. }
      destruct R as (p' & -> & Ep'). destruct p' as [|c' p']; [cbn in Ep'; injection Ep' as -> _; lia|]. cbn in Ep'. injection Ep' as <- Ep'. rewrite <- app_assoc. cbn [app]. apply po_root; auto.
      apply (spells_under _ _ Sp (ch :: p') ex); auto; [now rewrite Ep'|apply Forall_app in F; tauto|]. destruct Xx as [Xx|[p0 Q]]; [auto|right]. eapply app_last; [discriminate|exact Q].
  - destruct dst as [|c' p']; [congruence|]. cbn in Ey. injection Ey as <- Ey. inversion F; subst. assert (Ns : ss <> []) by (intros ->; inversion Sp; lia). cbn [app]. apply po_here; auto. apply (spells_under _ _ Sp (ch :: p') ex); auto.
Qed.
Lemma lookup_under A x ss t c : lookup A x ss t -> dir_at A t c -> forall cs t', lookup A c [Name cs] t' -> lookup A x (ss ++ [Name cs]) t'.
Proof.
  induction 1 as [x|x ss|s Hs|s ss t Hs Ns L IH|x s d Hd|x s d ss t Hd Ns L IH|x cs0 f0 I Ca|x cs0 F|x cs0 f0 ss t I Ca Di Ns L IH|x cs0 f0 ss I Ca Di Ns|x cs0 ss F Ns]; intros D cs t' L'; cbn in D; try contradiction; cbn [app].
  - now subst c.
  - subst c. apply lk_top_on; [auto|discriminate|auto].
  - apply lk_top_on; [auto|now destruct ss|]. now apply IH.
  - subst c. eapply lk_dot_on; [eauto|discriminate|auto].
  - eapply lk_dot_on; [eauto|now destruct ss|]. now apply IH.
  - destruct D as [D ->]. eapply lk_down; [exact I|exact Ca|exact D|discriminate|auto].
  - eapply lk_down; [exact I|exact Ca|exact Di|now destruct ss|]. now apply IH.
Qed.
Lemma into_path A cd dst c cs t' : into A cd dst c -> good_name cs -> lookup A c [Name cs] t' -> resolves A cd ((slashed dst ++ utf8 cs) ++ [0]) t' /\ spelled ((slashed dst ++ utf8 cs) ++ [0]).
Proof.
  intros (F & N & t & (root & ss & P & L) & D) G L'. rewrite <- app_assoc. assert (Nb : ~ In Bad ss) by (eapply lookup_good; eauto; intros ->; exact D). pose proof (path_under dst root ss cs P F N Nb G) as P'. split; [|exists root, (ss ++ [Name cs]); auto]. exists root, (ss ++ [Name cs]). split; [auto|]. eapply lookup_under; eauto.
Qed.
Lemma dir_nodes v A total p t c : holds_tree v A total -> resolves A (cdir v) p t -> dir_at A t c -> In c (nodes A).
Proof.
  intros H R D. pose proof (target_ok v A total p t H R) as T. destruct t; cbn in D; try contradiction; subst; try tauto. destruct D as [D ->]. destruct H as (L & V), T as (I & If & _). exact (dir_node v A L total V _ f I If D).
Qed.

Section Args.
Variable bufs : nat -> Z -> Z.
(* Options and paths of rm. *)
Definition flags (cs : list Z) : opts := mkOpts (existsb (Z.eqb 102) cs) (existsb (Z.eqb 114) cs) (existsb (Z.eqb 118) cs).
Fixpoint each (fuel : nat) (o : opts) (w : world) (paths : list (list Z)) : res world :=
  match paths with [] => Ok w | p :: r => w <- remove bufs fuel o w p ;; each fuel o w r end.
Lemma cmd_paths fuel o paths : forall n w, cmd_remove bufs fuel o (Datatypes.S n) w (map Arg paths) = each fuel o w paths.
Proof. induction paths as [|p r IH]; intros n w; cbn [map cmd_remove each]; [auto|]. destruct (remove bufs fuel o w p) as [w'| |]; cbn [bind]; auto. Qed.
Lemma cmd_flags fuel cs paths : ~ In 104 cs -> paths <> [] -> forall o w, cmd_remove bufs fuel o 0 w (map Flag cs ++ map Arg paths) = each fuel (mkOpts (force o || force (flags cs)) (recursive o || recursive (flags cs)) (verbose o || verbose (flags cs))) w paths.
Proof.
  intros Nh Np. induction cs as [|c cs IH]; intros o w.
  - cbn [map app flags existsb force recursive verbose]. rewrite !orb_false_r. replace (mkOpts (force o) (recursive o) (verbose o)) with o by now destruct o. destruct paths as [|p r]; [congruence|]. cbn [map cmd_remove each]. destruct (remove bufs fuel o w p) as [w'| |]; cbn [bind]; auto. apply cmd_paths.
  - cbn [map app cmd_remove]. destruct (Z.eqb_spec c 104); [exfalso; apply Nh; left; auto|]. assert (Nh' : ~ In 104 cs) by (intros Q; apply Nh; right; auto). cbn [flags existsb force recursive verbose].
    destruct (Z.eqb_spec c 102); [subst; change (102 =? 102) with true; change (114 =? 102) with false; change (118 =? 102) with false; rewrite IH by auto; cbn [force recursive verbose orb]; now rewrite ?orb_true_r|].
    destruct (Z.eqb_spec c 114); [subst; change (102 =? 114) with false; change (114 =? 114) with true; change (118 =? 114) with false; rewrite IH by auto; cbn [force recursive verbose orb]; now rewrite ?orb_true_r|].
    destruct (Z.eqb_spec c 118); [subst; change (102 =? 118) with false; change (114 =? 118) with false; change (118 =? 118) with true; rewrite IH by auto; cbn [force recursive verbose orb]; now rewrite ?orb_true_r|].
    replace (102 =? c) with false by lia. replace (114 =? c) with false by lia. replace (118 =? c) with false by lia. cbn [orb]. now apply IH.
Qed.
Theorem rm_args fuel w cs paths : ~ In 104 cs -> paths <> [] -> fpm_cmd_remove bufs fuel w (map Flag cs ++ map Arg paths) = each fuel (flags cs) w paths.
Proof. intros Nh Np. unfold fpm_cmd_remove. rewrite cmd_flags by auto. cbn [force recursive verbose orb]. now destruct (flags cs). Qed.
End Args.

Section Mv.
Variable bufs : nat -> Z -> Z.
Hypothesis Bu : forall n, units (bufs n).

Lemma rename_at w A total a b t1 t2 : holds_tree (vol w) A total -> spelled (a ++ [0]) -> spelled (b ++ [0]) -> resolves A (cdir (vol w)) (a ++ [0]) t1 -> resolves A (cdir (vol w)) (b ++ [0]) t2 ->
  (forall c f cs c2 cs2, t1 = Found c f cs -> isdir f = true -> t2 = Free c2 cs2 -> ~ under A (clu A f) c2) ->
  exists v' r A', rename bufs w a b = Ok (with_vol w v', Rc r) /\ holds_tree v' A' total /\ cdir v' = cdir (vol w) /\ rename_does (vol w) A t1 t2 r A'.
Proof.
  intros (L & V) S1 S2 R1 R2 Nu. unfold rename. destruct (rename_ok (vol w) A L total (a ++ [0]) (b ++ [0]) (bufs (calls w)) V S1 S2 (Bu _)) as (v' & r & A' & E & H' & Cd & t1' & t2' & R1' & R2' & D).
  { intros c f cs c2 cs2 Q1 Di Q2. apply (Nu c f cs c2 cs2); auto; eapply (resolves_one (vol w) A L total V); eauto. }
  assert (t1' = t1) by (eapply (resolves_one (vol w) A L total V); eauto). assert (t2' = t2) by (eapply (resolves_one (vol w) A L total V); eauto). subst t1' t2'. rewrite E. cbn [bind]. exists v', r, A'. auto.
Qed.

(* The name is free. *)
Lemma file_moved o w A total a b c f cs c2 cs2 : holds_tree (vol w) A total -> spelled (a ++ [0]) -> spelled (b ++ [0]) -> resolves A (cdir (vol w)) (a ++ [0]) (Found c f cs) -> resolves A (cdir (vol w)) (b ++ [0]) (Free c2 cs2) ->
  (isdir f = true -> ~ under A (clu A f) c2) ->
  exists w' r A', rename_file bufs o w a b = Ok w' /\ holds_tree (vol w') A' total /\ cdir (vol w') = cdir (vol w) /\ sems w' = sems w /\ keys w' = keys w /\ moved (vol w) A c f c2 cs2 r A' /\
    out w' = (if is_ok (Rc r) then if verbose o then [Shown2 a b] else [] else [Failed2 a b (Rc r)]) ++ out w.
Proof.
  intros H S1 S2 R1 R2 Nu. unfold rename_file.
  assert (Go : forall w1, vol w1 = vol w -> sems w1 = sems w -> keys w1 = keys w -> out w1 = out w -> exists w' r A', ('(w, r) <- rename bufs w1 a b ;; Ok (if negb (is_ok r) then say w (Failed2 a b r) else note w (verbose o) (Shown2 a b))) = Ok w' /\ holds_tree (vol w') A' total /\ cdir (vol w') = cdir (vol w) /\ sems w' = sems w /\ keys w' = keys w /\ moved (vol w) A c f c2 cs2 r A' /\
    out w' = (if is_ok (Rc r) then if verbose o then [Shown2 a b] else [] else [Failed2 a b (Rc r)]) ++ out w).
  { intros w1 E1 E2 E3 E4. destruct (rename_at w1 A total a b (Found c f cs) (Free c2 cs2)) as (v' & r & A' & -> & H' & Cd & D); rewrite ?E1; auto; [intros ? ? ? ? ? Q1 Di Q2; injection Q1 as <- <- <-; injection Q2 as <- <-; auto|]. cbn [bind]. rewrite E1 in *. eexists _, r, A'. split; [reflexivity|]. cbn in D. destruct (is_ok (Rc r)); cbn [negb]; unfold note; [destruct (verbose o)|]; cbn [say with_vol vol sems keys out]; rewrite ?E2, ?E3, ?E4; auto 10. }
  destruct (force o); [apply Go; auto|]. destruct (stat_at bufs Bu w A total b (Free c2 cs2) H S2 R2) as (r & x & -> & -> & _). cbn [bind]. now apply Go.
Qed.
(* Another file has the name. *)
Lemma file_exists o w A total a b c f cs c2 g cs2 : holds_tree (vol w) A total -> spelled (a ++ [0]) -> spelled (b ++ [0]) -> resolves A (cdir (vol w)) (a ++ [0]) (Found c f cs) -> resolves A (cdir (vol w)) (b ++ [0]) (Found c2 g cs2) -> ~ (c2 = c /\ g = f) ->
  exists w', rename_file bufs o w a b = Ok w' /\ holds_tree (vol w') A total /\ cdir (vol w') = cdir (vol w) /\ sems w' = sems w /\
    out w' = (if force o then [Failed2 a b (Rc R_EXIST)] else if (hd 0 (keys w) =? 121) || (hd 0 (keys w) =? 89) then [Failed2 a b (Rc R_EXIST); Ask false b] else [Kept; Ask false b]) ++ out w.
Proof.
  intros H S1 S2 R1 R2 Ne. unfold rename_file.
  assert (Go : forall w1, vol w1 = vol w -> sems w1 = sems w -> exists w', ('(w, r) <- rename bufs w1 a b ;; Ok (if negb (is_ok r) then say w (Failed2 a b r) else note w (verbose o) (Shown2 a b))) = Ok w' /\ holds_tree (vol w') A total /\ cdir (vol w') = cdir (vol w) /\ sems w' = sems w /\
    out w' = Failed2 a b (Rc R_EXIST) :: out w1).
  { intros w1 E1 E2. destruct (rename_at w1 A total a b (Found c f cs) (Found c2 g cs2)) as (v' & r & A' & -> & H' & Cd & D); rewrite ?E1; auto; [intros; discriminate|]. cbn [bind]. rewrite E1 in *. cbn in D. destruct D as [(-> & -> & _)|(_ & -> & ->)]; [tauto|]. cbn [is_ok negb]. eexists. split; [reflexivity|]. cbn [say with_vol vol sems out]. auto. }
  destruct (force o).
  - destruct (Go w) as (w' & E & D); auto. exists w'. auto.
  - destruct (stat_at bufs Bu w A total b (Found c2 g cs2) H S2 R2) as (r & x & -> & -> & _). cbn [bind]. destruct (stat_at bufs Bu (with_vol w (vol w)) A total a (Found c f cs) H S1 R1) as (r & x' & -> & -> & _). cbn [bind]. unfold ask. cbn [with_vol vol keys]. set (yy := _ || _). destruct yy; cbn [negb].
    + match goal with |- context [rename bufs ?w1 a b] => destruct (Go w1) as (w' & E & D1 & D2 & D3 & D4); auto end. exists w'. split; [exact E|]. split; [auto|]. split; [auto|]. split; [auto|]. rewrite D4. reflexivity.
    + eexists. split; [reflexivity|]. split; [exact H|]. auto.
Qed.

(* mv to a directory. *)
Lemma mv_start o w A total src dst c2 : holds_tree (vol w) A total -> into A (cdir (vol w)) dst c2 -> ~ In 58 dst ->
  fpm_cmd_rename bufs o w [src; dst] = move_files_to_directory bufs o (with_vol w (vol w)) [src] dst.
Proof.
  intros H (F & N & t & R & D) Nc. unfold fpm_cmd_rename. cbn [rev app]. replace (existsb (fun c => c =? 58) dst) with false.
  2: { symmetry. apply not_true_iff_false. intros Q. apply existsb_exists in Q as (y & I & Q). apply Z.eqb_eq in Q. now subst. }
  assert (Sp : spelled (dst ++ [0])) by (destruct R as (root & ss & P & _); exists root, ss; auto). destruct (stat_at bufs Bu w A total dst t H Sp R) as (r & a & -> & Ht). cbn [bind].
  destruct t as [d|c d|c g cs|c cs| |]; cbn in D; try contradiction; destruct Ht as [-> Ha]; cbv zeta.
  - reflexivity.
  - rewrite Ha. reflexivity.
  - destruct D as [D _]. rewrite Ha, D. reflexivity.
Qed.
Lemma mv_name o w src dst cs : good_name cs -> ends_in src cs -> zlen (utf8 cs) <= 255 -> dst <> [] -> move_files_to_directory bufs o w [src] dst = (w <- rename_file bufs o w src (slashed dst ++ utf8 cs) ;; Ok w).
Proof.
  intros G E L N. unfold move_files_to_directory. cbn [move_loop]. rewrite (last_part_ok src cs G E). unfold RmModel.append. assert (Ls : Z.of_nat (length (slashed dst)) <= Z.of_nat (length dst) + 1) by (destruct (slashed_ok dst N) as [->|[-> _]]; rewrite ?app_length; cbn; lia).
  unfold zlen in L. replace (_ <=? _) with true by lia. cbn [bind]. reflexivity.
Qed.
Theorem mv_into o w A total src dst c f cs cs' c2 : holds_tree (vol w) A total -> spelled (src ++ [0]) -> resolves A (cdir (vol w)) (src ++ [0]) (Found c f cs') -> good_name cs -> ends_in src cs -> zlen (utf8 cs) <= 255 ->
  into A (cdir (vol w)) dst c2 -> ~ In 58 dst -> Forall (fun g => ~ called cs g) (ents A c2) -> (isdir f = true -> ~ under A (clu A f) c2) ->
  exists w' r A', fpm_cmd_rename bufs o w [src; dst] = Ok w' /\ holds_tree (vol w') A' total /\ cdir (vol w') = cdir (vol w) /\ sems w' = sems w /\ keys w' = keys w /\ moved (vol w) A c f c2 cs r A' /\
    out w' = (if is_ok (Rc r) then if verbose o then [Shown2 src (slashed dst ++ utf8 cs)] else [] else [Failed2 src (slashed dst ++ utf8 cs) (Rc r)]) ++ out w.
Proof.
  intros H Sp R G En Le In Nc Fr Nu. rewrite (mv_start o w A total src dst c2 H In Nc), (mv_name o _ src dst cs G En Le) by apply In.
  destruct (into_path A (cdir (vol w)) dst c2 cs (Free c2 cs) In G (lk_free _ _ _ Fr)) as [R2 S2]. destruct (file_moved o (with_vol w (vol w)) A total src (slashed dst ++ utf8 cs) c f cs' c2 cs) as (w' & r & A' & -> & D); auto. cbn [bind]. exists w', r, A'. auto.
Qed.
Theorem mv_taken o w A total src dst c f cs cs' c2 g : holds_tree (vol w) A total -> spelled (src ++ [0]) -> resolves A (cdir (vol w)) (src ++ [0]) (Found c f cs') -> good_name cs -> ends_in src cs -> zlen (utf8 cs) <= 255 ->
  into A (cdir (vol w)) dst c2 -> ~ In 58 dst -> In g (ents A c2) -> called cs g -> ~ (c2 = c /\ g = f) ->
  exists w', fpm_cmd_rename bufs o w [src; dst] = Ok w' /\ holds_tree (vol w') A total /\ cdir (vol w') = cdir (vol w) /\ sems w' = sems w /\
    out w' = (if force o then [Failed2 src (slashed dst ++ utf8 cs) (Rc R_EXIST)] else if (hd 0 (keys w) =? 121) || (hd 0 (keys w) =? 89) then [Failed2 src (slashed dst ++ utf8 cs) (Rc R_EXIST); Ask false (slashed dst ++ utf8 cs)] else [Kept; Ask false (slashed dst ++ utf8 cs)]) ++ out w.
Proof.
  intros H Sp R G En Le In Nc Ig Cg Ne. rewrite (mv_start o w A total src dst c2 H In Nc), (mv_name o _ src dst cs G En Le) by apply In.
  destruct (into_path A (cdir (vol w)) dst c2 cs (Found c2 g cs) In G (lk_found _ _ _ _ Ig Cg)) as [R2 S2]. destruct (file_exists o (with_vol w (vol w)) A total src (slashed dst ++ utf8 cs) c f cs' c2 g cs) as (w' & -> & D); auto. cbn [bind]. exists w'. auto.
Qed.
(* mv to a new name. *)
Theorem mv_new o w A total src dst c f cs c2 cs2 : holds_tree (vol w) A total -> spelled (src ++ [0]) -> spelled (dst ++ [0]) -> resolves A (cdir (vol w)) (src ++ [0]) (Found c f cs) -> resolves A (cdir (vol w)) (dst ++ [0]) (Free c2 cs2) -> ~ In 58 dst ->
  (isdir f = true -> ~ under A (clu A f) c2) ->
  exists w' r A', fpm_cmd_rename bufs o w [src; dst] = Ok w' /\ holds_tree (vol w') A' total /\ cdir (vol w') = cdir (vol w) /\ sems w' = sems w /\ keys w' = keys w /\ moved (vol w) A c f c2 cs2 r A' /\
    out w' = (if is_ok (Rc r) then if verbose o then [Shown2 src dst] else [] else [Failed2 src dst (Rc r)]) ++ out w.
Proof.
  intros H S1 S2 R1 R2 Nc Nu. unfold fpm_cmd_rename. cbn [rev app]. replace (existsb (fun c => c =? 58) dst) with false.
  2: { symmetry. apply not_true_iff_false. intros Q. apply existsb_exists in Q as (y & I & Q). apply Z.eqb_eq in Q. now subst. }
  destruct (stat_at bufs Bu w A total dst (Free c2 cs2) H S2 R2) as (r & a & -> & -> & _). cbn [bind orb]. destruct (file_moved o (with_vol w (vol w)) A total src dst c f cs c2 cs2) as (w' & r & A' & E & D); auto. exists w', r, A'. auto.
Qed.
(* A long last part does not fit. *)
Theorem mv_overflow o w A total src dst c2 : holds_tree (vol w) A total -> into A (cdir (vol w)) dst c2 -> ~ In 58 dst -> 256 < zlen (last_part src) -> fpm_cmd_rename bufs o w [src; dst] = Ub.
Proof.
  intros H In Nc Le. rewrite (mv_start o w A total src dst c2 H In Nc). unfold move_files_to_directory. cbn [move_loop]. unfold RmModel.append. assert (Ls : Z.of_nat (length dst) <= Z.of_nat (length (slashed dst))) by (destruct (slashed_ok dst) as [->|[-> _]]; [apply In|rewrite app_length; lia|lia]).
  unfold zlen in Le. replace (_ <=? _) with false by lia. reflexivity.
Qed.
End Mv.
