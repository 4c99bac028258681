From Verif Require Import Base CrcSpec FutfModel FutfSpec FutfProof LfnModel LfnSpec LfnProof FdirModel FdirSpec FdirProof FdirProof2 FdirProof3 FnameModel FnameSpec FnameProof FnameProof2 FnameProof3 FnameProof4 FnameProof5 FnameProof6 FpathModel FpathSpec FpathProof FpathProof2 FpathProof3 FpathProof4 FpathProof5 FpathProof6 FpathProof7 FpathProof8 FpathProof9 FpathProof14 FpathProof15 FpathProof16 FpathProof17 LockModel RmModel RmSpec RmProof RmProof2 RmProof3.
Open Scope Z_scope.

Lemma read_same d d' : tab d' = tab d -> cap d' = cap d -> forall n buf i ord sum blk, read_loop n d' buf i ord sum blk = read_loop n d buf i ord sum blk.
Proof.
  intros Et Ec. assert (Nx : forall i, snd (dir_next d' i false) = snd (dir_next d i false)) by (intros i; unfold dir_next; rewrite Ec; destruct (_ <=? _); [auto|]; destruct (_ <? _); auto).
  induction n as [|n IH]; intros buf i ord sum blk; [auto|]. cbn [read_loop]. rewrite Et.
  assert (Nt : forall buf ord sum blk, match dir_next d' i false with (_, D_OK) => read_loop n d' buf (i + 1) ord sum blk | (_, r) => Ok (r, i, blk, buf) end = match dir_next d i false with (_, D_OK) => read_loop n d buf (i + 1) ord sum blk | (_, r) => Ok (r, i, blk, buf) end).
  { intros b1 o1 s1 k1. specialize (Nx i). destruct (dir_next d' i false) as [x1 q1], (dir_next d i false) as [x2 q2]. cbn in Nx. subst q1. destruct q2; auto. }
  destruct (_ =? 0); [auto|]. destruct (_ || _); [apply Nt|]. destruct (_ =? 15); [|auto]. destruct (if has _ _ then _ else _) as [[[b1 o1] s1] k1]. destruct (if _ && _ then _ else _) as [[b2 m]| |]; cbn [bind]; auto.
Qed.
Lemma gone_ext v v2 v3 c : dirs v2 c = dirs v c -> gone v2 v3 c -> gone v v3 c.
Proof.
  intros E [G1 G2]. split; [congruence|]. intros buf i b buf' Er. apply (G2 buf i b buf'). rewrite <- Er. unfold dir_read. cbn [table cap]. rewrite E. apply read_same; cbn; now rewrite E.
Qed.

(* --- many levels --------------------------------------------------------------------------- *)
Lemma deep_nodes A : shape A -> forall n k, In k (nodes A) -> deep A n k -> exists l, length l = Datatypes.S n /\ NoDup l /\ (forall x, In x l -> In x (nodes A) /\ under A k x).
Proof.
  intros Sh. induction n as [|n IH]; intros k I D.
  - exists [k]. split; [auto|]. split; [constructor; [easy|constructor]|]. intros x [<-|[]]. split; [auto|apply under_self].
  - destruct D as (c & Pc & D). assert (Ic : In c (nodes A)) by (destruct Pc as (Ik & g & Jg & Dg & <-); destruct Sh as (_ & P & _); eapply Permutation_in; [exact P|]; right; apply in_map, filter_In; split; [apply in_flat_map; eauto|auto]).
    destruct (IH c Ic D) as (l & Le & Nd & H). exists (k :: l). split; [cbn; lia|]. split.
    + constructor; [|auto]. intros J. destruct (H k J) as [_ U]. exact (no_cycle A Sh k ltac:(apply Sh; auto) c U Pc).
    + intros x [<-|J]; [split; [auto|apply under_self]|]. destruct (H x J) as [Ix U]. split; [auto|]. eapply under_trans; [|exact U]. eapply under_down; [apply under_self|auto].
Qed.
Lemma not_deep A k : shape A -> In k (nodes A) -> ~ deep A (length (nodes A)) k.
Proof.
  intros Sh I D. destruct (deep_nodes A Sh _ k I D) as (l & Le & Nd & H). pose proof (NoDup_incl_length Nd (fun x J => proj1 (H x J))). lia.
Qed.
Lemma ents_links A k : In k (nodes A) -> (length (ents A k) <= length (links A))%nat.
Proof.
  unfold links. generalize (nodes A) as l. induction l as [|x l IH]; [easy|]. intros [->|J]; cbn [flat_map]; rewrite app_length; [lia|]. specialize (IH J). lia.
Qed.

Section Remove.
Variable bufs : nat -> Z -> Z.
Hypothesis Bu : forall n, units (bufs n).
Variable total : list Z.
Variable o : opts.

(* What deleting a file or directory does. *)
Definition fate (w w' : world) (A A' : tree) (c : Z) (f : entry_t) (r : crc) (ms : list msg) : Prop :=
  holds_tree (vol w') A' total /\ cdir (vol w') = cdir (vol w) /\ keys w' = keys w /\ same_locks (sems w) (sems w') /\ out w' = ms ++ out w /\ told o r ms /\ spared A A' /\
  (forall q, ~ below A f q -> q <> c -> dirs (vol w') q = dirs (vol w) q) /\
  ((r = Rc R_OK /\ deleted A c f A' /\ forall rest, ents A c = f :: rest -> gone (vol w) (vol w') c) \/
   (partly A f A' /\ ((r = Rc R_DENIED /\ pinned A (cdir (vol w)) f) \/ (r = TooMany /\ isdir f = true /\ deep A (places (sems w)) (clu A f))))).


Lemma told_app r a b : told o (Rc R_OK) a -> told o r b -> told o r (b ++ a).
Proof.
  unfold told. cbn [is_ok]. intros [A1 A2] B. destruct (is_ok r).
  - destruct B as [B1 B2]. split; [apply Forall_app; auto|]. intros Q. now rewrite A2, B2.
  - destruct B as [p I]. exists p. apply in_or_app. auto.
Qed.
Lemma told_shown p : verbose o = true -> told o (Rc R_OK) [Shown p].
Proof. intros V. split; [constructor; [eauto|constructor]|]. congruence. Qed.
Lemma told_none : told o (Rc R_OK) [].
Proof. split; auto. Qed.
Lemma told_failed p r : is_ok r = false -> told o r [Failed p r].
Proof. intros E. unfold told. rewrite E. exists p. left. auto. Qed.
Lemma utf8_some cs : good_name cs -> utf8 cs <> [].
Proof. intros G E. destruct (good_head cs [0] G) as (h & q & Eq & _ & H). rewrite E in Eq. cbn in Eq. injection Eq as <- _. lia. Qed.
Lemma child_in A k g : shape A -> In k (nodes A) -> In g (ents A k) -> isdir g = true -> In (clu A g) (nodes A).
Proof. intros (_ & P & _) I J D. eapply Permutation_in; [exact P|]. right. apply in_map, filter_In. split; [apply in_flat_map; eauto|auto]. Qed.
Lemma holds_shape v A : holds_tree v A total -> shape A.
Proof. intros (L & V). apply V. Qed.

Lemma spared_refl A : spared A A.
Proof. intros k g. auto. Qed.
Lemma spared_trans A B C : spared A B -> spared B C -> spared A C.
Proof. intros H G k g I J R. destruct (H k g I J R). now apply G. Qed.
Lemma spared_removed A c f A' : isro f = false -> removed A c f A' -> spared A A'.
Proof.
  intros Ro (a & b & Ea & ->) k g I J R. cbn [with_ents nodes ents]. split; [auto|]. destruct (Z.eq_dec k c) as [->|N]; [|now rewrite put_other]. rewrite put_same. rewrite Ea in J. apply in_app_iff in J as [J|[<-|J]]; [apply in_or_app; auto|congruence|apply in_or_app; auto].
Qed.
Lemma spared_without A k : ents A k = [] -> spared A (without A k).
Proof. intros E x g I J _. split; [|auto]. apply in_without. split; [auto|]. intros ->. rewrite E in J. easy. Qed.

(* f_unlink on a file, or a directory that may be emptied before. *)
Lemma unlink_here w A path c f cs : holds_tree (vol w) A total -> leads A (cdir (vol w)) path c f cs ->
  exists v' r A', unlink bufs w path = Ok (with_vol w v', Rc r) /\ holds_tree v' A' total /\ cdir v' = cdir (vol w) /\
    ((r = R_DENIED /\ v' = vol w /\ A' = A /\ (isro f = true \/ isdir f = true /\ (clu A f = cdir (vol w) \/ ents A (clu A f) <> []))) \/
     (r = R_OK /\ (if isdir f then ents A (clu A f) = [] /\ removed (without A (clu A f)) c f A' else removed A c f A') /\ isro f = false /\ spared A A' /\ (isdir f = true -> clu A f <> cdir (vol w)) /\
      (forall q, q <> c -> dirs v' q = dirs (vol w) q) /\ forall rest, ents A c = f :: rest -> gone (vol w) v' c)).
Proof.
  intros H Ld. destruct (leads_in _ _ _ _ _ _ _ H Ld) as (Sp & Re & I & J & _). destruct H as (L & V). destruct (unlink_found _ _ _ _ (path ++ [0]) (bufs (calls w)) c f cs V Sp (Bu _) Re) as (v' & r & A' & E & H' & Cd & D). exists v', r, A'. unfold unlink. rewrite E. cbn [bind].
  split; [auto|]. split; [auto|]. split; [auto|]. destruct D as [D|(-> & Ro & D & l1 & l2 & El & Er)]; [left; auto|right]. split; [auto|]. split; [destruct (isdir f); [tauto|auto]|]. split; [auto|]. split; [destruct (isdir f); [|eapply spared_removed; eauto]; destruct D as (Em & _ & Rm); eapply spared_trans; [apply spared_without; exact Em|eapply spared_removed; eauto]|]. split; [intros Di; rewrite Di in D; tauto|]. split; [apply Er|]. intros rest Ef. eapply erased_gone; eauto.
Qed.
Lemma unlink_file w A path c g cs : holds_tree (vol w) A total -> leads A (cdir (vol w)) path c g cs -> isdir g = false ->
  exists w' r A' ms, ('(w, r) <- unlink bufs w path ;; Ok (if is_ok r then note w (verbose o) (Shown path) else say w (Failed path r), r)) = Ok (w', r) /\ fate w w' A A' c g r ms.
Proof.
  intros H Ld Di. destruct (unlink_here w A path c g cs H Ld) as (v' & r & A' & E & H' & Cd & D). rewrite E. cbn [bind]. rewrite Di in D. destruct D as [(-> & -> & -> & D)|(-> & D & _ & Sr & _ & K & G)]; cbn [is_ok].
  - do 4 eexists. split; [reflexivity|]. split; [exact H|]. split; [auto|]. split; [auto|]. split; [apply same_locks_refl|]. split; [exact (eq_refl ([Failed path (Rc R_DENIED)] ++ out w))|]. split; [now apply told_failed|]. split; [apply spared_refl|]. split; [auto|]. right. split; [apply partly_refl|]. left. split; [auto|]. left. destruct D as [D|[D _]]; [auto|discriminate].
  - exists (note (with_vol w v') (verbose o) (Shown path)), (Rc R_OK), A', (if verbose o then [Shown path] else []). split; [auto|]. unfold fate, note. split; [destruct (verbose o); exact H'|]. split; [destruct (verbose o); exact Cd|]. split; [destruct (verbose o); auto|]. split; [destruct (verbose o); apply same_locks_refl|]. split; [destruct (verbose o); auto|].
    split; [destruct (verbose o) eqn:Vb; [now apply told_shown|apply told_none]|]. split; [exact Sr|]. split; [intros q _ Q; destruct (verbose o); now apply K|]. left. split; [auto|]. split; [now apply removed_deleted|]. intros rest Ef. destruct (verbose o); eapply G; eauto.
Qed.

(* The loop, if directories inside are deleted. *)
Section Loop.
Variables (m h N : nat).
Hypothesis IH : forall w A path c f cs, holds_tree (vol w) A total -> leads A (cdir (vol w)) path c f cs -> isdir f = true -> short_names A f -> unopened (sems w) A f -> (length (sems w) < 1000)%nat ->
  ~ deep A h (clu A f) -> (forall x, In x (nodes A) -> (length (ents A x) <= N)%nat) -> exists w' r A' ms, remove_recursive bufs m o w path = Ok (w', r) /\ fate w w' A A' c f r ms.
Variables (v0 : volume) (A : tree) (path : list Z) (c : Z) (f : entry_t) (cs : list Z) (a b : list sem) (x : sem).
Hypothesis H0 : holds_tree v0 A total.
Hypothesis Ld : leads A (cdir v0) path c f cs.
Hypothesis Di : isdir f = true.
Hypothesis Sn : short_names A f.
Hypothesis Un : unopened (a ++ x :: b) A f.
Hypothesis Le : (length (a ++ mkSem 1 (clu A f) 0 1 :: b) < 1000)%nat.
Hypothesis Nd : ~ deep A (Datatypes.S h) (clu A f).
Hypothesis Bn : forall y, In y (nodes A) -> (length (ents A y) <= N)%nat.
Let k := clu A f.

Lemma loop_ok : forall n w A1 d last, holds_tree (vol w) A1 total -> cdir (vol w) = cdir v0 -> partly A f A1 -> In k (nodes A1) -> pos_ok (vol w) k d -> same_locks (a ++ mkSem 1 k 0 1 :: b) (sems w) -> (length (ents A1 k) < n)%nat ->
  exists w' r d' last' A2 ms, RmModel.remove_loop bufs n (remove_recursive bufs m o) w d (path ++ [47]) o last = Ok (w', r, d', last') /\
    holds_tree (vol w') A2 total /\ partly A f A2 /\ In k (nodes A2) /\ cdir (vol w') = cdir v0 /\ keys w' = keys w /\ same_locks (sems w) (sems w') /\ d_lock d' = d_lock d /\ out w' = ms ++ out w /\ told o r ms /\ spared A1 A2 /\
    (forall q, ~ below A f q -> dirs (vol w') q = dirs (vol w) q) /\ (ents A1 k <> [] \/ last <> None -> last' <> None) /\
    ((r = Rc R_OK /\ ents A2 k = []) \/ (r = Rc R_DENIED /\ pinned A (cdir v0) f) \/ (r = TooMany /\ deep A (Datatypes.S (places (a ++ mkSem 1 k 0 1 :: b))) k)).
Proof.
  induction n as [|n IHn]; intros w A1 d last H1 Cd Pa Ik Po Lk Ln; [lia|]. cbn [RmModel.remove_loop].
  pose proof (leads_in _ _ _ _ _ _ _ H0 Ld) as (_ & _ & Ic & Jf & _). pose proof Pa as (W1 & Pa1 & Pa2). assert (Ek : k = clu A1 f) by (symmetry; now apply wide_clu).
  assert (Bk : below A f k) by (split; [auto|apply under_self]).
  assert (Nm : Forall (fun g => exists cs, good_name cs /\ named cs g /\ zlen (utf8 cs) <= 255) (ents A1 k)).
  { rewrite Forall_forall. intros g J. destruct (Pa2 k Ik) as (Ik0 & first & Ef). apply (Sn k g Ik0 Bk). rewrite Ef. apply in_or_app. auto. }
  destruct (readdir_ok bufs Bu w A1 total k d H1 Ik Po Nm) as [(E0 & d' & E & Ed)|(g & rest & cs' & d' & Eg & G & Ca & L8 & E & Ed & Bg & Po')]; rewrite E; cbn [bind is_ok negb].
  - exists (with_vol w (vol w)), (Rc R_OK), d', last, A1, []. split; [auto|]. split; [exact H1|]. split; [auto|]. split; [auto|]. split; [exact Cd|]. split; [auto|]. split; [apply same_locks_refl|]. split; [auto|]. split; [auto|]. split; [apply told_none|]. split; [apply spared_refl|]. split; [auto|]. split; [tauto|]. left. auto.
  - destruct (utf8 cs') as [|u8 us] eqn:Eu; [now apply utf8_some in Eu|]. rewrite <- Eu in *.
    unfold RmModel.append. match goal with |- context [if ?e then Ok _ else Ub] => replace e with true by (unfold zlen in L8; lia) end. cbn [bind].
    destruct (attr_bits63 _ Bg) as (B16 & _). rewrite B16. change (has (snd g 11) 16) with (isdir g). set (w1 := with_vol w (vol w)). assert (J : In g (ents A1 k)) by (rewrite Eg; left; auto).
    pose proof (holds_shape _ _ H1) as S1.
    assert (Ld1 : leads A1 (cdir (vol w1)) ((path ++ [47]) ++ utf8 cs') k g cs').
    { cbn [w1 with_vol vol]. rewrite Cd. rewrite Ek. eapply leads_child; eauto; [|now rewrite <- Ek]. eapply leads_part; eauto. }
    assert (Gf : exists w2 r A2 ms, (if isdir g then remove_recursive bufs m o w1 ((path ++ [47]) ++ utf8 cs') else '(w, r) <- unlink bufs w1 ((path ++ [47]) ++ utf8 cs') ;; Ok (if is_ok r then note w (verbose o) (Shown ((path ++ [47]) ++ utf8 cs')) else say w (Failed ((path ++ [47]) ++ utf8 cs') r), r)) = Ok (w2, r) /\ fate w1 w2 A1 A2 k g r ms).
    { destruct (isdir g) eqn:Dg; [|eapply unlink_file; eauto]. apply (IH w1 A1 _ k g cs'); auto.
      - intros y z Iy By Jz. destruct (Pa2 y Iy) as (Iy0 & first & Ey). apply (Sn y z Iy0); [|rewrite Ey; apply in_or_app; auto]. eapply below_part; [exact Pa|]. eapply below_child; eauto.
      - cbn [w1 with_vol sems]. eapply same_locks_unopened; [exact Lk|]. apply (opened_unopened A1 f g k a b x); auto. eapply unopened_part; eauto.
      - cbn [w1 with_vol sems]. rewrite (proj2 (same_locks_places _ _ Lk)). auto.
      - intros Q. apply Nd. exists (clu A1 g). split; [eapply parent_part; [exact Pa|]; split; [auto|eauto]|]. eapply deep_mono; [|exact Q]. intros p q. apply (parent_part A f A1 p q Pa).
      - intros y Iy. destruct (Pa2 y Iy) as (Iy0 & first & Ey). specialize (Bn y Iy0). rewrite Ey, app_length in Bn. lia. }
    destruct Gf as (w2 & r & A2 & ms & -> & (H2 & Cd2 & Kk & Lk2 & Ou & Td & Sr & Kp & Fa)). cbn [bind].
    assert (Kq : forall q, ~ below A f q -> dirs (vol w2) q = dirs (vol w) q).
    { intros q Nq. apply Kp; [intros Q; apply Nq; eapply below_part; [exact Pa|]; eapply below_child; eauto|]. intros ->. auto. }
    destruct Fa as [(-> & De & Gn)|(Pg & Why)]; cbn [is_ok negb].
    + destruct (deleted_part A1 f g k A2 rest Di Ek Ik Eg (ents_nodup _ _ _ _ H1 Ik) S1 De) as (Pa12 & Ik2 & Er). assert (Pa3 : partly A f A2) by (eapply partly_trans; eauto).
      destruct (IHn w2 A2 d' (Some (utf8 cs'))) as (w' & r & d2 & last' & A3 & ms' & E' & H3 & P3 & I3 & C3 & K3 & L3 & D3 & O3 & T3 & S3 & Q3 & La3 & R3); auto.
      * rewrite Cd2. exact Cd.
      * apply Po'. apply (Gn rest Eg).
      * eapply same_locks_trans; eauto.
      * rewrite Er. rewrite Eg in Ln. cbn in Ln. lia.
      * exists w', r, d2, last', A3, (ms' ++ ms). split; [exact E'|]. split; [auto|]. split; [auto|]. split; [auto|]. split; [auto|]. split; [rewrite K3; exact Kk|]. split; [eapply same_locks_trans; [exact Lk2|exact L3]|]. split; [congruence|]. split; [rewrite O3, Ou; apply app_assoc|]. split; [now apply told_app|]. split; [eapply spared_trans; eauto|].
        split; [intros q Nq; rewrite Q3 by auto; now apply Kq|]. split; [intros _; apply La3; right; discriminate|]. auto.
    + assert (Nok : is_ok r = false) by (destruct Why as [(-> & _)|(-> & _)]; auto). rewrite Nok. cbn [negb]. assert (Pa3 : partly A1 f A2) by (eapply partly_child; eauto).
      exists w2, r, d', (Some (utf8 cs')), A2, ms. split; [auto|]. split; [auto|]. split; [eapply partly_trans; eauto|]. split; [apply Pg; [auto|]; intros (Dg & U); revert U; now apply not_inside|]. split; [rewrite Cd2; exact Cd|]. split; [exact Kk|]. split; [exact Lk2|]. split; [auto|]. split; [exact Ou|]. split; [auto|]. split; [auto|]. split; [auto|]. split; [intros _; discriminate|].
      destruct Why as [(-> & Pn)|(-> & Dg & Dp)]; [right; left|right; right]; (split; [auto|]).
      * eapply pinned_part; [exact Pa|]. eapply (pinned_child A1 _ f g k); eauto. cbn [w1 with_vol vol] in Pn. now rewrite Cd in Pn.
      * cbn [w1 with_vol sems] in Dp. rewrite (proj1 (same_locks_places _ _ Lk)) in Dp. exists (clu A1 g). split; [eapply parent_part; [exact Pa|]; split; [auto|eauto]|]. eapply deep_mono; [|exact Dp]. intros p q. apply (parent_part A f A1 p q Pa).
Qed.
End Loop.

Theorem recursive_ok : forall fuel h N w A path c f cs, holds_tree (vol w) A total -> leads A (cdir (vol w)) path c f cs -> isdir f = true -> short_names A f -> unopened (sems w) A f -> (length (sems w) < 1000)%nat ->
  ~ deep A h (clu A f) -> (forall x, In x (nodes A) -> (length (ents A x) <= N)%nat) -> (h + N < fuel)%nat -> exists w' r A' ms, remove_recursive bufs fuel o w path = Ok (w', r) /\ fate w w' A A' c f r ms.
Proof.
  induction fuel as [|fuel IH]; intros h N w A path c f cs H Ld Di Sn Un Le Nd Bn Fu; [lia|]. cbn [remove_recursive]. destruct h as [|h]; [exfalso; apply Nd; exact I|].
  pose proof (leads_in _ _ _ _ _ _ _ H Ld) as (Sp & Re & Ic & Jf & _). pose proof (holds_shape _ _ H) as Sh. pose proof (child_in A c f Sh Ic Jf Di) as Ik. set (k := clu A f) in *.
  assert (Nc : ~ below A f c) by (intros (_ & U); revert U; now apply not_inside).
  destruct (unlink_here w A path c f cs H Ld) as (v1 & r1 & A1 & -> & H1 & Cd1 & D1). cbn [bind is_ok]. rewrite Di in D1. destruct D1 as [(-> & -> & -> & D1)|(-> & (Em & Rm) & _ & Sr & _ & Kp & Gn)].
  2: { exists (note (with_vol w v1) (verbose o) (Shown path)), (Rc R_OK), A1, (if verbose o then [Shown path] else []). split; [auto|]. unfold fate, note. split; [destruct (verbose o); exact H1|]. split; [destruct (verbose o); exact Cd1|]. split; [destruct (verbose o); auto|]. split; [destruct (verbose o); apply same_locks_refl|]. split; [destruct (verbose o); auto|].
       split; [destruct (verbose o) eqn:Vb; [now apply told_shown|apply told_none]|]. split; [exact Sr|]. split; [intros q _ Q; destruct (verbose o); now apply Kp|]. left. split; [auto|]. split; [apply (emptied_deleted A A c f); auto; [eapply ents_nodup; eauto|apply partly_refl]|]. intros rest Ef. destruct (verbose o); eapply Gn; eauto. }
  set (w1 := with_vol w (vol w)). unfold opendir. destruct (opendir_tree (vol w) A total (path ++ [0]) (bufs (calls w1)) H Sp (Bu _)) as (r & d & t & E & Rt & Op & _). assert (t = Found c f cs) by (destruct H as (L & V); eapply (resolves_one (vol w) A L total V); eauto). subst t. cbn in Op. rewrite Di in Op. destruct Op as [-> ->].
  change (vol w1) with (vol w). rewrite E. cbn [bind]. fold k. assert (K0 : k <> 0) by (apply (parent_unique A c c k Sh); (split; [auto|]; exists f; auto)). replace (k =? 0) with false by lia. cbn [negb].
  change (sems (with_vol w1 (vol w))) with (sems w). destruct (opened_lock (sems w) A f Di Un Le) as [[P0 Es]|(a & x & b & Es0 & Bx & Pl & Es)]; fold k in Es; rewrite Es; cbv zeta; cbn [bind].
  { change (0 =? 0) with true. cbn [is_ok negb]. eexists _, TooMany, A, [Failed path TooMany]. split; [reflexivity|]. split; [exact H|]. split; [auto|]. split; [auto|]. split; [apply same_locks_refl|]. split; [auto|]. split; [now apply told_failed|]. split; [apply spared_refl|]. split; [auto|]. right. split; [apply partly_refl|]. right. split; [auto|]. split; [auto|]. rewrite P0. exact I. }
  replace (Z.of_nat (length a) + 1 =? 0) with false by lia. cbn [is_ok negb]. set (w2 := with_sems (with_vol w1 (vol w)) (a ++ mkSem 1 k 0 1 :: b)). set (d0 := mkDo k (Some 0) NONE (Z.of_nat (length a) + 1)).
  assert (Le2 : (length (a ++ mkSem 1 k 0 1 :: b) < 1000)%nat) by (rewrite Es0, app_length in Le; rewrite app_length; exact Le).
  assert (Cp : 1 <= cap (dirs (vol w) k)) by (destruct H as (L & V); destruct (vo_tabs _ _ _ _ V k Ik) as [[Dk _] _]; apply (dk_cap _ _ Dk)).
  assert (IH' : forall w A path c f cs, holds_tree (vol w) A total -> leads A (cdir (vol w)) path c f cs -> isdir f = true -> short_names A f -> unopened (sems w) A f -> (length (sems w) < 1000)%nat -> ~ deep A h (clu A f) -> (forall x, In x (nodes A) -> (length (ents A x) <= N)%nat) -> exists w' r A' ms, remove_recursive bufs fuel o w path = Ok (w', r) /\ fate w w' A A' c f r ms) by (intros; eapply (IH h N); eauto; lia).
  rewrite Es0 in Un.
  destruct (loop_ok fuel h N IH' (vol w) A path c f cs a b x H Ld Di Sn Un Le2 Nd Bn fuel w2 A d0 None) as (w3 & r & d' & last & A2 & ms & -> & H3 & P3 & I3 & C3 & K3 & L3 & D3 & O3 & T3 & S3 & Q3 & La3 & R3); auto.
  { apply partly_refl. }
  { split; [auto|]. cbn [d_pos d0]. split; [exact (conj (Z.le_refl 0) (Z.lt_le_trans 0 1 _ ltac:(lia) Cp))|]. intros j J. lia. }
  { apply same_locks_refl. }
  { specialize (Bn k Ik). unfold k in *. lia. }
  cbn [bind]. fold k in I3, R3, La3. assert (Ecl : closedir w3 d' = with_sems w3 (fst (dec_share (sems w3) (Z.of_nat (length a) + 1)))) by (unfold closedir; rewrite D3; cbn [d0 d_lock]; replace (Z.of_nat (length a) + 1 =? 0) with false by lia; auto).
  pose proof (closed_lock k a x b (sems w3) Bx L3 Le2) as L4. rewrite <- Es0 in L4. rewrite Ecl. set (w4 := with_sems w3 _) in *.
  assert (O3' : out w3 = ms ++ out w) by exact O3. assert (Q3' : forall q, ~ below A f q -> dirs (vol w3) q = dirs (vol w) q) by exact Q3.
  destruct R3 as [(-> & Em)|R3].
  - cbn [is_ok]. assert (Ld4 : leads A2 (cdir (vol w4)) path c f cs) by (change (vol w4) with (vol w3); rewrite C3; eapply leads_part; eauto).
    destruct (unlink_here w4 A2 path c f cs H3 Ld4) as (v5 & r5 & A5 & -> & H5 & Cd5 & D5). cbn [bind]. assert (Ek2 : clu A2 f = k) by (apply wide_clu; apply P3). rewrite Di, Ek2 in D5. destruct D5 as [(-> & -> & -> & D5)|(-> & (Em5 & Rm5) & Ro5 & Sr5 & Cw5 & Kp5 & Gn5)]; cbn [is_ok negb].
    + eexists _, (Rc R_DENIED), A2, ([Failed path (Rc R_DENIED)] ++ ms). split; [reflexivity|]. split; [exact H3|]. split; [exact C3|]. split; [exact K3|]. split; [exact L4|]. split; [cbn [say out with_vol w4 with_sems app]; now rewrite O3'|]. split; [apply told_app; [auto|now apply told_failed]|]. split; [auto|]. split; [intros q Nq _; now apply Q3'|].
      right. split; [auto|]. left. split; [auto|]. destruct D5 as [D5|[_ [D5|D5]]]; [left; auto| |contradiction]. right. left. split; [auto|]. change (vol w4) with (vol w3) in D5. rewrite C3 in D5. fold k. rewrite D5. apply under_self.
    + assert (De : deleted A c f A5) by (apply (emptied_deleted A A2 c f); auto; [eapply ents_nodup; eauto|eapply holds_shape; eauto]).
      assert (Ne : ents A k <> []).
      { destruct D1 as [D1|[_ [D1|D1]]]; [congruence| |auto]. exfalso. apply (Cw5 eq_refl). change (vol w4) with (vol w3). rewrite C3. exact D1. }
      assert (La : last <> None) by (apply La3; left; exact Ne).
      assert (Ff : forall w' ms', vol w' = v5 -> keys w' = keys w -> sems w' = sems w4 -> out w' = ms' ++ out w -> told o (Rc R_OK) ms' -> fate w w' A A5 c f (Rc R_OK) ms').
      { intros w' ms' X1 X2 X3 X4 X5. split; [rewrite X1; exact H5|]. split; [rewrite X1, Cd5; exact C3|]. split; [auto|]. split; [rewrite X3; exact L4|]. split; [auto|]. split; [auto|]. split; [eapply spared_trans; eauto|]. split; [intros q Nq Qc; rewrite X1, Kp5 by auto; now apply Q3'|].
        left. split; [auto|]. split; [auto|]. intros rest Ef. rewrite X1. apply (gone_ext (vol w) (vol w3)); [now apply Q3'|]. apply (Gn5 rest). destruct P3 as (_ & Pk & _). now rewrite (proj2 (Pk c Ic Nc)). }
      destruct (verbose o) eqn:Vb.
      * destruct last as [fname|]; [|congruence]. eexists _, (Rc R_OK), A5, ([Shown ((path ++ [47]) ++ fname)] ++ ms). split; [reflexivity|]. apply Ff; auto; [cbn [say out with_vol w4 with_sems app]; now rewrite O3'|]. apply told_app; [auto|now apply told_shown].
      * eexists _, (Rc R_OK), A5, ms. split; [reflexivity|]. apply Ff; auto.
  - assert (Nok : is_ok r = false) by (destruct R3 as [(-> & _)|(-> & _)]; auto). rewrite Nok. exists w4, r, A2, ms. split; [auto|]. split; [exact H3|]. split; [exact C3|]. split; [exact K3|]. split; [exact L4|]. split; [exact O3'|]. split; [auto|]. split; [auto|]. split; [intros q Nq _; now apply Q3'|]. right. split; [auto|].
    destruct R3 as [(-> & Pn)|(-> & Dp)]; [left|right]; (split; [auto|]); [auto|]. split; [auto|]. fold k. rewrite Pl. exact Dp.
Qed.
End Remove.
