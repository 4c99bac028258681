From Verif Require Import Base CrcSpec FutfModel FutfSpec FutfProof LfnModel LfnSpec LfnProof FdirModel FdirSpec FdirProof FdirProof2 FdirProof3 FnameModel FnameSpec FnameProof FnameProof2 FnameProof3 FnameProof4 FnameProof5 FnameProof6 FpathModel FpathSpec FpathProof FpathProof2 FpathProof3 FpathProof4 FpathProof5 FpathProof6 FpathProof7 FpathProof8 FpathProof9 FpathProof14 FpathProof15 FpathProof16 FpathProof17.
Open Scope Z_scope.

(* --- entries that are passed over ---------------------------------------------------------- *)
Definition passed (e : Z -> Z) : Prop := e 0 <> 0 /\ (e 0 = DDEM \/ e 0 = 46 \/ Z.land (Z.land (e 11) 63) 223 = 8).
Definition clean (d : dirt) (p : Z) : Prop := forall j, 0 <= j < p -> passed (tab d j).
Lemma read_passed d buf i sum blk : cap d <= MAXENT -> 0 <= i < cap d -> passed (tab d i) -> read_at d buf i 255 sum blk = read_at d buf (i + 1) 255 sum blk.
Proof.
  intros C I (N & P). rewrite read_step by auto. cbv zeta. replace (tab d i 0 =? 0) with false by lia. replace ((tab d i 0 =? DDEM) || (tab d i 0 =? 46) || (Z.land (Z.land (tab d i 11) 63) 223 =? 8)) with true; [auto|]. symmetry. rewrite !orb_true_iff, !Z.eqb_eq. tauto.
Qed.
Lemma read_clean d buf n sum blk : cap d <= MAXENT -> Z.of_nat n <= cap d -> clean d (Z.of_nat n) -> read_at d buf 0 255 sum blk = read_at d buf (Z.of_nat n) 255 sum blk.
Proof.
  intros C. induction n as [|n IH]; intros N P; [auto|]. rewrite IH; [|lia|intros j J; apply P; lia]. rewrite read_passed; [|auto|lia|apply P; lia]. f_equal. lia.
Qed.
Lemma laid_passed t l : forall p, laid t p l -> filter shown (files l) = [] -> forall j, p <= j < p + sizes l -> passed (t j).
Proof.
  induction l as [|x l IH]; intros p La F j J; [cbn in J; lia|]. destruct La as [St La]. rewrite sizes_cons in J. assert (F' : filter shown (files l) = []) by (destruct x; cbn [files filter] in F; auto; destruct (shown _); [discriminate|auto]).
  destruct (Z.ltb_spec j (p + size x)) as [Q|Q]; [|apply (IH (p + size x)); auto; lia]. destruct x as [|e|w e]; cbn [size stored] in *.
  - replace j with p by lia. destruct St as [_ E]. split; [rewrite E; unfold DDEM; lia|auto].
  - replace j with p by lia. destruct St as [-> (B & N0 & _ & E)]. split; [auto|]. right. right. clear - E B. specialize (B 11).
    pose proof (byte_all (fun x => negb (Z.land x 31 =? 8) || (Z.land (Z.land x 63) 223 =? 8)) eq_refl (e 11) B) as H. cbv beta in H. rewrite E in H. change (negb (8 =? 8)) with false in H. cbn in H. lia.
  - destruct St as (Et & (_ & N0 & _) & Hw). cbn [files filter] in F. unfold shown in F at 1. cbn [snd] in F. destruct (Z.eqb_spec (e 0) 46) as [E46|]; [|discriminate]. destruct w as [|u w]; [|exfalso; destruct Hw as (_ & Q' & _); [discriminate|auto]].
    change (parts []) with 0 in *. rewrite Z.add_0_r in Et. replace j with p by lia. rewrite Et. split; auto.
Qed.

(* --- f_unlink on a file -------------------------------------------------------------------- *)
(* Only its entries are changed. *)
Definition erased (v v' : volume) (c : Z) (l1 : list item) (w : list Z) : Prop :=
  (forall q, q <> c -> dirs v' q = dirs v q) /\ cap (dirs v' c) = cap (dirs v c) /\
  (forall j, sizes l1 <= j <= sizes l1 + parts w -> tab (dirs v' c) j 0 = DDEM) /\ forall j, ~ (sizes l1 <= j <= sizes l1 + parts w) -> tab (dirs v' c) j = tab (dirs v c) j.
Lemma put_table_dirs v c d q : dirs (put_table v c d) q = put (dirs v) c d q.
Proof. unfold put_table. destruct (fixed v c); reflexivity. Qed.
Lemma erased_dir v A L total c l1 w e l2 d q : vol_ok v A L total -> In c (nodes A) -> L c = l1 ++ File w e :: l2 -> dir_remove (table v c) (sizes l1 + parts w) (read_blk w (sizes l1)) = Ok (d, q) ->
  erased v (put_table v c d) c l1 w.
Proof.
  intros V I El E. destruct (vo_tabs _ _ _ _ V c I) as [[D _] _]. rewrite El in D. pose proof (parts_nonneg w) as Pw. pose proof (sizes_nonneg l1) as S1. pose proof (sizes_nonneg l2) as S2. pose proof (dk_cap _ _ D) as C. pose proof (dk_room _ _ D) as Rm. rewrite sizes_app, sizes_cons in Rm. cbn [size] in Rm.
  unfold dir_remove in E. assert (St : (if read_blk w (sizes l1) =? NONE then sizes l1 + parts w else read_blk w (sizes l1)) = sizes l1).
  { unfold read_blk, NONE, MAXENT in *. destruct w as [|u w]; [rewrite parts_nil; change (4294967295 =? 4294967295) with true; cbv iota; lia|]. now replace (sizes l1 =? 4294967295) with false by lia. }
  rewrite St in E. destruct (remove_loop_ok (sizes l1 + parts w) (Z.to_nat (cap (table v c))) (table v c) (sizes l1)) as (t & Et & T1 & T2); [lia|lia|lia|lia|]. rewrite Et in E. injection E as <- <-.
  split; [intros k K; rewrite put_table_dirs; now apply put_other|]. rewrite !put_table_dirs, !put_same. cbn [set_tab cap tab]. split; [reflexivity|]. split; [intros j J; rewrite T1 by auto; apply upd_same|]. intros j J. now rewrite T2.
Qed.
Lemma unlink_found v A L total path buf c f cs : vol_ok v A L total -> spelled path -> units buf -> resolves A (cdir v) path (Found c f cs) ->
  exists v' r A', f_unlink v path buf = Ok (v', r) /\ holds_tree v' A' total /\ cdir v' = cdir v /\
    ((r = R_DENIED /\ v' = v /\ A' = A /\ (isro f = true \/ isdir f = true /\ (clu A f = cdir v \/ ents A (clu A f) <> []))) \/
     (r = R_OK /\ isro f = false /\ (if isdir f then ents A (clu A f) = [] /\ clu A f <> cdir v /\ removed (without A (clu A f)) c f A' else removed A c f A') /\
      exists l1 l2, L c = l1 ++ File (fst f) (snd f) :: l2 /\ erased v v' c l1 (fst f))).
Proof.
  intros V Sp U R. destruct (at_path _ _ _ _ V path buf Sp U) as (t & r & j & buf' & E & Re & [U' En]). assert (t = Found c f cs) by (eapply (resolves_one v A L total V); eauto). subst t. pose proof (vo_wide _ _ _ _ V) as Wd. pose proof (ex_intro (fun L => vol_ok v A L total) L V) as H0. unfold f_unlink. rewrite E. cbn [bind].
  destruct En as (-> & Ec & I & _ & Fo & _ & (l1 & w & e & l2 & -> & El & Ei & Eb & Ee) & J & _). destruct (has_form _ _ _ Fo) as (_ & -> & ->). unfold attr_of. rewrite Ec, Ei, Eb in *. rewrite Ee.
  destruct (file_entry _ _ _ _ V c l1 w e l2 I El) as [_ (B & _ & _ & E8)]. destruct (attr_bits63 _ (B 11)) as (B16 & B1 & _). rewrite B16, B1. change (has (e 11) 16) with (isdir (w, e)). change (has (e 11) 1) with (isro (w, e)). rewrite <- Wd. change (ld_clust (wide A) e) with (clu A (w, e)). cbv zeta.
  destruct (isro (w, e)) eqn:Ro; [exists v, R_DENIED, A; repeat (split; [solve [auto]|]); left; auto|].
  destruct (isdir (w, e)) eqn:Di.
  - destruct (Z.eqb_spec (clu A (w, e)) (cdir v)) as [Q|Q]; cbn [bind]; [exists v, R_DENIED, A; repeat (split; [solve [auto]|]); left; auto 8|].
    destruct (empty_dir v A L total V (clu A (w, e)) buf') as (q & i & b & buf2 & Er & Hq); [apply (dir_node v A L total V c (w, e)); auto|]. rewrite Er. cbn [bind]. destruct Hq as [[-> Em]|[-> Em]].
    + destruct (remove_dir v A L total V c l1 w e l2 I J El Di Em Q) as (d & A' & Ed & Rm & K0 & Cd & Hv). rewrite Ed. cbn [bind]. replace (clu A (w, e) =? 0) with false by lia. cbn [negb]. eexists _, R_OK, A'. split; [reflexivity|]. split; [exact Hv|]. split; [exact Cd|].
      right. split; [auto|]. split; [auto|]. split; [auto|]. exists l1, l2. split; [auto|]. exact (erased_dir v A L total c l1 w e l2 d D_OK V I El Ed).
    + exists v, R_DENIED, A. repeat (split; [solve [auto]|]). left. auto 8.
  - cbn [bind]. destruct (FpathProof9.remove_file v A L total V c l1 w e l2 I J El Di) as (d & A' & Ed & Rm & Cd & Hv). rewrite Ed. cbn [bind]. eexists _, R_OK, A'. split; [reflexivity|]. split; [exact Hv|]. split; [destruct (negb _); exact Cd|].
    right. split; [auto|]. split; [auto|]. split; [auto|]. exists l1, l2. split; [auto|]. cbn [fst]. pose proof (erased_dir v A L total c l1 w e l2 d D_OK V I El Ed) as (X1 & X2 & X3). destruct (negb _); [|split; auto]. split; [exact X1|]. split; [exact X2|exact X3].
Qed.

(* Reading the first file of a directory; then all up to it is passed over if it is deleted. *)
Definition gone (v v' : volume) (c : Z) : Prop :=
  cap (dirs v' c) = cap (dirs v c) /\ forall buf i b buf', dir_read (table v c) buf 0 NONE = Ok (D_OK, i, b, buf') -> clean (dirs v' c) (i + 1).
Lemma first_file v A L total c buf p blk : vol_ok v A L total -> In c (nodes A) -> 0 <= p <= cap (dirs v c) -> clean (dirs v c) p -> units buf ->
  (exists i b buf', read_at (table v c) buf p 255 255 blk = Ok (D_NO_FILE, i, b, buf') /\ ents A c = []) \/
  (exists l1 w e l2 rest i b buf', L c = l1 ++ File w e :: l2 /\ filter shown (files l1) = [] /\ ents A c = (w, e) :: rest /\ i = sizes l1 + parts w /\ p <= i < cap (dirs v c) /\
     read_at (table v c) buf p 255 255 blk = Ok (D_OK, i, b, buf') /\ lists (table v c) (i, b, buf') (w, e)).
Proof.
  intros V I P Cl U. destruct (vo_tabs _ _ _ _ V c I) as [[D _] R]. pose proof (dk_cap _ _ D) as C. pose proof (dk_room _ _ D) as Rm. pose proof (read_clean (table v c) buf (Z.to_nat p) 255 blk) as Rc. rewrite Z2Nat.id in Rc by lia. rewrite <- Rc; [|apply C|apply P|exact Cl].
  destruct (read_items (table v c) C (L c) 0 buf 255 blk (dk_laid _ _ D) ltac:(lia) Rm) as [(i & b & buf' & E & H)|(l1 & w & e & l2 & buf' & El & H1 & H2 & E & H3)].
  - intros Q. apply (dk_tail _ _ D). lia.
  - left. do 3 eexists. split; [exact E|]. now rewrite <- (rd_ents _ _ _ R).
  - right. rewrite Z.add_0_l in E. pose proof (dk_laid _ _ D) as La. rewrite El in La, Rm. rewrite sizes_app, sizes_cons in Rm. cbn [size] in Rm. pose proof (sizes_nonneg l1). pose proof (sizes_nonneg l2). pose proof (parts_nonneg w). cbn [table cap] in *.
    apply laid_app in La as [_ [(Et & (_ & N0 & N1 & N8) & Hw) _]]. rewrite Z.add_0_l in Et.
    exists l1, w, e, l2, (filter shown (files l2)), (sizes l1 + parts w), (read_blk w (sizes l1)), buf'. split; [auto|]. split; [auto|]. split; [rewrite <- (rd_ents _ _ _ R), El, files_app, filter_app, H1; cbn [files filter]; now rewrite H2|]. split; [auto|]. split; [|split; [exact E|]].
    + split; [|lia]. destruct (Z.ltb_spec (sizes l1 + parts w) p) as [Q|]; [exfalso|lia]. destruct (Cl (sizes l1 + parts w)) as [_ K]; [lia|]. cbn [table tab] in Et. rewrite Et in K. unfold shown in H2. cbn [snd] in H2. destruct K as [K|[K|K]]; [auto|rewrite K in H2; discriminate|].
      destruct (file_entry _ _ _ _ V c l1 w e l2 I El) as [_ (B & _)]. specialize (B 11). pose proof (byte_all (fun x => negb (Z.land x 8 =? 0) || negb (Z.land (Z.land x 63) 223 =? 8)) eq_refl (e 11) B) as Hb. cbv beta in Hb. rewrite N8, K in Hb. discriminate.
    + split; [exact Et|]. cbn [fst]. destruct w as [|u w]; [reflexivity|]. split; [cbn [read_blk]; unfold NONE, MAXENT in *; lia|apply H3; discriminate].
Qed.
Lemma erased_gone v A L total v' c f rest l1 l2 : vol_ok v A L total -> In c (nodes A) -> ents A c = f :: rest -> L c = l1 ++ File (fst f) (snd f) :: l2 -> erased v v' c l1 (fst f) -> gone v v' c.
Proof.
  intros V I Ef El (_ & Cp & E1 & E2). split; [auto|]. intros buf i b buf' Er. destruct (vo_tabs _ _ _ _ V c I) as [[D _] R]. pose proof (dk_cap _ _ D) as C. pose proof (dk_room _ _ D) as Rm. rewrite dir_read_at in Er by lia.
  destruct (read_items (table v c) C (L c) 0 buf 255 NONE (dk_laid _ _ D) ltac:(lia) Rm) as [(i' & b' & buf2 & E & H)|(m1 & w & e & m2 & buf2 & Em & H1 & H2 & E & H3)]; [intros Q; apply (dk_tail _ _ D); lia|rewrite E in Er; discriminate|].
  rewrite Er in E. rewrite Z.add_0_l in E. injection E as Ei Eb Ebf. pose proof (rd_ents _ _ _ R) as Q. rewrite Em, files_app, filter_app, H1 in Q. cbn [files filter] in Q. rewrite H2, Ef in Q. injection Q as <- _. cbn [fst snd] in *.
  destruct (same_file (L c) m1 m2 l1 l2 w e (rd_names _ _ _ R) Em El) as [-> ->]. pose proof (dk_laid _ _ D) as La. rewrite El in La. apply laid_app in La as [La _]. pose proof (parts_nonneg w).
  intros j J. destruct (Z.ltb_spec j (sizes l1)) as [K|K].
  - rewrite E2 by lia. apply (laid_passed (tab (table v c)) l1 0 La H1). lia.
  - assert (Z0 : tab (dirs v' c) j 0 = DDEM) by (apply E1; lia). split; [rewrite Z0; unfold DDEM; lia|auto].
Qed.
