From Verif Require Import Base CrcSpec FutfModel FutfSpec FutfProof LfnModel LfnSpec LfnProof FdirModel FdirSpec FdirProof FdirProof2 FdirProof3 FnameModel FnameSpec FnameProof FnameProof2 FnameProof3 FnameProof4 FnameProof5 FnameProof6 FpathModel FpathSpec FpathProof FpathProof2 FpathProof3 FpathProof4 FpathProof5 FpathProof6 FpathProof7 FpathProof8.
Open Scope Z_scope.

Section Ops3.
Variables (v : volume) (A : tree) (L : Z -> list item) (total : list Z).
Hypothesis V : vol_ok v A L total.
Let Nd : NoDup (nodes A) := proj1 (vo_shape _ _ _ _ V).
Let No : NoDup (owners A) := owners_nodup _ _ _ (vo_space _ _ _ _ V) (vo_total _ _ _ _ V).
Let Wd : wide A = fat32 v := vo_wide _ _ _ _ V.

Lemma empty_dir k buf : In k (nodes A) -> exists q i b buf', dir_read (table v k) buf 0 NONE = Ok (q, i, b, buf') /\ ((q = D_NO_FILE /\ ents A k = []) \/ (q = D_OK /\ ents A k <> [])).
Proof.
  intros I. destruct (vo_tabs _ _ _ _ V k I) as [[D _] R]. pose proof (dk_cap _ _ D) as C. pose proof (dk_room _ _ D) as Rm. rewrite dir_read_at by lia.
  destruct (read_items (table v k) C (L k) 0 buf 255 NONE (dk_laid _ _ D) ltac:(lia) Rm) as [(i & b & buf' & E & H)|(l1 & w & e & l2 & buf' & El & H1 & H2 & E & H3)].
  - intros Q. apply (dk_tail _ _ D). lia.
  - do 4 eexists. split; [exact E|]. left. split; [auto|]. now rewrite <- (rd_ents _ _ _ R).
  - do 4 eexists. split; [exact E|]. right. split; [auto|]. rewrite <- (rd_ents _ _ _ R), El, files_app, filter_app. cbn [files filter]. rewrite H2. intros Q. destruct (filter shown (files l1)); discriminate.
Qed.

(* Removing a file. *)
Lemma remove_file c l1 w e l2 : In c (nodes A) -> In (w, e) (ents A c) -> L c = l1 ++ File w e :: l2 -> isdir (w, e) = false ->
  exists d A', dir_remove (table v c) (sizes l1 + parts w) (read_blk w (sizes l1)) = Ok (d, D_OK) /\ removed A c (w, e) A' /\
    let v1 := put_table v c d in cdir v1 = cdir v /\ holds_tree (if negb (clu A (w, e) =? 0) then release v1 (clu A (w, e)) else v1) A' total.
Proof.
  intros I J El Di. destruct (vo_tabs _ _ _ _ V c I) as [La Rd]. rewrite El in La, Rd. assert (Sh : shown (w, e) = true) by (apply (ents_in _ _ _ _ V c) in J; tauto).
  destruct (lay_remove v c l1 w e l2 La) as (d & Ed & As & St & L1). destruct (reads_remove A c (table v c) l1 w e l2 (Z.to_nat (parts w + 1)) Rd (proj1 La) Sh) as (A' & Rm & Rd').
  exists d, A'. split; [auto|]. split; [auto|]. cbv zeta. split; [apply As|]. set (v1 := put_table v c d) in *. pose proof (owners_removed _ _ _ _ Nd I Rm) as Ow.
  assert (Pa : forall p k, parent A p k -> parent A' p k) by (intros p k Pk; eapply parent_removed; eauto). pose proof Rm as (x & y & Ex & Ea).
  assert (Go : forall v2, same_geo v v2 -> (forall k, dirs v2 k = dirs v1 k) -> (forall k, In k (nodes A) -> chains v2 k = chains v k) -> space v2 A' total -> holds_tree v2 A' total).
  { intros v2 G2 D2 C2 S2. eexists. apply (rebuild v A L total v2 A' c (l1 ++ repeat Hole (Z.to_nat (parts w + 1)) ++ l2)); auto.
    - now rewrite Ea.
    - now rewrite Ea.
    - intros k Nk. rewrite Ea. cbn. now apply put_other.
    - intros k Ik Nk. apply (lay_ext v); [auto| |now rewrite C2|now apply (vo_tabs _ _ _ _ V)]. rewrite D2. now apply As.
    - apply (lay_ext v1); [|auto| |auto]; [destruct As as [(G3 & G4 & G5 & G6) _], G2 as (G7 & G8 & G9 & G10); split; [congruence|split; [congruence|split; congruence]]|]. rewrite C2 by auto. now rewrite (proj2 St).
    - eapply shape_removed; eauto. apply V. }
  destruct (Z.eqb_spec (clu A (w, e)) 0) as [E0|E0]; cbn [negb].
  - apply Go; [apply As|auto|intros; apply St|]. eapply space_perm; [apply V| |rewrite (proj1 St); auto|apply St]. rewrite Ow, E0. auto.
  - apply Go; [apply As|auto| |].
    + intros k Ik. cbn. rewrite put_other; [apply St|]. intros ->. revert Ik. apply (file_not_node A c (w, e)); auto. apply V.
    + apply (space_release v1 A total A'); [eapply space_perm; [apply V|auto|rewrite (proj1 St); auto|apply St]| |auto|].
      * destruct As as [(_ & _ & -> & _) _]. apply V.
      * unfold one in Ow. replace (clu A (w, e) =? 0) with false in Ow by lia. auto.
Qed.
(* Removing an empty directory. *)
Lemma remove_dir c l1 w e l2 : In c (nodes A) -> In (w, e) (ents A c) -> L c = l1 ++ File w e :: l2 -> isdir (w, e) = true -> ents A (clu A (w, e)) = [] -> clu A (w, e) <> cdir v ->
  exists d A', dir_remove (table v c) (sizes l1 + parts w) (read_blk w (sizes l1)) = Ok (d, D_OK) /\ removed (without A (clu A (w, e))) c (w, e) A' /\ clu A (w, e) <> 0 /\
    let v1 := put_table v c d in cdir v1 = cdir v /\ holds_tree (release v1 (clu A (w, e))) A' total.
Proof.
  intros I J El Di Em Cd. destruct (vo_tabs _ _ _ _ V c I) as [La Rd]. rewrite El in La, Rd. assert (Sh : shown (w, e) = true) by (apply (ents_in _ _ _ _ V c) in J; tauto). set (k := clu A (w, e)) in *.
  assert (Ck : c <> k) by (intros Q; rewrite <- Q in Em; rewrite Em in J; easy).
  assert (P1 : forall p x, parent A p x -> x <> k -> parent (without A k) p x).
  { intros p x (I1 & g & I2 & I3 & I4) Nx. split; [apply in_without; split; [auto|intros ->; rewrite Em in I2; easy]|]. exists g. auto. }
  assert (Rd0 : reads (without A k) c (l1 ++ File w e :: l2)) by (apply (reads_other A); auto).
  destruct (lay_remove v c l1 w e l2 La) as (d & Ed & As & St & L1). destruct (reads_remove (without A k) c (table v c) l1 w e l2 (Z.to_nat (parts w + 1)) Rd0 (proj1 La) Sh) as (A' & Rm & Rd').
  destruct (shape_rmdir A c (w, e) A' (vo_shape _ _ _ _ V) I J Di Em Rm) as (Sh' & K0 & Ik & _). fold k in K0, Ik.
  exists d, A'. split; [auto|]. split; [auto|]. split; [auto|]. cbv zeta. split; [apply As|]. set (v1 := put_table v c d) in *.
  assert (Ic : In c (nodes (without A k))) by now apply in_without. assert (N1 : NoDup (nodes (without A k))) by (apply NoDup_filter; auto).
  pose proof (owners_removed _ _ _ _ N1 Ic Rm) as Ow. change (clu (without A k) (w, e)) with k in Ow.
  assert (Eo : owners (without A k) = owners A) by (unfold owners; change (clu (without A k)) with (clu A); now rewrite links_without). rewrite Eo in Ow.
  pose proof Rm as (x & y & Ex & Ea). assert (Nn : nodes A' = nodes (without A k)) by now rewrite Ea. assert (Wn : wide A' = wide A) by now rewrite Ea.
  assert (Pa : forall p q, parent A p q -> q <> k -> parent A' p q) by (intros p q Pq Nq; eapply parent_removed; [exact Rm|auto|right; change (clu (without A k) (w, e)) with k; auto]).
  exists (put L c (l1 ++ repeat Hole (Z.to_nat (parts w + 1)) ++ l2)). pose proof As as [G Oth]. pose proof G as (G1 & G2 & G3 & G4). constructor.
  - rewrite Wn. cbn [release set_chains fat32]. rewrite G1. auto.
  - rewrite Nn. intros q Iq. apply in_without in Iq as [Iq Nq]. assert (Cq : chains (release v1 k) q = chains v q) by (cbn; rewrite put_other by auto; apply St). destruct (Z.eq_dec q c) as [->|Nc].
    + rewrite put_same. split; [apply (lay_ext v1); [geo|auto|rewrite Cq; now rewrite (proj2 St)|auto]|]. apply Rd'. intros p Pp. eapply parent_removed; [exact Rm|exact Pp|]. right. change (clu (without A k) (w, e)) with k. auto.
    + rewrite put_other by auto. destruct (vo_tabs _ _ _ _ V q Iq) as [Lq Rq]. split.
      * apply (lay_ext v); [apply (geo_trans _ v1); [auto|geo]| |now rewrite Cq|auto]. cbn. now apply Oth.
      * apply (reads_other A); auto. rewrite Ea. cbn. rewrite put_other by auto. auto.
  - auto.
  - apply (space_release v1 A total A'); [eapply space_perm; [apply V|auto|rewrite (proj1 St); auto|apply St]|rewrite G3; apply V|auto|]. unfold one in Ow. replace (k =? 0) with false in Ow by lia. auto.
  - cbn [release set_chains top]. rewrite G3. apply V.
  - cbn [release set_chains top fat32 epc]. rewrite G1, G2, G3. apply V.
  - cbn [release set_chains cdir]. rewrite G4, Nn. apply in_without. split; [apply V|auto].
Qed.

Theorem unlink_ok path buf : spelled path -> units buf ->
  ends_well v total (f_unlink v path buf) (fun r A' => exists t, resolves A (cdir v) path t /\ unlink_does A (cdir v) t r A').
Proof.
  intros Sp U. destruct (at_path _ _ _ _ V path buf Sp U) as (t & r & j & buf' & E & Re & [U' En]). unfold f_unlink. rewrite E. cbn [bind]. destruct t as [c|c d|c f cs|c cs| |].
  - destruct En as (-> & _ & _ & ->). change (has 128 32) with false. change (has 128 128) with true. cbv iota. apply (stays _ _ _ _ V). exists (At c). cbn. auto.
  - destruct En as (-> & _ & _ & _ & _ & -> & _). change (has 36 32) with true. cbv iota. apply (stays _ _ _ _ V). exists (Dot c d). cbn. auto.
  - destruct En as (-> & Ec & I & _ & Fo & _ & (l1 & w & e & l2 & -> & El & Ei & Eb & Ee) & J & _). destruct (has_form _ _ _ Fo) as (_ & -> & ->). unfold attr_of. rewrite Ec, Ei, Eb in *. rewrite Ee.
    destruct (file_entry _ _ _ _ V c l1 w e l2 I El) as [_ (B & _ & _ & E8)]. destruct (attr_bits63 _ (B 11)) as (B16 & B1 & _). rewrite B16, B1. change (has (e 11) 16) with (isdir (w, e)). change (has (e 11) 1) with (isro (w, e)). rewrite <- Wd. change (ld_clust (wide A) e) with (clu A (w, e)). cbv zeta.
    destruct (isro (w, e)) eqn:Ro; [apply (stays _ _ _ _ V); exists (Found c (w, e) cs); split; [auto|]; unfold unlink_does; rewrite Ro; auto|].
    destruct (isdir (w, e)) eqn:Di.
    + destruct (Z.eqb_spec (clu A (w, e)) (cdir v)) as [Q|Q]; cbn [bind].
      * apply (stays _ _ _ _ V). exists (Found c (w, e) cs). split; [auto|]. unfold unlink_does. rewrite Ro, Di. auto 6.
      * destruct (empty_dir (clu A (w, e)) buf') as (q & i & b & buf2 & Er & Hq); [apply (dir_node v A L total V c (w, e)); auto|]. rewrite Er. cbn [bind]. destruct Hq as [[-> Em]|[-> Em]].
        -- destruct (remove_dir c l1 w e l2 I J El Di Em Q) as (d & A' & Ed & Rm & K0 & Cd & Hv). rewrite Ed. cbn [bind]. replace (clu A (w, e) =? 0) with false by lia. cbn [negb]. eexists _, R_OK, A'. split; [reflexivity|]. split; [exact Hv|]. split; [exact Cd|].
           exists (Found c (w, e) cs). split; [auto|]. unfold unlink_does. rewrite Ro, Di. right. auto.
        -- apply (stays _ _ _ _ V). exists (Found c (w, e) cs). split; [auto|]. unfold unlink_does. rewrite Ro, Di. auto 6.
    + cbn [bind]. destruct (remove_file c l1 w e l2 I J El Di) as (d & A' & Ed & Rm & Cd & Hv). rewrite Ed. cbn [bind]. eexists _, R_OK, A'. split; [reflexivity|]. split; [exact Hv|]. split; [destruct (negb _); exact Cd|].
      exists (Found c (w, e) cs). split; [auto|]. unfold unlink_does. rewrite Ro, Di. auto.
  - destruct En as (-> & _). apply (stays _ _ _ _ V). exists (Free c cs). cbn. auto.
  - subst r. apply (stays _ _ _ _ V). exists NoPath. cbn. auto.
  - subst r. apply (stays _ _ _ _ V). exists Invalid. cbn. auto.
Qed.
End Ops3.
