From Verif Require Import Base CrcSpec FutfModel FutfSpec FutfProof LfnModel LfnSpec LfnProof FdirModel FdirSpec FdirProof FdirProof2 FdirProof3 FnameModel FnameSpec FnameProof FnameProof2 FnameProof3 FnameProof4 FnameProof5 FnameProof6 FpathModel FpathSpec FpathProof FpathProof2 FpathProof3 FpathProof4 FpathProof5 FpathProof6 FpathProof7 FpathProof8 FpathProof9 FpathProof10 FpathProof11.
Open Scope Z_scope.

(* The entry with the new name. *)
Definition ren (old e : Z -> Z) : Z -> Z := upd (fun k => if (13 <=? k) && (k <? 32) then old k else e k) 11 (if negb (has (old 11) 16) then Z.lor (old 11) 32 else old 11).
Lemma ren_ok b w w' old e : bytes old -> bytes e -> Z.land (old 11) 8 = 0 -> keeps e (ren old e) /\ ren old e 12 = e 12 /\ isdir (w', ren old e) = isdir (w, old) /\ ld_clust b (ren old e) = ld_clust b old /\ renamed (w, old) (w', ren old e).
Proof.
  intros B1 B2 E8. destruct (attr_bits63 _ (B1 11)) as (_ & _ & _ & H16 & R & R8). unfold ren. split; [split; [|split]|split; [|split; [|split; [|split]]]].
  - apply upd_bytes; [intros i; destruct (_ && _); auto|]. destruct (negb _); auto.
  - intros i J. rewrite upd_other by lia. replace (13 <=? i) with false by lia. auto.
  - rewrite upd_same. destruct (negb _); auto.
  - rewrite upd_other by lia. auto.
  - unfold isdir. cbn [snd]. rewrite upd_same. destruct (has (old 11) 16) eqn:Q; cbn [negb]; auto.
  - apply clu_frame; now rewrite upd_other by lia.
  - intros i J. cbn [snd]. rewrite upd_other by lia. replace (13 <=? i) with true by lia. replace (i <? 32) with true by lia. auto.
  - cbn [snd]. rewrite upd_same. unfold isdir. cbn [snd]. destruct (has (old 11) 16); auto.
Qed.
Lemma fresh_sub fn l l' f e : (forall g, In g (files l') -> In g (files l)) -> fresh fn l f e -> fresh fn l' f e.
Proof. intros S (F1 & F2 & F3). split; [auto|]. split; [auto|]. destruct (has (fn 11) 1); [|auto]. destruct F3 as [F3 F4]. split; [auto|]. rewrite Forall_forall in *. auto. Qed.
Lemma reads_up A A' k ea eb r eb' c2 : k <> 0 -> reads A k (File [] ea :: File [] eb :: r) -> wide A' = wide A -> ents A' k = ents A k -> parent A' c2 k -> (forall i, 0 <= i < 11 -> eb' i = eb i) -> dot_at (wide A) eb' 2 c2 -> reads A' k (File [] ea :: File [] eb' :: r).
Proof.
  intros K [R1 R2 R3 R4] W E P Kb D. unfold dots in R4. replace (k =? 0) with false in R4 by lia. destruct R4 as (x1 & x2 & r' & p & El & D1 & D2 & _ & Sh). injection El as <- <- <-.
  pose proof (dot_hidden _ _ _ _ [] D1 ltac:(lia)) as H1. pose proof (dot_hidden _ _ _ _ [] D2 ltac:(lia)) as H2. pose proof (dot_hidden _ _ _ _ [] D ltac:(lia)) as H3. constructor.
  - eapply names_alike; [|exact R1]. apply (alike_set [File [] ea] [] eb eb' r). exact Kb.
  - rewrite E, <- R2. cbn [files filter]. now rewrite H1, H2, H3.
  - now rewrite E.
  - unfold dots. replace (k =? 0) with false by lia. exists ea, eb', r, c2. rewrite W. auto.
Qed.

Section Rename.
Variables (v : volume) (A : tree) (L : Z -> list item) (total : list Z).
Hypothesis V : vol_ok v A L total.
Variables (c : Z) (l1 l2 : list item) (w : list Z) (e : Z -> Z).
Hypothesis I : In c (nodes A).
Hypothesis J : In (w, e) (ents A c).
Hypothesis El : L c = l1 ++ File w e :: l2.
Let k := clu A (w, e).
Let gone := l1 ++ repeat Hole (Z.to_nat (parts w + 1)) ++ l2.
Variables (c2 : Z) (cs : list Z) (fn : Z -> Z).
Hypothesis I2 : In c2 (nodes A).
Hypothesis NU : isdir (w, e) = true -> ~ under A k c2.
Hypothesis G : good_name cs.
Hypothesis F : form (utf16 cs) true fn.
Let w' := if has (fn 11) 2 then utf16 cs else [].
Let base := if c =? c2 then gone else L c2.
Hypothesis NH : Forall (fun g => ~ hit (utf16 cs) fn g) (files base).
(* After the name is registered. *)
Variables (v1 : volume) (m1 m2 : list item) (h : nat) (f0 e2 : Z -> Z).
Hypothesis Gr : grows v v1 c2.
Hypothesis Em : L c2 = m1 ++ repeat Hole h ++ m2.
Hypothesis Hh : Z.of_nat h = parts w' + 1 \/ m2 = [].
Hypothesis L1 : lay v1 c2 (m1 ++ File w' e2 :: m2).
Hypothesis Fr : fresh fn (L c2) f0 e2.
Let e' := ren e e2.
Let i := sizes m1 + parts w'.
Let v2 := set_entry v1 c2 i e'.
Let Wd : wide A = fat32 v := vo_wide _ _ _ _ V.

Lemma old_ok : entry v c (sizes l1 + parts w) = e /\ short_ok e.
Proof. apply (file_entry _ _ _ _ V c l1 w e l2 I El). Qed.
Lemma e2_bytes : bytes e2.
Proof. apply Fr. Qed.
Lemma new_ok : keeps e2 e' /\ e' 12 = e2 12 /\ isdir (w', e') = isdir (w, e) /\ clu A (w', e') = k /\ renamed (w, e) (w', e').
Proof.
  destruct old_ok as [_ (B & _ & _ & E8)]. destruct (ren_ok (wide A) w w' e e2 B e2_bytes E8) as (K1 & K2 & K3 & K4 & K5). fold e' in K1, K2, K3, K4, K5. auto.
Qed.
Lemma v2_ok : lay v2 c2 (m1 ++ File w' e' :: m2) /\ aside v v2 c2 /\ space v2 A total.
Proof.
  destruct new_ok as (K & _). destruct (lay_set v1 c2 m1 w' e2 m2 e' L1 K) as (L2 & [G2 O2] & St & _). fold i in L2, G2, O2, St. fold v2 in L2, G2, O2, St. split; [auto|]. pose proof Gr as [[G1 O1] _]. split.
  - split; [eapply geo_trans; eauto|]. intros q Q. destruct (O1 q Q) as [<- <-]. auto.
  - eapply space_perm; [eapply space_grow; [apply (vo_space _ _ _ _ V)|apply (vo_total _ _ _ _ V)|exact Gr|apply node_key; [apply V|auto]]|auto|rewrite (proj1 St); auto|apply St].
Qed.
(* Where the old entry is now. *)
Lemma splits : exists b1 b2, base = b1 ++ repeat Hole h ++ b2 /\ (Z.of_nat h = parts w' + 1 \/ b2 = []) /\
  (c <> c2 -> b1 = m1 /\ b2 = m2) /\
  (c = c2 -> exists y1 y2, m1 ++ File w' e' :: m2 = y1 ++ File w e :: y2 /\ sizes y1 = sizes l1 /\ y1 ++ repeat Hole (Z.to_nat (parts w + 1)) ++ y2 = b1 ++ File w' e' :: b2).
Proof.
  unfold base. destruct (Z.eqb_spec c c2) as [Q|Q].
  - assert (E2 : l1 ++ File w e :: l2 = m1 ++ repeat Hole h ++ m2) by (rewrite <- El, <- Em, Q; auto). destruct (around l1 l2 m1 m2 w e h E2) as [(x & E3 & E4)|(x & E3 & E4)].
    + exists (l1 ++ repeat Hole (Z.to_nat (parts w + 1)) ++ x), m2. split; [unfold gone; rewrite E4, <- !app_assoc; auto|]. split; [auto|]. split; [easy|]. intros _. exists l1, (x ++ File w' e' :: m2). rewrite E3, <- !app_assoc. auto.
    + exists m1, (x ++ repeat Hole (Z.to_nat (parts w + 1)) ++ l2). split; [unfold gone; rewrite E3, <- !app_assoc; auto|]. assert (Hw : Z.of_nat h = parts w' + 1) by (destruct Hh as [Hh'|Hh']; [auto|rewrite Hh' in E4; destruct x; discriminate]). split; [auto|]. split; [easy|].
      intros _. exists (m1 ++ File w' e' :: x), l2. rewrite E4, E3, <- !app_assoc. split; [auto|]. split; [|auto]. rewrite !sizes_app, sizes_cons, sizes_holes. cbn [size]. lia.
  - exists m1, m2. split; [auto|]. split; [auto|]. split; [auto|easy].
Qed.
Lemma base_files g : In g (files base) -> In g (files (L c2)).
Proof.
  unfold base. destruct (Z.eqb_spec c c2) as [Q|Q]; [|auto]. rewrite <- Q, El. unfold gone. rewrite !files_app, files_holes. cbn [files app]. rewrite !in_app_iff. cbn. tauto.
Qed.

(* The way back to the parent. *)
Definition v3 : volume := if isdir (w, e) && negb (c =? c2) then set_entry v2 k 1 (st_clust (fat32 v2) (entry v2 k 1) c2) else v2.
Lemma dir_dots : isdir (w, e) = true -> exists ea eb r, L k = File [] ea :: File [] eb :: r /\ dot_at (wide A) ea 1 k /\ short_ok eb /\ In k (nodes A) /\ k <> 0 /\ dot_at (wide A) eb 2 c /\ entry v k 1 = eb.
Proof.
  intros Di. assert (Ik : In k (nodes A)) by (apply (dir_node v A L total V c (w, e)); auto). assert (Pk : parent A c k) by (split; [auto|]; exists (w, e); auto). destruct (parent_unique A c c k (vo_shape _ _ _ _ V) Pk Pk) as [_ K0].
  destruct (vo_tabs _ _ _ _ V k Ik) as [[D _] R]. pose proof (rd_dots _ _ _ R) as Dt. unfold dots in Dt. replace (k =? 0) with false in Dt by lia. destruct Dt as (ea & eb & r & p & E & D1 & D2 & P & _). destruct (parent_unique A p c k (vo_shape _ _ _ _ V) P Pk) as [-> _].
  exists ea, eb, r. rewrite E in D. destruct (entry_at v k [File [] ea] [] eb r D) as [E1 S1]. auto 10.
Qed.
Lemma v3_ok : same_geo v v3 /\ space v3 A total /\ (c = c2 -> v3 = v2) /\ (c <> c2 -> lay v3 c (L c)) /\ lay v3 c2 (m1 ++ File w' e' :: m2) /\
  (forall q, In q (nodes A) -> q <> c2 -> isdir (w, e) = false \/ c = c2 \/ q <> k -> lay v3 q (L q)) /\
  (isdir (w, e) = true -> c <> c2 -> (entry v2 k 1 1 = 46) /\ exists ea eb r eb', L k = File [] ea :: File [] eb :: r /\ lay v3 k (File [] ea :: File [] eb' :: r) /\ (forall i, 0 <= i < 11 -> eb' i = eb i) /\ dot_at (wide A) eb' 2 c2).
Proof.
  destruct v2_ok as (L2 & As & Sp). pose proof As as [G2 O2]. assert (Lq : forall q, In q (nodes A) -> q <> c2 -> lay v2 q (L q)) by (intros q Q N; apply (aside_lay v v2 c2); auto; now apply (vo_tabs _ _ _ _ V)).
  unfold v3. destruct (isdir (w, e) && negb (c =? c2)) eqn:Q.
  - apply andb_true_iff in Q as [Di Q]. apply negb_true_iff, Z.eqb_neq in Q. destruct (k_not_c v A L total V c w e I J c2 NU Di) as [Kc Kc2]. fold k in Kc, Kc2. destruct (dir_dots Di) as (ea & eb & r & Ek & Da & (B & N0 & N5 & E8) & Ik & K0 & Db & _).
    pose proof (Lq k Ik Kc2) as Lk. rewrite Ek in Lk. destruct (entry_at v2 k [File [] ea] [] eb r (proj1 Lk)) as [Eb _]. change (sizes [File [] ea] + parts []) with 1 in Eb. rewrite Eb. set (eb' := st_clust (fat32 v2) eb c2). pose proof G2 as (Gf & _).
    assert (Kb : keeps eb eb') by (split; [now apply st_clust_bytes|]; split; [intros j Hj; apply st_clust_other; notin|unfold eb'; rewrite st_clust_other by notin; auto]).
    destruct (lay_set v2 k [File [] ea] [] eb r eb' Lk Kb) as (L3 & As3 & St & _). change (sizes [File [] ea] + parts []) with 1 in L3, As3, St. set (u := set_entry v2 k 1 eb') in *. pose proof As3 as [G3 O3].
    split; [eapply geo_trans; eauto|]. split; [eapply space_perm; [exact Sp|auto|rewrite (proj1 St); auto|apply St]|]. split; [easy|]. split; [intros _; apply (aside_lay v2 u k); auto|]. split; [apply (aside_lay v2 u k); auto|].
    split; [intros q Iq Nq [X|[X|X]]; [congruence|easy|apply (aside_lay v2 u k); auto]|]. intros _ _. split; [rewrite (proj1 Db) by lia; auto|]. exists ea, eb, r, eb'. split; [auto|]. split; [exact L3|]. split; [apply Kb|].
    split; [|split]; [intros j Hj; rewrite (proj1 (proj2 Kb)) by auto; now apply Db|unfold eb'; rewrite st_clust_other by notin; apply Db|]. unfold eb'. rewrite Wd, Gf. apply ld_st_clust. rewrite <- Wd. apply (node_fits v A L total V c2 I2).
  - split; [auto|]. split; [auto|]. split; [auto|]. split; [auto|]. split; [auto|]. split; [auto|]. intros Di N. rewrite Di in Q. cbn in Q. lia.
Qed.

Lemma move_ok : exists d, dir_remove (table v3 c) (sizes l1 + parts w) (read_blk w (sizes l1)) = Ok (d, D_OK) /\
  (isdir (w, e) = true -> c <> c2 -> entry v2 k 1 1 = 46 /\ 2 <= k < top v2) /\ cdir (put_table v3 c d) = cdir v /\
  exists A', holds_tree (put_table v3 c d) A' total /\ moved v A c (w, e) c2 cs R_OK A'.
Proof.
  destruct new_ok as (K & K12 & Kd & Kc & Kr). destruct splits as (b1 & b2 & Eb & Hb & Sn & Se). destruct v3_ok as (G3 & Sp3 & V3e & V3c & V3c2 & V3q & V3k). pose proof K as (_ & Ks & _).
  destruct (move_reads v A L total V c l1 l2 w e I J El c2 cs fn I2 NU G F b1 b2 h f0 e2 e' Eb Hb NH (fresh_sub _ _ _ _ _ base_files Fr) Ks K12 Kd Kc) as (A1 & A' & Rm & Ad & Nm & R2 & Rc & Pa & Pk). fold w' gone k in Rm, Ad, Nm, R2, Rc, Pa, Pk.
  assert (Rem : exists d, dir_remove (table v3 c) (sizes l1 + parts w) (read_blk w (sizes l1)) = Ok (d, D_OK) /\ aside v3 (put_table v3 c d) c /\ still v3 (put_table v3 c d) /\ lay (put_table v3 c d) c (if c =? c2 then b1 ++ File w' e' :: b2 else gone)).
  { destruct (Z.eqb_spec c c2) as [Q|Q].
    - destruct (Se Q) as (y1 & y2 & Ey & Ez & Ef). assert (Ly : lay v3 c (y1 ++ File w e :: y2)) by (rewrite <- Ey; rewrite Q; auto). destruct (lay_remove v3 c y1 w e y2 Ly) as (d & Ed & As & St & La). rewrite Ez in Ed. rewrite Ef in La. exists d. auto.
    - assert (Lc := V3c Q). rewrite El in Lc. destruct (lay_remove v3 c l1 w e l2 Lc) as (d & Ed & As & St & La). exists d. auto. }
  destruct Rem as (d & Ed & As & St & La). exists d. split; [auto|]. set (v4 := put_table v3 c d) in *. destruct v2_ok as (_ & [(_ & _ & T2 & _) _] & _). split.
  { intros Di N. split; [now apply V3k|]. rewrite T2. apply (clu_fits v A L total V (w, e) c I J). destruct (dir_dots Di) as (_ & _ & _ & _ & _ & _ & _ & K0 & _). exact K0. }
  pose proof As as [G4 O4]. pose proof (geo_trans _ _ _ G3 G4) as G34. split; [apply G34|]. exists A'. split; [|left; split; [auto|]; exists (w', e'), A1; auto].
  pose proof Rm as (x & y & Ex & Ea). pose proof Ad as (x2 & y2 & Ex2 & Ea2). assert (Wn : wide A' = wide A) by (rewrite Ea2, Ea; auto). assert (Nn : nodes A' = nodes A) by (rewrite Ea2, Ea; auto).
  assert (En : forall q, q <> c -> q <> c2 -> ents A' q = ents A q) by (intros q Q1 Q2; rewrite Ea2; cbn [with_ents ents]; rewrite put_other by auto; rewrite Ea; cbn [with_ents ents]; now rewrite put_other by auto).
  assert (N1 : nodes A1 = nodes A) by now rewrite Ea. assert (W1 : wide A1 = wide A) by now rewrite Ea.
  assert (Lst : exists L', forall q, In q (nodes A) -> lay v4 q (L' q) /\ reads A' q (L' q)).
  { apply (choose (fun q l => lay v4 q l /\ reads A' q l) []). intros q Iq. destruct (Z.eq_dec q c) as [->|Nc].
    - destruct (Z.eqb_spec c c2) as [Q|Q]; [exists (b1 ++ File w' e' :: b2); split; [auto|]; rewrite Q; auto|]. exists gone. split; [auto|]. auto.
    - destruct (Z.eq_dec q c2) as [->|Nc2].
      + exists (m1 ++ File w' e' :: m2). destruct (Sn ltac:(auto)) as [-> ->]. split; [|auto]. apply (aside_lay v3 v4 c); auto.
      + destruct (Sumbool.sumbool_of_bool (isdir (w, e))) as [Di|Di].
        * destruct (Z.eq_dec q k) as [Qk|Qk].
          -- destruct (Z.eq_dec c c2) as [Q|Q].
             ++ exists (L q). split; [apply (aside_lay v3 v4 c); auto|]. apply (reads_other A); [auto|auto| |now apply (vo_tabs _ _ _ _ V)]. intros p Pp. rewrite Qk in *. assert (Pck : parent A c k) by (split; [auto|]; exists (w, e); auto). destruct (parent_unique A p c k (vo_shape _ _ _ _ V) Pp Pck) as [-> _]. rewrite Q. auto.
             ++ destruct (V3k Di Q) as (_ & ea & eb & r & eb' & Ek & Lk & Kb & Db). exists (File [] ea :: File [] eb' :: r). rewrite Qk in *. split; [apply (aside_lay v3 v4 c); auto|]. apply (reads_up A A' k ea eb r eb' c2); auto.
                ** destruct (dir_dots Di) as (_ & _ & _ & _ & _ & _ & _ & K0 & _). exact K0.
                ** rewrite <- Ek. now apply (vo_tabs _ _ _ _ V).
          -- exists (L q). split; [apply (aside_lay v3 v4 c); auto|]. apply (reads_other A); [auto|auto|auto|now apply (vo_tabs _ _ _ _ V)].
        * exists (L q). split; [apply (aside_lay v3 v4 c); auto|]. apply (reads_other A); [auto|auto|auto|now apply (vo_tabs _ _ _ _ V)]. }
  destruct Lst as [L' HL]. exists L'. destruct G34 as (H1 & H2 & H3 & H4). constructor.
  - rewrite Wn, H1. auto.
  - rewrite Nn. auto.
  - apply (shape_moved A c (w, e) c2 (w', e') A1 A'); auto. apply V.
  - eapply space_perm; [exact Sp3| |rewrite (proj1 St); auto|apply St].
    pose proof (owners_removed A c (w, e) A1 (proj1 (vo_shape _ _ _ _ V)) I Rm) as O1. assert (O2 : Permutation (owners A') (one (clu A1 (w', e')) ++ owners A1)) by (apply (owners_added A1 c2 (w', e') A'); [rewrite N1; apply V|rewrite N1; auto|auto]).
    rewrite O2, O1. rewrite (clu_wide A A1 W1), Kc. auto.
  - rewrite H3. apply V.
  - rewrite H1, H2, H3. apply V.
  - rewrite H4, Nn. apply V.
Qed.
End Rename.

Lemma same_table v A L total c : vol_ok v A L total -> In c (nodes A) -> vol_ok (put_table v c (table v c)) A L total /\ cdir (put_table v c (table v c)) = cdir v.
Proof.
  intros V I. destruct (vo_tabs _ _ _ _ V c I) as [La _]. destruct (put_grown v c (table v c) _ _ La (grown_refl _ (spare_table v c)) (proj1 La)) as (P1 & P2 & _). split; [eapply vol_grow; eauto|]. apply P2.
Qed.

Theorem rename_ok v A L total p1 p2 buf : vol_ok v A L total -> spelled p1 -> spelled p2 -> units buf ->
  (forall c f cs c2 cs2, resolves A (cdir v) p1 (Found c f cs) -> isdir f = true -> resolves A (cdir v) p2 (Free c2 cs2) -> ~ under A (clu A f) c2) ->
  ends_well v total (f_rename v p1 p2 buf) (fun r A' => exists t1 t2, resolves A (cdir v) p1 t1 /\ resolves A (cdir v) p2 t2 /\ rename_does v A t1 t2 r A').
Proof.
  intros V Sp1 Sp2 U NU. destruct (at_path _ _ _ _ V p1 buf Sp1 U) as (t & r & jo & buf1 & E1 & Re1 & [U1 En]). unfold f_rename. rewrite E1. cbn [bind].
  destruct (at_path _ _ _ _ V p2 buf1 Sp2 U1) as (t2 & r2 & jn & buf2 & E2 & Re2 & [U2 En2]).
  assert (Out : forall r0, match t with Found _ _ _ => False | _ => True end -> rename_does v A t t2 r0 A -> ends_well v total (Ok (v, r0)) (fun r A' => exists t1 t2, resolves A (cdir v) p1 t1 /\ resolves A (cdir v) p2 t2 /\ rename_does v A t1 t2 r A')) by (intros r0 _ D; apply (stays _ _ _ _ V); eauto).
  destruct t as [c|c d|c f cs|c cs| |].
  - destruct En as (-> & _ & _ & ->). change (has 128 160) with true. cbv iota. apply Out; cbn; auto.
  - destruct En as (-> & _ & _ & _ & _ & -> & _). change (has 36 160) with true. cbv iota. apply Out; cbn; auto.
  - clear Out. destruct En as (-> & Ec & I & _ & Fo & _ & (l1 & w & e & l2 & -> & El & Ei & Eb & Ee) & J & _). rewrite (proj1 (has_form _ _ _ Fo)), E2. cbn [bind]. cbv zeta. rewrite Ec, Ei, Eb in *. rewrite Ee. assert (Sh : shown (w, e) = true) by (apply (ents_in _ _ _ _ V c) in J; tauto).
    assert (Out : forall r0, rename_does v A (Found c (w, e) cs) t2 r0 A -> ends_well v total (Ok (v, r0)) (fun r A' => exists t1 t2, resolves A (cdir v) p1 t1 /\ resolves A (cdir v) p2 t2 /\ rename_does v A t1 t2 r A')) by (intros r0 D; apply (stays _ _ _ _ V); eauto).
    assert (Go : forall c2 cs2, sclust jn = c2 -> In c2 (nodes A) -> good_name cs2 -> form (utf16 cs2) true (fn jn) -> holds buf2 (utf16 cs2) -> (isdir (w, e) = true -> ~ under A (clu A (w, e)) c2) ->
      Forall (fun g => ~ hit (utf16 cs2) (fn jn) g) (files (if c =? c2 then l1 ++ repeat Hole (Z.to_nat (parts w + 1)) ++ l2 else L c2)) -> (forall r A', moved v A c (w, e) c2 cs2 r A' -> rename_does v A (Found c (w, e) cs) t2 r A') ->
      ends_well v total ('(d, q, i) <- dir_register (table v (sclust jn)) (fn jn) buf2 ;;
            let v := put_table v (sclust jn) d in
            match q with
            | D_OK =>
                let e0 := entry v (sclust jn) i in
                let e0 := fun k => if (13 <=? k) && (k <? 32) then e k else e0 k in
                let e0 := upd e0 11 (if negb (has (e 11) 16) then Z.lor (e 11) 32 else e 11) in
                let v := set_entry v (sclust jn) i e0 in
                let k := ld_clust (fat32 v) e0 in
                let '(v, r) :=
                  if has (e0 11) 16 && negb (c =? sclust jn) then
                    if (k <? 2) || (top v <=? k) then (v, R_INT_ERR)
                    else if entry v k 1 1 =? 46 then (set_entry v k 1 (st_clust (fat32 v) (entry v k 1) (sclust jn)), R_OK)
                    else (v, R_OK)
                  else (v, R_OK) in
                match r with
                | R_OK => '(d, q) <- dir_remove (table v c) (sizes l1 + parts w) (read_blk w (sizes l1)) ;; Ok (put_table v c d, of_drc q)
                | r => Ok (v, r)
                end
            | q => Ok (v, of_drc q)
            end) (fun r A' => exists t1 t2, resolves A (cdir v) p1 t1 /\ resolves A (cdir v) p2 t2 /\ rename_does v A t1 t2 r A')).
    { intros c2 cs2 Ec2 I2 G2 Fo2 H2 NU2 NH Fin. rewrite Ec2. destruct (vol_register v A L total V c2 cs2 (fn jn) buf2 I2 G2 Fo2 H2 U2) as (d & q & i & Eq & Gr & Q). rewrite Eq. cbn [bind]. cbv zeta. destruct Q as [(-> & m1 & m2 & h & f & e2 & Em & Hh & L1 & -> & Ee2 & Fr)|(-> & V' & Why)].
      - destruct (move_ok v A L total V c l1 l2 w e I J El c2 cs2 (fn jn) I2 NU2 G2 Fo2 NH (put_table v c2 d) m1 m2 h f e2 Gr Em Hh L1 Fr) as (d2 & Ed & Hk & Cd & A' & Hv & Mv). rewrite Ee2. fold (ren e e2).
        destruct (file_entry _ _ _ _ V c l1 w e l2 I El) as [_ (B & _ & _ & E8)]. destruct (ren_ok (wide A) w [] e e2 B (proj1 (proj2 Fr)) E8) as (_ & _ & Di & Cl & _). unfold isdir at 1 in Di. cbn [snd] in Di. rewrite Di. set (w' := if has (fn jn 11) 2 then utf16 cs2 else []) in *. set (u := set_entry (put_table v c2 d) c2 (sizes m1 + parts w') (ren e e2)) in *.
        assert (Fu : fat32 u = fat32 v) by apply Gr. rewrite Fu, <- (vo_wide _ _ _ _ V), Cl. change (ld_clust (wide A) e) with (clu A (w, e)). unfold v3 in Ed, Cd, Hv. fold w' in Ed, Cd, Hv. fold u in Ed, Cd, Hv, Hk. rewrite Fu, <- (vo_wide _ _ _ _ V) in Ed, Cd, Hv.
        destruct (isdir (w, e)) eqn:Dd; cbn [andb] in *; [destruct (Z.eqb_spec c c2) as [Q|Q]; cbn [negb] in *|].
        + rewrite Ed. cbn [bind of_drc]. eexists _, R_OK, A'. split; [reflexivity|]. split; [exact Hv|]. split; [exact Cd|]. exists (Found c (w, e) cs), t2. auto.
        + destruct (Hk eq_refl Q) as [K46 Kr]. replace (clu A (w, e) <? 2) with false by lia. replace (top u <=? clu A (w, e)) with false by lia. cbn [orb]. rewrite K46. change (46 =? 46) with true. cbv iota beta. rewrite Ed. cbn [bind of_drc]. eexists _, R_OK, A'. split; [reflexivity|]. split; [exact Hv|]. split; [exact Cd|]. exists (Found c (w, e) cs), t2. auto.
        + rewrite Ed. cbn [bind of_drc]. eexists _, R_OK, A'. split; [reflexivity|]. split; [exact Hv|]. split; [exact Cd|]. exists (Found c (w, e) cs), t2. auto.
      - cbn [of_drc]. eexists _, R_DENIED, A. split; [reflexivity|]. split; [exists L; exact V'|]. split; [apply Gr|]. exists (Found c (w, e) cs), t2. split; [auto|]. split; [auto|]. apply Fin. right. auto. }
    destruct t2 as [c2|c2 d2|c2 g cs2|c2 cs2| |].
    + destruct En2 as (-> & Ec2 & I2 & F2). destruct ((sclust jn =? c) && (idx jn =? sizes l1 + parts w)); [|apply Out; cbn; auto]. unfold dir_register. rewrite F2. change (has 128 160) with true. cbv iota. cbn [bind]. rewrite Ec2. destruct (same_table v A L total c2 V I2) as [V' Cd]. cbn [of_drc].
      eexists _, R_INVALID_NAME, A. split; [reflexivity|]. split; [exists L; exact V'|]. split; [auto|]. exists (Found c (w, e) cs), (At c2). cbn. auto.
    + destruct En2 as (-> & Ec2 & I2 & C2 & _ & _ & Ix & _). assert (Nq : (sclust jn =? c) && (idx jn =? sizes l1 + parts w) = false).
      { apply andb_false_iff. destruct (Z.eqb_spec (sclust jn) c) as [Q|Q]; [|auto]. right. apply Z.eqb_neq. intros Q2. assert (Q3 : c2 = c) by congruence. subst c2. destruct (vo_tabs _ _ _ _ V c I) as [_ R]. pose proof (rd_dots _ _ _ R) as Dt. unfold dots in Dt. replace (c =? 0) with false in Dt by lia. destruct Dt as (ea & eb & rr & p & Ed & D1 & D2 & _). rewrite El in Ed.
        destruct Ix as [Ix|Ix]; rewrite Ix in Q2.
        - destruct (same_split l1 l2 [] (File [] eb :: rr) (File w e) (File [] ea) Ed) as (_ & Q4 & _); [cbn [size]; change (sizes []) with 0; change (parts []) with 0; lia|]. injection Q4 as -> ->. rewrite (dot_hidden _ _ _ _ [] D1) in Sh by lia. discriminate.
        - destruct (same_split l1 l2 [File [] ea] rr (File w e) (File [] eb) Ed) as (_ & Q4 & _); [cbn [size]; change (sizes [File [] ea]) with 1; change (parts []) with 0; lia|]. injection Q4 as -> ->. rewrite (dot_hidden _ _ _ _ [] D2) in Sh by lia. discriminate. }
      rewrite Nq. apply Out. cbn. auto.
    + destruct En2 as (-> & Ec2 & I2 & G2 & Fo2 & H2 & (m1 & wg & eg & m2 & -> & Eg & Eig & _ & _) & Jg & Cg). destruct ((sclust jn =? c) && (idx jn =? sizes l1 + parts w)) eqn:Q.
      * apply andb_true_iff in Q as [Q1 Q2]. apply Z.eqb_eq in Q1, Q2. assert (Q3 : c2 = c) by congruence. subst c2. rewrite Q3 in *. assert (Es : m1 = l1 /\ File wg eg = File w e /\ m2 = l2) by (apply same_split; [congruence|cbn [size]; lia]). destruct Es as (-> & Es & ->). injection Es as -> ->.
        apply (Go c cs2); auto.
        -- intros Di. apply (not_inside A c (w, e) (vo_shape _ _ _ _ V) I J Di).
        -- rewrite Z.eqb_refl. rewrite files_app, files_app, files_holes. cbn [app]. destruct (vo_tabs _ _ _ _ V c I) as [[D _] R]. apply (one_file (table v c) (L c) (utf16 cs2) true (fn jn) (files l1) (w, e) (files l2)); auto; [apply R|rewrite El, files_app; auto|]. now apply (hit_called cs2 true (fn jn)).
        -- intros r A' Mv. unfold rename_does. left. auto.
      * apply Out. unfold rename_does. right. split; [|auto]. intros [-> Qe]. injection Qe as -> ->. destruct (vo_tabs _ _ _ _ V c I) as [_ R]. destruct (same_file (L c) l1 l2 m1 m2 w e (rd_names _ _ _ R) El Eg) as [-> ->]. rewrite Ec2, Eig, !Z.eqb_refl in Q. discriminate.
    + destruct En2 as (-> & Ec2 & I2 & G2 & Fo2 & H2 & NH). apply (Go c2 cs2); auto.
      * intros Di. eapply NU; eauto.
      * destruct (Z.eqb_spec c c2) as [<-|]; [|auto]. rewrite El in NH. rewrite !files_app, files_holes in *. cbn [files app] in *. rewrite Forall_app in *. destruct NH as [N1 N2]. inversion N2. auto.
    + subst r2. apply Out. cbn. auto.
    + subst r2. apply Out. cbn. auto.
  - destruct En as (-> & _). apply Out; cbn; auto.
  - subst r. apply Out; cbn; auto.
  - subst r. apply Out; cbn; auto.
Qed.
