From Verif Require Import Base CrcSpec FutfModel FutfSpec FutfProof LfnModel LfnSpec LfnProof FdirModel FdirSpec FdirProof FdirProof2 FdirProof3 FnameModel FnameSpec FnameProof FnameProof2 FnameProof3 FnameProof4 FnameProof5 FnameProof6 FpathModel FpathSpec FpathProof FpathProof2 FpathProof3 FpathProof4 FpathProof5 FpathProof6.
Open Scope Z_scope.

(* --- attribute bits ------------------------------------------------------------------------ *)
Lemma has_bit x k : 0 <= k -> has x (2 ^ k) = Z.testbit x k.
Proof.
  intros K. unfold has. assert (Q : Z.land x (2 ^ k) = if Z.testbit x k then 2 ^ k else 0).
  { apply Z.bits_inj'. intros n N. rewrite Z.land_spec, Z.pow2_bits_eqb by lia. destruct (Z.eqb_spec k n) as [->|Ne]; [destruct (Z.testbit x n); rewrite ?Z.pow2_bits_true, ?Z.bits_0 by lia; auto|]. rewrite andb_false_r. destruct (Z.testbit x k); [rewrite Z.pow2_bits_false by lia; auto|now rewrite Z.bits_0]. }
  rewrite Q. destruct (Z.testbit x k); [|auto]. apply negb_true_iff, Z.eqb_neq. pose proof (Z.pow_pos_nonneg 2 k). lia.
Qed.
Lemma byte_by_bits x : 0 <= x -> (forall i, 8 <= i -> Z.testbit x i = false) -> 0 <= x < 256.
Proof.
  intros X H. split; [auto|]. assert (Q : x mod 2 ^ 8 = x); [|rewrite <- Q; apply Z.mod_pos_bound; lia].
  apply Z.bits_inj'. intros n N. destruct (Z.ltb_spec n 8); [now rewrite Z.mod_pow2_bits_low by lia|]. rewrite Z.mod_pow2_bits_high by lia. now rewrite H by lia.
Qed.
Lemma byte_high x i : 0 <= x < 256 -> 8 <= i -> Z.testbit x i = false.
Proof. intros X I. replace x with (x mod 2 ^ 8) by (apply Z.mod_small; lia). apply Z.mod_pow2_bits_high. lia. Qed.
Definition changed (attr mask a : Z) : Z := let m := Z.land mask 39 in Z.lor (Z.land attr m) (Z.land a (Z.lxor 255 m)).
Lemma changed_bit attr mask a i : 0 <= a < 256 -> 0 <= i < 8 -> Z.testbit (changed attr mask a) i = if Z.testbit mask i && existsb (Z.eqb i) [0; 1; 2; 5] then Z.testbit attr i else Z.testbit a i.
Proof.
  intros A I. unfold changed. rewrite Z.lor_spec, !Z.land_spec, Z.lxor_spec, Z.land_spec. assert (C : i = 0 \/ i = 1 \/ i = 2 \/ i = 3 \/ i = 4 \/ i = 5 \/ i = 6 \/ i = 7) by lia.
  repeat (destruct C as [->|C]; [cbn [existsb Z.eqb Pos.eqb orb]; match goal with |- context [Z.testbit 39 ?k] => let b := eval vm_compute in (Z.testbit 39 k) in change (Z.testbit 39 k) with b; let b' := eval vm_compute in (Z.testbit 255 k) in change (Z.testbit 255 k) with b' end; destruct (Z.testbit mask _), (Z.testbit attr _), (Z.testbit a _); reflexivity|]).
  subst i. cbn [existsb Z.eqb Pos.eqb orb]. change (Z.testbit 39 7) with false. change (Z.testbit 255 7) with true. destruct (Z.testbit mask _), (Z.testbit attr _), (Z.testbit a _); reflexivity.
Qed.
Lemma changed_byte attr mask a : 0 <= attr -> 0 <= mask -> 0 <= a < 256 -> 0 <= changed attr mask a < 256.
Proof.
  intros A M B. apply byte_by_bits.
  - unfold changed. apply Z.lor_nonneg. split; apply Z.land_nonneg; lia.
  - intros i I. unfold changed. rewrite Z.lor_spec, !Z.land_spec, (byte_high 39), (byte_high a) by lia. now rewrite !andb_false_r.
Qed.
Lemma changed_dir attr mask a : 0 <= a < 256 -> has (changed attr mask a) 16 = has a 16 /\ (Z.land a 8 = 0 -> Z.land (changed attr mask a) 8 = 0).
Proof.
  intros A. split.
  - change 16 with (2 ^ 4). rewrite !has_bit, changed_bit by lia. cbn [existsb Z.eqb Pos.eqb orb]. now rewrite andb_false_r.
  - assert (Q : has (changed attr mask a) 8 = has a 8) by (change 8 with (2 ^ 3); rewrite !has_bit, changed_bit by lia; cbn [existsb Z.eqb Pos.eqb orb]; now rewrite andb_false_r).
    unfold has in Q. intros E. rewrite E in Q. change (0 =? 0) with true in Q. cbn in Q. apply negb_false_iff, Z.eqb_eq in Q. auto.
Qed.
Lemma attr_bits63 x : 0 <= x < 256 -> has (Z.land x 63) 16 = has x 16 /\ has (Z.land x 63) 1 = has x 1 /\ has (Z.land x 63) 17 = has x 16 || has x 1 /\
  has (Z.lor x 32) 16 = has x 16 /\ 0 <= Z.lor x 32 < 256 /\ (Z.land x 8 = 0 -> Z.land (Z.lor x 32) 8 = 0).
Proof.
  intros X. pose proof (byte_all (fun x => Bool.eqb (has (Z.land x 63) 16) (has x 16) && Bool.eqb (has (Z.land x 63) 1) (has x 1) && Bool.eqb (has (Z.land x 63) 17) (has x 16 || has x 1) && Bool.eqb (has (Z.lor x 32) 16) (has x 16) && (0 <=? Z.lor x 32) && (Z.lor x 32 <? 256) && (negb (Z.land x 8 =? 0) || (Z.land (Z.lor x 32) 8 =? 0))) eq_refl x X) as Q.
  cbv beta in Q. rewrite !andb_true_iff in Q. destruct Q as [[[[[[Q1 Q2] Q3] Q4] Q5] Q6] Q7]. apply Bool.eqb_prop in Q1, Q2, Q3, Q4. repeat (split; [solve [auto | lia]|]). intros E. rewrite E in Q7. cbn in Q7. lia.
Qed.

(* --- entries that are written -------------------------------------------------------------- *)
Ltac notin := unfold CLU; cbn [In]; lia.
Ltac fld := repeat first [rewrite st_dword_other by lia | rewrite st_clust_other by notin | rewrite upd_other by lia | rewrite st_other by lia | rewrite upd_same].
Lemma upd_bytes e k x : bytes e -> 0 <= x < 256 -> bytes (upd e k x).
Proof. intros B X i. unfold upd. destruct (i =? k); auto. Qed.

Definition ow (b : bool) (e : Z -> Z) (tm : Z) : Z -> Z := st_dword (st_clust b (upd (st_dword (st_dword e 14 tm) 22 tm) 11 32) 0) 28 0.
Lemma clu_frame b e e' : e' 20 = e 20 -> e' 21 = e 21 -> e' 26 = e 26 -> e' 27 = e 27 -> ld_clust b e' = ld_clust b e.
Proof. intros. apply ld_clust_ext. unfold CLU. cbn [In]. intros k K. repeat (destruct K as [<-|K]; [auto|]). easy. Qed.
Lemma ow_ok b e tm : bytes e -> dword tm -> keeps e (ow b e tm) /\ but (11 :: CRT ++ MOD ++ CLU ++ SIZE) e (ow b e tm) /\
  ow b e tm 11 = 32 /\ ld_dword (ow b e tm) 14 = tm /\ ld_dword (ow b e tm) 22 = tm /\ ld_clust b (ow b e tm) = 0 /\ ld_dword (ow b e tm) 28 = 0 /\ ow b e tm 12 = e 12.
Proof.
  intros B T. unfold ow. split; [split; [|split]|split; [|split; [|split; [|split; [|split; [|split]]]]]].
  - apply st_dword_bytes, st_clust_bytes, upd_bytes; [|lia]. now apply st_dword_bytes, st_dword_bytes.
  - intros k K. fld. auto.
  - fld. reflexivity.
  - intros k K N. cbn [In app CRT MOD CLU SIZE] in N. fld. auto.
  - fld. auto.
  - rewrite (ld_dword_ext (st_dword e 14 tm)) by (intros k K; fld; auto). now apply ld_st_dword.
  - rewrite (ld_dword_ext (st_dword (st_dword e 14 tm) 22 tm)) by (intros k K; fld; auto). now apply ld_st_dword.
  - rewrite (clu_frame b (st_clust b (upd (st_dword (st_dword e 14 tm) 22 tm) 11 32) 0)) by (fld; auto). apply ld_st_clust. unfold fits_clu. destruct b; lia.
  - apply ld_st_dword. unfold dword. lia.
  - fld. auto.
Qed.
Definition mdir (b : bool) (e : Z -> Z) (k tm : Z) : Z -> Z := upd (st_clust b (st_dword e 22 tm) k) 11 16.
Lemma mdir_ok b e k tm : bytes e -> dword tm -> fits_clu b k -> (forall i, 13 <= i < 32 -> e i = 0) -> keeps e (mdir b e k tm) /\
  mdir b e k tm 11 = 16 /\ ld_dword (mdir b e k tm) 22 = tm /\ ld_clust b (mdir b e k tm) = k /\ ld_dword (mdir b e k tm) 28 = 0 /\ mdir b e k tm 12 = e 12.
Proof.
  intros B T F H. unfold mdir. split; [split; [|split]|split; [|split; [|split; [|split]]]].
  - apply upd_bytes; [|lia]. now apply st_clust_bytes, st_dword_bytes.
  - intros i K. fld. auto.
  - fld. reflexivity.
  - fld. auto.
  - rewrite (ld_dword_ext (st_dword e 22 tm)) by (intros i K; fld; auto). now apply ld_st_dword.
  - rewrite (clu_frame b (st_clust b (st_dword e 22 tm) k)) by (fld; auto). now apply ld_st_clust.
  - rewrite (ld_dword_ext (fun _ => 0)) by (intros i K; fld; auto with zarith). reflexivity.
  - fld. auto.
Qed.
Definition stored_as (b : bool) (e : Z -> Z) (k size tm : Z) : Z -> Z := st_word (st_dword (st_dword (st_clust b (upd e 11 (Z.lor (e 11) 32)) k) 28 size) 22 tm) 18 0.
Lemma stored_ok b e k size tm : bytes e -> Z.land (e 11) 8 = 0 -> dword size -> dword tm -> fits_clu b k -> keeps e (stored_as b e k size tm) /\ but (11 :: ACC ++ MOD ++ CLU ++ SIZE) e (stored_as b e k size tm) /\
  stored_as b e k size tm 11 = Z.lor (e 11) 32 /\ ld_dword (stored_as b e k size tm) 28 = size /\ ld_dword (stored_as b e k size tm) 22 = tm /\ ld_clust b (stored_as b e k size tm) = k /\ stored_as b e k size tm 12 = e 12.
Proof.
  intros B E8 Sz T F. unfold stored_as. destruct (attr_bits63 (e 11) (B 11)) as (_ & _ & _ & _ & R & R8). split; [split; [|split]|split; [|split; [|split; [|split; [|split]]]]].
  - apply st_bytes, st_dword_bytes, st_dword_bytes, st_clust_bytes, upd_bytes; auto.
  - intros i K. fld. auto.
  - fld. auto.
  - intros i K N. cbn [In app ACC MOD CLU SIZE] in N. fld. auto.
  - fld. auto.
  - rewrite (ld_dword_ext (st_dword (st_clust b (upd e 11 (Z.lor (e 11) 32)) k) 28 size)) by (intros i K; fld; auto). now apply ld_st_dword.
  - rewrite (ld_dword_ext (st_dword (st_dword (st_clust b (upd e 11 (Z.lor (e 11) 32)) k) 28 size) 22 tm)) by (intros i K; fld; auto). now apply ld_st_dword.
  - rewrite (clu_frame b (st_clust b (upd e 11 (Z.lor (e 11) 32)) k)) by (fld; auto). now apply ld_st_clust.
  - fld. auto.
Qed.

(* --- operations that do not move anything -------------------------------------------------- *)
Definition ends_well (v : volume) (total : list Z) (x : res (volume * prc)) (P : prc -> tree -> Prop) : Prop :=
  exists v' r A', x = Ok (v', r) /\ holds_tree v' A' total /\ cdir v' = cdir v /\ P r A'.

Section Ops.
Variables (v : volume) (A : tree) (L : Z -> list item) (total : list Z).
Hypothesis V : vol_ok v A L total.

Lemma at_path path buf : spelled path -> units buf -> exists t r j buf', follow_path v path buf = Ok (r, j, buf') /\ resolves A (cdir v) path t /\ ends_at v A L t r j buf'.
Proof. intros (root & ss & P) U. destruct (follow_ok v A L total V path root ss buf P U) as (t & r & j & buf' & E & Lk & En). exists t, r, j, buf'. split; [auto|]. split; [|auto]. exists root, ss. auto. Qed.
Lemma stays r (P : prc -> tree -> Prop) : P r A -> ends_well v total (Ok (v, r)) P.
Proof. intros H. exists v, r, A. split; [auto|]. split; [exists L; exact V|]. auto. Qed.
Lemma file_entry c l1 w e l2 : In c (nodes A) -> L c = l1 ++ File w e :: l2 -> entry v c (sizes l1 + parts w) = e /\ short_ok e.
Proof. intros I El. destruct (vo_tabs _ _ _ _ V c I) as [[D _] _]. rewrite El in D. eapply entry_at; eauto. Qed.

(* An entry changed in place, with no change of clusters. *)
Lemma edit c l1 w e l2 e' (P : prc -> tree -> Prop) : In c (nodes A) -> In (w, e) (ents A c) -> L c = l1 ++ File w e :: l2 -> keeps e e' -> e' 12 = e 12 -> has (e' 11) 16 = has (e 11) 16 -> ld_clust (wide A) e' = ld_clust (wide A) e ->
  (forall A', replaced A c (w, e) (w, e') A' -> P R_OK A') -> ends_well v total (Ok (set_entry v c (sizes l1 + parts w) e', R_OK)) P.
Proof.
  intros I J El K K12 Kd Kc HP. destruct (vol_change v A L total V c l1 w e l2 e' I J El K K12 Kd (fun _ => Kc)) as (A' & Re & Hv). exists (set_entry v c (sizes l1 + parts w) e'), R_OK, A'. split; [auto|]. split; [|split; [auto|auto]].
  eexists. apply Hv; [geo|auto|auto|]. destruct (owners_replaced _ _ _ _ _ (proj1 (vo_shape _ _ _ _ V)) I Re) as (base & O1 & O2). replace (clu A (w, e')) with (clu A (w, e)) in O2 by (symmetry; exact Kc).
  eapply space_perm; [apply V| | |]; [now rewrite O1|cbn; auto|auto].
Qed.

Theorem chmod_ok path attr mask buf : spelled path -> units buf -> 0 <= attr < 256 -> 0 <= mask < 256 ->
  ends_well v total (f_chmod v path attr mask buf) (fun r A' => exists t, resolves A (cdir v) path t /\ change_does A (chmodded attr mask) t r A').
Proof.
  intros Sp U Ha Hm. destruct (at_path path buf Sp U) as (t & r & j & buf' & E & Re & [_ En]). unfold f_chmod. rewrite E. cbn [bind]. destruct t as [c|c d|c f cs|c cs| |].
  - destruct En as (-> & _ & _ & ->). change (has 128 160) with true. cbv iota. apply stays. exists (At c). cbn. auto.
  - destruct En as (-> & _ & _ & _ & _ & -> & _). change (has 36 160) with true. cbv iota. apply stays. exists (Dot c d). cbn. auto.
  - destruct En as (-> & Ec & I & _ & Fo & _ & (l1 & w & e & l2 & -> & El & Ei & _ & Ee) & J & _). rewrite (proj1 (has_form _ _ _ Fo)). cbv zeta iota. rewrite Ec. rewrite Ei in *. rewrite Ee. fold (changed attr mask (e 11)).
    destruct (file_entry c l1 w e l2 I El) as [_ (B & _ & _ & E8)]. destruct (changed_dir attr mask (e 11) (B 11)) as [C1 C2]. apply (edit c l1 w e l2); [auto|auto|auto| | | | |].
    + split; [apply upd_bytes; [auto|apply changed_byte; [lia|lia|apply B]]|]. split; [intros k K; now rewrite upd_other by lia|]. rewrite upd_same. auto.
    + now rewrite upd_other by lia.
    + now rewrite upd_same.
    + apply clu_frame; now rewrite upd_other by lia.
    + intros A' Rp. exists (Found c (w, e) cs). split; [auto|]. split; [auto|]. eexists. split; [exact Rp|]. split; [auto|]. split; [intros k K N; cbn in *; now rewrite upd_other by lia|].
      intros i Hi. cbn [snd]. rewrite upd_same. apply changed_bit; [apply B|auto].
  - destruct En as (-> & _). apply stays. exists (Free c cs). cbn. auto.
  - subst r. apply stays. exists NoPath. cbn. auto.
  - subst r. apply stays. exists Invalid. cbn. auto.
Qed.
Theorem utime_ok path tm buf : spelled path -> units buf -> dword tm ->
  ends_well v total (f_utime v path tm buf) (fun r A' => exists t, resolves A (cdir v) path t /\ change_does A (touched tm) t r A').
Proof.
  intros Sp U T. destruct (at_path path buf Sp U) as (t & r & j & buf' & E & Re & [_ En]). unfold f_utime. rewrite E. cbn [bind]. destruct t as [c|c d|c f cs|c cs| |].
  - destruct En as (-> & _ & _ & ->). change (has 128 160) with true. cbv iota. apply stays. exists (At c). cbn. auto.
  - destruct En as (-> & _ & _ & _ & _ & -> & _). change (has 36 160) with true. cbv iota. apply stays. exists (Dot c d). cbn. auto.
  - destruct En as (-> & Ec & I & _ & Fo & _ & (l1 & w & e & l2 & -> & El & Ei & _ & Ee) & J & _). rewrite (proj1 (has_form _ _ _ Fo)). cbv zeta iota. rewrite Ec. rewrite Ei in *. rewrite Ee.
    destruct (file_entry c l1 w e l2 I El) as [_ (B & _ & _ & E8)]. apply (edit c l1 w e l2); [auto|auto|auto| | | | |].
    + split; [now apply st_dword_bytes|]. split; [intros k K; fld; auto|]. fld. auto.
    + fld. auto.
    + fld. auto.
    + apply clu_frame; fld; auto.
    + intros A' Rp. exists (Found c (w, e) cs). split; [auto|]. split; [auto|]. eexists. split; [exact Rp|]. split; [auto|]. split; [intros k K N; cbn [In MOD snd] in *; fld; auto|]. now apply ld_st_dword.
  - destruct En as (-> & _). apply stays. exists (Free c cs). cbn. auto.
  - subst r. apply stays. exists NoPath. cbn. auto.
  - subst r. apply stays. exists Invalid. cbn. auto.
Qed.
Theorem opendir_ok path buf : spelled path -> units buf ->
  exists r d t, f_opendir v path buf = Ok (r, d) /\ resolves A (cdir v) path t /\ opens A t r d /\ (r = R_OK -> In d (nodes A)).
Proof.
  intros Sp U. destruct (at_path path buf Sp U) as (t & r & j & buf' & E & Re & [_ En]). unfold f_opendir. rewrite E. cbn [bind]. pose proof (vo_wide _ _ _ _ V) as W. destruct t as [c|c d|c f cs|c cs| |].
  - destruct En as (-> & Ec & I & ->). change (has 128 128) with true. cbv iota. rewrite Ec. exists R_OK, c, (At c). cbn. auto.
  - destruct En as (-> & Ec & I & C & Id & -> & Ix & H16 & Hd & Hb). change (has 36 128) with false. cbv iota. unfold attr_of. rewrite Ec.
    assert (B : 0 <= entry v c (idx j) 11 < 256) by (apply (entry_bytes v A L total V c (idx j) I); destruct (vo_tabs _ _ _ _ V c I) as [[D _] R]; pose proof (dk_room _ _ D) as Rm; pose proof (rd_dots _ _ _ R) as Dt; unfold dots in Dt; replace (c =? 0) with false in Dt by lia; destruct Dt as (e1 & e2 & rr & p & El & _); rewrite El, !sizes_cons in Rm; cbn [size] in Rm; change (parts []) with 0 in Rm; pose proof (sizes_nonneg rr); unfold table in Rm; cbn [cap] in Rm; lia).
    rewrite (proj1 (attr_bits63 _ B)), H16, <- W, Hd. exists R_OK, d, (Dot c d). cbn. auto.
  - destruct En as (-> & Ec & I & _ & Fo & _ & (l1 & w & e & l2 & -> & El & Ei & _ & Ee) & J & _). rewrite (proj1 (proj2 (has_form _ _ _ Fo))). unfold attr_of. rewrite Ec, Ei in *. rewrite Ee.
    destruct (file_entry c l1 w e l2 I El) as [_ (B & _ & _ & E8)]. rewrite (proj1 (attr_bits63 _ (B 11))). rewrite <- W. fold (isdir (w, e)). change (has (e 11) 16) with (isdir (w, e)). destruct (isdir (w, e)) eqn:Di.
    + exists R_OK, (ld_clust (wide A) e), (Found c (w, e) cs). split; [auto|]. split; [auto|]. cbn. rewrite Di. split; [auto|]. intros _. apply (dir_node v A L total V c (w, e)); auto.
    + exists R_NO_PATH, 0, (Found c (w, e) cs). split; [auto|]. split; [auto|]. cbn. rewrite Di. split; [auto|discriminate].
  - destruct En as (-> & _). exists R_NO_PATH, 0, (Free c cs). cbn. repeat (split; [solve [auto]|]). discriminate.
  - subst r. exists R_NO_PATH, 0, NoPath. cbn. repeat (split; [solve [auto]|]). discriminate.
  - subst r. exists R_INVALID_NAME, 0, Invalid. cbn. repeat (split; [solve [auto]|]). discriminate.
Qed.
Lemma set_cdir_ok d : In d (nodes A) -> vol_ok (set_cdir v d) A L total.
Proof.
  intros I. constructor; try apply V. exact I.
Qed.
Theorem chdir_ok path buf : spelled path -> units buf ->
  exists v' r t d, f_chdir v path buf = Ok (v', r) /\ holds_tree v' A total /\ resolves A (cdir v) path t /\ opens A t r d /\ cdir v' = match r with R_OK => d | _ => cdir v end.
Proof.
  intros Sp U. destruct (opendir_ok path buf Sp U) as (r & d & t & E & Re & Op & I). unfold f_chdir. rewrite E. cbn [bind]. assert (Hv : holds_tree v A total) by (exists L; exact V).
  destruct r; try (do 2 eexists; exists t, d; split; [reflexivity|]; split; [exact Hv|]; auto). exists (set_cdir v d), R_OK, t, d. split; [auto|]. split; [exists L; apply set_cdir_ok; auto|]. auto.
Qed.
Lemma shuffle_perm n (l : list Z) : Permutation (shuffle n l) l.
Proof.
  unfold shuffle. rewrite <- (firstn_skipn n l) at 4. rewrite (Permutation_app_swap_app (firstn 1 (skipn n l))). apply Permutation_app_head. now rewrite firstn_skipn.
Qed.
Theorem shuffle_ok n : holds_tree (set_chains v (chains v) (shuffle n (avail v))) A total.
Proof.
  exists L. constructor; try apply V.
  - intros c Ic. destruct (vo_tabs _ _ _ _ V c Ic) as [La R]. split; [|auto]. apply (lay_ext v); [geo|auto|auto|auto].
  - eapply space_perm; [apply V|auto|apply shuffle_perm|auto].
Qed.
End Ops.
