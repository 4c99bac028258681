(* f_expand. *)
From Coq Require Import ZifyClasses ZifyInst ZifyBool Permutation.
From Verif Require Import Base FatModel FatSpec FileModel FileSpec FatProof FatProof2 FatProof3 FatProof4 FatProof5 FatProof6
  FileProof FileProof2 FileProof3 FileProof4 FileProof5 FileProof6 FileProof7 FileProof8 ExpandModel ExpandSpec ExpandProof.
Open Scope Z_scope.
Ltac Zify.zify_post_hook ::= idtac.

(* The chain of file k is replaced, nothing is written outside the FATs. *)
Lemma replace_file g v v' cs fs ds k l' f' d' : geo_ok g -> data_ok g -> open_files g v cs fs ds -> (k < length fs)%nat ->
  owns g v' (edit cs k l') -> same_outside g v v' -> (winsect v' = winsect v \/ in_fat g (winsect v')) -> file_ok g v' l' f' d' ->
  open_files g v' (edit cs k l') (edit fs k f') (edit ds k d').
Proof.
  intros G A [O1 O2 O3 O4 O5] K O' So W F'. set (n := length fs) in *. assert (Kc : (k < length cs)%nat) by lia.
  assert (Lf : length (edit fs k f') = n) by (now apply edit_length).
  assert (S1 : skipn n (edit cs k l') = skipn n cs) by (now apply skipn_edit).
  set (D := concat (skipn n cs)) in *. pose proof (ow_nodup _ _ _ O2) as Nd.
  assert (Ap : apart g D v') by (now apply (apart_win g D v v')).
  constructor.
  - rewrite Lf, edit_length; lia.
  - auto.
  - rewrite Lf, edit_length; lia.
  - rewrite Lf, S1. auto.
  - intros j fj dj Hf Hd. rewrite edit_error in Hf by lia. rewrite edit_error in Hd by lia.
    destruct (Nat.eqb_spec j k) as [->|Nk]; [inversion Hf; inversion Hd; subst; now rewrite edit_at|].
    pose proof (O5 j fj dj Hf Hd) as Fj. assert (Jn : (j < n)%nat) by (apply nth_error_Some; congruence).
    rewrite edit_other by auto.
    destruct Fj as [H1 H2 H3 H4 H5 H6 H7 H8 H9]. constructor; auto. destruct H1 as [B1 B2 B3 B4 B5 B6]. constructor; auto.
    intros p b X Y. rewrite <- (B5 p b X Y). pose proof (B4 p b X) as Z.
    destruct (sector_in g (nth j cs []) p G A ltac:(clear - Z H5; lia)) as (c & Cc & Cs).
    assert (Jc : (j < length cs)%nat) by (clear - Jn O3; lia). pose proof (ss_pos g G) as Sp. pose proof (Z.mod_pos_bound p (ss g) ltac:(lia)) as Pm.
    assert (Os : ours g D (sector_of g (nth j cs []) p)).
    { apply (cluster_ours g D cs j v c); auto. intros y Hy. now apply (skipn_disj cs n j y). }
    rewrite <- (ours_view g D v'), <- (ours_view g D v) by auto. apply So; auto.
    destruct (own_chain g v cs j O2 Jc) as (Ch & _). apply (cluster_out g c); auto. now apply (chain_in _ _ _ _ Ch).
Qed.

(* Nothing changes but the window and the place to search from. *)
Lemma quiet_files g v v' cs fs ds : geo_ok g -> data_ok g -> open_files g v cs fs ds -> estep g v v' (entry g v) ->
  free_clst v' = free_clst v -> 0 <= last_clst v' < 4294967296 -> open_files g v' cs fs ds.
Proof.
  intros G A O Es Fr La. pose proof O as [O1 O2 O3 O4 O5].
  assert (EE : forall c, 0 <= c < n_fatent g -> entry g v' c = entry g v c) by apply Es.
  assert (O2' : owns g v' cs).
  { constructor; auto.
    - apply Es.
    - pose proof (ow_chain _ _ _ O2) as C. rewrite Forall_forall in C. apply Forall_forall. intros m Hm. eapply chain_ext; [|apply (C m Hm)].
      intros c Hc. pose proof (chain_in _ _ _ _ (C m Hm) Hc). symmetry. apply EE. lia.
    - apply O2.
    - intros c Hc Hn. rewrite EE by lia. now apply (ow_rest _ _ _ O2).
    - rewrite Fr, (count_same g (entry g v') (entry g v)); [apply O2|pose proof (ok_ent g G); lia|]. intros. apply EE. lia. }
  constructor; auto.
  - now apply (apart_win g _ v v' G A O4), Es.
  - intros j fj dj Hf Hd. pose proof (O5 j fj dj Hf Hd) as Fj. assert (Jn : (j < length fs)%nat) by (apply nth_error_Some; congruence).
    pose proof (ow_nodup _ _ _ O2) as Nd.
    assert (P : private (concat (skipn (length fs) cs)) cs j) by (intros y Hy; now apply (skipn_disj cs (length fs) j y)).
    apply (file_quiet g (concat (skipn (length fs) cs)) cs j v v'); auto.
    + constructor; auto. lia.
    + constructor; auto; [lia|]. now apply (apart_win g _ v v' G A O4), Es.
    + apply Es.
Qed.

Lemma chain_block g E F n : forall s, geo_ok g -> 2 <= s -> s + Z.of_nat n <= n_fatent g ->
  (forall c, s <= c < s + Z.of_nat n -> F c = if c =? s + Z.of_nat n - 1 then E else c + 1) -> n_fatent g <= E -> chain g F (block s (Z.of_nat n)).
Proof.
  induction n as [|k IH]; intros s G S1 S2 H HE; [now rewrite block_none by lia|].
  rewrite block_step by lia. replace (Z.of_nat (S k) - 1) with (Z.of_nat k) by lia. cbn [chain].
  split; [lia|]. split.
  - destruct k as [|k].
    + rewrite block_none by lia. rewrite H by lia. now replace (s =? s + Z.of_nat 1 - 1) with true by lia.
    + rewrite block_step by lia. rewrite H by lia. now replace (s =? s + Z.of_nat (S (S k)) - 1) with false by lia.
  - apply IH; auto; try lia. intros c Hc. rewrite H by lia. now replace (s + 1 + Z.of_nat k - 1) with (s + Z.of_nat (S k) - 1) by lia.
Qed.

Lemma count_block g n : forall E s, geo_ok g -> 2 <= s -> s + Z.of_nat n <= n_fatent g -> (forall c, s <= c < s + Z.of_nat n -> E c = 0) ->
  forall F, (forall c, s <= c < s + Z.of_nat n -> F c <> 0) -> (forall c, 2 <= c < n_fatent g -> ~ s <= c < s + Z.of_nat n -> F c = E c) ->
  count_free g E = count_free g F + Z.of_nat n.
Proof.
  induction n as [|k IH]; intros E s G S1 S2 H F HF HO; pose proof (ok_ent g G) as N.
  - rewrite (count_same g E F); [lia|lia|]. intros c Hc. symmetry. apply HO; lia.
  - rewrite (count_take g E (upd E s (F s)) s); try lia.
    + rewrite (IH (upd E s (F s)) (s + 1) G ltac:(lia) ltac:(lia)) with (F := F); [lia|..].
      * intros c Hc. rewrite upd_ne by lia. apply H. lia.
      * intros c Hc. apply HF. lia.
      * intros c Hc D. destruct (Z.eq_dec c s) as [->|]; [now rewrite upd_eq|]. rewrite upd_ne by auto. apply HO; lia.
    + apply H. lia.
    + rewrite upd_eq. apply HF. lia.
    + intros c Hc D. now rewrite upd_ne.
Qed.

Lemma nodup_both (a b : list Z) : NoDup a -> (forall c, In c a -> ~ In c b) -> NoDup b -> NoDup (a ++ b).
Proof.
  induction a as [|x a IH]; intros A H B; cbn; [auto|]. inversion A; subst. constructor.
  - intros X. apply in_app_or in X. destruct X as [X|X]; [auto|]. apply (H x); cbn; auto.
  - apply IH; auto. intros c C. apply H. cbn. auto.
Qed.

Lemma needed_ok g n : geo_ok g -> data_ok g -> 0 < n < 4294967296 ->
  let m := csize g * ss g in w32 (w32 (n / m) + (if Z.land n (m - 1) =? 0 then 0 else 1)) = needed g n /\
  0 < needed g n < 4294967296 /\ n <= needed g n * bcs g.
Proof.
  intros G A N m. pose proof (bcs_pos g G A) as B. fold (bcs g) in m.
  assert (L : Z.land n (m - 1) = n mod m).
  { destruct (bcs_pow g G A) as (e & E1 & E2). unfold m. change (csize g * ss g) with (bcs g). rewrite E2.
    replace (2 ^ e - 1) with (Z.ones e) by (rewrite Z.ones_equiv; lia). now apply Z.land_ones. }
  rewrite L. unfold needed. change (csize g * ss g) with (bcs g) in m. unfold m. clear L m.
  assert (B512 : 512 <= bcs g).
  { unfold bcs. pose proof (cs_pos g A). destruct (ok_ss g G) as [->|[->|[->| ->]]]; lia. }
  pose proof (Z.div_mod n (bcs g) ltac:(lia)) as Dm. pose proof (Z.mod_pos_bound n (bcs g) B) as Mb.
  set (q := n / bcs g) in *. set (r := n mod bcs g) in *.
  assert (Hq : 0 <= q < 8388608) by nia.
  assert (E : (n + bcs g - 1) / bcs g = q + (if r =? 0 then 0 else 1)).
  { destruct (Z.eqb_spec r 0) as [R0|R0]; symmetry.
    - apply (Z.div_unique _ _ _ (bcs g - 1)); lia.
    - apply (Z.div_unique _ _ _ (r - 1)); lia. }
  rewrite E. rewrite (w32_id q) by lia. destruct (Z.eqb_spec r 0) as [R0|R0].
  - rewrite w32_id by lia. split; [auto|]. nia.
  - rewrite w32_id by lia. split; [auto|]. nia.
Qed.

Lemma expanded_file g v v3 f d s n fsz : file_ok g v [] f d -> len d = 0 -> 0 < n -> fsz <= n * bcs g -> 0 < fsz < 4294967296 ->
  file_ok g v3 (block s n) (expanded f s fsz) (mkI (fun _ => None) fsz 0).
Proof.
  intros [H1 H2 H3 H4 H5 H6 H7 H8 H9] L N B Z.
  assert (Fd : fdirty f = false). { destruct (fdirty f) eqn:X; auto. destruct (ca_own _ _ _ _ _ H1 X) as (c & [] & _). }
  constructor; cbn [expanded set_modif set_pos set_start fptr objsize sclust clust fsect fbuf fdirty ferr data len pos].
  - constructor; cbn [expanded set_modif set_pos set_start fptr objsize sclust clust fsect fbuf fdirty ferr data len pos]; try discriminate; try apply H1. congruence.
  - rewrite H2. lia.
  - auto.
  - lia.
  - rewrite block_len, Z2Nat.id by lia. exact B.
  - now rewrite block_step by lia.
  - lia.
  - intros X. exfalso. apply X. now rewrite Zmod_0_l.
  - auto.
Qed.

Lemma expand_ok g v cs fs ds k f d fsz opt fuel : geo_ok g -> data_ok g -> open_files g v cs fs ds ->
  nth_error fs k = Some f -> nth_error ds k = Some d -> (len d = 0 -> nth k cs [] = []) -> 0 <= fsz -> n_fatent g <= Z.of_nat fuel ->
  let n := needed g fsz in
  exists v' f' r, f_expand fuel g v f fsz opt = Ok (v', f', r) /\ same_outside g v v' /\
   (r = FR_OK /\ opt = true /\
      (exists s, free_block g (entry g v) s n /\ open_files g v' (edit cs k (block s n)) (edit fs k f') (edit ds k (mkI (fun _ => None) fsz 0)) /\
                 (forall c, 2 <= c < n_fatent g -> ~ s <= c < s + n -> entry g v' c = entry g v c)) \/
    r = FR_OK /\ opt = false /\ f' = f /\ open_files g v' cs fs ds /\ (forall c, 0 <= c < n_fatent g -> entry g v' c = entry g v c) /\
      (free_block g (entry g v) (last_clst v' + 1) n \/ split_block g (entry g v) (last_clst v' + 1) n) \/
    r = FR_DENIED /\ f' = f /\ open_files g v' cs fs ds /\ (forall c, 0 <= c < n_fatent g -> entry g v' c = entry g v c) /\
      (fsz = 0 \/ len d <> 0 \/ fwrite f = false \/ 4294967296 <= fsz \/ forall s, free_block g (entry g v) s n -> s < hint g v < s + n) \/
    r = FR_INT_ERR /\ opt = true /\ f' = f /\
      (exists s, split_block g (entry g v) s n /\ (forall c, 0 <= c < n_fatent g -> entry g v' c = if s <=? c then c + 1 else entry g v c))).
Proof.
  intros G A O Hf Hd Em Fz Fu n. pose proof O as [O1 O2 O3 O4 O5]. pose proof (O5 k f d Hf Hd) as F. pose proof (ow_vol _ _ _ O2) as V.
  pose proof (ent_small g G) as (N1 & N2 & N3 & N4).
  assert (Kf : (k < length fs)%nat) by (apply nth_error_Some; congruence). assert (Kc : (k < length cs)%nat) by lia.
  unfold f_expand. rewrite (fo_err _ _ _ _ _ F), (fo_len _ _ _ _ _ F).
  destruct ((fsz =? 0) || negb (len d =? 0) || negb (fwrite f)) eqn:Q.
  { exists v, f, FR_DENIED. split; [auto|]. split; [intros s o M Ho; auto|]. right. right. left. split; [auto|]. split; [auto|]. split; [auto|]. split; [auto|]. destruct (fwrite f); lia. }
  destruct (Z.leb_spec 4294967296 fsz) as [L|L].
  { exists v, f, FR_DENIED. split; [auto|]. split; [intros s o M Ho; auto|]. right. right. left. split; [auto|]. split; [auto|]. split; [auto|]. split; [auto|]. lia. }
  destruct (needed_ok g fsz G A ltac:(lia)) as (T1 & T2 & T3). cbv zeta in T1. cbv zeta. rewrite T1. fold n in T2, T3 |- *.
  fold (hint g v). assert (St : 2 <= hint g v < n_fatent g) by (unfold hint; destruct ((last_clst v <? 2) || (n_fatent g <=? last_clst v)) eqn:X; lia).
  pose proof (owns_usable g v cs G O2) as U.
  destruct (search_block g v (hint g v) n fuel G V U St ltac:(lia) Fu) as (v1 & s & r & E1 & Es & If & P). rewrite E1. cbn [bind].
  assert (EE1 : forall c, 0 <= c < n_fatent g -> entry g v1 c = entry g v c) by apply Es.
  pose proof If as (If1 & If2 & If3).
  destruct P as [(-> & P)|(-> & P)].
  2: { exists v1, f, FR_DENIED. split; [auto|]. split; [apply Es|]. right. right. left. split; [auto|]. split; [auto|].
       split; [apply (quiet_files g v v1); auto; rewrite If2; apply O2|]. split; [auto|]. auto. }
  destruct opt.
  - destruct P as [(P1 & P2 & P3)|((P1 & P2 & P3 & P4) & P5)].
    + destruct (link_block_ok g (Z.to_nat n) v1 s 0 G (es_ok _ _ _ _ Es) P1 ltac:(lia)) as (v2 & E2 & Es2 & If'). rewrite E2. cbn [bind].
      replace (match Z.to_nat n with O => 0 | S _ => s + Z.of_nat (Z.to_nat n) - 1 end) with (s + n - 1) by (destruct (Z.to_nat n) eqn:X; lia).
      rewrite Z2Nat.id in Es2 by lia.
      pose proof If' as (If1' & If2' & If3').
      set (v3 := if free_clst v2 <=? w32 (n_fatent g - 2) then _ else _).
      assert (Es3 : estep g v v3 (linked_block g (entry g v) s n)).
      { assert (X : estep g v v2 (linked_block g (entry g v) s n)).
        { eapply es_ext; [eapply es_trans; [exact Es|exact Es2]|]. intros c Hc. unfold linked_block. destruct ((s <=? c) && (c <? s + n)); auto. }
        unfold v3. destruct (free_clst v2 <=? w32 (n_fatent g - 2)); now apply es_info. }
      assert (EE3 : forall c, 0 <= c < n_fatent g -> entry g v3 c = linked_block g (entry g v) s n c) by apply Es3.
      assert (HB : forall c, s <= c < s + n -> linked_block g (entry g v) s n c = if c =? s + n - 1 then ERR mod modulus (ftype g) else c + 1).
      { intros c Hc. unfold linked_block. now replace ((s <=? c) && (c <? s + n)) with true by lia. }
      assert (HO : forall c, ~ s <= c < s + n -> linked_block g (entry g v) s n c = entry g v c).
      { intros c Hc. unfold linked_block. now replace ((s <=? c) && (c <? s + n)) with false by lia. }
      exists v3, (expanded f s fsz), FR_OK. split; [reflexivity|]. split; [apply Es3|]. left. split; [auto|]. split; [auto|].
      exists s. split; [split; [auto|split; auto]|]. split; [|intros c Hc D; rewrite EE3 by lia; auto].
      assert (NB : forall c, In c (block s n) -> ~ In c (concat cs)).
      { intros c Hc Hi. apply block_in in Hc. pose proof (owned_nonzero g v cs c O2 Hi). rewrite P3 in * by lia. lia. }
      assert (Ek : nth k cs [] = []) by (apply Em; lia).
      apply (replace_file g v v3 cs fs ds k); auto; try apply Es3.
      * constructor.
        -- apply Es3.
        -- apply (edit_forall (chain g (entry g v))); auto; [apply O2| |].
           ++ intros m Hm Cm. apply (chain_ext g (entry g v)); auto. intros c Hc. pose proof (chain_in g _ m c Cm Hc) as [R _].
              rewrite EE3 by lia. symmetry. apply HO. intros X. apply (NB c); [now apply block_in|]. apply in_concat. exists m. split; [now apply (others_in cs k)|auto].
           ++ rewrite <- (Z2Nat.id n) by lia. apply (chain_block g (ERR mod modulus (ftype g))); auto; [lia|].
              rewrite !Z2Nat.id by lia. intros c Hc. rewrite EE3 by lia. now apply HB.
        -- eapply Permutation_NoDup; [symmetry; apply edit_perm; auto|]. apply nodup_both.
           ++ apply block_nodup.
           ++ intros c Hc Hi. apply (NB c Hc). eapply Permutation_in; [symmetry; apply at_perm; exact Kc|]. rewrite Ek. exact Hi.
           ++ pose proof (ow_nodup _ _ _ O2) as Nd. rewrite (at_perm cs k Kc) in Nd. rewrite Ek in Nd. exact Nd.
        -- intros c Hc Nc. assert (~ In c (block s n) /\ ~ In c (concat cs)) as [X1 X2].
           { split; intros X; apply Nc; eapply Permutation_in; try (symmetry; apply edit_perm; auto); apply in_or_app; [auto|right].
             rewrite (at_perm cs k Kc), Ek in X. exact X. }
           rewrite EE3 by lia. rewrite HO by (intros X; apply X1; now apply block_in). now apply O2.
        -- assert (CT : count_free g (entry g v) = count_free g (entry g v3) + n).
           { rewrite <- (Z2Nat.id n) by lia. apply (count_block g (Z.to_nat n) (entry g v) s); auto; rewrite ?Z2Nat.id by lia; try lia.
             - intros c Hc. rewrite EE3, HB by lia. destruct (c =? s + n - 1); lia.
             - intros c Hc D. rewrite EE3 by lia. now apply HO. }
           pose proof (count_le g (entry g v) ltac:(lia)). pose proof (count_le g (entry g v3) ltac:(lia)).
           assert (Fv : free_clst v2 = free_clst v) by congruence. unfold v3 at 1 3. rewrite Fv. rewrite (w32_id (n_fatent g - 2)) by lia.
           destruct (ow_free _ _ _ O2) as [X|X]; rewrite X.
           ++ replace (count_free g (entry g v) <=? n_fatent g - 2) with true by lia. left. cbn [free_clst set_info]. rewrite w32_id by lia. lia.
           ++ replace (ERR <=? n_fatent g - 2) with false by (unfold ERR; lia). right. reflexivity.
        -- unfold v3. destruct (free_clst v2 <=? w32 (n_fatent g - 2)); cbn [last_clst set_info]; clear - P1 P2 T2 N1; lia.
      * rewrite Ek in F. apply (expanded_file g v v3 f d s n fsz F); clear - Q T2 T3 L Fz; lia.
    + destruct (link_split g (Z.to_nat n) v1 s 0 G (es_ok _ _ _ _ Es) ltac:(lia) ltac:(lia)) as (v2 & l2 & E2 & Es2 & If'). rewrite E2. cbn [bind].
      exists v2, f, FR_INT_ERR. split; [auto|]. assert (X : estep g v v2 (fun c => if s <=? c then c + 1 else entry g v c)).
      { eapply es_ext; [eapply es_trans; eauto|]. intros c Hc. cbn beta. destruct (s <=? c); auto. }
      split; [apply X|]. right. right. right. split; [auto|]. split; [auto|]. split; [auto|]. exists s. split; [split; auto|]. apply X.
  - eexists _, f, FR_OK. split; [reflexivity|]. split; [apply Es|]. right. left. split; [auto|]. split; [auto|]. split; [auto|].
    assert (Sr : 2 <= s < n_fatent g) by (destruct P as [(P1 & P2 & _)|((P1 & _) & _)]; lia).
    split.
    { apply (quiet_files g v); auto; cbn [free_clst last_clst set_info]; auto; [now apply es_info|]. rewrite w32_id; lia. }
    split; [exact EE1|]. cbn [last_clst set_info]. rewrite w32_id by lia. replace (s - 1 + 1) with s by lia. destruct P as [P|(P & _)]; auto.
Qed.
