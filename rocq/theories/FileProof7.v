(* Truncating. *)
From Coq Require Import ZifyClasses ZifyInst ZifyBool.
From Verif Require Import Base FatModel FatSpec FileModel FileSpec FatProof FatProof2 FatProof3 FatProof4 FatProof5 FatProof6 FileProof FileProof2 FileProof3 FileProof4 FileProof5 FileProof6.
Open Scope Z_scope.
Ltac Zify.zify_post_hook ::= idtac.

(* The number of clusters for p bytes. *)
Definition clusters (g : geo) (p : Z) : nat := if p =? 0 then 0%nat else S (Z.to_nat ((p - 1) / bcs g)).
Lemma clusters_room g p : geo_ok g -> data_ok g -> 0 <= p -> p <= Z.of_nat (clusters g p) * bcs g.
Proof.
  intros G A P. pose proof (bcs_pos g G A) as Bp. unfold clusters. destruct (Z.eqb_spec p 0) as [->|H]; [lia|].
  pose proof (Z.div_mod (p - 1) (bcs g) ltac:(lia)) as D. pose proof (Z.mod_pos_bound (p - 1) (bcs g) Bp) as M. assert (0 <= (p - 1) / bcs g) by (apply Z.div_pos; lia).
  rewrite Nat2Z.inj_succ, Z2Nat.id by auto. clear - D M. lia.
Qed.
Lemma clusters_le g n p : geo_ok g -> data_ok g -> 0 <= p <= Z.of_nat n * bcs g -> (clusters g p <= n)%nat.
Proof.
  intros G A P. unfold clusters. destruct (Z.eqb_spec p 0) as [->|H]; [lia|]. apply pos_index; auto. clear - P H. lia.
Qed.

Lemma sector_firstn g l k p : geo_ok g -> data_ok g -> 0 <= p < Z.of_nat k * bcs g -> sector_of g (firstn k l) p = sector_of g l p.
Proof. intros G A H. rewrite !sector_secn by auto. apply secn_firstn; auto. now apply q_room. Qed.

Lemma nth_firstn (l : list Z) j k : (j < k)%nat -> nth j (firstn k l) 0 = nth j l 0.
Proof. revert j k. induction l as [|a l IH]; intros j k H; [now rewrite firstn_nil|]. destruct k; [lia|]. destruct j; [auto|]. cbn. apply IH. lia. Qed.

Lemma cut_file g D cs i v f d : geo_ok g -> data_ok g -> ready g D cs i v -> let l := nth i cs [] in file_ok g v l f d -> pos d < len d ->
  let l' := firstn (clusters g (pos d)) l in
  exists v1,
    (if fptr f =? 0 then
       '(v, r) <- remove_chain (Z.to_nat (n_fatent g)) g v (sclust f) 0 ;;
       Ok (v, set_start f 0 (clust f), r)
     else
       '(v, n) <- get_fat g v (clust f) ;;
       if n =? ERR then Ok (v, f, FR_DISK_ERR)
       else if n =? 1 then Ok (v, f, FR_INT_ERR)
       else if n <? n_fatent g then
         '(v, r) <- remove_chain (Z.to_nat (n_fatent g)) g v n (clust f) ;;
         Ok (v, f, r)
       else Ok (v, f, FR_OK)) = Ok (v1, set_start f (hd 0 l') (clust f), FR_OK) /\
    ready g D (edit cs i l') i v1 /\ same_outside g v v1 /\ (forall c, 2 <= c < n_fatent g -> ~ In c l -> entry g v1 c = entry g v c).
Proof.
  intros G A R l F PL l'. pose proof (rd_idx _ _ _ _ _ R) as I. pose proof (bcs_pos g G A) as Bp. pose proof (ent_small g G) as (N1 & _).
  destruct F as [H1 H2 H3 H4 H5 H6 H7 H8 H9]. destruct (own_chain g v cs i (rd_own _ _ _ _ _ R) I) as (Ch & Nd & _). fold l in Ch.
  assert (Fu : n_fatent g <= Z.of_nat (Z.to_nat (n_fatent g))) by lia.
  assert (Rd : forall v0 v1 k, ready g D cs i v0 -> owns g v1 (edit cs i (firstn k l)) -> (winsect v1 = winsect v0 \/ in_fat g (winsect v1)) -> ready g D (edit cs i (firstn k l)) i v1).
  { intros v0 v1 k R0 O W. constructor; auto; [now rewrite edit_length|apply (apart_win g D v0 v1 G A); auto; apply R0|]. apply private_cut; auto. apply R0. }
  rewrite H2. destruct (Z.eqb_spec (pos d) 0) as [P0|P0].
  - assert (L0 : (0 < length l)%nat) by (rewrite P0 in PL; clear - PL H5 Bp; destruct (length l); cbn in *; lia).
    destruct (cut_ok g v cs i 0 _ G (rd_own _ _ _ _ _ R) I Fu L0) as (v1 & E & So & O1 & _ & Er & _ & W). fold l in E, O1, Er.
    assert (El : l' = []) by (unfold l', clusters; rewrite P0; reflexivity). rewrite El. cbn [hd].
    rewrite H6. replace (hd 0 l) with (nth 0 l 0) by (now destruct l). rewrite E. cbn [bind]. exists v1. split; [auto|]. split; [now apply (Rd v v1 0%nat)|]. auto.
  - assert (Pp : 0 < pos d) by (clear - P0 H4; lia). pose proof (H7 Pp) as Cl. set (j := Z.to_nat ((pos d - 1) / bcs g)) in *.
    assert (J : (j < length l)%nat) by (apply pos_index; auto; clear - Pp H4 H5; lia).
    assert (Ck : clusters g (pos d) = S j) by (unfold clusters; now destruct (Z.eqb_spec (pos d) 0)).
    destruct (get_ready g D cs i v j G A R J) as (v1 & E & R1 & So & EE & If). fold l in E. rewrite Cl, E. cbn [bind].
    assert (Fs : set_start f (hd 0 l') (nth j l 0) = f).
    { unfold l'. rewrite Ck, <- Cl. replace (hd 0 (firstn (S j) l)) with (sclust f); [apply set_start_id|]. rewrite H6. destruct l; reflexivity. }
    rewrite Fs. unfold l'. rewrite Ck. destruct (chain_nth g _ _ Ch j J) as (Xr & Xn & Xl).
    destruct (Nat.lt_ge_cases (S j) (length l)) as [K|K].
    + rewrite Xn by auto. destruct (chain_nth g _ _ Ch (S j) K) as (Yr & _). unfold ERR.
      replace (nth (S j) l 0 =? 4294967295) with false by (clear - Yr N1; lia). replace (nth (S j) l 0 =? 1) with false by (clear - Yr; lia).
      replace (nth (S j) l 0 <? n_fatent g) with true by (clear - Yr; lia).
      destruct (cut_ok g v1 cs i (S j) _ G (rd_own _ _ _ _ _ R1) I Fu K) as (v2 & E2 & So2 & O2 & _ & Er & _ & W). fold l in E2, O2, Er. rewrite E2. cbn [bind].
      exists v2. split; [auto|]. split; [now apply (Rd v1 v2 (S j))|]. split; [intros s o X Y; rewrite So2, So; auto|].
      intros c Hc Hn. rewrite Er, EE; auto. clear - Hc. lia.
    + assert (Jl : S j = length l) by lia. pose proof (Xl Jl) as X1. pose proof (entry_range g v (nth j l 0) (ow_vol _ _ _ (rd_own _ _ _ _ _ R))) as X2. unfold ERR.
      replace (entry g v (nth j l 0) =? 4294967295) with false by (clear - X2; lia). replace (entry g v (nth j l 0) =? 1) with false by (clear - X1 N1; lia).
      replace (entry g v (nth j l 0) <? n_fatent g) with false by (clear - X1; lia).
      exists v1. split; [auto|]. rewrite firstn_all2 by auto. unfold l at 1. rewrite edit_same by auto. split; [auto|]. split; [auto|]. intros c Hc _. apply EE. clear - Hc. lia.
Qed.

(* What truncating file i may do. *)
Record cut (g : geo) (D : list Z) (i : nat) (v : vol) (cs : list (list Z)) (v' : vol) (cs' : list (list Z)) : Prop := {
  ct_ready : ready g D cs' i v';
  ct_less : exists k, cs' = edit cs i (firstn k (nth i cs []));
  ct_keeps : keeps g (nth i cs []) v v' }.

Lemma f_truncate_ok g D cs i v f d : geo_ok g -> data_ok g -> ready g D cs i v -> file_ok g v (nth i cs []) f d -> fwrite f = true ->
  exists v' f' cs', f_truncate g v f = Ok (v', f', FR_OK) /\ cut g D i v cs v' cs' /\ mode f f' /\ file_ok g v' (nth i cs' []) f' (cut_off d).
Proof.
  intros G A R F Fw. pose proof (rd_idx _ _ _ _ _ R) as I. pose proof (ss_pos g G) as Sp. pose proof (bcs_pos g G A) as Bp. unfold f_truncate.
  rewrite (fo_err _ _ _ _ _ F), Fw, (fo_len _ _ _ _ _ F). set (l := nth i cs []) in *.
  replace (fptr f <? len d) with (pos d <? len d) by (now rewrite (fo_pos _ _ _ _ _ F)). destruct (Z.ltb_spec (pos d) (len d)) as [T|T].
  2: { exists v, f, cs. split; [auto|]. split; [|split; [now split|]].
       - constructor; [auto| |apply keeps_refl]. exists (length l). fold l. rewrite firstn_all. unfold l. now rewrite edit_same.
       - fold l. assert (E : pos d = len d) by (pose proof (fo_range _ _ _ _ _ F) as X; clear - T X; lia).
         destruct F as [H1 H2 H3 H4 H5 H6 H7 H8 H9]. constructor; cbn [cut_off data len pos]; auto.
         + eapply cached_ext; eauto. intros p b. cbn. destruct (Z.ltb_spec p (pos d)) as [X|X]; [|discriminate]. intros Y. split; auto. rewrite E. now apply (ca_len _ _ _ _ _ H1 p b).
         + now rewrite E.
         + clear - H4. lia.
         + clear - E H5. lia. }
  destruct (cut_file g D cs i v f d G A R F T) as (v1 & E & R1 & So & Er). fold l in E, R1. rewrite E. cbn [bind]. clear E.
  set (k := clusters g (pos d)) in *. set (l' := firstn k l) in *.
  destruct F as [H1 H2 H3 H4 H5 H6 H7 H8 H9]. assert (Kl : (k <= length l)%nat) by (apply clusters_le; auto; clear - H4 H5; lia).
  assert (Ll : length l' = k) by (unfold l'; rewrite firstn_length; lia).
  pose proof (clusters_room g (pos d) G A ltac:(clear - H4; lia)) as Rm. fold k in Rm.
  set (f1 := set_modif _). destruct H1 as [C1 C2 C3 C4 C5 C6].
  assert (Sl : forall p, 0 <= p < pos d -> sector_of g l' p = sector_of g l p) by (intros p Hp; apply sector_firstn; auto; clear - Hp Rm; lia).
  assert (Ow : forall p, 0 <= p < pos d -> exists c, In c l' /\ in_cluster g c (sector_of g l p)).
  { intros p Hp. rewrite <- Sl by auto. apply sector_in; auto. rewrite Ll. clear - Hp Rm. lia. }
  destruct (own_chain g v cs i (rd_own _ _ _ _ _ R) I) as (Ch & Nd & _). fold l in Ch.
  assert (Dk : forall p o, 0 <= p < pos d -> 0 <= o < ss g -> disk v1 (sector_of g l p) o = disk v (sector_of g l p) o).
  { intros p o Hp Ho. destruct (Ow p Hp) as (c & Hc & Hs). rewrite <- (ours_view g D v), <- (ours_view g D v1).
    - apply So; auto. apply (cluster_out g c); auto. apply (chain_in _ _ _ _ Ch). unfold l' in Hc. now apply in_firstn in Hc.
    - apply R1.
    - apply (cluster_ours g D (edit cs i l') i v1 c); auto; try apply R1. rewrite edit_at; auto.
    - apply R.
    - apply (cluster_ours g D cs i v c); auto; try apply R. fold l. unfold l' in Hc. now apply in_firstn in Hc. }
  assert (Fin : forall v2, ready g D (edit cs i l') i v2 -> keeps g l v v2 -> 
     (forall p b, data d p = Some b -> p < pos d -> disk v2 (sector_of g l p) (p mod ss g) = b) ->
     cut g D i v cs v2 (edit cs i l') /\ mode f (set_buf f1 (fsect f) (fbuf f) false) /\ file_ok g v2 (nth i (edit cs i l') []) (set_buf f1 (fsect f) (fbuf f) false) (cut_off d)).
  { intros v2 R2 Ke Di. split; [constructor; [auto|exists k; auto|auto]|]. split; [now split|]. rewrite edit_at by auto.
    constructor; cbn [f1 set_buf set_modif set_pos set_start fptr objsize sclust clust ferr fsect cut_off data len pos]; auto.
    - constructor; cbn [f1 set_buf set_modif set_pos set_start fbuf fdirty fsect cut_off data len pos]; auto.
      + discriminate.
      + intros p b. destruct (Z.ltb_spec p (pos d)) as [X|X]; [|discriminate]. intros Y. apply C4 in Y. clear - X Y. lia.
      + intros p b. destruct (Z.ltb_spec p (pos d)) as [X|X]; [|discriminate]. intros Y _. pose proof (C4 p b Y) as Z. rewrite Sl by (clear - X Z; lia). auto.
      + intros p b. destruct (Z.ltb_spec p (pos d)) as [X|X]; [|discriminate]. intros Y. pose proof (C4 p b Y) as Z. rewrite Sl by (clear - X Z; lia). auto.
    - clear - H4. lia.
    - now rewrite Ll.
    - intros Pp. rewrite H7 by auto. unfold l', k, clusters. replace (pos d =? 0) with false by (clear - Pp; lia). rewrite nth_firstn by lia. auto.
    - intros Pm. rewrite H8 by auto. symmetry. apply sector_firstn; auto. split; [clear - H4; lia|].
      destruct (Z.eq_dec (pos d) (Z.of_nat k * bcs g)) as [X|X]; [|clear - X Rm; lia]. exfalso. apply Pm. apply mod_bcs; auto. rewrite X. apply Z.mod_mul. lia. }
  unfold write_back. change (fdirty f1) with (fdirty f). change (fbuf f1) with (fbuf f). change (fsect f1) with (fsect f). destruct (fdirty f) eqn:Fd.
  - destruct (C3 eq_refl) as (c & Cc & Cs). destruct (chain_in _ _ _ _ Ch Cc) as [Cr _]. unfold in_cluster in Cs.
    destruct (write_any g D (edit cs i l') i v1 (fbuf f) (fsect f) 1 c G A R1 Cr) as (v2 & E & R2 & K & EE & W & Dd); try (clear - Cs; lia); [|intros; apply C1|].
    { intros X. apply (rd_priv _ _ _ _ _ R) in X. fold l in X. tauto. }
    rewrite E. eexists v2, _, (edit cs i l'). split; [reflexivity|]. apply Fin; auto.
    + apply (keeps_trans g l v v1 v2); [now apply keeps_outside|]. apply (keeps_mono g [c]); auto. intros x [<-|[]]. auto.
    + intros p b X Y. pose proof (C4 p b X) as Z. rewrite Dd by (apply Z.mod_pos_bound; clear - Sp; lia).
      destruct ((fsect f <=? sector_of g l p) && (sector_of g l p <? fsect f + 1)) eqn:Q.
      * assert (Q' : fsect f = sector_of g l p) by (clear - Q; lia). rewrite <- Q'. replace ((fsect f - fsect f) * ss g + p mod ss g) with (p mod ss g) by (clear; lia). now apply C6.
      * rewrite Dk; [|clear - Y Z; lia|apply Z.mod_pos_bound; clear - Sp; lia]. apply C5; auto. right. clear - Q. lia.
  - eexists v1, _, (edit cs i l'). split; [reflexivity|]. replace f1 with (set_buf f1 (fsect f) (fbuf f) false) by (apply (set_buf_id f1); auto).
    apply Fin; auto.
    + now apply keeps_outside.
    + intros p b X Y. pose proof (C4 p b X) as Z. rewrite Dk; [|clear - Y Z; lia|apply Z.mod_pos_bound; clear - Sp; lia]. apply C5; auto.
Qed.
