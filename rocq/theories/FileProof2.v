(* Steps on the volume while a file is used, and what they do to its content. *)
From Coq Require Import ZifyClasses ZifyInst ZifyBool.
From Verif Require Import Base FatModel FatSpec FileModel FileSpec FatProof FatProof2 FatProof3 FatProof4 FatProof5 FatProof6 FileProof.
Open Scope Z_scope.
Ltac Zify.zify_post_hook ::= Z.div_mod_to_equations.

Lemma owns_ext g v v' cs : geo_ok g -> owns g v cs -> vol_ok g v' -> (forall c, 0 <= c < n_fatent g -> entry g v' c = entry g v c) -> same_info v v' -> owns g v' cs.
Proof.
  intros G O V EE If. constructor.
  - auto.
  - pose proof (ow_chain _ _ _ O) as C. rewrite Forall_forall in C. apply Forall_forall. intros m Hm. eapply chain_ext; [|apply (C m Hm)].
    intros c Hc. pose proof (chain_in _ _ _ _ (C m Hm) Hc). symmetry. apply EE. lia.
  - apply O.
  - intros c Hc Hn. rewrite EE by lia. now apply (ow_rest _ _ _ O).
  - apply (moved_free g v v' G EE If). apply (ow_free _ _ _ O).
  - destruct If as (_ & L & _). rewrite L. apply O.
Qed.

Lemma fat_entries g v v' : geo_ok g -> (forall s o, in_fat g s -> 0 <= o < ss g -> view v' s o = view v s o) ->
  forall c, 0 <= c < n_fatent g -> entry g v' c = entry g v c.
Proof.
  intros G H c Hc. unfold entry. apply (entry_ext _ _ _ c (fsize g * ss g)); [now apply room|lia|].
  intros i Hi. unfold fat_byte. apply H; [now apply byte_sector|]. apply Z.mod_pos_bound. pose proof (ss_pos g G). lia.
Qed.

(* Writing n sectors of a cluster which is not one of D. *)
Lemma write_any g D cs i v b s n c : geo_ok g -> data_ok g -> ready g D cs i v -> 2 <= c < n_fatent g -> ~ In c D ->
  0 <= n -> database g + csize g * (c - 2) <= s -> s + n <= database g + csize g * (c - 1) -> (forall k, 0 <= k < n * ss g -> vbyte (b k)) ->
  exists v', write_n g v b s n = Some v' /\ ready g D cs i v' /\ keeps g [c] v v' /\
    (forall c, 0 <= c < n_fatent g -> entry g v' c = entry g v c) /\ winsect v' = winsect v /\
    (forall s' o, 0 <= o < ss g -> disk v' s' o = if (s <=? s') && (s' <? s + n) then b ((s' - s) * ss g + o) else disk v s' o).
Proof.
  intros G A R C1 C N S1 S2 B. pose proof R as [O I P Q]. destruct (clst_sect g c G A C1) as (_ & D1 & D2).
  assert (T : forall s', s <= s' < s + n -> in_cluster g c s') by (intros; unfold in_cluster; lia).
  assert (W : ~ (s <= winsect v < s + n)).
  { intros X. apply P. exists c. auto. }
  unfold write_n. replace ((0 <=? s) && (s + n <=? dsize g)) with true by lia.
  eexists. split; [reflexivity|]. set (v' := set_disk v _).
  assert (Dk : forall s' o, 0 <= o < ss g -> disk v' s' o = if (s <=? s') && (s' <? s + n) then b ((s' - s) * ss g + o) else disk v s' o).
  { intros s' o Ho. cbn. replace (0 <=? o) with true by lia. replace (o <? ss g) with true by lia. now rewrite !andb_true_r. }
  assert (Vw : forall s' o, 0 <= o < ss g -> ~ (s <= s' < s + n) -> view v' s' o = view v s' o).
  { intros s' o Ho Hs. unfold view. change (winsect v') with (winsect v). change (win v') with (win v).
    destruct (s' =? winsect v); [auto|]. rewrite Dk by auto. now replace ((s <=? s') && (s' <? s + n)) with false by lia. }
  assert (EE : forall c, 0 <= c < n_fatent g -> entry g v' c = entry g v c).
  { apply fat_entries; auto. intros s' o Hs Ho. apply Vw; auto. intros X. apply T in X. apply (cluster_out g c s' G A C1) in X. now destruct X. }
  pose proof (ow_vol _ _ _ O) as V.
  assert (V' : vol_ok g v').
  { constructor.
    - intros s' o. cbn. destruct ((s <=? s') && (s' <? s + n) && (0 <=? o) && (o <? ss g)) eqn:X; [|apply V].
      apply B. pose proof (ss_pos g G). nia.
    - apply V.
    - apply V.
    - intros W1 M o Ho. change (winsect v') with (winsect v) in *. rewrite Dk by auto. replace ((s <=? winsect v) && (winsect v <? s + n)) with false by lia. now apply V.
    - intros F s' o Hs Ho. rewrite !Dk by auto.
      replace ((s <=? s') && (s' <? s + n)) with false.
      2: { symmetry. apply not_true_is_false. intros X. assert (X' : s <= s' < s + n) by lia. apply T, (cluster_out g c s' G A C1) in X'. now destruct X'. }
      replace ((s <=? s' + fsize g) && (s' + fsize g <? s + n)) with false.
      2: { symmetry. apply not_true_is_false. intros X. assert (X' : s <= s' + fsize g < s + n) by lia.
           apply T, (cluster_out g c (s' + fsize g) G A C1) in X'. destruct X' as [[_ X'] _]. apply X'. unfold second. unfold in_fat in Hs. lia. }
      now apply V. }
  split; [|split; [|split; [auto|split; [auto|exact Dk]]]].
  - constructor; auto. apply (owns_ext g v v' cs G O V' EE). now unfold same_info.
  - intros s' o H1 H2 H3. apply Vw; auto. intros X. apply T in X. now apply (H3 c (or_introl eq_refl)).
Qed.

(* Writing n sectors of a cluster of the file. *)
Lemma write_ready g D cs i v b s n c : geo_ok g -> data_ok g -> ready g D cs i v -> In c (nth i cs []) ->
  0 <= n -> database g + csize g * (c - 2) <= s -> s + n <= database g + csize g * (c - 1) -> (forall k, 0 <= k < n * ss g -> vbyte (b k)) ->
  exists v', write_n g v b s n = Some v' /\ ready g D cs i v' /\ keeps g (nth i cs []) v v' /\
    (forall c, 0 <= c < n_fatent g -> entry g v' c = entry g v c) /\ winsect v' = winsect v /\
    (forall s' o, 0 <= o < ss g -> disk v' s' o = if (s <=? s') && (s' <? s + n) then b ((s' - s) * ss g + o) else disk v s' o).
Proof.
  intros G A R C N S1 S2 B. destruct (own_chain g v cs i (rd_own _ _ _ _ _ R) (rd_idx _ _ _ _ _ R)) as (Ch & _ & _).
  destruct (chain_in _ _ _ _ Ch C) as [C1 _].
  destruct (write_any g D cs i v b s n c G A R C1) as (v' & E & R' & K & H); auto; [intros X; apply (rd_priv _ _ _ _ _ R) in X; tauto|].
  exists v'. split; [auto|]. split; [auto|]. split; [|auto]. apply (keeps_mono g [c]); auto. intros x [<-|[]]. auto.
Qed.


Lemma edit_same {A} (l : list A) i d : (i < length l)%nat -> edit l i (nth i l d) = l.
Proof. intros H. unfold edit. symmetry. now apply split_at. Qed.
Lemma edit_edit {A} (l : list A) i x y : (i < length l)%nat -> edit (edit l i x) i y = edit l i y.
Proof.
  intros H. assert (L : length (firstn i l) = i) by (rewrite firstn_length; lia). unfold edit.
  rewrite firstn_app, L, Nat.sub_diag. cbn [firstn]. rewrite app_nil_r, firstn_firstn, Nat.min_id. f_equal. f_equal.
  rewrite skipn_app, L. replace (S i - i)%nat with 1%nat by lia. rewrite skipn_all2 by lia. reflexivity.
Qed.

(* What using file i may do: new clusters, which were free, are added to it; sectors of
   others stay. *)
Record grown (g : geo) (D : list Z) (i : nat) (v : vol) (cs : list (list Z)) (v' : vol) (cs' : list (list Z)) : Prop := {
  gw_ready : ready g D cs' i v';
  gw_more : exists m, cs' = edit cs i (nth i cs [] ++ m) /\ forall c, In c m -> 2 <= c < n_fatent g /\ entry g v c = 0 /\ ~ In c (concat cs);
  gw_keeps : keeps g (nth i cs' []) v v';
  gw_rest : forall c, 2 <= c < n_fatent g -> ~ In c (concat cs') -> entry g v' c = entry g v c }.

Lemma grown_in g D i v cs v' cs' c : (i < length cs)%nat -> grown g D i v cs v' cs' -> In c (concat cs) -> In c (concat cs').
Proof.
  intros I W H. destruct (gw_more _ _ _ _ _ _ _ W) as (m & -> & _). rewrite (edit_perm cs i _ I). rewrite (at_perm cs i I) in H.
  rewrite in_app_iff in H. rewrite !in_app_iff. tauto.
Qed.
Lemma grown_nth g D i v cs v' cs' : (i < length cs)%nat -> grown g D i v cs v' cs' -> exists m, nth i cs' [] = nth i cs [] ++ m.
Proof. intros I W. destruct (gw_more _ _ _ _ _ _ _ W) as (m & -> & _). exists m. now rewrite edit_at. Qed.
Lemma grown_trans g D i a ca b cb c cc : (i < length ca)%nat -> grown g D i a ca b cb -> grown g D i b cb c cc -> grown g D i a ca c cc.
Proof.
  intros I A B. pose proof (gw_more _ _ _ _ _ _ _ A) as (m & Em & Hm). pose proof (gw_more _ _ _ _ _ _ _ B) as (n & En & Hn).
  pose proof (rd_idx _ _ _ _ _ (gw_ready _ _ _ _ _ _ _ A)) as Ib. destruct (grown_nth _ _ _ _ _ _ _ Ib B) as (k & Ek).
  constructor.
  - apply B.
  - exists (m ++ n). split.
    + rewrite En, Em. rewrite edit_edit, edit_at, app_assoc by auto. auto.
    + intros x X. apply in_app_or in X. destruct X as [X|X]; [auto|]. destruct (Hn x X) as (H1 & H2 & H3). split; [auto|]. split.
      * rewrite <- (gw_rest _ _ _ _ _ _ _ A); auto.
      * intros Y. apply H3. now apply (grown_in _ _ _ _ _ _ _ _ I A).
  - apply (keeps_trans g _ a b c); [|apply B]. apply (keeps_mono g (nth i cb [])); [|apply A]. intros x X. rewrite Ek. apply in_or_app. auto.
  - intros x X Y. rewrite (gw_rest _ _ _ _ _ _ _ B), (gw_rest _ _ _ _ _ _ _ A); auto. intros Z. apply Y. now apply (grown_in _ _ _ _ _ _ _ _ Ib B).
Qed.
Lemma grown_quiet g D i v cs v' : ready g D cs i v' -> (i < length cs)%nat -> keeps g (nth i cs []) v v' ->
  (forall c, 0 <= c < n_fatent g -> entry g v' c = entry g v c) -> grown g D i v cs v' cs.
Proof.
  intros R I K E. constructor; auto.
  - exists []. rewrite app_nil_r, edit_same by auto. split; [auto|]. intros c [].
  - intros. apply E. lia.
Qed.
Lemma grown_refl g D i v cs : ready g D cs i v -> grown g D i v cs v cs.
Proof. intros R. apply grown_quiet; auto; [apply R|apply keeps_refl]. Qed.

(* The k-th cluster of the file, made if need be. *)
Lemma chain_step g D cs i v k : geo_ok g -> data_ok g -> ready g D cs i v -> let l := nth i cs [] in (k <= length l)%nat -> (k = 0%nat -> l = []) ->
  exists v' x, create_chain (Z.to_nat (n_fatent g)) g v (match k with O => 0 | S j => nth j l 0 end) = Ok (v', x) /\ same_outside g v v' /\
    (x = 0 /\ k = length l /\ none_free g v' /\ grown g D i v cs v' cs \/
     exists m, (k < length (l ++ m))%nat /\ (k = length l -> (0 < length m)%nat) /\ x = nth k (l ++ m) 0 /\ 2 <= x < n_fatent g /\ grown g D i v cs v' (edit cs i (l ++ m))).
Proof.
  intros G A R l K K0. pose proof R as [O I P Q]. destruct (own_chain g v cs i O I) as (Ch & Nd & _). fold l in Ch, Nd.
  pose proof (ok_ent g G) as N0.
  destruct (Nat.eq_dec k (length l)) as [->|K1].
  - assert (E0 : match length l with O => 0 | S j => nth j l 0 end = ends l).
    { unfold ends. destruct (length l) eqn:L; [apply length_zero_iff_nil in L; now rewrite L|].
      destruct (@exists_last _ l) as (l' & a & E); [intros ->; easy|]. rewrite E, last_last. rewrite E, app_length in L. cbn in L.
      rewrite app_nth2 by lia. replace (n - length l')%nat with 0%nat by lia. reflexivity. }
    rewrite E0. destruct (grow_ok g v cs i (Z.to_nat (n_fatent g)) G O I ltac:(lia)) as (v' & x & E & So & W & H). fold l in E, H.
    exists v', x. split; [auto|]. split; [auto|]. destruct H as [(X & Nf & EE & If & O')|(X & X0 & Xn & O' & EE)].
    + left. split; [auto|]. split; [auto|]. split; [intros c Hc; rewrite EE by lia; now apply Nf|].
      apply grown_quiet; auto; [|now apply keeps_outside]. constructor; auto. now apply (apart_win g D v v').
    + right. exists [x]. rewrite app_length. cbn [length]. split; [lia|]. split; [lia|]. rewrite app_nth2, Nat.sub_diag by lia. split; [auto|]. split; [auto|].
      assert (F : forall c, In c [x] -> ~ In c (concat cs)) by (intros c [<-|[]]; auto).
      constructor.
      * constructor; auto; [now rewrite edit_length|now apply (apart_win g D v v')|now apply private_grow].
      * exists [x]. split; [auto|]. intros c [<-|[]]. auto.
      * now apply keeps_outside.
      * intros c Hc Hn. apply EE; auto.
        -- intros Y. apply Hn. rewrite (edit_perm cs i _ I). rewrite (at_perm cs i I) in Y. fold l in Y. rewrite in_app_iff in Y. rewrite !in_app_iff. tauto.
        -- intros ->. apply Hn. rewrite (edit_perm cs i _ I). rewrite !in_app_iff. left. right. now left.
  - destruct k as [|j]; [rewrite K0 in K1; auto; easy|].
    assert (Kj : (j < length l)%nat) by lia.
    destruct (chain_nth g _ _ Ch j Kj) as (R1 & R2 & _). destruct (chain_nth g _ _ Ch (S j) ltac:(lia)) as (R3 & _).
    destruct (get_ready g D cs i v j G A R Kj) as (v' & E & R' & So & EE & If). fold l in E.
    exists v', (nth (S j) l 0). unfold create_chain. replace (nth j l 0 =? 0) with false by lia. rewrite E. cbn [bind].
    rewrite R2 by lia. pose proof (ent_small g G) as (N1 & _). unfold ERR.
    replace (nth (S j) l 0 <? 2) with false by lia. replace (nth (S j) l 0 =? 4294967295) with false by lia. replace (nth (S j) l 0 <? n_fatent g) with true by lia.
    split; [auto|]. split; [auto|]. right. exists []. rewrite app_nil_r. split; [lia|]. split; [lia|]. split; [auto|]. split; [auto|].
    unfold l. rewrite edit_same by auto. apply grown_quiet; auto. now apply keeps_outside.
Qed.

(* --- content ------------------------------------------------------------------------ *)

Lemma disk_same g D cs cs' i v v' s o : geo_ok g -> data_ok g -> ready g D cs i v -> ready g D cs' i v' -> (forall c, In c (nth i cs []) -> In c (nth i cs' [])) ->
  same_outside g v v' -> (exists c, In c (nth i cs []) /\ in_cluster g c s) -> 0 <= o < ss g -> disk v' s o = disk v s o.
Proof.
  intros G A R R' M So (c & C & H) Ho. destruct (own_chain g v cs i (rd_own _ _ _ _ _ R) (rd_idx _ _ _ _ _ R)) as (Ch & _ & _).
  rewrite <- (ours_view g D v s o), <- (ours_view g D v' s o).
  - apply So; auto. apply (cluster_out g c); auto. now apply (chain_in _ _ _ _ Ch C).
  - apply R'.
  - apply (cluster_ours g D cs' i v' c); auto; apply R'.
  - apply R.
  - apply (cluster_ours g D cs i v c); auto; apply R.
Qed.

Lemma sector_in g l p : geo_ok g -> data_ok g -> 0 <= p < Z.of_nat (length l) * bcs g -> exists c, In c l /\ in_cluster g c (sector_of g l p).
Proof. intros G A H. rewrite sector_secn by auto. eexists. apply secn_cluster; auto. now apply q_room. Qed.
Lemma sector_app g l m p : geo_ok g -> data_ok g -> 0 <= p < Z.of_nat (length l) * bcs g -> sector_of g (l ++ m) p = sector_of g l p.
Proof. intros G A H. rewrite !sector_secn by auto. apply secn_app; auto. now apply q_room. Qed.

(* The cache depends on little. *)
Lemma cached_ext g v l f d f' d' : cached g v l f d -> fbuf f' = fbuf f -> fdirty f' = fdirty f -> fsect f' = fsect f ->
  (forall p b, data d' p = Some b -> data d p = Some b /\ 0 <= p < len d') -> cached g v l f' d'.
Proof.
  intros [H1 H0 H2 H3 H4 H5] B Dr S E. constructor; rewrite ?B, ?Dr, ?S; auto.
  - intros p b X. now apply (E p b).
  - intros p b X. destruct (E p b X). now apply H4.
  - intros p b X. destruct (E p b X). now apply H5.
Qed.

Lemma cached_moved g D cs i v v' m f d : geo_ok g -> data_ok g -> ready g D cs i v -> ready g D (edit cs i (nth i cs [] ++ m)) i v' -> same_outside g v v' ->
  len d <= Z.of_nat (length (nth i cs [])) * bcs g -> cached g v (nth i cs []) f d -> cached g v' (nth i cs [] ++ m) f d.
Proof.
  intros G A R R' So L [H1 H0 H2 H3 H4 H5]. pose proof (rd_idx _ _ _ _ _ R) as I.
  constructor; auto.
  - intros X. destruct (H2 X) as (c & C1 & C2). exists c. split; [apply in_or_app|]; auto.
  - intros p b X Y. pose proof (H3 p b X) as Z. assert (B : 0 <= p < Z.of_nat (length (nth i cs [])) * bcs g) by lia. rewrite sector_app in * by auto.
    rewrite (disk_same g D cs _ i v v' _ _ G A R R'); auto.
    + intros c C. rewrite edit_at by auto. apply in_or_app. auto.
    + now apply sector_in.
    + apply Z.mod_pos_bound. pose proof (ss_pos g G). lia.
  - intros p b X Y. pose proof (H3 p b X) as Z. assert (B : 0 <= p < Z.of_nat (length (nth i cs [])) * bcs g) by lia. rewrite sector_app in * by auto. auto.
Qed.
