(* Reading. *)
From Coq Require Import ZifyClasses ZifyInst ZifyBool.
From Verif Require Import Base FatModel FatSpec FileModel FileSpec FatProof FatProof2 FatProof3 FatProof4 FatProof5 FatProof6 FileProof FileProof2 FileProof3.
Open Scope Z_scope.
Ltac Zify.zify_post_hook ::= idtac.

(* While a loop is at a byte of the file: the cluster of this byte is known. *)
Record found (g : geo) (v : vol) (l : list Z) (f : fil) (d : ifile) : Prop := {
  fd_cache : cached g v l f d;
  fd_pos : fptr f = pos d;
  fd_len : objsize f = len d;
  fd_range : 0 <= pos d <= len d /\ len d < 4294967296;
  fd_room : len d <= Z.of_nat (length l) * bcs g;
  fd_in : pos d < Z.of_nat (length l) * bcs g;
  fd_start : sclust f = hd 0 l;
  fd_clust : clust f = nth (Z.to_nat (pos d / bcs g)) l 0;
  fd_err : ferr f = FR_OK }.

Lemma mod_bcs g p : geo_ok g -> data_ok g -> p mod bcs g = 0 -> p mod ss g = 0.
Proof.
  intros G A H. pose proof (bcs_pos g G A). pose proof (ss_pos g G). apply Z.mod_divide in H; [|lia]. destruct H as (k & ->).
  unfold bcs. rewrite Z.mul_assoc. apply Z.mod_mul. lia.
Qed.
Lemma prev_div b p : 0 < b -> p mod b <> 0 -> (p - 1) / b = p / b.
Proof.
  intros B M. symmetry. apply (Z.div_unique (p - 1) b (p / b) (p mod b - 1)); [left|]; pose proof (Z.div_mod p b); pose proof (Z.mod_pos_bound p b); lia.
Qed.
(* Sector and cluster boundary. *)
Lemma boundary g p : geo_ok g -> data_ok g -> 0 <= p -> p mod ss g = 0 -> ((p / ss g) mod csize g = 0 <-> p mod bcs g = 0).
Proof.
  intros G A P M. pose proof (ss_pos g G). pose proof (cs_pos g A). unfold bcs.
  rewrite (Z.mul_comm (csize g)), Z.rem_mul_r by lia. rewrite M. pose proof (Z.mod_pos_bound (p / ss g) (csize g)). nia.
Qed.

Lemma file_found g v l f d : geo_ok g -> data_ok g -> file_ok g v l f d -> pos d mod ss g <> 0 -> found g v l f d /\ fsect f = sector_of g l (pos d).
Proof.
  intros G A [H1 H2 H3 H4 H5 H6 H7 H8 H9] M. pose proof (bcs_pos g G A) as B.
  assert (M2 : pos d mod bcs g <> 0) by (intros X; apply M; now apply mod_bcs).
  split; [|auto]. constructor; auto.
  - destruct (Z.eq_dec (pos d) (Z.of_nat (length l) * bcs g)) as [E|E]; [|lia]. rewrite E, Z.mod_mul in M2; lia.
  - rewrite H7, prev_div; auto. destruct (Z.eq_dec (pos d) 0) as [E|E]; [|lia]. rewrite E in M2. now rewrite Z.mod_0_l in M2 by lia.
Qed.

(* After going on by n bytes in this cluster. *)
Lemma found_file g v l f d f' d' n : geo_ok g -> data_ok g -> found g v l f d -> 0 < n -> (pos d + n - 1) / bcs g = pos d / bcs g ->
  cached g v l f' d' -> fptr f' = pos d + n -> pos d' = pos d + n -> objsize f' = len d' -> pos d' <= len d' < 4294967296 ->
  len d' <= Z.of_nat (length l) * bcs g -> sclust f' = sclust f -> clust f' = clust f -> ferr f' = FR_OK ->
  ((pos d + n) mod ss g <> 0 -> fsect f' = sector_of g l (pos d + n)) -> file_ok g v l f' d'.
Proof.
  intros G A [H1 H2 H3 H4 H5 H6 H7 H8 H9] N E C P P' L R Rm S1 C1 E1 S2. constructor; auto.
  - congruence.
  - split; [|lia]. lia.
  - congruence.
  - intros _. rewrite C1, H8, P', E. auto.
  - rewrite P'. auto.
Qed.

Lemma near_in s p j : 0 < s -> 0 <= j -> p mod s + j < s -> (p + j) / s = p / s /\ (p + j) mod s = p mod s + j.
Proof.
  intros S1 J H. pose proof (Z.div_mod p s). pose proof (Z.mod_pos_bound p s).
  split; symmetry; [apply (Z.div_unique _ _ _ (p mod s + j))|apply (Z.mod_unique _ _ (p / s))]; lia.
Qed.

Lemma in_sector g p n : geo_ok g -> data_ok g -> 0 <= p -> 0 < n <= ss g - p mod ss g ->
  (p + n - 1) / bcs g = p / bcs g /\ ((p + n) mod ss g <> 0 -> (p + n) / ss g = p / ss g).
Proof.
  intros G A P N. pose proof (ss_pos g G) as Sp. pose proof (Z.div_mod p (ss g)). pose proof (Z.mod_pos_bound p (ss g)).
  assert (E : (p + n - 1) / ss g = p / ss g) by (symmetry; apply (Z.div_unique _ _ _ (p mod ss g + n - 1)); lia).
  split.
  - rewrite !div_bcs by auto. now rewrite E.
  - intros M. destruct (Z.eq_dec n (ss g - p mod ss g)) as [X|X].
    + exfalso. apply M. rewrite X. replace (p + (ss g - p mod ss g)) with ((p / ss g + 1) * ss g) by lia. apply Z.mod_mul. lia.
    + symmetry. apply (Z.div_unique _ _ _ (p mod ss g + n)); lia.
Qed.

Lemma sect_of_cluster g D cs i v f d : geo_ok g -> data_ok g -> ready g D cs i v -> let l := nth i cs [] in found g v l f d ->
  (clst2sect g (clust f) =? 0) = false /\ w32 (clst2sect g (clust f) + Z.land (fptr f / ss g) (csize g - 1)) = sector_of g l (pos d).
Proof.
  intros G A R l F. pose proof (fd_range _ _ _ _ _ F) as Rg. pose proof (fd_in _ _ _ _ _ F) as In_.
  pose proof (ss_pos g G) as Sp. assert (P : 0 <= pos d < Z.of_nat (length l) * bcs g) by lia.
  destruct (own_chain g v cs i (rd_own _ _ _ _ _ R) (rd_idx _ _ _ _ _ R)) as (Ch & _ & _).
  pose proof (q_room g (length l) _ G P) as Q. destruct (secn_cluster g l _ A Q) as [I _]. rewrite <- div_bcs in I by auto.
  destruct (chain_in _ _ _ _ Ch I) as [C1 _]. destruct (clst_sect g _ G A C1) as (E & D1 & D2).
  rewrite (fd_clust _ _ _ _ _ F), E, (fd_pos _ _ _ _ _ F). split; [lia|].
  rewrite cs_land by (auto; lia). fold (sector_of g l (pos d)). apply w32_id.
  pose proof (sector_range g D cs i v _ G A R P). pose proof (ok_dsize g G). fold l in H. lia.
Qed.

Lemma in_run a s cc : 0 <= a < 4294967296 -> 0 <= s -> s + cc <= 4294967296 ->
  ((w32 (a - s) <? cc) = true -> s <= a < s + cc /\ w32 (a - s) = a - s) /\ ((w32 (a - s) <? cc) = false -> ~ (s <= a < s + cc)).
Proof. intros H1 H2 H3. unfold w32. Z.div_mod_to_equations. lia. Qed.

Lemma set_start_id f : set_start f (sclust f) (clust f) = f.
Proof. now destruct f. Qed.

Lemma cached_start g v l f d s c : cached g v l f d -> cached g v l (set_start f s c) d.
Proof. intros C. eapply cached_ext; eauto. intros p b X. split; auto. now apply (ca_len _ _ _ _ _ C p b). Qed.
Lemma cached_pos g v l f d p n : cached g v l f d -> cached g v l (set_pos f p n) d.
Proof. intros C. eapply cached_ext; eauto. intros q b X. split; auto. now apply (ca_len _ _ _ _ _ C q b). Qed.

Lemma cached_quiet g D cs i v v' f d : geo_ok g -> data_ok g -> ready g D cs i v -> ready g D cs i v' -> same_outside g v v' ->
  len d <= Z.of_nat (length (nth i cs [])) * bcs g -> cached g v (nth i cs []) f d -> cached g v' (nth i cs []) f d.
Proof.
  intros G A R R' So L C. pose proof (rd_idx _ _ _ _ _ R) as I. pose proof (cached_moved g D cs i v v' [] f d G A R) as H.
  rewrite app_nil_r, edit_same in H by auto. auto.
Qed.

(* The cluster to read from. *)
Lemma cluster_read g D cs i v f d : geo_ok g -> data_ok g -> ready g D cs i v -> let l := nth i cs [] in file_ok g v l f d ->
  pos d mod ss g = 0 -> pos d < len d ->
  exists v', (if Z.land (fptr f / ss g) (csize g - 1) =? 0 then read_cluster g v f else Ok (v, f, Through)) =
             Ok (v', set_start f (sclust f) (nth (Z.to_nat (pos d / bcs g)) l 0), Through) /\
             grown g D i v cs v' cs /\ found g v' l (set_start f (sclust f) (nth (Z.to_nat (pos d / bcs g)) l 0)) d /\
             (forall c, 0 <= c < n_fatent g -> entry g v' c = entry g v c).
Proof.
  intros G A R l F M P. pose proof F as [H1 H2 H3 H4 H5 H6 H7 H8 H9]. pose proof (ss_pos g G) as Sp. pose proof (bcs_pos g G A) as Bp.
  pose proof (rd_idx _ _ _ _ _ R) as I. assert (Pr : 0 <= pos d < Z.of_nat (length l) * bcs g) by lia.
  rewrite H2, cs_land by (auto; apply Z.div_pos; lia). pose proof (boundary g (pos d) G A ltac:(lia) M) as Bd.
  destruct (own_chain g v cs i (rd_own _ _ _ _ _ R) I) as (Ch & _ & _). fold l in Ch. pose proof (ent_small g G) as (N1 & _).
  assert (K : (Z.to_nat (pos d / bcs g) < length l)%nat).
  { assert (0 <= pos d / bcs g < Z.of_nat (length l)); [|lia]. split; [apply Z.div_pos; lia|]. apply Z.div_lt_upper_bound; lia. }
  destruct (chain_nth g _ _ Ch _ K) as (Kc & _).
  assert (Fd : forall v', ready g D cs i v' -> same_outside g v v' -> found g v' l (set_start f (sclust f) (nth (Z.to_nat (pos d / bcs g)) l 0)) d).
  { intros v' R' So. constructor; cbn; auto; [|lia]. apply cached_start. now apply (cached_quiet g D cs i v v'). }
  destruct (Z.eqb_spec ((pos d / ss g) mod csize g) 0) as [Z0|Z0].
  - apply Bd in Z0. unfold read_cluster. rewrite H2. destruct (Z.eqb_spec (pos d) 0) as [Q|Q].
    + cbn [bind]. assert (E : nth (Z.to_nat (pos d / bcs g)) l 0 = sclust f).
      { rewrite Q, Z.div_0_l, H6 by lia. destruct l; auto. }
      rewrite E in *. unfold ERR. replace (sclust f <? 2) with false by lia. replace (sclust f =? 4294967295) with false by lia.
      exists v. split; [auto|]. split; [now apply grown_refl|]. split; [|auto]. apply Fd; auto. intros s o X Y. auto.
    + assert (Dv : (pos d - 1) / bcs g = pos d / bcs g - 1).
      { symmetry. apply (Z.div_unique _ _ _ (bcs g - 1)); pose proof (Z.div_mod (pos d) (bcs g)); lia. }
      assert (0 < pos d / bcs g) by (pose proof (Z.div_mod (pos d) (bcs g)); nia).
      rewrite H7, Dv by lia. assert (K' : (Z.to_nat (pos d / bcs g - 1) < length l)%nat) by lia.
      destruct (get_ready g D cs i v _ G A R K') as (v' & E & R' & So & EE & If). fold l in E. rewrite E. cbn [bind].
      destruct (chain_nth g _ _ Ch _ K') as (_ & Kn & _). rewrite Kn by lia.
      replace (S (Z.to_nat (pos d / bcs g - 1))) with (Z.to_nat (pos d / bcs g)) by lia.
      set (c := nth (Z.to_nat (pos d / bcs g)) l 0) in *. unfold ERR. replace (c <? 2) with false by lia. replace (c =? 4294967295) with false by lia.
      exists v'. split; [auto|]. split; [apply grown_quiet; auto; now apply keeps_outside|]. split; [|auto]. now apply Fd.
  - exists v. assert (E : nth (Z.to_nat (pos d / bcs g)) l 0 = clust f).
    { rewrite H7, prev_div; auto; [tauto|]. destruct (Z.eq_dec (pos d) 0) as [X|X]; [|lia]. exfalso. apply Z0. rewrite X, Z.div_0_l, Z.mod_0_l; pose proof (cs_pos g A); lia. }
    split; [now rewrite E, set_start_id|]. split; [now apply grown_refl|]. split; [|auto]. apply Fd; auto. intros s o X Y. auto.
Qed.

Definition filled (d : ifile) (rb rb' : Z -> Z) (rpos n : Z) : Prop :=
  (forall j b, 0 <= j < n -> data d (pos d + j) = Some b -> rb' (rpos + j) = b) /\ (forall k, ~ (rpos <= k < rpos + n) -> rb' k = rb k).
Definition same_mode (f f' : fil) : Prop := fread f' = fread f /\ fwrite f' = fwrite f /\ fmodif f' = fmodif f.

Lemma mod_bcs2 g p cc : geo_ok g -> data_ok g -> 0 <= p -> p mod ss g = 0 -> 0 < cc -> (p / ss g) mod csize g + cc <= csize g ->
  (p + ss g * cc - 1) / bcs g = p / bcs g /\ (p + ss g * cc) mod ss g = 0.
Proof.
  intros G A P M C1 C2. pose proof (ss_pos g G) as Sp. pose proof (cs_pos g A) as Cp. split.
  - rewrite !div_bcs by auto. assert (E : (p + ss g * cc - 1) / ss g = p / ss g + (cc - 1)).
    { symmetry. apply (Z.div_unique _ _ _ (ss g - 1)); [lia|]. pose proof (Z.div_mod p (ss g)). lia. }
    rewrite E. symmetry. apply (Z.div_unique _ _ _ ((p / ss g) mod csize g + (cc - 1))); [left|]; pose proof (Z.div_mod (p / ss g) (csize g)); pose proof (Z.mod_pos_bound (p / ss g) (csize g)); lia.
  - rewrite Z.mul_comm, Z.mod_add by lia. auto.
Qed.

Lemma mul_le s cc b : 0 < s -> cc <= b / s -> s * cc <= b.
Proof. intros S1 H. pose proof (Z.mul_div_le b s S1). nia. Qed.
Lemma last_in s cc : 0 < s -> 0 < cc -> 0 <= s * (cc - 1) < s * cc.
Proof. nia. Qed.
Lemma part_in s cc a : 0 < s -> 0 <= a < cc -> 0 <= a * s /\ a * s + s <= s * cc.
Proof. nia. Qed.

(* The part of an iteration at a sector boundary. *)
Lemma read_boundary_ok g D cs i v f d rb bl rpos btr : geo_ok g -> data_ok g -> ready g D cs i v -> let l := nth i cs [] in file_ok g v l f d ->
  pos d mod ss g = 0 -> 0 < btr -> pos d + btr <= len d -> 0 <= rpos -> rpos + btr <= bl ->
  exists v' f' rb' o, read_boundary g v f rb bl rpos btr = Ok (v', f', rb', o) /\ grown g D i v cs v' cs /\ found g v' l f' d /\ same_mode f f' /\
    (forall c, 0 <= c < n_fatent g -> entry g v' c = entry g v c) /\
    (o = Through /\ rb' = rb /\ fsect f' = sector_of g l (pos d) \/
     exists cc, o = Direct (ss g * cc) /\ 0 < cc /\ ss g * cc <= btr /\ (pos d / ss g) mod csize g + cc <= csize g /\ filled d rb rb' rpos (ss g * cc)).
Proof.
  intros G A R l F M B1 B2 B3 B4. unfold read_boundary. destruct (cluster_read g D cs i v f d G A R F M ltac:(lia)) as (v1 & E1 & W1 & F1 & EE1).
  fold l in E1, F1. rewrite E1. cbn [bind]. set (f1 := set_start f (sclust f) (nth (Z.to_nat (pos d / bcs g)) l 0)) in *.
  pose proof (gw_ready _ _ _ _ _ _ _ W1) as R1. destruct (sect_of_cluster g D cs i v1 f1 d G A R1 F1) as [S0 S1]. fold l in S1.
  rewrite S0. change (fptr f) with (fptr f1). rewrite S1. pose proof (ss_pos g G) as Sp. pose proof (cs_pos g A) as Cp. pose proof (ss_max g G) as Sm.
  pose proof (fd_range _ _ _ _ _ F1) as Rg. pose proof (fd_in _ _ _ _ _ F1) as In_. assert (P : 0 <= pos d < Z.of_nat (length l) * bcs g) by lia.
  pose proof (sector_range g D cs i v1 (pos d) G A R1 P) as Sr. fold l in Sr. pose proof (ok_dsize g G) as Sd.
  destruct (own_chain g v1 cs i (rd_own _ _ _ _ _ R1) (rd_idx _ _ _ _ _ R1)) as (Ch & Nd & _). fold l in Ch, Nd.
  rewrite (fd_pos _ _ _ _ _ F1), cs_land by (auto; apply Z.div_pos; lia).
  pose proof (Z.mod_pos_bound (pos d / ss g) (csize g) (proj1 Cp)) as Cm.
  destruct (Z.ltb_spec 0 (btr / ss g)) as [Cc|Cc].
  - set (cc := if csize g <? (pos d / ss g) mod csize g + btr / ss g then csize g - (pos d / ss g) mod csize g else btr / ss g).
    assert (K1 : 0 < cc) by (unfold cc; destruct (Z.ltb_spec (csize g) ((pos d / ss g) mod csize g + btr / ss g)); lia).
    assert (K2 : (pos d / ss g) mod csize g + cc <= csize g) by (unfold cc; destruct (Z.ltb_spec (csize g) ((pos d / ss g) mod csize g + btr / ss g)); lia).
    assert (K3 : ss g * cc <= btr).
    { assert (cc <= btr / ss g) by (unfold cc; destruct (Z.ltb_spec (csize g) ((pos d / ss g) mod csize g + btr / ss g)); lia).
      apply mul_le; [lia|auto]. }
    clearbody cc. pose proof (last_in (ss g) cc ltac:(lia) K1) as Li.
    assert (Sx : sector_of g l (pos d) + cc <= dsize g).
    { destruct (direct_in g l (pos d) cc G A P M K1 K2 (ss g * (cc - 1)) Li) as [X _].
      assert (P2 : 0 <= pos d + ss g * (cc - 1) < Z.of_nat (length l) * bcs g) by (pose proof (fd_room _ _ _ _ _ F1); lia).
      pose proof (sector_range g D cs i v1 _ G A R1 P2) as Y. fold l in Y. rewrite X in Y. rewrite (Z.mul_comm (ss g)), Z.div_mul in Y by lia. lia. }
    unfold read_n. replace ((0 <=? sector_of g l (pos d)) && (sector_of g l (pos d) + cc <=? dsize g)) with true by lia.
    unfold memcpy at 1. replace ((0 <=? rpos) && (rpos + ss g * cc <=? bl) && (0 <=? 0) && (0 + ss g * cc <=? ss g * cc)) with true by lia. cbn [bind].
    pose proof (fd_cache _ _ _ _ _ F1) as Ca. destruct Ca as [H1 H0 H2 H3 H4 H5].
    assert (I1 : sector_of g l (pos d) + cc <= 4294967296) by (clear - Sx Sd; lia).
    pose proof (in_run (fsect f1) (sector_of g l (pos d)) cc H0 ltac:(clear - Sr; lia) I1) as [Ri Ro].
    assert (Dk : forall j b, 0 <= j < ss g * cc -> data d (pos d + j) = Some b -> fdirty f1 = false \/ fsect f1 <> sector_of g l (pos d) + j / ss g ->
                 disk v1 (sector_of g l (pos d) + j / ss g) (j mod ss g) = b).
    { intros j b J X Y. destruct (direct_in g l (pos d) cc G A P M K1 K2 j J) as [Z1 Z2]. fold l in H4. rewrite <- Z1 in *. rewrite <- Z2. apply H4; auto. }
    assert (Bf : forall j b, 0 <= j < ss g * cc -> data d (pos d + j) = Some b -> fsect f1 = sector_of g l (pos d) + j / ss g -> fbuf f1 (j mod ss g) = b).
    { intros j b J X Y. destruct (direct_in g l (pos d) cc G A P M K1 K2 j J) as [Z1 Z2]. fold l in H5. rewrite <- Z1 in *. rewrite <- Z2. apply H5; auto. }
    destruct (fdirty f1 && (w32 (fsect f1 - sector_of g l (pos d)) <? cc)) eqn:T.
    + apply andb_true_iff in T. destruct T as [T1 T2]. destruct (Ri T2) as [Rn Rw]. clear Ri Ro. rewrite Rw. set (a := fsect f1 - sector_of g l (pos d)) in *.
      assert (Ha : 0 <= a < cc) by (unfold a; lia). pose proof (part_in (ss g) cc a ltac:(lia) Ha) as Pi. unfold memcpy.
      replace ((0 <=? rpos + a * ss g) && (rpos + a * ss g + ss g <=? bl) && (0 <=? 0) && (0 + ss g <=? MAXSS)) with true by (clear - Pi K3 B3 B4 Sm Sp; lia). cbn [bind].
      eexists v1, f1, _, _. split; [reflexivity|]. split; [auto|]. split; [auto|]. split; [split; [|split]; reflexivity|]. split; [auto|]. right. exists cc. split; [auto|]. split; [auto|].
      split; [auto|]. split; [auto|]. split.
      * intros j b J X. pose proof (Z.div_mod j (ss g) ltac:(clear - Sp; lia)) as Dm. pose proof (Z.mod_pos_bound j (ss g) ltac:(clear - Sp; lia)) as Dr.
        destruct ((rpos + a * ss g <=? rpos + j) && (rpos + j <? rpos + a * ss g + ss g)) eqn:Q.
        -- assert (Ja : j / ss g = a) by (clear - Q; symmetry; apply (Z.div_unique _ _ _ (j - a * ss g)); lia).
           replace (0 + (rpos + j - (rpos + a * ss g))) with (j mod ss g) by (rewrite Ja in Dm; clear - Dm; lia). apply Bf; auto. rewrite Ja. unfold a. clear; lia.
        -- assert (Ja : j / ss g <> a) by (intros Y; rewrite Y in Dm; clear - Dm Dr Q; lia).
           replace ((rpos <=? rpos + j) && (rpos + j <? rpos + ss g * cc)) with true by (clear - J; lia). replace (0 + (rpos + j - rpos)) with j by (clear; lia).
           apply Dk; auto. right. clear - Ja. unfold a in *. lia.
      * intros k K. replace ((rpos + a * ss g <=? k) && (k <? rpos + a * ss g + ss g)) with false by (clear - Pi K; lia).
        now replace ((rpos <=? k) && (k <? rpos + ss g * cc)) with false by (clear - K; lia).
    + cbn [bind]. eexists v1, f1, _, _. split; [reflexivity|]. split; [auto|]. split; [auto|]. split; [split; [|split]; reflexivity|]. split; [auto|]. right. exists cc. split; [auto|]. split; [auto|].
      split; [auto|]. split; [auto|]. split.
      * intros j b J X. replace ((rpos <=? rpos + j) && (rpos + j <? rpos + ss g * cc)) with true by (clear - J; lia). replace (0 + (rpos + j - rpos)) with j by (clear; lia).
        apply Dk; auto. apply andb_false_iff in T. destruct T as [T|T]; [auto|]. right. apply Ro in T. intros Y.
        assert (0 <= j / ss g < cc) by (split; [apply Z.div_pos; lia|apply Z.div_lt_upper_bound; lia]). clear - T Y H. lia.
      * intros k K. now replace ((rpos <=? k) && (k <? rpos + ss g * cc)) with false by (clear - K; lia).
  - destruct (Z.eqb_spec (fsect f1) (sector_of g l (pos d))) as [T|T]; cbn [negb].
    + rewrite <- T. exists v1, (set_buf f1 (fsect f1) (fbuf f1) (fdirty f1)), rb, Through. split; [auto|]. split; [auto|].
      assert (Id : set_buf f1 (fsect f1) (fbuf f1) (fdirty f1) = f1) by (now destruct f1). rewrite Id. split; [auto|].
      split; [split; [|split]; reflexivity|]. split; [auto|]. left. split; [auto|]. split; [auto|]. auto.
    + destruct (back_ok g D cs i v1 f1 d G A R1 (fd_cache _ _ _ _ _ F1)) as (v2 & E2 & W2 & C2 & EE2). fold l in C2.
      rewrite E2. set (f2 := set_buf f1 (fsect f1) (fbuf f1) false) in *. pose proof (gw_ready _ _ _ _ _ _ _ W2) as R2.
      destruct (load_ok g D cs i v2 f2 d (pos d) G A R2 C2 eq_refl P) as (dd & b & E3 & E4 & C3). fold l in E3, C3. rewrite E3, E4. cbn [bind].
      eexists v2, _, rb, Through. split; [reflexivity|]. split; [now apply (grown_trans g D i v cs v1 cs v2 cs); [apply R|..]|].
      split; [|split; [split; [|split]; reflexivity|split; [|left; auto]]].
      * destruct F1. constructor; auto.
      * intros c Hc. rewrite EE2, EE1; auto.
Qed.

Lemma filled_more d rb rb1 rb2 rpos n m : 0 <= n -> 0 <= m -> filled d rb rb1 rpos n -> filled (at_pos d (pos d + n)) rb1 rb2 (rpos + n) m -> filled d rb rb2 rpos (n + m).
Proof.
  intros N M [A1 A2] [B1 B2]. cbn in B1. split.
  - intros j b J X. destruct (Z_lt_dec j n) as [L|L].
    + rewrite B2 by lia. apply A1; auto. lia.
    + replace (rpos + j) with (rpos + n + (j - n)) by lia. apply B1; [lia|]. replace (pos d + n + (j - n)) with (pos d + j) by lia. auto.
  - intros k K. rewrite B2, A2 by lia. auto.
Qed.

Lemma cached_at g v l f d p n q : cached g v l f d -> cached g v l (set_pos f p n) (at_pos d q).
Proof. intros C. eapply cached_ext; eauto. intros r b X. split; auto. now apply (ca_len _ _ _ _ _ C r b). Qed.

Lemma read_loop_ok g D cs i bl fuel : forall v f d rb rpos btr, geo_ok g -> data_ok g -> ready g D cs i v -> let l := nth i cs [] in file_ok g v l f d ->
  0 <= btr -> pos d + btr <= len d -> 0 <= rpos -> rpos + btr <= bl -> btr < Z.of_nat fuel ->
  exists v' f' rb', read_loop fuel g v f rb bl rpos btr = Ok (v', f', rb', rpos + btr, FR_OK) /\ grown g D i v cs v' cs /\
    file_ok g v' l f' (at_pos d (pos d + btr)) /\ same_mode f f' /\ (forall c, 0 <= c < n_fatent g -> entry g v' c = entry g v c) /\
    filled d rb rb' rpos btr.
Proof.
  induction fuel as [|fuel IH]; intros v f d rb rpos btr G A R l F B0 B2 B3 B4 Fu; [lia|]. cbn [read_loop].
  pose proof (rd_idx _ _ _ _ _ R) as I. pose proof (ss_pos g G) as Sp. pose proof (ss_max g G) as Sm. pose proof (fo_range _ _ _ _ _ F) as Rg.
  destruct (Z.leb_spec btr 0) as [Z0|Z0].
  - assert (btr = 0) as -> by lia. exists v, f, rb. rewrite !Z.add_0_r. split; [auto|]. split; [now apply grown_refl|].
    split; [destruct F; constructor; auto; eapply cached_ext; eauto; intros r b X; split; auto; apply (ca_len _ _ _ _ _ fo_cache r b X)|]. split; [now split|]. split; [auto|]. split; [lia|auto].
  - assert (Step : forall v1 f1 rb1 n, grown g D i v cs v1 cs -> same_mode f f1 -> (forall c, 0 <= c < n_fatent g -> entry g v1 c = entry g v c) ->
        file_ok g v1 l (set_pos f1 (fptr f1 + n) (objsize f1)) (at_pos d (pos d + n)) -> 0 < n <= btr -> filled d rb rb1 rpos n ->
        exists v' f' rb', read_loop fuel g v1 (set_pos f1 (fptr f1 + n) (objsize f1)) rb1 bl (rpos + n) (btr - n) = Ok (v', f', rb', rpos + btr, FR_OK) /\ grown g D i v cs v' cs /\
          file_ok g v' l f' (at_pos d (pos d + btr)) /\ same_mode f f' /\ (forall c, 0 <= c < n_fatent g -> entry g v' c = entry g v c) /\ filled d rb rb' rpos btr).
    { intros v1 f1 rb1 n W1 M1 EE1 F1 Hn Fl.
      destruct (IH v1 (set_pos f1 (fptr f1 + n) (objsize f1)) (at_pos d (pos d + n)) rb1 (rpos + n) (btr - n) G A (gw_ready _ _ _ _ _ _ _ W1) F1) as (v' & f' & rb' & E & W' & F' & M' & EE' & Fl'); cbn; try lia.
      replace (rpos + n + (btr - n)) with (rpos + btr) in E by lia. exists v', f', rb'. split; [auto|]. split; [now apply (grown_trans g D i v cs v1 cs v' cs)|].
      split; [|split; [|split]].
      - cbn in F'. unfold at_pos in *. cbn in *. replace (pos d + n + (btr - n)) with (pos d + btr) in F' by lia. auto.
      - destruct M1 as (X1 & X2 & X3), M' as (Y1 & Y2 & Y3). cbn in *. split; [|split]; congruence.
      - intros c Hc. rewrite EE', EE1; auto.
      - replace btr with (n + (btr - n)) by lia. apply (filled_more d rb rb1); auto; lia. }
    assert (Last : forall v1 f1 rb1, rb1 = rb -> grown g D i v cs v1 cs -> same_mode f f1 -> (forall c, 0 <= c < n_fatent g -> entry g v1 c = entry g v c) ->
        found g v1 l f1 d -> fsect f1 = sector_of g l (pos d) ->
        exists v' f' rb', (rb2 <- memcpy rb1 bl rpos (fbuf f1) MAXSS (fptr f1 mod ss g) (if btr <? ss g - fptr f1 mod ss g then btr else ss g - fptr f1 mod ss g) ;;
          read_loop fuel g v1 (set_pos f1 (fptr f1 + (if btr <? ss g - fptr f1 mod ss g then btr else ss g - fptr f1 mod ss g)) (objsize f1)) rb2 bl
            (rpos + (if btr <? ss g - fptr f1 mod ss g then btr else ss g - fptr f1 mod ss g)) (btr - (if btr <? ss g - fptr f1 mod ss g then btr else ss g - fptr f1 mod ss g))) =
          Ok (v', f', rb', rpos + btr, FR_OK) /\ grown g D i v cs v' cs /\
          file_ok g v' l f' (at_pos d (pos d + btr)) /\ same_mode f f' /\ (forall c, 0 <= c < n_fatent g -> entry g v' c = entry g v c) /\ filled d rb rb' rpos btr).
    { intros v1 f1 rb1 -> W1 M1 EE1 F1 S1. pose proof (fd_pos _ _ _ _ _ F1) as P1. pose proof (Z.mod_pos_bound (pos d) (ss g) ltac:(lia)) as Pm.
      set (n := if btr <? ss g - fptr f1 mod ss g then btr else ss g - fptr f1 mod ss g).
      assert (Hn : 0 < n <= btr /\ n <= ss g - pos d mod ss g) by (unfold n; rewrite P1; destruct (Z.ltb_spec btr (ss g - pos d mod ss g)); lia). clearbody n. replace (fptr f1 mod ss g) with (pos d mod ss g) by congruence.
      unfold memcpy. replace ((0 <=? rpos) && (rpos + n <=? bl) && (0 <=? pos d mod ss g) && (pos d mod ss g + n <=? MAXSS)) with true by lia. cbn [bind].
      destruct (in_sector g (pos d) n G A ltac:(lia) ltac:(lia)) as [Q1 Q2].
      apply Step; auto.
      - apply (found_file g v1 l f1 d _ _ n G A F1); cbn [at_pos set_pos pos len fptr objsize sclust clust ferr fsect].
        + clear - Hn. lia.
        + exact Q1.
        + apply cached_at. apply F1.
        + now rewrite P1.
        + reflexivity.
        + apply F1.
        + clear - Hn B2 Rg. lia.
        + apply F1.
        + reflexivity.
        + reflexivity.
        + apply F1.
        + intros X. rewrite S1, !sector_secn, Q2 by auto. auto.
      - lia.
      - split.
        + intros j b J X. replace ((rpos <=? rpos + j) && (rpos + j <? rpos + n)) with true by lia. replace (pos d mod ss g + (rpos + j - rpos)) with (pos d mod ss g + j) by lia.
          assert (Y : (pos d + j) / ss g = pos d / ss g /\ (pos d + j) mod ss g = pos d mod ss g + j).
          { apply near_in; clear - Sp J Hn Pm; lia. }
          destruct Y as [Y1 Y2]. rewrite <- Y2. apply (ca_buf _ _ _ _ _ (fd_cache _ _ _ _ _ F1)); auto. rewrite S1, !sector_secn, Y1 by auto. auto.
        + intros k K. now replace ((rpos <=? k) && (k <? rpos + n)) with false by lia. }
    destruct (Z.eqb_spec (fptr f mod ss g) 0) as [T|T]; rewrite (fo_pos _ _ _ _ _ F) in T.
    + destruct (read_boundary_ok g D cs i v f d rb bl rpos btr G A R F T Z0 B2 B3 B4) as (v1 & f1 & rb1 & o & E & W1 & F1 & M1 & EE1 & H).
      rewrite E. cbn [bind]. destruct H as [(-> & Hr & S1)|(cc & -> & K1 & K2 & K3 & Fl)].
      * now apply Last.
      * destruct (mod_bcs2 g (pos d) cc G A ltac:(lia) T K1 K3) as [Q1 Q2]. assert (Kp : 0 < ss g * cc) by (apply Z.mul_pos_pos; lia). apply Step; auto.
        apply (found_file g v1 l f1 d _ _ (ss g * cc) G A F1); cbn [at_pos set_pos pos len fptr objsize sclust clust ferr fsect]; try (reflexivity || assumption || apply F1).
        -- apply cached_at. apply F1.
        -- now rewrite (fd_pos _ _ _ _ _ F1).
        -- clear - K2 B2 Rg. lia.
        -- now intros [].
    + cbn [bind]. destruct (file_found g v l f d G A F T) as [F1 S1].
      apply Last; auto; [now apply grown_refl|now split].
Qed.

Lemma f_read_ok g D cs i v f d rb bl n fuel : geo_ok g -> data_ok g -> ready g D cs i v -> let l := nth i cs [] in file_ok g v l f d ->
  fread f = true -> 0 <= n -> n <= bl -> n < Z.of_nat fuel ->
  let k := Z.min n (len d - pos d) in
  exists v' f' rb', f_read fuel g v f rb bl n = Ok (v', f', rb', k, FR_OK) /\ grown g D i v cs v' cs /\
    file_ok g v' l f' (at_pos d (pos d + k)) /\ same_mode f f' /\ (forall c, 0 <= c < n_fatent g -> entry g v' c = entry g v c) /\ filled d rb rb' 0 k.
Proof.
  intros G A R l F Fr N1 N2 Fu k. unfold f_read. rewrite (fo_err _ _ _ _ _ F), Fr, (fo_pos _ _ _ _ _ F), (fo_len _ _ _ _ _ F).
  pose proof (fo_range _ _ _ _ _ F).
  replace (if len d - pos d <? n then len d - pos d else n) with k by (unfold k; destruct (Z.ltb_spec (len d - pos d) n); lia).
  destruct (read_loop_ok g D cs i bl fuel v f d rb 0 k G A R F) as (v' & f' & rb' & E & H'); try (unfold k; lia).
  exists v', f', rb'. rewrite Z.add_0_l in E. auto.
Qed.
