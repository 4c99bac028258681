(* Seeking and reading with a link map. *)
From Coq Require Import ZifyClasses ZifyInst ZifyBool.
From Verif Require Import Base FatModel FatSpec FileModel FileSpec FatProof FatProof2 FatProof3 FatProof4 FatProof5 FatProof6
  FileProof FileProof2 FileProof3 FileProof4 FileProof5 FileProof6 ExpandSpec ExpandProof ExpandProof2 FastModel FastSpec FastProof.
Open Scope Z_scope.
Ltac Zify.zify_post_hook ::= idtac.

(* The cluster to read from. *)
Lemma cluster_fast tab size g D cs i v f d : geo_ok g -> data_ok g -> ready g D cs i v -> let l := nth i cs [] in linkmap tab size l -> file_ok g v l f d ->
  pos d mod ss g = 0 -> pos d < len d ->
  exists v', (if Z.land (fptr f / ss g) (csize g - 1) =? 0 then fast_cluster tab size g v f else Ok (v, f, Through)) =
             Ok (v', set_start f (sclust f) (nth (Z.to_nat (pos d / bcs g)) l 0), Through) /\
             grown g D i v cs v' cs /\ found g v' l (set_start f (sclust f) (nth (Z.to_nat (pos d / bcs g)) l 0)) d /\
             (forall c, 0 <= c < n_fatent g -> entry g v' c = entry g v c).
Proof.
  intros G A R l Lm F M P. pose proof F as [H1 H2 H3 H4 H5 H6 H7 H8 H9]. pose proof (ss_pos g G) as Sp. pose proof (bcs_pos g G A) as Bp.
  pose proof (rd_idx _ _ _ _ _ R) as I. assert (Pr : 0 <= pos d < Z.of_nat (length l) * bcs g) by lia.
  rewrite H2, cs_land by (auto; apply Z.div_pos; lia). pose proof (boundary g (pos d) G A ltac:(lia) M) as Bd.
  destruct (own_chain g v cs i (rd_own _ _ _ _ _ R) I) as (Ch & _ & _). fold l in Ch. pose proof (ent_small g G) as (N1 & _).
  pose proof (pos_index g (length l) (pos d) G A Pr) as K.
  destruct (chain_nth g _ _ Ch _ K) as (Kc & _).
  assert (Fd : found g v l (set_start f (sclust f) (nth (Z.to_nat (pos d / bcs g)) l 0)) d).
  { constructor; cbn; auto; [|lia]. now apply cached_start. }
  exists v. split; [|split; [now apply grown_refl|auto]].
  destruct (Z.eqb_spec ((pos d / ss g) mod csize g) 0) as [Z0|Z0].
  - unfold fast_cluster. rewrite H2.
    assert (X : (if pos d =? 0 then Ok (sclust f) else clmt_clust g tab size (pos d)) = Ok (nth (Z.to_nat (pos d / bcs g)) l 0)).
    { destruct (Z.eqb_spec (pos d) 0) as [Q|Q]; [rewrite Q, Z.div_0_l, H6 by lia; destruct l; auto|]. apply (clmt_ok g D cs i v); auto. lia. }
    rewrite X. cbn [bind]. set (c := nth (Z.to_nat (pos d / bcs g)) l 0) in *. unfold ERR. replace (c <? 2) with false by lia. now replace (c =? 4294967295) with false by lia.
  - assert (E : nth (Z.to_nat (pos d / bcs g)) l 0 = clust f).
    { rewrite H7, prev_div; auto; [tauto|]. destruct (Z.eq_dec (pos d) 0) as [X|X]; [|lia]. exfalso. apply Z0. rewrite X, Z.div_0_l, Z.mod_0_l; pose proof (cs_pos g A); lia. }
    now rewrite E, set_start_id.
Qed.

(* The part of an iteration at a sector boundary. *)
Lemma fast_boundary_ok tab size g D cs i v f d rb bl rpos btr : geo_ok g -> data_ok g -> ready g D cs i v -> let l := nth i cs [] in linkmap tab size l -> file_ok g v l f d ->
  pos d mod ss g = 0 -> 0 < btr -> pos d + btr <= len d -> 0 <= rpos -> rpos + btr <= bl ->
  exists v' f' rb' o, fast_boundary tab size g v f rb bl rpos btr = Ok (v', f', rb', o) /\ grown g D i v cs v' cs /\ found g v' l f' d /\ same_mode f f' /\
    (forall c, 0 <= c < n_fatent g -> entry g v' c = entry g v c) /\
    (o = Through /\ rb' = rb /\ fsect f' = sector_of g l (pos d) \/
     exists cc, o = Direct (ss g * cc) /\ 0 < cc /\ ss g * cc <= btr /\ (pos d / ss g) mod csize g + cc <= csize g /\ filled d rb rb' rpos (ss g * cc)).
Proof.
  intros G A R l Lm F M B1 B2 B3 B4. unfold fast_boundary. destruct (cluster_fast tab size g D cs i v f d G A R Lm F M ltac:(lia)) as (v1 & E1 & W1 & F1 & EE1).
  fold l in E1, F1. rewrite E1. cbn [bind]. set (f1 := set_start f (sclust f) (nth (Z.to_nat (pos d / bcs g)) l 0)) in *.
  pose proof (gw_ready _ _ _ _ _ _ _ W1) as R1. destruct (sect_of_cluster g D cs i v1 f1 d G A R1 F1) as [S0 S1]. fold l in S1.
  rewrite S0. change (fptr f) with (fptr f1). rewrite S1. pose proof (ss_pos g G) as Sp. pose proof (cs_pos g A) as Cp. pose proof (ss_max g G) as Sm.
  pose proof (fd_range _ _ _ _ _ F1) as Rg. pose proof (fd_in _ _ _ _ _ F1) as In_. assert (P : 0 <= pos d < Z.of_nat (length l) * bcs g) by lia.
  pose proof (sector_range g D cs i v1 (pos d) G A R1 P) as Sr. fold l in Sr. pose proof (ok_dsize g G) as Sd.
  destruct (own_chain g v1 cs i (rd_own _ _ _ _ _ R1) (rd_idx _ _ _ _ _ R1)) as (Ch & Nd & _). fold l in Ch, Nd.
  rewrite (fd_pos _ _ _ _ _ F1), cs_land by (auto; apply Z.div_pos; lia).
  pose proof (Z.mod_pos_bound (pos d / ss g) (csize g) (proj1 Cp)) as Cm.
  destruct (Z.ltb_spec 0 (btr / ss g)) as [Cc|Cc].
  - set (cc := if csize g <? (pos d / ss g) mod csize g + btr / ss g then csize g - (pos d / ss g) mod csize g else btr / ss g).
    assert (K1 : 0 < cc) by (unfold cc; destruct (Z.ltb_spec (csize g) ((pos d / ss g) mod csize g + btr / ss g)); lia).
    assert (K2 : (pos d / ss g) mod csize g + cc <= csize g) by (unfold cc; destruct (Z.ltb_spec (csize g) ((pos d / ss g) mod csize g + btr / ss g)); lia).
    assert (K3 : ss g * cc <= btr).
    { assert (cc <= btr / ss g) by (unfold cc; destruct (Z.ltb_spec (csize g) ((pos d / ss g) mod csize g + btr / ss g)); lia).
      apply mul_le; [lia|auto]. }
    clearbody cc. pose proof (last_in (ss g) cc ltac:(lia) K1) as Li.
    assert (Sx : sector_of g l (pos d) + cc <= dsize g).
    { destruct (direct_in g l (pos d) cc G A P M K1 K2 (ss g * (cc - 1)) Li) as [X _].
      assert (P2 : 0 <= pos d + ss g * (cc - 1) < Z.of_nat (length l) * bcs g) by (pose proof (fd_room _ _ _ _ _ F1); lia).
      pose proof (sector_range g D cs i v1 _ G A R1 P2) as Y. fold l in Y. rewrite X in Y. rewrite (Z.mul_comm (ss g)), Z.div_mul in Y by lia. lia. }
    unfold read_n. replace ((0 <=? sector_of g l (pos d)) && (sector_of g l (pos d) + cc <=? dsize g)) with true by lia.
    unfold memcpy at 1. replace ((0 <=? rpos) && (rpos + ss g * cc <=? bl) && (0 <=? 0) && (0 + ss g * cc <=? ss g * cc)) with true by lia. cbn [bind].
    pose proof (fd_cache _ _ _ _ _ F1) as Ca. destruct Ca as [H1 H0 H2 H3 H4 H5].
    assert (I1 : sector_of g l (pos d) + cc <= 4294967296) by (clear - Sx Sd; lia).
    pose proof (in_run (fsect f1) (sector_of g l (pos d)) cc H0 ltac:(clear - Sr; lia) I1) as [Ri Ro].
    assert (Dk : forall j b, 0 <= j < ss g * cc -> data d (pos d + j) = Some b -> fdirty f1 = false \/ fsect f1 <> sector_of g l (pos d) + j / ss g ->
                 disk v1 (sector_of g l (pos d) + j / ss g) (j mod ss g) = b).
    { intros j b J X Y. destruct (direct_in g l (pos d) cc G A P M K1 K2 j J) as [Z1 Z2]. fold l in H4. rewrite <- Z1 in *. rewrite <- Z2. apply H4; auto. }
    assert (Bf : forall j b, 0 <= j < ss g * cc -> data d (pos d + j) = Some b -> fsect f1 = sector_of g l (pos d) + j / ss g -> fbuf f1 (j mod ss g) = b).
    { intros j b J X Y. destruct (direct_in g l (pos d) cc G A P M K1 K2 j J) as [Z1 Z2]. fold l in H5. rewrite <- Z1 in *. rewrite <- Z2. apply H5; auto. }
    destruct (fdirty f1 && (w32 (fsect f1 - sector_of g l (pos d)) <? cc)) eqn:T.
    + apply andb_true_iff in T. destruct T as [T1 T2]. destruct (Ri T2) as [Rn Rw]. clear Ri Ro. rewrite Rw. set (a := fsect f1 - sector_of g l (pos d)) in *.
      assert (Ha : 0 <= a < cc) by (unfold a; lia). pose proof (part_in (ss g) cc a ltac:(lia) Ha) as Pi. unfold memcpy.
      replace ((0 <=? rpos + a * ss g) && (rpos + a * ss g + ss g <=? bl) && (0 <=? 0) && (0 + ss g <=? MAXSS)) with true by (clear - Pi K3 B3 B4 Sm Sp; lia). cbn [bind].
      eexists v1, f1, _, _. split; [reflexivity|]. split; [auto|]. split; [auto|]. split; [split; [|split]; reflexivity|]. split; [auto|]. right. exists cc. split; [auto|]. split; [auto|].
      split; [auto|]. split; [auto|]. split.
      * intros j b J X. pose proof (Z.div_mod j (ss g) ltac:(clear - Sp; lia)) as Dm. pose proof (Z.mod_pos_bound j (ss g) ltac:(clear - Sp; lia)) as Dr.
        destruct ((rpos + a * ss g <=? rpos + j) && (rpos + j <? rpos + a * ss g + ss g)) eqn:Q.
        -- assert (Ja : j / ss g = a) by (clear - Q; symmetry; apply (Z.div_unique _ _ _ (j - a * ss g)); lia).
           replace (0 + (rpos + j - (rpos + a * ss g))) with (j mod ss g) by (rewrite Ja in Dm; clear - Dm; lia). apply Bf; auto. rewrite Ja. unfold a. clear; lia.
        -- assert (Ja : j / ss g <> a) by (intros Y; rewrite Y in Dm; clear - Dm Dr Q; lia).
           replace ((rpos <=? rpos + j) && (rpos + j <? rpos + ss g * cc)) with true by (clear - J; lia). replace (0 + (rpos + j - rpos)) with j by (clear; lia).
           apply Dk; auto. right. clear - Ja. unfold a in *. lia.
      * intros k K. replace ((rpos + a * ss g <=? k) && (k <? rpos + a * ss g + ss g)) with false by (clear - Pi K; lia).
        now replace ((rpos <=? k) && (k <? rpos + ss g * cc)) with false by (clear - K; lia).
    + cbn [bind]. eexists v1, f1, _, _. split; [reflexivity|]. split; [auto|]. split; [auto|]. split; [split; [|split]; reflexivity|]. split; [auto|]. right. exists cc. split; [auto|]. split; [auto|].
      split; [auto|]. split; [auto|]. split.
      * intros j b J X. replace ((rpos <=? rpos + j) && (rpos + j <? rpos + ss g * cc)) with true by (clear - J; lia). replace (0 + (rpos + j - rpos)) with j by (clear; lia).
        apply Dk; auto. apply andb_false_iff in T. destruct T as [T|T]; [auto|]. right. apply Ro in T. intros Y.
        assert (0 <= j / ss g < cc) by (split; [apply Z.div_pos; lia|apply Z.div_lt_upper_bound; lia]). clear - T Y H. lia.
      * intros k K. now replace ((rpos <=? k) && (k <? rpos + ss g * cc)) with false by (clear - K; lia).
  - destruct (Z.eqb_spec (fsect f1) (sector_of g l (pos d))) as [T|T]; cbn [negb].
    + rewrite <- T. exists v1, (set_buf f1 (fsect f1) (fbuf f1) (fdirty f1)), rb, Through. split; [auto|]. split; [auto|].
      assert (Id : set_buf f1 (fsect f1) (fbuf f1) (fdirty f1) = f1) by (now destruct f1). rewrite Id. split; [auto|].
      split; [split; [|split]; reflexivity|]. split; [auto|]. left. split; [auto|]. split; [auto|]. auto.
    + destruct (back_ok g D cs i v1 f1 d G A R1 (fd_cache _ _ _ _ _ F1)) as (v2 & E2 & W2 & C2 & EE2). fold l in C2.
      rewrite E2. set (f2 := set_buf f1 (fsect f1) (fbuf f1) false) in *. pose proof (gw_ready _ _ _ _ _ _ _ W2) as R2.
      destruct (load_ok g D cs i v2 f2 d (pos d) G A R2 C2 eq_refl P) as (dd & b & E3 & E4 & C3). fold l in E3, C3. rewrite E3, E4. cbn [bind].
      eexists v2, _, rb, Through. split; [reflexivity|]. split; [now apply (grown_trans g D i v cs v1 cs v2 cs); [apply R|..]|].
      split; [|split; [split; [|split]; reflexivity|split; [|left; auto]]].
      * destruct F1. constructor; auto.
      * intros c Hc. rewrite EE2, EE1; auto.
Qed.

Lemma fast_loop_ok tab size g D cs i bl fuel : forall v f d rb rpos btr, geo_ok g -> data_ok g -> ready g D cs i v -> let l := nth i cs [] in linkmap tab size l -> file_ok g v l f d ->
  0 <= btr -> pos d + btr <= len d -> 0 <= rpos -> rpos + btr <= bl -> btr < Z.of_nat fuel ->
  exists v' f' rb', fast_loop fuel tab size g v f rb bl rpos btr = Ok (v', f', rb', rpos + btr, FR_OK) /\ grown g D i v cs v' cs /\
    file_ok g v' l f' (at_pos d (pos d + btr)) /\ same_mode f f' /\ (forall c, 0 <= c < n_fatent g -> entry g v' c = entry g v c) /\
    filled d rb rb' rpos btr.
Proof.
  induction fuel as [|fuel IH]; intros v f d rb rpos btr G A R l Lm F B0 B2 B3 B4 Fu; [lia|]. cbn [fast_loop].
  pose proof (rd_idx _ _ _ _ _ R) as I. pose proof (ss_pos g G) as Sp. pose proof (ss_max g G) as Sm. pose proof (fo_range _ _ _ _ _ F) as Rg.
  destruct (Z.leb_spec btr 0) as [Z0|Z0].
  - assert (btr = 0) as -> by lia. exists v, f, rb. rewrite !Z.add_0_r. split; [auto|]. split; [now apply grown_refl|].
    split; [destruct F; constructor; auto; eapply cached_ext; eauto; intros r b X; split; auto; apply (ca_len _ _ _ _ _ fo_cache r b X)|]. split; [now split|]. split; [auto|]. split; [lia|auto].
  - assert (Step : forall v1 f1 rb1 n, grown g D i v cs v1 cs -> same_mode f f1 -> (forall c, 0 <= c < n_fatent g -> entry g v1 c = entry g v c) ->
        file_ok g v1 l (set_pos f1 (fptr f1 + n) (objsize f1)) (at_pos d (pos d + n)) -> 0 < n <= btr -> filled d rb rb1 rpos n ->
        exists v' f' rb', fast_loop fuel tab size g v1 (set_pos f1 (fptr f1 + n) (objsize f1)) rb1 bl (rpos + n) (btr - n) = Ok (v', f', rb', rpos + btr, FR_OK) /\ grown g D i v cs v' cs /\
          file_ok g v' l f' (at_pos d (pos d + btr)) /\ same_mode f f' /\ (forall c, 0 <= c < n_fatent g -> entry g v' c = entry g v c) /\ filled d rb rb' rpos btr).
    { intros v1 f1 rb1 n W1 M1 EE1 F1 Hn Fl.
      destruct (IH v1 (set_pos f1 (fptr f1 + n) (objsize f1)) (at_pos d (pos d + n)) rb1 (rpos + n) (btr - n) G A (gw_ready _ _ _ _ _ _ _ W1) Lm F1) as (v' & f' & rb' & E & W' & F' & M' & EE' & Fl'); cbn; try lia.
      replace (rpos + n + (btr - n)) with (rpos + btr) in E by lia. exists v', f', rb'. split; [auto|]. split; [now apply (grown_trans g D i v cs v1 cs v' cs)|].
      split; [|split; [|split]].
      - cbn in F'. unfold at_pos in *. cbn in *. replace (pos d + n + (btr - n)) with (pos d + btr) in F' by lia. auto.
      - destruct M1 as (X1 & X2 & X3), M' as (Y1 & Y2 & Y3). cbn in *. split; [|split]; congruence.
      - intros c Hc. rewrite EE', EE1; auto.
      - replace btr with (n + (btr - n)) by lia. apply (filled_more d rb rb1); auto; lia. }
    assert (Last : forall v1 f1 rb1, rb1 = rb -> grown g D i v cs v1 cs -> same_mode f f1 -> (forall c, 0 <= c < n_fatent g -> entry g v1 c = entry g v c) ->
        found g v1 l f1 d -> fsect f1 = sector_of g l (pos d) ->
        exists v' f' rb', (rb2 <- memcpy rb1 bl rpos (fbuf f1) MAXSS (fptr f1 mod ss g) (if btr <? ss g - fptr f1 mod ss g then btr else ss g - fptr f1 mod ss g) ;;
          fast_loop fuel tab size g v1 (set_pos f1 (fptr f1 + (if btr <? ss g - fptr f1 mod ss g then btr else ss g - fptr f1 mod ss g)) (objsize f1)) rb2 bl
            (rpos + (if btr <? ss g - fptr f1 mod ss g then btr else ss g - fptr f1 mod ss g)) (btr - (if btr <? ss g - fptr f1 mod ss g then btr else ss g - fptr f1 mod ss g))) =
          Ok (v', f', rb', rpos + btr, FR_OK) /\ grown g D i v cs v' cs /\
          file_ok g v' l f' (at_pos d (pos d + btr)) /\ same_mode f f' /\ (forall c, 0 <= c < n_fatent g -> entry g v' c = entry g v c) /\ filled d rb rb' rpos btr).
    { intros v1 f1 rb1 -> W1 M1 EE1 F1 S1. pose proof (fd_pos _ _ _ _ _ F1) as P1. pose proof (Z.mod_pos_bound (pos d) (ss g) ltac:(lia)) as Pm.
      set (n := if btr <? ss g - fptr f1 mod ss g then btr else ss g - fptr f1 mod ss g).
      assert (Hn : 0 < n <= btr /\ n <= ss g - pos d mod ss g) by (unfold n; rewrite P1; destruct (Z.ltb_spec btr (ss g - pos d mod ss g)); lia). clearbody n. replace (fptr f1 mod ss g) with (pos d mod ss g) by congruence.
      unfold memcpy. replace ((0 <=? rpos) && (rpos + n <=? bl) && (0 <=? pos d mod ss g) && (pos d mod ss g + n <=? MAXSS)) with true by lia. cbn [bind].
      destruct (in_sector g (pos d) n G A ltac:(lia) ltac:(lia)) as [Q1 Q2].
      apply Step; auto.
      - apply (found_file g v1 l f1 d _ _ n G A F1); cbn [at_pos set_pos pos len fptr objsize sclust clust ferr fsect].
        + clear - Hn. lia.
        + exact Q1.
        + apply cached_at. apply F1.
        + now rewrite P1.
        + reflexivity.
        + apply F1.
        + clear - Hn B2 Rg. lia.
        + apply F1.
        + reflexivity.
        + reflexivity.
        + apply F1.
        + intros X. rewrite S1, !sector_secn, Q2 by auto. auto.
      - lia.
      - split.
        + intros j b J X. replace ((rpos <=? rpos + j) && (rpos + j <? rpos + n)) with true by lia. replace (pos d mod ss g + (rpos + j - rpos)) with (pos d mod ss g + j) by lia.
          assert (Y : (pos d + j) / ss g = pos d / ss g /\ (pos d + j) mod ss g = pos d mod ss g + j).
          { apply near_in; clear - Sp J Hn Pm; lia. }
          destruct Y as [Y1 Y2]. rewrite <- Y2. apply (ca_buf _ _ _ _ _ (fd_cache _ _ _ _ _ F1)); auto. rewrite S1, !sector_secn, Y1 by auto. auto.
        + intros k K. now replace ((rpos <=? k) && (k <? rpos + n)) with false by lia. }
    destruct (Z.eqb_spec (fptr f mod ss g) 0) as [T|T]; rewrite (fo_pos _ _ _ _ _ F) in T.
    + destruct (fast_boundary_ok tab size g D cs i v f d rb bl rpos btr G A R Lm F T Z0 B2 B3 B4) as (v1 & f1 & rb1 & o & E & W1 & F1 & M1 & EE1 & H).
      rewrite E. cbn [bind]. destruct H as [(-> & Hr & S1)|(cc & -> & K1 & K2 & K3 & Fl)].
      * now apply Last.
      * destruct (mod_bcs2 g (pos d) cc G A ltac:(lia) T K1 K3) as [Q1 Q2]. assert (Kp : 0 < ss g * cc) by (apply Z.mul_pos_pos; lia). apply Step; auto.
        apply (found_file g v1 l f1 d _ _ (ss g * cc) G A F1); cbn [at_pos set_pos pos len fptr objsize sclust clust ferr fsect]; try (reflexivity || assumption || apply F1).
        -- apply cached_at. apply F1.
        -- now rewrite (fd_pos _ _ _ _ _ F1).
        -- clear - K2 B2 Rg. lia.
        -- now intros [].
    + cbn [bind]. destruct (file_found g v l f d G A F T) as [F1 S1].
      apply Last; auto; [now apply grown_refl|now split].
Qed.

Lemma fast_read_ok tab size g D cs i v f d rb bl n fuel : geo_ok g -> data_ok g -> ready g D cs i v -> let l := nth i cs [] in linkmap tab size l -> file_ok g v l f d ->
  fread f = true -> 0 <= n -> n <= bl -> n < Z.of_nat fuel ->
  let k := Z.min n (len d - pos d) in
  exists v' f' rb', fast_read fuel tab size g v f rb bl n = Ok (v', f', rb', k, FR_OK) /\ grown g D i v cs v' cs /\
    file_ok g v' l f' (at_pos d (pos d + k)) /\ same_mode f f' /\ (forall c, 0 <= c < n_fatent g -> entry g v' c = entry g v c) /\ filled d rb rb' 0 k.
Proof.
  intros G A R l Lm F Fr N1 N2 Fu k. unfold fast_read. rewrite (fo_err _ _ _ _ _ F), Fr, (fo_pos _ _ _ _ _ F), (fo_len _ _ _ _ _ F).
  pose proof (fo_range _ _ _ _ _ F).
  replace (if len d - pos d <? n then len d - pos d else n) with k by (unfold k; destruct (Z.ltb_spec (len d - pos d) n); lia).
  destruct (fast_loop_ok tab size g D cs i bl fuel v f d rb 0 k G A R Lm F) as (v' & f' & rb' & E & H'); try (unfold k; lia).
  exists v', f', rb'. rewrite Z.add_0_l in E. auto.
Qed.

(* Seeking. *)
Lemma fast_seek_ok g D cs i v f d tab size ofs : geo_ok g -> data_ok g -> ready g D cs i v -> let l := nth i cs [] in linkmap tab size l -> file_ok g v l f d -> 0 <= ofs ->
  exists v' f', fast_seek g v f tab size ofs = Ok (v', f', FR_OK) /\ grown g D i v cs v' cs /\ mode f f' /\ file_ok g v' l f' (at_pos d (Z.min ofs (len d))).
Proof.
  intros G A R l Lm F O. pose proof F as [H1 H2 H3 H4 H5 H6 H7 H8 H9]. unfold fast_seek. rewrite H9, H3. cbv zeta. cbn [fptr set_pos objsize].
  replace (if len d <? ofs then len d else ofs) with (Z.min ofs (len d)) by (destruct (Z.ltb_spec (len d) ofs); lia).
  set (q := Z.min ofs (len d)) in *. assert (Q : 0 <= q <= len d) by lia. clearbody q. clear O ofs.
  pose proof (ss_pos g G) as Sp. pose proof (rd_idx _ _ _ _ _ R) as I. pose proof (bcs_pos g G A) as Bp.
  assert (Fin : forall v2 f2, cached g v2 l f2 d -> fptr f2 = q -> objsize f2 = len d -> sclust f2 = sclust f -> (0 < q -> clust f2 = nth (Z.to_nat ((q - 1) / bcs g)) l 0) -> ferr f2 = FR_OK ->
     (q mod ss g <> 0 -> fsect f2 = sector_of g l q) -> file_ok g v2 l f2 (at_pos d q)).
  { intros v2 f2 C2 Y1 Y2 Y3 Y4 Y5 Y6. constructor; cbn [at_pos data len pos]; auto; [|lia|congruence].
    eapply cached_ext; eauto. intros p b X. split; auto. exact (ca_len _ _ _ _ _ C2 p b X). }
  destruct (Z.ltb_spec 0 q) as [P|P].
  2: { eexists v, _. split; [reflexivity|]. split; [now apply grown_refl|]. split; [now split|].
       assert (q = 0) as -> by lia. apply Fin; auto; try lia.
       - destruct d as [dd dl dp]. exact (cached_at g v l f _ 0 _ dp H1).
       - rewrite Z.mod_0_l by lia. now intros []. }
  destruct (own_chain g v cs i (rd_own _ _ _ _ _ R) I) as (Ch & _ & _). fold l in Ch.
  assert (Pr : 0 <= q - 1 < Z.of_nat (length l) * bcs g) by lia. pose proof (pos_index g (length l) _ G A Pr) as K.
  destruct (chain_nth g _ _ Ch _ K) as (Kc & _).
  rewrite (clmt_ok g D cs i v) by (auto; lia). cbn [bind]. fold l. set (c := nth (Z.to_nat ((q - 1) / bcs g)) l 0) in *.
  destruct (clst_sect g c G A Kc) as (S1 & S2 & S3). rewrite S1. replace (database g + csize g * (c - 2) =? 0) with false by lia.
  pose proof (cs_pos g A) as Cp. pose proof (ok_dsize g G) as Sd.
  assert (Dv : 0 <= (q - 1) / ss g < 4294967296) by (split; [apply Z.div_pos; lia|apply Z.div_lt_upper_bound; nia]).
  rewrite (w32_id ((q - 1) / ss g)), cs_land by (auto; lia). pose proof (Z.mod_pos_bound ((q - 1) / ss g) (csize g) (proj1 Cp)) as Cm.
  rewrite w32_id by lia. set (dsc := database g + csize g * (c - 2) + ((q - 1) / ss g) mod csize g).
  assert (Ds : dsc = sector_of g l (q - 1)) by reflexivity.
  assert (Dq : q mod ss g <> 0 -> dsc = sector_of g l q).
  { intros X. rewrite Ds, !sector_secn by auto. f_equal. symmetry. apply (Z.div_unique _ _ _ (q mod ss g - 1)); pose proof (Z.div_mod q (ss g)); pose proof (Z.mod_pos_bound q (ss g)); lia. }
  set (f1 := set_start (set_pos f q (len d)) (sclust (set_pos f q (len d))) c).
  assert (C1 : cached g v l f1 d) by (apply cached_start; destruct d; apply (cached_at g v l f _ q _ _ H1)).
  change (fptr f1) with q. destruct (Z.eqb_spec (q mod ss g) 0) as [T|T]; cbn [negb andb].
  - eexists v, f1. split; [reflexivity|]. split; [now apply grown_refl|]. split; [now split|]. apply Fin; auto; tauto.
  - change (fsect f1) with (fsect f). destruct (Z.eqb_spec dsc (fsect f)) as [T2|T2]; cbn [negb].
    + eexists v, f1. split; [reflexivity|]. split; [now apply grown_refl|]. split; [now split|]. apply Fin; auto. intros X. rewrite <- Dq by auto. now symmetry.
    + destruct (back_ok g D cs i v f1 d G A R C1) as (v2 & E2 & W2 & C2 & _). rewrite E2. fold l in C2. pose proof (gw_ready _ _ _ _ _ _ _ W2) as R2.
      destruct (load_ok g D cs i v2 _ d (q - 1) G A R2 C2 eq_refl Pr) as (dd & b & E3 & E4 & C3). fold l in E3, C3. rewrite <- Ds in *. rewrite E3, E4. cbn [bind].
      eexists v2, _. split; [reflexivity|]. split; [auto|]. split; [now split|]. apply Fin; auto.
Qed.
