(* Writing. *)
From Coq Require Import ZifyClasses ZifyInst ZifyBool.
From Verif Require Import Base FatModel FatSpec FileModel FileSpec FatProof FatProof2 FatProof3 FatProof4 FatProof5 FatProof6 FileProof FileProof2 FileProof3 FileProof4.
Open Scope Z_scope.
Ltac Zify.zify_post_hook ::= idtac.

Definition mode (f f' : fil) : Prop := fread f' = fread f /\ fwrite f' = fwrite f.
Lemma mode_trans a b c : mode a b -> mode b c -> mode a c.
Proof. unfold mode. intuition congruence. Qed.

Lemma cached_file g v l f d d' : cached g v l f d -> same_file d d' -> cached g v l f d'.
Proof.
  intros C (E1 & E2 & E3). apply (cached_ext g v l f d); auto. intros p b X. rewrite E1. split; auto. rewrite <- E2. apply (ca_len _ _ _ _ _ C p b). now rewrite E1.
Qed.
Lemma file_ext g v l f d d' : file_ok g v l f d -> same_file d d' -> file_ok g v l f d'.
Proof.
  intros F E. pose proof E as (E1 & E2 & E3). destruct F as [H1 H2 H3 H4 H5 H6 H7 H8 H9].
  constructor; rewrite <- ?E2, <- ?E3; auto. now apply (cached_file g v l f d).
Qed.
Lemma file_modif g v l f d : file_ok g v l f d -> file_ok g v l (set_modif f) d.
Proof.
  intros [H1 H2 H3 H4 H5 H6 H7 H8 H9]. constructor; auto. apply (cached_ext g v l f d); auto. intros p b X. split; auto. now apply (ca_len _ _ _ _ _ H1 p b).
Qed.

Lemma file_quiet g D cs i v v' f d : geo_ok g -> data_ok g -> ready g D cs i v -> ready g D cs i v' -> same_outside g v v' ->
  file_ok g v (nth i cs []) f d -> file_ok g v' (nth i cs []) f d.
Proof. intros G A R R' So F. pose proof (fo_room _ _ _ _ _ F). destruct F. constructor; auto. now apply (cached_quiet g D cs i v v'). Qed.

Lemma pos_index g n p : geo_ok g -> data_ok g -> 0 <= p < Z.of_nat n * bcs g -> (Z.to_nat (p / bcs g) < n)%nat.
Proof.
  intros G A H. pose proof (bcs_pos g G A). assert (0 <= p / bcs g < Z.of_nat n); [|lia]. split; [apply Z.div_pos; lia|]. apply Z.div_lt_upper_bound; lia.
Qed.
Lemma index_pos g n p : geo_ok g -> data_ok g -> 0 <= p -> (Z.to_nat (p / bcs g) < n)%nat -> p < Z.of_nat n * bcs g.
Proof.
  intros G A P H. pose proof (bcs_pos g G A). assert (0 <= p / bcs g) by (apply Z.div_pos; lia). pose proof (Z.mul_succ_div_gt p (bcs g)). nia.
Qed.
Lemma exact_div b p : 0 < b -> p mod b = 0 -> 0 < p -> 0 < p / b /\ (p - 1) / b = p / b - 1 /\ p = b * (p / b).
Proof.
  intros B M P. pose proof (Z.div_mod p b). split; [nia|]. split; [|lia]. symmetry. apply (Z.div_unique _ _ _ (b - 1)); lia.
Qed.

(* The cluster to write to. *)
Lemma cluster_write g D cs i v f d : geo_ok g -> data_ok g -> ready g D cs i v -> let l := nth i cs [] in file_ok g v l f d ->
  pos d mod ss g = 0 ->
  exists v' f' o cs', (if Z.land (fptr f / ss g) (csize g - 1) =? 0 then write_cluster (Z.to_nat (n_fatent g)) g v f else Ok (v, f, Through)) = Ok (v', f', o) /\
    grown g D i v cs v' cs' /\ mode f f' /\ fbuf f' = fbuf f /\
    (o = Break /\ f' = f /\ cs' = cs /\ none_free g v' /\ file_ok g v' l f' d \/
     o = Through /\ found g v' (nth i cs' []) f' d).
Proof.
  intros G A R l F M. pose proof F as [H1 H2 H3 H4 H5 H6 H7 H8 H9]. pose proof (ss_pos g G) as Sp. pose proof (bcs_pos g G A) as Bp.
  pose proof (rd_idx _ _ _ _ _ R) as I.
  rewrite H2, cs_land by (auto; apply Z.div_pos; lia). pose proof (boundary g (pos d) G A ltac:(lia) M) as Bd.
  destruct (own_chain g v cs i (rd_own _ _ _ _ _ R) I) as (Ch & _ & _). fold l in Ch. pose proof (ent_small g G) as (N1 & _).
  destruct (Z.eqb_spec ((pos d / ss g) mod csize g) 0) as [Z0|Z0].
  - apply Bd in Z0. unfold write_cluster. rewrite H2.
    assert (Step : forall c0 k, (k <= length l)%nat -> (k = 0%nat -> l = []) -> c0 = match k with O => 0 | S j => nth j l 0 end -> k = Z.to_nat (pos d / bcs g) ->
      exists v' f' o cs', ('(v, c) <- create_chain (Z.to_nat (n_fatent g)) g v c0 ;;
         if c =? 0 then Ok (v, f, Break) else if c =? 1 then Ok (v, f, Fail FR_INT_ERR) else if c =? ERR then Ok (v, f, Fail FR_DISK_ERR)
         else Ok (v, set_start f (if sclust f =? 0 then c else sclust f) c, Through)) = Ok (v', f', o) /\
        grown g D i v cs v' cs' /\ mode f f' /\ fbuf f' = fbuf f /\
        (o = Break /\ f' = f /\ cs' = cs /\ none_free g v' /\ file_ok g v' l f' d \/ o = Through /\ found g v' (nth i cs' []) f' d)).
    { intros c0 k K1 K2 -> K3. destruct (chain_step g D cs i v k G A R K1 K2) as (v' & x & E & So & H). fold l in E, H. rewrite E. cbn [bind].
      destruct H as [(-> & Kl & Nf & W)|(m & Km & Ks & Kx & Xr & W)].
      - exists v', f, Break, cs. split; [auto|]. split; [auto|]. split; [now split|]. split; [auto|]. left. split; [auto|]. split; [auto|]. split; [auto|]. split; [auto|].
        apply (file_quiet g D cs i v v'); auto. apply W.
      - unfold ERR. replace (x =? 0) with false by (clear - Xr; lia). replace (x =? 1) with false by (clear - Xr; lia). replace (x =? 4294967295) with false by (clear - Xr N1; lia).
        eexists v', _, Through, (edit cs i (l ++ m)). split; [reflexivity|]. split; [auto|]. split; [now split|]. split; [auto|]. right. split; [auto|].
        rewrite edit_at by auto. constructor; cbn; auto.
        + apply cached_start. apply (cached_moved g D cs i v v' m f d G A R); auto. apply W.
        + rewrite app_length. clear - H5 Bp. nia.
        + apply index_pos; auto; [lia|]. now rewrite <- K3.
        + destruct l as [|a l0].
          * rewrite H6. cbn. assert (k = 0%nat) as -> by (cbn in K1; lia). destruct m; [cbn in Km; lia|]. now rewrite Kx.
          * cbn in H6 |- *. rewrite H6. destruct Ch as (Ca & _). now replace (a =? 0) with false by (clear - Ca; lia).
        + now rewrite <- K3. }
    destruct (Z.eqb_spec (pos d) 0) as [Q|Q].
    + assert (K3 : 0%nat = Z.to_nat (pos d / bcs g)) by (rewrite Q, Z.div_0_l by lia; auto).
      destruct (Z.eqb_spec (sclust f) 0) as [S0|S0].
      * apply (Step 0 0%nat); auto; [lia|]. intros _. rewrite H6 in S0. destruct l as [|a l0]; [auto|]. destruct Ch as (Ca & _). cbn in S0. lia.
      * cbn [bind]. destruct l as [|a l0] eqn:El; [cbn in H6; congruence|]. cbn in H6. destruct Ch as (Ca & _). rewrite H6. unfold ERR.
        replace (a =? 0) with false by (clear - Ca; lia). replace (a =? 1) with false by (clear - Ca; lia). replace (a =? 4294967295) with false by (clear - Ca N1; lia).
        eexists v, _, Through, cs. split; [reflexivity|]. split; [now apply grown_refl|]. split; [now split|]. split; [auto|]. right. split; [auto|].
        fold l. rewrite El. constructor; cbn [set_start fptr objsize sclust clust ferr]; auto; try apply F.
        -- now apply cached_start.
        -- rewrite Q. cbn [length]. clear - Bp. lia.
        -- rewrite <- K3. reflexivity.
    + destruct (exact_div (bcs g) (pos d) Bp Z0 ltac:(lia)) as (D1 & D2 & D3).
      assert (Kl : (Z.to_nat (pos d / bcs g) <= length l)%nat).
      { assert (pos d / bcs g <= Z.of_nat (length l)); [|lia]. apply (Zmult_le_reg_r _ _ (bcs g)); lia. }
      apply (Step (clust f) (Z.to_nat (pos d / bcs g))); auto; [lia|].
      rewrite H7, D2 by lia. replace (Z.to_nat (pos d / bcs g)) with (S (Z.to_nat (pos d / bcs g - 1))) by lia. reflexivity.
  - exists v, f, Through, cs. split; [auto|]. split; [now apply grown_refl|]. split; [now split|]. split; [auto|]. right. split; [auto|]. fold l.
    assert (M2 : pos d mod bcs g <> 0) by tauto. constructor; auto.
    + destruct (Z.eq_dec (pos d) (Z.of_nat (length l) * bcs g)) as [E|E]; [|lia]. rewrite E, Z.mod_mul in M2; lia.
    + rewrite H7, prev_div; auto. destruct (Z.eq_dec (pos d) 0) as [E|E]; [|lia]. rewrite E in M2. now rewrite Z.mod_0_l in M2 by lia.
Qed.

(* The content after sectors have been written at once; the buffer is not dirty. *)
Lemma direct_write g D cs i v v' f f' d w cc dbuf : geo_ok g -> data_ok g -> ready g D cs i v -> let l := nth i cs [] in cached g v l f d -> fdirty f = false ->
  0 <= pos d < Z.of_nat (length l) * bcs g -> pos d mod ss g = 0 -> 0 < cc -> (pos d / ss g) mod csize g + cc <= csize g ->
  len d <= Z.of_nat (length l) * bcs g -> (forall k, 0 <= k < ss g * cc -> dbuf k = w k) ->
  (forall s' o, 0 <= o < ss g -> disk v' s' o = if (sector_of g l (pos d) <=? s') && (s' <? sector_of g l (pos d) + cc) then dbuf ((s' - sector_of g l (pos d)) * ss g + o) else disk v s' o) ->
  fsect f' = fsect f -> fdirty f' = false -> (forall o, vbyte (fbuf f' o)) ->
  (sector_of g l (pos d) <= fsect f < sector_of g l (pos d) + cc -> forall o, 0 <= o < ss g -> fbuf f' o = w ((fsect f - sector_of g l (pos d)) * ss g + o)) ->
  (~ (sector_of g l (pos d) <= fsect f < sector_of g l (pos d) + cc) -> fbuf f' = fbuf f) ->
  cached g v' l f' (written d (ss g * cc) w).
Proof.
  intros G A R l [H1 H0 H2 H3 H4 H5] Fd P Pm C1 C2 L Db Dk F1 F2 F3 F4 F5. pose proof (ss_pos g G) as Sp.
  destruct (own_chain g v cs i (rd_own _ _ _ _ _ R) (rd_idx _ _ _ _ _ R)) as (_ & Nd & _). fold l in Nd.
  assert (In_ : forall p, pos d <= p < pos d + ss g * cc -> let j := p - pos d in
            sector_of g l p = sector_of g l (pos d) + j / ss g /\ p mod ss g = j mod ss g /\ 0 <= j / ss g < cc /\ 0 <= j mod ss g < ss g /\ j = j / ss g * ss g + j mod ss g).
  { intros p Hp j. assert (J : 0 <= j < ss g * cc) by (unfold j; lia). destruct (direct_in g l (pos d) cc G A P Pm C1 C2 j J) as [E1 E2].
    replace (pos d + j) with p in * by (unfold j; lia). split; [auto|]. split; [auto|]. split; [|split].
    - clear - J Sp. split; [apply Z.div_pos; lia|apply Z.div_lt_upper_bound; lia].
    - clear - Sp. apply Z.mod_pos_bound. lia.
    - clear - Sp. rewrite (Z.div_mod j (ss g)) at 1 by lia. lia. }
  assert (Out : forall p, 0 <= p < Z.of_nat (length l) * bcs g -> ~ (pos d <= p < pos d + ss g * cc) -> ~ (sector_of g l (pos d) <= sector_of g l p < sector_of g l (pos d) + cc)).
  { intros p Hp Hq X. apply Hq. now apply (direct_out g l (pos d) cc G A Nd P Pm C1 C2). }
  assert (Mp : forall p, 0 <= p mod ss g < ss g) by (intros; apply Z.mod_pos_bound; lia).
  assert (Xt : forall p, (pos d <=? p) && (p <? pos d + ss g * cc) = true -> pos d <= p < pos d + ss g * cc) by (clear; intros; lia).
  assert (Xf : forall p, (pos d <=? p) && (p <? pos d + ss g * cc) = false -> ~ (pos d <= p < pos d + ss g * cc)) by (clear; intros; lia).
  assert (Room : forall p b, data d p = Some b -> 0 <= p < Z.of_nat (length l) * bcs g) by (intros p b Y; apply H3 in Y; clear - Y L; lia).
  clear R Nd C2.
  constructor; cbn [written data len pos].
  - auto.
  - now rewrite F1.
  - rewrite F2. discriminate.
  - intros p b. unfold overwritten. destruct ((pos d <=? p) && (p <? pos d + ss g * cc)) eqn:X; intros Y; [clear - P X; lia|]. apply H3 in Y. clear - Y; lia.
  - intros p b. unfold overwritten. destruct ((pos d <=? p) && (p <? pos d + ss g * cc)) eqn:X; intros Y _.
    + destruct (In_ p (Xt p X)) as (E1 & E2 & E3 & E4 & E5). set (j := p - pos d) in *. rewrite E1, E2, Dk by auto.
      replace ((sector_of g l (pos d) <=? sector_of g l (pos d) + j / ss g) && (sector_of g l (pos d) + j / ss g <? sector_of g l (pos d) + cc)) with true by (clear - E3; lia).
      replace ((sector_of g l (pos d) + j / ss g - sector_of g l (pos d)) * ss g + j mod ss g) with j by (rewrite E5 at 1; f_equal; f_equal; clear; lia).
      rewrite Db by (clear - X; unfold j; lia). now injection Y.
    + rewrite Dk by auto. pose proof (Out p (Room p b Y) (Xf p X)) as O1.
      replace ((sector_of g l (pos d) <=? sector_of g l p) && (sector_of g l p <? sector_of g l (pos d) + cc)) with false by (clear - O1; lia). apply H4; auto.
  - intros p b. unfold overwritten. rewrite F1. destruct ((pos d <=? p) && (p <? pos d + ss g * cc)) eqn:X; intros Y Z.
    + destruct (In_ p (Xt p X)) as (E1 & E2 & E3 & E4 & E5). set (j := p - pos d) in *. rewrite E2. rewrite F4 by (auto; clear - E1 E3 Z; lia).
      replace ((fsect f - sector_of g l (pos d)) * ss g + j mod ss g) with j by (rewrite E5 at 1; f_equal; f_equal; clear - Z E1; lia). now injection Y.
    + rewrite F5; [now apply H5|]. rewrite Z. apply Out; [apply (Room p b Y)|apply (Xf p X)].
Qed.

Definition bounds_w (d : ifile) (wb : Z -> Z) (bl wpos btw : Z) : Prop :=
  0 <= wpos /\ wpos + btw <= bl /\ pos d + btw < 4294967296 /\ forall k, vbyte (wb k).

Lemma cached_buf_id g v l f d : cached g v l f d -> cached g v l (set_buf f (fsect f) (fbuf f) (fdirty f)) d.
Proof. intros C. now destruct f. Qed.

Lemma run_end g D cs i v cc p : geo_ok g -> data_ok g -> ready g D cs i v -> let l := nth i cs [] in 0 <= p < Z.of_nat (length l) * bcs g -> p mod ss g = 0 ->
  0 < cc -> (p / ss g) mod csize g + cc <= csize g ->
  exists c, In c l /\ database g + csize g * (c - 2) <= sector_of g l p /\ sector_of g l p + cc <= database g + csize g * (c - 1) /\ sector_of g l p + cc <= dsize g /\
            p + ss g * cc <= Z.of_nat (length l) * bcs g.
Proof.
  intros G A R l P Pm C1 C2. pose proof (cs_pos g A) as Cp. pose proof (ss_pos g G) as Sp. pose proof (bcs_pos g G A) as Bp.
  pose proof (q_room g (length l) _ G P) as Q. destruct (secn_cluster g l _ A Q) as [I _]. rewrite <- div_bcs in I by auto.
  destruct (own_chain g v cs i (rd_own _ _ _ _ _ R) (rd_idx _ _ _ _ _ R)) as (Ch & _ & _). destruct (chain_in _ _ _ _ Ch I) as [Cr _].
  destruct (clst_sect g _ G A Cr) as (_ & D1 & D2). exists (nth (Z.to_nat (p / bcs g)) l 0). split; [auto|]. unfold sector_of.
  set (c := nth (Z.to_nat (p / bcs g)) l 0) in *. pose proof (Z.mod_pos_bound (p / ss g) (csize g) (proj1 Cp)) as Cm.
  assert (E : csize g * (c - 1) = csize g * (c - 2) + csize g) by ring.
  destruct (mod_bcs2 g p cc G A (proj1 P) Pm C1 C2) as [Q1 _].
  split; [clear - Cm; lia|]. split; [clear - Cm C2 E; lia|]. split; [clear - Cm C2 E D2; lia|].
  pose proof (pos_index g (length l) p G A P) as Pi. rewrite <- Q1 in Pi. apply index_pos in Pi; auto; [clear - Pi; lia|].
  assert (0 < ss g * cc) by (apply Z.mul_pos_pos; lia). clear - P H. lia.
Qed.

Lemma write_boundary_ok g D cs i v f d wb bl wpos btw : geo_ok g -> data_ok g -> ready g D cs i v -> let l := nth i cs [] in file_ok g v l f d ->
  pos d mod ss g = 0 -> 0 < btw -> bounds_w d wb bl wpos btw ->
  exists v' f' o cs', write_boundary (Z.to_nat (n_fatent g)) g v f wb bl wpos btw = Ok (v', f', o) /\ grown g D i v cs v' cs' /\ mode f f' /\
    (o = Break /\ none_free g v' /\ file_ok g v' (nth i cs' []) f' d \/
     o = Through /\ found g v' (nth i cs' []) f' d /\ fsect f' = sector_of g (nth i cs' []) (pos d) \/
     exists cc, o = Direct (ss g * cc) /\ 0 < cc /\ ss g * cc <= btw /\
       file_ok g v' (nth i cs' []) (advance f' (ss g * cc)) (written d (ss g * cc) (fun k => wb (wpos + k)))).
Proof.
  intros G A R l F M B1 (B2 & B3 & B4 & B5). unfold write_boundary. pose proof (rd_idx _ _ _ _ _ R) as I.
  destruct (cluster_write g D cs i v f d G A R F M) as (v1 & f1 & o1 & cs1 & E1 & W1 & M1 & Hb & H). rewrite E1. cbn [bind].
  destruct H as [(-> & -> & -> & Nf & F1)|(-> & F1)].
  { exists v1, f, Break, cs. split; [auto|]. split; [auto|]. split; [auto|]. left. auto. }
  pose proof (gw_ready _ _ _ _ _ _ _ W1) as R1. pose proof (rd_idx _ _ _ _ _ R1) as I1. set (l1 := nth i cs1 []) in *.
  destruct (back_ok g D cs1 i v1 f1 d G A R1 (fd_cache _ _ _ _ _ F1)) as (v2 & E2 & W2 & C2 & _). fold l1 in C2. rewrite E2.
  set (f2 := set_buf f1 (fsect f1) (fbuf f1) false) in *. pose proof (gw_ready _ _ _ _ _ _ _ W2) as R2.
  assert (F2 : found g v2 l1 f2 d) by (destruct F1; constructor; auto).
  assert (M2 : mode f f2) by (apply (mode_trans _ f1); [auto|now split]). assert (W12 : grown g D i v cs v2 cs1) by now apply (grown_trans g D i v cs v1 cs1 v2 cs1).
  assert (Fd : fdirty f2 = false) by reflexivity.
  destruct (sect_of_cluster g D cs1 i v2 f2 d G A R2 F2) as [S0 S1]. fold l1 in S1. rewrite S0.
  assert (Fp : fptr f = fptr f2) by (rewrite (fo_pos _ _ _ _ _ F), (fd_pos _ _ _ _ _ F2); auto). rewrite Fp, S1.
  clearbody f2. clear E1 E2 S0 S1 C2 F1 R1 W1 W2 M1 Hb Fp f1 v1.
  pose proof (ss_pos g G) as Sp. pose proof (cs_pos g A) as Cp. pose proof (ss_max g G) as Sm.
  pose proof (fd_range _ _ _ _ _ F2) as Rg. pose proof (fd_in _ _ _ _ _ F2) as In_. assert (P : 0 <= pos d < Z.of_nat (length l1) * bcs g) by (clear - Rg In_; lia).
  pose proof (sector_range g D cs1 i v2 (pos d) G A R2 P) as Sr. fold l1 in Sr. pose proof (ok_dsize g G) as Sd.
  rewrite (fd_pos _ _ _ _ _ F2), cs_land by (auto; apply Z.div_pos; lia).
  pose proof (Z.mod_pos_bound (pos d / ss g) (csize g) (proj1 Cp)) as Cm. pose proof (fd_cache _ _ _ _ _ F2) as Ca.
  destruct (Z.ltb_spec 0 (btw / ss g)) as [Cc|Cc].
  - set (cc := if csize g <? (pos d / ss g) mod csize g + btw / ss g then csize g - (pos d / ss g) mod csize g else btw / ss g).
    assert (K1 : 0 < cc) by (unfold cc; destruct (Z.ltb_spec (csize g) ((pos d / ss g) mod csize g + btw / ss g)); lia).
    assert (K2 : (pos d / ss g) mod csize g + cc <= csize g) by (unfold cc; destruct (Z.ltb_spec (csize g) ((pos d / ss g) mod csize g + btw / ss g)); lia).
    assert (K3 : ss g * cc <= btw).
    { assert (cc <= btw / ss g) by (unfold cc; destruct (Z.ltb_spec (csize g) ((pos d / ss g) mod csize g + btw / ss g)); lia). apply mul_le; [lia|auto]. }
    clearbody cc. assert (K4 : 0 < ss g * cc) by (apply Z.mul_pos_pos; lia).
    unfold memcpy at 1. replace ((0 <=? 0) && (0 + ss g * cc <=? ss g * cc) && (0 <=? wpos) && (wpos + ss g * cc <=? bl)) with true by (clear - B2 B3 K3; lia). cbn [bind].
    set (dbuf := fun k => if (0 <=? k) && (k <? 0 + ss g * cc) then wb (wpos + (k - 0)) else 0).
    destruct (run_end g D cs1 i v2 cc (pos d) G A R2 P M K1 K2) as (c & Hc & Q1 & Q2 & Q3 & Q4). fold l1 in Hc, Q1, Q2, Q3, Q4.
    destruct (write_ready g D cs1 i v2 dbuf (sector_of g l1 (pos d)) cc c G A R2 Hc) as (v3 & E3 & R3 & Kp & EE & Wn & Dk); auto.
    { clear - K1. lia. }
    { intros k Hk. unfold dbuf. replace ((0 <=? k) && (k <? 0 + ss g * cc)) with true by (clear - Hk; lia). apply B5. }
    rewrite E3. assert (W3 : grown g D i v cs v3 cs1).
    { apply (grown_trans g D i v cs v2 cs1 v3 cs1); auto. apply grown_quiet; auto. }
    assert (I0 : sector_of g l1 (pos d) + cc <= 4294967296) by (clear - Q3 Sd; lia).
    pose proof (in_run (fsect f2) (sector_of g l1 (pos d)) cc (ca_sect _ _ _ _ _ Ca) ltac:(clear - Sr; lia) I0) as [Ri Ro].
    assert (Fin : forall f3, cached g v3 l1 f3 (written d (ss g * cc) (fun k => wb (wpos + k))) -> fptr f3 = fptr f2 -> objsize f3 = objsize f2 -> sclust f3 = sclust f2 -> clust f3 = clust f2 -> ferr f3 = ferr f2 ->
                  file_ok g v3 l1 (advance f3 (ss g * cc)) (written d (ss g * cc) (fun k => wb (wpos + k)))).
    { intros f3 C3 X1 X2 X3 X4 X5. destruct (mod_bcs2 g (pos d) cc G A (proj1 P) M K1 K2) as [Y1 Y2].
      assert (F2' : found g v2 l1 f2 d) by auto. destruct F2' as [H1 H2 H3 H4 H5 H6 H7 H8 H9].
      constructor; cbn [advance set_pos fptr objsize sclust clust ferr fsect written data len pos]; rewrite ?X1, ?X2, ?X3, ?X4, ?X5, ?H2, ?H3; auto.
      - unfold advance. eapply cached_ext; eauto. intros p b X. split; auto. now apply (ca_len _ _ _ _ _ C3 p b).
      - destruct (Z.ltb_spec (len d) (pos d + ss g * cc)); clear - H; lia.
      - clear - Rg K3 K4 B4. lia.
      - clear - H5 Q4. lia.
      - intros _. rewrite H8, Y1. auto.
      - now intros []. }
    destruct (w32 (fsect f2 - sector_of g l1 (pos d)) <? cc) eqn:T.
    + destruct (Ri eq_refl) as [Rn Rw]. clear Ri Ro. rewrite Rw. set (a := fsect f2 - sector_of g l1 (pos d)) in *.
      assert (Ha : 0 <= a < cc) by (clear - Rn; unfold a; lia). pose proof (part_in (ss g) cc a ltac:(clear - Sp; lia) Ha) as Pi. unfold memcpy.
      replace ((0 <=? 0) && (0 + ss g <=? MAXSS) && (0 <=? wpos + a * ss g) && (wpos + a * ss g + ss g <=? bl)) with true by (clear - Pi K3 B2 B3 Sm Sp; lia). cbn [bind].
      eexists v3, _, _, cs1. split; [reflexivity|]. split; [auto|]. split; [apply (mode_trans _ f2); [auto|now split]|]. right. right. exists cc. split; [auto|]. split; [auto|]. split; [auto|].
      apply Fin; try reflexivity. apply (direct_write g D cs1 i v2 v3 f2 _ d _ cc dbuf G A R2 Ca Fd P M K1 K2); auto.
      * apply F2.
      * intros k Hk. unfold dbuf. replace ((0 <=? k) && (k <? 0 + ss g * cc)) with true by (clear - Hk; lia). f_equal. clear; lia.
      * intros o. cbn. destruct ((0 <=? o) && (o <? 0 + ss g)); [apply B5|apply Ca].
      * intros _ o Ho. cbn [set_buf fbuf]. replace ((0 <=? o) && (o <? 0 + ss g)) with true by (clear - Ho; lia). f_equal. fold l1. fold a. clear; lia.
      * intros X. now destruct X.
    + pose proof (Ro eq_refl) as Rn. clear Ri Ro. cbn [bind].
      eexists v3, _, _, cs1. split; [reflexivity|]. split; [auto|]. split; [auto|]. right. right. exists cc. split; [auto|]. split; [auto|]. split; [auto|].
      apply Fin; try reflexivity. apply (direct_write g D cs1 i v2 v3 f2 _ d _ cc dbuf G A R2 Ca Fd P M K1 K2); auto.
      * apply F2.
      * intros k Hk. unfold dbuf. replace ((0 <=? k) && (k <? 0 + ss g * cc)) with true by (clear - Hk; lia). f_equal. clear; lia.
      * apply Ca.
      * intros X. now destruct Rn.
  - destruct (negb (fsect f2 =? sector_of g l1 (pos d)) && (pos d <? objsize f2)) eqn:T.
    + destruct (load_ok g D cs1 i v2 f2 d (pos d) G A R2 Ca Fd P) as (dd & b & E3 & E4 & C3). fold l1 in E3, C3. rewrite E3, E4. cbn [bind].
      eexists v2, _, Through, cs1. split; [reflexivity|]. split; [auto|]. split; [apply (mode_trans _ f2); [auto|now split]|]. right. left. split; [auto|]. split; [|auto].
      destruct F2. constructor; auto.
    + eexists v2, _, Through, cs1. split; [reflexivity|]. split; [auto|]. split; [apply (mode_trans _ f2); [auto|now split]|]. right. left. split; [auto|]. split; [|auto].
      assert (C3 : cached g v2 l1 (set_buf f2 (sector_of g l1 (pos d)) (fbuf f2) (fdirty f2)) d).
      { apply (empty_ok g D cs1 i v2 f2 d (pos d) G A R2 Ca Fd P M). rewrite (fd_len _ _ _ _ _ F2) in T. fold l1. clear - T. lia. }
      destruct F2. constructor; auto.
Qed.

Lemma written_more d n m w : 0 <= n -> 0 <= m -> same_file (written (written d n w) m (fun k => w (n + k))) (written d (n + m) w).
Proof.
  intros N M. split; [|cbn; lia]. intros p. cbn. unfold overwritten.
  destruct ((pos d + n <=? p) && (p <? pos d + n + m)) eqn:X.
  - replace ((pos d <=? p) && (p <? pos d + (n + m))) with true by lia. f_equal. f_equal. lia.
  - destruct ((pos d <=? p) && (p <? pos d + n)) eqn:Y.
    + now replace ((pos d <=? p) && (p <? pos d + (n + m))) with true by lia.
    + now replace ((pos d <=? p) && (p <? pos d + (n + m))) with false by lia.
Qed.
Lemma written_ext d n w w' : (forall k, 0 <= k < n -> w k = w' k) -> same_file (written d n w) (written d n w').
Proof.
  intros H. split; [|cbn; lia]. intros p. cbn. unfold overwritten. destruct ((pos d <=? p) && (p <? pos d + n)) eqn:X; auto. f_equal. apply H. lia.
Qed.
Lemma written_none d w : same_file d (written d 0 w) \/ len d < pos d.
Proof.
  destruct (Z_lt_dec (len d) (pos d)) as [H|H]; [auto|]. left. split; [|cbn; lia]. intros p. cbn. unfold overwritten.
  now replace ((pos d <=? p) && (p <? pos d + 0)) with false by lia.
Qed.
Lemma same_trans3 a b c : same_file a b -> same_file b c -> same_file a c.
Proof. intros (A1 & A2 & A3) (B1 & B2 & B3). split; [intros; now rewrite A1|]. split; congruence. Qed.

Lemma write_loop_ok g D i bl wb fuel : forall v cs f d wpos btw, geo_ok g -> data_ok g -> ready g D cs i v -> file_ok g v (nth i cs []) f d ->
  0 <= btw -> bounds_w d wb bl wpos btw -> btw < Z.of_nat fuel ->
  exists v' f' cs' k, write_loop fuel g v f wb bl wpos btw = Ok (v', f', wpos + k, FR_OK) /\ 0 <= k <= btw /\ (k = btw \/ none_free g v') /\
    grown g D i v cs v' cs' /\ mode f f' /\ file_ok g v' (nth i cs' []) f' (written d k (fun j => wb (wpos + j))).
Proof.
  induction fuel as [|fuel IH]; intros v cs f d wpos btw G A R F B0 B Fu; [lia|]. cbn [write_loop].
  pose proof (rd_idx _ _ _ _ _ R) as I. pose proof (ss_pos g G) as Sp. pose proof (ss_max g G) as Sm. pose proof (fo_range _ _ _ _ _ F) as Rg.
  assert (Stop : forall v1 f1 cs1, grown g D i v cs v1 cs1 -> mode f f1 -> file_ok g v1 (nth i cs1 []) f1 d -> btw = 0 \/ none_free g v1 ->
      exists v' f' cs' k, Ok (v1, set_modif f1, wpos, FR_OK) = Ok (v', f', wpos + k, FR_OK) /\ 0 <= k <= btw /\ (k = btw \/ none_free g v') /\
        grown g D i v cs v' cs' /\ mode f f' /\ file_ok g v' (nth i cs' []) f' (written d k (fun j => wb (wpos + j)))).
  { intros v1 f1 cs1 W1 M1 F1 H. exists v1, (set_modif f1), cs1, 0. rewrite Z.add_0_r. split; [auto|]. split; [lia|]. split; [clear - H; intuition lia|]. split; [auto|].
    split; [apply (mode_trans _ f1); [auto|now split]|]. apply file_modif. apply (file_ext g v1 _ f1 d _ F1).
    destruct (written_none d (fun j => wb (wpos + j))) as [X|X]; [auto|lia]. }
  destruct (Z.leb_spec btw 0) as [Z0|Z0].
  - apply (Stop v f cs); auto; [now apply grown_refl|now split|lia].
  - assert (Go : forall v1 f1 cs1 n, grown g D i v cs v1 cs1 -> mode f f1 -> 0 < n <= btw -> file_ok g v1 (nth i cs1 []) (advance f1 n) (written d n (fun k => wb (wpos + k))) ->
      exists v' f' cs' k, write_loop fuel g v1 (advance f1 n) wb bl (wpos + n) (btw - n) = Ok (v', f', wpos + k, FR_OK) /\ 0 <= k <= btw /\ (k = btw \/ none_free g v') /\
        grown g D i v cs v' cs' /\ mode f f' /\ file_ok g v' (nth i cs' []) f' (written d k (fun j => wb (wpos + j)))).
    { intros v1 f1 cs1 n W1 M1 Hn F1. destruct B as (B1 & B2 & B3 & B4).
      destruct (IH v1 cs1 (advance f1 n) (written d n (fun k => wb (wpos + k))) (wpos + n) (btw - n) G A (gw_ready _ _ _ _ _ _ _ W1) F1) as (v' & f' & cs' & k & E & K & Kf & W' & M' & F').
      { clear - Hn. lia. }
      { unfold bounds_w. cbn [written pos]. clear - Hn B1 B2 B3 B4. repeat split; try lia; apply B4. }
      { clear - Hn Fu. lia. }
      exists v', f', cs', (n + k). rewrite Z.add_assoc. split; [auto|]. split; [clear - Hn K; lia|]. split; [clear - Kf; intuition lia|].
      split; [now apply (grown_trans g D i v cs v1 cs1 v' cs')|]. split; [apply (mode_trans _ f1); [auto|]; apply (mode_trans _ (advance f1 n)); [now split|auto]|].
      apply (file_ext _ _ _ _ _ _ F'). eapply same_trans3; [|apply (written_more d n k (fun j => wb (wpos + j))); lia].
      apply written_ext. intros j Hj. f_equal. lia. }
    assert (Last : forall v1 f1 cs1, grown g D i v cs v1 cs1 -> mode f f1 -> found g v1 (nth i cs1 []) f1 d -> fsect f1 = sector_of g (nth i cs1 []) (pos d) ->
      let n := if btw <? ss g - fptr f1 mod ss g then btw else ss g - fptr f1 mod ss g in
      exists v' f' cs' k, (b <- memcpy (fbuf f1) MAXSS (fptr f1 mod ss g) wb bl wpos n ;;
          write_loop fuel g v1 (advance (set_buf f1 (fsect f1) b true) n) wb bl (wpos + n) (btw - n)) = Ok (v', f', wpos + k, FR_OK) /\ 0 <= k <= btw /\ (k = btw \/ none_free g v') /\
        grown g D i v cs v' cs' /\ mode f f' /\ file_ok g v' (nth i cs' []) f' (written d k (fun j => wb (wpos + j)))).
    { intros v1 f1 cs1 W1 M1 F1 S1 n. pose proof (fd_pos _ _ _ _ _ F1) as P1. pose proof (Z.mod_pos_bound (pos d) (ss g) ltac:(clear - Sp; lia)) as Pm.
      assert (Hn : 0 < n <= btw /\ n <= ss g - pos d mod ss g) by (clear - Pm Z0 P1; unfold n; rewrite P1; destruct (Z.ltb_spec btw (ss g - pos d mod ss g)); lia). clearbody n.
      replace (fptr f1 mod ss g) with (pos d mod ss g) by congruence. pose proof B as (B1 & B2 & B3 & B4).
      unfold memcpy. replace ((0 <=? pos d mod ss g) && (pos d mod ss g + n <=? MAXSS) && (0 <=? wpos) && (wpos + n <=? bl)) with true by (clear - Hn Pm Sm B1 B2; lia). cbn [bind].
      destruct (in_sector g (pos d) n G A (proj1 (proj1 Rg)) ltac:(clear - Hn; lia)) as [Q1 Q2].
      pose proof (gw_ready _ _ _ _ _ _ _ W1) as R1. set (l1 := nth i cs1 []) in *. pose proof (fd_in _ _ _ _ _ F1) as In_. pose proof (fd_room _ _ _ _ _ F1) as Rm. fold l1 in Rm, In_.
      assert (P : 0 <= pos d < Z.of_nat (length l1) * bcs g) by (clear - In_ Rg; lia).
      pose proof (poke_ok g D cs1 i v1 f1 d n (fun j => wb (wpos + j)) G A R1 (fd_cache _ _ _ _ _ F1) P Rm S1 ltac:(clear - Hn; lia) ltac:(intros; apply B4)) as C3.
      fold l1 in C3.
      assert (Lp : pos d + n <= Z.of_nat (length l1) * bcs g).
      { pose proof (pos_index g (length l1) (pos d) G A P) as Pi. rewrite <- Q1 in Pi. apply index_pos in Pi; auto; clear - Pi Hn Rg; lia. }
      apply (Go v1 _ cs1); [auto|apply (mode_trans _ f1); [auto|now split]|clear - Hn; lia|].
      apply (found_file g v1 l1 f1 d _ _ n G A F1); cbn [written advance set_buf set_pos fptr objsize sclust clust ferr fsect data len pos].
      - clear - Hn. lia.
      - exact Q1.
      - unfold advance. eapply cached_ext; eauto. intros p b X. split; auto. now apply (ca_len _ _ _ _ _ C3 p b).
      - now rewrite P1.
      - reflexivity.
      - rewrite P1, (fd_len _ _ _ _ _ F1). destruct (Z.ltb_spec (len d) (pos d + n)); clear - H; lia.
      - clear - Hn B3 Rg. lia.
      - clear - Lp Rm. lia.
      - reflexivity.
      - reflexivity.
      - apply F1.
      - intros X. rewrite S1, !sector_secn, Q2 by auto. auto. }
    destruct (Z.eqb_spec (fptr f mod ss g) 0) as [T|T]; rewrite (fo_pos _ _ _ _ _ F) in T.
    + destruct (write_boundary_ok g D cs i v f d wb bl wpos btw G A R F T Z0 B) as (v1 & f1 & o & cs1 & E & W1 & M1 & H).
      rewrite E. cbn [bind]. destruct H as [(-> & Nf & F1)|[(-> & F1 & S1)|(cc & -> & K1 & K2 & F1)]].
      * apply (Stop v1 f1 cs1); auto.
      * now apply (Last v1 f1 cs1).
      * apply (Go v1 f1 cs1); auto. split; [apply Z.mul_pos_pos; lia|auto].
    + cbn [bind]. destruct (file_found g v _ f d G A F T) as [F1 S1]. apply (Last v f cs); auto; [now apply grown_refl|now split].
Qed.

Lemma f_write_ok g D cs i v f d wb bl n fuel : geo_ok g -> data_ok g -> ready g D cs i v -> file_ok g v (nth i cs []) f d ->
  fwrite f = true -> 0 <= n < 4294967296 -> n <= bl -> (forall k, vbyte (wb k)) -> n < Z.of_nat fuel ->
  exists v' f' cs' k, f_write fuel g v f wb bl n = Ok (v', f', k, FR_OK) /\ 0 <= k <= Z.min n (4294967295 - pos d) /\
    (k = Z.min n (4294967295 - pos d) \/ none_free g v') /\
    grown g D i v cs v' cs' /\ mode f f' /\ file_ok g v' (nth i cs' []) f' (written d k wb).
Proof.
  intros G A R F Fw N1 N2 B Fu. unfold f_write. rewrite (fo_err _ _ _ _ _ F), Fw, (fo_pos _ _ _ _ _ F). pose proof (fo_range _ _ _ _ _ F) as Rg.
  set (k0 := if w32 (pos d + n) <? w32 (pos d) then 4294967295 - w32 (pos d) else n).
  assert (K0 : k0 = Z.min n (4294967295 - pos d)).
  { unfold k0. clear - Rg N1. rewrite (w32_id (pos d)) by lia. unfold w32. destruct (Z.ltb_spec ((pos d + n) mod 4294967296) (pos d)); Z.div_mod_to_equations; lia. }
  clearbody k0. destruct (write_loop_ok g D i bl wb fuel v cs f d 0 k0 G A R F) as (v' & f' & cs' & k & E & H).
  { lia. }
  { unfold bounds_w. repeat split; try lia; apply B. }
  { lia. }
  rewrite Z.add_0_l in E. exists v', f', cs', k. rewrite <- K0. auto.
Qed.
