(* Seeking. *)
From Coq Require Import ZifyClasses ZifyInst ZifyBool.
From Verif Require Import Base FatModel FatSpec FileModel FileSpec FatProof FatProof2 FatProof3 FatProof4 FatProof5 FatProof6 FileProof FileProof2 FileProof3 FileProof4 FileProof5.
Open Scope Z_scope.
Ltac Zify.zify_post_hook ::= idtac.

(* On the way, at the start p of a cluster. *)
Record seeking (g : geo) (v : vol) (l : list Z) (f : fil) (d : ifile) (p : Z) : Prop := {
  sk_cache : cached g v l f d;
  sk_ptr : fptr f = p;
  sk_len : objsize f = Z.max (len d) p;
  sk_range : 0 <= p /\ 0 <= len d < 4294967296;
  sk_room : len d <= Z.of_nat (length l) * bcs g;
  sk_mod : p mod bcs g = 0;
  sk_in : p < Z.of_nat (length l) * bcs g;
  sk_start : sclust f = hd 0 l;
  sk_clust : clust f = nth (Z.to_nat (p / bcs g)) l 0;
  sk_err : ferr f = FR_OK }.
(* No cluster could be had for p. *)
Record stuck (g : geo) (v : vol) (l : list Z) (f : fil) (d : ifile) (p : Z) : Prop := {
  st_cache : cached g v l f d;
  st_ptr : fptr f = p;
  st_len : objsize f = Z.max (len d) p;
  st_range : 0 < p /\ 0 <= len d < 4294967296;
  st_at : p = Z.of_nat (length l) * bcs g;
  st_room : len d <= p;
  st_start : sclust f = hd 0 l;
  st_clust : clust f = nth (Z.to_nat ((p - 1) / bcs g)) l 0;
  st_err : ferr f = FR_OK }.

Lemma cached_more g v l f d p n : cached g v l f d -> cached g v l (set_modif (set_pos f p n)) d.
Proof. intros C. eapply cached_ext; eauto. intros q b X. split; auto. now apply (ca_len _ _ _ _ _ C q b). Qed.

Lemma next_mod b p : 0 < b -> p mod b = 0 -> (p + b) mod b = 0 /\ (p + b) / b = p / b + 1 /\ (p + b - 1) / b = p / b.
Proof.
  intros B M. split; [|split].
  - replace (p + b) with (p + 1 * b) by lia. now rewrite Z.mod_add by lia.
  - replace (p + b) with (p + 1 * b) by lia. rewrite Z.div_add by lia. lia.
  - symmetry. apply (Z.div_unique _ _ _ (b - 1)); [lia|]. pose proof (Z.div_mod p b). lia.
Qed.

Lemma seek_loop_ok g D i fuel : forall v cs f d p ofs, geo_ok g -> data_ok g -> ready g D cs i v -> seeking g v (nth i cs []) f d p ->
  0 < ofs -> p + ofs < 4294967296 -> fwrite f = true \/ p + ofs <= len d -> ofs < Z.of_nat fuel ->
  exists v' f' cs' ofs' c', seek_loop fuel g v f (bcs g) ofs (clust f) = Ok (v', f', ofs', c', None) /\ grown g D i v cs v' cs' /\ mode f f' /\
    ((exists p', seeking g v' (nth i cs' []) f' d p' /\ c' = clust f' /\ 0 < ofs' <= bcs g /\ p' + ofs' = p + ofs) \/
     (exists p', stuck g v' (nth i cs' []) f' d p' /\ ofs' = 0 /\ none_free g v' /\ fwrite f = true /\ p' <= p + ofs)).
Proof.
  induction fuel as [|fuel IH]; intros v cs f d p ofs G A R S0 B1 B2 Md Fu; [lia|]. cbn [seek_loop].
  pose proof (rd_idx _ _ _ _ _ R) as I. pose proof (bcs_pos g G A) as Bp. pose proof (ent_small g G) as (N1 & _).
  destruct (Z.ltb_spec (bcs g) ofs) as [T|T].
  2: { exists v, f, cs, ofs, (clust f). split; [auto|]. split; [now apply grown_refl|]. split; [now split|]. left. exists p. split; [auto|]. split; [auto|]. lia. }
  set (l := nth i cs []) in *. pose proof S0 as [H1 H2 H3 H4 H5 H6 H7 H8 H9 H10].
  destruct (next_mod (bcs g) p Bp H6) as (Q1 & Q2 & Q3).
  assert (Pd : 0 <= p / bcs g) by (apply Z.div_pos; lia).
  pose proof (pos_index g (length l) p G A ltac:(clear - H4 H7; lia)) as Pk. set (k := Z.to_nat (p / bcs g)) in *.
  assert (Qk : Z.to_nat ((p + bcs g) / bcs g) = S k) by (unfold k; lia).
  destruct (own_chain g v cs i (rd_own _ _ _ _ _ R) I) as (Ch & _ & _). fold l in Ch.
  set (f0 := set_pos f (fptr f + bcs g) (objsize f)).
  assert (Go : forall v1 f1 cs1 x, grown g D i v cs v1 cs1 -> mode f f1 -> 2 <= x < n_fatent g -> seeking g v1 (nth i cs1 []) (set_start f1 (sclust f1) x) d (p + bcs g) ->
     exists v' f' cs' ofs' c', (if x =? ERR then Ok (v1, f1, ofs - bcs g, x, Some FR_DISK_ERR)
        else if (x <=? 1) || (n_fatent g <=? x) then Ok (v1, f1, ofs - bcs g, x, Some FR_INT_ERR)
        else seek_loop fuel g v1 (set_start f1 (sclust f1) x) (bcs g) (ofs - bcs g) x) = Ok (v', f', ofs', c', None) /\ grown g D i v cs v' cs' /\ mode f f' /\
    ((exists p', seeking g v' (nth i cs' []) f' d p' /\ c' = clust f' /\ 0 < ofs' <= bcs g /\ p' + ofs' = p + ofs) \/
     (exists p', stuck g v' (nth i cs' []) f' d p' /\ ofs' = 0 /\ none_free g v' /\ fwrite f = true /\ p' <= p + ofs))).
  { intros v1 f1 cs1 x W1 M1 X S1. unfold ERR. replace (x =? 4294967295) with false by (clear - X N1; lia). replace ((x <=? 1) || (n_fatent g <=? x)) with false by (clear - X; lia).
    destruct (IH v1 cs1 (set_start f1 (sclust f1) x) d (p + bcs g) (ofs - bcs g) G A (gw_ready _ _ _ _ _ _ _ W1) S1) as (v' & f' & cs' & ofs' & c' & E & W' & M' & H).
    - clear - T. lia.
    - clear - B2. lia.
    - destruct Md as [Md|Md]; [left; cbn; destruct M1 as [_ ->]; auto|right; clear - Md; lia].
    - clear - Fu T Bp. lia.
    - exists v', f', cs', ofs', c'. cbn [set_start clust] in E. split; [auto|]. split; [now apply (grown_trans g D i v cs v1 cs1 v' cs')|].
      split; [apply (mode_trans _ f1); [auto|]; apply (mode_trans _ (set_start f1 (sclust f1) x)); [now split|auto]|].
      destruct H as [(p' & P1 & P2 & P3 & P4)|(p' & P1 & P2 & P3 & P4 & P5)].
      + left. exists p'. split; [auto|]. split; [auto|]. split; [auto|]. clear - P4. lia.
      + right. exists p'. split; [auto|]. split; [auto|]. split; [auto|]. split; [cbn in P4; destruct M1 as [_ <-]; auto|]. clear - P5. lia. }
  change (fwrite f0) with (fwrite f). destruct (fwrite f) eqn:Fw.
  - change (fptr f0) with (fptr f + bcs g). change (objsize f0) with (objsize f).
    set (f1 := if objsize f <? fptr f + bcs g then _ else f0).
    assert (F1 : fptr f1 = p + bcs g /\ objsize f1 = Z.max (len d) (p + bcs g) /\ cached g v l f1 d /\ sclust f1 = sclust f /\ clust f1 = clust f /\ ferr f1 = ferr f /\ mode f f1).
    { unfold f1. rewrite H2, H3. destruct (Z.ltb_spec (Z.max (len d) p) (p + bcs g)) as [Y|Y].
      - unfold f0. cbn. rewrite ?H2. split; [auto|]. split; [clear - Y Bp; lia|]. split; [now apply cached_more, cached_pos|]. repeat split; auto.
      - unfold f0. cbn. rewrite ?H2, ?H3. split; [auto|]. split; [clear - Y Bp; lia|]. split; [now apply cached_pos|]. repeat split; auto. }
    clearbody f1. destruct F1 as (X1 & X2 & X3 & X4 & X5 & X6 & X7).
    destruct (chain_step g D cs i v (S k) G A R Pk ltac:(discriminate)) as (v' & x & E & So & H). fold l in E, H.
    rewrite H9, E. cbn [bind]. destruct H as [(-> & Kl & Nf & W)|(m & Km & Ks & Kx & Xr & W)].
    + change (0 =? 0) with true. exists v', f1, cs, 0, 0. split; [auto|]. split; [auto|]. split; [auto|]. right. exists (p + bcs g). fold l.
      assert (Ep : p + bcs g = Z.of_nat (length l) * bcs g).
      { rewrite <- Kl, <- Qk, Z2Nat.id by (apply Z.div_pos; lia). pose proof (Z.div_mod (p + bcs g) (bcs g)). rewrite Q1 in H. clear - H Bp. lia. }
      split; [|split; [auto|split; [auto|split; [auto|clear - T; lia]]]].
      constructor; auto.
      * apply (cached_quiet g D cs i v v'); auto. apply W.
      * clear - H4 Bp. lia.
      * clear - H5 Ep. lia.
      * now rewrite X4.
      * now rewrite X5, Q3.
      * now rewrite X6.
    + replace (x =? 0) with false by (clear - Xr; lia). apply (Go v' f1 (edit cs i (l ++ m)) x); auto.
      rewrite edit_at by auto. constructor; cbn [set_start fptr objsize sclust clust ferr]; auto.
      * apply cached_start. apply (cached_moved g D cs i v v' m f1 d G A R); auto. apply W.
      * clear - H4 Bp. lia.
      * rewrite app_length. clear - H5 Bp. nia.
      * apply index_pos; auto; [clear - H4 Bp; lia|]. now rewrite Qk.
      * rewrite X4, H8. destruct l; [cbn in Pk; lia|reflexivity].
      * rewrite Qk. auto.
      * now rewrite X6.
  - destruct Md as [Md|Md]; [congruence|]. assert (Sk : (S k < length l)%nat).
    { rewrite <- Qk. apply pos_index; auto. clear - H4 H5 Md T Bp. lia. }
    destruct (get_ready g D cs i v k G A R Pk) as (v' & E & R' & So & EE & If). fold l in E. rewrite H9, E. cbn [bind].
    destruct (chain_nth g _ _ Ch k Pk) as (_ & Kn & _). rewrite Kn by auto. destruct (chain_nth g _ _ Ch (S k) Sk) as (Xr & _).
    apply (Go v' f0 cs _).
    + apply grown_quiet; auto. now apply keeps_outside.
    + now split.
    + auto.
    + fold l. constructor; cbn [f0 set_start set_pos fptr objsize sclust clust ferr]; auto.
      * apply cached_start, cached_pos. now apply (cached_quiet g D cs i v v').
      * now rewrite H2.
      * rewrite H3. clear - Md T Bp. lia.
      * clear - H4 Bp. lia.
      * apply index_pos; auto; [clear - H4 Bp; lia|]. now rewrite Qk.
      * now rewrite Qk.
Qed.

(* Having arrived at q. *)
Lemma seek_end_ok g D cs i v f d q nsect : geo_ok g -> data_ok g -> ready g D cs i v -> let l := nth i cs [] in cached g v l f d ->
  fptr f = q -> Z.max (objsize f) q = Z.max (len d) q -> 0 <= q < 4294967296 -> 0 <= len d < 4294967296 -> len d <= Z.of_nat (length l) * bcs g -> q <= Z.of_nat (length l) * bcs g ->
  sclust f = hd 0 l -> (0 < q -> clust f = nth (Z.to_nat ((q - 1) / bcs g)) l 0) -> ferr f = FR_OK -> (q mod ss g <> 0 -> nsect = sector_of g l q) ->
  exists v' f', seek_end g v f nsect = Ok (v', f', FR_OK) /\ grown g D i v cs v' cs /\ mode f f' /\ file_ok g v' l f' (extended d q).
Proof.
  intros G A R l C P L Rq Rl Rm Rm2 St Cl Er Ns. unfold seek_end. pose proof (ss_pos g G) as Sp. pose proof (rd_idx _ _ _ _ _ R) as I.
  set (f1 := if objsize f <? fptr f then _ else f).
  assert (F1 : fptr f1 = q /\ objsize f1 = Z.max (len d) q /\ cached g v l f1 d /\ sclust f1 = sclust f /\ clust f1 = clust f /\ ferr f1 = ferr f /\ mode f f1).
  { unfold f1. rewrite P. destruct (Z.ltb_spec (objsize f) q) as [Y|Y].
    - cbn. split; [auto|]. split; [clear - Y L; lia|]. split; [now apply cached_more|]. repeat split; auto.
    - split; [auto|]. split; [clear - Y L; lia|]. split; [auto|]. repeat split; auto. }
  clearbody f1. destruct F1 as (X1 & X2 & X3 & X4 & X5 & X6 & X7). rewrite X1.
  assert (Fin : forall v2 f2, cached g v2 l f2 d -> fptr f2 = q -> objsize f2 = Z.max (len d) q -> sclust f2 = sclust f -> clust f2 = clust f -> ferr f2 = ferr f ->
     (q mod ss g <> 0 -> fsect f2 = sector_of g l q) -> file_ok g v2 l f2 (extended d q)).
  { intros v2 f2 C2 Y1 Y2 Y3 Y4 Y5 Y6. constructor; cbn [extended data len pos]; auto.
    - eapply cached_ext; eauto. intros p b X. split; auto. pose proof (ca_len _ _ _ _ _ C2 p b X) as Z. cbn. clear - Z. lia.
    - clear - Rq Rl. lia.
    - clear - Rm Rm2. lia.
    - now rewrite Y3.
    - now rewrite Y4.
    - now rewrite Y5. }
  destruct (Z.eqb_spec (q mod ss g) 0) as [T|T]; cbn [negb andb].
  - exists v, f1. split; [auto|]. split; [now apply grown_refl|]. split; [auto|]. apply Fin; auto. now intros [].
  - rewrite Ns by auto. destruct (Z.eqb_spec (sector_of g l q) (fsect f1)) as [T2|T2]; cbn [negb].
    + exists v, f1. split; [auto|]. split; [now apply grown_refl|]. split; [auto|]. apply Fin; auto.
    + destruct (back_ok g D cs i v f1 d G A R X3) as (v2 & E2 & W2 & C2 & _). rewrite E2. fold l in C2.
      assert (P2 : 0 <= q < Z.of_nat (length l) * bcs g).
      { destruct (Z.eq_dec q (Z.of_nat (length l) * bcs g)) as [E|E]; [|clear - E Rq Rm2; lia]. exfalso. apply T. apply mod_bcs; auto. rewrite E. apply Z.mod_mul. pose proof (bcs_pos g G A). lia. }
      destruct (load_ok g D cs i v2 _ d q G A (gw_ready _ _ _ _ _ _ _ W2) C2 eq_refl P2) as (dd & b & E3 & E4 & C3). fold l in E3, C3. rewrite E3, E4. cbn [bind].
      eexists v2, _. split; [reflexivity|]. split; [auto|]. split; [apply (mode_trans _ f1); [auto|now split]|]. apply Fin; auto.
Qed.

Lemma sector_in_cluster g l p ofs : geo_ok g -> data_ok g -> 0 <= p -> p mod bcs g = 0 -> 0 < ofs -> ofs < bcs g ->
  sector_of g l (p + ofs) = database g + csize g * (nth (Z.to_nat (p / bcs g)) l 0 - 2) + ofs / ss g.
Proof.
  intros G A P M O1 O2. pose proof (bcs_pos g G A) as Bp. pose proof (ss_pos g G) as Sp. pose proof (cs_pos g A) as Cp. unfold sector_of.
  destruct (near_in (bcs g) p ofs Bp ltac:(lia) ltac:(lia)) as [D _]. rewrite D. f_equal.
  pose proof (Z.div_mod p (bcs g) ltac:(lia)) as Dm. rewrite M, Z.add_0_r in Dm. rewrite Dm. unfold bcs at 1.
  replace (csize g * ss g * (p / bcs g) + ofs) with (ofs + p / bcs g * csize g * ss g) by ring. rewrite Z.div_add by lia. rewrite Z.mod_add by lia.
  apply Z.mod_small. split; [apply Z.div_pos; lia|]. apply Z.div_lt_upper_bound; [lia|]. unfold bcs in O2. lia.
Qed.

(* From the start of a cluster to the end of f_lseek. *)
Lemma seek_rest g D cs i v f d p ofs fuel : geo_ok g -> data_ok g -> ready g D cs i v -> seeking g v (nth i cs []) f d p ->
  0 < ofs -> p + ofs < 4294967296 -> fwrite f = true \/ p + ofs <= len d -> ofs < Z.of_nat fuel ->
  exists v' f' cs' q,
    ('(v, f, ofs, c, e) <- seek_loop fuel g v f (bcs g) ofs (clust f) ;;
     match e with
     | Some r => Ok (v, set_err f r, r)
     | None =>
         let f := set_pos f (fptr f + ofs) (objsize f) in
         if negb (ofs mod ss g =? 0) then
           let n := clst2sect g c in
           if n =? 0 then Ok (v, set_err f FR_INT_ERR, FR_INT_ERR) else seek_end g v f (w32 (n + ofs / ss g))
         else seek_end g v f 0
     end) = Ok (v', f', FR_OK) /\
    grown g D i v cs v' cs' /\ mode f f' /\ file_ok g v' (nth i cs' []) f' (extended d q) /\
    (q = p + ofs \/ none_free g v' /\ fwrite f = true /\ len d <= q <= p + ofs).
Proof.
  intros G A R S0 B1 B2 Md Fu. pose proof (rd_idx _ _ _ _ _ R) as I. pose proof (ss_pos g G) as Sp. pose proof (bcs_pos g G A) as Bp.
  destruct (seek_loop_ok g D i fuel v cs f d p ofs G A R S0 B1 B2 Md Fu) as (v1 & f1 & cs1 & ofs1 & c1 & E & W1 & M1 & H). rewrite E. cbn [bind].
  pose proof (gw_ready _ _ _ _ _ _ _ W1) as R1. set (l1 := nth i cs1 []) in *.
  destruct H as [(p1 & [H1 H2 H3 H4 H5 H6 H7 H8 H9 H10] & -> & O1 & O2)|(p1 & [H1 H2 H3 H4 H5 H6 H7 H8 H9] & -> & Nf & Fw & O2)].
  - rewrite <- O2 in *. destruct (next_mod (bcs g) p1 Bp H6) as (Q1 & Q2 & Q3).
    pose proof (pos_index g (length l1) p1 G A ltac:(clear - H4 H7; lia)) as Pk.
    assert (Dv : (p1 + ofs1 - 1) / bcs g = p1 / bcs g).
    { destruct (near_in (bcs g) p1 (ofs1 - 1) Bp ltac:(lia) ltac:(rewrite H6; lia)) as [D1 _]. replace (p1 + ofs1 - 1) with (p1 + (ofs1 - 1)) by lia. auto. }
    assert (Rm : p1 + ofs1 <= Z.of_nat (length l1) * bcs g).
    { rewrite <- Dv in Pk. apply index_pos in Pk; auto; clear - Pk H4 O1; lia. }
    assert (Ms : (p1 + ofs1) mod ss g = ofs1 mod ss g).
    { pose proof (Z.div_mod p1 (bcs g) ltac:(lia)) as Dm. rewrite H6, Z.add_0_r in Dm. rewrite Dm. unfold bcs.
      replace (csize g * ss g * (p1 / (csize g * ss g)) + ofs1) with (ofs1 + csize g * (p1 / (csize g * ss g)) * ss g) by ring. apply Z.mod_add. lia. }
    assert (Fin : forall ns, ((p1 + ofs1) mod ss g <> 0 -> ns = sector_of g l1 (p1 + ofs1)) ->
       exists v' f' cs' q, seek_end g v1 (set_pos f1 (fptr f1 + ofs1) (objsize f1)) ns = Ok (v', f', FR_OK) /\
         grown g D i v cs v' cs' /\ mode f f' /\ file_ok g v' (nth i cs' []) f' (extended d q) /\ (q = p1 + ofs1 \/ none_free g v' /\ fwrite f = true /\ len d <= q <= p1 + ofs1)).
    { intros ns Hns. destruct (seek_end_ok g D cs1 i v1 (set_pos f1 (fptr f1 + ofs1) (objsize f1)) d (p1 + ofs1) ns G A R1) as (v' & f' & E' & W' & M' & F'); cbn [set_pos fptr objsize sclust clust ferr]; fold l1; auto.
      - now apply cached_pos.
      - now rewrite H2.
      - rewrite H3. clear - O1. lia.
      - clear - B2 H4 O1. lia.
      - apply H4.
      - intros _. now rewrite H9, Dv.
      - exists v', f', cs1, (p1 + ofs1). split; [auto|]. split; [now apply (grown_trans g D i v cs v1 cs1 v' cs1)|].
        split; [apply (mode_trans _ f1); [auto|]; apply (mode_trans _ (set_pos f1 (fptr f1 + ofs1) (objsize f1))); [now split|auto]|]. auto. }
    destruct (Z.eqb_spec (ofs1 mod ss g) 0) as [T|T]; cbn [negb].
    + apply Fin. intros X. rewrite Ms in X. easy.
    + destruct (own_chain g v1 cs1 i (rd_own _ _ _ _ _ R1) (rd_idx _ _ _ _ _ R1)) as (Ch & _ & _). fold l1 in Ch.
      destruct (chain_nth g _ _ Ch _ Pk) as (Xr & _). rewrite H9. destruct (clst_sect g _ G A Xr) as (Ec & D1 & D2). rewrite Ec.
      set (c := nth (Z.to_nat (p1 / bcs g)) l1 0) in *. replace (database g + csize g * (c - 2) =? 0) with false by (clear - D1; lia).
      assert (Ob : ofs1 < bcs g).
      { destruct (Z.eq_dec ofs1 (bcs g)) as [X|X]; [|clear - X O1; lia]. exfalso. apply T. apply mod_bcs; auto. rewrite X. apply Z.mod_same. lia. }
      pose proof (sector_in_cluster g l1 p1 ofs1 G A ltac:(apply H4) H6 ltac:(apply O1) Ob) as Es. fold c in Es.
      apply Fin. intros _. rewrite <- Es. apply w32_id.
      pose proof (sector_range g D cs1 i v1 (p1 + ofs1) G A R1) as Sr. fold l1 in Sr. pose proof (ok_dsize g G). 
      assert (0 <= p1 + ofs1 < Z.of_nat (length l1) * bcs g).
      { destruct (near_in (bcs g) p1 ofs1 Bp ltac:(lia) ltac:(rewrite H6; lia)) as [D3 _]. split; [clear - H4 O1; lia|]. apply index_pos; auto; [clear - H4 O1; lia|]. now rewrite D3. }
      apply Sr in H0. clear - H0 H. lia.
  - change (0 mod ss g =? 0) with (Z.eqb (0 mod ss g) 0). rewrite Z.mod_0_l by lia. change (negb (0 =? 0)) with false. cbv iota.
    destruct (seek_end_ok g D cs1 i v1 (set_pos f1 (fptr f1 + 0) (objsize f1)) d p1 0 G A R1) as (v' & f' & E' & W' & M' & F'); cbn [set_pos fptr objsize sclust clust ferr]; fold l1; auto.
    + now apply cached_pos.
    + rewrite H2. clear. lia.
    + rewrite H3. clear. lia.
    + clear - H4 O2 B2. lia.
    + apply H4.
    + rewrite <- H5. auto.
    + clear - H5. lia.
    + intros X. exfalso. apply X. apply mod_bcs; auto. rewrite H5. apply Z.mod_mul. lia.
    + exists v', f', cs1, p1. split; [auto|]. split; [now apply (grown_trans g D i v cs v1 cs1 v' cs1)|].
      split; [apply (mode_trans _ f1); [auto|]; apply (mode_trans _ (set_pos f1 (fptr f1 + 0) (objsize f1))); [now split|auto]|]. split; [auto|]. right.
      split; [|split; [auto|clear - H6 O2; lia]].
      assert (W'' : forall c, 2 <= c < n_fatent g -> In c (concat cs1) \/ entry g v' c = entry g v1 c).
      { intros c Hc. destruct (in_dec Z.eq_dec c (concat cs1)); [auto|]. right. now apply (gw_rest _ _ _ _ _ _ _ W'). }
      intros c Hc. destruct (W'' c Hc) as [X|X].
      * destruct (owned_nonzero g v' cs1 c (rd_own _ _ _ _ _ (gw_ready _ _ _ _ _ _ _ W')) X). clear - H0. lia.
      * rewrite X. now apply Nf.
Qed.

Lemma seeking_at g v l f d : geo_ok g -> data_ok g -> file_ok g v l f d -> 0 < pos d ->
  seeking g v l (set_pos f (bcs g * ((pos d - 1) / bcs g)) (objsize f)) d (bcs g * ((pos d - 1) / bcs g)).
Proof.
  intros G A [H1 H2 H3 H4 H5 H6 H7 H8 H9] P. pose proof (bcs_pos g G A) as Bp. pose proof (Z.mul_div_le (pos d - 1) (bcs g) Bp) as Le.
  assert (0 <= (pos d - 1) / bcs g) by (apply Z.div_pos; lia).
  constructor; cbn [set_pos fptr objsize sclust clust ferr]; auto.
  - now apply cached_pos.
  - clear - Le H3 H4. lia.
  - split; [apply Z.mul_nonneg_nonneg; lia|]. clear - H4. lia.
  - rewrite Z.mul_comm. apply Z.mod_mul. lia.
  - clear - Le H4 H5. lia.
  - rewrite (Z.mul_comm (bcs g)), Z.div_mul by lia. auto.
Qed.

Lemma f_lseek_ok g D cs i v f d ofs fuel : geo_ok g -> data_ok g -> ready g D cs i v -> file_ok g v (nth i cs []) f d ->
  0 <= ofs -> Z.min ofs 4294967295 < Z.of_nat fuel ->
  let t := if fwrite f then Z.min ofs 4294967295 else Z.min ofs (len d) in
  exists v' f' cs' q, f_lseek fuel g v f ofs = Ok (v', f', FR_OK) /\ grown g D i v cs v' cs' /\ mode f f' /\ file_ok g v' (nth i cs' []) f' (extended d q) /\
    (q = t \/ none_free g v' /\ fwrite f = true /\ len d <= q <= t).
Proof.
  intros G A R F O1 Fu t. pose proof (rd_idx _ _ _ _ _ R) as I. pose proof (bcs_pos g G A) as Bp. pose proof (ss_pos g G) as Sp. pose proof (fo_range _ _ _ _ _ F) as Rg.
  unfold f_lseek. rewrite (fo_err _ _ _ _ _ F), (fo_len _ _ _ _ _ F).
  set (o1 := if 4294967296 <=? ofs then 4294967295 else ofs). assert (E1 : o1 = Z.min ofs 4294967295) by (unfold o1; destruct (Z.leb_spec 4294967296 ofs); clear - H; lia).
  set (o2 := if (len d <? o1) && negb (fwrite f) then len d else o1).
  assert (E2 : o2 = t). { unfold o2, t. rewrite E1. clear - Rg. destruct (fwrite f); cbn [negb]; destruct (Z.ltb_spec (len d) (Z.min ofs 4294967295)); cbn [andb]; lia. }
  clearbody o2. rewrite E2. clear E1 E2 o1 o2. assert (T0 : 0 <= t < 4294967296) by (clear - Rg O1; unfold t; destruct (fwrite f); lia).
  assert (T1 : fwrite f = true \/ t <= len d) by (clear; unfold t; destruct (fwrite f); [auto|right; lia]).
  assert (T2 : t < Z.of_nat fuel) by (clear - Fu Rg; unfold t; destruct (fwrite f); lia). clearbody t.
  set (l := nth i cs []) in *. set (f0 := set_pos f 0 (len d)).
  assert (C0 : cached g v l f0 d) by (apply cached_pos; apply F).
  assert (Zero : forall v1 f1 cs1, grown g D i v cs v1 cs1 -> mode f f1 -> cached g v1 (nth i cs1 []) f1 d -> len d <= Z.of_nat (length (nth i cs1 [])) * bcs g -> fptr f1 = 0 -> objsize f1 = len d ->
     sclust f1 = hd 0 (nth i cs1 []) -> ferr f1 = FR_OK -> t = 0 \/ none_free g v1 /\ fwrite f = true /\ len d <= 0 ->
     exists v' f' cs' q, seek_end g v1 f1 0 = Ok (v', f', FR_OK) /\ grown g D i v cs v' cs' /\ mode f f' /\ file_ok g v' (nth i cs' []) f' (extended d q) /\
       (q = t \/ none_free g v' /\ fwrite f = true /\ len d <= q <= t)).
  { intros v1 f1 cs1 W1 M1 C1 L1 P1 N1 S1 Er H. pose proof (gw_ready _ _ _ _ _ _ _ W1) as R1.
    destruct (seek_end_ok g D cs1 i v1 f1 d 0 0 G A R1 C1 P1) as (v' & f' & E' & W' & M' & F'); auto; try (clear - Rg; lia).
    - now rewrite N1.
    - apply Z.mul_nonneg_nonneg; lia.
    - rewrite Z.mod_0_l by lia. now intros [].
    - exists v', f', cs1, 0. split; [auto|]. split; [now apply (grown_trans g D i v cs v1 cs1 v' cs1)|]. split; [now apply (mode_trans _ f1)|]. split; [auto|].
      destruct H as [H|(H1 & H2 & H3)]; [left; auto|right]. split; [|split; [auto|clear - H3 T0; lia]].
      intros c Hc. destruct (in_dec Z.eq_dec c (concat cs1)) as [X|X].
      + destruct (owned_nonzero g v' cs1 c (rd_own _ _ _ _ _ (gw_ready _ _ _ _ _ _ _ W')) X). clear - H0. lia.
      + rewrite (gw_rest _ _ _ _ _ _ _ W' c Hc X). now apply H1. }
  destruct (Z.ltb_spec 0 t) as [Tp|Tp].
  2: { apply (Zero v f0 cs); auto; try (now apply grown_refl); try (now split); try apply F. left. clear - Tp T0. lia. }
  change (csize g * ss g) with (bcs g). unfold seek_start. rewrite (fo_pos _ _ _ _ _ F).
  destruct ((0 <? pos d) && ((pos d - 1) / bcs g <=? (t - 1) / bcs g)) eqn:T.
  - assert (T3 : 0 < pos d) by (clear - T; lia). assert (T4 : (pos d - 1) / bcs g <= (t - 1) / bcs g) by (clear - T; lia).
    cbn [bind]. rewrite round_down by (auto; lia). set (p := bcs g * ((pos d - 1) / bcs g)).
    pose proof (seeking_at g v l f d G A F T3) as S0. fold p in S0. rewrite (fo_len _ _ _ _ _ F) in S0. 
    change (set_pos f p (len d)) with (set_pos f0 p (objsize f0)) in S0.
    assert (Pt : p < t). { unfold p. pose proof (Z.mul_div_le (t - 1) (bcs g) Bp). clear - T4 Bp H. nia. }
    replace (clust f0 =? 0) with false.
    2: { symmetry. apply Z.eqb_neq. change (clust f0) with (clust (set_pos f0 p (objsize f0))). rewrite (sk_clust _ _ _ _ _ _ S0).
         destruct (own_chain g v cs i (rd_own _ _ _ _ _ R) I) as (Ch & _ & _). fold l in Ch.
         pose proof (pos_index g (length l) p G A ltac:(pose proof (sk_range _ _ _ _ _ _ S0) as X; pose proof (sk_in _ _ _ _ _ _ S0) as Y; clear - X Y; lia)) as Pk.
         destruct (chain_nth g _ _ Ch _ Pk) as (Xr & _). clear - Xr. lia. }
    cbn [negb]. destruct (seek_rest g D cs i v (set_pos f0 p (objsize f0)) d p (t - p) fuel G A R S0) as (v' & f' & cs' & q & E & W & M & F' & H).
    + clear - Pt. lia.
    + clear - T0. lia.
    + cbn. destruct T1; [auto|right; clear - H; lia].
    + pose proof (sk_range _ _ _ _ _ _ S0). clear - T2 H. lia.
    + exists v', f', cs', q. split; [exact E|]. split; [auto|]. split; [apply (mode_trans _ (set_pos f0 p (objsize f0))); [now split|auto]|]. split; [auto|].
      cbn [f0 set_pos fwrite] in H. replace (p + (t - p)) with t in H by (clear; lia). auto.
  - change (sclust f0) with (sclust f). rewrite (fo_start _ _ _ _ _ F).
    assert (Go : forall v1 f1 cs1, grown g D i v cs v1 cs1 -> mode f f1 -> seeking g v1 (nth i cs1 []) f1 d 0 ->
       exists v' f' cs' q,
        ('(v, f, ofs, c, e) <- seek_loop fuel g v1 f1 (bcs g) t (clust f1) ;;
         match e with
         | Some r => Ok (v, set_err f r, r)
         | None =>
             let f := set_pos f (fptr f + ofs) (objsize f) in
             if negb (ofs mod ss g =? 0) then
               let n := clst2sect g c in
               if n =? 0 then Ok (v, set_err f FR_INT_ERR, FR_INT_ERR) else seek_end g v f (w32 (n + ofs / ss g))
             else seek_end g v f 0
         end) = Ok (v', f', FR_OK) /\ grown g D i v cs v' cs' /\ mode f f' /\ file_ok g v' (nth i cs' []) f' (extended d q) /\
       (q = t \/ none_free g v' /\ fwrite f = true /\ len d <= q <= t)).
    { intros v1 f1 cs1 W1 M1 S1. destruct (seek_rest g D cs1 i v1 f1 d 0 t fuel G A (gw_ready _ _ _ _ _ _ _ W1) S1 Tp) as (v' & f' & cs' & q & E & W & M & F' & H).
      - clear - T0. lia.
      - destruct M1 as [_ ->]. destruct T1; [auto|right; clear - H; lia].
      - auto.
      - exists v', f', cs', q. split; [exact E|]. split; [now apply (grown_trans g D i v cs v1 cs1 v' cs')|]. split; [now apply (mode_trans _ f1)|]. split; [auto|].
        destruct M1 as [_ M1]. rewrite M1 in H. exact H. }
    destruct l as [|a l0] eqn:El.
    + cbn [hd]. change (0 =? 0) with true. cbv iota. destruct (chain_step g D cs i v 0 G A R) as (v1 & x & E & So & H); [lia|auto|]. fold l in H. rewrite El in H. rewrite E. cbn [bind].
      pose proof (ent_small g G) as (N1 & _).
      assert (L0 : len d = 0) by (pose proof (fo_room _ _ _ _ _ F) as X; cbn in X; clear - X Rg; lia).
      destruct H as [(-> & Kl & Nf & W)|(m & Km & Ks & Kx & Xr & W)].
      * change (0 =? 1) with false. change (0 =? ERR) with false. cbn [bind negb]. change (0 =? 0) with true. cbn [negb].
        apply (Zero v1 (set_start f0 0 0) cs); auto.
        -- now split.
        -- apply cached_start. apply (cached_quiet g D cs i v v1); auto; [apply W|rewrite L0; apply Z.mul_nonneg_nonneg; lia|]. fold l. now rewrite El.
        -- rewrite L0. apply Z.mul_nonneg_nonneg; lia.
        -- fold l. rewrite El. reflexivity.
        -- apply F.
        -- right. split; [auto|]. split; [|clear - L0; lia]. destruct T1 as [T1|T1]; [auto|clear - T1 L0 Tp; lia].
      * unfold ERR. replace (x =? 1) with false by (clear - Xr; lia). replace (x =? 4294967295) with false by (clear - Xr N1; lia). cbn [bind].
        replace (x =? 0) with false by (clear - Xr; lia). cbn [negb]. cbn [app] in *.
        apply (Go v1 (set_start f0 x x) (edit cs i m)); auto; [now split|]. rewrite edit_at by auto.
        assert (Cm : cached g v1 m f0 d).
        { pose proof (cached_moved g D cs i v v1 m f0 d G A R) as X. fold l in X. rewrite El in X. cbn [app] in X. apply X; auto; [apply W|rewrite L0; cbn; lia]. }
        constructor; cbn [set_start fptr objsize sclust clust ferr f0 set_pos]; auto.
        -- now apply cached_start.
        -- clear - L0. lia.
        -- clear - L0. lia.
        -- rewrite L0. apply Z.mul_nonneg_nonneg; lia.
        -- clear - Km Bp. nia.
        -- destruct m; [cbn in Km; lia|]. now rewrite Kx.
        -- apply F.
    + cbn [hd]. destruct (own_chain g v cs i (rd_own _ _ _ _ _ R) I) as (Ch & _ & _). fold l in Ch. rewrite El in Ch. destruct Ch as (Ca & _).
      replace (a =? 0) with false by (clear - Ca; lia). cbn [bind]. replace (a =? 0) with false by (clear - Ca; lia). cbn [negb].
      apply (Go v (set_start f0 a a) cs); [now apply grown_refl|now split|]. fold l. rewrite El.
      constructor; cbn [set_start fptr objsize sclust clust ferr f0 set_pos]; auto.
      * now apply cached_start.
      * clear - Rg. lia.
      * clear - Rg. lia.
      * apply F.
      * cbn [length]. clear - Bp. nia.
      * apply F.
Qed.
