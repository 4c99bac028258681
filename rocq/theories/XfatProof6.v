(* A file grows by one cluster. *)
From Coq Require Import ZArith Lia Bool List.
From Verif Require Import Base FatModel FatSpec FatProof FatProof2 FatProof4 XfatModel XfatSpec XfatProof XfatProof2 XfatProof3 XfatProof4 XfatProof5.
Import ListNotations.
Open Scope Z_scope.

Section S.
Variables (g : geo) (bb : Z).
Hypothesis G : xgeo_ok g bb.

(* The volume once cluster c was taken by a file which had the clusters l. *)
Record taken (v v' : vol) (l : list Z) (c : Z) : Prop := {
  t_ok : xvol_ok g v';
  t_bits : forall d, 2 <= d < bits g + 2 -> used g bb v' d = if d =? c then true else used g bb v d;
  t_ents : forall d, 0 <= d < n_fatent g -> ~ In d l -> xent g v' d = xent g v d;
  t_other : same_other g bb v v' }.

(* The object once the cluster is linked. *)
Lemma attach v o l c clst : xvol_ok g v -> (l <> [] -> base g o l /\ described (xent g v) o l) -> (l = [] -> n_frag o = 0) ->
  clst = last l 0 -> 2 <= c < n_fatent g -> ~ In c l ->
  exists v' o' r,
    (let o := if clst =? 0 then set_stat o 2
              else if (stat o =? 2) && negb (c =? w32 (clst + 1)) then set_stat (set_cont o (w32 (clst - sclust o))) 3
              else o in
     (if negb (stat o =? 2) then
        if c =? w32 (clst + 1) then Ok (v, set_frag o (if n_frag o =? 0 then 2 else w32 (n_frag o + 1)), FR_OK)
        else
          let o := if n_frag o =? 0 then set_frag o 1 else o in
          '(v, o, r) <- fill_last g v o clst c ;;
          match r with FR_OK => Ok (v, set_frag o 1, FR_OK) | e => Ok (v, o, e) end
      else Ok (v, o, FR_OK))) = Ok (v', o', r) /\ r = FR_OK /\
    kept g bb v v' l /\ sclust o' = sclust o /\ objsize o' = objsize o /\ described (xent g v') o' (l ++ [c]).
Proof using G.
  intros V HB HE -> C NI. pose proof (x_ent _ _ G) as XE. unfold EOC in XE.
  destruct l as [|x0 l0].
  - cbn [last]. change (0 =? 0) with true. cbn. eexists _, _, _. split; [reflexivity|]. split; auto. split; [now apply kept_id|].
    split; auto. split; auto. left. split; auto. split; [apply HE; auto|]. cbn. auto.
  - set (l := x0 :: l0) in *. assert (N : l <> []) by (unfold l; congruence). clearbody l. clear HE x0 l0. destruct (HB N) as [B D]. clear HB.
    assert (RL : 2 <= last l 0 < n_fatent g) by (pose proof (b_range _ _ _ B) as R; rewrite Forall_forall in R; apply R; now apply last_in).
    pose proof (few g bb G l (b_nodup _ _ _ B) (b_range _ _ _ B)) as FW. unfold clusts in FW.
    replace (last l 0 =? 0) with false by lia. rewrite (w32_id (last l 0 + 1)) by lia. cbv zeta.
    assert (CM : c mod 2147483648 = c) by (apply Z.mod_small; lia).
    assert (FILL : forall o1 a b c1, l = a ++ b ++ c1 -> c1 <> [] -> Z.of_nat (length c1) = n_frag o1 -> block c1 -> linked_to (xent g v) b (hd 0 c1) ->
      sclust o1 = sclust o -> objsize o1 = objsize o -> (stat o1 = 0 /\ a = [] \/ stat o1 = 3 /\ Z.of_nat (length a) = n_cont o1 /\ block (a ++ [hd 0 (b ++ c1)])) ->
      exists v' o' r, ('(v, o, r) <- fill_last g v o1 (last l 0) c ;; match r with FR_OK => Ok (v, set_frag o 1, FR_OK) | e => Ok (v, o, e) end) = Ok (v', o', r) /\ r = FR_OK /\
        kept g bb v v' l /\ sclust o' = sclust o /\ objsize o' = objsize o /\ described (xent g v') o' (l ++ [c])).
    { intros o1 a b c1 L NC LC BC LK Q1 Q2 ST. pose proof (b_range _ _ _ B) as R. pose proof (b_nodup _ _ _ B) as ND. rewrite L in R, ND.
      assert (NBC : b ++ c1 <> []) by (destruct b; [auto|cbn; congruence]).
      assert (LL : last l 0 = last c1 0) by (rewrite L, (last_app a (b ++ c1) NBC); now apply last_app).
      rewrite LL. destruct (fill_block g bb G v o1 b c1 c V) as (v' & E & K & LK'); auto; [apply Forall_app in R; tauto|now apply nodup_app_r in ND|lia|].
      rewrite E. cbn [bind]. exists v', (set_frag (set_frag o1 0) 1), FR_OK. split; auto. split; auto.
      split; [eapply kept_more; [|exact K]; intros x I; rewrite L; apply in_or_app; right; apply in_or_app; now right|].
      split; auto. split; auto. right. exists a, (b ++ c1), [c]. cbn [n_frag stat n_cont set_frag length].
      split; [rewrite L, <- !app_assoc; auto|]. split; auto. split; [cbn; auto|]. split; [rewrite <- CM; exact LK'|].
      destruct ST as [ST|(S1 & S2 & S3)]; auto. right. split; auto. split; auto. split; auto. split; auto.
      rewrite app_length. pose proof (len_pos _ NBC). cbn [length]. lia. }
    destruct (Z.eqb_spec (stat o) 2) as [S2|S2].
    + destruct D as [(_ & F & BL)|(a & b & c1 & _ & _ & _ & _ & [(S & _)|(S & _)])]; [|lia|lia].
      destruct (Z.eqb_spec c (last l 0 + 1)) as [->|NE]; cbn [andb negb].
      * rewrite S2. cbn. eexists _, _, _. split; [reflexivity|]. split; auto. split; [now apply kept_id|]. split; auto. split; auto.
        left. split; auto. split; auto. now apply block_snoc.
      * cbn [stat set_stat n_frag set_cont]. change (3 =? 2) with false. cbn [negb]. rewrite F. change (0 =? 0) with true. cbv iota.
        pose proof (snoc l N) as SN. pose proof (len_pos l N) as LP.
        assert (LR : length (removelast l) = (length l - 1)%nat) by (rewrite SN at 2; rewrite app_length; cbn; lia).
        apply (FILL _ (removelast l) [] [last l 0]); auto; try congruence.
        -- cbn. auto.
        -- cbn. auto.
        -- right. cbn [stat set_frag set_stat n_cont set_cont app hd]. split; auto. rewrite <- SN. split; auto.
           rewrite (b_start _ _ _ B). assert (Q : last l 0 = hd 0 l + Z.of_nat (length l - 1)) by (rewrite last_nth; apply block_nth; auto; lia).
           rewrite Q at 1. rewrite w32_id by lia. lia.
    + cbn [andb]. replace (stat o =? 2) with false by lia. cbn [negb].
      destruct D as [(S & _)|(a & b & c1 & L & LC & BC & LK & ST)]; [lia|].
      assert (LB : (2 <= length (b ++ c1))%nat \/ a = []) by (destruct ST as [(_ & ->)|(_ & _ & _ & _ & H)]; auto).
      (* the last fragment, beginning with the last cluster if there is none yet *)
      assert (W : exists b' c', l = a ++ b' ++ c' /\ c' <> [] /\ block c' /\ linked_to (xent g v) b' (hd 0 c') /\ (n_frag o = 0 -> c' = [last l 0]) /\
                  (n_frag o <> 0 -> Z.of_nat (length c') = n_frag o) /\ (stat o = 3 -> b' <> []) /\ hd 0 (b' ++ c') = hd 0 (b ++ c1)).
      { destruct c1 as [|y c1].
        - cbn in LC. rewrite app_nil_r in *. assert (NB : b <> []) by (destruct ST as [(_ & ->)|(_ & _ & H & _)]; auto; intros ->; cbn in L; auto).
          pose proof (snoc b NB) as SB. assert (LB' : last l 0 = last b 0) by (rewrite L; now apply last_app).
          exists (removelast b), [last b 0]. rewrite <- SB. split; auto. split; [congruence|]. split; [cbn; auto|]. split.
          + rewrite SB in LK. apply linked_app in LK. apply LK.
          + split; [intros _; now rewrite LB'|]. split; [lia|]. split; auto. intros S3 Q. rewrite Q in SB. cbn in SB.
            destruct LB as [LB|LB]; [rewrite SB in LB; cbn in LB; lia|]. destruct ST as [(S0 & _)|(_ & _ & _ & _ & H)]; [lia|]. rewrite SB in H. cbn in H. lia.
        - exists b, (y :: c1). split; auto. split; [congruence|]. split; auto. split; auto. split; [intros Q; rewrite Q in LC; cbn in LC; lia|].
          split; auto. split; auto. intros S3. destruct ST as [(S0 & _)|(_ & _ & H & _)]; [lia|auto]. }
      destruct W as (b' & c' & L' & NC' & BC' & LK' & F0 & F1 & NB' & HD).
      destruct (Z.eqb_spec c (last l 0 + 1)) as [EQ|NE].
      * eexists _, _, _. split; [reflexivity|]. split; auto. split; [now apply kept_id|]. split; auto. split; auto.
        assert (LL : last l 0 = last c' 0).
        { assert (NBC : b' ++ c' <> []) by (destruct b'; [auto|cbn; congruence]). rewrite L', (last_app a _ NBC). now apply last_app. }
        right. exists a, b', (c' ++ [c]). cbn [n_frag stat n_cont set_frag]. rewrite L', <- !app_assoc. split; auto. split.
        -- rewrite app_length. cbn [length]. destruct (Z.eqb_spec (n_frag o) 0) as [Z0|Z0]; [rewrite (F0 Z0); cbn; lia|]. rewrite <- (F1 Z0).
           assert (LW : (length c' <= length l)%nat) by (rewrite L', !app_length; lia). rewrite w32_id by lia. lia.
        -- split; [apply block_snoc; auto; lia|]. split; [destruct c'; [tauto|exact LK']|].
           destruct ST as [ST|(S1 & T2 & T3 & T4 & T5)]; auto. right. split; auto. split; auto. split; [auto|].
           assert (HB' : hd 0 b' = hd 0 b). { rewrite hd_app in HD by auto. rewrite hd_app in HD by auto. auto. }
           split; [rewrite HB'; auto|]. rewrite !app_length in *. pose proof (len_pos _ NC'). pose proof (len_pos _ (NB' S1)). cbn [length]. lia.
      * assert (Q : n_frag (if n_frag o =? 0 then set_frag o 1 else o) = Z.of_nat (length c')).
        { destruct (Z.eqb_spec (n_frag o) 0) as [Z0|Z0]; [rewrite (F0 Z0); auto|]. rewrite F1 by auto. auto. }
        apply (FILL _ a b' c'); auto; try (destruct (n_frag o =? 0); auto; fail).
        assert (SS : stat (if n_frag o =? 0 then set_frag o 1 else o) = stat o) by (destruct (n_frag o =? 0); auto).
        assert (NN : n_cont (if n_frag o =? 0 then set_frag o 1 else o) = n_cont o) by (destruct (n_frag o =? 0); auto).
        rewrite SS, NN. destruct ST as [ST|(S1 & T2 & T3 & T4 & T5)]; auto. right. split; auto. split; auto. rewrite HD. rewrite hd_app; auto.
Qed.

Lemma grow_ok v f l fuel : xvol_ok g v -> xfile_ok g bb v f l -> l = [] \/ clust f = last l 0 -> clusts g <= Z.of_nat fuel ->
  0 <= last_clst v < 4294967296 -> 0 <= free_clst v < 4294967296 -> (free_clst v = 0 -> forall c, 2 <= c < n_fatent g -> used g bb v c = true) ->
  exists v' f' c, grow fuel g bb v f = Ok (v', f', c) /\
    ((c = 0 /\ f' = f /\ unchanged g bb v v' /\ forall c, 2 <= c < n_fatent g -> used g bb v c = true) \/
     (2 <= c < n_fatent g /\ used g bb v c = false /\ xfile_ok g bb v' f' (l ++ [c]) /\ clust f' = c /\ taken v v' l c /\
      last_clst v' = c /\ free_clst v' = if free_clst v <=? clusts g then w32 (free_clst v - 1) else free_clst v)).
Proof using G.
  intros V X POS FU LC FC FZ. pose proof (x_ent _ _ G) as XE. unfold EOC in XE. pose proof (clusts_pos g bb G) as CP. pose proof (clusts_bits g bb G) as CB.
  (* create_chain up to the search *)
  assert (START : exists v0 clst scl, (if sclust (obj f) =? 0 then 0 else clust f) = clst /\ clst = last l 0 /\ 0 <= scl < 4294967296 /\ (clst <> 0 -> scl = clst) /\
     xstep g bb v v0 (bit g bb v) (xent g v) /\ xcreate fuel g bb v (obj f) clst = xallocate fuel g bb v0 (obj f) clst scl).
  { destruct l as [|x0 l0].
    - pose proof (xf_start _ _ _ _ _ X) as S. cbn in S. rewrite S. change (0 =? 0) with true. cbv iota.
      eexists v, 0, _. split; auto. split; auto. split; [|split; [lia|split; [now apply xstep_id|]]].
      2: { unfold xcreate. change (0 =? 0) with true. cbv iota. reflexivity. }
      destruct ((last_clst v =? 0) || (n_fatent g <=? last_clst v)); lia.
    - set (l := x0 :: l0) in *. assert (N : l <> []) by (unfold l; congruence). pose proof (file_base g bb v f l X N) as B.
      destruct POS as [POS|POS]; [congruence|]. destruct (size_pos g bb G _ _ B) as [_ S0]. replace (sclust (obj f) =? 0) with false by lia.
      destruct (get_last g bb G v (obj f) l V B (xf_desc _ _ _ _ _ X N)) as (v0 & E0 & X0).
      assert (RL : 2 <= last l 0 < n_fatent g) by (pose proof (b_range _ _ _ B) as R; rewrite Forall_forall in R; apply R; now apply last_in).
      exists v0, (clust f), (clust f). rewrite POS. split; auto. split; auto. split; [lia|]. split; auto. split; auto.
      unfold xcreate. replace (last l 0 =? 0) with false by lia. rewrite E0. cbn [bind]. change (EOC <? 2) with false. change (EOC =? ERR) with false. cbv iota.
      replace (EOC <? n_fatent g) with false by (unfold EOC; lia). auto. }
  destruct START as (v0 & clst & scl & EC & CL & SC & SQ & X0 & EX). unfold grow. rewrite EC, EX. clear EC EX.
  pose proof (xs_info _ _ _ _ _ _ X0) as (I1 & I2 & I3). unfold xallocate. rewrite I1.
  assert (U0 : forall d, 2 <= d < bits g + 2 -> used g bb v0 d = used g bb v d) by (intros d Hd; unfold used; apply X0; lia).
  destruct (Z.eqb_spec (free_clst v) 0) as [FF|FF].
  { cbn [bind]. change ((0 <? 2) || (0 =? ERR)) with true. cbv iota. exists v0, f, 0. split; [destruct f; auto|]. left. split; auto. split; auto.
    split; [now apply step_unchanged|]. auto. }
  destruct (search_one g bb G v0 scl fuel (xs_ok _ _ _ _ _ _ X0) SC FU) as (v1 & c & E1 & (A1 & A2 & A3 & A4 & A5) & R). rewrite E1. cbn [bind].
  destruct R as [(RC & UC & _)|(-> & ALL)].
  2: { change ((0 =? 0) || (0 =? ERR)) with true. cbv iota. cbn [bind]. change ((0 <? 2) || (0 =? ERR)) with true. cbv iota. exists v1, f, 0. split; [destruct f; auto|]. left. split; auto. split; auto.
       split.
       - split; [exact A1|]. split; [intros k K; rewrite A2 by auto; apply X0; auto|]. split; [intros d Hd; rewrite A3 by auto; apply X0; auto|].
         split; [intros s o Hs Ho; rewrite A4 by auto; apply X0; auto|]. eapply info_trans; [apply X0|exact A5].
       - intros d Hd. rewrite <- U0 by (unfold clusts in *; lia). auto. }
  replace ((c =? 0) || (c =? ERR)) with false by (unfold ERR; lia).
  assert (U1 : forall d, 2 <= d < bits g + 2 -> used g bb v1 d = used g bb v d) by (intros d Hd; rewrite <- U0 by auto; unfold used; apply A2; lia).
  rewrite U0 in UC by (unfold clusts in *; lia).
  destruct (change_marks g bb G v1 c 1 true fuel A1) as (v2 & m & r2 & E2 & (M1 & M2 & M3 & M4) & SI & PR & Q); [lia|lia|unfold clusts in *; lia|lia|lia|lia|].
  rewrite E2. cbn [bind]. destruct Q as [(-> & ->)|(Q1 & _ & Q3)].
  2: { exfalso. replace m with 0 in Q3 by lia. rewrite Z.add_0_r, U1, UC in Q3 by (unfold clusts in *; lia). discriminate. }
  assert (NI : ~ In c l).
  { intros I. pose proof (xf_used _ _ _ _ _ X) as U. rewrite Forall_forall in U. destruct (U c I) as [_ U']. congruence. }
  assert (EN : forall d, 0 <= d < n_fatent g -> xent g v2 d = xent g v d) by (intros d Hd; rewrite M3, A3 by auto; apply X0; auto).
  assert (INR : forall x, In x l -> 0 <= x < n_fatent g) by (intros x I; pose proof (xf_used _ _ _ _ _ X) as U; rewrite Forall_forall in U; destruct (U x I); lia).
  destruct (attach v2 (obj f) l c clst M1) as (v3 & o3 & r3 & E3 & -> & K3 & S3 & Z3 & D3); auto.
  { intros N. split; [now apply (file_base g bb v)|]. eapply desc_step; [|apply X; auto]. intros x I. apply EN. auto. }
  { intros N. apply X; auto. }
  assert (SCL : clst <> 0 -> scl = clst) by exact SQ.
  assert (EQ : (let o := if clst =? 0 then set_stat (obj f) 2
                   else if (stat (obj f) =? 2) && negb (c =? w32 (scl + 1)) then set_stat (set_cont (obj f) (w32 (scl - sclust (obj f)))) 3
                   else obj f in
          '(v, o, r) <-
            (if negb (stat o =? 2) then
               if c =? w32 (clst + 1) then Ok (v2, set_frag o (if n_frag o =? 0 then 2 else w32 (n_frag o + 1)), FR_OK)
               else
                 let o := if n_frag o =? 0 then set_frag o 1 else o in
                 '(v, o, r) <- fill_last g v2 o clst c ;;
                 match r with FR_OK => Ok (v, set_frag o 1, FR_OK) | e => Ok (v, o, e) end
             else Ok (v2, o, FR_OK)) ;;
          match r with
          | FR_OK =>
              let free := if free_clst v <=? w32 (n_fatent g - 2) then w32 (free_clst v - 1) else free_clst v in
              Ok (set_info v free c (Z.lor (fsi_flag v) 1), o, c)
          | FR_DISK_ERR => Ok (v, o, ERR)
          | _ => Ok (v, o, 1)
          end) = Ok (set_info v3 (if free_clst v3 <=? w32 (n_fatent g - 2) then w32 (free_clst v3 - 1) else free_clst v3) c (Z.lor (fsi_flag v3) 1), o3, c)).
  { destruct (Z.eq_dec clst 0) as [Z0|Z0].
    - rewrite Z0 in *. change (0 =? 0) with true in *. cbv iota zeta in E3 |- *. rewrite E3. reflexivity.
    - rewrite (SCL Z0). cbv zeta in E3 |- *. rewrite E3. reflexivity. }
  cbv zeta in EQ |- *. rewrite EQ. clear EQ. cbn [bind].
  replace ((c <? 2) || (c =? ERR)) with false by (unfold ERR; lia).
  assert (INF : free_clst v3 = free_clst v).
  { destruct (k_info _ _ _ _ _ K3) as (J1 & _). destruct SI as (J2 & _). destruct A5 as (J3 & _). congruence. }
  rewrite INF. rewrite (w32_id (n_fatent g - 2)) by lia. set (v4 := set_info _ _ _ _).
  assert (U4 : forall d, 2 <= d < bits g + 2 -> used g bb v4 d = if d =? c then true else used g bb v d).
  { intros d Hd. change (used g bb v4 d) with (used g bb v3 d). unfold used at 1. rewrite (k_bits _ _ _ _ _ K3) by lia.
    change (bit g bb v2 (d - 2)) with (used g bb v2 d). rewrite M2, U1 by auto. replace ((c <=? d) && (d <? c + 1)) with (d =? c) by lia. auto. }
  eexists v4, _, c. split; [reflexivity|]. right. split; auto. split; auto. split; [|split; [auto|split; [|split; auto]]].
  - assert (ND : NoDup (l ++ [c])) by (apply nodup_snoc; auto; apply X).
    assert (RG : Forall (fun d => 2 <= d < n_fatent g) (l ++ [c])).
    { apply Forall_app. split; [eapply Forall_impl; [|apply X]; cbn beta; tauto|]. constructor; auto. }
    pose proof (few g bb G _ ND RG) as FW. rewrite app_length in FW. cbn [length] in FW.
    pose proof (xf_start _ _ _ _ _ X) as XS. pose proof (xf_size _ _ _ _ _ X) as XZ.
    constructor; cbn [obj clust]; auto.
    + apply Forall_app. split.
      * apply Forall_forall. intros d I. pose proof (xf_used _ _ _ _ _ X) as U. rewrite Forall_forall in U. destruct (U d I) as [Ua Ub]. split; auto.
        rewrite U4 by (unfold clusts in *; lia). destruct (d =? c); auto.
      * constructor; auto. split; auto. rewrite U4 by (unfold clusts in *; lia). now rewrite Z.eqb_refl.
    + destruct l as [|x0 l0].
      * cbn in XS. rewrite S3, XS. change (0 =? 0) with true. reflexivity.
      * assert (2 <= x0 < n_fatent g) by (pose proof (xf_used _ _ _ _ _ X) as U; inversion U; subst; tauto). cbn in XS.
        rewrite S3, XS. replace (x0 =? 0) with false by lia. cbn. congruence.
    + assert (SZ : objsize (set_size (if sclust o3 =? 0 then set_start o3 c else o3) (w64 (objsize (if sclust o3 =? 0 then set_start o3 c else o3) + cbytes g))) = w64 (objsize o3 + cbytes g)).
      { destruct (sclust o3 =? 0); reflexivity. }
      rewrite SZ, Z3, XZ, app_length. cbn [length]. unfold w64.
      pose proof (ssz g bb G) as SS. pose proof (x_csize _ _ G) as CS. pose proof (x_clusters _ _ G) as XC. pose proof (ok_dsize _ (x_geo _ _ G)) as DS. change (dsize (small g)) with (dsize g) in DS.
      rewrite Z.mod_small; [replace (Z.of_nat (length l + 1)) with (Z.of_nat (length l) + 1) by lia; ring|].
      set (n := Z.of_nat (length l)) in *. assert (0 <= n) by (unfold n; lia). assert (n + 1 <= clusts g) by (unfold n; lia). unfold cbytes. clear - H H0 SS CS XC DS.
      assert ((n + 1) * csize g <= 4294967295) by nia. nia.
    + intros _. assert (XX : forall (E : Z -> Z) o o', stat o = stat o' -> n_cont o = n_cont o' -> n_frag o = n_frag o' -> forall ll, described E o ll -> described E o' ll).
      { intros E o o' Q1 Q2 Q3 ll. unfold described. rewrite Q1, Q2, Q3. auto. }
      eapply XX; [| | |exact D3]; destruct (sclust o3 =? 0); reflexivity.
    + intros Q. destruct l; discriminate.
    + intros _. rewrite last_app by congruence. reflexivity.
  - constructor.
    + destruct (k_ok _ _ _ _ _ K3) as [p1 p2 p3 p4 p5]. constructor; auto.
    + exact U4.
    + intros d Hd ND. change (xent g v4 d) with (xent g v3 d). rewrite (k_ents _ _ _ _ _ K3) by auto. auto.
    + intros s o Hs Ho. change (view v4 s o) with (view v3 s o). rewrite (k_other _ _ _ _ _ K3), M4, A4 by auto. apply X0; auto.
Qed.

End S.
