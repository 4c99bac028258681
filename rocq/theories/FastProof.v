(* The link map. *)
From Coq Require Import ZifyClasses ZifyInst ZifyBool.
From Verif Require Import Base FatModel FatSpec FileModel FileSpec FatProof FatProof2 FatProof3 FatProof4 FatProof5 FatProof6
  FileProof FileProof2 FileProof3 FileProof4 FileProof5 ExpandSpec ExpandProof ExpandProof2 FastModel FastSpec.
Open Scope Z_scope.
Ltac Zify.zify_post_hook ::= idtac.

Lemma nth_block k s n d : (k < Z.to_nat n)%nat -> nth k (block s n) d = s + Z.of_nat k.
Proof.
  intros K. unfold block. rewrite (nth_indep _ d (s + Z.of_nat 0)) by (rewrite map_length, seq_length; lia).
  rewrite (map_nth (fun i => s + Z.of_nat i)). rewrite seq_nth by lia. lia.
Qed.

(* --- looking up a cluster ----------------------------------------------------------- *)

Lemma rdt_in tab size i : 0 <= i < size -> rdt tab size i = Ok (tab i).
Proof. intros H. unfold rdt. now replace ((0 <=? i) && (i <? size)) with true by lia. Qed.

Lemma clmt_loop_ok tab size rs : forall l fuel i k, runs_of rs l -> holds tab i rs -> 0 <= i -> i + 2 * Z.of_nat (length rs) < size -> (length rs < fuel)%nat ->
  (forall c, In c l -> 0 <= c < 4294967296) -> 0 <= k ->
  clmt_loop fuel tab size i k = Ok (nth (Z.to_nat k) l 0).
Proof.
  induction rs as [|[n c] rs IH]; intros l fuel i k R H I S1 Fu B K; (destruct fuel as [|fuel]; [cbn in Fu; lia|]); cbn [clmt_loop]; rewrite rdt_in by (cbn in S1; lia); cbn [bind].
  - cbn in R, H. subst l. rewrite H. cbn [Z.eqb]. now destruct (Z.to_nat k).
  - cbn [runs_of holds length] in *. destruct R as (N & rest & -> & _ & R), H as (H1 & H2 & H3). rewrite H1.
    destruct (Z.eqb_spec n 0) as [|_]; [lia|]. destruct (Z.ltb_spec k n) as [L|L].
    + rewrite rdt_in by lia. cbn [bind]. rewrite H2, app_nth1 by (rewrite block_len; lia). rewrite nth_block by lia.
      rewrite w32_id; [f_equal; lia|]. assert (X : 0 <= c + k < 4294967296) by (apply B, in_or_app; left; apply block_in; lia). lia.
    + rewrite (IH rest) by (auto; try lia; intros x X; apply B, in_or_app; auto). rewrite app_nth2 by (rewrite block_len; lia). rewrite block_len. do 2 f_equal. lia.
Qed.

Lemma clmt_ok g D cs i v tab size p : geo_ok g -> data_ok g -> ready g D cs i v -> let l := nth i cs [] in linkmap tab size l ->
  0 <= p < 4294967296 -> clmt_clust g tab size p = Ok (nth (Z.to_nat (p / bcs g)) l 0).
Proof.
  intros G A R l (rs & R1 & R2 & R3) P. unfold clmt_clust. pose proof (ss_pos g G) as Sp. pose proof (cs_pos g A) as Cp. rewrite <- div_bcs by auto.
  pose proof (bcs_pos g G A) as Bp.
  assert (Q : 0 <= p / bcs g < 4294967296).
  { split; [apply Z.div_pos; lia|]. apply Z.div_lt_upper_bound; nia. }
  rewrite w32_id by auto. unfold items in R3.
  apply (clmt_loop_ok tab size rs); auto; try lia.
  intros c Hc. destruct (own_chain g v cs i (rd_own _ _ _ _ _ R) (rd_idx _ _ _ _ _ R)) as (Ch & _). fold l in Ch.
  destruct (chain_in _ _ _ _ Ch Hc) as [C _]. pose proof (ent_small g G) as (N1 & _). lia.
Qed.

(* --- making the map ------------------------------------------------------------------ *)

Lemma fragment_ok g fuel : forall v l c ncl, geo_ok g -> vol_ok g v -> chain g (entry g v) (c :: l) -> plain_end (entry g v) (c :: l) ->
  (length l < fuel)%nat -> 0 <= ncl -> ncl + Z.of_nat (length l) + 1 < 4294967296 ->
  exists v' n rest, fragment fuel g v c ncl = Ok (v', hd (entry g v (ends (c :: l))) rest, ncl + n, None) /\ 0 < n /\ c :: l = block c n ++ rest /\ hd 0 rest <> c + n /\
    estep g v v' (entry g v) /\ same_info v v'.
Proof.
  induction fuel as [|fuel IH]; intros v l c ncl G V Ch Pe Fu N1 N2; [lia|]. cbn [fragment]. pose proof (ent_small g G) as (M1 & M2 & M3 & M4).
  pose proof Ch as (C1 & C2 & C3). destruct (get_entry g v c G V C1) as (v1 & E1 & Es1 & If1). rewrite E1. cbn [bind].
  rewrite (w32_id (ncl + 1)) by lia. rewrite (w32_id (c + 1)) by lia.
  pose proof (entry_range g v c V) as Er.
  destruct l as [|d l].
  - assert (X : entry g v c <> c + 1) by (apply Pe; discriminate). unfold ERR.
    replace (entry g v c <=? 1) with false by lia. replace (entry g v c =? 4294967295) with false by lia. replace (entry g v c =? c + 1) with false by lia.
    exists v1, 1, []. split; [reflexivity|]. split; [lia|]. split; [rewrite block_step, block_none by lia; reflexivity|]. split; [cbn; lia|]. auto.
  - destruct C3 as (D1 & C3). rewrite C2. unfold ERR. replace (d <=? 1) with false by lia. replace (d =? 4294967295) with false by lia.
    destruct (Z.eqb_spec d (c + 1)) as [Q|Q].
    + assert (EE : forall x, 0 <= x < n_fatent g -> entry g v1 x = entry g v x) by apply Es1.
      assert (Ch1 : chain g (entry g v1) (d :: l)).
      { apply (chain_ext g (entry g v)); [|exact (conj D1 C3)]. intros x Hx. destruct (chain_in g _ _ x (conj D1 C3 : chain g (entry g v) (d :: l)) Hx). symmetry. apply EE. lia. }
      assert (En : ends (c :: d :: l) = ends (d :: l)) by reflexivity.
      assert (Eq : entry g v1 (ends (d :: l)) = entry g v (ends (c :: d :: l))).
      { rewrite En. apply EE. assert (In (ends (d :: l)) (c :: d :: l)).
        { right. unfold ends. rewrite (app_removelast_last (l := d :: l) 0) at 2 by discriminate. apply in_or_app. right. now left. }
        destruct (chain_in g _ _ _ Ch H). lia. }
      destruct (IH v1 l d (ncl + 1) G (es_ok _ _ _ _ Es1) Ch1) as (v' & n & rest & E & N & B & Hr & Es & If); cbn [length] in *; try lia.
      { intros _. rewrite Eq, <- En. apply Pe. discriminate. }
      exists v', (n + 1), rest. rewrite E, Eq. split; [do 2 f_equal; f_equal; lia|]. split; [lia|].
      split; [rewrite block_step by lia; cbn [app]; rewrite B, Q; do 3 f_equal; lia|]. split; [lia|]. split; [|].
      * eapply es_ext; [eapply es_trans; [exact Es1|exact Es]|]. auto.
      * destruct If1 as (A1 & A2 & A3), If as (B1 & B2 & B3). split; [|split]; congruence.
    + exists v1, 1, (d :: l). split; [reflexivity|]. split; [lia|]. split; [rewrite block_step, block_none by lia; reflexivity|]. split; [cbn; lia|]. auto.
Qed.

(* The runs as they are stored from index i on. *)
Fixpoint stores (tab : Z -> Z) (i : Z) (rs : list (Z * Z)) : Prop :=
  match rs with
  | [] => True
  | (n, c) :: rs => tab i = n /\ tab (i + 1) = c /\ stores tab (i + 2) rs
  end.
Lemma stores_ext tab tab' rs : forall i, (forall j, i <= j < i + 2 * Z.of_nat (length rs) -> tab' j = tab j) -> stores tab i rs -> stores tab' i rs.
Proof.
  induction rs as [|[n c] rs IH]; intros i H S1; [exact I|]. cbn [stores length] in *. destruct S1 as (S1 & S2 & S3).
  split; [rewrite H by lia; auto|]. split; [rewrite H by lia; auto|]. apply IH; auto. intros j J. apply H. lia.
Qed.
Lemma stores_holds tab rs : forall i, stores tab i rs -> tab (i + 2 * Z.of_nat (length rs)) = 0 -> holds tab i rs.
Proof.
  induction rs as [|[n c] rs IH]; intros i S1 Z0; cbn [stores holds length] in *; [now rewrite Z.add_0_r in Z0|].
  destruct S1 as (S1 & S2 & S3). split; [auto|]. split; [auto|]. apply IH; auto. rewrite <- Z0. f_equal. lia.
Qed.

Lemma wrt_in tab size i x : 0 <= i < size -> wrt tab size i x = Ok (upd tab i x).
Proof. intros H. unfold wrt. now replace ((0 <=? i) && (i <? size)) with true by lia. Qed.
Lemma upd_at f i (x : Z) : upd f i x i = x.
Proof. unfold upd. now rewrite Z.eqb_refl. Qed.
Lemma upd_off f i (x : Z) j : j <> i -> upd f i x j = f j.
Proof. intros H. unfold upd. now destruct (Z.eqb_spec j i). Qed.

Lemma map_loop_ok g size tlen fuel : forall v l tab i ulen, geo_ok g -> vol_ok g v -> chain g (entry g v) l -> l <> [] -> plain_end (entry g v) l -> NoDup l ->
  (length l <= fuel)%nat -> tlen <= size -> 2 <= ulen -> ulen + 2 * Z.of_nat (length l) < 4294967296 -> (ulen <= tlen -> i = ulen - 1) ->
  exists v' tab' i' rs, map_loop fuel g v tab size i tlen ulen (hd 0 l) = Ok (v', tab', i', ulen + 2 * Z.of_nat (length rs), None) /\ runs_of rs l /\
    estep g v v' (entry g v) /\ same_info v v' /\ (forall j, j < ulen - 1 \/ tlen <= j -> tab' j = tab j) /\
    (ulen + 2 * Z.of_nat (length rs) <= tlen -> i' = ulen - 1 + 2 * Z.of_nat (length rs) /\ stores tab' (ulen - 1) rs /\ forall j, i' <= j -> tab' j = tab j).
Proof.
  induction fuel as [|fuel IH]; intros v l tab i ulen G V Ch Ne Pe Nd Fu T U1 U2 Hi; [destruct l; [congruence|cbn in Fu; lia]|].
  destruct l as [|c l]; [congruence|]. cbn [hd map_loop]. pose proof (ent_small g G) as (M1 & M2 & M3 & M4).
  assert (Ln : (length (c :: l) <= Z.to_nat (n_fatent g))%nat).
  { rewrite <- (block_len 0). apply NoDup_incl_length; auto. intros x Hx. apply block_in. destruct (chain_in _ _ _ _ Ch Hx). lia. }
  destruct (fragment_ok g (Z.to_nat (n_fatent g)) v l c 0 G V Ch Pe ltac:(cbn in Ln; lia) ltac:(lia) ltac:(cbn in U2; lia)) as (v1 & n & rest & E1 & N & B & Hr & Es1 & If1).
  rewrite E1. cbn [bind]. rewrite Z.add_0_l. cbn [length] in *. rewrite (w32_id (ulen + 2)) by lia.
  assert (Lr : (length (block c n ++ rest) = S (length l))%nat) by (rewrite <- B; reflexivity). rewrite app_length, block_len in Lr.
  assert (EE : forall x, 0 <= x < n_fatent g -> entry g v1 x = entry g v x) by apply Es1.
  assert (Z1 : exists tab1 i1, (if ulen + 2 <=? tlen then t <- wrt tab size i n ;; t <- wrt t size (i + 1) c ;; Ok (t, i + 2) else Ok (tab, i)) = Ok (tab1, i1) /\
     (forall j, j < ulen - 1 \/ tlen <= j \/ ulen + 1 <= j -> tab1 j = tab j) /\ (ulen + 2 <= tlen -> i1 = ulen + 1 /\ tab1 (ulen - 1) = n /\ tab1 ulen = c)).
  { destruct (Z.leb_spec (ulen + 2) tlen) as [L|L].
    - rewrite wrt_in by lia. cbn [bind]. rewrite wrt_in by lia. cbn [bind]. eexists _, _. split; [reflexivity|]. split.
      + intros j J. rewrite !upd_off by lia. auto.
      + intros _. split; [lia|]. rewrite upd_off by lia. replace (ulen - 1) with i by lia. rewrite upd_at. split; [auto|]. replace ulen with (i + 1) by lia. apply upd_at.
    - exists tab, i. split; [auto|]. split; [auto|lia]. }
  destruct Z1 as (tab1 & i1 & Z1 & Z2 & Z3). rewrite Z1. cbn [bind].
  destruct rest as [|d rest].
  - cbn [hd]. assert (X : n_fatent g <= entry g v (ends (c :: l))).
    { destruct (chain_nth g _ _ Ch (length l) ltac:(cbn; lia)) as (_ & _ & X). specialize (X eq_refl).
      replace (ends (c :: l)) with (nth (length l) (c :: l) 0); [auto|]. unfold ends. clear. revert c. induction l as [|a l IH]; intros c; [reflexivity|]. apply (IH a). }
    replace (entry g v (ends (c :: l)) <? n_fatent g) with false by lia.
    exists v1, tab1, i1, [(n, c)]. cbn [length]. change (2 * Z.of_nat 1) with 2. split; [auto|].
    split; [cbn; split; [auto|]; exists []; rewrite B; split; [auto|]; split; [exact Hr|auto]|].
    split; [auto|]. split; [auto|]. split; [intros j J; apply Z2; lia|]. intros L. destruct (Z3 L) as (Y1 & Y2 & Y3). split; [lia|].
    split; [cbn; split; [auto|]; replace (ulen - 1 + 1) with ulen by lia; auto|]. intros j J. apply Z2. lia.
  - cbn [hd] in *. assert (Chr : chain g (entry g v) (d :: rest)).
    { rewrite B in Ch. clear - Ch. revert Ch. generalize (block c n). intros m. induction m as [|a m IH]; intros Ch; [exact Ch|]. apply IH. apply Ch. }
    assert (Chr1 : chain g (entry g v1) (d :: rest)).
    { apply (chain_ext g (entry g v)); auto. intros x Hx. destruct (chain_in _ _ _ _ Chr Hx). symmetry. apply EE. lia. }
    assert (En : ends (c :: l) = ends (d :: rest)).
    { rewrite B. unfold ends. clear. generalize (block c n). intros m. induction m as [|a m IH]; [reflexivity|]. cbn [app]. rewrite <- IH. destruct m; reflexivity. }
    assert (Inl : In (ends (d :: rest)) (d :: rest)).
    { unfold ends. rewrite (app_removelast_last (l := d :: rest) 0) at 2 by discriminate. apply in_or_app. right. now left. }
    assert (Eq : entry g v1 (ends (d :: rest)) = entry g v (ends (c :: l))).
    { rewrite En. apply EE. destruct (chain_in _ _ _ _ Chr Inl). lia. }
    assert (D1 : 2 <= d < n_fatent g) by apply Chr. replace (d <? n_fatent g) with true by lia.
    destruct (IH v1 (d :: rest) tab1 i1 (ulen + 2) G (es_ok _ _ _ _ Es1) Chr1) as (v' & tab' & i' & rs & E & Ro & Es & If & Un & St); try discriminate; try lia.
    { intros _. rewrite Eq, <- En. apply Pe. discriminate. }
    { rewrite B in Nd. clear - Nd. revert Nd. generalize (block c n). intros m. induction m as [|a m IH]; intros Nd; [exact Nd|]. apply IH. now inversion Nd. }
    cbn [hd] in E. rewrite E. exists v', tab', i', ((n, c) :: rs). cbn [length]. split; [do 3 f_equal; lia|].
    split; [cbn [runs_of]; split; [auto|]; exists (d :: rest); split; [auto|]; split; [exact Hr|auto]|].
    split; [eapply es_ext; [eapply es_trans; [exact Es1|exact Es]|]; auto|].
    split; [destruct If1 as (A1 & A2 & A3), If as (B1 & B2 & B3); split; [|split]; congruence|].
    split; [intros j J; rewrite Un by lia; apply Z2; lia|].
    intros L. destruct (St ltac:(lia)) as (St1 & St2 & St3). destruct (Z3 ltac:(lia)) as (Y1 & Y2 & Y3). split; [lia|]. split.
    + cbn [stores]. rewrite !Un by lia. split; [auto|]. replace (ulen - 1 + 1) with ulen by lia. split; [auto|]. replace (ulen - 1 + 2) with (ulen + 2 - 1) by lia. auto.
    + intros j J. rewrite St3 by lia. apply Z2. lia.
Qed.

Lemma linkmap_made g v l f tab size fuel : geo_ok g -> vol_ok g v -> chain g (entry g v) l -> NoDup l -> plain_end (entry g v) l ->
  sclust f = hd 0 l -> ferr f = FR_OK -> 0 < size -> tab 0 <= size -> n_fatent g <= Z.of_nat fuel ->
  exists v' tab' rs, runs_of rs l /\ create_linkmap fuel g v f tab size = Ok (v', f, tab', if items rs <=? tab 0 then LDone FR_OK else LNotEnough) /\
    estep g v v' (entry g v) /\ same_info v v' /\ tab' 0 = items rs /\
    (items rs <= tab 0 -> holds tab' 1 rs /\ forall i, items rs <= i -> tab' i = tab i) /\ (forall i, i < 0 \/ Z.max 1 (tab 0) <= i -> tab' i = tab i).
Proof.
  intros G V Ch Nd Pe Sc Er S0 S1 Fu. unfold create_linkmap. rewrite Er, rdt_in by lia. cbn [bind]. pose proof (ent_small g G) as (M1 & M2 & M3 & M4).
  assert (Ln : (length l <= Z.to_nat (n_fatent g))%nat).
  { rewrite <- (block_len 0). apply NoDup_incl_length; auto. intros x Hx. apply block_in. destruct (chain_in _ _ _ _ Ch Hx). lia. }
  rewrite Sc. destruct l as [|c l].
  - change (negb (hd 0 [] =? 0)) with false. cbn [bind]. rewrite wrt_in by lia. cbn [bind].
    destruct (Z.leb_spec 2 (tab 0)) as [L|L]; [rewrite wrt_in by lia; cbn [bind]|]; exists v; eexists; exists []; (split; [reflexivity|]); change (items []) with 2.
    + replace (2 <=? tab 0) with true by lia. split; [reflexivity|]. split; [now apply es_refl|]. split; [repeat split|]. split; [rewrite upd_off, upd_at by lia; auto|].
      split; [|intros i Hi; rewrite !upd_off by lia; auto]. intros _. split; [cbn; apply upd_at|]. intros i Hi. rewrite !upd_off by lia. auto.
    + replace (2 <=? tab 0) with false by lia. split; [reflexivity|]. split; [now apply es_refl|]. split; [repeat split|]. split; [now rewrite upd_at|]. split; [lia|]. intros i Hi. rewrite upd_off by lia. auto.
  - cbn [hd]. assert (C1 : 2 <= c < n_fatent g) by apply Ch. replace (negb (c =? 0)) with true by lia.
    destruct (map_loop_ok g size (tab 0) fuel v (c :: l) tab 1 2 G V Ch ltac:(discriminate) Pe Nd ltac:(lia) S1 ltac:(lia) ltac:(lia) ltac:(lia)) as (v' & tab' & i' & rs & E & Ro & Es & If & Un & St).
    cbn [hd] in E. rewrite E. cbn [bind]. rewrite wrt_in by lia. cbn [bind].
    assert (It : 2 + 2 * Z.of_nat (length rs) = items rs) by (unfold items; lia). rewrite It in *.
    assert (Ip : 2 <= items rs) by (unfold items; lia).
    destruct (Z.leb_spec (items rs) (tab 0)) as [L|L].
    + destruct (St L) as (St1 & St2 & St3). rewrite wrt_in by lia. cbn [bind]. exists v'. eexists. exists rs. split; [auto|]. replace (items rs <=? tab 0) with true by lia. split; [reflexivity|]. split; [auto|]. split; [auto|].
      split; [rewrite upd_off, upd_at by lia; auto|]. split; [|intros i Hi; rewrite !upd_off by lia; apply Un; lia]. intros _. split.
      * apply stores_holds.
        -- apply (stores_ext tab'); auto. intros j J. rewrite !upd_off by lia. auto.
        -- replace (1 + 2 * Z.of_nat (length rs)) with i' by lia. apply upd_at.
      * intros i Hi. rewrite !upd_off by lia. apply St3. lia.
    + exists v'. eexists. exists rs. split; [auto|]. replace (items rs <=? tab 0) with false by lia. split; [reflexivity|]. split; [auto|]. split; [auto|]. split; [now rewrite upd_at|]. split; [lia|]. intros i Hi. rewrite upd_off by lia. apply Un. lia.
Qed.
