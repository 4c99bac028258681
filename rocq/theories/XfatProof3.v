(* The search and the marks in terms of clusters; f_expand; the count of f_statfs. *)
From Coq Require Import ZArith Lia Bool List.
From Verif Require Import Base FatModel FatSpec FatProof FatProof2 FatProof4 XfatModel XfatSpec XfatProof XfatProof2.
Import ListNotations.
Open Scope Z_scope.

Section S.
Variables (g : geo) (bb : Z).
Hypothesis G : xgeo_ok g bb.

Lemma step_unchanged v v' : xstep g bb v v' (bit g bb v) (xent g v) -> unchanged g bb v v'.
Proof using. intros [A B C D E]. split; [exact A|]. split; [exact B|]. split; [exact C|]. split; [exact D|exact E]. Qed.

Lemma start_origin c : start_at g c = origin g c - 2.
Proof using. unfold start_at, origin. destruct ((2 <=? c) && (c <? n_fatent g)); lia. Qed.
Lemma origin_range c : 2 <= origin g c < n_fatent g.
Proof using G. pose proof (x_ent _ _ G). unfold origin. destruct ((2 <=? c) && (c <? n_fatent g)) eqn:E; lia. Qed.

Lemma ring_used v s d j : used g bb v (ring g s (d + j)) = bit g bb v ((s - 2 + (d + j)) mod clusts g).
Proof using. unfold used, ring. f_equal. lia. Qed.

Lemma search_ok v c n fuel : xvol_ok g v -> 0 <= c < 4294967296 -> 0 < n < 4294967296 -> clusts g <= Z.of_nat fuel ->
  exists v' r, find_bitmap fuel g bb v c n = Ok (v', r) /\ unchanged g bb v v' /\
    ((exists d, 0 <= d /\ d + n <= clusts g /\ r = ring g (origin g c) d /\ free_run g bb v (origin g c) d n /\
                forall d', 0 <= d' < d -> ~ free_run g bb v (origin g c) d' n) \/
     (r = 0 /\ forall d, 0 <= d -> d + n <= clusts g -> ~ free_run g bb v (origin g c) d n)).
Proof using G.
  intros V C N F. destruct (find_ok g bb G v c n fuel V C N F) as (v' & r & E & X & FD).
  exists v', r. split; auto. split; [now apply step_unchanged|].
  assert (BL : forall s, blocked g (bit g bb v) (start_at g c) s n -> ~ free_run g bb v (origin g c) s n).
  { intros s (j & J & T) H. specialize (H j J). rewrite ring_used in H. rewrite start_origin in T. congruence. }
  destruct FD as [(s & S1 & S2 & -> & FA & MN)|(-> & NO)].
  - left. exists s. split; [auto|]. split; [auto|]. split; [|split; [|auto]].
    + unfold ring. rewrite start_origin. lia.
    + intros j J. rewrite ring_used. specialize (FA j J). rewrite start_origin in FA. auto.
  - right. split; auto.
Qed.

Lemma search_one v c fuel : xvol_ok g v -> 0 <= c < 4294967296 -> clusts g <= Z.of_nat fuel ->
  exists v' r, find_bitmap fuel g bb v c 1 = Ok (v', r) /\ unchanged g bb v v' /\
    ((2 <= r < n_fatent g /\ used g bb v r = false /\
      exists d, 0 <= d < clusts g /\ r = ring g (origin g c) d /\ forall d', 0 <= d' < d -> used g bb v (ring g (origin g c) d') = true) \/
     (r = 0 /\ forall x, 2 <= x < n_fatent g -> used g bb v x = true)).
Proof using G.
  intros V C F. destruct (search_ok v c 1 fuel V C ltac:(lia) F) as (v' & r & E & U & R).
  exists v', r. split; auto. split; auto. pose proof (clusts_pos g bb G) as CP. pose proof (origin_range c) as OR.
  destruct R as [(d & D0 & D1 & -> & FR & MN)|(-> & NO)].
  - left. assert (RR : 2 <= ring g (origin g c) d < n_fatent g).
    { unfold ring. pose proof (Z.mod_pos_bound (origin g c - 2 + d) (clusts g) ltac:(lia)). unfold clusts in *. lia. }
    split; auto. split.
    + specialize (FR 0 ltac:(lia)). rewrite Z.add_0_r in FR. auto.
    + exists d. split; [lia|]. split; auto. intros d' D'. destruct (used g bb v (ring g (origin g c) d')) eqn:U1; auto.
      exfalso. apply (MN d' D'). intros j J. replace j with 0 by lia. rewrite Z.add_0_r. auto.
  - right. split; auto. intros x X. destruct (used g bb v x) eqn:U1; auto. exfalso.
    set (d := (x - origin g c) mod clusts g). assert (DR : 0 <= d < clusts g) by (apply Z.mod_pos_bound; lia).
    apply (NO d); [lia|lia|]. intros j J. replace j with 0 by lia. rewrite Z.add_0_r.
    replace (ring g (origin g c) d) with x; auto. unfold ring, d. rewrite Zplus_mod_idemp_r.
    replace (origin g c - 2 + (x - origin g c)) with (x - 2) by lia. rewrite Z.mod_small by (unfold clusts; lia). lia.
Qed.

Lemma change_marks v c n x fuel : xvol_ok g v -> 2 <= c -> 0 < n -> c + n <= bits g + 2 -> n < 4294967296 -> c < 4294967296 -> n <= Z.of_nat fuel ->
  exists v' m r, change_bitmap fuel g bb v c n x = Ok (v', r) /\ marked g bb v v' c (c + m) x /\ same_info v v' /\
    (forall d, c <= d < c + m -> used g bb v d = negb x) /\
    ((m = n /\ r = FR_OK) \/ (0 <= m < n /\ r = FR_INT_ERR /\ used g bb v (c + m) = x)).
Proof using G.
  intros V C N B W1 W2 F. destruct (change_ok g bb G v c n x fuel) as (v' & m & r & E & X & P & Q); auto; [lia|].
  exists v', m, r. split; auto. split; [|split; [|split]].
  - destruct X as [A1 A2 A3 A4 A5]. split; [auto|]. split; [|split; auto].
    intros d D. unfold used. rewrite A2 by lia. replace ((c - 2 <=? d - 2) && (d - 2 <? c - 2 + m)) with ((c <=? d) && (d <? c + m)) by lia. auto.
  - apply X.
  - intros d D. apply P. lia.
  - destruct Q as [Q|(Q1 & Q2 & Q3)]; auto. right. split; [lia|]. split; [auto|]. unfold used. replace (c + m - 2) with (c - 2 + m) by lia. auto.
Qed.

(* --- f_expand --- *)

Lemma pow2_ok : (exists k, 0 <= k /\ csize g = 2 ^ k) -> exists k, 0 <= k /\ cbytes g = 2 ^ k.
Proof using G.
  intros (k & K & E). assert (exists j, 0 <= j /\ ss g = 2 ^ j) as (j & J & S).
  { clear E. destruct (ok_ss _ (x_geo _ _ G)) as [S|[S|[S|S]]]; change (ss (small g)) with (ss g) in S; [exists 9|exists 10|exists 11|exists 12]; split; lia || exact S. }
  exists (k + j). split; [lia|]. unfold cbytes. rewrite E, S, Z.pow_add_r; auto.
Qed.

Lemma tcl_ok fsz : (exists k, 0 <= k /\ csize g = 2 ^ k) -> 0 < fsz -> fsz <= cbytes g * clusts g ->
  w32 (w32 (fsz / cbytes g) + (if Z.land fsz (cbytes g - 1) =? 0 then 0 else 1)) = clusters_of g fsz /\ 0 < clusters_of g fsz < 4294967296.
Proof using G.
  intros P F M. destruct (pow2_ok P) as (k & K & E). unfold clusters_of. pose proof (clusts_pos g bb G) as CP.
  pose proof (Z.pow_pos_nonneg 2 k ltac:(lia) K) as B. rewrite <- E in B.
  assert (L : Z.land fsz (cbytes g - 1) = fsz mod cbytes g).
  { rewrite E. rewrite Z.sub_1_r, <- Z.ones_equiv. apply Z.land_ones. auto. }
  rewrite L. set (n := cbytes g) in *. set (q := fsz / n). assert (Q : 0 <= q <= clusts g).
  { split; [apply Z.div_pos; lia|]. apply Z.div_le_upper_bound; lia. }
  pose proof (Z.div_mod fsz n ltac:(lia)) as DM. fold q in DM. pose proof (Z.mod_pos_bound fsz n B) as MB.
  rewrite (w32_id q) by (unfold EOC in CP; lia).
  assert (R : (fsz + n - 1) / n = q + (if fsz mod n =? 0 then 0 else 1)).
  { destruct (Z.eqb_spec (fsz mod n) 0); symmetry; [apply (Z.div_unique_pos _ _ _ (n - 1))|apply (Z.div_unique_pos _ _ _ (fsz mod n - 1))]; nia. }
  rewrite R. unfold EOC in CP. split; [apply w32_id; destruct (fsz mod n =? 0); lia|]. destruct (Z.eqb_spec (fsz mod n) 0) as [Z0|]; [|lia].
  assert (q <> 0); [|lia]. intros Q0. rewrite Q0 in DM. lia.
Qed.

Lemma run_inside v s d n : 2 <= s < n_fatent g -> 0 <= d -> 0 < n -> d + n <= clusts g ->
  free_run g bb v s d n -> used g bb v 2 = true \/ used g bb v (n_fatent g - 1) = true ->
  ring g s d + n <= n_fatent g /\ forall c, ring g s d <= c < ring g s d + n -> used g bb v c = false.
Proof using G.
  intros S D N L FR U. pose proof (clusts_pos g bb G) as CP. set (p := (s - 2 + d) mod clusts g).
  assert (PR : 0 <= p < clusts g) by (apply Z.mod_pos_bound; lia).
  assert (RJ : forall j, 0 <= j < n -> ring g s (d + j) = 2 + (p + j) mod clusts g).
  { intros j J. unfold ring, p. rewrite Zplus_mod_idemp_l. replace (s - 2 + (d + j)) with (s - 2 + d + j) by lia. reflexivity. }
  assert (IN : p + n <= clusts g).
  { destruct (Z_le_gt_dec (p + n) (clusts g)) as [|X]; auto. exfalso. destruct U as [U|U].
    - specialize (FR (clusts g - p) ltac:(lia)). rewrite RJ in FR by lia. replace (p + (clusts g - p)) with (clusts g) in FR by lia.
      rewrite Z.mod_same in FR by lia. change (2 + 0) with 2 in FR. congruence.
    - specialize (FR (clusts g - 1 - p) ltac:(lia)). rewrite RJ in FR by lia. replace (p + (clusts g - 1 - p)) with (clusts g - 1) in FR by lia.
      rewrite Z.mod_small in FR by lia. replace (2 + (clusts g - 1)) with (n_fatent g - 1) in FR by (unfold clusts; lia). congruence. }
  assert (R0 : ring g s d = 2 + p) by reflexivity. rewrite R0. split; [unfold clusts in *; lia|].
  intros c C. specialize (FR (c - 2 - p) ltac:(lia)). rewrite RJ in FR by lia. rewrite Z.mod_small in FR by lia.
  replace (2 + (p + (c - 2 - p))) with c in FR by lia. auto.
Qed.

Lemma set_info_unchanged v v' f l i : unchanged g bb v v' -> xvol_ok g (set_info v' f l i) /\ same_bits g bb v (set_info v' f l i) /\
  same_ents g v (set_info v' f l i) /\ same_other g bb v (set_info v' f l i).
Proof using.
  intros (A & B & C & D & _). split; [|split; [exact B|split; [exact C|exact D]]].
  destruct A as [a b c d e]. constructor; auto.
Qed.

Lemma marked_info v v' a b x f l i : marked g bb v v' a b x -> marked g bb v (set_info v' f l i) a b x.
Proof using.
  intros (A & B & C & D). split; [|split; [exact B|split; [exact C|exact D]]].
  destruct A as [p q c d e]. constructor; auto.
Qed.

Lemma expand_ok v o fsz fuel : xvol_ok g v -> (exists k, 0 <= k /\ csize g = 2 ^ k) -> 0 <= last_clst v < 4294967296 ->
  0 < fsz -> fsz <= cbytes g * clusts g -> clusts g <= Z.of_nat fuel ->
  used g bb v 2 = true \/ used g bb v (n_fatent g - 1) = true ->
  exists v' o' r, xexpand fuel g bb v o fsz true = Ok (v', o', r) /\
    ((r = FR_DENIED /\ o' = o /\ unchanged g bb v v') \/
     (r = FR_OK /\ stat o' = 2 /\ objsize o' = fsz /\ 2 <= sclust o' /\ sclust o' + clusters_of g fsz <= n_fatent g /\
      (forall c, sclust o' <= c < sclust o' + clusters_of g fsz -> used g bb v c = false) /\
      marked g bb v v' (sclust o') (sclust o' + clusters_of g fsz) true)).
Proof using G.
  intros V P L F M FU U. unfold xexpand. destruct (tcl_ok fsz P F M) as [TE TR]. rewrite TE. set (t := clusters_of g fsz) in *.
  set (st := if (last_clst v <? 2) || (n_fatent g <=? last_clst v) then 2 else last_clst v).
  assert (SR : 0 <= st < 4294967296) by (unfold st; destruct ((last_clst v <? 2) || (n_fatent g <=? last_clst v)); lia).
  destruct (search_ok v st t fuel V SR TR FU) as (v1 & r1 & E1 & U1 & R). rewrite E1. cbn [bind].
  pose proof (clusts_pos g bb G) as CP. unfold EOC in CP. pose proof (origin_range st) as OR.
  destruct R as [(d & D0 & D1 & -> & FR & MN)|(-> & NO)].
  2: { change (0 =? 0) with true. cbv iota. exists v1, o, FR_DENIED. split; auto. }
  destruct (run_inside v (origin g st) d t OR D0 ltac:(lia) D1 FR U) as [IN FREE].
  set (s := ring g (origin g st) d) in *. assert (S2 : 2 <= s).
  { unfold s, ring. pose proof (Z.mod_pos_bound (origin g st - 2 + d) (clusts g) ltac:(lia)). lia. }
  replace (s =? 0) with false by lia. replace (s =? ERR) with false by (unfold ERR, clusts in *; lia).
  pose proof (clusts_bits g bb G) as CB.
  destruct U1 as (UA & UB & UC & UD & UE).
  assert (US : forall c, 2 <= c < bits g + 2 -> used g bb v1 c = used g bb v c) by (intros c Hc; apply UB; lia).
  destruct (change_marks v1 s t true fuel UA S2) as (v2 & m & r2 & E2 & MK & SI & PR & Q); [lia|unfold clusts in *; lia|lia|unfold clusts in *; lia|unfold clusts in *; lia|].
  rewrite E2. cbn [bind]. destruct Q as [(-> & ->)|(Q1 & _ & Q3)].
  2: { exfalso. rewrite US in Q3 by (unfold clusts in *; lia). rewrite FREE in Q3 by lia. discriminate. }
  eexists _, _, FR_OK. split; [reflexivity|]. right. cbn [sclust stat objsize set_size set_stat set_start].
  split; auto. split; auto. split; auto. split; auto. split; auto. split; auto.
  assert (MM : marked g bb v v2 s (s + t) true).
  { destruct MK as (K1 & K2 & K3 & K4). split; auto. split; [|split].
    - intros c C. rewrite K2, US by auto. auto.
    - intros c C. rewrite K3, UC by auto. auto.
    - intros x y X Y. rewrite K4, UD by auto. auto. }
  match goal with |- marked _ _ _ (if ?b then _ else _) _ _ _ => destruct b end; repeat apply marked_info; auto.
Qed.

(* --- the count --- *)

Definition cnt (v : vol) (k : nat) : Z := Z.of_nat (length (filter (free_in (busy g bb v)) (map (fun i => 2 + Z.of_nat i) (seq 0 k)))).

Lemma cnt_S v k : cnt v (S k) = cnt v k + (if bit g bb v (Z.of_nat k) then 0 else 1).
Proof using.
  unfold cnt. rewrite seq_S, map_app, filter_app, app_length. cbn [map filter Nat.add].
  assert (E : free_in (busy g bb v) (2 + Z.of_nat k) = negb (bit g bb v (Z.of_nat k))).
  { unfold free_in, busy, used. replace (2 + Z.of_nat k - 2) with (Z.of_nat k) by lia. destruct (bit g bb v (Z.of_nat k)); auto. }
  rewrite E. destruct (bit g bb v (Z.of_nat k)); cbn [negb length]; lia.
Qed.
Lemma cnt_le v k : 0 <= cnt v k <= Z.of_nat k.
Proof using. induction k; [change (cnt v 0) with 0; lia|]. rewrite cnt_S. destruct (bit g bb v (Z.of_nat k)); lia. Qed.
Lemma cnt_all v : cnt v (Z.to_nat (clusts g)) = xfree g bb v. Proof using. reflexivity. Qed.

Lemma not_bit_all : forallb (fun b => forallb (fun j => Bool.eqb (Z.testbit (255 - b) j) (negb (Z.testbit b j))) (map Z.of_nat (seq 0 8))) (map Z.of_nat (seq 0 256)) = true.
Proof using. vm_compute. reflexivity. Qed.
Lemma in_nats x n : 0 <= x < Z.of_nat n -> In x (map Z.of_nat (seq 0 n)).
Proof using. intros H. apply in_map_iff. exists (Z.to_nat x). split; [lia|]. apply in_seq. lia. Qed.
Lemma not_bit b j : vbyte b -> 0 <= j < 8 -> Z.testbit (255 - b) j = negb (Z.testbit b j).
Proof using.
  intros B J. pose proof not_bit_all as H. rewrite forallb_forall in H. specialize (H b (in_nats b 256 B)). rewrite forallb_forall in H.
  specialize (H j (in_nats j 8 J)). now apply eqb_prop in H.
Qed.
Lemma low_bit x : Z.land x 1 = if Z.testbit x 0 then 1 else 0.
Proof using. change 1 with (Z.ones 1) at 1. rewrite Z.land_ones by lia. change (2 ^ 1) with 2. rewrite Zmod_odd. now rewrite Z.bit0_odd. Qed.

Lemma count8_ok v q b : vbyte b -> 0 <= q -> (forall j, 0 <= j < 8 -> Z.testbit b j = bit g bb v (8 * q + j)) ->
  forall m p, (m <= 8)%nat -> p = 8 * q + (8 - Z.of_nat m) -> p <= clusts g ->
  count8 m (Z.shiftr (255 - b) (8 - Z.of_nat m)) (clusts g - p) (cnt v (Z.to_nat p)) =
  (clusts g - Z.min (clusts g) (8 * q + 8), cnt v (Z.to_nat (Z.min (clusts g) (8 * q + 8)))).
Proof using G.
  intros B Q T. pose proof (clusts_pos g bb G) as CP. unfold EOC in CP.
  induction m as [|m IH]; intros p M P L.
  - cbn [count8]. rewrite Z.min_r by lia. replace (8 * q + 8) with p by lia. auto.
  - cbn [count8]. destruct (Z.eqb_spec (clusts g - p) 0) as [E|E].
    + rewrite Z.min_l by lia. replace (clusts g) with p by lia. auto.
    + rewrite (w32_id (clusts g - p - 1)) by lia. rewrite Z.shiftr_shiftr by lia.
      rewrite low_bit, Z.shiftr_spec by lia. rewrite Z.add_0_l, not_bit by (auto; lia). rewrite T by lia.
      pose proof (cnt_le v (Z.to_nat p)) as CL.
      replace (8 * q + (8 - Z.of_nat (S m))) with (Z.of_nat (Z.to_nat p)) by lia.
      replace (8 - Z.of_nat (S m) + 1) with (8 - Z.of_nat m) by lia.
      replace (w32 (cnt v (Z.to_nat p) + (if negb (bit g bb v (Z.of_nat (Z.to_nat p))) then 1 else 0))) with (cnt v (Z.to_nat (p + 1))).
      2: { replace (Z.to_nat (p + 1)) with (S (Z.to_nat p)) by lia. rewrite cnt_S. rewrite w32_id by (destruct (negb _); lia). destruct (bit g bb v _); auto. }
      replace (clusts g - p - 1) with (clusts g - (p + 1)) by lia. apply IH; lia.
Qed.

Lemma count_loop_ok v0 fuel : forall v q, xvol_ok g v -> same_bits g bb v0 v -> 0 <= q -> 8 * q < clusts g -> clusts g - 8 * q <= Z.of_nat fuel ->
  (q mod ss g <> 0 -> winsect v = bb + q / ss g) ->
  exists v', count_loop fuel g v (w32 (bb + q / ss g + (if q mod ss g =? 0 then 0 else 1))) (q mod ss g) (clusts g - 8 * q) (cnt v0 (Z.to_nat (8 * q))) = Ok (v', FR_OK, xfree g bb v0) /\
    xstep g bb v v' (bit g bb v) (xent g v).
Proof using G.
  pose proof (clusts_pos g bb G) as CP. pose proof (ssz g bb G) as SS. pose proof (clusts_bits g bb G) as CB.
  induction fuel as [|fuel IH]; intros v q V SB Q L F W; [lia|].
  assert (KB : 0 <= 8 * q < bits g) by lia.
  assert (D8 : 8 * q / 8 = q) by (rewrite Z.mul_comm; apply Z.div_mul; lia).
  pose proof (bit_sector g bb G (8 * q) KB) as IB. rewrite D8 in IB.
  pose proof (Z.mod_pos_bound q (ss g) ltac:(lia)) as QM.
  assert (WIN : exists v1, (if q mod ss g =? 0 then move_window g v (w32 (bb + q / ss g + (if q mod ss g =? 0 then 0 else 1))) else (v, FR_OK)) = (v1, FR_OK) /\
     xstep g bb v v1 (bit g bb v) (xent g v) /\ winsect v1 = bb + q / ss g).
  { destruct (Z.eqb_spec (q mod ss g) 0) as [E|E].
    - rewrite Z.add_0_r. rewrite (bm_w32 g bb G _ IB). apply (move_x g bb G); auto. apply (bm_mine g bb G); auto.
    - exists v. split; auto. split; [|auto]. constructor; auto; [intros s o _ _; auto|split; auto]. }
  destruct WIN as (v1 & E1 & X1 & W1). cbn [count_loop]. rewrite E1. rewrite rd_ok by lia. cbn [bind].
  assert (BT : forall j, 0 <= j < 8 -> Z.testbit (win v1 (q mod ss g)) j = bit g bb v0 (8 * q + j)).
  { intros j J. assert (KJ : 0 <= 8 * q + j < bits g).
    { split; [lia|]. unfold bits in *. nia. }
    assert (DJ : (8 * q + j) / 8 = q) by (symmetry; apply (Z.div_unique_pos _ _ _ j); lia).
    assert (MJ : (8 * q + j) mod 8 = j) by (symmetry; apply (Z.mod_unique_pos _ _ q); lia).
    rewrite <- SB by auto. rewrite <- (xs_bits _ _ _ _ _ _ X1) by auto. unfold bit, view. rewrite DJ, MJ, W1, Z.eqb_refl. auto. }
  change (255 - win v1 (q mod ss g)) with (Z.shiftr (255 - win v1 (q mod ss g)) (8 - Z.of_nat 8)).
  rewrite (count8_ok v0 q (win v1 (q mod ss g)) ltac:(apply X1) Q BT 8 (8 * q)) by lia.
  assert (XT : forall v', xstep g bb v1 v' (bit g bb v1) (xent g v1) -> xstep g bb v v' (bit g bb v) (xent g v)).
  { intros v' X2. eapply xs_ext; [eapply xs_trans; eauto| |]; intros k K; apply X1; auto. }
  destruct (Z.eqb_spec (clusts g - Z.min (clusts g) (8 * q + 8)) 0) as [E0|E0].
  - exists v1. rewrite Z.min_l by lia. rewrite cnt_all. split; auto.
  - rewrite Z.min_r by lia. replace (8 * q + 8) with (8 * (q + 1)) by lia.
    destruct (IH v1 (q + 1)) as (v2 & E2 & X2).
    + apply X1.
    + intros k K. rewrite (xs_bits _ _ _ _ _ _ X1) by auto. apply SB; auto.
    + lia.
    + lia.
    + lia.
    + intros H. destruct (Z_lt_ge_dec (q mod ss g + 1) (ss g)) as [A|A].
      * destruct (adv_in q (ss g)) as [-> _]; auto; lia.
      * destruct (adv_out q (ss g)) as [_ A2]; try lia.
    + exists v2. split; [|auto]. rewrite <- E2. f_equal.
      * destruct (Z_lt_ge_dec (q mod ss g + 1) (ss g)) as [A|A].
        -- destruct (adv_in q (ss g)) as [-> ->]; try lia. replace (q mod ss g + 1 =? 0) with false by lia.
           destruct (Z.eqb_spec (q mod ss g) 0); auto. rewrite Z.add_0_r. rewrite (bm_w32 g bb G _ IB). auto.
        -- destruct (adv_out q (ss g)) as [-> ->]; try lia. change (0 =? 0) with true. cbv iota. replace (q mod ss g =? 0) with false by lia.
           f_equal. lia.
      * rewrite Zplus_mod_idemp_l. auto.
Qed.

Lemma count_ok v fuel : xvol_ok g v -> clusts g <= Z.of_nat fuel ->
  exists v', count_bitmap fuel g bb v = Ok (v', FR_OK, xfree g bb v) /\ unchanged g bb v v'.
Proof using G.
  intros V F. pose proof (clusts_pos g bb G) as CP. pose proof (ssz g bb G) as SS.
  destruct (count_loop_ok v fuel v 0) as (v' & E & X); auto; try lia.
  - intros k K. auto.
  - rewrite Z.mod_0_l by lia. tauto.
  - exists v'. split; [|now apply step_unchanged]. unfold count_bitmap. rewrite (w32_N g bb G).
    rewrite <- E. rewrite Z.mod_0_l, Z.div_0_l by lia. change (0 =? 0) with true. cbv iota.
    replace (clusts g - 8 * 0) with (clusts g) by lia. rewrite !Z.add_0_r.
    pose proof (bm_w32 g bb G bb) as WB. rewrite WB by (unfold in_bm; pose proof (nbm_pos g bb G); lia). reflexivity.
Qed.

End S.
