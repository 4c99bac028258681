(* Sectors of files. *)
From Coq Require Import ZifyClasses ZifyInst ZifyBool.
From Verif Require Import Base FatModel FatSpec FileModel FileSpec FatProof FatProof2 FatProof3 FatProof4 FatProof5 FatProof6.
Open Scope Z_scope.
Ltac Zify.zify_post_hook ::= Z.div_mod_to_equations.

Lemma cs_pos g : data_ok g -> 0 < csize g <= 128.
Proof. intros G. destruct (ok_csize g G) as [H|[H|[H|[H|[H|[H|[H|H]]]]]]]; rewrite H; lia. Qed.
Lemma bcs_pos g : geo_ok g -> data_ok g -> 0 < bcs g.
Proof. intros G A. unfold bcs. pose proof (cs_pos g A). pose proof (ss_pos g G). nia. Qed.
Lemma cs_land g x : data_ok g -> 0 <= x -> Z.land x (csize g - 1) = x mod csize g.
Proof.
  intros G X. destruct (ok_csize g G) as [H|[H|[H|[H|[H|[H|[H|H]]]]]]]; rewrite H.
  - change (1 - 1) with (Z.ones 0). rewrite Z.land_ones by lia. reflexivity.
  - change (2 - 1) with (Z.ones 1). rewrite Z.land_ones by lia. reflexivity.
  - change (4 - 1) with (Z.ones 2). rewrite Z.land_ones by lia. reflexivity.
  - change (8 - 1) with (Z.ones 3). rewrite Z.land_ones by lia. reflexivity.
  - change (16 - 1) with (Z.ones 4). rewrite Z.land_ones by lia. reflexivity.
  - change (32 - 1) with (Z.ones 5). rewrite Z.land_ones by lia. reflexivity.
  - change (64 - 1) with (Z.ones 6). rewrite Z.land_ones by lia. reflexivity.
  - change (128 - 1) with (Z.ones 7). rewrite Z.land_ones by lia. reflexivity.
Qed.

Lemma bcs_pow g : geo_ok g -> data_ok g -> exists k, 0 <= k /\ bcs g = 2 ^ k.
Proof.
  intros G A. unfold bcs.
  assert (S : exists k, 0 <= k /\ ss g = 2 ^ k).
  { destruct (ok_ss g G) as [H|[H|[H|H]]]; rewrite H; [exists 9|exists 10|exists 11|exists 12]; split; try lia; reflexivity. }
  assert (C : exists k, 0 <= k /\ csize g = 2 ^ k).
  { destruct (ok_csize g A) as [H|[H|[H|[H|[H|[H|[H|H]]]]]]]; rewrite H; [exists 0|exists 1|exists 2|exists 3|exists 4|exists 5|exists 6|exists 7]; split; try lia; reflexivity. }
  destruct S as (a & A1 & ->), C as (b & B1 & ->). exists (b + a). split; [lia|]. now rewrite Z.pow_add_r.
Qed.
(* Rounding down to the start of a cluster. *)
Lemma round_down g x : geo_ok g -> data_ok g -> 0 <= x -> Z.land x (Z.lnot (bcs g - 1)) = bcs g * (x / bcs g).
Proof.
  intros G A X. destruct (bcs_pow g G A) as (k & K & ->). replace (2 ^ k - 1) with (Z.ones k) by (rewrite Z.ones_equiv; lia).
  rewrite <- Z.ldiff_land, Z.ldiff_ones_r by lia. rewrite Z.shiftl_mul_pow2, Z.shiftr_div_pow2 by lia. lia.
Qed.

Lemma div_bcs g p : geo_ok g -> data_ok g -> p / bcs g = p / ss g / csize g.
Proof. intros G A. unfold bcs. pose proof (cs_pos g A). pose proof (ss_pos g G). rewrite Z.mul_comm, Z.div_div by lia. reflexivity. Qed.

(* The q-th sector of a file. *)
Definition secn (g : geo) (l : list Z) (q : Z) : Z := database g + csize g * (nth (Z.to_nat (q / csize g)) l 0 - 2) + q mod csize g.
Lemma sector_secn g l p : geo_ok g -> data_ok g -> sector_of g l p = secn g l (p / ss g).
Proof. intros G A. unfold sector_of, secn. now rewrite div_bcs. Qed.

Lemma q_index g n q : data_ok g -> 0 <= q < Z.of_nat n * csize g -> (Z.to_nat (q / csize g) < n)%nat.
Proof. intros A H. pose proof (cs_pos g A). assert (q / csize g < Z.of_nat n) by (apply Z.div_lt_upper_bound; lia). lia. Qed.

Lemma secn_cluster g l q : data_ok g -> 0 <= q < Z.of_nat (length l) * csize g ->
  In (nth (Z.to_nat (q / csize g)) l 0) l /\ in_cluster g (nth (Z.to_nat (q / csize g)) l 0) (secn g l q).
Proof.
  intros A H. pose proof (cs_pos g A). split.
  - apply nth_In. now apply q_index.
  - unfold in_cluster, secn. pose proof (Z.mod_pos_bound q (csize g)). lia.
Qed.

Lemma cluster_disj g c c' s : data_ok g -> in_cluster g c s -> in_cluster g c' s -> c = c'.
Proof. intros A H H'. pose proof (cs_pos g A). unfold in_cluster in *. nia. Qed.

Lemma secn_inj g l q q' : data_ok g -> NoDup l -> 0 <= q < Z.of_nat (length l) * csize g -> 0 <= q' < Z.of_nat (length l) * csize g ->
  secn g l q = secn g l q' -> q = q'.
Proof.
  intros A N H H' E. pose proof (cs_pos g A). destruct (secn_cluster g l q A H) as [I1 C1]. destruct (secn_cluster g l q' A H') as [I2 C2].
  rewrite <- E in C2. pose proof (cluster_disj g _ _ _ A C1 C2) as Q. pose proof E as E'. unfold secn in E'. rewrite Q in E'.
  pose proof (proj1 (NoDup_nth l 0) N _ _ (q_index g _ q A H) (q_index g _ q' A H') Q) as J.
  assert (q / csize g = q' / csize g) by (apply Z2Nat.inj; auto; apply Z.div_pos; lia).
  rewrite (Z.div_mod q (csize g)), (Z.div_mod q' (csize g)) by lia. nia.
Qed.

Lemma cluster_out g c s : geo_ok g -> data_ok g -> 2 <= c < n_fatent g -> in_cluster g c s -> outside g s.
Proof.
  intros G A C H. pose proof (cs_pos g A). pose proof (ok_behind g A). pose proof (ok_data g A). pose proof (ok_base g G). pose proof (ok_fsize g G).
  unfold in_cluster in H. unfold outside, mine, second, in_fat. destruct (ok_fats g G) as [F|F]; rewrite F in *; nia.
Qed.

Lemma clst_sect g c : geo_ok g -> data_ok g -> 2 <= c < n_fatent g -> clst2sect g c = database g + csize g * (c - 2) /\ 0 < database g + csize g * (c - 2) /\
  database g + csize g * (c - 1) <= dsize g.
Proof.
  intros G A C. pose proof (cs_pos g A). pose proof (ok_behind g A). pose proof (ok_data g A). pose proof (ok_base g G). pose proof (ok_fsize g G).
  pose proof (ok_dsize g G). pose proof (ent_small g G) as (N1 & _).
  assert (D0 : 0 < database g) by (destruct (ok_fats g G) as [F|F]; rewrite F in *; lia).
  assert (0 <= csize g * (c - 2)) by nia. assert (csize g * (c - 1) <= csize g * (n_fatent g - 2)) by nia.
  assert (csize g * (c - 1) = csize g * (c - 2) + csize g) by ring.
  unfold clst2sect. rewrite (w32_id (c - 2)), (w32_id (n_fatent g - 2)) by lia.
  replace (n_fatent g - 2 <=? c - 2) with false by lia. rewrite (w32_id (csize g * (c - 2))) by lia.
  rewrite w32_id by lia. lia.
Qed.

Lemma secn_app g l m q : data_ok g -> 0 <= q < Z.of_nat (length l) * csize g -> secn g (l ++ m) q = secn g l q.
Proof. intros A H. unfold secn. rewrite app_nth1; [auto|now apply q_index]. Qed.
Lemma secn_firstn g l k q : data_ok g -> 0 <= q < Z.of_nat k * csize g -> secn g (firstn k l) q = secn g l q.
Proof.
  intros A H. pose proof (q_index g k q A H) as B. unfold secn. f_equal. f_equal. f_equal. f_equal.
  rewrite <- (firstn_skipn k l) at 2. destruct (Nat.le_gt_cases k (length l)) as [K|K].
  - rewrite app_nth1; [auto|]. rewrite firstn_length. lia.
  - rewrite firstn_all2, skipn_all2, app_nil_r by lia. auto.
Qed.

Lemma q_room g n p : geo_ok g -> 0 <= p < Z.of_nat n * bcs g -> 0 <= p / ss g < Z.of_nat n * csize g.
Proof.
  intros G H. pose proof (ss_pos g G). unfold bcs in H. split; [apply Z.div_pos; lia|]. apply Z.div_lt_upper_bound; [lia|].
  replace (ss g * (Z.of_nat n * csize g)) with (Z.of_nat n * (csize g * ss g)) by ring. lia.
Qed.

(* --- chains of a file ---------------------------------------------------------- *)

Lemma own_chain g v cs i : owns g v cs -> (i < length cs)%nat -> chain g (entry g v) (nth i cs []) /\ NoDup (nth i cs []) /\ In (nth i cs []) cs.
Proof.
  intros O I. pose proof (ow_chain _ _ _ O) as C. rewrite Forall_forall in C. pose proof (nth_In cs [] I) as J. split; [now apply C|]. split; [|auto].
  pose proof (ow_nodup _ _ _ O) as N. rewrite (at_perm cs i I) in N. now apply nodup_app_l in N.
Qed.

(* --- sectors kept ---------------------------------------------------------------- *)

(* Everything outside the FATs is the same, except for the clusters [own]. *)
Definition keeps (g : geo) (own : list Z) (v v' : vol) : Prop :=
  forall s o, outside g s -> 0 <= o < ss g -> (forall c, In c own -> ~ in_cluster g c s) -> view v' s o = view v s o.
Lemma keeps_refl g own v : keeps g own v v.
Proof. intros s o H1 H2 H3. auto. Qed.
Lemma keeps_trans g own a b c : keeps g own a b -> keeps g own b c -> keeps g own a c.
Proof. intros A B s o H1 H2 H3. rewrite B, A; auto. Qed.
Lemma keeps_mono g own own' a b : (forall c, In c own -> In c own') -> keeps g own a b -> keeps g own' a b.
Proof. intros M A s o H1 H2 H3. apply A; auto. Qed.
Lemma keeps_outside g own a b : same_outside g a b -> keeps g own a b.
Proof. intros A s o H1 H2 H3. auto. Qed.

Lemma fat_not_ours g D s : geo_ok g -> data_ok g -> in_fat g s -> ~ ours g D s.
Proof. intros G A H (c & C & I & _). apply (cluster_out g c s G A C) in I. destruct I. auto. Qed.
Lemma apart_win g D v v' : geo_ok g -> data_ok g -> apart g D v -> (winsect v' = winsect v \/ in_fat g (winsect v')) -> apart g D v'.
Proof. intros G A P [W|W]; unfold apart; [now rewrite W|now apply fat_not_ours]. Qed.
Lemma ours_view g D v s o : apart g D v -> ours g D s -> view v s o = disk v s o.
Proof. intros P H. unfold view. destruct (Z.eqb_spec s (winsect v)) as [->|]; [now destruct P|auto]. Qed.

(* The clusters D are not those of chain i. *)
Definition private (D : list Z) (cs : list (list Z)) (i : nat) : Prop := forall c, In c D -> In c (concat cs) /\ ~ In c (nth i cs []).

Lemma cluster_ours g D cs i v c s : owns g v cs -> (i < length cs)%nat -> private D cs i -> In c (nth i cs []) -> in_cluster g c s -> ours g D s.
Proof.
  intros O I P C H. destruct (own_chain g v cs i O I) as (Ch & _ & _). exists c. split; [now apply (chain_in _ _ _ _ Ch)|]. split; [auto|].
  intros X. now apply P in X.
Qed.

(* The state of the volume between two steps of an operation on file i. *)
Record ready (g : geo) (D : list Z) (cs : list (list Z)) (i : nat) (v : vol) : Prop := {
  rd_own : owns g v cs; rd_idx : (i < length cs)%nat; rd_apart : apart g D v; rd_priv : private D cs i }.

Lemma edit_at {A} (l : list A) i x d : (i < length l)%nat -> nth i (edit l i x) d = x.
Proof. intros H. unfold edit. rewrite app_nth2; rewrite firstn_length, Nat.min_l by lia; [|lia]. now rewrite Nat.sub_diag. Qed.
Lemma edit_other {A} (l : list A) i j x d : (i < length l)%nat -> j <> i -> nth j (edit l i x) d = nth j l d.
Proof.
  intros H N. unfold edit. rewrite (split_at l i d H) at 3. assert (L : length (firstn i l) = i) by (rewrite firstn_length; lia).
  destruct (Nat.lt_ge_cases j i) as [K|K].
  - rewrite !app_nth1 by lia. auto.
  - rewrite !app_nth2 by lia. destruct (j - length (firstn i l))%nat as [|k] eqn:E; [lia|]. reflexivity.
Qed.

Lemma private_grow D cs i m : (i < length cs)%nat -> private D cs i -> (forall c, In c m -> ~ In c (concat cs)) ->
  private D (edit cs i (nth i cs [] ++ m)) i.
Proof.
  intros I P F c Hc. destruct (P c Hc) as [P1 P2]. split.
  - rewrite (edit_perm cs i _ I). rewrite (at_perm cs i I) in P1. apply in_app_or in P1. apply in_or_app. destruct P1; [easy|auto].
  - rewrite edit_at by auto. intros X. apply in_app_or in X. destruct X as [X|X]; [auto|]. now apply F in X.
Qed.
Lemma private_cut D cs i k : (i < length cs)%nat -> private D cs i -> private D (edit cs i (firstn k (nth i cs []))) i.
Proof.
  intros I P c Hc. destruct (P c Hc) as [P1 P2]. split.
  - rewrite (edit_perm cs i _ I). rewrite (at_perm cs i I) in P1. apply in_app_or in P1. apply in_or_app. destruct P1; [easy|auto].
  - rewrite edit_at by auto. intros X. apply in_firstn in X. auto.
Qed.

(* Reading the entry of a cluster of the file. *)
Lemma get_ready g D cs i v k : geo_ok g -> data_ok g -> ready g D cs i v -> let l := nth i cs [] in (k < length l)%nat ->
  exists v', get_fat g v (nth k l 0) = Ok (v', entry g v (nth k l 0)) /\ ready g D cs i v' /\ same_outside g v v' /\
    (forall c, 0 <= c < n_fatent g -> entry g v' c = entry g v c) /\ same_info v v'.
Proof.
  intros G A [O I P Q] l K. destruct (own_chain g v cs i O I) as (Ch & N & J). destruct (chain_nth g _ _ Ch k K) as (R & _).
  destruct (get_entry g v _ G (ow_vol _ _ _ O) R) as (v' & E & Es & If). exists v'. split; [auto|]. split; [|split; [apply Es|split; [apply Es|auto]]].
  constructor; auto; [|apply (apart_win g D v v' G A P), Es].
  assert (EE : forall c, 0 <= c < n_fatent g -> entry g v' c = entry g v c) by apply Es.
  constructor.
  - apply Es.
  - pose proof (ow_chain _ _ _ O) as C. rewrite Forall_forall in C. apply Forall_forall. intros m Hm. eapply chain_ext; [|apply (C m Hm)].
    intros c Hc. pose proof (chain_in _ _ _ _ (C m Hm) Hc). symmetry. apply EE. lia.
  - apply O.
  - intros c Hc Hn. rewrite EE by lia. now apply (ow_rest _ _ _ O).
  - apply (moved_free g v v' G EE If). apply (ow_free _ _ _ O).
  - destruct If as (_ & L & _). rewrite L. apply O.
Qed.
