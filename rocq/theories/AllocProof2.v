(* Allocator operations preserve the layout invariant, at every nesting depth. *)
From Verif Require Import Base BaseLemmas AllocModel AllocSpec AllocProof.
Open Scope Z_scope.

Section Proof2.

Variable P : Z.
Hypothesis HP : P = 4 \/ P = 8.

Notation W := (W P).
Notation wrap := (wrap P).
Notation load := (load P).
Notation store := (store P).
Notation rep := (rep P).
Notation tile := (tile P).
Notation al := (al P).

Local Hint Resolve al_add al_sub al_P al_P2 : al.

Definition foot (b : blk) (z : Z) : Prop :=
  ba b <= z < ba b + (if bf b then 2 * P else P).

Lemma rep_frame m m' c B :
  rep m c B -> same_bounds m m' ->
  (forall b z, In b B -> foot b z -> bytes m' z = bytes m z) -> rep m' c B.
Proof.
  pose proof (P_pos P HP).
  intros [R1 R2 R3 R4 R5 R6 R7 R8 R9 R10 R11] Hb Hf. constructor; auto.
  - destruct Hb; lia.
  - destruct Hb; lia.
  - apply (words_frame P HP m); auto. intros b z Hin Hz. apply (Hf b); auto. unfold foot.
    destruct (bf b); lia.
  - apply (links_frame P HP m); auto. intros b z Hin Hz. apply frees_in in Hin. destruct Hin as [Hin E].
    apply (Hf b); auto. unfold foot. rewrite E. lia.
Qed.

Definition in_region (c : ctx) (z : Z) : Prop := heap_start c <= z < heap_start c + heap_size c.

(* Outcome of an operation on one context. *)
Record opres (m : mem) (c : ctx) (m' : mem) (c' : ctx) (B' : list blk) : Prop := {
  o_rep : rep m' c' B';
  o_start : heap_start c' = heap_start c;
  o_size : heap_size c' = heap_size c;
  o_bnd : same_bounds m m';
  o_region : forall z, ~ in_region c z -> bytes m' z = bytes m z }.

Lemma rep_in m c B b : rep m c B -> In b B ->
  heap_start c <= ba b /\ ba b + bs b <= heap_start c + heap_size c /\ 2 * P <= bs b /\ al (bs b) /\ al (ba b) /\ 0 < ba b.
Proof.
  intros R Hb. destruct (tile_in P HP _ _ _ _ (r_tile _ _ _ _ R) Hb) as (? & ? & ? & ?).
  pose proof (tile_al P HP _ _ _ _ (r_tile _ _ _ _ R) (r_al _ _ _ _ R) Hb).
  pose proof (r_pos _ _ _ _ R). repeat split; auto; lia.
Qed.

Lemma rep_apart m c B x y : rep m c B -> In x B -> In y B -> x = y \/ apart x y.
Proof. intros R. eapply tile_apart2; eauto. apply (r_tile _ _ _ _ R). Qed.

Lemma keeps_region m m' c B ex len :
  rep m c B -> keeps m m' B ex len ->
  heap_start c <= ex /\ ex + len <= heap_start c + heap_size c \/ len = 0 ->
  forall z, ~ in_region c z -> bytes m' z = bytes m z.
Proof.
  intros R K Hex z Hz. unfold in_region in Hz. apply K; [|lia].
  intros b Hb Hc. apply frees_in in Hb. destruct (rep_in _ _ _ _ R (proj1 Hb)). lia.
Qed.

(* --- fpm_alloc --- *)

Definition alloc_ok (m : mem) (c : ctx) (B : list blk) (n : Z) (m' : mem) (c' : ctx) (q : Z) : Prop :=
  exists B1 b B2 B' us, B = B1 ++ b :: B2 /\ bf b = true /\
    (forall x, In x (frees B1) -> bs x < chunk_size P n) /\ chunk_size P n <= bs b /\
    q = ba b + P /\ opres m c m' c' B' /\ keeps m m' B 0 0 /\
    used B' = used B1 ++ Blk (ba b) us false :: used B2 /\
    chunk_size P n <= us /\ us <= bs b /\ free_size c' = free_size c - us.

Lemma alloc_dirty_ok m c B n :
  rep m c B -> req_ok P n ->
  ((forall b, In b (frees B) -> bs b < chunk_size P n) /\ alloc_dirty P m c n = Ok (m, c, 0)) \/
  exists m' c' q, alloc_dirty P m c n = Ok (m', c', q) /\ alloc_ok m c B n m' c' q.
Proof.
  intros R Hn. destruct (alloc_dirty_spec P HP m c B n R Hn) as
    [H | (B1 & b & B2 & m' & c' & B' & us & EB & Hbf & Hlt & Hk & E & R' & HS & HZ & SB & K & U & U1 & U2 & U3 & F)].
  - left. exact H.
  - right. exists m', c', (ba b + P). split; auto. exists B1, b, B2, B', us.
    repeat (split; [first [assumption|reflexivity]|]).
    split; [|tauto]. constructor; auto. eapply keeps_region; eauto.
Qed.

Lemma alloc_ok_facts m c B n m' c' q :
  rep m c B -> req_ok P n -> alloc_ok m c B n m' c' q ->
  exists B' u, opres m c m' c' B' /\ In u (used B') /\ q = ba u + P /\ P + n <= bs u /\
    In (Blk (ba u) (bs u) false) (used B') /\
    (forall x, In x (used B) -> In x (used B') /\ x <> u) /\
    (forall x, In x (used B') -> x = u \/ In x (used B)) /\ ~ In u (used B) /\
    keeps m m' B 0 0 /\ free_size c' = free_size c - bs u /\ bf u = false /\
    0 < q /\
    (exists f, In f (frees B) /\ ba f = ba u /\ bs u <= bs f).
Proof.
  intros R Hn (B1 & b & B2 & B' & us & EB & Hbf & Hlt & Hk & Eq & O & K & U & U1 & U2 & F).
  pose proof (P_pos P HP).
  destruct (chunk_size_props P HP n Hn) as (K1 & K2 & K3 & K4).
  exists B', (Blk (ba b) us false). cbn [ba bs].
  assert (Hb : In b B) by (subst B; apply in_app_iff; right; left; auto).
  assert (Hnu : forall x, In x (used B) -> x <> Blk (ba b) us false).
  { intros x Hx ->. apply used_in in Hx. destruct Hx as [Hx _].
    destruct (rep_apart _ _ _ _ _ R Hx Hb) as [E | A].
    - rewrite <- E in Hbf. discriminate.
    - unfold apart in A. cbn in A. destruct (rep_in _ _ _ _ R Hb). lia. }
  assert (Uu : used B = used B1 ++ used B2).
  { subst B. rewrite used_app. cbn. rewrite Hbf. reflexivity. }
  split; [auto|]. split. { rewrite U. apply in_app_iff. right. left. auto. }
  split; [auto|]. split; [lia|].
  split. { rewrite U. apply in_app_iff. right. left. auto. }
  split. { intros x Hx. split; auto. rewrite U. rewrite Uu in Hx. rewrite in_app_iff in *. cbn. tauto. }
  split. { intros x Hx. rewrite U in Hx. rewrite Uu. rewrite in_app_iff in *. cbn in Hx. intuition. }
  split. { intros Hx. eapply Hnu; eauto. }
  split; [auto|]. split; [auto|]. split; [auto|].
  destruct (rep_in _ _ _ _ R Hb). split; [lia|].
  exists b. split; [apply frees_in; auto|]. split; [auto|lia].
Qed.

Lemma used_sub B x : In x (used B) -> In x B.
Proof. clear. intros H. apply used_in in H. tauto. Qed.

(* A change confined to the data of one used block. *)
Lemma rep_data m m' c B u :
  rep m c B -> In u (used B) -> same_bounds m m' ->
  (forall z, ~ (ba u + P <= z < ba u + bs u) -> bytes m' z = bytes m z) -> rep m' c B.
Proof.
  pose proof (P_pos P HP).
  intros R Hu Hb Hf. eapply rep_frame; eauto. intros b z Hin Hz. apply Hf.
  apply used_in in Hu. destruct Hu as [Hu Huf]. unfold foot in Hz.
  destruct (rep_in _ _ _ _ R Hin). destruct (rep_in _ _ _ _ R Hu).
  destruct (rep_apart _ _ _ _ _ R Hin Hu) as [-> | A].
  - rewrite Huf in Hz. lia.
  - unfold apart in A. destruct (bf b); lia.
Qed.

Lemma opres_data m c m' c' B' m'' u :
  opres m c m' c' B' -> In u (used B') -> same_bounds m' m'' ->
  (forall z, ~ (ba u + P <= z < ba u + bs u) -> bytes m'' z = bytes m' z) ->
  opres m c m'' c' B'.
Proof.
  pose proof (P_pos P HP).
  intros [O1 O2 O3 O4 O5] Hu Hb Hf. constructor; auto.
  - eapply rep_data; eauto.
  - eapply same_bounds_trans; eauto.
  - intros z Hz. rewrite Hf; auto. intros Hc. apply Hz. apply used_sub in Hu.
    destruct (rep_in _ _ _ _ O1 Hu). unfold in_region. lia.
Qed.

(* Result of fpm_alloc in terms of the new block [u] and the resulting layout. *)
Record alloced (m : mem) (c : ctx) (B : list blk) (n : Z) (m' : mem) (c' : ctx) (q : Z)
       (B' : list blk) (u : blk) : Prop := {
  a_op : opres m c m' c' B';
  a_in : In u (used B');
  a_q : q = ba u + P;
  a_big : P + n <= bs u;
  a_old : forall x, In x (used B) -> In x (used B') /\ x <> u;
  a_new : forall x, In x (used B') -> x = u \/ In x (used B);
  a_fresh : ~ In u (used B);
  a_keeps : keeps m m' B 0 0;
  a_fs : free_size c' = free_size c - bs u;
  a_pos : 0 < q;
  a_free : exists f, In f (frees B) /\ ba f = ba u /\ bs u <= bs f;
  a_fit : exists B1 b B2, B = B1 ++ b :: B2 /\ bf b = true /\ ba b = ba u /\
      (forall x, In x (frees B1) -> bs x < chunk_size P n) /\ chunk_size P n <= bs b }.

Lemma alloc_ok_alloced m c B n m' c' q :
  rep m c B -> req_ok P n -> alloc_ok m c B n m' c' q ->
  exists B' u, alloced m c B n m' c' q B' u.
Proof.
  intros R Hn A. pose proof A as (B1 & b & B2 & B0 & us & EB & Hbf & Hlt & Hk & Eq & _).
  destruct (alloc_ok_facts _ _ _ _ _ _ _ R Hn A) as
    (B' & u & O & I & Q & G & _ & H1 & H2 & H3 & K & F & _ & Hq & Hf).
  exists B', u. constructor; auto. exists B1, b, B2. repeat split; auto. lia.
Qed.

Lemma alloc_spec m c B n :
  rep m c B -> req_ok P n ->
  ((forall b, In b (frees B) -> bs b < chunk_size P n) /\ alloc P m c n = Ok (m, c, 0)) \/
  exists m' c' q B' u, alloc P m c n = Ok (m', c', q) /\ alloced m c B n m' c' q B' u /\
    forall z, q <= z < q + n -> bytes m' z = 0.
Proof.
  intros R Hn. pose proof (P_pos P HP). unfold alloc.
  destruct (alloc_dirty_ok m c B n R Hn) as [[Hl E] | (m1 & c1 & q & E & A)].
  - left. split; auto. rewrite E. reflexivity.
  - right. rewrite E. cbn [bind].
    destruct (alloc_ok_alloced _ _ _ _ _ _ _ R Hn A) as (B' & u & AL).
    pose proof (a_pos _ _ _ _ _ _ _ _ _ AL). pose proof (a_q _ _ _ _ _ _ _ _ _ AL).
    pose proof (a_big _ _ _ _ _ _ _ _ _ AL).
    destruct (Z.eqb_spec q 0); [lia|]. cbn [negb andb].
    destruct (Z.ltb_spec 0 n) as [Hn0 | Hn0].
    + unfold memzero.
      pose proof (o_rep _ _ _ _ _ (a_op _ _ _ _ _ _ _ _ _ AL)) as R1.
      pose proof (used_sub _ _ (a_in _ _ _ _ _ _ _ _ _ AL)) as Hu.
      destruct (rep_in _ _ _ _ R1 Hu) as (? & ? & ? & ? & ? & ?).
      pose proof (r_lom _ _ _ _ R1). pose proof (r_him _ _ _ _ R1).
      destruct (Z.leb_spec (mlo m1) q); [|lia]. destruct (Z.leb_spec (q + n) (mhi m1)); [|lia].
      cbn [andb bind].
      eexists _, c1, q, B', u. split; [reflexivity|]. split.
      * destruct AL as [A1 A2 A3 A4 A5 A6 A7 A8 A9 A10 A11 A12]. constructor; auto.
        -- eapply opres_data; eauto; [split; reflexivity|]. intros z Hz. cbn [bytes].
           destruct (Z.leb_spec q z); [|reflexivity]. destruct (Z.ltb_spec z (q + n)); [|reflexivity]. lia.
        -- intros z Hz Hz2. cbn [bytes]. rewrite <- A8 by auto.
           destruct (Z.leb_spec q z); [|reflexivity]. destruct (Z.ltb_spec z (q + n)); [|reflexivity].
           exfalso. destruct A11 as (f & Hf & Ef & Sf). apply (Hz f Hf). lia.
      * intros z Hz. cbn [bytes].
        destruct (Z.leb_spec q z); [|lia]. destruct (Z.ltb_spec z (q + n)); [|lia]. reflexivity.
    + exists m1, c1, q, B', u. split; [reflexivity|]. split; [auto|]. intros z Hz. lia.
Qed.

(* --- fpm_free --- *)

Record freed (m : mem) (c : ctx) (B : list blk) (u : blk) (m' : mem) (c' : ctx) (B' : list blk) : Prop := {
  f_op : opres m c m' c' B';
  f_keeps : keeps m m' B (ba u) (bs u);
  f_used : forall x, In x (used B') <-> In x (used B) /\ x <> u;
  f_fs : free_size c' = free_size c + bs u }.

Lemma make_free_ok m c B u :
  rep m c B -> In u (used B) ->
  exists m' c' B', make_free_block P m c (ba u) = Ok (m', c') /\ freed m c B u m' c' B'.
Proof.
  intros R Hu. pose proof Hu as Hu2. apply used_in in Hu. destruct Hu as [Hu Hf].
  destruct (in_split _ _ Hu) as (B1 & B2 & ->).
  destruct (make_free_spec P HP m c B1 u B2 R Hf) as (m' & c' & B' & E & R' & HS & HZ & SB & K & U & F).
  exists m', c', B'. split; auto.
  assert (Hne : forall x, In x B1 \/ In x B2 -> x <> u).
  { intros x Hx ->. pose proof (P_pos P HP).
    destruct (tile_apart P HP _ _ _ _ _ u (r_tile _ _ _ _ R)) as [H1 H2].
    destruct (rep_in _ _ _ _ R Hu). destruct Hx as [Hx | Hx]; [specialize (H1 Hx)|specialize (H2 Hx)]; lia. }
  constructor; auto.
  - constructor; auto. eapply keeps_region; eauto. left. destruct (rep_in _ _ _ _ R Hu). lia.
  - intros x. rewrite U. rewrite used_app. cbn [used filter]. rewrite Hf. cbn [negb]. fold (used B2).
    rewrite !in_app_iff. cbn [In]. split.
    + intros Hx. split; [tauto|]. apply Hne. destruct Hx as [Hx | Hx]; apply used_sub in Hx; auto.
    + intros [[Hx | [Hx | Hx]] Hn]; auto. congruence.
Qed.

Lemma in_used B x : In x B -> bf x = false -> In x (used B).
Proof. intros. apply used_in. auto. Qed.

Lemma load_hdr m c B u : rep m c B -> In u (used B) -> load m (ba u) = Ok (bs u).
Proof. intros R Hu. apply (r_words _ _ _ _ R). apply used_sub. auto. Qed.

Lemma size_of_used m c B u : rep m c B -> In u (used B) -> size_of P m (ba u + P) = Ok (bs u - P).
Proof.
  intros R Hu. pose proof (P_pos P HP). destruct (rep_in _ _ _ _ R (used_sub _ _ Hu)) as (? & ? & ? & ? & ? & ?).
  unfold size_of. destruct (Z.eqb_spec (ba u + P) 0); [lia|].
  replace (ba u + P - P) with (ba u) by lia. rewrite (load_hdr _ _ _ _ R Hu). cbn [bind].
  pose proof (r_hi _ _ _ _ R). rewrite wrap_small by lia. reflexivity.
Qed.

(* --- fpm_truncate --- *)

Lemma truncate_spec m c B u n :
  rep m c B -> In u (used B) -> req_ok P n ->
  let k := chunk_size P n in
  exists m' c' B' u', truncate P m c (ba u + P) n = Ok (m', c') /\
    opres m c m' c' B' /\ In u' (used B') /\ ba u' = ba u /\
    (u' = u /\ bs u < k + 3 * P /\ m' = m /\ c' = c \/ k + 3 * P <= bs u /\ bs u' = k) /\
    (forall x, In x (used B') -> x = u' \/ In x (used B) /\ x <> u) /\
    (forall x, In x (used B) -> x <> u -> In x (used B') /\ x <> u') /\
    keeps m m' B (ba u) (bs u) /\
    (forall z, ba u + P <= z < ba u + bs u' -> bytes m' z = bytes m z) /\
    free_size c' = free_size c + (bs u - bs u').
Proof.
  intros R Hu Hn k. pose proof (P_pos P HP) as HPP. pose proof (W_big P HP) as HW.
  destruct (chunk_size_props P HP n Hn) as (K1 & K2 & K3 & K4). fold k in K1, K2, K3, K4.
  pose proof (used_sub _ _ Hu) as HuB.
  destruct (rep_in _ _ _ _ R HuB) as (I1 & I2 & I3 & I4 & I5 & I6).
  pose proof (r_hi _ _ _ _ R) as RH. pose proof (r_lom _ _ _ _ R) as RL. pose proof (r_him _ _ _ _ R) as RHm.
  unfold truncate. destruct (Z.eqb_spec (ba u + P) 0); [lia|].
  rewrite (round_request_eq P HP n Hn). fold k.
  replace (ba u + P - P) with (ba u) by lia. rewrite (load_hdr _ _ _ _ R Hu). cbn [bind].
  rewrite (wrap_small P (k + P + 2 * P)) by lia.
  destruct (Z.leb_spec (k + P + 2 * P) (bs u)) as [Hs | Hs].
  2:{ exists m, c, B, u. split; [reflexivity|].
      split. { constructor; auto. apply same_bounds_refl. }
      split; [auto|]. split; [auto|]. split; [left; split; [auto|]; split; [lia|auto]|].
      split. { intros x Hx. destruct (Z.eq_dec (ba x) (ba u)) as [E | E].
               - left. destruct (rep_apart _ _ _ _ _ R (used_sub _ _ Hx) HuB) as [? | A]; auto.
                 unfold apart in A. destruct (rep_in _ _ _ _ R (used_sub _ _ Hx)). lia.
               - right. split; auto. intros ->. auto. }
      split; [auto|]. split; [intros z _ _; reflexivity|]. split; [auto|]. lia. }
  rewrite (wrap_small P (ba u + k)) by lia. rewrite (wrap_small P (bs u - k)) by lia.
  destruct (store_wr P HP m (ba u + k) (bs u - k)) as (m1 & E1 & W1); auto with al; try lia.
  rewrite E1. cbn [bind]. destruct (wr_bnd _ _ _ _ _ W1) as [W1l W1h].
  destruct (store_wr P HP m1 (ba u) k) as (m2 & E2 & W2); auto with al; try lia.
  rewrite E2. cbn [bind]. destruct (wr_bnd _ _ _ _ _ W2) as [W2l W2h].
  assert (SB2 : same_bounds m m2) by (split; congruence).
  assert (F2 : forall z, ~ (ba u <= z < ba u + P) -> ~ (ba u + k <= z < ba u + k + P) -> bytes m2 z = bytes m z).
  { intros z Hz1 Hz2. rewrite (wr_frame _ _ _ _ _ W2), (wr_frame _ _ _ _ _ W1) by lia. reflexivity. }
  pose proof (in_split _ _ HuB) as (B1 & B2 & EB).
  set (u1 := Blk (ba u) k false). set (u2 := Blk (ba u + k) (bs u - k) false).
  assert (Huf : bf u = false) by (apply used_in in Hu; tauto).
  assert (HB1 : forall x, In x B1 -> ba x + bs x <= ba u /\ 2 * P <= bs x).
  { intros x Hx. destruct (tile_apart P HP B1 u B2 (heap_start c) (heap_start c + heap_size c) x) as [T1 _]; [rewrite <- EB; apply (r_tile _ _ _ _ R)|].
    assert (In x B) by (subst B; apply in_app_iff; auto). destruct (rep_in _ _ _ _ R H). split; [auto|lia]. }
  assert (HB2 : forall x, In x B2 -> ba u + bs u <= ba x /\ 2 * P <= bs x).
  { intros x Hx. destruct (tile_apart P HP B1 u B2 (heap_start c) (heap_start c + heap_size c) x) as [_ T1]; [rewrite <- EB; apply (r_tile _ _ _ _ R)|].
    assert (In x B) by (subst B; apply in_app_iff; cbn; auto). destruct (rep_in _ _ _ _ R H). split; [auto|lia]. }
  assert (R2 : rep m2 c ((B1 ++ [u1]) ++ u2 :: B2)).
  { destruct R as [R1 R2 R3 R4 R5 R6 R7 R8 R9 R10 R11]. rewrite EB in *. rewrite <- app_assoc. cbn [app].
    assert (Hfr : frees (B1 ++ u1 :: u2 :: B2) = frees (B1 ++ u :: B2)).
    { rewrite !frees_app. cbn [frees filter u1 u2 bf]. rewrite Huf. reflexivity. }
    constructor; auto; rewrite ?Hfr; auto.
    - apply (tile_app P HP) in R3. destruct R3 as (mid & T1 & T2). cbn in T2. destruct T2 as (T2 & T3 & T4 & T5).
      apply (tile_app P HP). exists mid. split; auto. cbn. repeat split; auto with al; try lia.
      replace (mid + k + (bs u - k)) with (mid + bs u) by lia. auto.
    - destruct SB2; lia.
    - destruct SB2; lia.
    - rewrite (coal_app P HP) in R7. destruct R7 as (C1 & C2 & C3). apply (coal_app P HP). split; auto.
      cbn [coal u1 u2 bf headf andb] in *. rewrite Huf in *. rewrite andb_false_r. repeat split; auto.
      + destruct B2; auto.
      + tauto.
    - rewrite words_app, words_cons in R8. destruct R8 as (Wd1 & Wdu & Wd2).
      rewrite words_app, !words_cons. cbn [ba bs u1 u2]. split; [|split; [|split]].
      + apply (words_frame P HP m); auto. intros x z Hx Hz. specialize (HB1 x Hx). apply F2; lia.
      + apply W2.
      + rewrite (wr_other P HP _ _ _ _ _ W2) by lia. apply W1.
      + apply (words_frame P HP m); auto. intros x z Hx Hz. specialize (HB2 x Hx). apply F2; lia.
    - apply (links_frame P HP m); auto. intros x z Hx Hz. rewrite frees_app in Hx.
      apply in_app_iff in Hx. cbn [frees filter] in Hx. rewrite Huf in Hx. fold (frees B2) in Hx.
      destruct Hx as [Hx | Hx]; apply frees_in in Hx.
      + specialize (HB1 x (proj1 Hx)). apply F2; lia.
      + specialize (HB2 x (proj1 Hx)). apply F2; lia.
    - rewrite R11. rewrite !sumf_app. cbn [sumf u1 u2 bf]. rewrite Huf. lia. }
  assert (Hu2 : In u2 (used ((B1 ++ [u1]) ++ u2 :: B2))).
  { apply in_used; [|reflexivity]. apply in_app_iff. right. left. auto. }
  destruct (make_free_ok _ _ _ _ R2 Hu2) as (m3 & c3 & B3 & E3 & [O3 K3' U3 F3]).
  cbn [ba u2] in E3. rewrite E3.
  exists m3, c3, B3, u1. split; [reflexivity|].
  assert (Hu1 : forall x, In x (used B3) <-> In x (used B1) \/ x = u1 \/ In x (used B2)).
  { intros x. rewrite U3. rewrite <- app_assoc. cbn [app]. rewrite used_app. cbn [used filter u1 u2 bf negb].
    fold u1 u2. fold (used B2). rewrite in_app_iff. cbn [In]. split.
    - intros [[? | [? | [? | ?]]] Hx]; auto. congruence.
    - intros Hx. split; [intuition|]. intros ->.
      destruct Hx as [Hx | [Hx | Hx]].
      + apply used_sub in Hx. specialize (HB1 _ Hx). cbn in HB1. lia.
      + injection Hx. lia.
      + apply used_sub in Hx. specialize (HB2 _ Hx). cbn in HB2. lia. }
  assert (HuB' : forall x, In x (used B) <-> In x (used B1) \/ x = u \/ In x (used B2)).
  { intros x. rewrite EB, used_app. cbn [used filter]. rewrite Huf. cbn [negb]. fold (used B2).
    rewrite in_app_iff. cbn [In]. intuition. }
  assert (Hd1 : forall x, In x (used B1) -> x <> u /\ x <> u1).
  { intros x Hx. apply used_sub in Hx. specialize (HB1 _ Hx). split; intros ->; cbn in HB1; lia. }
  assert (Hd2 : forall x, In x (used B2) -> x <> u /\ x <> u1).
  { intros x Hx. apply used_sub in Hx. specialize (HB2 _ Hx). split; intros ->; cbn in HB2; lia. }
  split.
  { destruct O3 as [O1 O2 O3 O4 O5]. constructor; auto.
    - eapply same_bounds_trans; eauto.
    - intros z Hz. rewrite O5 by auto. unfold in_region in Hz. apply F2; lia. }
  split. { apply Hu1. auto. }
  split; [reflexivity|]. split. { right. split; [lia|reflexivity]. }
  split. { intros x Hx. apply Hu1 in Hx. rewrite HuB'. destruct Hx as [Hx | [Hx | Hx]]; auto.
           - right. split; auto. apply Hd1; auto.
           - right. split; auto. apply Hd2; auto. }
  split. { intros x Hx Hne. apply HuB' in Hx. rewrite Hu1. destruct Hx as [Hx | [Hx | Hx]]; auto.
           - split; auto. apply Hd1; auto.
           - congruence.
           - split; auto. apply Hd2; auto. }
  assert (Hfr : forall b, In b (frees ((B1 ++ [u1]) ++ u2 :: B2)) -> In b (frees B)).
  { intros b Hb. rewrite EB. rewrite <- app_assoc in Hb. cbn [app] in Hb. rewrite !frees_app in *.
    cbn [frees filter u1 u2 bf] in *. rewrite Huf. auto. }
  split. { intros z Hz1 Hz2. rewrite K3'; [|intros b Hb; apply Hz1; auto|cbn; lia].
           apply F2; lia. }
  split. { intros z Hz. cbn [bs u1] in Hz. rewrite K3'.
           - apply F2; lia.
           - intros b Hb Hc. apply Hfr in Hb. apply frees_in in Hb. destruct Hb as [Hb Hbf].
             destruct (rep_apart _ _ _ _ _ R Hb HuB) as [-> | A]; [congruence|].
             unfold apart in A. lia.
           - cbn. lia. }
  cbn [bs u1]. rewrite F3. reflexivity.
Qed.

(* --- fpm_realloc --- *)

Lemma realloc_spec m c B u n :
  rep m c B -> In u (used B) -> req_ok P n ->
  let r := realloc P m c (ba u + P) n in
  (n <= bs u - P /\ r = Ok (m, c, ba u + P)) \/
  (bs u - P < n /\ (forall b, In b (frees B) -> bs b < chunk_size P n) /\
    exists m' c' B', r = Ok (m', c', 0) /\ freed m c B u m' c' B') \/
  (bs u - P < n /\ exists m' c' B' v q, r = Ok (m', c', q) /\ opres m c m' c' B' /\
    In v (used B') /\ q = ba v + P /\ 0 < q /\ v <> u /\ ba v <> ba u /\ P + n <= bs v /\
    (forall x, In x (used B') -> x = v \/ In x (used B) /\ x <> u) /\
    (forall x, In x (used B) -> x <> u -> In x (used B') /\ x <> v) /\ ~ In v (used B) /\
    keeps m m' B (ba u) (bs u) /\
    (forall i, 0 <= i < bs u - P -> bytes m' (q + i) = bytes m (ba u + P + i)) /\
    free_size c' = free_size c - bs v + bs u).
Proof.
  intros R Hu Hn r. subst r. pose proof (P_pos P HP) as HPP.
  pose proof (used_sub _ _ Hu) as HuB.
  destruct (rep_in _ _ _ _ R HuB) as (I1 & I2 & I3 & I4 & I5 & I6).
  pose proof (r_hi _ _ _ _ R) as RH.
  unfold realloc. destruct (Z.eqb_spec (ba u + P) 0); [lia|].
  replace (ba u + P - P) with (ba u) by lia. rewrite (load_hdr _ _ _ _ R Hu). cbn [bind].
  rewrite (wrap_small P (bs u - P)) by lia.
  destruct (Z.leb_spec n (bs u - P)) as [Hs | Hs]; [left; auto|]. right.
  destruct (alloc_spec m c B n R Hn) as [[Hno E] | (m1 & c1 & q & B1 & v & E & AL & _)].
  - left. split; auto. split; auto. rewrite E. cbn [bind]. rewrite Z.eqb_refl.
    destruct (make_free_ok _ _ _ _ R Hu) as (m' & c' & B' & E' & F). rewrite E'. cbn [bind]. eauto 6.
  - right. split; auto. rewrite E. cbn [bind].
    destruct AL as [A1 A2 A3 A4 A5 A6 A7 A8 A9 A10 A11 A12].
    destruct (Z.eqb_spec q 0); [lia|].
    destruct (A5 u Hu) as [Hu1 Hne]. pose proof (o_rep _ _ _ _ _ A1) as R1.
    pose proof (used_sub _ _ Hu1) as Hu1B. pose proof (used_sub _ _ A2) as HvB.
    destruct (rep_in _ _ _ _ R1 Hu1B) as (U1 & U2 & U3 & U4 & U5 & U6).
    destruct (rep_in _ _ _ _ R1 HvB) as (V1 & V2 & V3 & V4 & V5 & V6).
    pose proof (r_lom _ _ _ _ R1). pose proof (r_him _ _ _ _ R1).
    assert (Hap : apart u v). { destruct (rep_apart _ _ _ _ _ R1 Hu1B HvB); [congruence|auto]. }
    assert (Hcp : exists m2, memcpy m1 q (ba u + P) (bs u - P) = Ok m2 /\ same_bounds m1 m2 /\
       (forall z, bytes m2 z = if (q <=? z) && (z <? q + (bs u - P)) then bytes m1 (ba u + P + (z - q)) else bytes m1 z)).
    { unfold memcpy. replace (_ && _ && _ && _ && _) with true.
      - eexists. split; [reflexivity|]. split; [split; reflexivity|]. intros z. reflexivity.
      - symmetry. rewrite !andb_true_iff, orb_true_iff. unfold apart in Hap. lia. }
    destruct Hcp as (m2 & E2 & SB2 & F2). rewrite E2. cbn [bind].
    assert (F2' : forall z, ~ (ba v + P <= z < ba v + bs v) -> bytes m2 z = bytes m1 z).
    { intros z Hz. rewrite F2. destruct (Z.leb_spec q z); [|reflexivity].
      destruct (Z.ltb_spec z (q + (bs u - P))); [|reflexivity]. lia. }
    pose proof (opres_data _ _ _ _ _ _ _ A1 A2 SB2 F2') as O2.
    pose proof (o_rep _ _ _ _ _ O2) as R2.
    destruct (make_free_ok _ _ _ _ R2 Hu1) as (m3 & c3 & B3 & E3 & [O3 K3 U F3]).
    rewrite E3. cbn [bind].
    exists m3, c3, B3, v, q. split; [reflexivity|].
    split. { destruct O2 as [Q1 Q2 Q3 Q4 Q5], O3 as [S1 S2 S3 S4 S5]. constructor; auto; try congruence.
             - eapply same_bounds_trans; eauto.
             - intros z Hz. rewrite S5; auto. unfold in_region in *. rewrite Q2, Q3. auto. }
    split. { apply U. auto. }
    split; [auto|]. split; [auto|]. split; [auto|].
    split. { unfold apart in Hap. lia. }
    split; [auto|].
    split. { intros x Hx. apply U in Hx. destruct Hx as [Hx Hx2]. destruct (A6 x Hx); auto. }
    split. { intros x Hx Hx2. destruct (A5 x Hx). split; auto. apply U. auto. }
    split; [auto|].
    assert (Hzz : forall z, ~ (ba u <= z < ba u + bs u) ->
      (forall b, In b (frees B1) -> ~ (ba b <= z < ba b + bs b)) -> bytes m3 z = bytes m2 z).
    { intros z Hz1 Hz2. apply K3; auto. }
    split.
    { intros z Hz1 Hz2.
      assert (Hnv : ~ (ba v + P <= z < ba v + bs v)).
      { destruct A11 as (f & Hf & Ef & Sf). specialize (Hz1 f Hf). lia. }
      rewrite Hzz; auto.
      - rewrite F2' by auto. apply A8; [auto|lia].
      - (* free blocks after the allocation lie inside free blocks before it *)
        intros b Hb Hc. apply frees_in in Hb. destruct Hb as [Hb Hbf].
        assert (Hcov : in_region c z).
        { unfold in_region. destruct (rep_in _ _ _ _ R1 Hb).
          rewrite (o_start _ _ _ _ _ A1), (o_size _ _ _ _ _ A1) in *. lia. }
        (* z lies in some block of B *)
        assert (HB : forall lo B hi, tile lo B hi -> lo <= z < hi -> exists x, In x B /\ ba x <= z < ba x + bs x).
        { clear. intros lo B; revert lo. induction B as [|y B IH]; cbn; intros lo hi Ht Hz; [lia|].
          destruct Ht as (T1 & T2 & T3 & T4). destruct (Z.lt_ge_cases z (lo + bs y)).
          - exists y. split; auto. lia.
          - destruct (IH _ _ T4) as (x & Hx & Hx2); [lia|]. exists x. auto. }
        destruct (HB _ _ _ (r_tile _ _ _ _ R) Hcov) as (x & Hx & Hxz).
        destruct (bf x) eqn:Hxf.
        + apply (Hz1 x); auto. apply frees_in. auto.
        + assert (Hxu : In x (used B)) by (apply in_used; auto).
          destruct (A5 x Hxu) as [Hx1 _]. pose proof (used_sub _ _ Hx1) as Hx1B.
          destruct (rep_apart _ _ _ _ _ R1 Hb Hx1B) as [-> | Ab]; [congruence|].
          unfold apart in Ab. lia. }
    split.
    { intros i Hi. unfold apart in Hap. rewrite Hzz; [|lia|].
      - rewrite F2. destruct (Z.leb_spec q (q + i)); [|lia].
        destruct (Z.ltb_spec (q + i) (q + (bs u - P))); [|lia]. cbn [andb].
        replace (ba u + P + (q + i - q)) with (ba u + P + i) by lia.
        apply A8; [|lia]. intros b Hb Hc. apply frees_in in Hb. destruct Hb as [Hb Hbf].
        destruct (rep_apart _ _ _ _ _ R Hb HuB) as [-> | Ab].
        + apply used_in in Hu. destruct Hu. congruence.
        + unfold apart in Ab. lia.
      - intros b Hb Hc. apply frees_in in Hb. destruct Hb as [Hb Hbf].
        destruct (rep_apart _ _ _ _ _ R1 Hb HvB) as [-> | Ab].
        + apply used_in in A2. destruct A2. congruence.
        + unfold apart in Ab. lia. }
    rewrite F3, A9. lia.
Qed.

(* --- fpm_heap_setup --- *)

Lemma heap_setup_spec m start size :
  0 < start -> al start -> al size -> 2 * P <= size -> start + size < W ->
  mlo m <= start -> start + size <= mhi m ->
  exists m' c, heap_setup P m start size = Ok (m', c) /\
    rep m' c [Blk start size true] /\ heap_start c = start /\ heap_size c = size /\
    same_bounds m m' /\ (forall z, ~ (start <= z < start + 2 * P) -> bytes m' z = bytes m z).
Proof.
  intros. pose proof (P_pos P HP). unfold heap_setup.
  destruct (store_wr P HP m start size) as (m1 & E1 & W1); auto with al; try lia.
  rewrite E1. cbn [bind]. destruct (wr_bnd _ _ _ _ _ W1) as [W1l W1h]. unfold next_at.
  destruct (store_wr P HP m1 (start + P) 0) as (m2 & E2 & W2); auto with al; try lia.
  rewrite E2. cbn [bind]. destruct (wr_bnd _ _ _ _ _ W2) as [W2l W2h].
  assert (EL : load m2 start = Ok size).
  { rewrite (wr_other P HP _ _ _ _ _ W2) by lia. apply W1. }
  rewrite EL. cbn [bind].
  eexists m2, _. split; [reflexivity|]. split; [|repeat split; try congruence].
  - constructor; cbn; auto; try lia.
    + intros b [<- | []]. auto.
    + split; auto. apply W2.
  - intros z Hz. rewrite (wr_frame _ _ _ _ _ W2), (wr_frame _ _ _ _ _ W1) by lia. reflexivity.
Qed.

(* --- fpm_context_push --- *)

Lemma find_max_spec m : forall l fuel best,
  links P m l 0 -> words P m l -> (forall b, In b l -> 0 < ba b) -> (length l < fuel)%nat ->
  (best = 0 \/ exists x, ba x = best /\ 0 < ba x /\ load m (ba x) = Ok (bs x)) ->
  exists r, find_max P fuel m best (head_or l 0) = Ok r /\
    (r = best \/ exists b, In b l /\ r = ba b) /\
    (l <> [] \/ best <> 0 -> r <> 0).
Proof.
  induction l as [|b l IH]; intros fuel best Hl Hw Hp Hf Hb.
  - exists best. destruct fuel; cbn; (split; [reflexivity|]; split; [auto|tauto]).
  - destruct fuel as [|fuel]; [cbn in Hf; lia|]. cbn [head_or find_max].
    assert (Hb0 : 0 < ba b) by (apply Hp; left; auto).
    destruct (Z.eqb_spec (ba b) 0); [lia|].
    rewrite (Hw b) by (left; auto). cbn [bind].
    destruct Hl as [Ln Hl]. unfold next_at. 
    assert (Hrec : forall best', (best' = 0 \/ exists x, ba x = best' /\ 0 < ba x /\ load m (ba x) = Ok (bs x)) ->
      best' <> 0 -> (best' = best \/ best' = ba b) ->
      exists r, (nx <- load m (ba b + P);; find_max P fuel m best' nx) = Ok r /\
        (r = best \/ (exists b0, In b0 (b :: l) /\ r = ba b0)) /\ (b :: l <> [] \/ best <> 0 -> r <> 0)).
    { intros best' Hb' Hn' Hor. rewrite Ln. cbn [bind].
      destruct (IH fuel best') as (r & E & Hr & Hr0); auto.
      - intros x Hx. apply Hw. right; auto.
      - intros x Hx. apply Hp. right; auto.
      - cbn in Hf. lia.
      - exists r. split; auto. split; [|auto]. destruct Hr as [-> | (y & Hy & ->)].
        + destruct Hor as [-> | ->]; auto. right. exists b. cbn. auto.
        + right. exists y. cbn. auto. }
    destruct (Z.eqb_spec best 0) as [-> | Hne]; cbn [bind].
    + apply Hrec; [|lia|auto]. right. exists b. repeat split; auto. apply Hw. left; auto.
    + destruct Hb as [? | (x & <- & Hx0 & Hx)]; [tauto|]. rewrite Hx. cbn [bind].
      destruct (bs x <? bs b).
      * apply Hrec; [|lia|auto]. right. exists b. repeat split; auto. apply Hw. left; auto.
      * apply Hrec; [|lia|auto]. right. exists x. auto.
Qed.

Lemma push_spec s B :
  rep (sm s) (sctx s) B ->
  (exists f m' c', In f (frees B) /\ 1024 <= bs f /\
     context_push P s = Ok (Some (St m' c' (sctx s :: sparents s))) /\
     rep m' c' [Blk (ba f + 2 * P) (bs f - 2 * P) true] /\
     heap_start c' = ba f + 2 * P /\ heap_size c' = bs f - 2 * P /\ same_bounds (sm s) m' /\
     (forall z, ~ (ba f + 2 * P <= z < ba f + bs f) -> bytes m' z = bytes (sm s) z)) \/
  context_push P s = Ok None.
Proof.
  intros R. pose proof (P_pos P HP) as HPP. pose proof (rep_fuel P HP _ _ _ R) as Hfu.
  pose proof (r_hi _ _ _ _ R) as RH. pose proof (r_lom _ _ _ _ R). pose proof (r_him _ _ _ _ R).
  pose proof (r_words _ _ _ _ R) as RW.
  unfold context_push. rewrite (r_head _ _ _ _ R).
  destruct (find_max_spec (sm s) (frees B) (walk_fuel P (sctx s)) 0) as (r & E & Hr & Hr0); auto.
  { apply (r_links _ _ _ _ R). }
  { intros b Hb. apply RW. apply frees_in in Hb. tauto. }
  { intros b Hb. apply frees_in in Hb. destruct (rep_in _ _ _ _ R (proj1 Hb)). tauto. }
  rewrite E. cbn [bind]. destruct (Z.eqb_spec r 0) as [-> | Hne]; [right; reflexivity|].
  destruct Hr as [? | (f & Hf & ->)]; [tauto|].
  pose proof Hf as Hf2. apply frees_in in Hf2. destruct Hf2 as [Hf2 _].
  rewrite (RW f Hf2). cbn [bind]. destruct (rep_in _ _ _ _ R Hf2) as (? & ? & ? & ? & ? & ?).
  destruct (Z.ltb_spec (bs f) 1024); [right; reflexivity|]. left.
  rewrite (wrap_small P (ba f + (P + P))) by lia. rewrite (wrap_small P (bs f - (P + P))) by lia.
  replace (P + P) with (2 * P) by lia.
  destruct (heap_setup_spec (sm s) (ba f + 2 * P) (bs f - 2 * P)) as (m' & c' & E' & R' & Hs & Hz & SB & F);
    auto with al; try lia.
  rewrite E'. cbn [bind]. exists f, m', c'. repeat (split; [auto|]).
  intros z Hzz. apply F. lia.
Qed.

End Proof2.
