(* The allocator theorems in the client's terms. *)
From Verif Require Import Base BaseLemmas AllocModel AllocSpec AllocProof AllocProof2 AllocProof3.
From Coq Require Import Sorted Permutation.
Open Scope Z_scope.

Section Client.

Variables (P : Z) (m0 : mem) (start size : Z).
Hypothesis HOK : heap_ok P m0 start size.

Let HP : P = 4 \/ P = 8.
Proof. apply HOK. Qed.

Notation stk := (stk P start size).
Notation inv := (inv P start size).
Notation reach := (reachable P m0 start size).

Lemma inv_reach h s g : reach h s g -> inv s g.
Proof. apply reach_inv; [exact HP|exact HOK]. Qed.

(* --- walking the free list --- *)

Definition pairs (l : list blk) : list (Z * Z) := map (fun b => (ba b, bs b)) l.

Lemma walks_links m l : links P m l 0 -> words P m l -> (forall b, In b l -> 0 < ba b) ->
  walks P m (head_or l 0) (pairs l).
Proof.
  induction l as [|b l IH]; intros Hl Hw Hp; cbn; [reflexivity|].
  destruct Hl as [Hl1 Hl2]. split; [reflexivity|].
  specialize (Hp b (or_introl eq_refl)) as Hb. split; [lia|]. split; [apply Hw; left; auto|].
  exists (head_or l 0). split; auto. apply IH; auto.
  - intros x Hx. apply Hw. right; auto.
  - intros x Hx. apply Hp. right; auto.
Qed.

Lemma walks_fun m : forall l1 l2 h, walks P m h l1 -> walks P m h l2 -> l1 = l2.
Proof.
  induction l1 as [|[a n] l1 IH]; intros [|[b k] l2] h H1 H2; cbn in *; auto.
  - destruct H2 as (-> & H2 & _). tauto.
  - destruct H1 as (-> & H1 & _). tauto.
  - destruct H1 as (-> & _ & L1 & h1 & N1 & W1). destruct H2 as (<- & _ & L2 & h2 & N2 & W2).
    rewrite L1 in L2. injection L2 as <-. rewrite N1 in N2. injection N2 as <-. f_equal. eauto.
Qed.

Lemma rep_free_blocks s B : rep P (sm s) (sctx s) B -> free_blocks P s (pairs (frees B)).
Proof.
  intros R. unfold free_blocks. rewrite (r_head _ _ _ _ R). apply walks_links.
  - apply (r_links _ _ _ _ R).
  - intros b Hb. apply (r_words _ _ _ _ R). apply frees_in in Hb. tauto.
  - intros b Hb. apply frees_in in Hb. destruct (rep_in P HP _ _ _ _ R (proj1 Hb)). tauto.
Qed.

Lemma free_blocks_rep s B fl :
  rep P (sm s) (sctx s) B -> free_blocks P s fl -> fl = pairs (frees B).
Proof. intros R H. eapply walks_fun; [exact H|]. apply rep_free_blocks. auto. Qed.

Lemma in_pairs l a n : In (a, n) (pairs l) <-> exists b, In b l /\ ba b = a /\ bs b = n.
Proof.
  unfold pairs. rewrite in_map_iff. split.
  - intros (b & [= <- <-] & Hb). eauto.
  - intros (b & Hb & <- & <-). eauto.
Qed.

Lemma inv_head s g : inv s g -> exists B Bs, rep P (sm s) (sctx s) B /\ lives P B (live g) /\
  stk (sm s) (sctx s :: sparents s) (B :: Bs) (live g :: outer g).
Proof.
  intros (Bs & S). destruct (stk_head _ _ _ _ _ _ _ _ S) as (B & Bs0 & l & ls & -> & [= <- <-] & R & L).
  exists B, Bs0. auto.
Qed.

(* --- C01 --- *)

Lemma total h s g o : reach h s g -> valid P s g o -> exists s' r, step P s o = Ok (s', r).
Proof.
  intros H V. destruct (inv_reach _ _ _ H) as (Bs & S).
  destruct (inv_step P HP _ _ _ _ _ _ S V) as (s' & r & _ & E & _). eauto.
Qed.

Lemma owned_facts s g Bs p :
  stk (sm s) (sctx s :: sparents s) Bs (live g :: outer g) -> owned g p ->
  exists b, sblk Bs b /\ p = ba b + P /\ usable P (sm s) p (bs b - P) /\
    p mod P = 0 /\ start + P <= p /\ P <= bs b - P /\ p + (bs b - P) <= start + size.
Proof.
  intros S Ho. apply (owned_sblk P _ _ _ _ _ _ S) in Ho. destruct Ho as (b & Hb & ->).
  destruct (stk_sblk_facts P HP _ _ _ _ _ _ S _ _ eq_refl) as [_ F].
  destruct (F b Hb) as (F1 & F2 & F3 & F4 & F5 & F6 & F7 & F8 & F9). pose proof (P_pos P HP).
  exists b. split; auto. split; auto. split; [split; [lia|auto]|]. split; [|lia].
  apply (al_add P HP); auto. apply al_P. exact HP.
Qed.

Lemma usable_fun m p n k : usable P m p n -> usable P m p k -> n = k.
Proof. intros [_ H1] [_ H2]. congruence. Qed.

Lemma owned_in_heap h s g p : reach h s g -> owned g p ->
  p mod P = 0 /\ exists n, usable P (sm s) p n /\ P <= n /\ start + P <= p /\ p + n <= start + size.
Proof.
  intros H Ho. destruct (inv_reach _ _ _ H) as (Bs & S).
  destruct (owned_facts _ _ _ _ S Ho) as (b & Hb & -> & U & Ha & H1 & H2 & H3).
  split; auto. exists (bs b - P). auto.
Qed.

Lemma owned_disjoint h s g p q n k : reach h s g -> owned g p -> owned g q -> p <> q ->
  usable P (sm s) p n -> usable P (sm s) q k -> p + n <= q - P \/ q + k <= p - P.
Proof.
  intros H Hp Hq Hne Up Uq. destruct (inv_reach _ _ _ H) as (Bs & S).
  destruct (owned_facts _ _ _ _ S Hp) as (b & Hb & -> & U & _).
  destruct (owned_facts _ _ _ _ S Hq) as (c & Hc & -> & U' & _).
  rewrite (usable_fun _ _ _ _ Up U), (usable_fun _ _ _ _ Uq U').
  destruct (stk_apart P HP _ _ _ _ _ _ S b c Hb Hc) as [-> | A]; [tauto|]. unfold apart in A. lia.
Qed.

Lemma live_NoDup h s g : reach h s g -> NoDup (live g).
Proof. intros H. destruct (inv_head _ _ (inv_reach _ _ _ H)) as (B & Bs & R & L & _). apply L. Qed.

Lemma live_free_disjoint h s g fl p n a k : reach h s g -> In p (live g) ->
  usable P (sm s) p n -> free_blocks P s fl -> In (a, k) fl -> p + n <= a \/ a + k <= p - P.
Proof.
  intros H Hp U Hf Hin. destruct (inv_head _ _ (inv_reach _ _ _ H)) as (B & Bs & R & L & S).
  rewrite (free_blocks_rep _ _ _ R Hf) in Hin. apply in_pairs in Hin. destruct Hin as (f & Hf' & <- & <-).
  apply frees_in in Hf'. destruct Hf' as [Hf1 Hf2].
  apply L in Hp. destruct Hp as (b & Hb & ->).
  assert (U' : usable P (sm s) (ba b + P) (bs b - P)).
  { split; [|eapply size_of_used; eauto]. destruct (rep_in P HP _ _ _ _ R (used_sub _ _ Hb)).
    pose proof (P_pos P HP). lia. }
  rewrite (usable_fun _ _ _ _ U U').
  destruct (rep_apart P HP _ _ _ _ _ R (used_sub _ _ Hb) Hf1) as [-> | A].
  - apply used_in in Hb. destruct Hb. congruence.
  - unfold apart in A. lia.
Qed.

Lemma used_usable m c B u : rep P m c B -> In u (used B) -> usable P m (ba u + P) (bs u - P).
Proof.
  intros R Hu. split; [|eapply size_of_used; eauto]. destruct (rep_in P HP _ _ _ _ R (used_sub _ _ Hu)).
  pose proof (P_pos P HP). lia.
Qed.

Lemma result_big h s g o s' r n : reach h s g -> valid P s g o -> request o = Some n ->
  step P s o = Ok (s', r) -> r <> 0 ->
  In r (live (after g o r)) /\ exists k, usable P (sm s') r k /\ n <= k.
Proof.
  intros H V Hr E Hr0. destruct (inv_head _ _ (inv_reach _ _ _ H)) as (B & Bs & R & L & S).
  destruct o; cbn in Hr; try discriminate; injection Hr as ->; cbn [valid] in V; cbn [step] in E.
  - split. { cbn. destruct (Z.eqb_spec r 0); [tauto|]. left; auto. }
    destruct (alloc_spec P HP _ _ _ _ R V) as [[_ E'] | (m' & c' & q & B' & u & E' & A & _)];
      rewrite E' in E; cbn in E; injection E as <- <-; [tauto|]. cbn [sm].
    exists (bs u - P). rewrite (a_q _ _ _ _ _ _ _ _ _ _ A). split.
    + eapply used_usable; [apply (a_op _ _ _ _ _ _ _ _ _ _ A)|apply (a_in _ _ _ _ _ _ _ _ _ _ A)].
    + pose proof (a_big _ _ _ _ _ _ _ _ _ _ A). lia.
  - split. { cbn. destruct (Z.eqb_spec r 0); [tauto|]. left; auto. }
    destruct (alloc_dirty_ok P HP _ _ _ _ R V) as [[_ E'] | (m' & c' & q & E' & A)];
      rewrite E' in E; cbn in E; injection E as <- <-; [tauto|]. cbn [sm].
    destruct (alloc_ok_alloced P HP _ _ _ _ _ _ _ R V A) as (B' & u & A').
    exists (bs u - P). rewrite (a_q _ _ _ _ _ _ _ _ _ _ A'). split.
    + eapply used_usable; [apply (a_op _ _ _ _ _ _ _ _ _ _ A')|apply (a_in _ _ _ _ _ _ _ _ _ _ A')].
    + pose proof (a_big _ _ _ _ _ _ _ _ _ _ A'). lia.
  - destruct V as [V Hn]. cbn [after]. destruct (Z.eqb_spec p 0) as [-> | Hp].
    { unfold realloc in E. rewrite Z.eqb_refl in E. cbn in E. injection E as <- <-. tauto. }
    destruct (Z.eqb_spec r 0); [tauto|]. cbn [live].
    split; [left; auto|].
    destruct V as [? | V]; [tauto|]. apply L in V. destruct V as (u & Hu & ->).
    destruct (realloc_spec P HP _ _ _ _ _ R Hu Hn) as
      [(Hle & E') | [(Hlt & Hno & m' & c' & B' & E' & F) | (Hlt & m' & c' & B' & v & q & E' & O & Hv & Hq & Hq0 & Hvu & Hvu2 & Hbig & _)]];
      rewrite E' in E; cbn in E; injection E as <- <-.
    + exists (bs u - P). split; auto. cbn [sm]. eapply used_usable; eauto.
    + tauto.
    + exists (bs v - P). cbn [sm]. rewrite Hq. split; [|lia].
      eapply used_usable; [apply (o_rep _ _ _ _ _ _ O)|auto].
Qed.

(* --- C02 --- *)

Lemma others_unchanged h s g o s' r p n : reach h s g -> valid P s g o ->
  step P s o = Ok (s', r) -> owned g p -> ~ arg_of o p -> usable P (sm s) p n ->
  usable P (sm s') p n /\
  forall z, p <= z < p + n -> (forall v, o <> OPoke z v) -> bytes (sm s') z = bytes (sm s) z.
Proof.
  intros H V E Ho Ha U. destruct (inv_reach _ _ _ H) as (Bs & S).
  destruct (owned_facts _ _ _ _ S Ho) as (b & Hb & -> & U' & Hr).
  rewrite (usable_fun _ _ _ _ U U').
  destruct (inv_step P HP _ _ _ _ _ _ S V) as (s1 & r1 & Bs' & E' & S' & F & Sh).
  rewrite E in E'. injection E' as <- <-.
  assert (Hpop : o = OPop -> sm s' = sm s).
  { intros ->. inversion Sh; subst; auto. congruence. }
  destruct o; try (destruct (sf_keep _ _ _ _ _ _ _ _ F b Hb Ha) as (K1 & K2 & K3); [discriminate|];
    split; [|intros z Hz; apply K3; pose proof (P_pos P HP); lia];
    destruct (stk_sblk_facts P HP _ _ _ _ _ _ S' _ _ eq_refl) as [_ F'];
    split; [apply U|]; apply (F' b K1)).
  rewrite (Hpop eq_refl). split; auto.
Qed.

Lemma outside_unchanged h s g o s' r z : reach h s g -> valid P s g o ->
  step P s o = Ok (s', r) -> ~ (start <= z < start + size) -> bytes (sm s') z = bytes (sm s) z.
Proof.
  intros H V E Hz. destruct (inv_reach _ _ _ H) as (Bs & S).
  destruct (inv_step P HP _ _ _ _ _ _ S V) as (s1 & r1 & Bs' & E' & S' & F & Sh).
  rewrite E in E'. injection E' as <- <-. apply (sf_heap _ _ _ _ _ _ _ _ F). auto.
Qed.

(* --- C03 --- *)

Lemma sumf_pairs B : sumf B = sum (map snd (pairs (frees B))).
Proof.
  unfold pairs, frees, sum. induction B as [|b B IH]; cbn; auto. destruct (bf b); cbn; lia.
Qed.

Lemma sum_perm l l' : Permutation l l' -> sum l = sum l'.
Proof. unfold sum. induction 1; cbn in *; lia. Qed.

Definition sumu (B : list blk) : Z := sum (map bs (used B)).

Lemma tile_sum B : forall lo hi, tile P lo B hi -> sumf B + sumu B = hi - lo.
Proof.
  unfold sumu, used, sum. induction B as [|b B IH]; cbn; intros lo hi Ht; [lia|].
  destruct Ht as (_ & _ & _ & Ht). apply IH in Ht. destruct (bf b); cbn; lia.
Qed.

Lemma used_addr_NoDup B : forall lo hi, tile P lo B hi -> NoDup (map (fun b => ba b + P) (used B)).
Proof.
  unfold used. induction B as [|b B IH]; cbn; intros lo hi Ht; [constructor|].
  destruct Ht as (T1 & T2 & T3 & T4). destruct (bf b); cbn; [eauto|]. constructor; [|eauto].
  rewrite in_map_iff. intros (x & E & Hx). apply filter_In in Hx. destruct Hx as [Hx _].
  destruct (tile_in P HP _ _ _ _ T4 Hx). pose proof (P_pos P HP). lia.
Qed.

Lemma lives_perm m c B l : rep P m c B -> lives P B l -> Permutation l (map (fun b => ba b + P) (used B)).
Proof.
  intros R [L1 L2]. apply NoDup_Permutation; auto.
  - eapply used_addr_NoDup. apply (r_tile _ _ _ _ R).
  - intros x. rewrite L2, in_map_iff. split; intros (b & H1 & H2); exists b; auto.
Qed.

Lemma available_exact h s g : reach h s g ->
  exists fl, free_blocks P s fl /\ heap_available (sctx s) = sum (map snd fl) /\
  forall f, (forall p, In p (live g) -> usable P (sm s) p (f p)) ->
    heap_available (sctx s) = heap_size (sctx s) - sum (map (fun p => f p + P) (live g)).
Proof.
  intros H. destruct (inv_head _ _ (inv_reach _ _ _ H)) as (B & Bs & R & L & S).
  exists (pairs (frees B)). split; [apply rep_free_blocks; auto|]. unfold heap_available.
  rewrite (r_fs _ _ _ _ R). split; [apply sumf_pairs|].
  intros f Hf. pose proof (tile_sum _ _ _ (r_tile _ _ _ _ R)) as T.
  assert (E : sum (map (fun p => f p + P) (live g)) = sumu B); [|lia].
  rewrite (sum_perm _ _ (Permutation_map _ (lives_perm _ _ _ _ R L))). rewrite map_map.
  unfold sumu. f_equal. apply map_ext_in. intros b Hb.
  assert (Hp : In (ba b + P) (live g)) by (apply L; eauto).
  pose proof (usable_fun _ _ _ _ (Hf _ Hp) (used_usable _ _ _ _ R Hb)). lia.
Qed.

Lemma depth0_heap h s g : reach h s g -> outer g = [] -> heap_start (sctx s) = start /\ heap_size (sctx s) = size.
Proof.
  intros H Ho. destruct (inv_reach _ _ _ H) as (Bs & S). rewrite Ho in S.
  inversion S; subst; auto.
Qed.

(* --- C04 --- *)

Lemma coal_sorted B : forall lo hi, tile P lo B hi -> coal B ->
  StronglySorted (fun x y => fst x + snd x < fst y) (pairs (frees B)).
Proof.
  unfold pairs, frees. pose proof (P_pos P HP). induction B as [|b B IH]; cbn; intros lo hi Ht Hc; [constructor|].
  destruct Ht as (T1 & T2 & T3 & T4). destruct Hc as [C1 C2]. destruct (bf b) eqn:Hb; [|eauto].
  cbn. constructor; [eauto|]. apply Forall_forall. intros [a n] Hx.
  rewrite in_map_iff in Hx. destruct Hx as (x & [= <- <-] & Hx). apply filter_In in Hx. destruct Hx as [Hx Hxf].
  cbn [fst snd]. destruct B as [|y B]; [destruct Hx|].
  destruct Hx as [-> | Hx]; [rewrite Hxf in C1; discriminate|].
  cbn in T4. destruct T4 as (T5 & T6 & T7 & T8). destruct (tile_in P HP _ _ _ _ T8 Hx). lia.
Qed.

Lemma coalesced h s g fl : reach h s g -> free_blocks P s fl ->
  StronglySorted (fun x y => fst x + snd x < fst y) fl.
Proof.
  intros H Hf. destruct (inv_head _ _ (inv_reach _ _ _ H)) as (B & Bs & R & L & S).
  rewrite (free_blocks_rep _ _ _ R Hf). eapply coal_sorted; [apply (r_tile _ _ _ _ R)|apply (r_coal _ _ _ _ R)].
Qed.

Lemma used_nil_all B : used B = [] -> forall b, In b B -> bf b = true.
Proof.
  unfold used. induction B as [|x B IH]; cbn; intros E b; [tauto|].
  destruct (bf x) eqn:Hx; cbn in E; [|discriminate]. intros [<- | Hb]; auto.
Qed.

Lemma all_freed h s g fl : reach h s g -> live g = [] -> free_blocks P s fl -> 0 < heap_size (sctx s) ->
  fl = [(heap_start (sctx s), heap_size (sctx s))].
Proof.
  intros H Hl Hf Hsz. destruct (inv_head _ _ (inv_reach _ _ _ H)) as (B & Bs & R & L & S).
  rewrite (free_blocks_rep _ _ _ R Hf). pose proof (P_pos P HP).
  assert (U : used B = []).
  { destruct (used B) as [|u us] eqn:E; auto. exfalso. rewrite Hl in L.
    apply (proj2 (proj2 L (ba u + P))). exists u. rewrite E. cbn; auto. }
  pose proof (used_nil_all _ U) as Hall.
  pose proof (r_tile _ _ _ _ R) as T. pose proof (r_coal _ _ _ _ R) as C.
  destruct B as [|b B]; cbn in T; [lia|]. destruct T as (T1 & T2 & T3 & T4).
  destruct B as [|c B].
  - cbn in T4. unfold frees. cbn. rewrite (Hall b) by (left; auto). cbn. do 2 f_equal; lia.
  - exfalso. cbn in C. rewrite (Hall b), (Hall c) in C by (cbn; auto). destruct C. discriminate.
Qed.

Lemma heap_size_pos h s g : reach h s g -> 0 < heap_size (sctx s).
Proof.
  intros H. destruct (inv_reach _ _ _ H) as (Bs & S). pose proof (P_pos P HP).
  destruct HOK as (_ & H1 & H2 & H3 & H4 & _). inversion S; subst; lia.
Qed.

(* --- C05, C06 --- *)

Lemma head_addr_inj m c B x y : rep P m c B -> In x B -> In y B -> ba x = ba y -> x = y.
Proof.
  intros R Hx Hy E. destruct (rep_apart P HP _ _ _ _ _ R Hx Hy) as [? | A]; auto.
  destruct (rep_in P HP _ _ _ _ R Hx) as (_ & _ & ? & _). destruct (rep_in P HP _ _ _ _ R Hy) as (_ & _ & ? & _).
  pose proof (P_pos P HP). unfold apart in A. lia.
Qed.

Lemma alloc_cases h s g o n s' r : reach h s g -> is_alloc o n -> req_ok P n -> step P s o = Ok (s', r) ->
  exists B, rep P (sm s) (sctx s) B /\ lives P B (live g) /\
  ((r = 0 /\ s' = s /\ forall b, In b (frees B) -> bs b < chunk_size P n) \/
   (r <> 0 /\ sparents s' = sparents s /\ (exists B' u, alloced P (sm s) (sctx s) B n (sm s') (sctx s') r B' u) /\
    (o = OAlloc n -> forall z, r <= z < r + n -> bytes (sm s') z = 0))).
Proof.
  intros H Ho Hn E. destruct (inv_head _ _ (inv_reach _ _ _ H)) as (B & Bs & R & L & S).
  exists B. split; auto. split; auto. destruct Ho as [-> | ->]; cbn [step] in E.
  - destruct (alloc_spec P HP _ _ _ _ R Hn) as [[N E'] | (m' & c' & q & B' & u & E' & A & Z0)];
      rewrite E' in E; cbn in E; injection E as <- <-.
    + left. destruct s; auto.
    + right. cbn [sm sctx sparents]. pose proof (a_pos _ _ _ _ _ _ _ _ _ _ A).
      split; [lia|]. split; auto. split; eauto.
  - destruct (alloc_dirty_ok P HP _ _ _ _ R Hn) as [[N E'] | (m' & c' & q & E' & A)];
      rewrite E' in E; cbn in E; injection E as <- <-.
    + left. destruct s; auto.
    + right. destruct (alloc_ok_alloced P HP _ _ _ _ _ _ _ R Hn A) as (B' & u & A').
      pose proof (a_pos _ _ _ _ _ _ _ _ _ _ A').
      split; [lia|]. split; auto. split; [eauto|]. discriminate.
Qed.

Lemma pairs_app a b : pairs (a ++ b) = pairs a ++ pairs b.
Proof. apply map_app. Qed.

Lemma first_fit h s g o n s' r fl : reach h s g -> is_alloc o n -> req_ok P n ->
  step P s o = Ok (s', r) -> free_blocks P s fl ->
  (r = 0 /\ s' = s /\ Forall (fun x => snd x < chunk_size P n) fl) \/
  (r <> 0 /\ exists l1 a k l2, fl = l1 ++ (a, k) :: l2 /\
     Forall (fun x => snd x < chunk_size P n) l1 /\ chunk_size P n <= k /\ r = a + P).
Proof.
  intros H Ho Hn E Hf. destruct (alloc_cases _ _ _ _ _ _ _ H Ho Hn E) as (B & R & L & C).
  rewrite (free_blocks_rep _ _ _ R Hf).
  destruct C as [(-> & -> & C) | (Hr & _ & (B' & u & A) & _)].
  - left. split; auto. split; auto. apply Forall_forall. intros [a k] Hx. apply in_pairs in Hx.
    destruct Hx as (b & Hb & <- & <-). apply C; auto.
  - right. split; auto. destruct (a_fit _ _ _ _ _ _ _ _ _ _ A) as (B1 & b & B2 & -> & Hb & Hba & Hsm & Hbig).
    rewrite (frees_app B1 (b :: B2)). exists (pairs (frees B1)), (ba b), (bs b), (pairs (frees B2)).
    split. { rewrite pairs_app. f_equal. unfold frees at 1. cbn [filter]. rewrite Hb. reflexivity. }
    split. { apply Forall_forall. intros [a k] Hx. apply in_pairs in Hx. destruct Hx as (x & Hx & <- & <-). apply Hsm; auto. }
    split; auto. rewrite Hba. apply (a_q _ _ _ _ _ _ _ _ _ _ A).
Qed.

Lemma alloc_available h s g o n s' r k : reach h s g -> is_alloc o n -> req_ok P n ->
  step P s o = Ok (s', r) -> r <> 0 -> usable P (sm s') r k ->
  heap_available (sctx s') = heap_available (sctx s) - (k + P).
Proof.
  intros H Ho Hn E Hr U. destruct (alloc_cases _ _ _ _ _ _ _ H Ho Hn E) as (B & R & L & C).
  destruct C as [(-> & _) | (_ & _ & (B' & u & A) & _)]; [tauto|].
  pose proof (used_usable _ _ _ _ (o_rep _ _ _ _ _ _ (a_op _ _ _ _ _ _ _ _ _ _ A)) (a_in _ _ _ _ _ _ _ _ _ _ A)) as U'.
  rewrite <- (a_q _ _ _ _ _ _ _ _ _ _ A) in U'. rewrite (usable_fun _ _ _ _ U U').
  unfold heap_available. rewrite (a_fs _ _ _ _ _ _ _ _ _ _ A). lia.
Qed.

Lemma zeroed h s g n s' r : reach h s g -> req_ok P n -> step P s (OAlloc n) = Ok (s', r) -> r <> 0 ->
  forall z, r <= z < r + n -> bytes (sm s') z = 0.
Proof.
  intros H Hn E Hr. destruct (alloc_cases _ _ _ _ _ _ _ H (or_introl eq_refl) Hn E) as (B & R & L & C).
  destruct C as [(-> & _) | (_ & _ & _ & C)]; [tauto|]. apply C. reflexivity.
Qed.

(* --- C03, free --- *)

Lemma free_result h s g p k s' r : reach h s g -> In p (live g) -> usable P (sm s) p k ->
  step P s (OFree p) = Ok (s', r) ->
  heap_available (sctx s') = heap_available (sctx s) + (k + P).
Proof.
  intros H Hp U E. destruct (inv_head _ _ (inv_reach _ _ _ H)) as (B & Bs & R & L & S).
  apply L in Hp. destruct Hp as (u & Hu & ->).
  pose proof (used_usable _ _ _ _ R Hu) as U'. rewrite (usable_fun _ _ _ _ U U').
  cbn [step] in E. unfold free in E. destruct (Z.eqb_spec (ba u + P) 0); [destruct U; tauto|].
  replace (ba u + P - P) with (ba u) in E by lia.
  destruct (make_free_ok P HP _ _ _ _ R Hu) as (m' & c' & B' & E' & F). rewrite E' in E. cbn in E. injection E as <- <-.
  cbn [sctx]. unfold heap_available. rewrite (f_fs _ _ _ _ _ _ _ _ F). lia.
Qed.

(* --- C07 --- *)

Lemma realloc_result h s g p n k s' r fl : reach h s g -> In p (live g) -> req_ok P n ->
  usable P (sm s) p k -> step P s (ORealloc p n) = Ok (s', r) -> free_blocks P s fl ->
  (n <= k /\ r = p /\ s' = s) \/
  (k < n /\ r = 0 /\ Forall (fun x => snd x < chunk_size P n) fl /\
   heap_available (sctx s') = heap_available (sctx s) + (k + P)) \/
  (k < n /\ r <> 0 /\ r <> p /\ ~ In r (live g) /\
   (forall i, 0 <= i < k -> bytes (sm s') (r + i) = bytes (sm s) (p + i)) /\
   exists k', usable P (sm s') r k' /\ n <= k' /\
     heap_available (sctx s') = heap_available (sctx s) - (k' + P) + (k + P)).
Proof.
  intros H Hp Hn U E Hf. destruct (inv_head _ _ (inv_reach _ _ _ H)) as (B & Bs & R & L & S).
  rewrite (free_blocks_rep _ _ _ R Hf).
  apply L in Hp. destruct Hp as (u & Hu & ->).
  pose proof (used_usable _ _ _ _ R Hu) as U'. rewrite (usable_fun _ _ _ _ U U').
  cbn [step] in E.
  destruct (realloc_spec P HP _ _ _ _ _ R Hu Hn) as
    [(Hle & E') | [(Hlt & Hno & m' & c' & B' & E' & F) |
      (Hlt & m' & c' & B' & v & q & E' & O & Hv & Hq & Hq0 & Hvu & Hvu2 & Hbig & Hu1 & Hu2 & Hnv & Hk & Hcp & Hfs)]];
    rewrite E' in E; cbn in E; injection E as <- <-.
  - left. destruct s; auto.
  - right; left. split; auto. split; auto. split.
    + apply Forall_forall. intros [a x] Hx. apply in_pairs in Hx. destruct Hx as (b & Hb & <- & <-). apply Hno; auto.
    + unfold heap_available. cbn [sctx]. rewrite (f_fs _ _ _ _ _ _ _ _ F). lia.
  - right; right. split; auto. split; [lia|]. split; [lia|]. split.
    + intros Hin. apply L in Hin. destruct Hin as (x & Hx & Ex).
      destruct (Z.eq_dec (ba x) (ba u)) as [Exu | Nxu]; [lia|].
      destruct (Hu2 x Hx) as [Hx' Hxv]; [intros ->; auto|].
      apply Hxv. apply (head_addr_inj _ _ _ _ _ (o_rep _ _ _ _ _ _ O)); try apply used_sub; auto. lia.
    + split; [exact Hcp|]. exists (bs v - P). cbn [sm]. rewrite Hq. split; [|split; [lia|]].
      * eapply used_usable; [apply (o_rep _ _ _ _ _ _ O)|auto].
      * unfold heap_available. cbn [sctx]. lia.
Qed.

(* --- C08 --- *)

Lemma truncate_result h s g p n k s' r : reach h s g -> In p (live g) -> req_ok P n ->
  usable P (sm s) p k -> step P s (OTruncate p n) = Ok (s', r) ->
  let k' := if chunk_size P n + 3 * P <=? k + P then chunk_size P n - P else k in
  usable P (sm s') p k' /\ Z.min n k <= k' <= k /\
  (forall z, p <= z < p + k' -> bytes (sm s') z = bytes (sm s) z) /\
  heap_available (sctx s') = heap_available (sctx s) + (k - k') /\
  (k' = k -> s' = s).
Proof.
  intros H Hp Hn U E k'. destruct (inv_head _ _ (inv_reach _ _ _ H)) as (B & Bs & R & L & S).
  apply L in Hp. destruct Hp as (u & Hu & ->).
  pose proof (used_usable _ _ _ _ R Hu) as U'. pose proof (usable_fun _ _ _ _ U U') as ->. clear U'.
  cbn [step] in E. pose proof (P_pos P HP).
  destruct (truncate_spec P HP _ _ _ _ _ R Hu Hn) as (m' & c' & B' & u' & E' & O & Hu' & Ea & C & _ & _ & _ & Hb & Hfs).
  rewrite E' in E. cbn in E. injection E as <- <-.
  pose proof (used_usable _ _ _ _ (o_rep _ _ _ _ _ _ O) Hu') as U''. rewrite Ea in U''.
  destruct (chunk_size_props P HP n Hn) as (C1 & C2 & C3).
  assert (Ek : k' = bs u' - P).
  { unfold k'. destruct (Z.leb_spec (chunk_size P n + 3 * P) (bs u - P + P)); destruct C as [(-> & C & _) | (C & C')]; lia. }
  rewrite Ek. cbn [sm sctx]. split; [exact U''|]. split.
  { destruct C as [(-> & C & _) | (C & C')]; lia. }
  split; [intros z Hz; apply Hb; lia|]. unfold heap_available. split; [lia|].
  intros Eq. destruct C as [(-> & C & -> & ->) | (C & C')]; [destruct s; auto|lia].
Qed.

(* --- C10 --- *)

Lemma nested_run s g Bs s1 g1 : stk (sm s) (sctx s :: sparents s) Bs (live g :: outer g) ->
  (exists B, stk (sm s1) (sctx s1 :: sparents s1) (B :: Bs) (live g1 :: outer g1)) ->
  sparents s1 = sctx s :: sparents s -> outer g1 = live g :: outer g ->
  forall h s2 g2, run P (S (length (outer g))) s1 g1 h s2 g2 ->
  exists B pre cpre lpre,
    stk (sm s2) (sctx s2 :: sparents s2) (B :: pre ++ Bs) (live g2 :: outer g2) /\
    sparents s2 = cpre ++ sctx s :: sparents s /\ outer g2 = lpre ++ live g :: outer g /\
    length cpre = length lpre /\ length pre = length lpre /\
    Forall (fun c => forall z, in_region c z -> in_region (sctx s1) z) (sctx s2 :: cpre) /\
    (forall z, ~ in_region (sctx s1) z -> (forall v, ~ In (OPoke z v) h) -> bytes (sm s2) z = bytes (sm s1) z) /\
    forall b z, sblk Bs b -> ba b <= z < ba b + bs b -> (forall v, ~ In (OPoke z v) h) ->
      bytes (sm s2) z = bytes (sm s1) z.
Proof.
  intros S0 [B0 S1] Hp Ho. pose proof (P_pos P HP) as PP.
  induction 1 as [|h s2 g2 o s3 r Hrun IH V E Hd].
  - exists B0, [], [], []. cbn. repeat (split; [solve [auto]|]). auto 10.
  - destruct IH as (B & pre & cpre & lpre & S2 & Hc & Hl & L1 & L2 & Hreg & Hout & Hb).
    destruct (inv_step P HP _ _ _ _ _ _ S2 V) as (s3' & r' & Bs3 & E' & S3 & F & Sh).
    rewrite E in E'. injection E' as <- <-.
    assert (X : exists B' pre' cpre' lpre', Bs3 = B' :: pre' ++ Bs /\
      sparents s3 = cpre' ++ sctx s :: sparents s /\ outer (after g2 o r) = lpre' ++ live g :: outer g /\
      length cpre' = length lpre' /\ length pre' = length lpre' /\
      Forall (fun c => forall z, in_region c z -> in_region (sctx s1) z) (sctx s3 :: cpre')).
    { inversion Sh as [o' Bx By Bz Q1 Q2 Q3 Q4 Q5 Q6 Q7 | Bx Q1 Q2 Q3 Q4 Q6 Q7 Q5 | Bx Q1 Q2 Q3 Q4 Q5].
      - injection Q1 as <- <-. exists By, pre, cpre, lpre. rewrite Q3, Q4. repeat (split; [solve [auto]|]).
        inversion Hreg as [|? ? G1 G2]; subst. constructor; auto. unfold in_region in *. rewrite Q6, Q7. auto.
      - exists Bx, (B :: pre), (sctx s2 :: cpre), (live g2 :: lpre). cbn [length app].
        rewrite Q2, Q3, Hc, Hl. repeat (split; [solve [auto]|]).
        constructor; auto. inversion Hreg; subst; auto.
      - rewrite <- Q5 in *. injection Q1 as <- <-. rewrite Hc in Q2. rewrite Hl in Q3.
        destruct lpre as [|l0 lpre].
        + exfalso. cbn in Hd. rewrite Hl in Hd. cbn in Hd. lia.
        + destruct cpre as [|c0 cpre]; [discriminate|]. destruct pre as [|b0 pre]; [discriminate|].
          cbn [app] in Q2, Q3. cbn in L1, L2. injection Q2 as Q2 Q2'. injection Q3 as Q3 Q3'.
          exists b0, pre, cpre, lpre. repeat (split; [solve [auto]|]).
          rewrite <- Q2. inversion Hreg; subst; auto. }
    destruct X as (B' & pre' & cpre' & lpre' & EB & X1 & X2 & X3 & X4 & X5).
    exists B', pre', cpre', lpre'. rewrite EB in *. do 6 (split; [solve [auto]|]). split.
    { intros z Hz Hnp. rewrite <- (Hout z Hz); [|intros v Hv; apply (Hnp v); apply in_or_app; auto].
      inversion Hreg as [|? ? G1 G2]; subst.
      destruct o; try (apply (sf_region _ _ _ _ _ _ _ _ F); [discriminate|auto]).
      cbn [step] in E. destruct (_ && _) in E; [|discriminate]. injection E as <- <-. cbn [sm bytes]. apply upd_other. intros ->. apply (Hnp v). apply in_or_app. right. left. auto. }
    intros b z Hsb Hz Hnp.
    rewrite <- (Hb b z Hsb Hz); [|intros v Hv; apply (Hnp v); apply in_or_app; auto].
    assert (Hsb2 : sblk (B :: pre ++ Bs) b).
    { destruct Hsb as (Bx & Hx1 & Hx2). exists Bx. split; auto. right. apply in_or_app. auto. }
    destruct (sf_keep _ _ _ _ _ _ _ _ F b Hsb2) as (_ & _ & K); [| |apply K; auto].
    + intros Ha.
      assert (Hlive : In (ba b + P) (live g2)).
      { destruct (stk_sblk_facts P HP _ _ _ _ _ _ S2 _ _ eq_refl) as [_ Fa].
        destruct (Fa b Hsb2) as (_ & _ & _ & _ & _ & _ & Hpos & _).
        destruct o; cbn in Ha; try tauto; cbn [valid] in V.
        - subst p. destruct V; auto. lia.
        - subst p. destruct V as [[?|?] _]; auto. lia.
        - subst p. destruct V as [[?|?] _]; auto. lia. }
      destruct (stk_head _ _ _ _ _ _ _ _ S2) as (? & ? & ? & ? & [= <- <-] & [= <- <-] & R2 & LL).
      apply LL in Hlive. destruct Hlive as (x & Hx & Ex).
      destruct (rep_in P HP _ _ _ _ R2 (used_sub _ _ Hx)) as (I1 & I2 & I3 & _).
      assert (Hsb3 : sblk (pre ++ Bs) b).
      { destruct Hsb as (Bx & Hx1 & Hx2). exists Bx. split; auto. apply in_or_app. auto. }
      apply (stk_sblk_out P HP _ _ _ _ _ _ S2 _ _ _ _ eq_refl eq_refl b (ba b) Hsb3).
      * destruct (stk_sblk_facts P HP _ _ _ _ _ _ S2 _ _ eq_refl) as [_ Fa].
        destruct (Fa b Hsb2) as (_ & _ & _ & ? & _). lia.
      * unfold in_region. lia.
    + intros _. destruct Hsb as (Bx & Hx1 & Hx2). exists Bx. split; auto. right. apply in_or_app. auto.
    + intros v ->. apply (Hnp v). apply in_or_app. right. left. auto.
Qed.

Lemma context_restored h s g s1 h2 s2 g2 s3 r : reach h s g ->
  step P s OPush = Ok (s1, 1) ->
  run P (S (length (outer g))) s1 (after g OPush 1) h2 s2 g2 ->
  length (outer g2) = S (length (outer g)) ->
  step P s2 OPop = Ok (s3, r) ->
  sctx s3 = sctx s /\ sparents s3 = sparents s /\ after g2 OPop r = g /\
  (forall fl, free_blocks P s fl -> free_blocks P s3 fl /\
     exists a k, In (a, k) fl /\ forall z, ~ (a + 2 * P <= z < a + k) -> (forall v, ~ In (OPoke z v) h2) ->
       bytes (sm s3) z = bytes (sm s) z) /\
  forall p n, owned g p -> usable P (sm s) p n ->
    usable P (sm s3) p n /\
    forall z, p <= z < p + n -> (forall v, ~ In (OPoke z v) h2) -> bytes (sm s3) z = bytes (sm s) z.
Proof.
  intros H E1 Hrun Hlen E3. destruct (inv_reach _ _ _ H) as (Bs & S0).
  destruct (inv_step P HP _ _ _ _ _ OPush S0 I) as (s1' & r1 & Bs1 & E1' & S1 & F1 & Sh1).
  rewrite E1 in E1'. injection E1' as <- <-.
  inversion Sh1 as [o' Bx By Bz Q1 Q2 Q3 Q4 Q5 Q6 Q7 | Bx Q1 Q2 Q3 Q4 Q6 Q7 Q5 | Bx Q1 Q2 Q3 Q4 Q5].
  { exfalso. cbn in Q4. change (1 =? 0) with false in Q4. cbn in Q4. apply (f_equal (@length _)) in Q4. cbn in Q4. lia. }
  rewrite Q1 in S1.
  destruct (nested_run _ _ _ _ _ S0 (ex_intro _ _ S1) Q2 Q3 _ _ _ Hrun)
    as (B & pre & cpre & lpre & S2 & Hc & Hl & L1 & L2 & _ & Hout & Hb).
  assert (lpre = []) as ->.
  { destruct lpre; auto. exfalso. rewrite Hl in Hlen. cbn in Hlen. rewrite app_length in Hlen. cbn in Hlen. lia. }
  destruct cpre; [|discriminate]. destruct pre; [|discriminate]. cbn in Hc, Hl, S2.
  cbn [step] in E3. unfold context_pop in E3. rewrite Hc in E3. cbn in E3. injection E3 as <- <-.
  cbn [sctx sparents sm]. split; auto. split; auto. split. { cbn. rewrite Hl. destruct g; auto. }
  rewrite Hc, Hl in S2.
  destruct (stk_pop _ _ _ _ _ _ _ _ _ _ S2) as (Ba & Bb & Bs' & l' & ls' & f & [= <- ->] & [= <- <-] & S3 & R2 & LL & _).
  split.
  - intros fl Hf. destruct (stk_head _ _ _ _ _ _ _ _ S0) as (? & ? & ? & ? & [= <- <-] & [= <- <-] & R0 & L0).
    destruct (stk_head _ _ _ _ _ _ _ _ S3) as (? & ? & ? & ? & [= <- <-] & [= <- <-] & R3 & L3).
    rewrite (free_blocks_rep _ _ _ R0 Hf). split; [apply (rep_free_blocks (St (sm s2) (sctx s) (sparents s))); exact R3|].
    rewrite Q2, Q3 in S1.
    destruct (stk_pop _ _ _ _ _ _ _ _ _ _ S1) as (Bp & Bq & Bs1' & lp & lsp & f1 & [= <- <- <-] & _ & _ & _ & _ & Hf1 & Hhs & Hhz).
    exists (ba f1), (bs f1). split; [apply in_pairs; eauto|].
    intros z Hz Hnp. assert (Hreg : ~ in_region (sctx s1) z) by (unfold in_region; rewrite Hhs, Hhz; lia).
    rewrite (Hout z Hreg Hnp). apply Q7. exact Hreg.
  - intros p n Hown U. destruct (owned_facts _ _ _ _ S0 Hown) as (b & Hsb & -> & U' & _).
    pose proof (usable_fun _ _ _ _ U U') as ->.
    destruct (stk_sblk_facts P HP _ _ _ _ _ _ S3 _ _ eq_refl) as [_ Fa].
    split; [split; [apply U|apply (Fa b Hsb)]|].
    intros z Hz Hnp. pose proof (P_pos P HP). rewrite (Hb b z Hsb); [|lia|auto].
    destruct (sf_keep _ _ _ _ _ _ _ _ F1 b Hsb) as (_ & _ & K); [cbn; tauto|discriminate|].
    apply K; [lia|discriminate].
Qed.

End Client.
