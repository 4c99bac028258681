(* Proofs about AllocModel.v: the free list in memory represents a layout. *)
From Verif Require Import Base BaseLemmas AllocModel AllocSpec.
From Coq Require Import Sorted.
Open Scope Z_scope.

Section Proof.

Variable P : Z.
Hypothesis HP : P = 4 \/ P = 8.

Notation W := (W P).
Notation wrap := (wrap P).
Notation load := (load P).
Notation store := (store P).

Lemma P_pos : 4 <= P <= 8. Proof. destruct HP; lia. Qed.

Lemma W_eq : W = 256 ^ Z.of_nat (Z.to_nat P).
Proof. unfold AllocModel.W. destruct HP as [-> | ->]; reflexivity. Qed.

Lemma W_big : 2 ^ 32 <= W.
Proof. unfold AllocModel.W. destruct HP as [-> | ->]; vm_compute; discriminate. Qed.

Lemma W_pos : 0 < W.
Proof. pose proof W_big. lia. Qed.

Lemma wrap_small x : 0 <= x < W -> wrap x = x.
Proof. intros. unfold AllocModel.wrap. apply Z.mod_small. auto. Qed.

Definition al (a : Z) : Prop := a mod P = 0.

Lemma al_add a b : al a -> al b -> al (a + b).
Proof. unfold al. destruct HP as [-> | ->]; intros; Z.div_mod_to_equations; lia. Qed.
Lemma al_sub a b : al a -> al b -> al (a - b).
Proof. unfold al. destruct HP as [-> | ->]; intros; Z.div_mod_to_equations; lia. Qed.
Lemma al_P : al P.
Proof. unfold al. destruct HP as [-> | ->]; reflexivity. Qed.
Lemma al_P2 : al (2 * P).
Proof. unfold al. destruct HP as [-> | ->]; reflexivity. Qed.
Hint Resolve al_add al_sub al_P al_P2 : al.

(* --- words --- *)

Definition same_bounds (m m' : mem) : Prop := mlo m' = mlo m /\ mhi m' = mhi m.

(* [m'] is [m] with the word at [a] set to [v]. *)
Record wr (m : mem) (a v : Z) (m' : mem) : Prop := {
  wr_same : load m' a = Ok v;
  wr_frame : forall x, x < a \/ a + P <= x -> bytes m' x = bytes m x;
  wr_bnd : same_bounds m m' }.

Lemma word_ok_intro m a : mlo m <= a -> a + P <= mhi m -> al a -> word_ok P m a = true.
Proof. unfold word_ok, al. intros. rewrite !andb_true_iff. lia. Qed.

Lemma store_wr m a v :
  mlo m <= a -> a + P <= mhi m -> al a -> 0 <= v < W ->
  exists m', store m a v = Ok m' /\ wr m a v m'.
Proof.
  intros Hl Hh Ha Hv. pose proof P_pos.
  unfold AllocModel.store. rewrite word_ok_intro by auto. eexists; split; [reflexivity|].
  constructor.
  - unfold AllocModel.load. rewrite (word_ok_intro (Mem _ _ _)) by auto. cbn [bytes].
    rewrite load_store_le_same; [reflexivity|]. rewrite <- W_eq. auto.
  - intros x Hx. cbn [bytes]. apply store_le_other. lia.
  - split; reflexivity.
Qed.

Lemma load_frame m m' a :
  same_bounds m m' ->
  (forall x, a <= x < a + P -> bytes m' x = bytes m x) ->
  load m' a = load m a.
Proof.
  intros [Hl Hh] Hb. pose proof P_pos. unfold AllocModel.load, word_ok. rewrite Hl, Hh.
  destruct (_ && _ && _); [|reflexivity].
  f_equal. apply load_le_ext. intros x Hx. apply Hb. lia.
Qed.

Lemma wr_other m a v m' b :
  wr m a v m' -> b + P <= a \/ a + P <= b -> load m' b = load m b.
Proof.
  intros [_ Hf Hb] Hd. apply load_frame; auto. intros x Hx. apply Hf. lia.
Qed.

Lemma load_Ok_range m a v : load m a = Ok v -> 0 <= v < W.
Proof.
  unfold AllocModel.load. destruct (word_ok P m a); [|discriminate].
  intros [= <-]. rewrite W_eq. apply load_le_range.
Qed.

Lemma same_bounds_refl m : same_bounds m m. Proof. split; reflexivity. Qed.
Lemma same_bounds_trans a b c : same_bounds a b -> same_bounds b c -> same_bounds a c.
Proof. unfold same_bounds. intros [] []. split; congruence. Qed.

(* --- layouts --- *)

Record blk := Blk { ba : Z; bs : Z; bf : bool }.

Fixpoint tile (lo : Z) (B : list blk) (hi : Z) : Prop :=
  match B with
  | [] => lo = hi
  | b :: B' => ba b = lo /\ 2 * P <= bs b /\ al (bs b) /\ tile (lo + bs b) B' hi
  end.

Fixpoint coal (B : list blk) : Prop :=
  match B with
  | [] => True
  | b :: B' => match B' with
               | [] => True
               | b' :: _ => (bf b && bf b') = false
               end /\ coal B'
  end.

Definition frees (B : list blk) : list blk := filter bf B.

Fixpoint sumf (B : list blk) : Z :=
  match B with
  | [] => 0
  | b :: B' => (if bf b then bs b else 0) + sumf B'
  end.

Definition head_or (l : list blk) (x : Z) : Z :=
  match l with [] => x | b :: _ => ba b end.

Fixpoint links (m : mem) (l : list blk) (nxt : Z) : Prop :=
  match l with
  | [] => True
  | b :: l' => load m (ba b + P) = Ok (head_or l' nxt) /\ links m l' nxt
  end.

Definition words (m : mem) (B : list blk) : Prop :=
  forall b, In b B -> load m (ba b) = Ok (bs b).

Record rep (m : mem) (c : ctx) (B : list blk) : Prop := {
  r_pos : 0 < heap_start c;
  r_al : al (heap_start c);
  r_tile : tile (heap_start c) B (heap_start c + heap_size c);
  r_hi : heap_start c + heap_size c < W;
  r_lom : mlo m <= heap_start c;
  r_him : heap_start c + heap_size c <= mhi m;
  r_coal : coal B;
  r_words : words m B;
  r_links : links m (frees B) 0;
  r_head : free_list c = head_or (frees B) 0;
  r_fs : free_size c = sumf B }.

Lemma tile_app B1 : forall lo B2 hi,
  tile lo (B1 ++ B2) hi <-> exists mid, tile lo B1 mid /\ tile mid B2 hi.
Proof.
  induction B1 as [|b B1 IH]; intros lo B2 hi; cbn.
  - split; [intros; exists lo; auto|intros (mid & -> & ?); auto].
  - rewrite IH. split.
    + intros (? & ? & ? & mid & ? & ?). exists mid. tauto.
    + intros (mid & (? & ? & ? & ?) & ?). repeat split; auto. exists mid. auto.
Qed.

Lemma tile_le B : forall lo hi, tile lo B hi -> lo <= hi.
Proof.
  pose proof P_pos.
  induction B as [|b B IH]; cbn; intros lo hi Ht; [lia|].
  destruct Ht as (? & ? & ? & Ht). apply IH in Ht. lia.
Qed.

Lemma tile_in B : forall lo hi b, tile lo B hi -> In b B ->
  lo <= ba b /\ ba b + bs b <= hi /\ 2 * P <= bs b /\ al (bs b).
Proof.
  pose proof P_pos.
  induction B as [|c B IH]; cbn; intros lo hi b Ht Hin; [tauto|].
  destruct Ht as (? & ? & ? & Ht). pose proof (tile_le _ _ _ Ht).
  destruct Hin as [-> | Hin]; [repeat split; auto; lia|].
  destruct (IH _ _ _ Ht Hin) as (? & ? & ? & ?). repeat split; auto; lia.
Qed.

Lemma tile_al B : forall lo hi b, tile lo B hi -> al lo -> In b B -> al (ba b).
Proof.
  induction B as [|c B IH]; cbn; intros lo hi b Ht Hal Hin; [tauto|].
  destruct Ht as (? & ? & ? & Ht). destruct Hin as [-> | Hin]; [congruence|].
  apply (IH _ _ _ Ht); auto with al.
Qed.

Lemma tile_end_al B : forall lo hi, tile lo B hi -> al lo -> al hi.
Proof.
  induction B as [|c B IH]; cbn; intros lo hi Ht Hal; [congruence|].
  destruct Ht as (? & ? & ? & Ht). apply (IH _ _ Ht). auto with al.
Qed.

Lemma tile_length B : forall lo hi, tile lo B hi -> Z.of_nat (length B) * (2 * P) <= hi - lo.
Proof.
  pose proof P_pos.
  induction B as [|c B IH]; intros lo hi Ht; cbn [length tile] in *; [lia|].
  destruct Ht as (? & ? & ? & Ht). apply IH in Ht. nia.
Qed.

Lemma frees_app B1 B2 : frees (B1 ++ B2) = frees B1 ++ frees B2.
Proof. apply filter_app. Qed.

Lemma frees_in B b : In b (frees B) <-> In b B /\ bf b = true.
Proof. apply filter_In. Qed.

Lemma frees_length B : (length (frees B) <= length B)%nat.
Proof. unfold frees. induction B as [|b B IH]; cbn; [lia|]. destruct (bf b); cbn; lia. Qed.

Lemma sumf_app B1 B2 : sumf (B1 ++ B2) = sumf B1 + sumf B2.
Proof. induction B1; cbn; lia. Qed.

Lemma sumf_bounds B : forall lo hi, tile lo B hi -> 0 <= sumf B <= hi - lo.
Proof.
  pose proof P_pos.
  induction B as [|b B IH]; cbn; intros lo hi Ht; [lia|].
  destruct Ht as (? & ? & ? & Ht). apply IH in Ht. destruct (bf b); lia.
Qed.

Lemma links_app m l1 : forall l2 nxt,
  links m (l1 ++ l2) nxt <-> links m l1 (head_or l2 nxt) /\ links m l2 nxt.
Proof.
  induction l1 as [|b l1 IH]; intros l2 nxt; cbn; [tauto|].
  rewrite IH. destruct l1; cbn; tauto.
Qed.

Lemma head_or_app l1 l2 x : head_or (l1 ++ l2) x = head_or l1 (head_or l2 x).
Proof. destruct l1; reflexivity. Qed.

Lemma words_app m B1 B2 : words m (B1 ++ B2) <-> words m B1 /\ words m B2.
Proof.
  unfold words. split.
  - intros H; split; intros b Hb; apply H; apply in_app_iff; auto.
  - intros [H1 H2] b Hb. apply in_app_iff in Hb. destruct Hb; auto.
Qed.

Lemma words_cons m b B : words m (b :: B) <-> load m (ba b) = Ok (bs b) /\ words m B.
Proof.
  unfold words. split.
  - intros H; split; [apply H; left; auto|intros; apply H; right; auto].
  - intros [H1 H2] x [<- | Hx]; auto.
Qed.

(* The split of the free list found by a walk is a split of the layout. *)
Lemma frees_split B : forall l1 b l2, frees B = l1 ++ b :: l2 ->
  exists B1 B2, B = B1 ++ b :: B2 /\ frees B1 = l1 /\ frees B2 = l2 /\ bf b = true.
Proof.
  induction B as [|x B IH]; intros l1 b l2 H; cbn in H.
  - destruct l1; discriminate.
  - destruct (bf x) eqn:Hx.
    + destruct l1 as [|y l1]; cbn in H; injection H as -> H.
      * exists [], B. cbn. auto.
      * destruct (IH _ _ _ H) as (B1 & B2 & -> & <- & <- & ?).
        exists (y :: B1), B2. cbn. rewrite Hx. auto.
    + destruct (IH _ _ _ H) as (B1 & B2 & -> & <- & <- & ?).
      exists (x :: B1), B2. cbn. rewrite Hx. auto.
Qed.

(* hprev after walking past [l]. *)
Definition prev_of (hp : option Z) (l : list blk) : option Z :=
  fold_left (fun _ b => Some (ba b)) l hp.

Lemma prev_of_app hp l1 l2 : prev_of hp (l1 ++ l2) = prev_of (prev_of hp l1) l2.
Proof. apply fold_left_app. Qed.

Lemma find_fit_spec m n : forall l fuel hp,
  links m l 0 -> words m l -> (forall b, In b l -> 0 < ba b) -> (length l < fuel)%nat ->
  (exists l1 b l2, l = l1 ++ b :: l2 /\ (forall x, In x l1 -> bs x < n) /\ n <= bs b /\
     find_fit P fuel m hp (head_or l 0) n = Ok (prev_of hp l1, ba b)) \/
  ((forall x, In x l -> bs x < n) /\
     find_fit P fuel m hp (head_or l 0) n = Ok (prev_of hp l, 0)).
Proof.
  induction l as [|b l IH]; intros fuel hp Hl Hw Hp Hf.
  - right. split; [intros x []|]. destruct fuel; reflexivity.
  - destruct fuel as [|fuel]; [cbn in Hf; lia|]. cbn [head_or find_fit].
    assert (Hb : 0 < ba b) by (apply Hp; left; auto).
    destruct (Z.eqb_spec (ba b) 0); [lia|].
    rewrite (Hw b) by (left; auto). cbn [bind].
    destruct (Z.leb_spec n (bs b)).
    + left. exists [], b, l. repeat split; auto. intros x [].
    + destruct Hl as [Hn Hl]. unfold next_at. rewrite Hn. cbn [bind].
      destruct (IH fuel (Some (ba b))) as [(l1 & y & l2 & -> & H1 & H2 & H3)|(H1 & H2)].
      * auto.
      * intros x Hx; apply Hw; right; auto.
      * intros x Hx; apply Hp; right; auto.
      * cbn in Hf; lia.
      * left. exists (b :: l1), y, l2. repeat split; auto.
        intros x [<- | Hx]; auto.
      * right. split; [intros x [<- | Hx]; auto|]. exact H2.
Qed.

(* --- blocks in a layout are apart --- *)

Definition apart (x y : blk) : Prop := ba x + bs x <= ba y \/ ba y + bs y <= ba x.

Lemma tile_apart B1 b B2 lo hi x :
  tile lo (B1 ++ b :: B2) hi ->
  (In x B1 -> ba x + bs x <= ba b) /\ (In x B2 -> ba b + bs b <= ba x).
Proof.
  intros Ht. apply tile_app in Ht. destruct Ht as (mid & H1 & H2).
  cbn in H2. destruct H2 as (? & ? & ? & H2). split; intros Hx.
  - destruct (tile_in _ _ _ _ H1 Hx). lia.
  - destruct (tile_in _ _ _ _ H2 Hx). lia.
Qed.

Lemma tile_apart2 B lo hi x y :
  tile lo B hi -> In x B -> In y B -> x = y \/ apart x y.
Proof.
  intros Ht Hx Hy. apply in_split in Hx. destruct Hx as (B1 & B2 & ->).
  apply in_app_iff in Hy. destruct (tile_apart _ _ _ _ _ y Ht) as [H1 H2].
  unfold apart. destruct Hy as [Hy | [Hy | Hy]]; auto.
Qed.


(* Free blocks of a layout, as seen by the code that writes their words. *)
Definition good (m : mem) (l : list blk) : Prop :=
  (forall b, In b l -> 0 < ba b /\ mlo m <= ba b /\ ba b + 2 * P <= mhi m /\ al (ba b)
                       /\ ba b + 2 * P <= W) /\
  StronglySorted (fun x y => ba x + 2 * P <= ba y) l.

Lemma tile_sorted B : forall lo hi, tile lo B hi ->
  StronglySorted (fun x y => ba x + 2 * P <= ba y) (frees B).
Proof.
  unfold frees. induction B as [|b B IH]; cbn; intros lo hi Ht; [constructor|].
  destruct Ht as (? & ? & ? & Ht). destruct (bf b); [|eauto].
  constructor; [eauto|]. apply Forall_forall. intros x Hx. apply filter_In in Hx.
  destruct Hx as [Hx _]. destruct (tile_in _ _ _ _ Ht Hx). lia.
Qed.

Lemma tile_good m lo hi B :
  tile lo B hi -> 0 < lo -> al lo -> mlo m <= lo -> hi <= mhi m -> hi < W -> good m (frees B).
Proof.
  intros Ht H0 Ha Hl Hh HW. split; [|eapply tile_sorted; eauto].
  intros b Hb. apply frees_in in Hb. destruct Hb as [Hb _].
  destruct (tile_in _ _ _ _ Ht Hb) as (? & ? & ? & ?).
  pose proof (tile_al _ _ _ _ Ht Ha Hb). repeat split; auto; lia.
Qed.

Lemma good_app m l1 l2 : good m (l1 ++ l2) ->
  good m l1 /\ good m l2 /\
  (forall x y, In x l1 -> In y l2 -> ba x + 2 * P <= ba y).
Proof.
  intros [H1 H2]. split; [|split].
  - split; [intros b Hb; apply H1; apply in_app_iff; auto|].
    clear H1. induction l1 as [|a l1 IH]; [constructor|]. cbn in H2. inversion H2; subst.
    constructor; auto. apply Forall_forall. intros x Hx. rewrite Forall_forall in H3.
    apply H3. apply in_app_iff; auto.
  - split; [intros b Hb; apply H1; apply in_app_iff; auto|].
    clear H1. induction l1 as [|a l1 IH]; [exact H2|]. cbn in H2. inversion H2; subst. auto.
  - clear H1. induction l1 as [|a l1 IH]; [intros x y []|]. cbn in H2. inversion H2; subst.
    intros x y [<- | Hx] Hy; [|auto]. rewrite Forall_forall in H3. apply H3.
    apply in_app_iff; auto.
Qed.

Lemma links_frame m m' l nxt :
  links m l nxt -> same_bounds m m' ->
  (forall b z, In b l -> ba b + P <= z < ba b + 2 * P -> bytes m' z = bytes m z) ->
  links m' l nxt.
Proof.
  induction l as [|b l IH]; cbn; intros Hl Hb Hf; [auto|].
  destruct Hl as [Hl Hl2]. split.
  - rewrite <- Hl. apply load_frame; auto. intros x Hx. apply (Hf b); [auto|lia].
  - apply IH; auto. intros x z Hx Hz. apply (Hf x); auto.
Qed.

Lemma words_frame m m' B :
  words m B -> same_bounds m m' ->
  (forall b z, In b B -> ba b <= z < ba b + P -> bytes m' z = bytes m z) ->
  words m' B.
Proof.
  intros Hw Hb Hf b Hin. rewrite <- (Hw b Hin). apply load_frame; auto.
  intros z Hz. apply (Hf b); auto.
Qed.

(* Writing the link of the last block before the current one. *)
Lemma set_link_spec m c l x y :
  good m l -> 0 <= y < W -> links m l x ->
  exists m' c', set_link P m c (prev_of None l) y = Ok (m', c') /\
    same_bounds m m' /\
    links m' l y /\
    free_list c' = (match l with [] => y | _ => free_list c end) /\
    free_size c' = free_size c /\ heap_start c' = heap_start c /\ heap_size c' = heap_size c /\
    (forall z, (forall b, In b l -> ~ (ba b + P <= z < ba b + 2 * P)) -> bytes m' z = bytes m z).
Proof.
  pose proof P_pos as HPP. intros Hg Hy Hl.
  destruct l as [|b0 l0] eqn:El using rev_ind; [|clear IHl0].
  - cbn. do 2 eexists. split; [reflexivity|]. cbn. repeat split; auto.
  - rewrite prev_of_app. cbn [prev_of fold_left set_link].
    destruct (good_app _ _ _ Hg) as (Hg1 & [Hg2 _] & Hg3).
    destruct (Hg2 b0) as (G1 & G2 & G3 & G4 & G5); [left; auto|].
    unfold next_at.
    destruct (store_wr m (ba b0 + P) y) as (m1 & E & Wr); auto with al; try lia.
    rewrite E. cbn [bind]. exists m1, c. split; [reflexivity|].
    apply links_app in Hl. cbn [head_or] in Hl. destruct Hl as [Hl1 Hl2].
    split; [apply Wr|]. split; [|split; [|repeat split]].
    + apply links_app. cbn [head_or]. split.
      * apply (links_frame m); auto; [apply Wr|].
        intros z u Hz Hu. apply (wr_frame _ _ _ _ Wr).
        specialize (Hg3 z b0 Hz (or_introl eq_refl)). lia.
      * cbn. split; auto. apply Wr.
    + destruct l0; reflexivity.
    + intros z Hz. apply (wr_frame _ _ _ _ Wr).
      specialize (Hz b0). rewrite in_app_iff in Hz. cbn in Hz.
      assert (~ (ba b0 + P <= z < ba b0 + 2 * P)) by tauto. lia.
Qed.

(* --- rounding --- *)

Lemma land_mask x : 0 <= x < 2 ^ 32 -> Z.land x (2 ^ 32 - P) = P * (x / P).
Proof.
  intros Hx.
  assert (E : exists k, P = 2 ^ k /\ 0 <= k < 32 /\ 2 ^ 32 - P = Z.shiftl (Z.ones (32 - k)) k).
  { destruct HP as [-> | ->]; [exists 2|exists 3]; repeat split; try lia; reflexivity. }
  destruct E as (k & E1 & E2 & E3). rewrite E3. rewrite E1.
  replace (2 ^ k * (x / 2 ^ k)) with (Z.shiftl (Z.shiftr x k) k).
  2:{ rewrite Z.shiftl_mul_pow2, Z.shiftr_div_pow2 by lia. lia. }
  apply Z.bits_inj'. intros i Hi. rewrite Z.land_spec.
  destruct (Z.ltb_spec i k).
  - rewrite !Z.shiftl_spec_low by auto. apply andb_false_r.
  - rewrite !Z.shiftl_spec by lia. rewrite Z.shiftr_spec by lia.
    replace (i - k + k) with i by lia.
    destruct (Z.ltb_spec (i - k) (32 - k)).
    + rewrite Z.ones_spec_low by lia. apply andb_true_r.
    + rewrite Z.ones_spec_high by lia. rewrite andb_false_r. symmetry.
      destruct (Z.eq_dec x 0); [subst; apply Z.bits_0|].
      apply Z.bits_above_log2; [lia|].
      assert (Z.log2 x < 32) by (apply Z.log2_lt_pow2; lia). lia.
Qed.

Lemma round_request_eq n : req_ok P n -> round_request P n = chunk_size P n.
Proof.
  intros [H1 H2]. pose proof P_pos. pose proof W_big.
  unfold round_request, size_align, chunk_size.
  assert (E : (if n <? P then P else n) = Z.max n P).
  { destruct (Z.ltb_spec n P); lia. }
  rewrite E. rewrite (wrap_small (Z.max n P + P)) by lia.
  rewrite wrap_small by lia. rewrite land_mask by lia.
  f_equal. f_equal. lia.
Qed.

Lemma chunk_size_props n : req_ok P n ->
  2 * P <= chunk_size P n /\ P + n <= chunk_size P n /\ al (chunk_size P n) /\
  chunk_size P n <= 2 ^ 32 - 4 * P.
Proof.
  unfold req_ok, chunk_size, al. intros [H1 H2].
  destruct HP as [-> | ->]; Z.div_mod_to_equations; lia.
Qed.


(* --- coalescing --- *)

Definition headf (l : list blk) : bool := match l with [] => false | b :: _ => bf b end.
Definition lastf (l : list blk) : bool := fold_left (fun _ b => bf b) l false.

Lemma lastf_snoc l b : lastf (l ++ [b]) = bf b.
Proof. unfold lastf. rewrite fold_left_app. reflexivity. Qed.

Lemma lastf_cons b c l : lastf (b :: c :: l) = lastf (c :: l).
Proof. reflexivity. Qed.

Lemma coal_app l1 l2 :
  coal (l1 ++ l2) <-> coal l1 /\ coal l2 /\ lastf l1 && headf l2 = false.
Proof.
  induction l1 as [|b l1 IH]; [cbn; tauto|].
  destruct l1 as [|c l1].
  - cbn [app coal lastf fold_left]. destruct l2; cbn [headf coal]; rewrite ?andb_false_r; tauto.
  - rewrite lastf_cons. cbn [app coal] in *. tauto.
Qed.

Definition used (B : list blk) : list blk := filter (fun b => negb (bf b)) B.

Lemma used_app B1 B2 : used (B1 ++ B2) = used B1 ++ used B2.
Proof. apply filter_app. Qed.

Lemma used_in B b : In b (used B) <-> In b B /\ bf b = false.
Proof. clear. unfold used. rewrite filter_In. destruct (bf b); cbn; intuition congruence. Qed.

Lemma rep_good m c B : rep m c B -> good m (frees B).
Proof. intros []. eapply tile_good; eauto. Qed.

Lemma rep_fuel m c B : rep m c B -> (length (frees B) < walk_fuel P c)%nat.
Proof.
  intros R. pose proof P_pos. pose proof (tile_length _ _ _ (r_tile _ _ _ R)) as H1.
  pose proof (frees_length B). unfold walk_fuel.
  assert (Z.of_nat (length B) <= heap_size c / P); [|lia].
  apply Z.div_le_lower_bound; lia.
Qed.

(* Bytes outside every free block of [B], and outside [ex, ex+len), are kept. *)
Definition keeps (m m' : mem) (B : list blk) (ex len : Z) : Prop :=
  forall z, (forall b, In b (frees B) -> ~ (ba b <= z < ba b + bs b)) ->
            ~ (ex <= z < ex + len) -> bytes m' z = bytes m z.

Lemma set_link_load m c l x y :
  good m l -> 0 <= y < W -> links m l x ->
  exists m' c', set_link P m c (prev_of None l) y = Ok (m', c') /\
    same_bounds m m' /\
    links m' l y /\
    free_list c' = (match l with [] => y | _ => free_list c end) /\
    free_size c' = free_size c /\ heap_start c' = heap_start c /\ heap_size c' = heap_size c /\
    (forall z, (forall b, In b l -> ~ (ba b + P <= z < ba b + 2 * P)) -> bytes m' z = bytes m z) /\
    (forall a, (forall b, In b l -> a <= ba b \/ ba b + 2 * P <= a) -> load m' a = load m a).
Proof.
  intros Hg Hy Hl. destruct (set_link_spec m c l x y Hg Hy Hl)
    as (m' & c' & E & Hb & H1 & H2 & H3 & H4 & H5 & H6).
  exists m', c'. repeat (split; [assumption|]). intros a Ha.
  apply load_frame; auto. intros z Hz. apply H6. intros b Hb2 Hc.
  specialize (Ha b Hb2). lia.
Qed.

Lemma alloc_dirty_spec m c B n :
  rep m c B -> req_ok P n ->
  let k := chunk_size P n in
  ((forall b, In b (frees B) -> bs b < k) /\ alloc_dirty P m c n = Ok (m, c, 0)) \/
  exists B1 b B2 m' c' B' us, B = B1 ++ b :: B2 /\ bf b = true /\
    (forall x, In x (frees B1) -> bs x < k) /\ k <= bs b /\
    alloc_dirty P m c n = Ok (m', c', ba b + P) /\
    rep m' c' B' /\ heap_start c' = heap_start c /\ heap_size c' = heap_size c /\
    same_bounds m m' /\ keeps m m' B 0 0 /\
    used B' = used B1 ++ Blk (ba b) us false :: used B2 /\ k <= us /\ us <= bs b /\
    us <> bs b - P /\
    free_size c' = free_size c - us.
Proof.
  intros R Hn k. pose proof P_pos as HPP. pose proof W_big as HW.
  destruct (chunk_size_props n Hn) as (K1 & K2 & K3 & K4). fold k in K1, K2, K3, K4.
  pose proof (rep_good _ _ _ R) as Hg. pose proof (rep_fuel _ _ _ R) as Hfu.
  destruct R as [R1 R2 R3 R4 R5 R6 R7 R8 R9 R10 R11].
  assert (Hwf : words m (frees B)).
  { intros b Hb. apply R8. apply frees_in in Hb. tauto. }
  unfold alloc_dirty. rewrite (round_request_eq n Hn). fold k. rewrite R10.
  destruct (find_fit_spec m k (frees B) (walk_fuel P c) None) as
    [(l1 & b & l2 & Hs & Hlt & Hge & E) | (Hlt & E)]; auto.
  { intros b Hb. apply (proj1 Hg). auto. }
  2:{ left. split; auto. rewrite E. reflexivity. }
  right. rewrite E. cbn [bind].
  destruct (frees_split _ _ _ _ Hs) as (B1 & B2 & -> & <- & <- & Hbf).
  rewrite Hs in R9, Hg, R10. clear E.
  destruct (good_app _ _ _ Hg) as (Hg1 & Hg2 & Hg3).
  destruct (proj1 Hg2 b (or_introl eq_refl)) as (G1 & G2 & G3 & G4 & G5).
  apply links_app in R9. cbn [head_or links] in R9. destruct R9 as (L1 & L2 & L3).
  destruct (Z.eqb_spec (ba b) 0); [lia|].
  rewrite words_app, words_cons in R8. destruct R8 as (Wd1 & Wdb & Wd2).
  rewrite Wdb. cbn [bind].
  pose proof (load_Ok_range _ _ _ Wdb) as Hbr.
  apply tile_app in R3. destruct R3 as (mid & T1 & T2). cbn in T2.
  destruct T2 as (T2 & T3 & T4 & T5). subst mid.
  pose proof (tile_le _ _ _ T5) as Tle. pose proof (tile_le _ _ _ T1) as Tle1.
  rewrite coal_app in R7. destruct R7 as (C1 & C2 & C3). cbn [coal headf] in C2, C3.
  destruct C2 as (C2 & C4). rewrite Hbf in C3. rewrite andb_true_r in C3.
  rewrite sumf_app in R11. cbn [sumf] in R11. rewrite Hbf in R11.
  pose proof (sumf_bounds _ _ _ T1) as S1. pose proof (sumf_bounds _ _ _ T5) as S2.
  rewrite (wrap_small (k + P + 2 * P)) by lia.
  assert (HB1 : forall x, In x B1 -> ba x + 2 * P <= ba b /\ ba x + bs x <= ba b).
  { intros x Hx. destruct (tile_in _ _ _ _ T1 Hx). lia. }
  assert (HB2 : forall x, In x B2 -> ba b + bs b <= ba x).
  { intros x Hx. destruct (tile_in _ _ _ _ T5 Hx). lia. }
  assert (HF1 : forall x, In x (frees B1) -> ba x + 2 * P <= ba b /\ ba x + bs x <= ba b /\ 2 * P <= bs x).
  { intros x Hx. apply frees_in in Hx. destruct Hx as [Hx _].
    destruct (tile_in _ _ _ _ T1 Hx). specialize (HB1 x Hx). lia. }
  destruct (Z.leb_spec (k + P + 2 * P) (bs b)) as [Hsp | Hsp].
  - (* split *)
    rewrite (wrap_small (ba b + k)) by lia. rewrite (wrap_small (bs b - k)) by lia.
    destruct (store_wr m (ba b + k) (bs b - k)) as (m1 & E1 & W1); auto with al; try lia.
    rewrite E1. cbn [bind].
    destruct (wr_bnd _ _ _ _ W1) as [W1l W1h].
    destruct (store_wr m1 (ba b) k) as (m2 & E2 & W2); auto with al; try lia.
    rewrite E2. cbn [bind]. unfold next_at.
    destruct (wr_bnd _ _ _ _ W2) as [W2l W2h].
    rewrite (wr_other _ _ _ _ (ba b + P) W2) by lia.
    rewrite (wr_other _ _ _ _ (ba b + P) W1) by lia.
    rewrite L2. cbn [bind].
    destruct (store_wr m2 (ba b + k + P) (head_or (frees B2) 0)) as (m3 & E3 & W3); auto 6 with al; try lia.
    { eapply load_Ok_range; eauto. }
    rewrite E3. cbn [bind].
    destruct (wr_bnd _ _ _ _ W3) as [W3l W3h].
    assert (F3 : forall z, ~ (ba b <= z < ba b + bs b) -> bytes m3 z = bytes m z).
    { intros z Hz. rewrite (wr_frame _ _ _ _ W3), (wr_frame _ _ _ _ W2), (wr_frame _ _ _ _ W1) by lia.
      reflexivity. }
    assert (SB3 : same_bounds m m3) by (split; congruence).
    destruct (set_link_load m3 c (frees B1) (ba b) (ba b + k)) as
      (m4 & c4 & E4 & SB & Lk & FL & FS & HS & HZ & Fr & Fl).
    { destruct Hg1 as [Hg1a Hg1b]. split; auto. intros x Hx.
      destruct (Hg1a x Hx) as (? & ? & ? & ? & ?). destruct SB3 as [-> ->]. auto. }
    { lia. }
    { apply (links_frame m); auto. intros x z Hx Hz. apply F3.
      destruct (HF1 x Hx). lia. }
    rewrite E4. cbn [bind].
    assert (Eh : load m4 (ba b) = Ok k).
    { rewrite Fl. 2:{ intros x Hx. destruct (HF1 x Hx). lia. }
      rewrite (wr_other _ _ _ _ _ W3) by lia. apply W2. }
    rewrite Eh. cbn [bind].
    assert (Enh : load m4 (ba b + k) = Ok (bs b - k)).
    { rewrite Fl. 2:{ intros x Hx. destruct (HF1 x Hx). lia. }
      rewrite (wr_other _ _ _ _ _ W3) by lia. rewrite (wr_other _ _ _ _ _ W2) by lia. apply W1. }
    assert (Enn : load m4 (ba b + k + P) = Ok (head_or (frees B2) 0)).
    { rewrite Fl. 2:{ intros x Hx. destruct (HF1 x Hx). lia. } apply W3. }
    assert (F4 : forall z, ~ (ba b <= z < ba b + bs b) ->
              (forall x, In x (frees B1) -> ~ (ba x + P <= z < ba x + 2 * P)) -> bytes m4 z = bytes m z).
    { intros z Hz Hz2. rewrite Fr by auto. apply F3. auto. }
    assert (SB4 : same_bounds m m4) by (eapply same_bounds_trans; eauto).
    exists B1, b, B2, m4, (sub_free P c4 k),
      (B1 ++ Blk (ba b) k false :: Blk (ba b + k) (bs b - k) true :: B2), k.
    split; [reflexivity|]. split; [auto|]. split; [auto|]. split; [lia|].
    split; [reflexivity|]. split.
    { constructor; cbn [sub_free free_list free_size heap_start heap_size]; rewrite ?HS, ?HZ; auto.
      - apply tile_app. exists (ba b). split; auto. cbn. repeat split; auto with al; try lia.
        replace (ba b + k + (bs b - k)) with (ba b + bs b) by lia. auto.
      - destruct SB4; lia.
      - destruct SB4; lia.
      - apply coal_app. cbn [coal headf bf lastf andb]. rewrite andb_false_r.
        split; [auto|]. split; [|auto]. split; [auto|]. split; [|auto].
        destruct B2 as [|y B2]; auto. rewrite Hbf in C2. exact C2.
      - rewrite words_app, !words_cons. cbn [ba bs]. split; [|split; [|split]]; auto.
        + apply (words_frame m); auto. intros x z Hx Hz. apply F4.
          * specialize (HB1 x Hx). lia.
          * intros y Hy Hyz. apply frees_in in Hy. destruct Hy as [Hy _].
            destruct (tile_apart2 _ _ _ x y T1 Hx Hy) as [-> | Ha]; [lia|].
            destruct (tile_in _ _ _ _ T1 Hx). destruct (tile_in _ _ _ _ T1 Hy). unfold apart in Ha. lia.
        + apply (words_frame m); auto. intros x z Hx Hz. apply F4.
          * specialize (HB2 x Hx). lia.
          * intros y Hy. specialize (HB2 x Hx). destruct (HF1 y Hy). lia.
      - rewrite frees_app. cbn [frees filter bf]. apply links_app. cbn [head_or ba links].
        split; [auto|]. split; [auto|]. apply (links_frame m); auto.
        intros x z Hx Hz. apply frees_in in Hx. destruct Hx as [Hx _]. specialize (HB2 x Hx). apply F4.
        + lia.
        + intros y Hy. destruct (HF1 y Hy). lia.
      - rewrite frees_app. cbn [frees filter bf]. rewrite FL, head_or_app. cbn [head_or ba].
        rewrite head_or_app in R10. cbn [head_or] in R10.
        destruct (frees B1); cbn [head_or] in *; auto.
      - rewrite sumf_app. cbn [sumf bf bs]. rewrite FS, R11. rewrite wrap_small by lia. lia. }
    split; [exact HS|]. split; [exact HZ|]. split; [auto|]. split.
    { intros z Hz _. rewrite frees_app in Hz. cbn [frees filter] in Hz. rewrite Hbf in Hz.
      apply F4.
      - apply Hz. apply in_app_iff. right. left. auto.
      - intros x Hx. specialize (Hz x). destruct (HF1 x Hx). rewrite in_app_iff in Hz.
        assert (~ (ba x <= z < ba x + bs x)) by (apply Hz; auto). lia. }
    split; [rewrite used_app; reflexivity|]. split; [lia|]. split; [lia|]. split; [lia|].
    cbn [sub_free free_size]. rewrite FS, R11. rewrite wrap_small by lia. lia.
  - (* take whole *)
    unfold next_at. rewrite L2. cbn [bind].
    destruct (set_link_load m c (frees B1) (ba b) (head_or (frees B2) 0)) as
      (m4 & c4 & E4 & SB4 & Lk & FL & FS & HS & HZ & Fr & Fl); auto.
    { eapply load_Ok_range; eauto. }
    rewrite E4. cbn [bind].
    assert (Eh : load m4 (ba b) = Ok (bs b)).
    { rewrite Fl; auto. intros x Hx. destruct (HF1 x Hx). lia. }
    rewrite Eh. cbn [bind].
    exists B1, b, B2, m4, (sub_free P c4 (bs b)), (B1 ++ Blk (ba b) (bs b) false :: B2), (bs b).
    split; [reflexivity|]. split; [auto|]. split; [auto|]. split; [lia|].
    split; [reflexivity|]. split.
    { constructor; cbn [sub_free free_list free_size heap_start heap_size]; rewrite ?HS, ?HZ; auto.
      - apply tile_app. exists (ba b). split; auto. cbn. repeat split; auto with al; try lia.
      - destruct SB4; lia.
      - destruct SB4; lia.
      - apply coal_app. cbn [coal headf bf lastf andb]. rewrite andb_false_r.
        split; [auto|]. split; [|auto]. split; [|auto]. destruct B2; auto.
      - rewrite words_app, !words_cons. cbn [ba bs]. split; [|split]; auto.
        + apply (words_frame m); auto. intros x z Hx Hz. apply Fr.
          intros y Hy Hyz. apply frees_in in Hy. destruct Hy as [Hy _].
          destruct (tile_apart2 _ _ _ x y T1 Hx Hy) as [-> | Ha]; [lia|].
          destruct (tile_in _ _ _ _ T1 Hx). destruct (tile_in _ _ _ _ T1 Hy). unfold apart in Ha. lia.
        + apply (words_frame m); auto. intros x z Hx Hz. apply Fr.
          intros y Hy. specialize (HB2 x Hx). destruct (HF1 y Hy). lia.
      - rewrite frees_app. cbn [frees filter bf]. apply links_app.
        split; [auto|]. apply (links_frame m); auto.
        intros x z Hx Hz. apply frees_in in Hx. destruct Hx as [Hx _]. specialize (HB2 x Hx). apply Fr.
        intros y Hy. destruct (HF1 y Hy). lia.
      - rewrite frees_app. cbn [frees filter bf]. rewrite FL, head_or_app.
        rewrite head_or_app in R10. cbn [head_or] in R10.
        destruct (frees B1); cbn [head_or] in *; auto.
      - rewrite sumf_app. cbn [sumf bf bs]. rewrite FS, R11. rewrite wrap_small by lia. lia. }
    split; [exact HS|]. split; [exact HZ|]. split; [auto|]. split.
    { intros z Hz _. rewrite frees_app in Hz. apply Fr.
      intros x Hx. specialize (Hz x). destruct (HF1 x Hx). rewrite in_app_iff in Hz.
      assert (~ (ba x <= z < ba x + bs x)) by (apply Hz; auto). lia. }
    split; [rewrite used_app; reflexivity|]. split; [lia|]. split; [lia|]. split; [lia|].
    cbn [sub_free free_size]. rewrite FS, R11. rewrite wrap_small by lia. lia.
Qed.


(* --- freeing --- *)

Lemma walk_skip m c newh : forall l k hp nxt,
  links m l nxt -> words m l ->
  (forall b, In b l -> 0 < ba b /\ ba b < newh /\ ba b + bs b < newh /\ 0 <= bs b) -> newh < W ->
  free_walk P (length l + k) m c hp (head_or l nxt) newh =
  free_walk P k m c (prev_of hp l) nxt newh.
Proof.
  induction l as [|b l IH]; intros k hp nxt Hl Hw Hb HW; [reflexivity|].
  destruct (Hb b (or_introl eq_refl)) as (H1 & H2 & H3 & H4).
  cbn [length Nat.add head_or free_walk]. destruct (Z.eqb_spec (ba b) 0); [lia|].
  destruct (Z.ltb_spec newh (ba b)); [lia|].
  rewrite (Hw b) by (left; auto). cbn [bind]. rewrite wrap_small by lia.
  destruct (Z.eqb_spec (ba b + bs b) newh); [lia|].
  destruct Hl as [L1 L2]. unfold next_at. rewrite L1. cbn [bind].
  apply IH; auto.
  - intros x Hx. apply Hw. right; auto.
  - intros x Hx. apply Hb. right; auto.
Qed.

(* A block ending where the tiling ends is the last one. *)
Lemma tile_last X : forall lo x Y hi, tile lo (X ++ x :: Y) hi -> ba x + bs x = hi -> Y = [].
Proof.
  pose proof P_pos. intros lo x Y hi Ht He. apply tile_app in Ht. destruct Ht as (mid & _ & H2).
  cbn in H2. destruct H2 as (? & ? & ? & H2). destruct Y as [|y Y]; auto. exfalso.
  cbn in H2. destruct H2 as (? & ? & ? & H2). apply tile_le in H2. lia.
Qed.

Lemma lastf_false_apart B lo hi x :
  tile lo B hi -> lastf B = false -> In x (frees B) -> ba x + bs x < hi.
Proof.
  intros Ht Hl Hx. apply frees_in in Hx. destruct Hx as [Hx Hf].
  destruct (tile_in _ _ _ _ Ht Hx) as (_ & Hle & _).
  destruct (Z.eq_dec (ba x + bs x) hi) as [He|]; [|lia]. exfalso.
  apply in_split in Hx. destruct Hx as (X & Y & ->).
  rewrite (tile_last _ _ _ _ _ Ht He) in Hl. rewrite lastf_snoc in Hl. congruence.
Qed.

Lemma frees_nil_headf B : frees B = [] -> headf B = false.
Proof. destruct B as [|b B]; cbn; auto. destruct (bf b); [discriminate|auto]. Qed.

(* The first free block of a tiling starts at its start iff it is its first block. *)
Lemma frees_head B lo hi f F :
  tile lo B hi -> frees B = f :: F ->
  (ba f = lo /\ exists B', B = f :: B' /\ frees B' = F) \/
  (lo < ba f /\ headf B = false).
Proof.
  pose proof P_pos. destruct B as [|b B]; cbn; [discriminate|]. intros (T1 & T2 & T3 & T4) E.
  destruct (bf b) eqn:Hb.
  - injection E as -> <-. left. split; auto. exists B. auto.
  - right. split; auto.
    assert (Hin : In f (frees B)) by (unfold frees in *; rewrite E; left; auto).
    apply frees_in in Hin. destruct (tile_in _ _ _ _ T4 (proj1 Hin)). lia.
Qed.

Lemma make_free_spec m c B1 u B2 :
  rep m c (B1 ++ u :: B2) -> bf u = false ->
  exists m' c' B', make_free_block P m c (ba u) = Ok (m', c') /\
    rep m' c' B' /\ heap_start c' = heap_start c /\ heap_size c' = heap_size c /\
    same_bounds m m' /\ keeps m m' (B1 ++ u :: B2) (ba u) (bs u) /\
    used B' = used B1 ++ used B2 /\ free_size c' = free_size c + bs u.
Proof.
  intros R Huf. pose proof P_pos as HPP. pose proof W_big as HW.
  pose proof (rep_good _ _ _ R) as Hg. pose proof (rep_fuel _ _ _ R) as Hfu.
  destruct R as [R1 R2 R3 R4 R5 R6 R7 R8 R9 R10 R11].
  assert (Hs : frees (B1 ++ u :: B2) = frees B1 ++ frees B2).
  { rewrite frees_app. cbn [frees filter]. rewrite Huf. reflexivity. }
  rewrite Hs in *.
  destruct (good_app _ _ _ Hg) as (Hg1 & Hg2 & Hg3).
  apply links_app in R9. destruct R9 as (L1 & L2).
  rewrite words_app, words_cons in R8. destruct R8 as (Wd1 & Wdu & Wd2).
  pose proof (load_Ok_range _ _ _ Wdu) as Hur.
  apply tile_app in R3. destruct R3 as (mid & T1 & T2). cbn in T2.
  destruct T2 as (T2 & T3 & T4 & T5). subst mid.
  pose proof (tile_le _ _ _ T5) as Tle. pose proof (tile_le _ _ _ T1) as Tle1.
  rewrite coal_app in R7. destruct R7 as (C1 & C2 & C3). cbn [coal headf] in C2, C3.
  destruct C2 as (C2 & C4). clear C3 C2.
  rewrite sumf_app in R11. cbn [sumf] in R11. rewrite Huf in R11.
  pose proof (sumf_bounds _ _ _ T1) as S1. pose proof (sumf_bounds _ _ _ T5) as S2.
  assert (Hual : al (ba u)) by (eapply tile_end_al; eauto).
  assert (HB1 : forall x, In x B1 -> ba x + bs x <= ba u /\ 2 * P <= bs x).
  { intros x Hx. destruct (tile_in _ _ _ _ T1 Hx). lia. }
  assert (HB2 : forall x, In x B2 -> ba u + bs u <= ba x /\ 2 * P <= bs x).
  { intros x Hx. destruct (tile_in _ _ _ _ T5 Hx). lia. }
  assert (HF1 : forall x, In x (frees B1) -> ba x + bs x <= ba u /\ 2 * P <= bs x).
  { intros x Hx. apply frees_in in Hx. apply HB1. tauto. }
  assert (HF2 : forall x, In x (frees B2) -> ba u + bs u <= ba x /\ 2 * P <= bs x).
  { intros x Hx. apply frees_in in Hx. apply HB2. tauto. }
  assert (Hwf1 : words m (frees B1)).
  { intros b Hb. apply Wd1. apply frees_in in Hb. tauto. }
  assert (Hwf2 : words m (frees B2)).
  { intros b Hb. apply Wd2. apply frees_in in Hb. tauto. }
  assert (Hfs : free_size (add_free P c (bs u)) = free_size c + bs u).
  { cbn [add_free free_size]. apply wrap_small. lia. }
  unfold make_free_block. rewrite Wdu. cbn [bind]. rewrite R10, head_or_app.
  set (c0 := add_free P c (bs u)) in *.
  assert (Hc0s : heap_start c0 = heap_start c) by reflexivity.
  assert (Hc0z : heap_size c0 = heap_size c) by reflexivity.
  assert (Hc0l : free_list c0 = head_or (frees B1 ++ frees B2) 0) by exact R10.
  clearbody c0.
  rewrite app_length in Hfu.
  destruct (lastf B1) eqn:HL.
  - (* merge with the block before *)
    assert (EB : exists B0 p, B1 = B0 ++ [p]).
    { destruct (exists_last (l := B1)) as (B0 & p & ->); [intros ->; discriminate|eauto]. }
    destruct EB as (B0 & p & ->). rename B0 into B1.
    rewrite lastf_snoc in HL.
    rewrite frees_app in *. cbn [frees filter] in *. rewrite HL in *. cbn [app] in *.
    fold (frees B1) in *.
    destruct (good_app _ _ _ Hg1) as (Hg1a & Hg1b & Hg1c).
    destruct (proj1 Hg1b p (or_introl eq_refl)) as (G1 & G2 & G3 & G4 & G5).
    apply tile_app in T1. destruct T1 as (mid & T1 & Tp). cbn in Tp.
    destruct Tp as (Tp1 & Tp2 & Tp3 & Tp4). subst mid.
    assert (HB1' : forall x, In x B1 -> ba x + bs x <= ba p /\ 2 * P <= bs x).
    { intros x Hx. destruct (tile_in _ _ _ _ T1 Hx). lia. }
    assert (HF1' : forall x, In x (frees B1) -> ba x + bs x <= ba p /\ 2 * P <= bs x).
    { intros x Hx. apply frees_in in Hx. apply HB1'. tauto. }
    apply links_app in L1. cbn [head_or links] in L1. destruct L1 as (L1 & Lp & _).
    rewrite words_app, words_cons in Wd1. destruct Wd1 as (Wd1 & Wdp & _).
    assert (Hp0 : 0 < ba p) by lia.
    rewrite app_length in Hfu. cbn [length] in Hfu.
    assert (Ef : exists k, walk_fuel P c = (length (frees B1) + S k)%nat).
    { exists (walk_fuel P c - length (frees B1) - 1)%nat. lia. }
    destruct Ef as (k & ->).
    rewrite head_or_app. cbn [head_or].
    rewrite walk_skip; auto; try lia.
    2:{ intros x Hx. apply Hwf1. apply in_app_iff. auto. }
    2:{ intros x Hx. destruct (HF1' x Hx). destruct (proj1 Hg1a x Hx). lia. }
    cbn [free_walk]. destruct (Z.eqb_spec (ba p) 0); [lia|].
    destruct (Z.ltb_spec (ba u) (ba p)); [lia|].
    rewrite Wdp. cbn [bind]. rewrite (wrap_small (ba p + bs p)) by lia. rewrite Tp4, Z.eqb_refl.
    rewrite Wdu. cbn [bind]. rewrite (wrap_small (bs p + bs u)) by lia.
    destruct (store_wr m (ba p) (bs p + bs u)) as (m1 & E1 & W1); auto; try lia.
    rewrite E1. cbn [bind]. destruct (wr_bnd _ _ _ _ W1) as [W1l W1h].
    rewrite (wr_same _ _ _ _ W1). cbn [bind]. unfold next_at.
    rewrite (wr_other _ _ _ _ (ba p + P) W1) by lia. rewrite Lp. cbn [bind].
    rewrite (wrap_small (ba p + (bs p + bs u))) by lia.
    rewrite coal_app in C1. destruct C1 as (C1 & _ & C1b). cbn [headf] in C1b. rewrite HL in C1b.
    rewrite andb_true_r in C1b.
    destruct (Z.eqb_spec (ba p + (bs p + bs u)) (head_or (frees B2) 0)) as [Hadj | Hnadj].
    + (* and with the block after *)
      destruct (frees B2) as [|f F2] eqn:EF2; [cbn in Hadj; lia|]. cbn [head_or] in *.
      destruct (frees_head _ _ _ _ _ T5 EF2) as [(He & B2' & -> & EF2') | (He & _)]; [|lia].
      cbn in T5. destruct T5 as (T5a & T5b & T5c & T5d).
      cbn [links] in L2. destruct L2 as (Lf & L2).
      rewrite words_cons in Wd2. destruct Wd2 as (Wdf & Wd2).
      pose proof (tile_le _ _ _ T5d) as Tle3.
      assert (Hff : bf f = true).
      { assert (Hin : In f (frees (f :: B2'))) by (rewrite EF2; left; auto).
          apply frees_in in Hin. tauto. }
      cbn [sumf] in R11, S2. rewrite Hff in R11, S2.
      pose proof (sumf_bounds _ _ _ T5d) as S3.
      rewrite (wr_other _ _ _ _ (ba f) W1) by lia. rewrite Wdf. cbn [bind].
      rewrite (wrap_small (bs p + bs u + bs f)) by lia.
      destruct (store_wr m1 (ba p) (bs p + bs u + bs f)) as (m2 & E2 & W2); auto; try lia.
      rewrite E2. cbn [bind]. destruct (wr_bnd _ _ _ _ W2) as [W2l W2h].
      rewrite (wr_other _ _ _ _ (ba p + P) W2) by lia.
      rewrite (wr_other _ _ _ _ (ba p + P) W1) by lia. rewrite Lp. cbn [bind].
      rewrite (wr_other _ _ _ _ (ba f + P) W2) by lia.
      rewrite (wr_other _ _ _ _ (ba f + P) W1) by lia. rewrite Lf. cbn [bind].
      destruct (store_wr m2 (ba p + P) (head_or F2 0)) as (m3 & E3 & W3); auto with al; try lia.
      { eapply load_Ok_range; eauto. }
      rewrite E3. cbn [bind]. destruct (wr_bnd _ _ _ _ W3) as [W3l W3h].
      assert (F3 : forall z, ~ (ba p <= z < ba p + 2 * P) -> bytes m3 z = bytes m z).
      { intros z Hz. rewrite (wr_frame _ _ _ _ W3), (wr_frame _ _ _ _ W2), (wr_frame _ _ _ _ W1) by lia.
        reflexivity. }
      assert (SB3 : same_bounds m m3) by (split; congruence).
      assert (HB2' : forall x, In x B2' -> ba f + bs f <= ba x).
      { intros x Hx. destruct (tile_in _ _ _ _ T5d Hx). lia. }
      exists m3, c0, (B1 ++ Blk (ba p) (bs p + bs u + bs f) true :: B2').
      split; [reflexivity|]. split.
      { constructor; rewrite ?Hc0s, ?Hc0z; auto.
        - apply tile_app. exists (ba p). split; auto. cbn. repeat split; auto with al; try lia.
          replace (ba p + (bs p + bs u + bs f)) with (ba u + bs u + bs f) by lia. auto.
        - destruct SB3; lia.
        - destruct SB3; lia.
        - apply coal_app. cbn [coal headf bf]. rewrite andb_true_r.
          cbn [coal] in C4. rewrite Hff in C4. tauto.
        - rewrite words_app, !words_cons. cbn [ba bs]. split; [|split].
          + apply (words_frame m); auto. intros x z Hx Hz. apply F3.
            specialize (HB1' x Hx). lia.
          + rewrite (wr_other _ _ _ _ _ W3) by lia. apply W2.
          + apply (words_frame m); auto. intros x z Hx Hz. apply F3. specialize (HB2' x Hx). lia.
        - rewrite frees_app. cbn [frees filter bf]. apply links_app. cbn [head_or ba links].
          fold (frees B2'). rewrite EF2'.
          split; [|split].
          + apply (links_frame m); auto. intros x z Hx Hz. apply F3. specialize (HF1' x Hx). lia.
          + apply W3.
          + apply (links_frame m); auto. intros x z Hx Hz. apply F3.
            assert (Hx2 : In x (frees B2')) by (rewrite EF2'; auto).
            apply frees_in in Hx2. specialize (HB2' x (proj1 Hx2)). lia.
        - rewrite frees_app. cbn [frees filter bf]. rewrite Hc0l, !head_or_app. reflexivity.
        - rewrite Hfs, R11. rewrite !sumf_app. cbn [sumf bf bs]. rewrite HL. lia. }
      split; [auto|]. split; [auto|]. split; [auto|]. split.
      { intros z Hz _. apply F3.
        assert (~ (ba p <= z < ba p + bs p)); [|lia].
        apply Hz. apply frees_in. split; [|auto]. rewrite !in_app_iff. cbn [In]. tauto. }
      split; [|auto]. rewrite !used_app. cbn [used filter bf]. rewrite HL, Hff. cbn [negb].
      rewrite app_nil_r. reflexivity.
    + (* only before *)
      assert (F3 : forall z, ~ (ba p <= z < ba p + 2 * P) -> bytes m1 z = bytes m z).
      { intros z Hz. rewrite (wr_frame _ _ _ _ W1) by lia. reflexivity. }
      assert (SB3 : same_bounds m m1) by (split; congruence).
      assert (HhB2 : headf B2 = false).
      { destruct (frees B2) as [|f F2] eqn:EF2; [apply frees_nil_headf; auto|].
        destruct (frees_head _ _ _ _ _ T5 EF2) as [(He & _) | (_ & He)]; auto.
        cbn [head_or] in Hnadj. lia. }
      exists m1, c0, (B1 ++ Blk (ba p) (bs p + bs u) true :: B2).
      split; [reflexivity|]. split.
      { constructor; rewrite ?Hc0s, ?Hc0z; auto.
        - apply tile_app. exists (ba p). split; auto. cbn. repeat split; auto with al; try lia.
          replace (ba p + (bs p + bs u)) with (ba u + bs u) by lia. auto.
        - destruct SB3; lia.
        - destruct SB3; lia.
        - apply coal_app. cbn [coal headf bf]. rewrite andb_true_r.
          split; auto. split; auto. split; auto. destruct B2; auto.
        - rewrite words_app, !words_cons. cbn [ba bs]. split; [|split].
          + apply (words_frame m); auto. intros x z Hx Hz. apply F3.
            specialize (HB1' x Hx). lia.
          + apply W1.
          + apply (words_frame m); auto. intros x z Hx Hz. apply F3. specialize (HB2 x Hx). lia.
        - rewrite frees_app. cbn [frees filter bf]. apply links_app. cbn [head_or ba links].
          split; [|split].
          + apply (links_frame m); auto. intros x z Hx Hz. apply F3. specialize (HF1' x Hx). lia.
          + rewrite (wr_other _ _ _ _ (ba p + P) W1) by lia. exact Lp.
          + apply (links_frame m); auto. intros x z Hx Hz. apply F3. specialize (HF2 x Hx). lia.
        - rewrite frees_app. cbn [frees filter bf]. rewrite Hc0l, !head_or_app. reflexivity.
        - rewrite Hfs, R11. rewrite !sumf_app. cbn [sumf bf bs]. rewrite HL. lia. }
      split; [auto|]. split; [auto|]. split; [auto|]. split.
      { intros z Hz _. apply F3.
        assert (~ (ba p <= z < ba p + bs p)); [|lia].
        apply Hz. apply frees_in. split; [|auto]. rewrite !in_app_iff. cbn [In]. tauto. }
      split; [|auto]. rewrite !used_app. cbn [used filter bf]. rewrite HL. cbn [negb].
      rewrite app_nil_r. reflexivity.
  - (* not adjacent to a free block before *)
    assert (Ef : exists k, walk_fuel P c = (length (frees B1) + k)%nat /\ (length (frees B2) < k)%nat).
    { exists (walk_fuel P c - length (frees B1))%nat. lia. }
    destruct Ef as (k & -> & Hk).
    rewrite walk_skip; auto; try lia.
    2:{ intros x Hx. destruct (HF1 x Hx). destruct (proj1 Hg1 x Hx).
        pose proof (lastf_false_apart _ _ _ _ T1 HL Hx). lia. }
    destruct (set_link_load m c0 (frees B1) (head_or (frees B2) 0) (ba u)) as
      (m1 & c1 & E1 & SB & Lk & FL & FS & HS & HZ & Fr & Fl); auto; try lia.
    assert (Hfl : free_list c1 = head_or (frees B1) (ba u)).
    { rewrite FL. destruct (frees B1) eqn:Z; cbn [head_or] in *; auto. }
    assert (Fu : load m1 (ba u) = Ok (bs u)).
    { rewrite Fl; auto. intros x Hx. destruct (HF1 x Hx). lia. }
    destruct SB as [SBl SBh].
    destruct k as [|k]; [lia|]. cbn [free_walk].
    destruct (frees B2) as [|f F2] eqn:EF2.
    + (* end of list *)
      cbn [head_or]. rewrite Z.eqb_refl. rewrite E1. cbn [bind]. unfold next_at.
      destruct (store_wr m1 (ba u + P) 0) as (m2 & E2 & W2); auto with al; try lia.
      rewrite E2. cbn [bind]. destruct (wr_bnd _ _ _ _ W2) as [W2l W2h].
      assert (SB2 : same_bounds m m2) by (split; congruence).
      assert (F2' : forall z, ~ (ba u <= z < ba u + bs u) ->
              (forall x, In x (frees B1) -> ~ (ba x + P <= z < ba x + 2 * P)) -> bytes m2 z = bytes m z).
      { intros z Hz Hz2. rewrite (wr_frame _ _ _ _ W2) by lia. auto. }
      pose proof (frees_nil_headf _ EF2) as HhB2.
      exists m2, c1, (B1 ++ Blk (ba u) (bs u) true :: B2).
      split; [reflexivity|]. split.
      { constructor; rewrite ?HS, ?HZ, ?Hc0s, ?Hc0z; auto.
        - apply tile_app. exists (ba u). split; auto. cbn. repeat split; auto with al; try lia.
        - destruct SB2; lia.
        - destruct SB2; lia.
        - apply coal_app. cbn [coal headf bf]. rewrite andb_true_r.
          split; auto. split; auto. split; auto. destruct B2; auto.
        - rewrite words_app, !words_cons. cbn [ba bs]. split; [|split].
          + apply (words_frame m); auto. intros x z Hx Hz. specialize (HB1 x Hx). apply F2'; [lia|].
            intros y Hy Hyz. apply frees_in in Hy. destruct Hy as [Hy _].
            destruct (tile_apart2 _ _ _ x y T1 Hx Hy) as [-> | Ha]; [lia|].
            destruct (tile_in _ _ _ _ T1 Hx). destruct (tile_in _ _ _ _ T1 Hy). unfold apart in Ha. lia.
          + rewrite (wr_other _ _ _ _ _ W2) by lia. auto.
          + apply (words_frame m); auto. intros x z Hx Hz. specialize (HB2 x Hx). apply F2'; [lia|].
            intros y Hy. specialize (HF1 y Hy). lia.
        - rewrite frees_app. cbn [frees filter bf]. fold (frees B2). rewrite EF2.
          apply links_app. cbn [head_or ba links].
          split; [|split; [|auto]].
          + apply (links_frame m1); auto; [split; auto|]. intros x z Hx Hz. apply (wr_frame _ _ _ _ W2).
            specialize (HF1 x Hx). lia.
          + apply W2.
        - rewrite frees_app. cbn [frees filter bf]. rewrite Hfl, !head_or_app. reflexivity.
        - rewrite FS, Hfs, R11. rewrite !sumf_app. cbn [sumf bf bs]. lia. }
      split; [congruence|]. split; [congruence|]. split; [auto|]. split.
      { intros z Hz Hz2. apply F2'; auto. intros x Hx. specialize (Hz x).
        rewrite Hs in Hz. rewrite !in_app_iff in Hz. specialize (HF1 x Hx).
        assert (~ (ba x <= z < ba x + bs x)) by (apply Hz; auto). lia. }
      split; [|congruence]. rewrite !used_app. reflexivity.
    + cbn [head_or]. cbn [head_or] in E1.
      destruct (proj1 Hg2 f (or_introl eq_refl)) as (G1 & G2 & G3 & G4 & G5).
      destruct (HF2 f (or_introl eq_refl)) as (Hf1 & Hf2).
      destruct (Z.eqb_spec (ba f) 0); [lia|]. destruct (Z.ltb_spec (ba u) (ba f)); [|lia].
      rewrite E1. cbn [bind]. rewrite Fu. cbn [bind]. rewrite (wrap_small (ba u + bs u)) by lia.
      unfold next_at.
      destruct (frees_head _ _ _ _ _ T5 EF2) as [(He & B2' & -> & EF2') | (He & HhB2)].
      * (* merge with the block after *)
        rewrite <- He, Z.eqb_refl.
        cbn in T5. destruct T5 as (T5a & T5b & T5c & T5d).
        cbn [links] in L2. destruct L2 as (Lf & L2).
        rewrite words_cons in Wd2. destruct Wd2 as (Wdf & Wd2).
        pose proof (tile_le _ _ _ T5d) as Tle3.
        assert (Hff : bf f = true).
        { assert (Hin : In f (frees (f :: B2'))) by (rewrite EF2; left; auto).
          apply frees_in in Hin. tauto. }
        cbn [sumf] in R11, S2. rewrite Hff in R11, S2.
        pose proof (sumf_bounds _ _ _ T5d) as S3.
        assert (HB2' : forall x, In x B2' -> ba f + bs f <= ba x).
        { intros x Hx. destruct (tile_in _ _ _ _ T5d Hx). lia. }
        rewrite (Fl (ba f)). 2:{ intros x Hx. destruct (HF1 x Hx). lia. }
        rewrite Wdf. cbn [bind]. rewrite (wrap_small (bs u + bs f)) by lia.
        destruct (store_wr m1 (ba u) (bs u + bs f)) as (m2 & E2 & W2); auto with al; try lia.
        rewrite E2. cbn [bind]. destruct (wr_bnd _ _ _ _ W2) as [W2l W2h].
        rewrite (wr_other _ _ _ _ (ba f + P) W2) by lia.
        rewrite (Fl (ba f + P)). 2:{ intros x Hx. destruct (HF1 x Hx). lia. }
        rewrite Lf. cbn [bind].
        destruct (store_wr m2 (ba u + P) (head_or F2 0)) as (m3 & E3 & W3); auto with al; try lia.
        { eapply load_Ok_range; eauto. }
        rewrite E3. cbn [bind]. destruct (wr_bnd _ _ _ _ W3) as [W3l W3h].
        assert (F3 : forall z, ~ (ba u <= z < ba u + bs u) ->
                (forall x, In x (frees B1) -> ~ (ba x + P <= z < ba x + 2 * P)) -> bytes m3 z = bytes m z).
        { intros z Hz Hz2. rewrite (wr_frame _ _ _ _ W3), (wr_frame _ _ _ _ W2) by lia. auto. }
        assert (SB3 : same_bounds m m3) by (split; congruence).
        exists m3, c1, (B1 ++ Blk (ba u) (bs u + bs f) true :: B2').
        split; [reflexivity|]. split.
        { constructor; rewrite ?HS, ?HZ, ?Hc0s, ?Hc0z; auto.
          - apply tile_app. exists (ba u). split; auto. cbn. repeat split; auto with al; try lia.
            replace (ba u + (bs u + bs f)) with (ba u + bs u + bs f) by lia. auto.
          - destruct SB3; lia.
          - destruct SB3; lia.
          - apply coal_app. cbn [coal headf bf]. rewrite andb_true_r.
            cbn [coal] in C4. rewrite Hff in C4. tauto.
          - rewrite words_app, !words_cons. cbn [ba bs]. split; [|split].
            + apply (words_frame m); auto. intros x z Hx Hz. specialize (HB1 x Hx). apply F3; [lia|].
              intros y Hy Hyz. apply frees_in in Hy. destruct Hy as [Hy _].
              destruct (tile_apart2 _ _ _ x y T1 Hx Hy) as [-> | Ha]; [lia|].
              destruct (tile_in _ _ _ _ T1 Hx). destruct (tile_in _ _ _ _ T1 Hy). unfold apart in Ha. lia.
            + rewrite (wr_other _ _ _ _ _ W3) by lia. apply W2.
            + apply (words_frame m); auto. intros x z Hx Hz. specialize (HB2' x Hx). apply F3; [lia|].
              intros y Hy. specialize (HF1 y Hy). lia.
          - rewrite frees_app. cbn [frees filter bf]. apply links_app. cbn [head_or ba links].
            fold (frees B2'). rewrite EF2'.
            split; [|split].
            + apply (links_frame m1); auto; [split; congruence|]. intros x z Hx Hz.
              specialize (HF1 x Hx).
              rewrite (wr_frame _ _ _ _ W3), (wr_frame _ _ _ _ W2) by lia. auto.
            + apply W3.
            + apply (links_frame m); auto. intros x z Hx Hz.
              assert (Hx2 : In x (frees B2')) by (rewrite EF2'; auto).
              apply frees_in in Hx2. specialize (HB2' x (proj1 Hx2)). apply F3; [lia|].
              intros y Hy. specialize (HF1 y Hy). lia.
          - rewrite frees_app. cbn [frees filter bf]. rewrite Hfl, !head_or_app. reflexivity.
          - rewrite FS, Hfs, R11. rewrite !sumf_app. cbn [sumf bf bs]. lia. }
        split; [congruence|]. split; [congruence|]. split; [auto|]. split.
        { intros z Hz Hz2. apply F3; auto. intros x Hx. specialize (Hz x).
          rewrite Hs in Hz. rewrite !in_app_iff in Hz. specialize (HF1 x Hx).
          assert (~ (ba x <= z < ba x + bs x)) by (apply Hz; auto). lia. }
        split; [|congruence]. rewrite !used_app. cbn [used filter bf]. rewrite Hff. reflexivity.
      * (* plain insertion *)
        destruct (Z.eqb_spec (ba u + bs u) (ba f)); [lia|].
        destruct (store_wr m1 (ba u + P) (ba f)) as (m2 & E2 & W2); auto with al; try lia.
        rewrite E2. cbn [bind]. destruct (wr_bnd _ _ _ _ W2) as [W2l W2h].
        assert (SB2 : same_bounds m m2) by (split; congruence).
        assert (F2' : forall z, ~ (ba u <= z < ba u + bs u) ->
                (forall x, In x (frees B1) -> ~ (ba x + P <= z < ba x + 2 * P)) -> bytes m2 z = bytes m z).
        { intros z Hz Hz2. rewrite (wr_frame _ _ _ _ W2) by lia. auto. }
        exists m2, c1, (B1 ++ Blk (ba u) (bs u) true :: B2).
        split; [reflexivity|]. split.
        { constructor; rewrite ?HS, ?HZ, ?Hc0s, ?Hc0z; auto.
          - apply tile_app. exists (ba u). split; auto. cbn. repeat split; auto with al; try lia.
          - destruct SB2; lia.
          - destruct SB2; lia.
          - apply coal_app. cbn [coal headf bf]. rewrite andb_true_r.
            split; auto. split; auto. split; auto. destruct B2; auto.
          - rewrite words_app, !words_cons. cbn [ba bs]. split; [|split].
            + apply (words_frame m); auto. intros x z Hx Hz. specialize (HB1 x Hx). apply F2'; [lia|].
              intros y Hy Hyz. apply frees_in in Hy. destruct Hy as [Hy _].
              destruct (tile_apart2 _ _ _ x y T1 Hx Hy) as [-> | Ha]; [lia|].
              destruct (tile_in _ _ _ _ T1 Hx). destruct (tile_in _ _ _ _ T1 Hy). unfold apart in Ha. lia.
            + rewrite (wr_other _ _ _ _ _ W2) by lia. auto.
            + apply (words_frame m); auto. intros x z Hx Hz. specialize (HB2 x Hx). apply F2'; [lia|].
              intros y Hy. specialize (HF1 y Hy). lia.
          - rewrite frees_app. cbn [frees filter bf]. fold (frees B2). rewrite EF2.
            apply links_app. cbn [head_or ba].
            split; [|split].
            + apply (links_frame m1); auto; [split; auto|]. intros x z Hx Hz. apply (wr_frame _ _ _ _ W2).
              specialize (HF1 x Hx). lia.
            + apply W2.
            + apply (links_frame m); auto. intros x z Hx Hz. specialize (HF2 x Hx).
              apply F2'; [lia|]. intros y Hy. specialize (HF1 y Hy). lia.
          - rewrite frees_app. cbn [frees filter bf]. rewrite Hfl, !head_or_app. reflexivity.
          - rewrite FS, Hfs, R11. rewrite !sumf_app. cbn [sumf bf bs]. lia. }
        split; [congruence|]. split; [congruence|]. split; [auto|]. split.
        { intros z Hz Hz2. apply F2'; auto. intros x Hx. specialize (Hz x).
          rewrite Hs in Hz. rewrite !in_app_iff in Hz. specialize (HF1 x Hx).
          assert (~ (ba x <= z < ba x + bs x)) by (apply Hz; auto). lia. }
        split; [|congruence]. rewrite !used_app. reflexivity.
Qed.

End Proof.
