(* find_bitmap and change_bitmap. *)
From Coq Require Import ZArith Lia Bool List.
From Verif Require Import Base FatModel FatSpec FatProof FatProof2 XfatModel XfatSpec XfatProof.
Import ListNotations.
Open Scope Z_scope.

Lemma adv_same k : 0 <= k -> k mod 8 <> 7 -> (k + 1) / 8 = k / 8 /\ (k + 1) mod 8 = k mod 8 + 1.
Proof. intros. lia. Qed.
Lemma adv_byte k : 0 <= k -> k mod 8 = 7 -> (k + 1) / 8 = k / 8 + 1 /\ (k + 1) mod 8 = 0.
Proof. intros. lia. Qed.
Lemma adv_in q s : 0 < s -> 0 <= q -> q mod s + 1 < s -> (q + 1) / s = q / s /\ (q + 1) mod s = q mod s + 1.
Proof.
  intros S Q H. pose proof (Z.mod_pos_bound q s S). assert (E : q + 1 = s * (q / s) + (q mod s + 1)) by (pose proof (Z.div_mod q s ltac:(lia)); lia).
  split; symmetry; [apply (Z.div_unique_pos _ _ _ (q mod s + 1))|apply (Z.mod_unique_pos _ _ (q / s))]; auto; lia.
Qed.
Lemma adv_out q s : 0 < s -> 0 <= q -> s <= q mod s + 1 -> (q + 1) / s = q / s + 1 /\ (q + 1) mod s = 0.
Proof.
  intros S Q H. pose proof (Z.mod_pos_bound q s S). assert (E : q + 1 = s * (q / s + 1) + 0) by (pose proof (Z.div_mod q s ltac:(lia)); lia).
  split; symmetry; [apply (Z.div_unique_pos _ _ _ 0)|apply (Z.mod_unique_pos _ _ (q / s + 1))]; auto; lia.
Qed.

Lemma ring_next a t N : 0 <= a < N -> 0 <= t < N ->
  (a + (t + 1)) mod N = (if N <=? (a + t) mod N + 1 then 0 else (a + t) mod N + 1) /\
  (((a + (t + 1)) mod N = a) <-> t + 1 = N).
Proof.
  intros A T. assert (C : a + t < N \/ N <= a + t < 2 * N) by lia. destruct C as [C|C].
  - rewrite (Z.mod_small (a + t)) by lia. destruct (Z.leb_spec N (a + t + 1)).
    + replace (a + (t + 1)) with (0 + 1 * N) by lia. rewrite Z.mod_add by lia. rewrite Z.mod_small by lia. lia.
    + rewrite Z.mod_small by lia. lia.
  - replace (a + t) with (a + t - N + 1 * N) by lia. replace (a + (t + 1)) with (a + t + 1 - N + 1 * N) by lia.
    rewrite !Z.mod_add by lia. rewrite !Z.mod_small by lia. destruct (Z.leb_spec N (a + t - N + 1)); lia.
Qed.

Section S.
Variables (g : geo) (bb : Z).
Hypothesis G : xgeo_ok g bb.
Let N := clusts g.

Lemma w32_N : w32 (n_fatent g - 2) = N.
Proof using G. apply w32_id. pose proof (clusts_pos g bb G). unfold clusts, EOC in *. lia. Qed.

(* What the search looks for. *)
Definition free_at (B : Z -> bool) (a s n : Z) : Prop := forall j, 0 <= j < n -> B ((a + (s + j)) mod N) = false.
Definition blocked (B : Z -> bool) (a s n : Z) : Prop := exists j, 0 <= j < n /\ B ((a + (s + j)) mod N) = true.
Definition found (B : Z -> bool) (a n r : Z) : Prop :=
  (exists s, 0 <= s /\ s + n <= N /\ r = (a + s) mod N + 2 /\ free_at B a s n /\ forall s', 0 <= s' < s -> blocked B a s' n) \/
  (r = 0 /\ forall s, 0 <= s -> s + n <= N -> blocked B a s n).

(* The run seen so far: ctr free clusters before place t, and a used one before them. *)
Record seen (B : Z -> bool) (a n t ctr : Z) : Prop := {
  sn_ctr : 0 <= ctr < n; sn_t : ctr <= t;
  sn_run : forall j, t - ctr <= j < t -> B ((a + j) mod N) = false;
  sn_max : ctr < t -> B ((a + (t - ctr - 1)) mod N) = true;
  sn_none : forall s, 0 <= s -> s + n <= t -> blocked B a s n }.

Lemma seen_free B a n t ctr : seen B a n t ctr -> B ((a + t) mod N) = false -> ctr + 1 < n -> seen B a n (t + 1) (ctr + 1).
Proof using.
  intros [C T R M S] F L. constructor; try lia.
  - intros j J. destruct (Z.eq_dec j t) as [->|]; auto. apply R. lia.
  - intros H. replace (t + 1 - (ctr + 1) - 1) with (t - ctr - 1) by lia. apply M. lia.
  - intros s S1 S2. destruct (Z.eq_dec (s + n) (t + 1)) as [E|]; [|apply S; lia].
    exists (t - ctr - 1 - s). split; [lia|]. replace (s + (t - ctr - 1 - s)) with (t - ctr - 1) by lia. apply M. lia.
Qed.
Lemma seen_used B a n t ctr : seen B a n t ctr -> B ((a + t) mod N) = true -> seen B a n (t + 1) 0.
Proof using.
  intros [C T R M S] F. constructor; try lia.
  - intros H. replace (t + 1 - 0 - 1) with t by lia. auto.
  - intros s S1 S2. destruct (Z.eq_dec (s + n) (t + 1)) as [E|]; [|apply S; lia].
    exists (n - 1). split; [lia|]. replace (s + (n - 1)) with t by lia. auto.
Qed.
Lemma seen_found B a n t ctr : seen B a n t ctr -> B ((a + t) mod N) = false -> ctr + 1 = n -> t < N -> found B a n ((a + (t - ctr)) mod N + 2).
Proof using.
  intros [C T R M S] F L H. left. exists (t - ctr). repeat split; try lia.
  - intros j J. destruct (Z.eq_dec (t - ctr + j) t) as [E|]; [now rewrite E|]. apply R. lia.
  - intros s' S'. apply S; lia.
Qed.

Lemma find_loop_ok a n B fuel : 0 <= a < N -> 0 <= n < 4294967296 ->
  forall v t ctr, xvol_ok g v -> (forall k, 0 <= k < bits g -> bit g bb v k = B k) -> 0 <= t < N -> N - t <= Z.of_nat fuel ->
  winsect v = bb + (a + t) mod N / 8 / ss g -> seen B a n t ctr ->
  exists v' r, find_loop fuel g bb v a n ((a + t) mod N) ((a + (t - ctr)) mod N) ctr ((a + t) mod N / 8 mod ss g) (Z.shiftl 1 ((a + t) mod N mod 8)) = Ok (v', r) /\
    xstep g bb v v' (bit g bb v) (xent g v) /\ found B a n r.
Proof using G.
  intros A NN. pose proof (clusts_pos g bb G) as NP. fold N in NP. pose proof (ssz g bb G) as SS.
  induction fuel as [|fuel IH]; intros v t ctr V HB T F W SN; [lia|].
  set (val := (a + t) mod N) in *. assert (VR : 0 <= val < N) by (apply Z.mod_pos_bound; lia).
  assert (VB : 0 <= val < bits g) by (pose proof (clusts_bits g bb G) as CB; fold N in CB; clear - VR CB; lia).
  assert (V8 : 0 <= val mod 8 < 8) by (apply Z.mod_pos_bound; clear; lia).
  assert (VQ : 0 <= val / 8) by (apply Z.div_pos; clear - VR; lia).
  pose proof (spot_mod g bb G val) as SP.
  cbn [find_loop]. rewrite rd_ok by (clear - SP SS; lia). cbn [bind].
  rewrite mask_bit by (clear - V8; lia). rewrite (win_bit g bb G v val W). rewrite HB by exact VB.
  rewrite next_mask by exact V8. rewrite (w32_id (val + 1)) by (unfold EOC in NP; clear - VR NP; lia). rewrite w32_N.
  destruct (ring_next a t N A T) as [RN RA]. fold val in RN.
  (* the next bit *)
  set (nxt := (a + (t + 1)) mod N) in *.
  assert (NR : 0 <= nxt < N) by (apply Z.mod_pos_bound; clear - NP; lia).
  assert (NB : 0 <= nxt < bits g) by (pose proof (clusts_bits g bb G) as CB; fold N in CB; clear - NR CB; lia).
  assert (GO : forall ctr', seen B a n (t + 1) ctr' -> t + 1 < N ->
    exists v' r,
    (let '(val', bm', i') := if N <=? val + 1 then (0, 0, ss g) else (val + 1, if val mod 8 =? 7 then 0 else Z.shiftl 1 (val mod 8 + 1), val / 8 mod ss g) in
     if negb (bm' =? 0) then find_loop fuel g bb v a n val' ((a + (t + 1 - ctr')) mod N) ctr' i' bm'
     else if i' + 1 <? ss g then find_loop fuel g bb v a n val' ((a + (t + 1 - ctr')) mod N) ctr' (i' + 1) 1
     else let '(v, r) := move_window g v (w32 (bb + val' / 8 / ss g)) in
        match r with
        | FR_OK => find_loop fuel g bb v a n val' ((a + (t + 1 - ctr')) mod N) ctr' (val' / 8 mod ss g) (Z.shiftl 1 (val' mod 8))
        | _ => Ok (v, ERR)
        end) = Ok (v', r) /\ xstep g bb v v' (bit g bb v) (xent g v) /\ found B a n r).
  { intros ctr' SN' TN.
    assert (MV : exists v' r, (let '(v, r) := move_window g v (w32 (bb + nxt / 8 / ss g)) in
        match r with
        | FR_OK => find_loop fuel g bb v a n nxt ((a + (t + 1 - ctr')) mod N) ctr' (nxt / 8 mod ss g) (Z.shiftl 1 (nxt mod 8))
        | _ => Ok (v, ERR)
        end) = Ok (v', r) /\ xstep g bb v v' (bit g bb v) (xent g v) /\ found B a n r).
    { pose proof (bit_sector g bb G nxt NB) as IB. rewrite (bm_w32 g bb G _ IB).
      destruct (move_x g bb G v _ V (bm_mine g bb G _ IB)) as (v1 & E1 & X1 & W1). rewrite E1.
      destruct (IH v1 (t + 1) ctr') as (v2 & r & E2 & X2 & FD); auto.
      - apply X1.
      - intros k K. rewrite (xs_bits _ _ _ _ _ _ X1) by auto. auto.
      - clear - T TN; lia.
      - clear - F; lia.
      - exists v2, r. split; [exact E2|]. split; [|auto]. eapply xs_ext; [eapply xs_trans; eauto| |].
        + intros k K. apply (xs_bits _ _ _ _ _ _ X1); auto.
        + intros c K. apply (xs_ents _ _ _ _ _ _ X1); auto. }
    destruct (Z.leb_spec N (val + 1)) as [L|L].
    - change (negb (0 =? 0)) with false. cbv iota. replace (ss g + 1 <? ss g) with false by (clear; lia).
      rewrite <- RN. exact MV.
    - destruct (Z.eqb_spec (val mod 8) 7) as [E7|E7].
      + change (negb (0 =? 0)) with false. cbv iota. destruct (adv_byte val) as [D1 D2]; [clear - VR; lia|exact E7|].
        destruct (Z.ltb_spec (val / 8 mod ss g + 1) (ss g)) as [LS|LS].
        * destruct (adv_in (val / 8) (ss g)) as [D3 D4]; [clear - SS; lia|exact VQ|exact LS|].
          destruct (IH v (t + 1) ctr') as (v2 & r & E2 & X2 & FD); auto.
          -- clear - T TN; lia.
          -- clear - F; lia.
          -- fold nxt. rewrite RN, D1, D3. exact W.
          -- fold nxt in E2. rewrite RN in E2. rewrite D1, D2, D4 in E2. change (Z.shiftl 1 0) with 1 in E2. eauto.
        * rewrite <- RN. exact MV.
      + rewrite mask_nonzero by (clear - V8; lia). cbn [negb]. destruct (adv_same val) as [D1 D2]; [clear - VR; lia|exact E7|].
        destruct (IH v (t + 1) ctr') as (v2 & r & E2 & X2 & FD); auto.
        * clear - T TN; lia.
        * clear - F; lia.
        * fold nxt. rewrite RN, D1. exact W.
        * fold nxt in E2. rewrite RN in E2. rewrite D1, D2 in E2. eauto. }
  assert (SAME : xstep g bb v v (bit g bb v) (xent g v)).
  { constructor; auto; [intros s o _ _; auto|split; auto]. }
  destruct (B val) eqn:BV; cbn [negb].
  - (* in use *)
    pose proof (seen_used B a n t ctr SN BV) as SU.
    assert (QN : t + 1 = N -> exists v' r, Ok (v, 0) = Ok (v', r) /\ xstep g bb v v' (bit g bb v) (xent g v) /\ found B a n r).
    { intros E. exists v, 0. split; auto. split; auto. right. split; auto. intros s S1 S2. apply (sn_none _ _ _ _ _ SU); [exact S1|clear - E S2; lia]. }
    specialize (GO 0 SU). replace (t + 1 - 0) with (t + 1) in GO by (clear; lia). fold nxt in GO.
    destruct (Z.leb_spec N (val + 1)) as [L|L]; cbv iota zeta in GO |- *; rewrite RN in GO; rewrite RN in RA; cbn [andb].
    + destruct (Z.eqb_spec 0 a) as [E0|E0]; [apply QN; tauto|]. apply GO. clear - RA E0 T. lia.
    + destruct (Z.eqb_spec (val + 1) a) as [E0|E0]; [apply QN; tauto|]. apply GO. clear - RA E0 T. lia.
  - (* free *)
    assert (CW : w32 (ctr + 1) = ctr + 1) by (apply w32_id; pose proof (sn_ctr _ _ _ _ _ SN); clear - H NN; lia).
    assert (SW : w32 ((a + (t - ctr)) mod N + 2) = (a + (t - ctr)) mod N + 2).
    { apply w32_id. pose proof (Z.mod_pos_bound (a + (t - ctr)) N ltac:(clear - NP; lia)) as MB. unfold EOC in NP. clear - MB NP. lia. }
    assert (FF : ctr + 1 = n -> exists v' r, Ok (v, (a + (t - ctr)) mod N + 2) = Ok (v', r) /\ xstep g bb v v' (bit g bb v) (xent g v) /\ found B a n r).
    { intros E. eexists _, _. split; [reflexivity|]. split; auto. apply seen_found; auto. apply T. }
    assert (LT : ctr + 1 <> n -> ctr + 1 < n) by (pose proof (sn_ctr _ _ _ _ _ SN) as Q; clear - Q; lia).
    destruct (Z.leb_spec N (val + 1)) as [L|L]; cbv iota zeta in GO |- *; cbn [andb]; rewrite CW, SW;
      (destruct (Z.eqb_spec (ctr + 1) n) as [EC|EC]; [now apply FF|]);
      pose proof (seen_free B a n t ctr SN BV (LT EC)) as SU; specialize (GO (ctr + 1) SU);
      replace (t + 1 - (ctr + 1)) with (t - ctr) in GO by (clear; lia); rewrite RN in RA;
      (assert (QN : t + 1 = N -> exists v' r, Ok (v, 0) = Ok (v', r) /\ xstep g bb v v' (bit g bb v) (xent g v) /\ found B a n r);
       [intros E; exists v, 0; split; auto; split; auto; right; split; auto; intros s S1 S2; apply (sn_none _ _ _ _ _ SU); [exact S1|clear - E S2; lia]|]).
    + destruct (Z.eqb_spec 0 a) as [E0|E0]; [apply QN; tauto|]. apply GO. clear - RA E0 T. lia.
    + destruct (Z.eqb_spec (val + 1) a) as [E0|E0]; [apply QN; tauto|]. apply GO. clear - RA E0 T. lia.
Qed.

(* Where the search starts. *)
Definition start_at (c : Z) : Z := if (2 <=? c) && (c <? n_fatent g) then c - 2 else 0.

Lemma find_ok v c n fuel : xvol_ok g v -> 0 <= c < 4294967296 -> 0 < n < 4294967296 -> N <= Z.of_nat fuel ->
  exists v' r, find_bitmap fuel g bb v c n = Ok (v', r) /\ xstep g bb v v' (bit g bb v) (xent g v) /\ found (bit g bb v) (start_at c) n r.
Proof using G.
  intros V C NN F. pose proof (clusts_pos g bb G) as NP. fold N in NP. unfold find_bitmap. rewrite w32_N.
  assert (SA : (if N <=? w32 (c - 2) then 0 else w32 (c - 2)) = start_at c).
  { unfold start_at. unfold N, clusts in *. destruct (Z.leb_spec 2 c); cbn [andb].
    - rewrite w32_id by lia. destruct (Z.leb_spec (n_fatent g - 2) (c - 2)), (Z.ltb_spec c (n_fatent g)); lia.
    - assert (w32 (c - 2) = c - 2 + 4294967296) as ->; [|unfold EOC in NP; destruct (Z.leb_spec (n_fatent g - 2) (c - 2 + 4294967296)); lia].
      unfold w32. symmetry. apply (Z.mod_unique_pos _ _ (-1)); lia. }
  rewrite SA. set (a := start_at c).
  assert (A : 0 <= a < N) by (unfold a, start_at, N, clusts in *; destruct (Z.leb_spec 2 c), (Z.ltb_spec c (n_fatent g)); cbn; lia).
  clear SA. pose proof (clusts_bits g bb G) as CB. fold N in CB.
  pose proof (bit_sector g bb G a ltac:(lia)) as IB. rewrite (bm_w32 g bb G _ IB).
  destruct (move_x g bb G v _ V (bm_mine g bb G _ IB)) as (v1 & E1 & X1 & W1). rewrite E1.
  destruct (find_loop_ok a n (bit g bb v) fuel A ltac:(lia) v1 0 0) as (v2 & r & E2 & X2 & FD).
  - apply X1.
  - apply X1.
  - lia.
  - lia.
  - rewrite W1. rewrite Z.add_0_r, Z.mod_small by lia. auto.
  - constructor; lia.
  - rewrite Z.sub_diag, Z.add_0_r, Z.mod_small in E2 by lia. exists v2, r. split; [exact E2|]. split; [|auto].
    eapply xs_ext; [eapply xs_trans; eauto| |]; intros k K; apply X1; auto.
Qed.

Lemma change_loop_ok bv fuel : forall v k n, xvol_ok g v -> 0 <= k -> 0 < n -> k + n <= bits g -> n < 4294967296 -> n <= Z.of_nat fuel ->
  winsect v = bb + k / 8 / ss g ->
  exists v' m r, change_loop fuel g v (w32 (bb + k / 8 / ss g + 1)) (k / 8 mod ss g) (Z.shiftl 1 (k mod 8)) n bv = Ok (v', r) /\
    xstep g bb v v' (fun j => if (k <=? j) && (j <? k + m) then bv else bit g bb v j) (xent g v) /\
    (forall j, k <= j < k + m -> bit g bb v j = negb bv) /\
    ((m = n /\ r = FR_OK) \/ (0 <= m < n /\ r = FR_INT_ERR /\ bit g bb v (k + m) = bv)).
Proof using G.
  pose proof (ssz g bb G) as SS.
  induction fuel as [|fuel IH]; intros v k n V K0 N0 KB NW F W; [lia|].
  assert (K8 : 0 <= k mod 8 < 8) by (apply Z.mod_pos_bound; clear; lia).
  assert (KQ : 0 <= k / 8) by (apply Z.div_pos; clear - K0; lia).
  assert (KR : 0 <= k < bits g) by (clear - K0 N0 KB; lia).
  pose proof (spot_mod g bb G k) as SP.
  cbn [change_loop]. rewrite rd_ok by (clear - SP SS; lia). cbn [bind]. rewrite mask_bit by (clear - K8; lia). rewrite negb_involutive.
  rewrite (win_bit g bb G v k W). destruct (Bool.eqb bv (bit g bb v k)) eqn:EB.
  { apply eqb_prop in EB. exists v, 0, FR_INT_ERR. split; auto. split; [|split].
    - constructor; auto; [|intros s o _ _; auto|split; auto]. intros j J. replace ((k <=? j) && (j <? k + 0)) with false by (clear; lia). auto.
    - intros j J. lia.
    - right. rewrite Z.add_0_r. split; [clear - N0; lia|auto]. }
  apply eqb_false_iff in EB. assert (EN : bit g bb v k = negb bv) by (clear - EB; destruct bv; [apply not_true_is_false|apply not_false_is_true]; congruence).
  rewrite wr_ok by (clear - SP SS; lia). cbn [bind].
  destruct (flip_x g bb G v k V KR W) as [X1 W1]. cbv zeta in X1, W1. set (v1 := dirty _ _) in *. rewrite W in W1.
  rewrite (w32_id (n - 1)) by (clear - N0 NW; lia).
  assert (FL : forall j, 0 <= j < bits g -> bit g bb v1 j = if j =? k then bv else bit g bb v j).
  { intros j J. rewrite (xs_bits _ _ _ _ _ _ X1) by auto. destruct (Z.eqb_spec j k) as [->|]; auto. rewrite EN. destruct bv; auto. }
  destruct (Z.eqb_spec (n - 1) 0) as [E1|E1].
  { exists v1, n, FR_OK. split; auto. split; [|split].
    - eapply xs_ext; [exact X1| |auto]. intros j J. cbv beta. rewrite <- (xs_bits _ _ _ _ _ _ X1) by auto. rewrite FL by auto.
      destruct (Z.eqb_spec j k) as [->|]; [replace ((k <=? k) && (k <? k + n)) with true by (clear - N0; lia)|
        replace ((k <=? j) && (j <? k + n)) with false by (clear - E1 n0; lia)]; auto.
    - intros j J. replace j with k by (clear - E1 J; lia). auto.
    - auto. }
  rewrite next_mask by exact K8.
  assert (GO : forall vv, xstep g bb v1 vv (bit g bb v1) (xent g v1) ->
    (exists v' m r, change_loop fuel g vv (w32 (bb + (k + 1) / 8 / ss g + 1)) ((k + 1) / 8 mod ss g) (Z.shiftl 1 ((k + 1) mod 8)) (n - 1) bv = Ok (v', r) /\
    xstep g bb vv v' (fun j => if (k + 1 <=? j) && (j <? k + 1 + m) then bv else bit g bb vv j) (xent g vv) /\
    (forall j, k + 1 <= j < k + 1 + m -> bit g bb vv j = negb bv) /\
    ((m = n - 1 /\ r = FR_OK) \/ (0 <= m < n - 1 /\ r = FR_INT_ERR /\ bit g bb vv (k + 1 + m) = bv))) ->
    exists v' m r, change_loop fuel g vv (w32 (bb + (k + 1) / 8 / ss g + 1)) ((k + 1) / 8 mod ss g) (Z.shiftl 1 ((k + 1) mod 8)) (n - 1) bv = Ok (v', r) /\
    xstep g bb v v' (fun j => if (k <=? j) && (j <? k + m) then bv else bit g bb v j) (xent g v) /\
    (forall j, k <= j < k + m -> bit g bb v j = negb bv) /\
    ((m = n /\ r = FR_OK) \/ (0 <= m < n /\ r = FR_INT_ERR /\ bit g bb v (k + m) = bv))).
  { intros vv XV (v' & m & r & E & X2 & P & Q). exists v', (m + 1), r. split; [exact E|].
    assert (M : 0 <= m <= n - 1) by (clear - Q N0 E1; lia).
    assert (VV : forall j, 0 <= j < bits g -> bit g bb vv j = if j =? k then bv else bit g bb v j).
    { intros j J. rewrite (xs_bits _ _ _ _ _ _ XV), FL by auto. auto. }
    split; [|split].
    - eapply xs_ext; [eapply xs_trans; [eapply xs_trans; [exact X1|exact XV]|exact X2]| |].
      + intros j J. cbv beta. rewrite VV by auto. destruct (Z.eqb_spec j k) as [->|].
        * replace ((k + 1 <=? k) && (k <? k + 1 + m)) with false by (clear; lia). replace ((k <=? k) && (k <? k + (m + 1))) with true by (clear - M; lia). auto.
        * replace ((k <=? j) && (j <? k + (m + 1))) with ((k + 1 <=? j) && (j <? k + 1 + m)) by (clear - n0; lia). auto.
      + intros c C. rewrite (xs_ents _ _ _ _ _ _ XV) by auto. apply (xs_ents _ _ _ _ _ _ X1); auto.
    - intros j J. destruct (Z.eq_dec j k) as [->|D]; [auto|]. rewrite <- P with (j := j) by (clear - J D; lia).
      rewrite VV by (clear - J K0 KB M; lia). replace (j =? k) with false by (clear - D; lia). auto.
    - destruct Q as [[-> ->]|(Q1 & -> & Q2)]; [left; split; [clear; lia|auto]|right]. split; [clear - Q1; lia|]. split; auto.
      replace (k + (m + 1)) with (k + 1 + m) by (clear; lia). rewrite VV in Q2 by (clear - Q1 K0 KB; lia).
      replace (k + 1 + m =? k) with false in Q2 by (clear - Q1; lia). auto. }
  assert (V1 : xvol_ok g v1) by apply X1.
  assert (SAME : xstep g bb v1 v1 (bit g bb v1) (xent g v1)) by (constructor; auto; [intros s o _ _; auto|split; auto]).
  assert (MV : exists v' m r, (let '(v, r) := move_window g v1 (bb + (k + 1) / 8 / ss g) in
            match r with
            | FR_OK => change_loop fuel g v (w32 (bb + (k + 1) / 8 / ss g + 1)) ((k + 1) / 8 mod ss g) (Z.shiftl 1 ((k + 1) mod 8)) (n - 1) bv
            | _ => Ok (v, FR_DISK_ERR)
            end) = Ok (v', r) /\
    xstep g bb v v' (fun j => if (k <=? j) && (j <? k + m) then bv else bit g bb v j) (xent g v) /\
    (forall j, k <= j < k + m -> bit g bb v j = negb bv) /\
    ((m = n /\ r = FR_OK) \/ (0 <= m < n /\ r = FR_INT_ERR /\ bit g bb v (k + m) = bv))).
  { assert (KB1 : 0 <= k + 1 < bits g) by (clear - KB E1 N0 K0; lia).
    pose proof (bit_sector g bb G (k + 1) KB1) as IB.
    destruct (move_x g bb G v1 _ V1 (bm_mine g bb G _ IB)) as (v2 & E2 & X2 & W2). rewrite E2.
    apply GO; auto. apply IH; auto; [apply X2|clear - K0; lia|clear - E1 N0; lia|clear - KB; lia|clear - NW; lia|clear - F; lia]. }
  destruct (Z.eqb_spec (k mod 8) 7) as [E7|E7].
  - change (negb (0 =? 0)) with false. cbv iota. destruct (adv_byte k K0 E7) as [D1 D2].
    destruct (Z.ltb_spec (k / 8 mod ss g + 1) (ss g)) as [LS|LS].
    + destruct (adv_in (k / 8) (ss g)) as [D3 D4]; [clear - SS; lia|exact KQ|exact LS|].
      specialize (GO v1 SAME). rewrite D1, D2, D3, D4 in GO. change (Z.shiftl 1 0) with 1 in GO. apply GO.
      specialize (IH v1 (k + 1) (n - 1)). rewrite D1, D2, D3, D4 in IH. change (Z.shiftl 1 0) with 1 in IH.
      apply IH; auto; [clear - K0; lia|clear - E1 N0; lia|clear - KB; lia|clear - NW; lia|clear - F; lia].
    + destruct (adv_out (k / 8) (ss g)) as [D3 D4]; [clear - SS; lia|exact KQ|exact LS|].
      rewrite D1, D2, D3, D4 in MV. change (Z.shiftl 1 0) with 1 in MV.
      assert (KB1 : 0 <= k + 1 < bits g) by (clear - KB E1 N0 K0; lia).
      pose proof (bm_w32 g bb G _ (bit_sector g bb G (k + 1) KB1)) as WQ. rewrite D1, D3 in WQ.
      replace (bb + k / 8 / ss g + 1) with (bb + (k / 8 / ss g + 1)) by (clear; lia). rewrite WQ. exact MV.
  - rewrite mask_nonzero by (clear - K8; lia). cbn [negb]. destruct (adv_same k K0 E7) as [D1 D2].
    specialize (GO v1 SAME). rewrite D1, D2 in GO. apply GO.
    specialize (IH v1 (k + 1) (n - 1)). rewrite D1, D2 in IH. apply IH; auto; [clear - K0; lia|clear - E1 N0; lia|clear - KB; lia|clear - NW; lia|clear - F; lia].
Qed.

Lemma change_ok v c n bv fuel : xvol_ok g v -> 2 <= c -> 0 < n -> c - 2 + n <= bits g -> n < 4294967296 -> c < 4294967296 -> n <= Z.of_nat fuel ->
  exists v' m r, change_bitmap fuel g bb v c n bv = Ok (v', r) /\
    xstep g bb v v' (fun j => if (c - 2 <=? j) && (j <? c - 2 + m) then bv else bit g bb v j) (xent g v) /\
    (forall j, c - 2 <= j < c - 2 + m -> bit g bb v j = negb bv) /\
    ((m = n /\ r = FR_OK) \/ (0 <= m < n /\ r = FR_INT_ERR /\ bit g bb v (c - 2 + m) = bv)).
Proof using G.
  intros V C N0 KB NW CW F. unfold change_bitmap. rewrite (w32_id (c - 2)) by lia.
  assert (KR : 0 <= c - 2 < bits g) by lia. pose proof (bit_sector g bb G _ KR) as IB. rewrite (bm_w32 g bb G _ IB).
  destruct (move_x g bb G v _ V (bm_mine g bb G _ IB)) as (v1 & E1 & X1 & W1). rewrite E1.
  destruct (change_loop_ok bv fuel v1 (c - 2) n) as (v' & m & r & E & X & P & Q); auto; [apply X1|lia|].
  assert (M : 0 <= m <= n) by lia.
  exists v', m, r. split; [exact E|]. split; [|split].
  - eapply xs_ext; [eapply xs_trans; eauto| |]; [|intros k K; apply X1; auto].
    intros j J. cbv beta. rewrite (xs_bits _ _ _ _ _ _ X1) by auto. auto.
  - intros j J. rewrite <- (xs_bits _ _ _ _ _ _ X1) by lia. auto.
  - destruct Q as [Q|(Q1 & Q2 & Q3)]; auto. right. repeat split; auto; try lia. rewrite <- (xs_bits _ _ _ _ _ _ X1) by lia. auto.
Qed.

End S.
