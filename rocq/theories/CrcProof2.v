(* The tables and loops against the shift register. *)
From Verif Require Import Base Arr ArrLemmas Finite CrcModel CrcSpec CrcProof.
Open Scope Z_scope.
Local Ltac Zify.zify_post_hook ::= Z.div_mod_to_equations.

Fixpoint blist_eqb (a b : list bool) : bool :=
  match a, b with
  | [], [] => true
  | x :: a', y :: b' => Bool.eqb x y && blist_eqb a' b'
  | _, _ => false
  end.
Lemma blist_eqb_ok a : forall b, blist_eqb a b = true -> a = b.
Proof.
  induction a as [|x a IH]; intros [|y b] H; cbn in H; try discriminate; auto. apply andb_true_iff in H. destruct H as [H1 H2].
  apply Bool.eqb_prop in H1. f_equal; auto.
Qed.

Lemma lsb_length w z : length (lsb_bits w z) = w.
Proof. unfold lsb_bits. rewrite map_length, seq_length. auto. Qed.
Lemma msb_length w z : length (msb_bits w z) = w.
Proof. unfold msb_bits. rewrite rev_length. apply lsb_length. Qed.

Lemma lsb_lxor w a b : lsb_bits w (Z.lxor a b) = xor_onto (lsb_bits w a) (lsb_bits w b).
Proof.
  unfold lsb_bits. induction (seq 0 w) as [|i l IH]; cbn [map xor_onto]; auto. rewrite IH, Z.lxor_spec. auto.
Qed.

Lemma xor_rev a : forall b, length a = length b -> xor_onto (rev a) (rev b) = rev (xor_onto a b).
Proof.
  induction a as [|x a IH]; intros [|y b] H; cbn [length] in *; try discriminate; auto. cbn [rev xor_onto].
  rewrite xor_app by (rewrite !rev_length; lia). rewrite IH by lia. auto.
Qed.

Lemma msb_lxor w a b : msb_bits w (Z.lxor a b) = xor_onto (msb_bits w a) (msb_bits w b).
Proof. unfold msb_bits. rewrite lsb_lxor, xor_rev; auto. rewrite !lsb_length. auto. Qed.

Lemma lsb_mod w z : lsb_bits w (z mod 2 ^ Z.of_nat w) = lsb_bits w z.
Proof.
  unfold lsb_bits. apply map_ext_in. intros i Hi. apply in_seq in Hi. apply Z.mod_pow2_bits_low. lia.
Qed.
Lemma msb_mod w z : msb_bits w (z mod 2 ^ Z.of_nat w) = msb_bits w z.
Proof. unfold msb_bits. rewrite lsb_mod. auto. Qed.

(* Equal bits, equal numbers. *)
Lemma lsb_inj w a b : 0 <= a < 2 ^ Z.of_nat w -> 0 <= b < 2 ^ Z.of_nat w -> lsb_bits w a = lsb_bits w b -> a = b.
Proof.
  intros Ha Hb H. apply Z.bits_inj'. intros i Hi. destruct (Z.lt_ge_cases i (Z.of_nat w)) as [Hw | Hw].
  - assert (E : nth (Z.to_nat i) (lsb_bits w a) false = nth (Z.to_nat i) (lsb_bits w b) false) by congruence.
    unfold lsb_bits in E.
    rewrite !nth_indep with (d := false) (d' := Z.testbit 0 (Z.of_nat 0)) in E by (rewrite map_length, seq_length; lia).
    assert (G : forall z, nth (Z.to_nat i) (map (fun j => Z.testbit z (Z.of_nat j)) (seq 0 w)) (Z.testbit z (Z.of_nat 0)) = Z.testbit z i).
    { intros z. rewrite (map_nth (fun j => Z.testbit z (Z.of_nat j))), seq_nth by lia. f_equal. lia. }
    rewrite (nth_indep _ _ (Z.testbit a (Z.of_nat 0))) in E by (rewrite map_length, seq_length; lia). rewrite G in E.
    rewrite (nth_indep _ _ (Z.testbit b (Z.of_nat 0))) in E by (rewrite map_length, seq_length; lia). rewrite G in E. auto.
  - rewrite <- (Z.mod_small a (2 ^ Z.of_nat w)), <- (Z.mod_small b (2 ^ Z.of_nat w)) by lia. rewrite !Z.mod_pow2_bits_high by lia. auto.
Qed.

Ltac testbits := unfold msb_bits, lsb_bits; cbn [seq map rev app];
  rewrite ?Z.shiftl_spec, ?Z.shiftr_spec, ?Z.land_spec by lia; repeat f_equal.

Lemma byte_land x : 0 <= Z.land x 255 < 256.
Proof. change 255 with (Z.ones 8). rewrite Z.land_ones by lia. apply Z.mod_pos_bound. lia. Qed.

Lemma byte_lxor x y : byte x -> byte y -> byte (Z.lxor x y).
Proof.
  unfold byte. intros Hx Hy. assert (E : Z.lxor x y = Z.lxor x y mod 2 ^ 8).
  { apply Z.bits_inj'. intros i Hi. destruct (Z.lt_ge_cases i 8).
    - rewrite Z.mod_pow2_bits_low by lia. auto.
    - rewrite Z.mod_pow2_bits_high by lia. rewrite Z.lxor_spec. rewrite <- (Z.mod_small x (2 ^ 8)), <- (Z.mod_small y (2 ^ 8)) by lia.
      rewrite !Z.mod_pow2_bits_high by lia. auto. }
  rewrite E. apply Z.mod_pos_bound. lia.
Qed.

(* --- 16 bits, highest first --- *)

Definition table16_ok (t : list Z) : Prop := forall x, byte x -> run g16 (msb_bits 8 x ++ zeros 8) (zeros 8) = msb_bits 16 (lookup t x).

Lemma table16_check t : allb 8 (fun x => blist_eqb (run g16 (msb_bits 8 x ++ zeros 8) (zeros 8)) (msb_bits 16 (lookup t x))) 0 = true -> table16_ok t.
Proof. intros H x Hx. apply blist_eqb_ok. apply (allb0 8 _ H). exact Hx. Qed.

Lemma rz_table16 : table16_ok crc16_ccitt_table.
Proof. apply table16_check. vm_compute. reflexivity. Qed.
Lemma sd_table16 : table16_ok sd_crc16_table.
Proof. apply table16_check. vm_compute. reflexivity. Qed.

Lemma list8 {A} (l : list A) : length l = 8%nat -> exists a b c d e f g h, l = [a; b; c; d; e; f; g; h].
Proof. intros H. do 8 (destruct l as [|? l]; [discriminate|]). destruct l; [|discriminate]. do 8 eexists. reflexivity. Qed.

Lemma run16_low lo : length lo = 8%nat -> run g16 (zeros 8 ++ lo) (zeros 8) = lo ++ zeros 8.
Proof. intros H. destruct (list8 lo H) as (a & b & c & d & e & f & g & h & ->). reflexivity. Qed.

Lemma split16 c : msb_bits 16 c = msb_bits 8 (Z.shiftr c 8) ++ msb_bits 8 c.
Proof. testbits. Qed.

Lemma msb_land c : msb_bits 8 (Z.land c 255) = msb_bits 8 c.
Proof. change 255 with (Z.ones 8). rewrite Z.land_ones by lia. apply (msb_mod 8). Qed.

Lemma msb_shiftl8 c : msb_bits 16 (Z.shiftl c 8) = msb_bits 8 c ++ zeros 8.
Proof.
  unfold msb_bits, lsb_bits. cbn [seq map rev app]. rewrite !Z.shiftl_spec by lia.
  repeat (apply f_equal2; [first [reflexivity | apply Z.testbit_neg_r; lia]|]). reflexivity.
Qed.

Lemma update16_gen t c ch x : table16_ok t -> byte ch -> msb_bits 8 x = xor_onto (msb_bits 8 (Z.shiftr c 8)) (msb_bits 8 ch) -> byte x ->
  msb_bits 16 (Z.lxor (lookup t x) (Z.shiftl c 8) mod 65536) = run g16 (msb_bits 16 c) (msb_bits 8 ch).
Proof.
  intros Ht Hch Hx Hbx. rewrite (msb_mod 16), msb_lxor, <- Ht by auto. rewrite msb_shiftl8.
  rewrite (run_absorb g16 (msb_bits 8 ch)) by (rewrite msb_length; cbn; lia). rewrite msb_length, split16.
  replace (xor_onto (msb_bits 8 (Z.shiftr c 8) ++ msb_bits 8 c) (msb_bits 8 ch)) with (msb_bits 8 x ++ msb_bits 8 c).
  2: { rewrite <- (app_nil_r (msb_bits 8 ch)), xor_app by (rewrite !msb_length; auto). rewrite <- Hx, xor_nil. auto. }
  rewrite <- (run16_low (msb_bits 8 c)) by apply msb_length.
  assert (L1 : length (msb_bits 8 x ++ zeros 8) = 16%nat) by (rewrite app_length, msb_length; auto).
  assert (L2 : length (zeros 8 ++ msb_bits 8 c) = 16%nat) by (rewrite app_length, msb_length; auto).
  assert (L3 : length g16 = 16%nat) by reflexivity.
  rewrite <- run_xor by (auto; rewrite L3; auto; lia). rewrite (xor_zeros (zeros 8)).
  rewrite xor_app by (rewrite msb_length; auto). rewrite xor_zeros.
  replace (xor_onto (zeros 8) (msb_bits 8 c)) with (msb_bits 8 c); [auto|].
  rewrite xor_comm by (rewrite msb_length; auto). rewrite xor_zeros. auto.
Qed.

Lemma byte_shiftr c : 0 <= c < 65536 -> byte (Z.shiftr c 8).
Proof. intros H. rewrite Z.shiftr_div_pow2 by lia. change (2 ^ 8) with 256. unfold byte. lia. Qed.

Lemma update16_ok ch crc : byte ch -> 0 <= crc < 65536 ->
  msb_bits 16 (update_crc16_ccitt ch crc) = run g16 (msb_bits 16 crc) (msb_bits 8 ch) /\ 0 <= update_crc16_ccitt ch crc < 65536.
Proof.
  intros Hch Hc. unfold update_crc16_ccitt. split; [|apply Z.mod_pos_bound; lia].
  apply update16_gen; auto using rz_table16.
  - rewrite msb_lxor, msb_land. auto.
  - apply byte_lxor; auto. apply byte_land.
Qed.

Lemma update16_fold data : Forall byte data -> forall crc, 0 <= crc < 65536 ->
  let r := fold_left (fun crc ch => update_crc16_ccitt ch crc) data crc in
  msb_bits 16 r = run g16 (msb_bits 16 crc) (msb_first data) /\ 0 <= r < 65536.
Proof.
  intros H. induction H as [|ch data Hch Hd IH]; intros crc Hc; cbn [fold_left msb_first flat_map]; [auto|].
  destruct (update16_ok ch crc Hch Hc) as [E1 E2]. destruct (IH _ E2) as [E3 E4]. split; [|auto].
  rewrite E3, E1, run_app. auto.
Qed.

Lemma sd16_ok data : Forall byte data -> forall crc, 0 <= crc < 65536 ->
  msb_bits 16 (update_crc16 data crc) = run g16 (msb_bits 16 crc) (msb_first data) /\ 0 <= update_crc16 data crc < 65536.
Proof.
  unfold update_crc16.
  intros H. induction H as [|ch data Hch Hd IH]; intros crc Hc; cbn [fold_left msb_first flat_map]; [auto|].
  set (c' := Z.lxor (Z.shiftl crc 8) _ mod 65536).
  assert (E2 : 0 <= c' < 65536) by (apply Z.mod_pos_bound; lia).
  assert (E1 : msb_bits 16 c' = run g16 (msb_bits 16 crc) (msb_bits 8 ch)).
  { unfold c'. rewrite Z.lxor_comm. apply update16_gen; auto using sd_table16.
    - rewrite msb_land, msb_lxor. auto.
    - apply byte_land. }
  destruct (IH _ E2) as [E3 E4]. split; [|auto]. rewrite E3, E1, run_app. auto.
Qed.

(* --- 32 bits, lowest first --- *)

Lemma table32 : forall x, byte x -> run g32 (lsb_bits 8 x ++ zeros 24) (zeros 8) = lsb_bits 32 (lookup crc32_table x).
Proof.
  assert (H : allb 8 (fun x => blist_eqb (run g32 (lsb_bits 8 x ++ zeros 24) (zeros 8)) (lsb_bits 32 (lookup crc32_table x))) 0 = true) by (vm_compute; reflexivity).
  intros x Hx. apply blist_eqb_ok. apply (allb0 8 _ H). exact Hx.
Qed.

Lemma table32_range : forall x, byte x -> 0 <= lookup crc32_table x < 4294967296.
Proof.
  assert (H : allb 8 (fun x => (0 <=? lookup crc32_table x) && (lookup crc32_table x <? 4294967296)) 0 = true) by (vm_compute; reflexivity).
  intros x Hx. pose proof (allb0 8 _ H x Hx) as G. cbv beta in G. apply andb_true_iff in G. destruct G as [G1 G2]. apply Z.leb_le in G1. apply Z.ltb_lt in G2. lia.
Qed.

Lemma list24 {A} (l : list A) : length l = 24%nat -> exists a b c, l = a ++ b ++ c /\ length a = 8%nat /\ length b = 8%nat /\ length c = 8%nat.
Proof.
  intros H. exists (firstn 8 l), (firstn 8 (skipn 8 l)), (skipn 16 l). split.
  - rewrite <- (firstn_skipn 8 l) at 1. f_equal. rewrite <- (firstn_skipn 8 (skipn 8 l)) at 1. f_equal. apply (skipn_add 8 8).
  - rewrite !firstn_length, !skipn_length. lia.
Qed.

Lemma run32_high hi : length hi = 24%nat -> run g32 (zeros 8 ++ hi) (zeros 8) = hi ++ zeros 8.
Proof.
  intros H. destruct (list24 hi H) as (x & y & z & -> & Hx & Hy & Hz).
  destruct (list8 x Hx) as (? & ? & ? & ? & ? & ? & ? & ? & ->). destruct (list8 y Hy) as (? & ? & ? & ? & ? & ? & ? & ? & ->).
  destruct (list8 z Hz) as (? & ? & ? & ? & ? & ? & ? & ? & ->). reflexivity.
Qed.

Lemma split32 c : lsb_bits 32 c = lsb_bits 8 c ++ lsb_bits 24 (Z.shiftr c 8).
Proof. testbits. Qed.

Lemma lsb_land c : lsb_bits 8 (Z.land c 255) = lsb_bits 8 c.
Proof. change 255 with (Z.ones 8). rewrite Z.land_ones by lia. apply (lsb_mod 8). Qed.

Lemma lsb_shiftr8 c : 0 <= c < 4294967296 -> lsb_bits 32 (Z.shiftr c 8) = lsb_bits 24 (Z.shiftr c 8) ++ zeros 8.
Proof.
  intros H. assert (E : forall i, 24 <= i -> Z.testbit (Z.shiftr c 8) i = false).
  { intros i Hi. rewrite Z.shiftr_spec by lia. rewrite <- (Z.mod_small c (2 ^ 32)) by lia. apply Z.mod_pow2_bits_high. lia. }
  unfold lsb_bits, zeros. cbn [seq map app repeat].
  repeat (apply f_equal2; [first [reflexivity | apply E; lia]|]). reflexivity.
Qed.

Lemma update32_ok ch crc : byte ch -> 0 <= crc < 4294967296 ->
  lsb_bits 32 (update_crc32 ch crc) = run g32 (lsb_bits 32 crc) (lsb_bits 8 ch) /\ 0 <= update_crc32 ch crc < 4294967296.
Proof.
  intros Hch Hc. unfold update_crc32. set (x := Z.land (Z.lxor crc ch) 255).
  assert (Hbx : byte x) by apply byte_land.
  assert (Hx : lsb_bits 8 x = xor_onto (lsb_bits 8 crc) (lsb_bits 8 ch)) by (unfold x; rewrite lsb_land, lsb_lxor; auto).
  split.
  - rewrite lsb_lxor, <- table32, lsb_shiftr8 by auto.
    rewrite (run_absorb g32 (lsb_bits 8 ch)) by (rewrite lsb_length; cbn; lia). rewrite lsb_length, split32.
    set (hi := lsb_bits 24 (Z.shiftr crc 8)). assert (Lh : length hi = 24%nat) by apply lsb_length.
    replace (xor_onto (lsb_bits 8 crc ++ hi) (lsb_bits 8 ch)) with (lsb_bits 8 x ++ hi).
    2: { rewrite <- (app_nil_r (lsb_bits 8 ch)), xor_app by (rewrite !lsb_length; auto). rewrite <- Hx, xor_nil. auto. }
    rewrite <- (run32_high hi) by auto.
    assert (L1 : length (lsb_bits 8 x ++ zeros 24) = 32%nat) by (rewrite app_length, lsb_length; auto).
    assert (L2 : length (zeros 8 ++ hi) = 32%nat) by (rewrite app_length, Lh; auto).
    assert (L3 : length g32 = 32%nat) by reflexivity.
    rewrite <- run_xor by (auto; rewrite L3; auto; lia). rewrite (xor_zeros (zeros 8)).
    rewrite xor_app by (rewrite lsb_length; auto). rewrite xor_zeros.
    replace (xor_onto (zeros 24) hi) with hi; [auto|]. rewrite xor_comm by (rewrite Lh; auto). rewrite xor_zeros. auto.
  - pose proof (table32_range x Hbx). set (t := lookup crc32_table x) in *.
    assert (Hs : 0 <= Z.shiftr crc 8 < 2 ^ 32).
    { rewrite Z.shiftr_div_pow2 by lia. change (2 ^ 8) with 256. change (2 ^ 32) with 4294967296. lia. }
    assert (E : Z.lxor t (Z.shiftr crc 8) = Z.lxor t (Z.shiftr crc 8) mod 2 ^ 32).
    { apply Z.bits_inj'. intros i Hi. destruct (Z.lt_ge_cases i 32).
      - rewrite Z.mod_pow2_bits_low by lia. auto.
      - rewrite Z.mod_pow2_bits_high by lia. rewrite Z.lxor_spec. rewrite <- (Z.mod_small t (2 ^ 32)) by lia.
        rewrite <- (Z.mod_small (Z.shiftr crc 8) (2 ^ 32)) by lia.
        rewrite !Z.mod_pow2_bits_high by lia. auto. }
    rewrite E. apply Z.mod_pos_bound. lia.
Qed.

Lemma update32_fold data : Forall byte data -> forall crc, 0 <= crc < 4294967296 ->
  let r := fold_left (fun crc ch => update_crc32 ch crc) data crc in
  lsb_bits 32 r = run g32 (lsb_bits 32 crc) (lsb_first data) /\ 0 <= r < 4294967296.
Proof.
  intros H. induction H as [|ch data Hch Hd IH]; intros crc Hc; cbn [fold_left lsb_first flat_map]; [auto|].
  destruct (update32_ok ch crc Hch Hc) as [E1 E2]. destruct (IH _ E2) as [E3 E4]. split; [|auto].
  rewrite E3, E1, run_app. auto.
Qed.

(* --- 7 bits --- *)

Lemma table7 : forall c ch, 0 <= c < 128 -> byte ch ->
  msb_bits 7 (lookup crc7_table (Z.lxor (Z.shiftl c 1) ch)) = run g7 (msb_bits 7 c) (msb_bits 8 ch) /\
  0 <= lookup crc7_table (Z.lxor (Z.shiftl c 1) ch) < 128.
Proof.
  assert (H : allb 7 (fun c => allb 8 (fun ch =>
    let r := lookup crc7_table (Z.lxor (Z.shiftl c 1) ch) in
    blist_eqb (msb_bits 7 r) (run g7 (msb_bits 7 c) (msb_bits 8 ch)) && ((0 <=? r) && (r <? 128))) 0) 0 = true) by (vm_compute; reflexivity).
  intros c ch Hc Hch. pose proof (allb0 7 _ H c Hc) as G. cbv beta in G. pose proof (allb0 8 _ G ch Hch) as F. cbv beta zeta in F.
  apply andb_true_iff in F. destruct F as [F1 F2]. apply blist_eqb_ok in F1. apply andb_true_iff in F2. destruct F2 as [F2 F3].
  apply Z.leb_le in F2. apply Z.ltb_lt in F3. auto.
Qed.

Lemma crc7_fold data : Forall byte data -> forall crc, 0 <= crc < 128 ->
  let r := fold_left (fun crc ch => lookup crc7_table (Z.lxor (Z.shiftl crc 1) ch)) data crc in
  msb_bits 7 r = run g7 (msb_bits 7 crc) (msb_first data) /\ 0 <= r < 128.
Proof.
  intros H. induction H as [|ch data Hch Hd IH]; intros crc Hc; cbn [fold_left msb_first flat_map]; [auto|].
  destruct (table7 crc ch Hc Hch) as [E1 E2]. destruct (IH _ E2) as [E3 E4]. split; [|auto].
  rewrite E3, E1, run_app. auto.
Qed.

(* --- statements --- *)

Lemma remainder_run g s m : length s = length g -> (1 <= length g)%nat -> remainder g s m = run g s m.
Proof. intros. apply divide_run; auto. Qed.

Lemma crc16_rz data : Forall byte data ->
  msb_bits 16 (zm_calc_data_crc data) = remainder g16 (zeros 16) (msb_first data) /\ 0 <= zm_calc_data_crc data < 65536.
Proof.
  intros H. rewrite remainder_run by (cbn; lia). apply (update16_fold data H 0). lia.
Qed.

Lemma crc16_sd data : Forall byte data ->
  msb_bits 16 (crc16 data) = remainder g16 (zeros 16) (msb_first data) /\ 0 <= crc16 data < 65536.
Proof. intros H. rewrite remainder_run by (cbn; lia). apply (sd16_ok data H 0). lia. Qed.

Lemma crc7_sd data : Forall byte data ->
  msb_bits 7 (crc7 data) = remainder g7 (zeros 7) (msb_first data) /\ 0 <= crc7 data < 128.
Proof. intros H. rewrite remainder_run by (cbn; lia). apply (crc7_fold data H 0). lia. Qed.

Lemma lsb_lnot w z : lsb_bits w (-1 - z) = map negb (lsb_bits w z).
Proof.
  unfold lsb_bits. rewrite map_map. apply map_ext. intros i. replace (-1 - z) with (Z.lnot z) by (unfold Z.lnot; lia).
  apply Z.lnot_spec. lia.
Qed.

Lemma crc32_rz data : Forall byte data ->
  lsb_bits 32 (zm_calc_data_crc32 data) = map negb (remainder g32 (ones 32) (lsb_first data)) /\ 0 <= zm_calc_data_crc32 data < 4294967296.
Proof.
  intros H. rewrite remainder_run by (cbn; lia). unfold zm_calc_data_crc32, CRC_START_32.
  destruct (update32_fold data H 4294967295 ltac:(lia)) as [E1 E2]. cbv zeta in *. split; [|apply Z.mod_pos_bound; lia].
  rewrite (lsb_mod 32), lsb_lnot, E1. auto.
Qed.

(* --- error detection --- *)

Lemma detect16 data data' f : (f = zm_calc_data_crc \/ f = crc16) -> Forall byte data -> Forall byte data' ->
  (burst 16 (msb_first data) (msb_first data') \/
   (length data = length data' /\ Nat.odd (flips (msb_first data) (msb_first data')) = true)) -> f data <> f data'.
Proof.
  intros Hf H H' E G.
  assert (R : remainder g16 (zeros 16) (msb_first data) = remainder g16 (zeros 16) (msb_first data')).
  { destruct Hf as [-> | ->].
    - rewrite <- (proj1 (crc16_rz data H)), <- (proj1 (crc16_rz data' H')). congruence.
    - rewrite <- (proj1 (crc16_sd data H)), <- (proj1 (crc16_sd data' H')). congruence. }
  rewrite !remainder_run in R by (cbn; lia). revert R. destruct E as [E | [El E]].
  - apply run_burst; auto. cbn. lia.
  - apply run_odd; auto. cbn. lia.
    assert (L : forall l, length (msb_first l) = (8 * length l)%nat).
    { induction l as [|x l IH]; auto. cbn [msb_first flat_map length]. rewrite app_length, msb_length. unfold msb_first in IH. rewrite IH. lia. }
    rewrite !L. lia.
Qed.

Lemma detect32 data data' : Forall byte data -> Forall byte data' ->
  burst 32 (lsb_first data) (lsb_first data') -> zm_calc_data_crc32 data <> zm_calc_data_crc32 data'.
Proof.
  intros H H' E G. assert (R : map negb (remainder g32 (ones 32) (lsb_first data)) = map negb (remainder g32 (ones 32) (lsb_first data'))).
  { rewrite <- (proj1 (crc32_rz data H)), <- (proj1 (crc32_rz data' H')). congruence. }
  assert (R' : remainder g32 (ones 32) (lsb_first data) = remainder g32 (ones 32) (lsb_first data')).
  { apply (f_equal (map negb)) in R. rewrite !map_map in R. erewrite map_ext, map_id in R by (intros; apply negb_involutive).
    erewrite map_ext, map_id in R by (intros; apply negb_involutive). auto. }
  rewrite !remainder_run in R' by (cbn; lia). revert R'. apply run_burst; auto. cbn. lia.
Qed.

Lemma detect7 data data' : Forall byte data -> Forall byte data' ->
  burst 7 (msb_first data) (msb_first data') -> crc7 data <> crc7 data'.
Proof.
  intros H H' E G. assert (R : remainder g7 (zeros 7) (msb_first data) = remainder g7 (zeros 7) (msb_first data')).
  { rewrite <- (proj1 (crc7_sd data H)), <- (proj1 (crc7_sd data' H')). congruence. }
  rewrite !remainder_run in R by (cbn; lia). revert R. apply run_burst; auto. cbn. lia.
Qed.

(* --- two-bit errors --- *)

Fixpoint never (n : nat) (g s top : list bool) : bool :=
  match n with
  | O => true
  | S k => negb (blist_eqb s top) && never k g (step g s false) top
  end.

Lemma blist_eqb_refl a : blist_eqb a a = true.
Proof. induction a; cbn; auto. rewrite IHa, Bool.eqb_reflx. auto. Qed.

Lemma never_ok g top : forall n s, never n g s top = true -> forall k, (k < n)%nat -> run g s (zeros k) <> top.
Proof.
  induction n as [|n IH]; intros s H k Hk; [lia|]. cbn [never] in H. apply andb_true_iff in H. destruct H as [H1 H2].
  destruct k as [|k].
  - intros E. cbn in E. rewrite E, blist_eqb_refl in H1. discriminate.
  - apply (IH _ H2 k). lia.
Qed.

Lemma xor_negb_pair b : xorb b (negb b) = true.
Proof. destruct b; auto. Qed.

Lemma two_flips_run g n s m m' d : last g false = true -> length s = length g -> length g = S n ->
  never (Z.to_nat d) g g (true :: zeros n) = true -> two_flips d m m' -> run g s m <> run g s m'.
Proof.
  intros Hlast Hs Hn Hnev (a & b & mid & c & z & -> & -> & Hd) H.
  assert (Hg1 : (1 <= length g)%nat) by lia.
  rewrite !run_app in H. set (t := run g s a) in *. assert (Ht : length t = length g) by (unfold t; rewrite run_length; auto).
  change (run g t (?b :: ?x)) with (run g (step g t b) x) in H. rewrite !run_app in H.
  change (run g ?u (c :: z)) with (run g (step g u c) z) in H. change (run g ?u (negb c :: z)) with (run g (step g u (negb c)) z) in H.
  apply run_inj in H; auto; try (rewrite step_length, run_length, step_length; auto; fail).
  set (u := run g (step g t b) mid) in *. set (v := run g (step g t (negb b)) mid) in *.
  assert (Lu : length u = length g) by (unfold u; rewrite run_length, step_length; auto).
  assert (Lv : length v = length g) by (unfold v; rewrite run_length, step_length; auto).
  assert (E : xor_onto u v = run g g (zeros (length mid))).
  { unfold u, v. rewrite <- run_xor by (rewrite ?step_length; auto). rewrite <- step_xor by auto. rewrite !xor_self, xor_negb_pair. f_equal.
    rewrite Ht, Hn. unfold zeros. cbn [repeat step]. cbn [xorb]. change [false] with (repeat false 1). rewrite <- repeat_app.
    replace (n + 1)%nat with (length g) by lia. rewrite xor_comm by (rewrite repeat_length; auto). apply xor_zeros. }
  assert (E2 : step g (xor_onto u v) true = zeros (length g)).
  { rewrite <- (xor_negb_pair c). rewrite step_xor by auto. rewrite H. rewrite xor_self, step_length, Lv. auto. }
  assert (E3 : step g (true :: zeros n) true = zeros (length g)).
  { cbn [step xorb]. rewrite Hn. unfold zeros. change [false] with (repeat false 1). rewrite <- repeat_app. f_equal. lia. }
  rewrite <- E3 in E2. apply step_inj in E2; auto; try (cbn [length]; unfold zeros; rewrite ?xor_length, ?repeat_length; lia).
  rewrite E in E2. revert E2. apply never_ok with (n := Z.to_nat d); auto. lia.
Qed.

Lemma never16 : never (Z.to_nat 32766) g16 g16 (true :: zeros 15) = true.
Proof. vm_compute. reflexivity. Qed.
Lemma never32 : never (Z.to_nat 131072) g32 g32 (true :: zeros 31) = true.
Proof. vm_compute. reflexivity. Qed.
Lemma never7 : never (Z.to_nat 126) g7 g7 (true :: zeros 6) = true.
Proof. vm_compute. reflexivity. Qed.

Lemma detect16_two data data' f : (f = zm_calc_data_crc \/ f = crc16) -> Forall byte data -> Forall byte data' ->
  two_flips 32766 (msb_first data) (msb_first data') -> f data <> f data'.
Proof.
  intros Hf H H' E G.
  assert (R : remainder g16 (zeros 16) (msb_first data) = remainder g16 (zeros 16) (msb_first data')).
  { destruct Hf as [-> | ->].
    - rewrite <- (proj1 (crc16_rz data H)), <- (proj1 (crc16_rz data' H')). congruence.
    - rewrite <- (proj1 (crc16_sd data H)), <- (proj1 (crc16_sd data' H')). congruence. }
  rewrite !remainder_run in R by (cbn; lia). revert R. apply (two_flips_run g16 15 _ _ _ 32766); [reflexivity|reflexivity|reflexivity|exact never16|exact E].
Qed.

Lemma detect32_two data data' : Forall byte data -> Forall byte data' ->
  two_flips 131072 (lsb_first data) (lsb_first data') -> zm_calc_data_crc32 data <> zm_calc_data_crc32 data'.
Proof.
  intros H H' E G. assert (R : map negb (remainder g32 (ones 32) (lsb_first data)) = map negb (remainder g32 (ones 32) (lsb_first data'))).
  { rewrite <- (proj1 (crc32_rz data H)), <- (proj1 (crc32_rz data' H')). congruence. }
  assert (R' : remainder g32 (ones 32) (lsb_first data) = remainder g32 (ones 32) (lsb_first data')).
  { apply (f_equal (map negb)) in R. rewrite !map_map in R. erewrite map_ext, map_id in R by (intros; apply negb_involutive).
    erewrite map_ext, map_id in R by (intros; apply negb_involutive). auto. }
  rewrite !remainder_run in R' by (cbn; lia). revert R'. apply (two_flips_run g32 31 _ _ _ 131072); [reflexivity|reflexivity|reflexivity|exact never32|exact E].
Qed.
