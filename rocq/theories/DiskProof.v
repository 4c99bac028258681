(* Proofs about the sector interface. *)
From Verif Require Import Base DiskModel DiskSpec.
Open Scope Z_scope.
Ltac Zify.zify_post_hook ::= Z.div_mod_to_equations.

Lemma u32_id x : 0 <= x < 4294967296 -> u32 x = x.
Proof. intros; unfold u32; apply Z.mod_small; lia. Qed.

Lemma slice_length l off n : 0 <= off -> 0 <= n -> off + n <= Z.of_nat (length l) ->
  length (slice l off n) = Z.to_nat n.
Proof. intros; unfold slice; rewrite firstn_length, skipn_length; lia. Qed.

Lemma nth_firstn {A} (l : list A) d : forall n k, (k < n)%nat -> nth k (firstn n l) d = nth k l d.
Proof.
  induction l as [|x l IH]; intros [|n] [|k] H; cbn; auto; try lia. apply IH; lia.
Qed.
Lemma nth_skipn {A} (l : list A) d : forall n k, nth k (skipn n l) d = nth (n + k) l d.
Proof.
  induction l as [|x l IH]; intros [|n] k; cbn; auto. now destruct k.
Qed.

Lemma nth_slice l off n k : 0 <= off -> 0 <= k < n ->
  nth (Z.to_nat k) (slice l off n) 0 = nth (Z.to_nat (off + k)) l 0.
Proof.
  intros; unfold slice. rewrite nth_firstn by lia. rewrite nth_skipn. f_equal; lia.
Qed.

Lemma splice_length l off d : 0 <= off -> off + Z.of_nat (length d) <= Z.of_nat (length l) ->
  length (splice l off d) = length l.
Proof. intros; unfold splice; rewrite !app_length, firstn_length, skipn_length; lia. Qed.

Lemma nth_splice l off d p : 0 <= off -> off + Z.of_nat (length d) <= Z.of_nat (length l) -> 0 <= p ->
  nth (Z.to_nat p) (splice l off d) 0 =
  if (off <=? p) && (p <? off + Z.of_nat (length d)) then nth (Z.to_nat (p - off)) d 0
  else nth (Z.to_nat p) l 0.
Proof.
  intros H1 H2 H3; unfold splice.
  destruct (Z_lt_dec p off).
  - replace (off <=? p) with false by lia; cbn [andb].
    rewrite app_nth1 by (rewrite firstn_length; lia). apply nth_firstn; lia.
  - replace (off <=? p) with true by lia; cbn [andb].
    assert (E : length (firstn (Z.to_nat off) l) = Z.to_nat off) by (rewrite firstn_length; lia).
    rewrite app_nth2 by lia. rewrite E.
    replace (Z.to_nat p - Z.to_nat off)%nat with (Z.to_nat (p - off)) by lia.
    destruct (p <? off + Z.of_nat (length d)) eqn:Q.
    + rewrite app_nth1 by lia; auto.
    + rewrite app_nth2 by lia. rewrite nth_skipn. f_equal; lia.
Qed.

(* sector arithmetic *)
Lemma same_sector a s c i j : 0 < a -> 0 <= j < a -> 0 <= i ->
  (s * a <=? i * a + j) && (i * a + j <? s * a + c * a) = (s <=? i) && (i <? s + c).
Proof.
  intros.
  destruct (s <=? i) eqn:E1; cbn [andb].
  - replace (s * a <=? i * a + j) with true by (symmetry; apply Z.leb_le; nia). cbn [andb].
    destruct (i <? s + c) eqn:E2.
    + apply Z.ltb_lt; nia.
    + apply Z.ltb_ge; nia.
  - replace (s * a <=? i * a + j) with false by (symmetry; apply Z.leb_gt; nia). reflexivity.
Qed.

(* --- the disk images of the host --- *)

Lemma geo_unit u : 0 <= u < 2 ->
  gsize unix_geo u = sector_size u /\ gcount unix_geo u * sector_size u = disk_size u /\
  0 < sector_size u /\ 0 < disk_size u < 2147483648.
Proof.
  intros H. assert (u = 0 \/ u = 1) as [->| ->] by lia; vm_compute; repeat split; congruence || auto.
Qed.

Lemma img_length d u : unix_ok d -> 0 <= u < 2 -> Z.of_nat (length (img d u)) = disk_size u.
Proof.
  intros [E0 E1] H. assert (u = 0 \/ u = 1) as [->| ->] by lia; [exact E0|exact E1].
Qed.

Lemma valid_iff g u s c : valid g u s c = true <-> 0 < c /\ s + c <= gcount g u.
Proof. unfold valid; rewrite andb_true_iff, Z.ltb_lt, Z.leb_le; tauto. Qed.

(* the range check decides validity *)
Lemma unix_check u s c : 0 <= u < 2 -> 0 <= s -> 0 <= c -> (s + c) * gsize unix_geo u < 4294967296 ->
  0 < c ->
  u32 (s * sector_size u) = s * sector_size u /\ u32 (c * sector_size u) = c * sector_size u /\
  (disk_size u <? u32 (s * sector_size u + c * sector_size u)) = negb (valid unix_geo u s c).
Proof.
  intros Hu Hs Hc Hb Hp. destruct (geo_unit u Hu) as (E1 & E2 & E3 & E4). rewrite E1 in Hb.
  rewrite !u32_id by nia. split; [auto|split; auto].
  destruct (valid unix_geo u s c) eqn:V.
  - apply valid_iff in V. apply Z.ltb_ge. nia.
  - apply Z.ltb_lt. destruct (Z_lt_dec (gcount unix_geo u) (s + c)); [nia|].
    exfalso. assert (valid unix_geo u s c = true) by (apply valid_iff; lia). congruence.
Qed.

Lemma in_area u s c : 0 <= u < 2 -> 0 <= s -> 0 < c -> s + c <= gcount unix_geo u ->
  0 <= s * sector_size u /\ 0 < c * sector_size u /\ s * sector_size u + c * sector_size u <= disk_size u < 2147483648.
Proof.
  intros Hu Hs Hc V. destruct (geo_unit u Hu) as (E1 & E2 & E3 & E4).
  assert ((s + c) * sector_size u <= gcount unix_geo u * sector_size u) by (apply Z.mul_le_mono_nonneg_r; lia).
  split; [nia|]. split; [nia|]. lia.
Qed.

Lemma no_unit u s c : 2 <= u -> 0 <= s -> valid unix_geo u s c = false.
Proof.
  intros. destruct (valid unix_geo u s c) eqn:V; auto. apply valid_iff in V. cbn in V.
  replace (u =? 0) with false in V by lia. replace (u =? 1) with false in V by lia. lia.
Qed.

Lemma no_count g u s : valid g u s 0 = false.
Proof. reflexivity. Qed.

Lemma unix_read_ok d f u s c : unix_ok d -> unix_holds d f -> addressable unix_geo (Rd u s c) ->
  answer unix_geo f (Rd u s c) (unix_read d u s c).
Proof.
  intros Ok Hh (Hu & Hs & Hc & Hb). cbn [answer]. unfold unix_read.
  destruct (2 <=? u) eqn:U; cbn [orb].
  { rewrite no_unit by lia. reflexivity. }
  destruct (c =? 0) eqn:C0.
  { apply Z.eqb_eq in C0; subst c. rewrite no_count. reflexivity. }
  destruct (unix_check u s c) as (O1 & O2 & O3); try lia.
  rewrite O1, O2, O3. destruct (valid unix_geo u s c) eqn:V; cbn [negb]; [|reflexivity].
  apply valid_iff in V. destruct (geo_unit u) as (E1 & E2 & E3 & E4); [lia|].
  destruct (in_area u s c) as (I1 & I2 & I3); try lia.
  unfold seek_fails. replace (2147483648 <=? s * sector_size u) with false by (symmetry; apply Z.leb_gt; lia).
  cbn [fst snd]. pose proof (img_length d u Ok ltac:(lia)) as L. rewrite E1.
  split; [reflexivity|split].
  - rewrite slice_length by lia. lia.
  - intros i j Hi Hj. rewrite nth_slice by nia. rewrite <- (Hh u (s + i) j) by (rewrite ?E1; lia).
    rewrite E1. f_equal. lia.
Qed.

Lemma set_img_ok d u l : unix_ok d -> 0 <= u < 2 -> length l = length (img d u) -> unix_ok (set_img d u l).
Proof.
  intros [E0 E1] H L. unfold unix_ok, set_img, img in *. assert (u = 0 \/ u = 1) as [->| ->] by lia;
  [change (0 =? 0) with true in *|change (1 =? 0) with false in *]; cbv iota in *; cbn [img0 img1]; lia.
Qed.

Lemma img_set d u l v : 0 <= u < 2 -> 0 <= v < 2 -> img (set_img d u l) v = if v =? u then l else img d v.
Proof.
  intros. unfold img, set_img. assert (u = 0 \/ u = 1) as [->| ->] by lia;
  assert (v = 0 \/ v = 1) as [->| ->] by lia; reflexivity.
Qed.

Lemma unix_write_ok d f u s c data : unix_ok d -> unix_holds d f ->
  addressable unix_geo (Wr u s c data) ->
  exists d' rc, unix_write d u data s c = Ok (d', rc) /\ unix_ok d' /\
    unix_holds d' (after unix_geo f (Wr u s c data)) /\
    answer unix_geo f (Wr u s c data) (rc, []).
Proof.
  intros Ok Hh (Hu & Hs & Hc & Hb & Hd & _). cbn [answer after]. unfold unix_write.
  destruct (2 <=? u) eqn:U; cbn [orb].
  { rewrite no_unit by lia. eauto 6. }
  destruct (c =? 0) eqn:C0.
  { apply Z.eqb_eq in C0; subst c. rewrite no_count. eauto 6. }
  destruct (unix_check u s c) as (O1 & O2 & O3); try lia.
  rewrite O1, O2, O3. destruct (valid unix_geo u s c) eqn:V; cbn [negb]; [|eauto 6].
  apply valid_iff in V. destruct (geo_unit u) as (E1 & E2 & E3 & E4); [lia|].
  destruct (in_area u s c) as (I1 & I2 & I3); try lia.
  unfold seek_fails. replace (2147483648 <=? s * sector_size u) with false by (symmetry; apply Z.leb_gt; lia).
  rewrite E1 in Hd. replace (Z.of_nat (length data) <? c * sector_size u) with false by (symmetry; apply Z.ltb_ge; nia).
  pose proof (img_length d u Ok ltac:(lia)) as L.
  rewrite (firstn_all2 (n := Z.to_nat (c * sector_size u)) data) by nia.
  unfold host_write.
  replace (Z.to_nat (s * sector_size u) - length (img d u))%nat with 0%nat by nia.
  cbn [repeat]. rewrite app_nil_r.
  exists (set_img d u (splice (img d u) (s * sector_size u) data)), DISK_OK.
  split; [reflexivity|]. split; [|split; [|reflexivity]].
  - apply set_img_ok; auto; [lia|]. apply splice_length; nia.
  - intros v i j Hv Hi Hj. rewrite img_set by lia.
    destruct (v =? u) eqn:Q; cbn [andb]; [|apply Hh; auto].
    apply Z.eqb_eq in Q; subst v. rewrite E1 in *.
    rewrite nth_splice by nia. rewrite Hd, same_sector by lia.
    destruct ((s <=? i) && (i <? s + c)); [f_equal; lia|].
    rewrite <- (Hh u i j) by (rewrite ?E1; lia). rewrite E1. reflexivity.
Qed.

Lemma unix_run_ok : forall rs d f, unix_ok d -> unix_holds d f -> Forall (addressable unix_geo) rs ->
  exists d' os, run unix_step d rs = Ok (d', os) /\ answers unix_geo f rs os /\
    unix_ok d' /\ unix_holds d' (fold_left (after unix_geo) rs f).
Proof.
  induction rs as [|r rs IH]; intros d f Hd Hf Ha; cbn [run].
  { exists d, []. cbn. auto. }
  inversion Ha as [|? ? A1 A2]; subst.
  destruct r as [u s c|u s c data]; cbn [unix_step bind].
  - destruct (IH d f Hd Hf A2) as (d' & os & R & An & O' & H'). rewrite R. cbn [bind].
    exists d', (unix_read d u s c :: os). split; [reflexivity|split; [|split; auto]].
    split; [now apply unix_read_ok|exact An].
  - destruct (unix_write_ok d f u s c data Hd Hf A1) as (d1 & rc & E & O1 & H1 & An1). rewrite E. cbn [bind].
    destruct (IH d1 _ O1 H1 A2) as (d' & os & R & An & O' & H'). rewrite R. cbn [bind].
    exists d', ((rc, []) :: os). split; [reflexivity|split; [|split; auto]]. split; auto.
Qed.

Lemma unix_ioctl_ok u : 0 <= u < 2 ->
  unix_ioctl u 1 = (DISK_OK, Some (gcount unix_geo u)) /\ unix_ioctl u 2 = (DISK_OK, Some (gsize unix_geo u)).
Proof.
  intros H. assert (u = 0 \/ u = 1) as [->| ->] by lia; vm_compute; auto.
Qed.

(* --- flash --- *)

Lemma chip_cases mf dev : exists k, chip_size mf dev = k * 1048576 /\ (k = 2 \/ k = 4 \/ k = 8 \/ k = 16).
Proof.
  unfold chip_size.
  repeat match goal with |- context [if ?b then _ else _] => destruct b end;
  first [exists 2; split; [reflexivity|lia] | exists 4; split; [reflexivity|lia]
        |exists 8; split; [reflexivity|lia]|exists 16; split; [reflexivity|lia]].
Qed.

Lemma align64k x : 0 <= x < 4294967296 -> Z.land x 4294901760 = x / 65536 * 65536.
Proof.
  intros H. replace 4294901760 with (Z.shiftl (Z.ones 16) 16) by reflexivity.
  transitivity (Z.shiftl (Z.shiftr x 16) 16).
  - apply Z.bits_inj'; intros n Hn. rewrite Z.land_spec, Z.shiftl_spec by auto.
    destruct (Z_lt_dec n 16).
    + rewrite (Z.testbit_neg_r _ (n - 16)), Z.shiftl_spec_low by lia. now rewrite andb_false_r.
    + rewrite Z.shiftl_spec by lia. rewrite Z.shiftr_spec by lia. replace (n - 16 + 16) with n by lia.
      destruct (Z_lt_dec n 32).
      * rewrite Z.ones_spec_low by lia. now rewrite andb_true_r.
      * rewrite Z.ones_spec_high by lia. rewrite andb_false_r.
        symmetry. rewrite <- (Z.mod_small x (2 ^ 32)) by (change (2 ^ 32) with 4294967296; lia).
        apply Z.mod_pow2_bits_high; lia.
  - rewrite Z.shiftl_mul_pow2, Z.shiftr_div_pow2 by lia. reflexivity.
Qed.

(* what the probe establishes *)
Lemma flash_layout f : flash_ok f -> exists mf dev bin,
  0 < bin <= base f /\ base f < bin + 65536 /\ base f mod 65536 = 0 /\
  Z.of_nat (length (mem f)) = chip_size mf dev /\
  num_bytes f = chip_size mf dev - base f /\ flash_block_count f * 4096 = num_bytes f /\
  base f + num_bytes f = Z.of_nat (length (mem f)) /\ 0 < base f <= 16777216 /\ 0 <= num_bytes f <= 16777216 /\
  f = flash_probe (mem f) mf dev bin.
Proof.
  intros (mf & dev & bin & Hb & L & E).
  exists mf, dev, bin. destruct (chip_cases mf dev) as (k & K & Kc).
  assert (Eb : base f = (bin + 65535) / 65536 * 65536).
  { rewrite E. cbn [base flash_probe]. rewrite u32_id by lia. apply align64k; lia. }
  assert (En : num_bytes f = chip_size mf dev - base f).
  { rewrite Eb. rewrite E at 1. cbn [num_bytes flash_probe]. rewrite u32_id by lia.
    rewrite align64k by lia. apply Z.mod_small. lia. }
  assert (Ec : flash_block_count f = num_bytes f / 4096).
  { unfold flash_block_count. rewrite u32_id; [reflexivity|]. unfold flash_bytes_per_block. rewrite En, Eb. lia. }
  rewrite Ec, En. split; [lia|]. split; [lia|]. split; [rewrite Eb; apply Z.mod_mul; lia|].
  split; [auto|]. split; [auto|]. split; [rewrite Eb; lia|]. split; [lia|]. split; [lia|]. split; [lia|auto].
Qed.

Definition fgeo (f : flash) := flash_geo (flash_block_count f).

(* facts kept along a history *)
Record keeps (f : flash) : Prop := {
  k_len : base f + num_bytes f = Z.of_nat (length (mem f));
  k_blocks : flash_block_count f * 4096 = num_bytes f;
  k_base : 0 < base f <= 16777216;
  k_num : 0 <= num_bytes f <= 16777216 }.

Lemma layout_keeps f : flash_ok f -> keeps f.
Proof. intros H. destruct (flash_layout f H) as (mf & dev & bin & H'). split; tauto || lia. Qed.

Lemma flash_check f s c : keeps f -> 0 <= s -> 0 <= c -> (s + c) * 4096 < 4294967296 -> 0 < c ->
  u32 (s * 4096) = s * 4096 /\ u32 (c * 4096) = c * 4096 /\
  (num_bytes f <? u32 (s * 4096 + c * 4096)) = negb (valid (fgeo f) 0 s c).
Proof.
  intros K Hs Hc Hb Hp. destruct K. rewrite !u32_id by lia. split; [auto|split; auto].
  destruct (valid (fgeo f) 0 s c) eqn:V.
  - apply valid_iff in V. cbn in V. apply Z.ltb_ge. lia.
  - apply Z.ltb_lt. destruct (Z_lt_dec (flash_block_count f) (s + c)); [lia|].
    exfalso. assert (valid (fgeo f) 0 s c = true) by (apply valid_iff; cbn; lia). congruence.
Qed.

Lemma flash_read_ok f h s c : keeps f -> flash_holds f h -> addressable (fgeo f) (Rd 0 s c) ->
  exists o, flash_read f s c = Ok o /\ answer (fgeo f) h (Rd 0 s c) o.
Proof.
  intros K Hh (_ & Hs & Hc & Hb). cbn [answer]. cbn in Hb. unfold flash_read, flash_bytes_per_block.
  destruct (c =? 0) eqn:C0.
  { apply Z.eqb_eq in C0; subst c. rewrite no_count. eauto. }
  destruct (flash_check f s c K) as (O1 & O2 & O3); try lia.
  rewrite O1, O2, O3. destruct (valid (fgeo f) 0 s c) eqn:V; cbn [negb]; [|eauto].
  apply valid_iff in V. cbn in V. destruct K.
  replace (Z.of_nat (length (mem f)) <? base f + s * 4096 + c * 4096) with false by lia.
  eexists; split; [reflexivity|]. cbn [fst snd gsize fgeo flash_geo].
  split; [reflexivity|split].
  - rewrite slice_length by lia. lia.
  - intros i j Hi Hj. rewrite nth_slice by lia. rewrite <- (Hh (s + i) j) by lia. f_equal. lia.
Qed.

Lemma map_land_ones : forall (d : list Z), Forall (fun b => 0 <= b < 256) d ->
  map (fun xy => Z.land (fst xy) (snd xy)) (combine (repeat 255 (length d)) d) = d.
Proof.
  induction 1 as [|x d Hx Hd IH]; cbn; [auto|]. f_equal; [|exact IH].
  change 255 with (Z.ones 8). rewrite Z.land_comm, Z.land_ones by lia. apply Z.mod_small. exact Hx.
Qed.

Lemma slice_splice l off d : 0 <= off -> off + Z.of_nat (length d) <= Z.of_nat (length l) ->
  slice (splice l off d) off (Z.of_nat (length d)) = d.
Proof.
  intros. unfold slice, splice. rewrite skipn_app, skipn_all2 by (rewrite firstn_length; lia).
  rewrite firstn_length. replace (Z.to_nat off - Nat.min (Z.to_nat off) (length l))%nat with 0%nat by lia.
  cbn [skipn app]. rewrite Nat2Z.id, firstn_app, firstn_all, Nat.sub_diag. apply app_nil_r.
Qed.

Lemma splice_splice l off d e : 0 <= off -> off + Z.of_nat (length d) <= Z.of_nat (length l) ->
  length d = length e -> splice (splice l off d) off e = splice l off e.
Proof.
  intros H1 H2 H3. apply nth_ext with (d := 0) (d' := 0).
  - rewrite !splice_length; rewrite ?splice_length; lia.
  - intros n Hn. rewrite <- (Nat2Z.id n). rewrite !nth_splice; rewrite ?splice_length; try lia.
    rewrite H3. destruct ((off <=? Z.of_nat n) && (Z.of_nat n <? off + Z.of_nat (length e))); auto.
Qed.

Lemma flash_write_ok f h s c data : keeps f -> flash_holds f h ->
  addressable (fgeo f) (Wr 0 s c data) ->
  exists f' rc, flash_write f data s c = Ok (f', rc) /\ keeps f' /\
    base f' = base f /\ num_bytes f' = num_bytes f /\ length (mem f') = length (mem f) /\
    flash_holds f' (after (fgeo f) h (Wr 0 s c data)) /\
    (forall p, 0 <= p < base f -> nth (Z.to_nat p) (mem f') 0 = nth (Z.to_nat p) (mem f) 0) /\
    answer (fgeo f) h (Wr 0 s c data) (rc, []).
Proof.
  intros K Hh (_ & Hs & Hc & Hb & Hd & Hby). cbn [answer after]. cbn in Hb, Hd.
  unfold flash_write, flash_bytes_per_block.
  destruct (Z.eq_dec c 0) as [->|C0].
  { replace (u32 (0 * 4096) =? 0) with true by reflexivity. cbn [orb].
    rewrite no_count. exists f, DISK_PARERR. auto 8. }
  destruct (flash_check f s c K) as (O1 & O2 & O3); try lia.
  rewrite O1, O2, O3. replace (c * 4096 =? 0) with false by lia. cbn [orb].
  destruct (valid (fgeo f) 0 s c) eqn:V; cbn [negb].
  2:{ exists f, DISK_PARERR. auto 8. }
  apply valid_iff in V. cbn in V. pose proof K as K0. destruct K.
  rewrite u32_id by lia.
  unfold flash_range_erase.
  replace (Z.of_nat (length (mem f)) <? base f + s * 4096 + c * 4096) with false by lia. cbn [bind].
  set (ones := repeat 255 (Z.to_nat (c * 4096))).
  assert (Lo : length ones = length data) by (unfold ones; rewrite repeat_length; lia).
  assert (Ls : length (splice (mem f) (base f + s * 4096) ones) = length (mem f)) by (apply splice_length; lia).
  unfold flash_range_program. rewrite Ls.
  replace (Z.of_nat (length (mem f)) <? base f + s * 4096 + c * 4096) with false by lia.
  replace (Z.of_nat (length data) <? c * 4096) with false by lia. cbn [orb bind].
  replace (c * 4096) with (Z.of_nat (length ones)) by lia.
  rewrite slice_splice by lia.
  assert (M : map (fun xy => Z.land (fst xy) (snd xy)) (combine ones data) = data).
  { replace ones with (repeat 255 (length data)) by (unfold ones; f_equal; lia). now apply map_land_ones. }
  rewrite M. rewrite splice_splice by lia.
  set (m := splice (mem f) (base f + s * 4096) data).
  assert (Lm : length m = length (mem f)) by (apply splice_length; lia).
  exists (mkFlash m (base f) (num_bytes f)), DISK_OK. split; [reflexivity|].
  split; [constructor; cbn [mem base num_bytes]; rewrite ?Lm; auto|].
  cbn [base num_bytes mem]. do 2 (split; [reflexivity|]). split; [exact Lm|].
  split; [|split; [|reflexivity]].
  - intros i j Hi Hj. cbn [mem base].
    change (flash_block_count {| mem := m; base := base f; num_bytes := num_bytes f |}) with (flash_block_count f) in Hi.
    unfold m. rewrite nth_splice by lia. cbn [gsize fgeo flash_geo]. rewrite Z.eqb_refl. cbn [andb].
    replace ((base f + s * 4096 <=? base f + i * 4096 + j) && (base f + i * 4096 + j <? base f + s * 4096 + Z.of_nat (length data)))
      with ((s <=? i) && (i <? s + c)) by lia.
    destruct ((s <=? i) && (i <? s + c)); [f_equal; lia|apply Hh; auto].
  - intros p Hp. unfold m. rewrite nth_splice by lia.
    replace (base f + s * 4096 <=? p) with false by lia. reflexivity.
Qed.

Lemma flash_run_ok : forall rs f h, keeps f -> flash_holds f h -> Forall drive0 rs ->
  Forall (addressable (fgeo f)) rs ->
  exists f' os, run flash_step f rs = Ok (f', os) /\ answers (fgeo f) h rs os /\
    base f' = base f /\ num_bytes f' = num_bytes f /\ length (mem f') = length (mem f) /\
    flash_holds f' (fold_left (after (fgeo f)) rs h) /\
    (forall p, 0 <= p < base f -> nth (Z.to_nat p) (mem f') 0 = nth (Z.to_nat p) (mem f) 0).
Proof.
  induction rs as [|r rs IH]; intros f h Hk Hf Hu Ha; cbn [run].
  { exists f, []. cbn. auto 8. }
  inversion Ha as [|? ? A1 A2]; subst. inversion Hu as [|? ? U1 U2]; subst.
  destruct r as [u s c|u s c data]; cbn [flash_step]; cbn [drive0] in U1; subst u.
  - destruct (flash_read_ok f h s c Hk Hf A1) as (o & E & An1). rewrite E. cbn [bind].
    destruct (IH f h Hk Hf U2 A2) as (f' & os & R & An & B). rewrite R. cbn [bind].
    exists f', (o :: os). split; [reflexivity|split; [|exact B]]. split; auto.
  - destruct (flash_write_ok f h s c data Hk Hf A1) as (f1 & rc & E & K1 & B1 & N1 & L1 & H1 & P1 & An1).
    rewrite E. cbn [bind].
    assert (G : fgeo f1 = fgeo f) by (unfold fgeo, flash_block_count; now rewrite N1).
    rewrite <- G in A2.
    destruct (IH f1 _ K1 H1 U2 A2) as (f' & os & R & An & B' & N' & L' & H' & P').
    rewrite R. cbn [bind]. rewrite G in *.
    exists f', ((rc, []) :: os). split; [reflexivity|]. split; [split; auto|].
    split; [lia|]. split; [lia|]. split; [lia|]. split; [exact H'|].
    intros p Hp. rewrite P' by lia. apply P1; auto.
Qed.

Lemma flash_history f h rs : flash_ok f -> flash_holds f h -> Forall drive0 rs ->
  Forall (addressable (flash_geo (flash_block_count f))) rs ->
  exists f' os, run flash_step f rs = Ok (f', os) /\
    answers (flash_geo (flash_block_count f)) h rs os /\ flash_ok f' /\
    base f' = base f /\ flash_block_count f' = flash_block_count f /\
    flash_holds f' (fold_left (after (flash_geo (flash_block_count f))) rs h) /\
    firstn (Z.to_nat (base f)) (mem f') = firstn (Z.to_nat (base f)) (mem f).
Proof.
  intros Hf Hh Hu Ha.
  destruct (flash_run_ok rs f h (layout_keeps f Hf) Hh Hu Ha) as (f' & os & R & An & B & N & L & H & P).
  exists f', os. split; [exact R|]. split; [exact An|]. split; [|split; [exact B|]].
  - destruct Hf as (mf & dev & bin & Hb & Hl & E). exists mf, dev, bin. split; [auto|]. split; [lia|].
    destruct f as [m b n], f' as [m' b' n']; cbn in *. subst b' n'.
    unfold flash_probe in *. inversion E; subst. reflexivity.
  - split; [unfold flash_block_count; now rewrite N|]. split; [exact H|].
    destruct (layout_keeps f Hf) as [K1 K2 K3 K4].
    apply nth_ext with (d := 0) (d' := 0); rewrite !firstn_length; [lia|].
    intros n Hn. rewrite !nth_firstn by lia. rewrite <- (Nat2Z.id n). apply P. lia.
Qed.

Lemma flash_ioctl_ok f :
  flash_ioctl f 1 = (if gcount (flash_geo (flash_block_count f)) 0 =? 0 then DISK_ERROR else DISK_OK, Some (gcount (flash_geo (flash_block_count f)) 0)) /\
  flash_ioctl f 2 = (DISK_OK, Some (gsize (flash_geo (flash_block_count f)) 0)).
Proof. split; reflexivity. Qed.

Lemma flash_place f : flash_ok f -> exists mf dev bin, f = flash_probe (mem f) mf dev bin /\
  bin <= base f < bin + 65536 /\ base f mod 65536 = 0 /\
  base f + flash_block_count f * 4096 = Z.of_nat (length (mem f)).
Proof.
  intros H. destruct (flash_layout f H) as (mf & dev & bin & H1 & H2 & H3 & H4 & H5 & H6 & H7 & H8 & H9 & H10).
  exists mf, dev, bin. split; [exact H10|]. split; [lia|]. split; [exact H3|lia].
Qed.

(* --- refutations --- *)

(* Sector 2^20 of the 2-Mbyte disk is taken for sector 0. *)
Lemma unix_alias : forall d data, Z.of_nat (length data) = 4096 -> unix_ok d ->
  unix_read d 0 1048576 1 = unix_read d 0 0 1 /\ fst (unix_read d 0 1048576 1) = DISK_OK /\
  unix_write d 0 data 1048576 1 = unix_write d 0 data 0 1.
Proof. intros. split; [reflexivity|]. split; reflexivity. Qed.

Lemma big_length : forall n (x : Z), 0 <= n -> Z.of_nat (length (repeat x (Z.to_nat n))) = n.
Proof. intros. rewrite repeat_length, Z2Nat.id; auto. Qed.

Lemma unix_alias_write d data : unix_ok d -> Z.of_nat (length data) = 4096 ->
  exists d', unix_write d 0 data 1048576 1 = Ok (d', DISK_OK) /\ slice (img d' 0) 0 4096 = data.
Proof.
  intros Hd L. pose proof (img_length d 0 Hd ltac:(lia)) as Li. change (disk_size 0) with 2097152 in Li.
  unfold unix_write. change ((2 <=? 0) || (1 =? 0)) with false. cbv iota.
  change (u32 (1048576 * sector_size 0)) with 0. change (u32 (1 * sector_size 0)) with 4096.
  change (disk_size 0 <? u32 (0 + 4096)) with false. change (seek_fails 0) with false. cbv iota.
  rewrite L. change (4096 <? 4096) with false. cbv iota.
  rewrite firstn_all2 by lia. eexists. split; [reflexivity|].
  rewrite img_set by lia. change (0 =? 0) with true. cbv iota. unfold host_write.
  rewrite <- L. apply slice_splice; rewrite ?app_length; lia.
Qed.

Lemma unix_alias_lost : exists d data d', unix_ok d /\ Z.of_nat (length data) = 4096 /\
  gcount unix_geo 0 <= 1048576 /\
  unix_write d 0 data 1048576 1 = Ok (d', DISK_OK) /\
  slice (img d' 0) 0 4096 <> slice (img d 0) 0 4096.
Proof.
  assert (exists d, unix_ok d /\ nth (Z.to_nat 0) (img d 0) 0 = 0) as (d & Hd & H0).
  { exists (mkDisks (repeat 0 (Z.to_nat 2097152)) (repeat 0 (Z.to_nat 41943040))). split.
    - unfold unix_ok; cbn [img0 img1]; rewrite !big_length by lia; auto.
    - unfold img. change (0 =? 0) with true. cbv iota. cbn [img0]. apply nth_repeat. }
  assert (exists data : list Z, Z.of_nat (length data) = 4096 /\ nth (Z.to_nat 0) data 0 = 7) as (data & L & H7).
  { exists (7 :: repeat 7 (Z.to_nat 4095)). split.
    - cbn [length]. rewrite Nat2Z.inj_succ, big_length by lia. reflexivity.
    - reflexivity. }
  destruct (unix_alias_write d data Hd L) as (d' & E & Hs).
  exists d, data, d'. split; [exact Hd|]. split; [exact L|]. split; [vm_compute; congruence|].
  split; [exact E|]. rewrite Hs. intros C. rewrite C, nth_slice in H7 by lia.
  change (0 + 0) with 0 in H7. rewrite H0 in H7. discriminate.
Qed.

(* Two blocks starting one block before 2^20 are taken for the last block of
   the program area and block 0: the check sees one block. *)
Lemma flash_overwrites_program : forall f, flash_ok f -> 0 < flash_block_count f ->
  forall data, Z.of_nat (length data) = 8192 -> Forall (fun b => 0 <= b < 256) data ->
  exists f', flash_write f data 1048575 2 = Ok (f', DISK_OK) /\ slice (mem f') (base f - 4096) 8192 = data.
Proof.
  intros f Hf Hc data Hd Hb. destruct (layout_keeps f Hf) as [K1 K2 K3 K4].
  destruct (flash_layout f Hf) as (mf & dev & bin & _ & _ & H3 & _).
  unfold flash_write, flash_bytes_per_block.
  change (u32 (1048575 * 4096)) with 4294963200. change (u32 (2 * 4096)) with 8192.
  change (8192 =? 0) with false. change (u32 (4294963200 + 8192)) with 4096. cbn [orb].
  replace (num_bytes f <? 4096) with false by lia.
  replace (u32 (base f + 4294963200)) with (base f - 4096) by (unfold u32; lia).
  unfold flash_range_erase. replace (Z.of_nat (length (mem f)) <? base f - 4096 + 8192) with false by lia.
  cbn [bind].
  set (ones := repeat 255 (Z.to_nat 8192)).
  assert (Lo : Z.of_nat (length ones) = 8192) by (apply big_length; lia).
  assert (Ls : length (splice (mem f) (base f - 4096) ones) = length (mem f)) by (apply splice_length; lia).
  unfold flash_range_program. rewrite Ls.
  replace (Z.of_nat (length (mem f)) <? base f - 4096 + 8192) with false by lia.
  rewrite Hd. change (8192 <? 8192) with false. cbn [orb bind].
  assert (Es : slice (splice (mem f) (base f - 4096) ones) (base f - 4096) 8192 = ones).
  { replace 8192 with (Z.of_nat (length ones)) by exact Lo. apply slice_splice; lia. }
  rewrite Es.
  assert (M : map (fun xy => Z.land (fst xy) (snd xy)) (combine ones data) = data).
  { replace ones with (repeat 255 (length data)) by (unfold ones; f_equal; lia). now apply map_land_ones. }
  rewrite M. rewrite splice_splice by lia.
  eexists. split; [reflexivity|]. cbn [mem]. rewrite <- Hd. apply slice_splice; lia.
Qed.

Lemma flash_harm : exists f data f', flash_ok f /\ Z.of_nat (length data) = 8192 /\
  flash_write f data 1048575 2 = Ok (f', DISK_OK) /\
  firstn (Z.to_nat (base f)) (mem f') <> firstn (Z.to_nat (base f)) (mem f).
Proof.
  assert (exists f, flash_ok f /\ base f = 65536 /\ num_bytes f = 2031616 /\ nth (Z.to_nat 65535) (mem f) 0 = 1)
    as (f & Hf & Bf & Nf & N2).
  { assert (exists m, Z.of_nat (length m) = 2097152 /\ nth (Z.to_nat 65535) m 0 = 1) as (m & Lm & Nm).
    { exists (repeat 1 (Z.to_nat 2097152)). split; [apply big_length; lia|].
      rewrite nth_indep with (d' := 1); [apply nth_repeat|].
      apply Nat2Z.inj_lt. rewrite big_length, Z2Nat.id by lia. lia. }
    exists (flash_probe m 239 16405 65536). split; [|auto].
    exists 239, 16405, 65536. split; [vm_compute; split; congruence|]. split; [exact Lm|reflexivity]. }
  assert (exists data : list Z, Z.of_nat (length data) = 8192 /\ Forall (fun b => 0 <= b < 256) data /\
            nth (Z.to_nat 4095) data 0 = 0) as (data & Ld & Hb & Nd).
  { exists (repeat 0 (Z.to_nat 8192)). split; [apply big_length; lia|]. split; [|apply nth_repeat].
    apply Forall_forall. intros x Hx. apply repeat_spec in Hx. lia. }
  assert (Bc : 0 < flash_block_count f) by (unfold flash_block_count; rewrite Nf; vm_compute; reflexivity).
  destruct (flash_overwrites_program f Hf Bc data Ld Hb) as (f' & E & Hs).
  exists f, data, f'. split; [exact Hf|]. split; [exact Ld|]. split; [exact E|].
  intros C. rewrite Bf in *.
  assert (N1 : nth (Z.to_nat 65535) (mem f') 0 = 0).
  { replace (Z.to_nat 65535) with (Z.to_nat (65536 - 4096 + 4095)) by (f_equal; lia).
    rewrite <- (nth_slice (mem f') (65536 - 4096) 8192 4095) by lia. rewrite Hs. exact Nd. }
  assert (N3 : nth (Z.to_nat 65535) (firstn (Z.to_nat 65536) (mem f')) 0 = nth (Z.to_nat 65535) (firstn (Z.to_nat 65536) (mem f)) 0)
    by now rewrite C.
  rewrite !nth_firstn in N3 by (apply Z2Nat.inj_lt; lia). lia.
Qed.

(* --- examples --- *)
Lemma zero_disks : exists d, unix_ok d /\ unix_holds d (fun _ _ _ => 0).
Proof.
  exists (mkDisks (repeat 0 (Z.to_nat 2097152)) (repeat 0 (Z.to_nat 41943040))). split.
  - unfold unix_ok; cbn [img0 img1]; rewrite !big_length by lia; auto.
  - intros u i j Hu Hi Hj. unfold img. destruct (u =? 0); cbn [img0 img1]; apply nth_repeat.
Qed.

Definition demo : list req :=
  [Wr 0 3 1 (repeat 7 (Z.to_nat (1 * 4096))); Wr 0 511 2 (repeat 9 (Z.to_nat (2 * 4096))); Rd 0 3 1; Wr 1 81919 1 (repeat 5 (Z.to_nat (1 * 512))); Rd 2 0 1].

Lemma demo_data n x : 0 <= n -> 0 <= x < 256 ->
  Z.of_nat (length (repeat x (Z.to_nat n))) = n /\ Forall (fun b => 0 <= b < 256) (repeat x (Z.to_nat n)).
Proof.
  intros. split; [now apply big_length|]. apply Forall_forall. intros y Hy. apply repeat_spec in Hy. lia.
Qed.

Lemma addr_rd g u s c a : gsize g u = a -> 0 <= u < 256 -> 0 <= s -> 0 <= c -> (s + c) * a < 4294967296 ->
  addressable g (Rd u s c).
Proof. intros <-. cbn [addressable]. tauto. Qed.
Lemma addr_wr g u s c a x : gsize g u = a -> 0 <= u < 256 -> 0 <= s -> 0 <= c -> 0 <= c * a -> (s + c) * a < 4294967296 ->
  0 <= x < 256 -> addressable g (Wr u s c (repeat x (Z.to_nat (c * a)))).
Proof. intros <- ? ? ? ? ? ?. cbn [addressable]. destruct (demo_data (c * gsize g u) x); tauto. Qed.

Lemma demo_addressable : Forall (addressable unix_geo) demo.
Proof.
  unfold demo.
  apply Forall_cons; [apply (addr_wr unix_geo 0 3 1 4096 7); reflexivity || lia|].
  apply Forall_cons; [apply (addr_wr unix_geo 0 511 2 4096 9); reflexivity || lia|].
  apply Forall_cons; [apply (addr_rd unix_geo 0 3 1 4096); reflexivity || lia|].
  apply Forall_cons; [apply (addr_wr unix_geo 1 81919 1 512 5); reflexivity || lia|].
  apply Forall_cons; [apply (addr_rd unix_geo 2 0 1 512); reflexivity || lia|].
  apply Forall_nil.
Qed.

Lemma demo_flash : exists f, flash_ok f /\ flash_holds f (fun _ _ _ => 0) /\ flash_block_count f = 496.
Proof.
  assert (exists m, Z.of_nat (length m) = 2097152 /\ forall n, nth n m 0 = 0) as (m & Lm & Nm).
  { exists (repeat 0 (Z.to_nat 2097152)). split; [apply big_length; lia|]. intros; apply nth_repeat. }
  exists (flash_probe m 239 16405 65535). split.
  - exists 239, 16405, 65535. split; [vm_compute; split; congruence|]. split; [exact Lm|reflexivity].
  - split; [|reflexivity]. intros i j Hi Hj. apply Nm.
Qed.

Definition demo0 : list req := [Wr 0 3 1 (repeat 7 (Z.to_nat (1 * 4096))); Rd 0 3 1; Wr 0 496 1 (repeat 9 (Z.to_nat (1 * 4096)))].
Lemma demo0_ok : Forall drive0 demo0 /\ Forall (addressable (flash_geo 496)) demo0.
Proof.
  unfold demo0. split.
  - repeat (apply Forall_cons; [reflexivity|]). apply Forall_nil.
  - apply Forall_cons; [apply (addr_wr (flash_geo 496) 0 3 1 4096 7); reflexivity || lia|].
    apply Forall_cons; [apply (addr_rd (flash_geo 496) 0 3 1 4096); reflexivity || lia|].
    apply Forall_cons; [apply (addr_wr (flash_geo 496) 0 496 1 4096 9); reflexivity || lia|].
    apply Forall_nil.
Qed.
