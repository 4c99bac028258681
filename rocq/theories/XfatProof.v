(* Bits and entries of an exFAT volume through the window. *)
From Coq Require Import ZArith Lia Bool List.
From Verif Require Import Base FatModel FatSpec FatProof FatProof2 XfatModel XfatSpec.
Import ListNotations.
Open Scope Z_scope.

Lemma mask_bit b j : 0 <= j -> (Z.land b (Z.shiftl 1 j) =? 0) = negb (Z.testbit b j).
Proof.
  intros J. destruct (Z.testbit b j) eqn:T; cbn [negb].
  - apply Z.eqb_neq. intros E. assert (H : Z.testbit (Z.land b (Z.shiftl 1 j)) j = true).
    { rewrite Z.land_spec, T, Z.shiftl_spec by lia. replace (j - j) with 0 by lia. reflexivity. }
    rewrite E, Z.bits_0 in H. discriminate.
  - apply Z.eqb_eq. apply Z.bits_inj'. intros n N. rewrite Z.land_spec, Z.bits_0, Z.shiftl_spec by lia.
    destruct (Z.eq_dec n j) as [->|D]; [now rewrite T|].
    replace (Z.testbit 1 (n - j)) with false; [apply andb_false_r|].
    destruct (Z.lt_trichotomy n j) as [L|[L|L]]; [rewrite Z.testbit_neg_r by lia; reflexivity|contradiction|].
    change 1 with (2 ^ 0). rewrite Z.pow2_bits_false by lia. auto.
Qed.

Lemma flip_bit b j n : vbyte b -> 0 <= j < 8 -> 0 <= n < 8 ->
  Z.testbit (w8 (Z.lxor b (Z.shiftl 1 j))) n = if n =? j then negb (Z.testbit b n) else Z.testbit b n.
Proof.
  intros B J N. unfold w8. change 256 with (2 ^ 8). rewrite Z.mod_pow2_bits_low by lia.
  rewrite Z.lxor_spec, Z.shiftl_spec by lia. destruct (Z.eqb_spec n j) as [->|D].
  - replace (j - j) with 0 by lia. destruct (Z.testbit b j); auto.
  - replace (Z.testbit 1 (n - j)) with false; [destruct (Z.testbit b n); auto|].
    destruct (Z.lt_trichotomy n j) as [L|[L|L]]; [rewrite Z.testbit_neg_r by lia; reflexivity|contradiction|].
    change 1 with (2 ^ 0). rewrite Z.pow2_bits_false by lia. auto.
Qed.

Lemma next_mask j : 0 <= j < 8 -> w8 (Z.shiftl (Z.shiftl 1 j) 1) = if j =? 7 then 0 else Z.shiftl 1 (j + 1).
Proof.
  intros H. assert (K : In j [0;1;2;3;4;5;6;7]) by (cbn; lia).
  repeat (destruct K as [<-|K]; [reflexivity|]). destruct K.
Qed.
Lemma mask_nonzero j : 0 <= j -> (Z.shiftl 1 j =? 0) = false.
Proof. intros J. rewrite Z.shiftl_1_l. apply Z.eqb_neq. pose proof (Z.pow_pos_nonneg 2 j). lia. Qed.

(* One step: the volume after it, its bits, its entries. *)
Record xstep (g : geo) (bb : Z) (v v' : vol) (B : Z -> bool) (E : Z -> Z) : Prop := {
  xs_ok : xvol_ok g v';
  xs_bits : forall k, 0 <= k < bits g -> bit g bb v' k = B k;
  xs_ents : forall c, 0 <= c < n_fatent g -> xent g v' c = E c;
  xs_other : same_other g bb v v';
  xs_info : same_info v v' }.

Lemma xs_trans g bb a b c B E B' E' : xstep g bb a b B E -> xstep g bb b c B' E' -> xstep g bb a c B' E'.
Proof.
  intros [A1 A2 A3 A4 A5] [C1 C2 C3 C4 C5]. constructor; auto.
  - intros s o H K. rewrite C4, A4; auto.
  - eapply info_trans; eauto.
Qed.
Lemma xs_ext g bb a b B E B' E' : xstep g bb a b B E -> (forall k, 0 <= k < bits g -> B k = B' k) ->
  (forall c, 0 <= c < n_fatent g -> E c = E' c) -> xstep g bb a b B' E'.
Proof. intros [A1 A2 A3 A4 A5] H K. constructor; auto; intros; [rewrite <- H|rewrite <- K]; auto. Qed.

Lemma dword_split x : 0 <= x < 4294967296 ->
  x mod 256 + 256 * ((x / 256) mod 256) + 65536 * ((x / 65536) mod 256) + 16777216 * ((x / 16777216) mod 256) = x.
Proof.
  intros X. rewrite (Z.mod_small (x / 16777216)) by (split; [apply Z.div_pos; lia|apply Z.div_lt_upper_bound; lia]).
  replace 65536 with (256 * 256) by lia. replace 16777216 with (256 * 256 * 256) by lia. rewrite <- !Z.div_div by lia.
  pose proof (Z.div_mod x 256 ltac:(lia)). pose proof (Z.div_mod (x / 256) 256 ltac:(lia)). pose proof (Z.div_mod (x / 256 / 256) 256 ltac:(lia)).
  set (a := x / 256 / 256 / 256) in *. set (b := x / 256 / 256) in *. set (c := x / 256) in *. lia.
Qed.
Lemma four c d j k : 0 <= k < 4 -> 0 <= j < 4 -> 4 * d + k = 4 * c + j -> d = c.
Proof. lia. Qed.

Section S.
Variables (g : geo) (bb : Z).
Hypothesis G : xgeo_ok g bb.

Lemma gsm : geo_ok (small g). Proof using G. apply G. Qed.
Lemma ssz : 512 <= ss g <= 4096. Proof using G. exact (ss_pos (small g) gsm). Qed.
Lemma ss8 : exists k, ss g = 512 * k /\ (4294967296 mod ss g = 0) /\ 4 * (ss g / 4) = ss g.
Proof using G.
  destruct (ok_ss _ gsm) as [E|[E|[E|E]]]; change (ss (small g)) with (ss g) in E; rewrite E;
    [exists 1|exists 2|exists 4|exists 8]; repeat split; reflexivity.
Qed.
Lemma clusts_pos : 0 < clusts g < EOC. Proof using G. unfold clusts. pose proof (x_ent _ _ G). lia. Qed.
Lemma nbm_pos : 0 < nbm g.
Proof using G. unfold nbm. pose proof clusts_pos. pose proof ssz. assert (0 <= (clusts g - 1) / 8 / ss g) by (apply Z.div_pos; [apply Z.div_pos; lia|lia]). lia. Qed.
Lemma clusts_bits : clusts g <= bits g.
Proof using G.
  unfold bits, nbm. pose proof clusts_pos. pose proof ssz.
  pose proof (Z.mul_succ_div_gt ((clusts g - 1) / 8) (ss g) ltac:(lia)).
  pose proof (Z.mul_succ_div_gt (clusts g - 1) 8 ltac:(lia)). nia.
Qed.
Lemma bit_sector k : 0 <= k < bits g -> in_bm g bb (bb + k / 8 / ss g).
Proof using G.
  intros K. pose proof ssz. unfold in_bm. assert (0 <= k / 8 / ss g) by (apply Z.div_pos; [apply Z.div_pos; lia|lia]).
  assert (k / 8 / ss g < nbm g); [|lia]. unfold bits in K. apply Z.div_lt_upper_bound; [lia|]. apply Z.div_lt_upper_bound; lia.
Qed.
Lemma bm_mine s : in_bm g bb s -> mine (small g) s. Proof using G. intros H. apply (x_bm _ _ G s H). Qed.
Lemma bb_range : 0 <= bb.
Proof using G. assert (H : in_bm g bb bb) by (unfold in_bm; pose proof nbm_pos; lia). apply bm_mine in H. destruct H. lia. Qed.
Lemma bm_w32 s : in_bm g bb s -> w32 s = s.
Proof using G. intros H. apply bm_mine in H. destruct H as [H _]. pose proof (ok_dsize _ gsm). apply w32_id. lia. Qed.
Lemma ent_room c : 0 <= c < n_fatent g -> 0 <= 4 * c /\ 4 * c + 3 < fsize g * ss g.
Proof using G. intros H. pose proof (x_room _ _ G). lia. Qed.

Lemma spot_mod k : 0 <= k / 8 mod ss g < ss g. Proof using G. pose proof ssz. apply Z.mod_pos_bound. lia. Qed.

Lemma same_bits_ents v v' : same (small g) v v' ->
  (forall k, 0 <= k < bits g -> bit g bb v' k = bit g bb v k) /\
  (forall c, 0 <= c < n_fatent g -> xent g v' c = xent g v c) /\ same_other g bb v v'.
Proof using G.
  intros (V & S & I). split; [|split].
  - intros k K. unfold bit. rewrite S; auto; [apply bm_mine, bit_sector; auto|apply spot_mod].
  - intros c C. pose proof (ent_room c C). unfold xent.
    assert (F : forall i, 0 <= i < fsize g * ss g -> fat_byte g v' i = fat_byte g v i).
    { intros i Hi. unfold fat_byte. apply S; [apply in_fat_mine; [apply gsm|]; apply (byte_sector (small g)); [apply gsm|auto]|].
      pose proof ssz. apply Z.mod_pos_bound. change (ss (small g)) with (ss g). lia. }
    rewrite !F by lia. auto.
  - intros s o [[M _] _] O. apply S; auto.
Qed.

Lemma move_x v s : xvol_ok g v -> mine (small g) s ->
  exists v', move_window g v s = (v', FR_OK) /\ xstep g bb v v' (bit g bb v) (xent g v) /\ winsect v' = s.
Proof using G.
  intros V M. destruct (move_ok (small g) v s gsm V M) as (v' & E & S & W).
  exists v'. split; [exact E|]. split; [|auto]. destruct (same_bits_ents v v' S) as (A & B & C). destruct S as (S1 & S2 & S3).
  constructor; auto.
Qed.

(* The byte of bit k, with the window at its sector. *)
Lemma win_bit v k : winsect v = bb + k / 8 / ss g -> Z.testbit (win v (k / 8 mod ss g)) (k mod 8) = bit g bb v k.
Proof using G. intros W. unfold bit, view. rewrite W, Z.eqb_refl. auto. Qed.

Lemma same_bit i j : 0 <= i -> 0 <= j -> i / 8 / ss g = j / 8 / ss g -> i / 8 mod ss g = j / 8 mod ss g -> i mod 8 = j mod 8 -> i = j.
Proof using G.
  intros I J A B C. pose proof ssz. assert (i / 8 = j / 8).
  { rewrite (Z.div_mod (i / 8) (ss g)), (Z.div_mod (j / 8) (ss g)) by lia. now rewrite A, B. }
  rewrite (Z.div_mod i 8), (Z.div_mod j 8) by lia. congruence.
Qed.

Lemma flip_x v k : xvol_ok g v -> 0 <= k < bits g -> winsect v = bb + k / 8 / ss g ->
  let v' := dirty v (upd (win v) (k / 8 mod ss g) (w8 (Z.lxor (win v (k / 8 mod ss g)) (Z.shiftl 1 (k mod 8))))) in
  xstep g bb v v' (fun j => if j =? k then negb (bit g bb v j) else bit g bb v j) (xent g v) /\ winsect v' = winsect v.
Proof using G.
  intros V K W. cbv zeta. pose proof (bit_sector k K) as IB. pose proof (x_bm _ _ G _ IB) as [M NF].
  set (w := upd _ _ _).
  assert (BW : forall o, vbyte (w o)) by (apply upd_byte; apply V).
  destruct (dirty_ok (small g) v w gsm V) as (D1 & D2 & D3); [now rewrite W|auto|].
  split; [|reflexivity]. constructor; auto.
  - intros j J. unfold bit at 1. rewrite D3. destruct (Z.eqb_spec (bb + j / 8 / ss g) (winsect v)) as [E|E].
    + unfold w, upd. destruct (Z.eqb_spec (j / 8 mod ss g) (k / 8 mod ss g)) as [E1|E1].
      * rewrite flip_bit; [|apply V|apply Z.mod_pos_bound; lia|apply Z.mod_pos_bound; lia].
        rewrite <- E1, win_bit by auto. destruct (Z.eqb_spec (j mod 8) (k mod 8)) as [E2|E2].
        -- replace (j =? k) with true; auto. symmetry. apply Z.eqb_eq. apply same_bit; auto; lia.
        -- replace (j =? k) with false; auto. symmetry. apply Z.eqb_neq. intros ->. auto.
      * rewrite win_bit by auto. replace (j =? k) with false; auto. symmetry. apply Z.eqb_neq. intros ->. auto.
    + replace (j =? k) with false; [reflexivity|]. symmetry. apply Z.eqb_neq. intros ->. auto.
  - intros c C. pose proof (ent_room c C). unfold xent.
    assert (F : forall i, 0 <= i < fsize g * ss g -> fat_byte g (dirty v w) i = fat_byte g v i).
    { intros i Hi. unfold fat_byte. rewrite D3. replace (fatbase g + i / ss g =? winsect v) with false; auto.
      symmetry. apply Z.eqb_neq. intros E. apply NF. rewrite W in E. rewrite <- E. apply (byte_sector (small g)); [apply gsm|auto]. }
    rewrite !F by lia. auto.
  - intros s o [[Ms _] Nb] O. rewrite D3. destruct (Z.eqb_spec s (winsect v)) as [->|]; auto. exfalso. apply Nb. now rewrite W.
Qed.

Lemma c4_div c : 0 <= c -> c / (ss g / 4) = 4 * c / ss g.
Proof using G. destruct ss8 as (k & _ & _ & E). intros C. pose proof ssz. set (q := ss g / 4) in *. replace (ss g) with (4 * q) by lia. rewrite Z.div_mul_cancel_l; auto; lia. Qed.
Lemma c4_mod c : 0 <= c -> w32 (c * 4) mod ss g = (4 * c) mod ss g.
Proof using G.
  intros C. destruct ss8 as (k & _ & E & _). pose proof ssz. unfold w32. replace (c * 4) with (4 * c) by lia.
  symmetry. apply Znumtheory.Zmod_div_mod; [lia|lia|]. apply Z.mod_divide; [lia|auto].
Qed.
Lemma c4_fit c : 0 <= c -> 0 <= (4 * c) mod ss g /\ (4 * c) mod ss g + 4 <= ss g.
Proof using G.
  intros C. destruct ss8 as (k & E1 & _ & E). pose proof ssz. set (q := ss g / 4) in *. replace (ss g) with (4 * q) by lia. rewrite Z.mul_mod_distr_l by lia.
  pose proof (Z.mod_pos_bound c q ltac:(lia)). lia.
Qed.
Lemma fat_bytes v i : xvol_ok g v -> vbyte (fat_byte g v i).
Proof using. apply (fat_byte_ok (small g)). Qed.

(* The entry as read. *)
Lemma read_x v c : xvol_ok g v -> 2 <= c < n_fatent g ->
  exists v', move_window g v (w32 (fatbase g + c / (ss g / 4))) = (v', FR_OK) /\ xstep g bb v v' (bit g bb v) (xent g v) /\
             ld_dword (win v') (w32 (c * 4) mod ss g) = Ok (xent g v c).
Proof using G.
  intros V C. destruct (ent_room c) as [R1 R2]; [lia|]. pose proof (c4_fit c ltac:(lia)) as [F1 F2]. pose proof ssz.
  destruct (at_byte (small g) v (4 * c) gsm V) as (v' & E & T & W & K); [change (ss (small g)) with (ss g); change (fsize (small g)) with (fsize g); lia|].
  change (ss (small g)) with (ss g) in *. change (fatbase (small g)) with (fatbase g) in *. change (fsize (small g)) with (fsize g) in *.
  exists v'. rewrite c4_div by lia. split; [exact E|].
  assert (X : xstep g bb v v' (bit g bb v) (xent g v)).
  { constructor; [apply T| | | |apply T].
    - intros k Hk. unfold bit. destruct (x_bm _ _ G _ (bit_sector k Hk)) as [B1 B2].
      rewrite (st_out _ _ _ _ T); auto; [split; auto|apply spot_mod].
    - intros d D. destruct (ent_room d D). unfold xent. change (fat_byte g v') with (fat_byte (small g) v'). change (fat_byte g v) with (fat_byte (small g) v).
      rewrite !(st_fat _ _ _ _ T) by (change (ss (small g)) with (ss g); change (fsize (small g)) with (fsize g); lia). auto.
    - intros s o [[M N] _] O. apply (st_out _ _ _ _ T); auto. split; auto. }
  split; [exact X|]. rewrite c4_mod by lia. rewrite ld_dword_ok; [|apply T|lia|lia].
  f_equal. unfold xent. change (fat_byte g v) with (fat_byte (small g) v).
  rewrite <- (K 1), <- (K 2), <- (K 3) by lia. rewrite <- (Z.add_0_r ((4 * c) mod ss g)) at 1. rewrite (K 0) by lia.
  rewrite Z.add_0_r. lia.
Qed.

(* Storing an entry. *)
Lemma xput_ok v c x : xvol_ok g v -> 2 <= c < n_fatent g -> 0 <= x < 4294967296 ->
  exists v', xput g v c x = Ok (v', FR_OK) /\ xstep g bb v v' (bit g bb v) (upd (xent g v) c x).
Proof using G.
  intros V C X. destruct (ent_room c) as [R1 R2]; [lia|]. pose proof (c4_fit c ltac:(lia)) as [F1 F2]. pose proof ssz.
  unfold xput. replace ((2 <=? c) && (c <? n_fatent g)) with true by lia.
  destruct (at_byte (small g) v (4 * c) gsm V) as (v1 & E & T & W & K); [change (ss (small g)) with (ss g); change (fsize (small g)) with (fsize g); lia|].
  rewrite c4_div by lia.
  change (ss (small g)) with (ss g) in *. change (fatbase (small g)) with (fatbase g) in *. change (fsize (small g)) with (fsize g) in *.
  change (move_window (small g)) with (move_window g) in E. rewrite E. rewrite c4_mod by lia.
  set (i := (4 * c) mod ss g) in *.
  unfold st_dword. rewrite (wr_ok (win v1)) by lia. cbn [bind]. rewrite wr_ok by lia. cbn [bind]. rewrite wr_ok by lia. cbn [bind]. rewrite wr_ok by lia. cbn [bind].
  set (w := upd _ _ _). eexists. split; [reflexivity|].
  assert (V1 : xvol_ok g v1) by apply T.
  assert (BW : forall o, vbyte (w o)) by (unfold w; repeat apply upd_byte; apply V1).
  pose proof (fat_dirty (small g) v1 (4 * c) w gsm V1 ltac:(change (ss (small g)) with (ss g); change (fsize (small g)) with (fsize g); lia) W BW) as D.
  pose proof (step_trans _ _ _ _ _ _ T D) as T2. clear T D.
  change (ss (small g)) with (ss g) in T2.
  constructor; [apply T2| | | |apply T2].
  - intros k Hk. unfold bit. destruct (x_bm _ _ G _ (bit_sector k Hk)) as [B1 B2].
    rewrite (st_out _ _ _ _ T2); auto; [split; auto|apply spot_mod].
  - intros d D. destruct (ent_room d D). pose proof (c4_fit d ltac:(lia)) as [F3 F4].
    assert (N : forall j k, 0 <= j -> 0 <= k < 4 -> (4 * j + k) / ss g = 4 * j / ss g /\ (4 * j + k) mod ss g = (4 * j) mod ss g + k).
    { intros j k Hj Hk. pose proof (c4_fit j Hj). apply (near (small g)); [apply gsm|lia|lia|]. change (ss (small g)) with (ss g). lia. }
    unfold xent. change (fat_byte g (dirty v1 w)) with (fat_byte (small g) (dirty v1 w)).
    rewrite !(st_fat _ _ _ _ T2) by (change (ss (small g)) with (ss g); change (fsize (small g)) with (fsize g); lia).
    assert (BV : forall j, 0 <= j < 4 -> fat_byte (small g) v1 (4 * d + j) = fat_byte g v (4 * d + j)).
    { intros j J. destruct (at_byte (small g) v (4 * c) gsm V) as (v2 & E2 & T3 & _ & _); [change (ss (small g)) with (ss g); change (fsize (small g)) with (fsize g); lia|].
      change (move_window (small g)) with (move_window g) in E2. change (fatbase (small g)) with (fatbase g) in E2. change (ss (small g)) with (ss g) in E2. rewrite E2 in E. injection E as <-.
      rewrite (st_fat _ _ _ _ T3) by (change (ss (small g)) with (ss g); change (fsize (small g)) with (fsize g); lia). reflexivity. }
    assert (D0 : 0 <= d) by (clear - D; lia). assert (C0 : 0 <= c) by (clear - C; lia).
    destruct (N d 1 D0 ltac:(clear; lia)) as [N1 M1]. destruct (N d 2 D0 ltac:(clear; lia)) as [N2 M2]. destruct (N d 3 D0 ltac:(clear; lia)) as [N3 M3].
    rewrite N1, N2, N3, M1, M2, M3. unfold upd at 1. destruct (Z.eqb_spec d c) as [->|DC].
    + rewrite Z.eqb_refl. fold i. unfold w, upd.
      replace (i =? i + 3) with false by lia. replace (i =? i + 2) with false by lia. replace (i =? i + 1) with false by lia. rewrite !Z.eqb_refl.
      replace (i + 1 =? i + 3) with false by lia. replace (i + 1 =? i + 2) with false by lia.
      replace (i + 2 =? i + 3) with false by lia.
      unfold w8. rewrite !Z.shiftr_div_pow2 by lia. change (2 ^ 8) with 256. change (2 ^ 16) with 65536. change (2 ^ 24) with 16777216.
      now apply dword_split.
    + assert (Q : forall k j, 0 <= k < 4 -> 0 <= j < 4 -> 4 * d / ss g = 4 * c / ss g -> (4 * d) mod ss g + k <> i + j).
      { intros k j Hk Hj Hd Hm. apply DC. destruct (N d k D0 Hk) as [A1 A2]. destruct (N c j C0 Hj) as [A3 A4].
        apply (four c d j k Hk Hj). apply (same_spot (small g)); [apply gsm| |]; change (ss (small g)) with (ss g); [congruence|]. fold i in A4. congruence. }
      assert (Rz : 0 <= 0 < 4) by (clear; lia). assert (Ro : 0 <= 1 < 4) by (clear; lia). assert (Rw : 0 <= 2 < 4) by (clear; lia). assert (Rt : 0 <= 3 < 4) by (clear; lia).
      assert (R : forall k, 0 <= k < 4 -> (if 4 * d / ss g =? 4 * c / ss g then w ((4 * d) mod ss g + k) else fat_byte (small g) v1 (4 * d + k)) = fat_byte g v (4 * d + k)).
      { intros k Hk. rewrite BV by exact Hk. destruct (Z.eqb_spec (4 * d / ss g) (4 * c / ss g)) as [E1|]; auto.
        unfold w, upd. destruct (Z.eqb_spec ((4 * d) mod ss g + k) (i + 3)) as [E2|_]; [exact (False_rect _ (Q k 3 Hk Rt E1 E2))|].
        destruct (Z.eqb_spec ((4 * d) mod ss g + k) (i + 2)) as [E2|_]; [exact (False_rect _ (Q k 2 Hk Rw E1 E2))|].
        destruct (Z.eqb_spec ((4 * d) mod ss g + k) (i + 1)) as [E2|_]; [exact (False_rect _ (Q k 1 Hk Ro E1 E2))|].
        destruct (Z.eqb_spec ((4 * d) mod ss g + k) i) as [E2|_]; [exact (False_rect _ (Q k 0 Hk Rz E1 (eq_trans E2 (eq_sym (Z.add_0_r i)))))|].
        rewrite <- BV by exact Hk. unfold fat_byte, view. change (ss (small g)) with (ss g). change (fatbase (small g)) with (fatbase g).
        destruct (N d k D0 Hk) as [A1 A2]. rewrite A1, A2, W, E1, Z.eqb_refl. auto. }
      pose proof (R 0 Rz) as R0. rewrite !Z.add_0_r in R0. rewrite R0, (R 1 Ro), (R 2 Rw), (R 3 Rt). auto.
  - intros s o [[M N] _] O. apply (st_out _ _ _ _ T2); auto. split; auto.
Qed.

End S.
