(* Conversations of the SD card driver with an arbitrary card. *)
From Verif Require Import Base CrcModel CrcSpec CrcProof CrcProof2 CatProof DiskModel DiskProof SdModel SdSpec SdProof.
Open Scope Z_scope.
Ltac Zify.zify_post_hook ::= Z.div_mod_to_equations.

Lemma mbind_ok {A B} (m : M A) (k : A -> M B) s b s2 :
  mbind m k s = Ok (b, s2) -> exists a s1, m s = Ok (a, s1) /\ k a s1 = Ok (b, s2).
Proof. unfold mbind. destruct (m s) as [[a s1]| |]; try discriminate. eauto. Qed.

(* [ex] was exchanged between s and s'. *)
Definition step (s s' : sd) (ex : list (Z * Z)) : Prop :=
  log s' = log s ++ ex /\ inp s = map snd ex ++ inp s'.
Definition grows {A} (m : M A) : Prop := forall s a s', m s = Ok (a, s') -> exists ex, step s s' ex.

Lemma step_nil s : step s s [].
Proof. split; cbn; [now rewrite app_nil_r|reflexivity]. Qed.
Lemma step_trans s1 s2 s3 a b : step s1 s2 a -> step s2 s3 b -> step s1 s3 (a ++ b).
Proof. intros [A1 A2] [B1 B2]. split; [rewrite B1, A1, app_assoc; reflexivity|rewrite A2, B2, map_app, app_assoc; reflexivity]. Qed.
Lemma step_bytes s s' ex : step s s' ex -> Forall byte (inp s) -> Forall byte (map snd ex) /\ Forall byte (inp s').
Proof. intros [_ E] H. rewrite E in H. now apply Forall_app in H. Qed.

Lemma g_ret {A} (a : A) : grows (ret a).
Proof. intros s b s' H. inversion H; subst. exists []. apply step_nil. Qed.
Lemma g_bind {A B} (m : M A) (k : A -> M B) : grows m -> (forall a, grows (k a)) -> grows (mbind m k).
Proof.
  intros Hm Hk s b s2 H. apply mbind_ok in H as (a & s1 & E1 & E2).
  destruct (Hm _ _ _ E1) as (x & X). destruct (Hk _ _ _ _ E2) as (y & Y).
  exists (x ++ y). eapply step_trans; eauto.
Qed.
Lemma g_fail {A} : grows (fun _ => @NoFuel (A * sd)).
Proof. intros s a s' H; discriminate. Qed.
Lemma g_ub {A} : grows (fun _ => @Ub (A * sd)).
Proof. intros s a s' H; discriminate. Qed.
Lemma g_state {A} (f : sd -> M A) : (forall s, grows (f s)) -> grows (fun s => f s s).
Proof. intros H s a s' E. exact (H s s a s' E). Qed.
Lemma g_upd f : (forall s, log (f s) = log s /\ inp (f s) = inp s) -> grows (upd_sd f).
Proof.
  intros H s a s' E. inversion E; subst. destruct (H s) as [H1 H2]. exists []. split; cbn; [now rewrite H1, app_nil_r|auto].
Qed.
Lemma g_get {A} (f : sd -> A) : grows (get f).
Proof. intros s a s' E. inversion E; subst. exists []. apply step_nil. Qed.
Lemma spi_write_step v s b s' : spi_write v s = Ok (b, s') -> step s s' [(v, b)].
Proof. unfold spi_write. destruct (inp s) eqn:E; [discriminate|]. intros H; inversion H; subst. split; cbn; auto. Qed.
Lemma g_write v : grows (spi_write v).
Proof. intros s b s' H. eexists. eapply spi_write_step; eauto. Qed.
Lemma time_left_step s b s' : time_left s = Ok (b, s') -> step s s' [].
Proof. unfold time_left. destruct (clk s); [discriminate|]. intros H; inversion H; subst. split; cbn; [now rewrite app_nil_r|auto]. Qed.
Lemma g_time : grows time_left.
Proof. intros s b s' H. eexists. eapply time_left_step; eauto. Qed.
Lemma g_detect : grows read_detect.
Proof.
  intros s b s'. unfold read_detect. destruct (det s); [discriminate|]. intros H; inversion H; subst. exists [].
  split; cbn; [now rewrite app_nil_r|auto].
Qed.

Ltac g := repeat first
  [ apply g_ret | apply g_fail | apply g_ub | apply g_write | apply g_time | apply g_detect | apply g_get
  | apply g_upd; intros; split; reflexivity
  | match goal with |- grows (mbind _ _) => apply g_bind; [|intros] end
  | match goal with |- grows (match ?x with _ => _ end) => destruct x end
  | match goal with H : _ |- _ => apply H end
  | assumption ].

Lemma g_send l : grows (send l).
Proof. induction l; cbn [send]; g. Qed.
Lemma g_receive n : grows (receive n).
Proof. induction n; cbn [receive]; g. Qed.
Lemma g_response n : forall l, grows (response_loop n l).
Proof. induction n; intros; cbn [response_loop]; g. Qed.
Lemma g_spi cmd arg : grows (sd_cmd_spi cmd arg).
Proof. unfold sd_cmd_spi. pose proof (g_send (packet cmd arg)). pose proof (g_response 16 0). g. Qed.
Lemma g_wait_loop n : grows (wait_loop n).
Proof. induction n; cbn [wait_loop]; g. Qed.
Lemma g_wait : grows sd_wait_ready.
Proof. unfold sd_wait_ready. apply (g_state (fun s => wait_loop (S (length (inp s))))). intros; apply g_wait_loop. Qed.
Lemma g_token_loop n t : grows (token_loop n t).
Proof. induction n; cbn [token_loop]; g. Qed.
Lemma g_token t : grows (sd_wait_token t).
Proof. unfold sd_wait_token. apply (g_state (fun s => token_loop (S (length (inp s))) t)). intros; apply g_token_loop. Qed.
Lemma g_card_detect : grows sd_card_detect.
Proof. unfold sd_card_detect. g. Qed.
Lemma g_attempts n cmd arg ac : forall l, grows (attempts n cmd arg ac l).
Proof. pose proof (g_spi 55 0). pose proof (g_spi cmd arg). pose proof g_wait. induction n; intros; cbn [attempts]; g. Qed.
Lemma g_finish cmd r : grows (finish_cmd cmd r).
Proof. unfold finish_cmd. pose proof g_wait. g. Qed.
Lemma g_retry init n cmd arg ac : (forall m, init = Some m -> grows m) -> grows (cmd_retry init n cmd arg ac).
Proof.
  intros Hi. pose proof (g_attempts 3 cmd arg ac 0). pose proof g_card_detect. pose proof (g_finish cmd).
  induction n; cbn [cmd_retry]; [g|]. apply g_bind; [auto|]. intros r. destruct (r =? 255); [|auto].
  destruct init as [m|]; [|g]. specialize (Hi m eq_refl). g.
Qed.
Lemma g_cmd init cmd arg ac : (forall m, init = Some m -> grows m) -> grows (sd_cmd_with init cmd arg ac).
Proof.
  intros Hi. unfold sd_cmd_with. apply g_bind.
  - pose proof g_wait. g.
  - intros _. apply (g_state (fun s => cmd_retry init (S (length (inp s))) cmd arg ac)). intros; now apply g_retry.
Qed.
Lemma g_data n : grows (sd_read_data n).
Proof. unfold sd_read_data. pose proof (g_token 254). pose proof (g_receive n). g. Qed.
Lemma g_init f : (forall a b c, grows (f a b c)) -> grows (sd_init_nolock f).
Proof.
  intros Hf. pose proof (g_data 16).
  assert (Hm : grows (sd_init_medium f)).
  { unfold sd_init_medium.
    assert (S1 : grows (fun s => init_sequence (S (length (clk s))) s)).
    { apply (g_state (fun s => init_sequence (S (length (clk s))))). intros s.
      generalize (S (length (clk s))). intros n. pose proof (g_receive 10). induction n; cbn [init_sequence]; g. }
    assert (S2 : forall n l, grows (go_idle_loop f n l)).
    { induction n; intros; cbn [go_idle_loop]; g. }
    assert (S3 : grows (sd_cmd8 f)) by (unfold sd_cmd8; g).
    assert (S4 : forall a, grows (fun s => acmd41_loop f (S (length (clk s))) a s)).
    { intros a. apply (g_state (fun s => acmd41_loop f (S (length (clk s))) a)). intros s.
      generalize (S (length (clk s))). intros n. induction n; cbn [acmd41_loop]; g. }
    unfold sd_go_idle_state. g. }
  unfold sd_init_nolock, sd_sectors_nolock, sd_identification_nolock. g.
Qed.
Lemma g_nested a b c : grows (sd_cmd_nested a b c).
Proof. apply g_cmd. discriminate. Qed.
Lemma g_sd_cmd a b c : grows (sd_cmd a b c).
Proof. apply g_cmd. intros m E. inversion E; subst. apply g_init. intros. apply g_nested. Qed.

(* --- exact conversations --- *)

Lemma send_ok l : forall s u s', send l s = Ok (u, s') -> exists ex, step s s' ex /\ map fst ex = l.
Proof.
  induction l as [|b l IH]; intros s u s' H; cbn [send] in H.
  - inversion H; subst. exists []. split; [apply step_nil|reflexivity].
  - apply mbind_ok in H as (r & s1 & E1 & E2). apply spi_write_step in E1.
    destruct (IH _ _ _ E2) as (ex & X & Y). exists ([(b, r)] ++ ex). split; [eapply step_trans; eauto|cbn; now rewrite Y].
Qed.

Lemma receive_ok n : forall s d s', receive n s = Ok (d, s') -> exists ex, step s s' ex /\ map snd ex = d /\ length d = n.
Proof.
  induction n as [|n IH]; intros s d s' H; cbn [receive] in H.
  - inversion H; subst. exists []. split; [apply step_nil|auto].
  - apply mbind_ok in H as (b & s1 & E1 & H). apply mbind_ok in H as (r & s2 & E2 & H). inversion H; subst.
    apply spi_write_step in E1. destruct (IH _ _ _ E2) as (ex & X & Y & Z).
    exists ([(255, b)] ++ ex). split; [eapply step_trans; eauto|]. cbn. now rewrite Y, Z.
Qed.

Lemma wait_ok n : forall s b s', wait_loop n s = Ok (b, s') -> exists ex, step s s' ex /\ Forall (fun x => fst x = 255) ex.
Proof.
  induction n as [|n IH]; intros s b s' H; cbn [wait_loop] in H; [discriminate|].
  apply mbind_ok in H as (r & s1 & E1 & H). apply spi_write_step in E1.
  destruct (r =? 0).
  - apply mbind_ok in H as (t & s2 & E2 & H). apply time_left_step in E2. destruct t.
    + destruct (IH _ _ _ H) as (ex & X & Y). exists ([(255, r)] ++ [] ++ ex).
      split; [eapply step_trans; [exact E1|eapply step_trans; eauto]|]. constructor; auto.
    + inversion H; subst. exists ([(255, r)] ++ []). split; [eapply step_trans; eauto|]. repeat constructor.
  - inversion H; subst. exists [(255, r)]. split; auto.
Qed.

Lemma token_ok n t : forall s s', token_loop n t s = Ok (true, s') ->
  exists w ex b, step s s' (ex ++ [(255, b)]) /\ map snd ex = w /\ ~ In t w /\ b = t.
Proof.
  induction n as [|n IH]; intros s s' H; cbn [token_loop] in H; [discriminate|].
  apply mbind_ok in H as (r & s1 & E1 & H). apply spi_write_step in E1.
  destruct (r =? t) eqn:E.
  - apply Z.eqb_eq in E. inversion H; subst. exists [], [], t. cbn. auto.
  - apply mbind_ok in H as (c & s2 & E2 & H). apply time_left_step in E2. destruct c; [|discriminate].
    destruct (IH _ _ H) as (w & ex & b & X & Y & N & B).
    exists (r :: w), ((255, r) :: ex), b. split.
    + change (((255, r) :: ex) ++ [(255, b)]) with ([(255, r)] ++ [] ++ (ex ++ [(255, b)])).
      eapply step_trans; [exact E1|eapply step_trans; eauto].
    + cbn. rewrite Y. split; [auto|]. split; [|auto]. intros [C|C]; [|auto]. apply Z.eqb_neq in E. congruence.
Qed.

Lemma lor_bytes hi lo : byte lo -> Z.lor (Z.shiftl hi 8) lo = hi * 256 + lo.
Proof.
  intros H. unfold byte in H. rewrite <- Z.lxor_lor, <- Z.add_nocarry_lxor, Z.shiftl_mul_pow2; try lia.
  all: apply Z.bits_inj'; intros k Hk; rewrite Z.land_spec, Z.bits_0.
  all: destruct (Z_lt_dec k 8); [rewrite Z.shiftl_spec_low by lia; reflexivity|].
  all: change 256 with (2 ^ 8) in H; rewrite <- (Z.mod_small lo (2 ^ 8)), Z.mod_pow2_bits_high by lia; apply andb_false_r.
Qed.

Lemma read_data_ok n s d s' : Forall byte (inp s) -> sd_read_data n s = Ok ((0, d), s') ->
  exists ex w hi lo, step s s' ex /\ map snd ex = w ++ [254] ++ d ++ [hi; lo] /\ ~ In 254 w /\ length d = n /\
    crc16 d = hi * 256 + lo.
Proof.
  intros B H. unfold sd_read_data in H. apply mbind_ok in H as (t & s1 & E1 & H).
  destruct t; cbn [negb] in H; [|inversion H].
  apply mbind_ok in H as (d' & s2 & E2 & H). apply mbind_ok in H as (hi & s3 & E3 & H). apply mbind_ok in H as (lo & s4 & E4 & H).
  unfold sd_wait_token in E1. apply token_ok in E1 as (w & e1 & b & X1 & W & N & ->).
  apply receive_ok in E2 as (e2 & X2 & D & L). apply spi_write_step in E3. apply spi_write_step in E4.
  revert D. destruct (crc16 d' =? Z.lor (Z.shiftl hi 8) lo) eqn:C; inversion H; subst d' s'. intros D. apply Z.eqb_eq in C.
  pose proof (step_trans _ _ _ _ _ X1 (step_trans _ _ _ _ _ X2 (step_trans _ _ _ _ _ E3 E4))) as X.
  exists ((e1 ++ [(255, 254)]) ++ e2 ++ [(255, hi)] ++ [(255, lo)]), w, hi, lo.
  split; [exact X|]. split; [rewrite !map_app, W, D, <- app_assoc; reflexivity|].
  split; [exact N|]. split; [exact L|]. rewrite C. apply lor_bytes.
  destruct (step_bytes _ _ _ X B) as [Bx _]. rewrite !map_app in Bx. rewrite !Forall_app in Bx.
  destruct Bx as (_ & _ & _ & Bl). inversion Bl; auto.
Qed.

Lemma read_loop_ok n : forall s d s', Forall byte (inp s) -> read_loop n s = Ok ((0, d), s') ->
  exists ex ds, step s s' ex /\ carries 512 (map snd ex) ds /\ d = concat ds /\ length ds = n.
Proof.
  induction n as [|n IH]; intros s d s' B H; cbn [read_loop] in H.
  - inversion H; subst. exists [], []. split; [apply step_nil|]. split; [apply (carries_end 512 [])|auto].
  - apply mbind_ok in H as ([rc d1] & s1 & E1 & H). destruct (rc =? 0) eqn:R; cbn [negb] in H; [|inversion H].
    apply Z.eqb_eq in R; subst rc.
    apply mbind_ok in H as ([rc2 d2] & s2 & E2 & H). inversion H; subst.
    destruct (read_data_ok _ _ _ _ B E1) as (ex & w & hi & lo & X & Y & N & L & C).
    destruct (step_bytes _ _ _ X B) as [_ B1].
    destruct (IH _ _ _ B1 E2) as (ex2 & ds & X2 & Y2 & D & Ln).
    exists (ex ++ ex2), (d1 :: ds). split; [eapply step_trans; eauto|]. split.
    + rewrite map_app, Y, <- !app_assoc. constructor; auto.
    + cbn. rewrite D, Ln. auto.
Qed.

(* command packets *)
Lemma packet_frame cmd arg : 0 <= cmd < 64 -> 0 <= arg < 4294967296 -> packet cmd arg = frame cmd arg.
Proof.
  intros Hc Ha. unfold packet, frame.
  assert (E0 : Z.lor 64 (Z.land cmd 63) = 64 + cmd).
  { change 63 with (Z.ones 6). rewrite Z.land_ones by lia. change (2 ^ 6) with 64. rewrite Z.mod_small by lia.
    change 64 with (Z.shiftl 1 6). rewrite <- Z.lxor_lor, <- Z.add_nocarry_lxor; auto;
    apply Z.bits_inj'; intros k Hk; rewrite Z.land_spec, Z.bits_0;
    (destruct (Z_lt_dec k 6); [rewrite Z.shiftl_spec_low by lia; reflexivity|]);
    change 64 with (2 ^ 6) in Hc; rewrite <- (Z.mod_small cmd (2 ^ 6)), Z.mod_pow2_bits_high by lia; apply andb_false_r. }
  rewrite E0. rewrite !Z.shiftr_div_pow2 by lia.
  change (2 ^ 24) with 16777216. change (2 ^ 16) with 65536. change (2 ^ 8) with 256.
  cbv zeta. f_equal. f_equal.
  set (p := [_; _; _; _; _]).
  assert (B : Forall byte p).
  { unfold p, byte. repeat (apply Forall_cons; [lia|]). apply Forall_nil. }
  destruct (crc7_sd p B) as [_ R].
  rewrite Z.shiftl_mul_pow2 by lia. change (2 ^ 1) with 2.
  assert (E1 : Z.lor (crc7 p * 2) 1 = 2 * crc7 p + 1).
  { replace (crc7 p * 2) with (2 * crc7 p) by lia. destruct (crc7 p); [reflexivity| |lia]. reflexivity. }
  rewrite E1. apply Z.mod_small. lia.
Qed.

Lemma response_len n : forall l s r s', response_loop n l s = Ok (r, s') -> exists ex, step s s' ex /\ (length ex <= n)%nat.
Proof.
  induction n as [|n IH]; intros l s r s' H; cbn [response_loop] in H.
  - inversion H; subst. exists []. split; [apply step_nil|auto].
  - apply mbind_ok in H as (b & s1 & E1 & H). apply spi_write_step in E1. destruct (Z.land b 128 =? 0).
    + inversion H; subst. exists [(255, r)]. split; [auto|cbn; lia].
    + destruct (IH _ _ _ _ H) as (ex & X & L). exists ([(255, b)] ++ ex). split; [eapply step_trans; eauto|cbn; lia].
Qed.

Lemma spi_cmd_ok cmd arg s r s' : cmd <> 12 -> sd_cmd_spi cmd arg s = Ok (r, s') ->
  exists b c, step s s' (b ++ c) /\ map fst b = packet cmd arg /\ (length c <= 16)%nat.
Proof.
  intros N H. unfold sd_cmd_spi in H. apply mbind_ok in H as (u & s1 & E1 & H).
  replace (cmd =? 12) with false in H by lia. apply mbind_ok in H as (v & s2 & E2 & H). inversion E2; subst s2 v.
  apply send_ok in E1 as (b & X & Y). apply response_len in H as (c & X2 & L).
  exists b, c. split; [eapply step_trans; eauto|auto].
Qed.

Lemma attempts_ok n cmd arg ac : cmd <> 12 -> forall l s r s', attempts n cmd arg ac l s = Ok (r, s') -> (0 < n)%nat ->
  exists a b c, step s s' (a ++ b ++ c) /\ map fst b = packet cmd arg /\ (length c <= 16)%nat.
Proof.
  intros N. induction n as [|n IH]; intros l s r s' H P; cbn [attempts] in H; [lia|].
  apply mbind_ok in H as (u & s1 & E1 & H). apply mbind_ok in H as (r1 & s2 & E2 & H).
  assert (exists a, step s s1 a) as (a & A).
  { refine ((_ : grows (if ac then _ <~ sd_cmd_spi 55 0 ;; sd_wait_ready else ret true)) _ _ _ E1).
    pose proof (g_spi 55 0). pose proof g_wait. g. }
  destruct (spi_cmd_ok _ _ _ _ _ N E2) as (b & c & X & Y & L).
  destruct (r1 =? 255) eqn:R.
  - destruct n as [|n].
    + cbn in H. inversion H; subst. exists a, b, c. split; [eapply step_trans; eauto|auto].
    + destruct (IH _ _ _ _ H ltac:(lia)) as (a2 & b2 & c2 & X2 & Y2 & L2).
      exists (a ++ (b ++ c) ++ a2), b2, c2. split; [|auto].
      rewrite <- !app_assoc. eapply step_trans; [exact A|]. rewrite app_assoc. eapply step_trans; [exact X|exact X2].
  - inversion H; subst. exists a, b, c. split; [eapply step_trans; eauto|auto].
Qed.

(* a command that answers with R1 only *)
Definition plain (cmd : Z) : Prop := cmd <> 8 /\ cmd <> 58 /\ cmd <> 12 /\ cmd <> 38 /\ cmd <> 13.
Lemma finish_plain cmd r s x s' : plain cmd -> finish_cmd cmd r s = Ok (x, s') -> s' = s.
Proof.
  intros (P1 & P2 & P3 & P4 & P5) H. unfold finish_cmd in H.
  replace (cmd =? 8) with false in H by lia. replace (cmd =? 58) with false in H by lia.
  replace (cmd =? 12) with false in H by lia. replace (cmd =? 38) with false in H by lia.
  replace (cmd =? 13) with false in H by lia. cbn [orb] in H.
  destruct (Z.testbit r 3 && negb (cmd =? 23)); [inversion H; auto|].
  destruct (Z.testbit r 2); inversion H; auto.
Qed.

Lemma retry_ok init n cmd arg ac : plain cmd -> (forall m, init = Some m -> grows m) ->
  forall s x s', cmd_retry init n cmd arg ac s = Ok ((0, x), s') ->
  exists a b c, step s s' (a ++ b ++ c) /\ map fst b = packet cmd arg /\ (length c <= 16)%nat.
Proof.
  intros P Hi. assert (N : cmd <> 12) by (destruct P; tauto).
  induction n as [|n IH]; intros s x s' H; cbn [cmd_retry] in H; [discriminate|].
  apply mbind_ok in H as (r & s1 & E1 & H).
  destruct (attempts_ok _ _ _ _ N _ _ _ _ E1 ltac:(lia)) as (a & b & c & X & Y & L).
  destruct (r =? 255) eqn:R.
  - destruct init as [m|]; [|inversion H].
    apply mbind_ok in H as (u & s2 & E2 & H). apply mbind_ok in H as (d & s3 & E3 & H).
    apply mbind_ok in H as (u2 & s4 & E4 & H). apply mbind_ok in H as (bad & s5 & E5 & H).
    assert (exists e, step s1 s5 e) as (e & E).
    { assert (G2 : grows (upd_sd (fun s => set_status s true true))) by g.
      destruct (G2 _ _ _ E2) as (x2 & X2). destruct (g_card_detect _ _ _ E3) as (x3 & X3).
      assert (G4 : grows (if d then m else ret tt)) by (destruct d; [now apply Hi|apply g_ret]).
      destruct (G4 _ _ _ E4) as (x4 & X4). destruct (g_get _ _ _ _ E5) as (x5 & X5).
      eexists. eapply step_trans; [exact X2|eapply step_trans; [exact X3|eapply step_trans; [exact X4|exact X5]]]. }
    destruct bad; [inversion H|].
    destruct (IH _ _ _ H) as (a2 & b2 & c2 & X2 & Y2 & L2).
    exists ((a ++ b ++ c) ++ e ++ a2), b2, c2. split; [|auto].
    rewrite <- (app_assoc (a ++ b ++ c)), <- (app_assoc e). eapply step_trans; [exact X|]. eapply step_trans; eauto.
  - apply finish_plain in H; [|auto]. subst s'. eauto 6.
Qed.

Lemma sd_cmd_ok cmd arg ac s x s' : plain cmd -> 0 <= cmd < 64 -> 0 <= arg < 4294967296 ->
  sd_cmd cmd arg ac s = Ok ((0, x), s') ->
  exists a b c, step s s' (a ++ b ++ c) /\ map fst b = frame cmd arg /\ (length c <= 16)%nat.
Proof.
  intros P Hc Ha H. rewrite <- packet_frame by auto. unfold sd_cmd, sd_cmd_with in H.
  apply mbind_ok in H as (u & s1 & E1 & H).
  assert (exists e, step s s1 e) as (e & E).
  { refine ((_ : grows (if cmd =? 12 then ret true else sd_wait_ready)) _ _ _ E1). pose proof g_wait. g. }
  apply retry_ok in H as (a & b & c & X & Y & L); [|auto|].
  - exists (e ++ a), b, c. split; [|auto]. rewrite <- app_assoc. eapply step_trans; eauto.
  - intros m Em. inversion Em; subst. apply g_init. intros. apply g_nested.
Qed.

Lemma address_ok s sector : sd_address s sector = card_address s sector /\ 0 <= card_address s sector < 4294967296.
Proof.
  unfold sd_address, card_address, u32. destruct (card_type s =? 3); [|rewrite (Z.mul_comm 512)]; lia.
Qed.

Lemma sd_read_ok sector count s data s' : Forall byte (inp s) -> 0 <= sector -> 0 <= count ->
  in_sd_read_blocks sector count s = Ok ((0, data), s') ->
  sector + count <= sectors s /\ noinit s = false /\ nodisk s = false /\
  exists a b c ex e ds, log s' = log s ++ a ++ b ++ c ++ ex ++ e /\
    map fst b = frame (if 1 <? count then 18 else 17) (card_address s sector) /\ (length c <= 16)%nat /\
    carries 512 (map snd ex) ds /\ data = concat ds /\ Z.of_nat (length ds) = count.
Proof.
  intros B Hs Hc H. unfold in_sd_read_blocks in H. apply mbind_ok in H as (s0 & s1 & E0 & H).
  inversion E0; subst s0 s1. clear E0.
  destruct (sectors s <? sector + count) eqn:C1; cbn [orb] in H; [inversion H|].
  destruct (noinit s) eqn:C2; cbn [orb] in H; [inversion H|].
  destruct (nodisk s) eqn:C3; cbn [orb] in H; [inversion H|].
  split; [lia|]. split; [auto|]. split; [auto|].
  destruct (address_ok s sector) as [Ea Ra]. rewrite Ea in H.
  apply mbind_ok in H as ([st r] & s1 & E1 & H).
  destruct (st =? 0) eqn:S0; cbn [negb] in H; [|inversion H; subst; discriminate]. apply Z.eqb_eq in S0; subst st.
  apply mbind_ok in H as ([rd d] & s2 & E2 & H). apply mbind_ok in H as (st' & s3 & E3 & H).
  inversion H; subst data s'. destruct (rd =? 0) eqn:R0; [|subst rd; discriminate]. apply Z.eqb_eq in R0; subst rd.
  apply sd_cmd_ok in E1 as (a & b & c & X & Y & L); [| |destruct (1 <? count); lia|exact Ra].
  2:{ unfold plain. destruct (1 <? count); lia. }
  destruct (step_bytes _ _ _ X B) as [_ B1].
  destruct (read_loop_ok _ _ _ _ B1 E2) as (ex & ds & X2 & Y2 & D & Ln).
  assert (exists e, step s2 s3 e) as (e & E).
  { refine ((_ : grows (if 1 <? count then ('(st, _) <~ sd_cmd 12 0 false ;; ret st) else ret 0)) _ _ _ E3).
    destruct (1 <? count); [|apply g_ret]. apply g_bind; [apply g_sd_cmd|]. intros [? ?]. apply g_ret. }
  exists a, b, c, ex, e, ds.
  pose proof (step_trans _ _ _ _ _ X (step_trans _ _ _ _ _ X2 E)) as [T _].
  split; [rewrite T, <- !app_assoc; reflexivity|]. split; [exact Y|]. split; [exact L|]. split; [exact Y2|]. split; [exact D|lia].
Qed.
