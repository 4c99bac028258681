(* SD card: writing, identification, and the failures to report. *)
From Verif Require Import Base CrcModel CrcSpec CrcProof CrcProof2 Utf8Proof CatProof DiskModel DiskProof SdModel SdSpec SdProof SdProof2.
Open Scope Z_scope.
Ltac Zify.zify_post_hook ::= Z.div_mod_to_equations.

Lemma write_block_ok d tok s r s' : Forall byte d -> sd_write_block d tok s = Ok (r, s') ->
  exists e rr wait, step s s' (e ++ [(255, rr)] ++ wait) /\
    map fst e = [tok] ++ d ++ [crc16 d / 256; crc16 d mod 256] /\ Forall (fun x => fst x = 255) wait /\ r = rr mod 32.
Proof.
  intros Bd H. unfold sd_write_block in H.
  apply mbind_ok in H as (x1 & s1 & E1 & H). apply mbind_ok in H as (x2 & s2 & E2 & H).
  apply mbind_ok in H as (x3 & s3 & E3 & H). apply mbind_ok in H as (x4 & s4 & E4 & H).
  apply mbind_ok in H as (x5 & s5 & E5 & H). inversion H; subst.
  apply spi_write_step in E1. apply send_ok in E2 as (e2 & X2 & Y2). apply send_ok in E3 as (e3 & X3 & Y3).
  apply spi_write_step in E4. apply wait_ok in E5 as (w & X5 & Y5).
  exists ([(tok, x1)] ++ e2 ++ e3), x4, w.
  split.
  { rewrite <- !app_assoc. eapply step_trans; [exact E1|]. eapply step_trans; [exact X2|].
    eapply step_trans; [exact X3|]. eapply step_trans; [exact E4|exact X5]. }
  split; [|split; [exact Y5|]].
  - rewrite !map_app, Y2, Y3. destruct (crc16_sd d Bd) as [_ R].
    rewrite Z.shiftr_div_pow2 by lia. change (2 ^ 8) with 256.
    replace (crc16 d / 256 mod 256) with (crc16 d / 256) by lia. reflexivity.
  - change 31 with (Z.ones 5). rewrite Z.land_ones by lia. reflexivity.
Qed.

Lemma write_loop_ok fuel : forall buf n s u s', Forall byte buf -> length buf = (512 * n)%nat -> (0 < n)%nat ->
  Z.of_nat n < 4294967296 -> write_loop fuel buf (Z.of_nat n) s = Ok (u, s') ->
  exists ex ds vs v, step s s' ex /\ sends 252 ex ds (vs ++ [v]) /\ Forall (fun b => b = true) vs /\
    ds = firstn (length ds) (blocks_of n buf) /\ (v = false \/ length ds = n).
Proof.
  induction fuel as [|fuel IH]; intros buf n s u s' Bb L P Hn H; cbn [write_loop] in H; [discriminate|].
  replace (length buf <? 512)%nat with false in H by (symmetry; apply Nat.ltb_ge; lia).
  apply mbind_ok in H as (r & s1 & E1 & H).
  destruct n as [|n]; [lia|]. cbn [blocks_of].
  assert (Bf : Forall byte (firstn 512 buf)) by now apply Forall_firstn.
  destruct (write_block_ok _ _ _ _ _ Bf E1) as (e & rr & w & X & Y & W & R).
  destruct (r =? 5) eqn:A; cbn [negb] in H.
  - replace (u32 (Z.of_nat (S n) - 1)) with (Z.of_nat n) in H by (rewrite u32_id; lia).
    destruct (Z.of_nat n =? 0) eqn:Z0.
    + inversion H; subst s'. exists (e ++ [(255, rr)] ++ w ++ []), [firstn 512 buf], [], true.
      split; [rewrite app_nil_r; exact X|].
      split; [cbn [app]; rewrite <- A, R; apply (sends_block 252 e _ rr w [] [] []); auto; constructor|].
      split; [constructor|]. split; [reflexivity|]. right. cbn. lia.
    + destruct (IH (skipn 512 buf) n _ _ _ (Forall_skipn _ _ _ Bb) ltac:(rewrite skipn_length; lia) ltac:(lia) ltac:(lia) H)
        as (ex & ds & vs & v & X2 & S2 & V2 & D2 & O2).
      exists (e ++ [(255, rr)] ++ w ++ ex), (firstn 512 buf :: ds), (true :: vs), v.
      split. { replace (e ++ [(255, rr)] ++ w ++ ex) with ((e ++ [(255, rr)] ++ w) ++ ex) by now rewrite <- !app_assoc.
               eapply step_trans; eauto. }
      split; [cbn [app]; rewrite <- A, R; apply (sends_block 252 e _ rr w ex ds (vs ++ [v])); auto|].
      split; [constructor; auto|]. split; [cbn [length firstn]; f_equal; exact D2|]. cbn [length]. destruct O2; [auto|right; lia].
  - inversion H; subst s'. exists (e ++ [(255, rr)] ++ w ++ []), [firstn 512 buf], [], false.
    split; [rewrite app_nil_r; exact X|].
    split; [cbn [app]; rewrite <- A, R; apply (sends_block 252 e _ rr w [] [] []); auto; constructor|].
    split; [constructor|]. split; [reflexivity|auto].
Qed.

Lemma g_tail : grows (_ <~ spi_write 255 ;; _ <~ spi_write 255 ;; '(status, _) <~ sd_cmd 13 0 false ;; ret status).
Proof.
  apply g_bind; [apply g_write|]; intros. apply g_bind; [apply g_write|]; intros.
  apply g_bind; [apply g_sd_cmd|]; intros [? ?]. apply g_ret.
Qed.

Lemma sd_write_ok buf sector count s s' : Forall byte buf -> 0 <= sector -> 0 < count < 4294967296 ->
  Z.of_nat (length buf) = 512 * count ->
  in_sd_write_blocks buf sector count s = Ok (0, s') ->
  sector + count <= sectors s /\ noinit s = false /\ nodisk s = false /\
  exists a b c ex e ds vs v, log s' = log s ++ a ++ b ++ c ++ ex ++ e /\
    map fst b = frame (if count =? 1 then 24 else 25) (card_address s sector) /\ (length c <= 16)%nat /\
    sends (if count =? 1 then 254 else 252) ex ds (vs ++ [v]) /\ Forall (fun x => x = true) vs /\
    ds = firstn (length ds) (blocks_of (Z.to_nat count) buf) /\ (v = false \/ Z.of_nat (length ds) = count).
Proof.
  intros Bb Hs Hc Hl H. unfold in_sd_write_blocks in H. apply mbind_ok in H as (s0 & s1 & E0 & H).
  inversion E0; subst s0 s1. clear E0.
  destruct (sectors s <? sector + count) eqn:C1; cbn [orb] in H; [inversion H|].
  destruct (noinit s) eqn:C2; cbn [orb] in H; [inversion H|].
  destruct (nodisk s) eqn:C3; cbn [orb] in H; [inversion H|].
  split; [lia|]. split; [auto|]. split; [auto|].
  destruct (address_ok s sector) as [Ea Ra]. cbv zeta in H. rewrite Ea in H.
  apply mbind_ok in H as (early & s1 & E1 & H).
  assert (exists e, early = None -> step s1 s' e) as (e0 & E0).
  { destruct early as [st|]; [exists []; discriminate|].
    destruct (g_tail _ _ _ H) as (e & E). eauto. }
  destruct (count =? 1) eqn:Q.
  - apply Z.eqb_eq in Q; subst count.
    apply mbind_ok in E1 as ([st r] & s2 & E1 & E2).
    destruct (st =? 0) eqn:S0; cbn [negb] in E2.
    2:{ inversion E2; subst. inversion H; subst. discriminate. }
    apply Z.eqb_eq in S0; subst st.
    replace (length buf <? 512)%nat with false in E2 by (symmetry; apply Nat.ltb_ge; lia).
    apply mbind_ok in E2 as (rr & s3 & E2 & E3). inversion E3; subst early s3.
    specialize (E0 eq_refl).
    apply sd_cmd_ok in E1 as (a & b & c & X & Y & L); [|unfold plain; lia|lia|exact Ra].
    destruct (write_block_ok _ _ _ _ _ (Forall_firstn _ _ _ Bb) E2) as (e & rb & w & X2 & Y2 & W & R).
    exists a, b, c, (e ++ [(255, rb)] ++ w ++ []), e0, [firstn 512 buf], [], (rb mod 32 =? 5).
    pose proof (step_trans _ _ _ _ _ X (step_trans _ _ _ _ _ X2 E0)) as [T _].
    split; [rewrite T, app_nil_r, <- !app_assoc; reflexivity|]. split; [exact Y|]. split; [exact L|].
    split; [cbn [app]; apply (sends_block 254 e _ rb w [] [] []); auto; constructor|].
    split; [constructor|]. split; [reflexivity|right; reflexivity].
  - apply mbind_ok in E1 as (x1 & s2 & F1 & E1). apply mbind_ok in E1 as (x2 & s3 & F2 & E1).
    apply mbind_ok in E1 as (x3 & s4 & F3 & E1).
    assert (exists p, step s s4 p) as (p & Pp).
    { destruct (g_sd_cmd _ _ _ _ _ _ F1) as (p1 & P1). destruct (g_write _ _ _ _ F2) as (p2 & P2).
      destruct (g_write _ _ _ _ F3) as (p3 & P3). eexists. eapply step_trans; [exact P1|eapply step_trans; eauto]. }
    apply mbind_ok in E1 as ([st r] & s5 & E1 & E2).
    destruct (st =? 0) eqn:S0; cbn [negb] in E2.
    2:{ inversion E2; subst. inversion H; subst. discriminate. }
    apply Z.eqb_eq in S0; subst st.
    apply mbind_ok in E2 as (u & s6 & E2 & E3). apply mbind_ok in E3 as (y & s7 & E3 & E4). inversion E4; subst early s7.
    specialize (E0 eq_refl). apply spi_write_step in E3.
    apply sd_cmd_ok in E1 as (a & b & c & X & Y & L); [|unfold plain; lia|lia|exact Ra].
    rewrite <- (Z2Nat.id count) in E2 by lia.
    apply write_loop_ok in E2 as (ex & ds & vs & v & X2 & S2 & V2 & D2 & O2); [|auto|lia|lia|lia].
    exists (p ++ a), b, c, ex, ([(253, y)] ++ e0), ds, vs, v.
    pose proof (step_trans _ _ _ _ _ Pp (step_trans _ _ _ _ _ X (step_trans _ _ _ _ _ X2 (step_trans _ _ _ _ _ E3 E0)))) as [T _].
    split; [rewrite T, <- !app_assoc; reflexivity|]. split; [exact Y|]. split; [exact L|]. split; [exact S2|].
    split; [exact V2|]. split; [exact D2|]. destruct O2; [auto|right; lia].
Qed.

(* Sectors and identification come from registers received with a good
   checksum. *)
Lemma sd_cmd_nested_ok cmd arg ac s x s' : plain cmd -> 0 <= cmd < 64 -> 0 <= arg < 4294967296 ->
  sd_cmd_nested cmd arg ac s = Ok ((0, x), s') ->
  exists a b c, step s s' (a ++ b ++ c) /\ map fst b = frame cmd arg /\ (length c <= 16)%nat.
Proof.
  intros P Hc Ha H. rewrite <- packet_frame by auto. unfold sd_cmd_nested, sd_cmd_with in H.
  apply mbind_ok in H as (u & s1 & E1 & H).
  assert (exists e, step s s1 e) as (e & E).
  { refine ((_ : grows (if cmd =? 12 then ret true else sd_wait_ready)) _ _ _ E1). pose proof g_wait. g. }
  apply retry_ok in H as (a & b & c & X & Y & L); [|auto|discriminate].
  exists (e ++ a), b, c. split; [|auto]. rewrite <- app_assoc. eapply step_trans; eauto.
Qed.

Definition J (s : sd) : Prop := Forall byte (inp s) /\ known s.
Definition keeps {A} (m : M A) : Prop := forall s a s', m s = Ok (a, s') -> J s -> J s'.
Definition speaks (f : cmd_fun) : Prop := forall cmd s x s', plain cmd -> 0 <= cmd < 64 ->
  f cmd 0 false s = Ok ((0, x), s') ->
  exists a b c, step s s' (a ++ b ++ c) /\ map fst b = frame cmd 0 /\ (length c <= 16)%nat.

Lemma answered_more l m cmd reg : answered l cmd reg -> answered (l ++ m) cmd reg.
Proof.
  intros (R & p & b & c & ex & q & E & F). split; [exact R|]. exists p, b, c, ex, (q ++ m). split; [|exact F].
  rewrite E, <- !app_assoc. reflexivity.
Qed.
Lemma known_more s s' m : log s' = log s ++ m -> sectors s' = sectors s -> oem_id s' = oem_id s ->
  product_name s' = product_name s -> serial s' = serial s -> known s -> known s'.
Proof.
  intros E1 E2 E3 E4 E5 [A B]. unfold known. rewrite E1, E2, E3, E4, E5. split.
  - destruct A as [A|(r & A & A2)]; [auto|right; exists r; auto using answered_more].
  - destruct B as [B|(r & B & B2)]; [auto|right; exists r; auto using answered_more].
Qed.

Lemma k_ret {A} (a : A) : keeps (ret a).
Proof. intros s x s' H. inversion H; subst. auto. Qed.
Lemma k_bind {A B} (m : M A) (k : A -> M B) : keeps m -> (forall a, keeps (k a)) -> keeps (mbind m k).
Proof. intros K1 K2 s b s2 H. apply mbind_ok in H as (a & s1 & E1 & E2). intros Js. eapply K2; eauto. Qed.
Lemma k_fail {A} : keeps (fun _ => @NoFuel (A * sd)).
Proof. intros ? ? ? ?; discriminate. Qed.
Lemma k_state {A} (f : sd -> M A) : (forall s, keeps (f s)) -> keeps (fun s => f s s).
Proof. intros K s a s' H. eapply K; eauto. Qed.
Lemma k_upd f : (forall s, log (f s) = log s /\ inp (f s) = inp s /\ sectors (f s) = sectors s /\ oem_id (f s) = oem_id s /\
  product_name (f s) = product_name s /\ serial (f s) = serial s) -> keeps (upd_sd f).
Proof.
  intros K s a s' H. inversion H; subst. destruct (K s) as (A & B & C & D & E & F). intros [J1 J2]. split; [now rewrite B|].
  eapply (known_more s _ []); auto. now rewrite app_nil_r.
Qed.
Lemma k_get {A} (f : sd -> A) : keeps (get f).
Proof. intros s x s' H. inversion H; subst. auto. Qed.
Lemma k_write v : keeps (spi_write v).
Proof.
  intros s b s' H. unfold spi_write in H. destruct (inp s) as [|x r] eqn:E; inversion H; subst. intros [J1 J2].
  rewrite E in J1. inversion J1; subst. split; [assumption|]. eapply (known_more s _ [_]); auto; reflexivity.
Qed.
Lemma k_time : keeps time_left.
Proof.
  intros s b s' H. unfold time_left in H. destruct (clk s); inversion H; subst. intros [J1 J2]. split; [assumption|].
  eapply (known_more s _ []); auto. cbn. now rewrite app_nil_r.
Qed.
Lemma k_detect : keeps read_detect.
Proof.
  intros s b s' H. unfold read_detect in H. destruct (det s); inversion H; subst. intros [J1 J2]. split; [assumption|].
  eapply (known_more s _ []); auto. cbn. now rewrite app_nil_r.
Qed.
Ltac k := repeat first
  [ apply k_ret | apply k_fail | apply k_write | apply k_time | apply k_detect | apply k_get
  | apply k_upd; intros; split; [reflexivity|]; split; [reflexivity|]; split; [reflexivity|]; split; [reflexivity|];
    split; reflexivity
  | match goal with |- keeps (mbind _ _) => apply k_bind; [|intros] end
  | match goal with |- keeps (match ?x with _ => _ end) => destruct x end
  | match goal with H : _ |- _ => apply H end
  | assumption ].
Lemma k_send l : keeps (send l).
Proof. induction l; cbn [send]; k. Qed.
Lemma k_receive n : keeps (receive n).
Proof. induction n; cbn [receive]; k. Qed.
Lemma k_response n : forall l, keeps (response_loop n l).
Proof. induction n; intros; cbn [response_loop]; k. Qed.
Lemma k_spi cmd arg : keeps (sd_cmd_spi cmd arg).
Proof. unfold sd_cmd_spi. pose proof (k_send (packet cmd arg)). pose proof (k_response 16 0). k. Qed.
Lemma k_wait_loop n : keeps (wait_loop n).
Proof. induction n; cbn [wait_loop]; k. Qed.
Lemma k_wait : keeps sd_wait_ready.
Proof. unfold sd_wait_ready. apply (k_state (fun s => wait_loop (S (length (inp s))))). intros; apply k_wait_loop. Qed.
Lemma k_token_loop n t : keeps (token_loop n t).
Proof. induction n; cbn [token_loop]; k. Qed.
Lemma k_token t : keeps (sd_wait_token t).
Proof. unfold sd_wait_token. apply (k_state (fun s => token_loop (S (length (inp s))) t)). intros; apply k_token_loop. Qed.
Lemma k_card_detect : keeps sd_card_detect.
Proof. unfold sd_card_detect. k. Qed.
Lemma k_attempts n cmd arg ac : forall l, keeps (attempts n cmd arg ac l).
Proof. pose proof (k_spi 55 0). pose proof (k_spi cmd arg). pose proof k_wait. induction n; intros; cbn [attempts]; k. Qed.
Lemma k_finish cmd r : keeps (finish_cmd cmd r).
Proof. unfold finish_cmd. pose proof k_wait. k. Qed.
Lemma k_retry init n cmd arg ac : (forall m, init = Some m -> keeps m) -> keeps (cmd_retry init n cmd arg ac).
Proof.
  intros Hi. pose proof (k_attempts 3 cmd arg ac 0). pose proof k_card_detect. pose proof (k_finish cmd).
  induction n; cbn [cmd_retry]; [k|]. apply k_bind; [auto|]. intros r. destruct (r =? 255); [|auto].
  destruct init as [m|]; [|k]. specialize (Hi m eq_refl). k.
Qed.
Lemma k_cmd init cmd arg ac : (forall m, init = Some m -> keeps m) -> keeps (sd_cmd_with init cmd arg ac).
Proof.
  intros Hi. unfold sd_cmd_with. apply k_bind.
  - pose proof k_wait. k.
  - intros _. apply (k_state (fun s => cmd_retry init (S (length (inp s))) cmd arg ac)). intros; now apply k_retry.
Qed.
Lemma k_data n : keeps (sd_read_data n).
Proof. unfold sd_read_data. pose proof (k_token 254). pose proof (k_receive n). k. Qed.

Lemma read_register (f : cmd_fun) cmd s st x s1 reg s' : speaks f -> plain cmd -> 0 <= cmd < 64 ->
  Forall byte (inp s) -> f cmd 0 false s = Ok ((0, x), s1) -> sd_read_data 16 s1 = Ok ((0, reg), s') -> st = s' ->
  answered (log st) cmd reg.
Proof.
  intros F P Hc B E1 E2 ->. destruct (F _ _ _ _ P Hc E1) as (a & b & c & X & Y & L).
  destruct (step_bytes _ _ _ X B) as [_ B1].
  destruct (read_data_ok _ _ _ _ B1 E2) as (ex & w & hi & lo & X2 & Y2 & Nw & Ln & C).
  destruct (step_bytes _ _ _ X2 B1) as [Bx _]. rewrite Y2, !Forall_app in Bx.
  split; [split; [exact Ln|tauto]|]. exists (log s ++ a), b, c, ex, [].
  destruct (step_trans _ _ _ _ _ X X2) as [T _]. split; [rewrite T, app_nil_r, <- !app_assoc; reflexivity|].
  split; [exact Y|]. split; [exact L|]. rewrite Y2.
  change (w ++ [254] ++ reg ++ [hi; lo]) with (w ++ [254] ++ reg ++ [hi; lo] ++ []). constructor; auto. constructor.
Qed.

Lemma k_sectors (f : cmd_fun) : speaks f -> (forall a b c, keeps (f a b c)) ->
  forall B (k : Z -> M B), (forall n, keeps (k n)) ->
  keeps (n <~ sd_sectors_nolock f ;; _ <~ upd_sd (fun s => set_sectors s n) ;; k n).
Proof.
  intros F K B k Kk s u s' H Js. apply mbind_ok in H as (n & s1 & E1 & H). apply mbind_ok in H as (u2 & s2 & E2 & H).
  refine (Kk n _ _ _ H _). inversion E2; subst u2 s2. clear E2 H.
  assert (J1 : J s1).
  { revert E1 Js. pose proof (k_data 16). assert (Q : keeps (sd_sectors_nolock f)) by (unfold sd_sectors_nolock; k). apply Q. }
  assert (Kn : n = 0 \/ exists csd, answered (log s1) 9 csd /\ n = csd_sectors csd).
  { unfold sd_sectors_nolock in E1. apply mbind_ok in E1 as ([st x] & s3 & E1 & E2).
    destruct (st =? 0) eqn:S0; cbn [negb] in E2; [|inversion E2; auto]. apply Z.eqb_eq in S0; subst st.
    apply mbind_ok in E2 as ([rc csd] & s4 & E2 & E3).
    destruct (rc =? 0) eqn:R0; cbn [negb] in E3; inversion E3; subst; [|auto]. apply Z.eqb_eq in R0; subst rc.
    right. exists csd. split; [|reflexivity]. eapply read_register; eauto; [unfold plain; lia|lia|apply Js]. }
  destruct J1 as [Ji [_ Jk]]. split; [exact Ji|]. split; [exact Kn|exact Jk].
Qed.

Lemma decode_oem cid : reg16 cid -> [ext_bits cid 119 112; ext_bits cid 111 104] = firstn 2 (skipn 1 cid).
Proof.
  intros R. rewrite !ext_bits_ok by (auto; lia).
  rewrite (byte_fields cid 1 ltac:(auto) ltac:(lia) : field (register cid) 119 112 = _), (byte_fields cid 2 ltac:(auto) ltac:(lia) : field (register cid) 111 104 = _). destruct R as [L _].
  do 16 (destruct cid as [|? cid]; [discriminate|]). reflexivity.
Qed.
Lemma decode_product cid : reg16 cid ->
  [ext_bits cid 103 96; ext_bits cid 95 88; ext_bits cid 87 80; ext_bits cid 79 72; ext_bits cid 71 64] = firstn 5 (skipn 3 cid).
Proof.
  intros R. rewrite !ext_bits_ok by (auto; lia).
  rewrite (byte_fields cid 3 ltac:(auto) ltac:(lia) : field (register cid) 103 96 = _),
    (byte_fields cid 4 ltac:(auto) ltac:(lia) : field (register cid) 95 88 = _),
    (byte_fields cid 5 ltac:(auto) ltac:(lia) : field (register cid) 87 80 = _),
    (byte_fields cid 6 ltac:(auto) ltac:(lia) : field (register cid) 79 72 = _),
    (byte_fields cid 7 ltac:(auto) ltac:(lia) : field (register cid) 71 64 = _).
  destruct R as [L _].
  do 16 (destruct cid as [|? cid]; [discriminate|]). reflexivity.
Qed.
Lemma register_app a b : register (a ++ b) = register a * 256 ^ Z.of_nat (length b) + register b.
Proof. unfold register at 1. rewrite fold_left_app. apply register_acc. Qed.
Lemma decode_serial cid : reg16 cid -> ext_bits cid 55 24 = register (firstn 4 (skipn 9 cid)).
Proof.
  intros R. rewrite ext_bits_ok by (auto; lia). destruct R as [L B]. unfold field.
  change (2 ^ (55 - 24 + 1)) with (256 ^ 4). change (2 ^ 24) with (256 ^ 3).
  do 16 (destruct cid as [|? cid]; [discriminate|]). destruct cid; [|discriminate].
  cbn [firstn skipn].
  change ([z; z0; z1; z2; z3; z4; z5; z6; z7; z8; z9; z10; z11; z12; z13; z14])
    with (([z; z0; z1; z2; z3; z4; z5; z6; z7] ++ [z8; z9; z10; z11]) ++ [z12; z13; z14]).
  rewrite register_app, register_app. cbn [length]. change (Z.of_nat 3) with 3. change (Z.of_nat 4) with 4.
  assert (R3 : 0 <= register [z12; z13; z14] < 256 ^ 3).
  { apply (register_range [z12; z13; z14]).
    repeat match goal with H : Forall byte (_ :: _) |- _ => inversion H; subst; clear H end. repeat (constructor; [assumption|]). constructor. }
  assert (R4 : 0 <= register [z8; z9; z10; z11] < 256 ^ 4).
  { apply (register_range [z8; z9; z10; z11]).
    repeat match goal with H : Forall byte (_ :: _) |- _ => inversion H; subst; clear H end. repeat (constructor; [assumption|]). constructor. }
  rewrite Z.div_add_l by (cbv; discriminate). rewrite (Z.div_small (register [z12; z13; z14])) by exact R3.
  rewrite Z.add_0_r, Z.add_comm, Z_mod_plus_full. apply Z.mod_small. exact R4.
Qed.

Lemma k_ident (f : cmd_fun) : speaks f -> (forall a b c, keeps (f a b c)) -> keeps (sd_identification_nolock f).
Proof.
  intros F K s u s' H Js. unfold sd_identification_nolock in H. apply mbind_ok in H as (u0 & s0 & E0 & H).
  inversion E0; subst u0 s0. clear E0.
  assert (J0 : J (set_ids s [0; 0] [0; 0; 0; 0; 0] 0)).
  { destruct Js as [Ji [Jk _]]. split; [exact Ji|]. split; [exact Jk|]. left. auto. }
  apply mbind_ok in H as ([st x] & s1 & E1 & H).
  pose proof (K _ _ _ _ _ _ E1 J0) as J1.
  destruct (st =? 0) eqn:S0; cbn [negb] in H; [|inversion H; subst; auto]. apply Z.eqb_eq in S0; subst st.
  apply mbind_ok in H as ([rc cid] & s2 & E2 & H). pose proof (k_data 16 _ _ _ E2 J1) as J2.
  destruct (rc =? 0) eqn:R0; cbn [negb] in H; [|inversion H; subst; auto]. apply Z.eqb_eq in R0; subst rc.
  inversion H; subst u s'. destruct J2 as [Ji [Jk _]]. split; [exact Ji|]. split; [exact Jk|]. right. exists cid.
  assert (A : answered (log s2) 10 cid).
  { eapply (read_register f 10 (set_ids s [0; 0] [0; 0; 0; 0; 0] 0)); [exact F|unfold plain; lia|lia|apply J0|exact E1|exact E2|reflexivity]. }
  split; [exact A|]. destruct A as [R _]. cbn. split; [now apply decode_oem|]. split; [now apply decode_product|now apply decode_serial].
Qed.

Lemma k_init (f : cmd_fun) : speaks f -> (forall a b c, keeps (f a b c)) -> keeps (sd_init_nolock f).
Proof.
  intros F Hf. 
  assert (Hm : keeps (sd_init_medium f)).
  { unfold sd_init_medium.
    assert (S1 : keeps (fun s => init_sequence (S (length (clk s))) s)).
    { apply (k_state (fun s => init_sequence (S (length (clk s))))). intros s.
      generalize (S (length (clk s))). intros n. pose proof (k_receive 10). induction n; cbn [init_sequence]; k. }
    assert (S2 : forall n l, keeps (go_idle_loop f n l)).
    { clear F. induction n; intros; cbn [go_idle_loop]; k. }
    assert (S3 : keeps (sd_cmd8 f)) by (clear F; unfold sd_cmd8; k).
    assert (S4 : forall a, keeps (fun s => acmd41_loop f (S (length (clk s))) a s)).
    { clear F. intros a. apply (k_state (fun s => acmd41_loop f (S (length (clk s))) a)). intros s.
      generalize (S (length (clk s))). intros n. induction n; cbn [acmd41_loop]; k. }
    clear F. unfold sd_go_idle_state. k. }
  unfold sd_init_nolock. apply k_bind; [k|]. intros _. apply k_bind; [exact Hm|]. intros err.
  destruct (negb (err =? 0)); [k|]. pose proof (k_ident f F Hf) as Ki.
  apply (k_sectors f F Hf _ (fun n => if n =? 0 then ret tt else _ <~ sd_identification_nolock f ;;
      '(st, _) <~ f 16 512 false ;; if negb (st =? 0) then ret tt else upd_sd (fun s => set_status s false (nodisk s)))).
  intros n. clear F. k.
Qed.

Lemma speaks_nested : speaks sd_cmd_nested.
Proof. intros cmd s x s' P Hc H. eapply sd_cmd_nested_ok; eauto. lia. Qed.
Lemma speaks_cmd : speaks sd_cmd.
Proof. intros cmd s x s' P Hc H. eapply sd_cmd_ok; eauto. lia. Qed.
Lemma k_nested a b c : keeps (sd_cmd_nested a b c).
Proof. apply k_cmd. discriminate. Qed.
Lemma k_sd_cmd a b c : keeps (sd_cmd a b c).
Proof. apply k_cmd. intros m E. inversion E; subst. apply k_init; [apply speaks_nested|apply k_nested]. Qed.

Lemma sd_init_known : keeps sd_init.
Proof.
  unfold sd_init. pose proof k_card_detect. pose proof (k_init sd_cmd speaks_cmd k_sd_cmd). k.
Qed.
Lemma sd_disk_read_known sector count : keeps (sd_disk_read sector count).
Proof.
  unfold sd_disk_read. assert (keeps (in_sd_read_blocks sector count)).
  { unfold in_sd_read_blocks. pose proof k_sd_cmd.
    assert (forall n, keeps (read_loop n)) by (pose proof (k_data 512); induction n; cbn [read_loop]; k). k. }
  k.
Qed.
Lemma k_ub {A} : keeps (fun _ => @Ub (A * sd)).
Proof. intros ? ? ? ?; discriminate. Qed.
Lemma sd_disk_write_known buf sector count : keeps (sd_disk_write buf sector count).
Proof.
  unfold sd_disk_write. assert (keeps (in_sd_write_blocks buf sector count)).
  { unfold in_sd_write_blocks. pose proof k_sd_cmd. pose proof (@k_ub (option Z)). pose proof (@k_ub unit).
    assert (forall d t, keeps (sd_write_block d t)).
    { intros. unfold sd_write_block. pose proof k_send. pose proof k_wait. k. }
    assert (keeps (fun s => write_loop (S (length (inp s))) buf count s)).
    { apply (k_state (fun s => write_loop (S (length (inp s))) buf count)). intros s. generalize (S (length (inp s))).
      intros n. revert buf count. induction n; intros; cbn [write_loop]; k. }
    cbv zeta. k. }
  k.
Qed.

(* --- what is not reported --- *)

Definition ready (i : list Z) (type n : Z) : sd := mkSd i [] [] [] n type false false [] [] 0.
Definition cut (i j : nat) (l : list (Z * Z)) := firstn (j - i) (skipn i l).

(* A high capacity card: command accepted, the data block answered with "write
   error", the status command answered with zeros. *)
Definition script1 : list Z :=
  [255] ++ [255] ++ repeat 255 6 ++ [0] ++ repeat 255 515 ++ [13] ++ [255] ++ [255; 255] ++ [255] ++ repeat 255 6 ++ [0; 0] ++ [255].

Lemma rejected_single : exists buf s s' a ex b, Forall byte buf /\ length buf = 512%nat /\
  sd_disk_write buf 5 1 s = Ok (DISK_OK, s') /\ log s' = a ++ ex ++ b /\ log s = [] /\ sends 254 ex [buf] [false].
Proof.
  exists (repeat 7 512), (ready script1 3 100).
  destruct (sd_disk_write (repeat 7 512) 5 1 (ready script1 3 100)) as [[d s']| |] eqn:E;
    [|vm_compute in E; discriminate|vm_compute in E; discriminate].
  exists s', (cut 0 9 (log s')), (cut 9 526 (log s')), (cut 526 2000 (log s')).
  split; [apply Forall_forall; intros x H; apply repeat_spec in H; unfold byte; lia|]. split; [reflexivity|].
  vm_compute in E. inversion E; subst d s'. clear E.
  split; [reflexivity|]. split; [reflexivity|]. split; [reflexivity|].
  match goal with |- sends _ (cut 9 526 ?l) _ _ =>
    let e := eval vm_compute in (cut 9 524 l) in
    apply (sends_block 254 e (repeat 7 512) 13 [(255, 255)] [] [] []) end.
  - vm_compute. reflexivity.
  - constructor; [reflexivity|constructor].
  - constructor.
Qed.

(* Two blocks: the first is rejected, the second never sent. *)
Definition script2 : list Z :=
  [255] ++ [255] ++ repeat 255 6 ++ [0] ++ [255] ++ repeat 255 6 ++ [0] ++ [255; 255] ++
  [255] ++ repeat 255 6 ++ [0] ++ repeat 255 515 ++ [11] ++ [255] ++ [255] ++ [255; 255] ++ [255] ++ repeat 255 6 ++ [0; 0] ++ [255].
Definition two_blocks : list Z := repeat 7 512 ++ repeat 9 512.
Lemma rejected_multi : exists s', sd_disk_write two_blocks 5 2 (ready script2 3 100) = Ok (DISK_OK, s') /\ inp s' = [] /\
  ~ In 9 (map fst (log s')).
Proof.
  destruct (sd_disk_write two_blocks 5 2 (ready script2 3 100)) as [[d s']| |] eqn:E;
    [|vm_compute in E; discriminate|vm_compute in E; discriminate].
  exists s'. assert (Q : existsb (Z.eqb 9) (map fst (log s')) = false).
  { vm_compute in E. inversion E; subst. vm_compute. reflexivity. }
  assert (Q2 : d = DISK_OK /\ inp s' = []) by (vm_compute in E; inversion E; subst; split; reflexivity).
  destruct Q2 as [-> Q2]. split; [reflexivity|]. split; [exact Q2|]. intros I. assert (existsb (Z.eqb 9) (map fst (log s')) = true) as T.
  { apply existsb_exists. exists 9. split; [exact I|reflexivity]. }
  congruence.
Qed.

(* Status bits 0 to 7 vanish when the card is also idle. *)
Lemma idle_hides r i s : byte r -> inp s = r :: i -> exists s', finish_cmd 13 1 s = Ok (0, 256 + r, s').
Proof.
  unfold byte. intros Hr E.
  change (finish_cmd 13 1) with (b <~ spi_write 255 ;; ret (r2_status (Z.lor 256 b) 0, Z.lor 256 b)).
  unfold mbind, spi_write, ret. rewrite E.
  assert (R : r2_status (Z.lor 256 r) 0 = 0 /\ Z.lor 256 r = 256 + r).
  { assert (Q : forallb (fun r => (r2_status (Z.lor 256 r) 0 =? 0) && (Z.lor 256 r =? 256 + r))
                  (map Z.of_nat (seq 0 256)) = true) by (vm_compute; reflexivity).
    rewrite forallb_forall in Q. specialize (Q r). rewrite andb_true_iff, !Z.eqb_eq in Q. apply Q.
    apply in_map_iff. exists (Z.to_nat r). split; [lia|]. apply in_seq. lia. }
  destruct R as [-> ->]. eexists. reflexivity.
Qed.

(* No blocks: one past the end of the card, a block is sent all the same; with an
   empty buffer that reads outside it. *)
Definition script0 : list Z :=
  [255] ++ [255] ++ repeat 255 6 ++ [0] ++ [255] ++ repeat 255 6 ++ [0] ++ [255; 255] ++ [255] ++ repeat 255 6 ++ [0].
Lemma zero_count : sd_disk_write [] 100 0 (ready script0 3 100) = Ub.
Proof. vm_compute. reflexivity. Qed.

(* --- a card that follows the protocol --- *)
Definition ok_cmd (r : list Z) : list Z := [255] ++ repeat 255 6 ++ r.
Definition deliver (d : list Z) : list Z := [255; 254] ++ d ++ [crc16 d / 256; crc16 d mod 256].
Definition csd_8g : list Z := [64; 14; 0; 50; 91; 89; 0; 0; 59; 55; 127; 128; 10; 64; 0; 1].
Definition csd_1g : list Z := [0; 38; 0; 50; 95; 89; 131; 200; 173; 219; 207; 255; 210; 64; 64; 1].
Definition csd_2t : list Z := [64; 14; 0; 50; 91; 89; 0; 63; 255; 255; 127; 128; 10; 64; 0; 1].
Definition cid_1 : list Z := [3; 83; 68; 83; 85; 48; 56; 71; 128; 18; 52; 86; 120; 0; 100; 1].
Definition init_script : list Z :=
  [255] ++ repeat 255 10 ++ ok_cmd [1] ++ ok_cmd [1; 0; 0; 1; 170] ++ ok_cmd [1] ++ ok_cmd [1; 0; 255; 128; 0] ++
  ok_cmd [1; 255] ++ repeat 255 6 ++ [0] ++ ok_cmd [0; 192; 255; 128; 0] ++ ok_cmd [0] ++ deliver csd_8g ++
  ok_cmd [0] ++ deliver cid_1 ++ ok_cmd [0] ++ [255].
Definition sector_7 : list Z := repeat 7 512.
Definition read_script : list Z := [255] ++ ok_cmd [0] ++ deliver sector_7 ++ deliver (repeat 8 512) ++ [255] ++ repeat 255 6 ++ [0; 255] ++ [255].
Definition write_script : list Z :=
  [255] ++ ok_cmd [0] ++ repeat 255 515 ++ [229] ++ [0; 0; 255] ++ [255; 255] ++ ok_cmd [0; 0] ++ [255].
Definition cold (i : list Z) : sd := mkSd i [false; true; true; true; true; true; true] [true] [] 0 0 true false [0; 0] [0; 0; 0; 0; 0] 0.

(* --- the disk interface --- *)
Lemma dresult_ok rc : sdrc2dresult rc = DISK_OK -> rc = 0.
Proof.
  unfold sdrc2dresult, E_NONE. destruct (rc =? 0) eqn:E; [lia|].
  repeat match goal with |- context [if ?c then _ else _] => destruct c end; discriminate.
Qed.
Lemma spi_write_same v s b s' : spi_write v s = Ok (b, s') ->
  sectors s' = sectors s /\ noinit s' = noinit s /\ nodisk s' = nodisk s /\ card_type s' = card_type s.
Proof. unfold spi_write. destruct (inp s); intros H; inversion H; subst; cbn; auto. Qed.

Lemma disk_read_ok sector count s data s' : Forall byte (inp s) -> 0 <= sector -> 0 <= count ->
  sd_disk_read sector count s = Ok ((DISK_OK, data), s') ->
  sector + count <= sectors s /\ noinit s = false /\ nodisk s = false /\
  exists a b c ex e ds, log s' = log s ++ a ++ b ++ c ++ ex ++ e /\
    map fst b = frame (if 1 <? count then 18 else 17) (card_address s sector) /\ (length c <= 16)%nat /\
    carries 512 (map snd ex) ds /\ data = concat ds /\ Z.of_nat (length ds) = count.
Proof.
  intros B Hs Hc H. unfold sd_disk_read in H. apply mbind_ok in H as (x & s1 & E1 & H).
  apply mbind_ok in H as ([rc d] & s2 & E2 & H). apply mbind_ok in H as (y & s3 & E3 & H). inversion H; subst d s3. symmetry in H1; apply eq_sym, dresult_ok in H1; subst rc.
  destruct (spi_write_same _ _ _ _ E1) as (A1 & A2 & A3 & A4). apply spi_write_step in E1, E3.
  destruct (step_bytes _ _ _ E1 B) as [_ B1].
  destruct (sd_read_ok _ _ _ _ _ B1 Hs Hc E2) as (R1 & R2 & R3 & a & b & c & ex & e & ds & L & F & Lc & C & D & N).
  rewrite A1 in R1. rewrite A2 in R2. rewrite A3 in R3. split; [auto|]. split; [auto|]. split; [auto|].
  exists ([(255, x)] ++ a), b, c, ex, (e ++ [(255, y)]), ds. destruct E1 as [E1 _]. destruct E3 as [E3 _].
  split; [rewrite E3, L, E1, <- !app_assoc; reflexivity|]. unfold card_address in *. rewrite A4 in F. auto.
Qed.

Lemma disk_write_ok buf sector count s s' : Forall byte buf -> 0 <= sector -> 0 < count < 4294967296 ->
  Z.of_nat (length buf) = 512 * count ->
  sd_disk_write buf sector count s = Ok (DISK_OK, s') ->
  sector + count <= sectors s /\ noinit s = false /\ nodisk s = false /\
  exists a b c ex e ds vs v, log s' = log s ++ a ++ b ++ c ++ ex ++ e /\
    map fst b = frame (if count =? 1 then 24 else 25) (card_address s sector) /\ (length c <= 16)%nat /\
    sends (if count =? 1 then 254 else 252) ex ds (vs ++ [v]) /\ Forall (fun x => x = true) vs /\
    ds = firstn (length ds) (blocks_of (Z.to_nat count) buf) /\ (v = false \/ Z.of_nat (length ds) = count).
Proof.
  intros B Hs Hc Hl H. unfold sd_disk_write in H. apply mbind_ok in H as (x & s1 & E1 & H).
  apply mbind_ok in H as (rc & s2 & E2 & H). apply mbind_ok in H as (y & s3 & E3 & H). inversion H; subst s3. symmetry in H1; apply eq_sym, dresult_ok in H1; subst rc.
  destruct (spi_write_same _ _ _ _ E1) as (A1 & A2 & A3 & A4). apply spi_write_step in E1, E3.
  destruct (sd_write_ok _ _ _ _ _ B Hs Hc Hl E2) as (R1 & R2 & R3 & a & b & c & ex & e & ds & vs & v & L & F & W).
  rewrite A1 in R1. rewrite A2 in R2. rewrite A3 in R3. split; [auto|]. split; [auto|]. split; [auto|].
  exists ([(255, x)] ++ a), b, c, ex, (e ++ [(255, y)]), ds, vs, v. destruct E1 as [E1 _]. destruct E3 as [E3 _].
  split; [rewrite E3, L, E1, <- !app_assoc; reflexivity|]. unfold card_address in *. rewrite A4 in F. auto.
Qed.

(* Accepted blocks make up the whole buffer. *)
Lemma blocks_concat n : forall buf, length buf = (512 * n)%nat -> concat (blocks_of n buf) = buf.
Proof.
  induction n; intros buf L; cbn [blocks_of concat]; [destruct buf; [reflexivity|discriminate]|].
  rewrite IHn by (rewrite skipn_length; lia). apply firstn_skipn.
Qed.
Lemma blocks_length n : forall buf, length (blocks_of n buf) = n.
Proof. induction n; intros; cbn; auto. Qed.
Lemma sends_length t ex ds vs : sends t ex ds vs -> length ds = length vs.
Proof. induction 1; cbn; congruence. Qed.

Lemma known_init s s' u : Forall byte (inp s) -> known s -> sd_init s = Ok (u, s') -> known s'.
Proof. intros B K H. eapply sd_init_known; [exact H|split; auto]. Qed.
Lemma known_read sector count s s' r : Forall byte (inp s) -> known s -> sd_disk_read sector count s = Ok (r, s') -> known s'.
Proof. intros B K H. eapply sd_disk_read_known; [exact H|split; auto]. Qed.
Lemma known_write buf sector count s s' r : Forall byte (inp s) -> known s ->
  sd_disk_write buf sector count s = Ok (r, s') -> known s'.
Proof. intros B K H. eapply sd_disk_write_known; [exact H|split; auto]. Qed.

Lemma two_tb : exists csd, reg16 csd /\ capacity_sectors (register csd) = 4294967296 /\ csd_sectors csd = 0.
Proof.
  exists csd_2t. split; [|split; reflexivity]. split; [reflexivity|]. apply Forall_forall. intros x H.
  assert (Q : forallb (fun x => (0 <=? x) && (x <? 256)) csd_2t = true) by reflexivity.
  rewrite forallb_forall in Q. specialize (Q x H). unfold byte. lia.
Qed.
