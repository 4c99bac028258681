(* Proofs about ZmModel: bytes on the line, headers, data blocks. *)
From Verif Require Import Base Arr ArrLemmas Finite CrcModel CrcSpec CrcProof CrcProof2 ZmModel ZmSpec.
Open Scope Z_scope.

Lemma by8 (f : Z -> bool) : allb 8 f 0 = true -> forall c, byte c -> f c = true.
Proof. intros H c Hc. apply (allb0 8 f H). exact Hc. Qed.

(* --- hexadecimal digits --- *)

Lemma hexdigits_ok b : byte b -> zm_byte_to_hex b = hexdigits b /\ Forall byte (hexdigits b) /\
  zm_hex_to_byte (nth 0 (hexdigits b) 0) (nth 1 (hexdigits b) 0) = b.
Proof.
  intros Hb.
  pose proof (by8 (fun b => (nth 0 (zm_byte_to_hex b) 0 =? nth 0 (hexdigits b) 0) && (nth 1 (zm_byte_to_hex b) 0 =? nth 1 (hexdigits b) 0) &&
    (0 <=? nth 0 (hexdigits b) 0) && (nth 0 (hexdigits b) 0 <? 256) && (0 <=? nth 1 (hexdigits b) 0) && (nth 1 (hexdigits b) 0 <? 256) &&
    (zm_hex_to_byte (nth 0 (hexdigits b) 0) (nth 1 (hexdigits b) 0) =? b)) eq_refl b Hb) as H.
  cbv beta in H. repeat (apply andb_true_iff in H; destruct H as [H ?]).
  split; [|split].
  - unfold zm_byte_to_hex, hexdigits in *. cbn [map nth] in *. f_equal; [lia|]. f_equal. lia.
  - unfold hexdigits in *. cbn [map nth] in *. unfold byte. repeat constructor; lia.
  - lia.
Qed.

Lemma hex_digit_only c : byte c -> zm_hex_to_nybble c = BAD_DIGIT \/ (0 <= zm_hex_to_nybble c < 16 /\ zm_nybble_to_hex (zm_hex_to_nybble c) = c).
Proof.
  intros Hc. unfold zm_hex_to_nybble, zm_nybble_to_hex.
  destruct (48 <=? c) eqn:A, (c <=? 57) eqn:B; cbn [andb].
  { right. split; [lia|]. destruct (0 <=? c - 48) eqn:D, (c - 48 <=? 9) eqn:E; cbn [andb]; lia. }
  all: destruct (97 <=? c) eqn:D, (c <=? 102) eqn:E; cbn [andb]; try (left; reflexivity); right; (split; [lia|]);
    destruct (0 <=? c - 87) eqn:F, (c - 87 <=? 9) eqn:G; cbn [andb]; try lia;
    destruct (10 <=? c - 87) eqn:I, (c - 87 <=? 15) eqn:J; cbn [andb]; lia.
Qed.

Lemma nybble_round n : 0 <= n < 16 -> byte (zm_nybble_to_hex n) /\ zm_hex_to_nybble (zm_nybble_to_hex n) = n.
Proof.
  intros H.
  pose proof (allb0 4 (fun n => (0 <=? zm_nybble_to_hex n) && (zm_nybble_to_hex n <? 256) && (zm_hex_to_nybble (zm_nybble_to_hex n) =? n)) eq_refl n H) as E.
  cbv beta in E. unfold byte. lia.
Qed.

(* --- reading one symbol --- *)

Definition code (v : symbol) : Z := match v with Byte c => c | Mark k => Z.lor FIN k end.
Definition sym_ok (v : symbol) : Prop := match v with Byte c => byte c | Mark k => 104 <= k <= 107 end.

Lemma ctl c : byte c -> is_error c = false /\ is_fin c = false /\ zvalue c = c /\ (noncontrol c = negb (c <? 32)).
Proof.
  intros Hc.
  pose proof (by8 (fun c => negb (is_error c) && negb (is_fin c) && (zvalue c =? c) && Bool.eqb (noncontrol c) (negb (c <? 32))) eq_refl c Hc) as H.
  cbv beta in H. repeat (apply andb_true_iff in H; destruct H as [H ?]).
  rewrite negb_true_iff in *. apply eqb_prop in H0. repeat split; auto; lia.
Qed.

Lemma code_ok v : sym_ok v -> is_error (code v) = false /\ zvalue (code v) = loose v /\ byte (loose v) /\
  is_fin (code v) = match v with Byte _ => false | Mark _ => true end.
Proof.
  destruct v as [c|k]; cbn.
  - intros H. destruct (ctl c H) as (? & ? & ? & ?). auto.
  - intros H. assert (k = 104 \/ k = 105 \/ k = 106 \/ k = 107) as [->|[->|[->| ->]]] by lia; repeat split; cbn; try lia; discriminate.
Qed.

Lemma sym_is_ok v bs : sym v bs -> sym_ok v.
Proof. induction 1; cbn; auto; unfold byte; lia. Qed.

Lemma sym_bytes v bs : sym v bs -> Forall byte bs.
Proof.
  assert (R : forall n, Forall byte (repeat 24 n)) by (induction n; constructor; auto; unfold byte; lia).
  induction 1; repeat constructor; auto; try (unfold byte; lia); try (unfold byte in *; lia); apply Forall_app; split; auto; repeat constructor; unfold byte in *; try lia;
  destruct (byte_lxor c 64 ltac:(assumption) ltac:(unfold byte; lia)); lia.
Qed.

Lemma after_cans n e r : (n <= 3)%nat -> byte e -> e <> 24 -> after_zdle false (repeat 24 n ++ e :: r) = Some (esc_value e, r).
Proof.
  intros Hn He Hne. destruct (ctl e He) as (Ee & _). unfold after_zdle, recv.
  assert (Q : next_can false (e, r) = Some (e, r)) by (cbn; rewrite Ee; replace (e =? CAN) with false by (unfold CAN; lia); reflexivity).
  assert (n = 0 \/ n = 1 \/ n = 2 \/ n = 3)%nat as [->|[->|[->| ->]]] by lia; cbn [repeat app andb].
  - cbn [obind]. rewrite Q. cbn [obind]. rewrite Q. cbn [obind]. rewrite Q. reflexivity.
  - change (next_can false (24, e :: r)) with (Some (e, r)). cbn [obind]. rewrite Q. cbn [obind]. rewrite Q. reflexivity.
  - change (next_can false (24, 24 :: e :: r)) with (Some (24, e :: r)). cbn [obind].
    change (next_can false (24, e :: r)) with (Some (e, r)). cbn [obind]. rewrite Q. reflexivity.
  - change (next_can false (24, 24 :: 24 :: e :: r)) with (Some (24, 24 :: e :: r)). cbn [obind].
    change (next_can false (24, 24 :: e :: r)) with (Some (24, e :: r)). cbn [obind].
    change (next_can false (24, e :: r)) with (Some (e, r)). reflexivity.
Qed.

Lemma esc_facts c : byte c -> Z.land c 96 = 0 -> byte (Z.lxor c 64) /\ Z.lxor c 64 <> 24 /\ esc_value (Z.lxor c 64) = c.
Proof.
  intros Hc He.
  pose proof (by8 (fun c => implb (Z.land c 96 =? 0) (negb (Z.lxor c 64 =? 24) && (esc_value (Z.lxor c 64) =? c))) eq_refl c Hc) as H.
  cbv beta in H. replace (Z.land c 96 =? 0) with true in H by lia. cbn [implb] in H.
  split; [apply byte_lxor; [auto|unfold byte; lia]|lia].
Qed.

Lemma read_zdle bs : read_escaped false (24 :: bs) = after_zdle false bs.
Proof. reflexivity. Qed.

Lemma read_sym v bs r : sym v bs -> read_escaped false (bs ++ r) = Some (code v, r).
Proof.
  induction 1 as [f v bs [-> | ->] H IH|c Hc H1 H2 H3|n c Hn Hc He|n Hn|n Hn|n k Hn Hk].
  - exact IH.
  - exact IH.
  - destruct (ctl c Hc) as (E1 & E2 & E3 & E4). cbn [app read_escaped]. unfold recv. cbn [andb]. rewrite E4, E1, orb_false_r.
    destruct (c <? 32) eqn:L; cbn [negb]; [|reflexivity].
    unfold XON, XOFF, ZDLE. change (Z.lor 17 128) with 145. change (Z.lor 19 128) with 147.
    replace (c =? 17) with false by lia. replace (c =? 145) with false by lia. replace (c =? 19) with false by lia.
    replace (c =? 147) with false by lia. replace (c =? 24) with false by lia. reflexivity.
  - cbn [app]. rewrite read_zdle, <- app_assoc. cbn [app]. destruct (esc_facts c Hc He) as (A & B & D). rewrite after_cans; auto. rewrite D. reflexivity.
  - cbn [app]. rewrite read_zdle, <- app_assoc. cbn [app]. rewrite after_cans; auto; unfold byte; lia.
  - cbn [app]. rewrite read_zdle, <- app_assoc. cbn [app]. rewrite after_cans; auto; unfold byte; lia.
  - cbn [app]. rewrite read_zdle, <- app_assoc. cbn [app]. rewrite after_cans; auto; unfold byte; try lia.
    assert (k = 104 \/ k = 105 \/ k = 106 \/ k = 107) as [->|[->|[->| ->]]] by lia; reflexivity.
Qed.

(* The other way round: whatever is read without error is a symbol. *)
Lemma esc_inv e : byte e -> is_error (esc_value e) = false ->
  (exists c, byte c /\ Z.land c 96 = 0 /\ e = Z.lxor c 64 /\ esc_value e = c) \/
  (e = 108 /\ esc_value e = 127) \/ (e = 109 /\ esc_value e = 255) \/ (104 <= e <= 107 /\ esc_value e = Z.lor FIN e).
Proof.
  intros He H.
  pose proof (by8 (fun e => is_error (esc_value e) || ((e =? 108) && (esc_value e =? 127)) || ((e =? 109) && (esc_value e =? 255)) ||
    ((104 <=? e) && (e <=? 107) && (esc_value e =? Z.lor FIN e)) ||
    ((Z.land (Z.lxor e 64) 96 =? 0) && (esc_value e =? Z.lxor e 64))) eq_refl e He) as Q.
  cbv beta in Q. rewrite H in Q. cbn [orb] in Q.
  repeat (apply orb_true_iff in Q; destruct Q as [Q|Q]).
  - right. left. lia.
  - right. right. left. lia.
  - right. right. right. lia.
  - left. exists (Z.lxor e 64). split; [apply byte_lxor; [auto|unfold byte; lia]|]. split; [lia|]. split; [|lia].
    rewrite Z.lxor_assoc. change (Z.lxor 64 64) with 0. rewrite Z.lxor_0_r. reflexivity.
Qed.

Lemma after_inv inp c r : Forall byte inp -> after_zdle false inp = Some (c, r) -> is_error c = false ->
  exists n e, (n <= 3)%nat /\ inp = repeat 24 n ++ e :: r /\ byte e /\ c = esc_value e.
Proof.
  intros Hb H Hc. unfold after_zdle, recv in H. cbn [andb] in H.
  destruct inp as [|b1 t1]; [discriminate|]. inversion Hb as [|x1 y1 B1 Hb1]; subst.
  destruct (ctl b1 B1) as (E1 & _). cbn [next_can] in H. rewrite E1 in H.
  destruct (b1 =? CAN) eqn:C1.
  2: { cbn [obind next_can] in H. rewrite E1, C1 in H. cbn [obind next_can] in H. rewrite E1, C1 in H. cbn in H. inversion H; subst. exists 0%nat, b1. repeat split; auto; unfold byte in *; lia. }
  apply Z.eqb_eq in C1. unfold CAN in C1. subst b1.
  destruct t1 as [|b2 t2]; [discriminate|]. inversion Hb1 as [|x2 y2 B2 Hb2]; subst. unfold recv in H. cbn [andb obind] in H.
  destruct (ctl b2 B2) as (E2 & _). cbn [next_can] in H. rewrite E2 in H.
  destruct (b2 =? CAN) eqn:C2.
  2: { cbn [obind next_can] in H. rewrite E2, C2 in H. cbn in H. inversion H; subst. exists 1%nat, b2. repeat split; auto; unfold byte in *; lia. }
  apply Z.eqb_eq in C2. unfold CAN in C2. subst b2.
  destruct t2 as [|b3 t3]; [discriminate|]. inversion Hb2 as [|x3 y3 B3 Hb3]; subst. unfold recv in H. cbn [andb obind] in H.
  destruct (ctl b3 B3) as (E3 & _). cbn [next_can] in H. rewrite E3 in H.
  destruct (b3 =? CAN) eqn:C3.
  2: { cbn in H. inversion H; subst. exists 2%nat, b3. repeat split; auto; unfold byte in *; lia. }
  apply Z.eqb_eq in C3. unfold CAN in C3. subst b3.
  destruct t3 as [|b4 t4]; [discriminate|]. inversion Hb3 as [|x4 y4 B4 Hb4]; subst. unfold recv in H. cbn [andb obind] in H.
  cbn in H. inversion H; subst. exists 3%nat, b4. repeat split; auto; unfold byte in *; lia.
Qed.

Lemma read_inv inp : Forall byte inp -> forall c r, read_escaped false inp = Some (c, r) -> is_error c = false ->
  exists v bs, sym v bs /\ inp = bs ++ r /\ c = code v.
Proof.
  induction 1 as [|b t Hb Ht IH]; intros c r H Hc; [discriminate|].
  cbn [read_escaped] in H. unfold recv in H. cbn [andb] in H.
  destruct (ctl b Hb) as (E1 & E2 & E3 & E4). rewrite E1, E4, orb_false_r in H.
  destruct (b <? 32) eqn:L; cbn [negb] in H.
  2: { inversion H; subst. exists (Byte c), [c]. split; [apply sym_plain; auto; lia|]. auto. }
  destruct ((b =? XON) || (b =? Z.lor XON 128) || (b =? XOFF) || (b =? Z.lor XOFF 128)) eqn:F.
  { destruct (IH c r H Hc) as (v & bs & S & -> & ->). exists v, (b :: bs). split; [|auto]. constructor; auto.
    unfold XON, XOFF in F. change (Z.lor 17 128) with 145 in F. change (Z.lor 19 128) with 147 in F. lia. }
  unfold XON, XOFF in F. change (Z.lor 17 128) with 145 in F. change (Z.lor 19 128) with 147 in F.
  destruct (b =? ZDLE) eqn:D; unfold ZDLE in D.
  2: { inversion H; subst. exists (Byte c), [c]. split; [apply sym_plain; auto; lia|]. auto. }
  assert (b = 24) by lia. subst b.
  destruct (after_inv t c r Ht H Hc) as (n & e & Hn & -> & He & ->).
  destruct (esc_inv e He Hc) as [(x & X1 & X2 & -> & X3)|[(-> & X)|[(-> & X)|(X1 & X2)]]].
  - exists (Byte x), (24 :: repeat 24 n ++ [Z.lxor x 64]). split; [apply sym_esc; auto|]. rewrite X3. cbn [app code]. rewrite <- app_assoc. auto.
  - exists (Byte 127), (24 :: repeat 24 n ++ [108]). split; [apply sym_7f; auto|]. cbn [app code]. rewrite <- app_assoc. auto.
  - exists (Byte 255), (24 :: repeat 24 n ++ [109]). split; [apply sym_ff; auto|]. cbn [app code]. rewrite <- app_assoc. auto.
  - exists (Mark e), (24 :: repeat 24 n ++ [e]). split; [apply sym_mark; auto|]. rewrite X2. cbn [app code]. rewrite <- app_assoc. auto.
Qed.

Lemma usual_ok c : byte c -> sym (Byte c) (usual c).
Proof.
  intros Hc. unfold usual.
  destruct (existsb (Z.eqb (Z.land c 127)) [24; 16; 17; 19]) eqn:E.
  - apply (sym_esc 0 c); auto.
    pose proof (by8 (fun c => implb (existsb (Z.eqb (Z.land c 127)) [24; 16; 17; 19]) (Z.land c 96 =? 0)) eq_refl c Hc) as H.
    cbv beta in H. rewrite E in H. cbn [implb] in H. lia.
  - apply sym_plain; auto; intros ->; discriminate E.
Qed.

Lemma usual_list data : Forall byte data -> enc data (flat_map usual data).
Proof. unfold enc. induction 1; cbn [map flat_map]; constructor; auto. apply usual_ok. auto. Qed.

(* --- reading several --- *)

Lemma syms_app vs ws bs cs : syms vs bs -> syms ws cs -> syms (vs ++ ws) (bs ++ cs).
Proof. induction 1; cbn; auto. intros. rewrite <- app_assoc. constructor; auto. Qed.

Lemma read_bytes_syms vs bs r : syms vs bs -> read_bytes false (length vs) (bs ++ r) = Some (inr (map loose vs), r).
Proof.
  induction 1 as [|v vs bs cs Hv Hvs IH]; cbn [length read_bytes map]; [reflexivity|].
  rewrite <- app_assoc. rewrite (read_sym _ _ _ Hv). cbn [obind].
  destruct (code_ok v (sym_is_ok _ _ Hv)) as (A & B & _). rewrite A, IH. cbn [obind]. rewrite B. reflexivity.
Qed.

Lemma read_bytes_enc data bs r : enc data bs -> read_bytes false (length data) (bs ++ r) = Some (inr data, r).
Proof.
  intros H. pose proof (read_bytes_syms _ _ r H) as E. rewrite map_length in E. rewrite E.
  rewrite map_map. cbn [loose]. rewrite map_id. reflexivity.
Qed.

Lemma read_bytes_inv n : forall inp l r, Forall byte inp -> read_bytes false n inp = Some (inr l, r) ->
  exists vs bs, syms vs bs /\ inp = bs ++ r /\ l = map loose vs /\ length vs = n.
Proof.
  induction n as [|n IH]; intros inp l r Hb H; cbn [read_bytes] in H.
  - inversion H; subst. exists [], []. repeat split; auto. constructor.
  - destruct (read_escaped false inp) as [[c t]|] eqn:E; [|discriminate]. cbn [obind] in H.
    destruct (is_error c) eqn:Ec; [discriminate|].
    destruct (read_inv inp Hb c t E Ec) as (v & bs & S & -> & ->).
    destruct (read_bytes false n t) as [[[e|l'] t']|] eqn:E2; cbn [obind] in H; try discriminate.
    inversion H; subst. apply Forall_app in Hb. destruct Hb as [_ Hb].
    destruct (IH _ _ _ Hb E2) as (vs & cs & Sv & -> & -> & L).
    exists (v :: vs), (bs ++ cs). split; [constructor; auto|]. rewrite <- app_assoc. split; [auto|]. split; [|cbn; auto].
    cbn [map]. destruct (code_ok v (sym_is_ok _ _ S)) as (_ & B & _). rewrite B. reflexivity.
Qed.

(* --- check sequences --- *)

Lemma msb_first_app a b : msb_first (a ++ b) = msb_first a ++ msb_first b.
Proof. apply flat_map_app. Qed.

Lemma lor_add a b n : 0 <= n -> 0 <= b < 2 ^ n -> 0 <= a -> Z.lor (Z.shiftl a n) b = a * 2 ^ n + b.
Proof.
  intros Hn Hb Ha. rewrite Z.shiftl_mul_pow2 by lia.
  assert (L : Z.land (a * 2 ^ n) b = 0); [|rewrite <- Z.lxor_lor, Z.add_nocarry_lxor by auto; reflexivity].
  apply Z.bits_inj'. intros m Hm. rewrite Z.land_spec, Z.bits_0.
  destruct (Z.lt_ge_cases m n).
  - rewrite Z.mul_pow2_bits_low; auto.
  - destruct (Z.eq_dec b 0); [subst; rewrite Z.bits_0; apply andb_false_r|].
    rewrite (Z.bits_above_log2 b m); [apply andb_false_r|lia|]. apply Z.log2_lt_pow2; [lia|]. apply Z.lt_le_trans with (2 ^ n); [lia|]. apply Z.pow_le_mono_r; lia.
Qed.

Lemma btow_bits a b : byte a -> byte b -> msb_bits 16 (BTOW a b) = msb_first [a; b] /\ 0 <= BTOW a b < 65536.
Proof.
  intros Ha Hb. unfold BTOW, byte in *.
  assert (E : Z.lor (Z.shiftl a 8) b = a * 256 + b).
  { rewrite lor_add by (cbn; lia). reflexivity. }
  split; [|lia].
  rewrite split16. unfold msb_first. cbn [flat_map]. rewrite app_nil_r. f_equal.
  - rewrite E. rewrite Z.shiftr_div_pow2 by lia. change (2 ^ 8) with 256. f_equal. lia.
  - rewrite E. change 8%nat with (8)%nat. rewrite <- (msb_mod 8 (a * 256 + b)), <- (msb_mod 8 b). f_equal. change (2 ^ Z.of_nat 8) with 256. lia.
Qed.

Lemma msb_inj w a b : 0 <= a < 2 ^ Z.of_nat w -> 0 <= b < 2 ^ Z.of_nat w -> msb_bits w a = msb_bits w b -> a = b.
Proof.
  intros Ha Hb H. apply (lsb_inj w); auto. unfold msb_bits in H. apply (f_equal (@rev bool)) in H. rewrite !rev_involutive in H. auto.
Qed.

Lemma crc16_cks data a b : Forall byte data -> byte a -> byte b ->
  (is_crc false data [a; b] <-> BTOW a b = zm_calc_data_crc data).
Proof.
  intros Hd Ha Hb. destruct (btow_bits a b Ha Hb) as [E R]. destruct (crc16_rz data Hd) as [F S].
  unfold is_crc. split.
  - intros (_ & _ & H). apply (msb_inj 16); auto. rewrite E, F, H. reflexivity.
  - intros H. repeat split; auto. rewrite <- E, <- F, H. reflexivity.
Qed.

Lemma btodw_val a b c d : byte a -> byte b -> byte c -> byte d -> BTODW a b c d = a + 256 * (b + 256 * (c + 256 * d)).
Proof.
  unfold byte, BTODW. intros.
  rewrite <- !Z.lor_assoc.
  rewrite (lor_add b a 8) by (cbn; lia). change (2 ^ 8) with 256.
  rewrite (lor_add c (b * 256 + a) 16) by (change (2 ^ 16) with 65536; lia). change (2 ^ 16) with 65536.
  rewrite (lor_add d (c * 65536 + (b * 256 + a)) 24) by (change (2 ^ 24) with 16777216; lia). change (2 ^ 24) with 16777216. lia.
Qed.

Lemma lsb_cons8 x y n : byte x -> lsb_bits (8 + n) (x + 256 * y) = lsb_bits 8 x ++ lsb_bits n y.
Proof.
  intros Hx. unfold lsb_bits. rewrite seq_app, map_app. f_equal.
  - apply map_ext_in. intros i Hi. apply in_seq in Hi. rewrite <- (Z.mod_pow2_bits_low (x + 256 * y) 8) by lia.
    change (2 ^ 8) with 256. rewrite (Z.mul_comm 256), Z_mod_plus_full, Z.mod_small by auto. reflexivity.
  - rewrite <- seq_shift, map_map || idtac.
    change (seq (0 + 8) n) with (seq 8 n).
    assert (H : forall k m, map (fun i => Z.testbit (x + 256 * y) (Z.of_nat i)) (seq (8 + k) m) = map (fun i => Z.testbit y (Z.of_nat i)) (seq k m)).
    { intros k m. revert k. induction m as [|m IH]; intros k; cbn [seq map]; [reflexivity|]. f_equal; [|apply (IH (S k))].
      replace (Z.of_nat (8 + k)) with (Z.of_nat k + 8) by lia. rewrite <- Z.div_pow2_bits by lia. change (2 ^ 8) with 256.
      f_equal. unfold byte in Hx. lia. }
    apply (H 0%nat).
Qed.

Lemma crc32_cks data a b c d : Forall byte data -> byte a -> byte b -> byte c -> byte d ->
  (is_crc true data [a; b; c; d] <-> BTODW a b c d = zm_calc_data_crc32 data).
Proof.
  intros Hd Ha Hb Hc Hdd. rewrite btodw_val by auto. destruct (crc32_rz data Hd) as [F S].
  assert (E : lsb_bits 32 (a + 256 * (b + 256 * (c + 256 * d))) = lsb_first [a; b; c; d]).
  { change 32%nat with (8 + (8 + (8 + 8)))%nat. rewrite !lsb_cons8 by auto. unfold lsb_first. cbn [flat_map]. rewrite app_nil_r. reflexivity. }
  unfold is_crc. split.
  - intros (_ & _ & H). apply (lsb_inj 32); auto; [change (2 ^ Z.of_nat 32) with 4294967296; unfold byte in *; lia|]. rewrite E, F, H. reflexivity.
  - intros H. split; [repeat (constructor; auto)|]. split; [reflexivity|]. rewrite <- E, <- F, H. reflexivity.
Qed.
