(* Proofs about ZmModel: headers and data blocks. *)
From Verif Require Import Base BaseLemmas Arr ArrLemmas Finite CrcModel CrcSpec CrcProof CrcProof2 ZmModel ZmSpec ZmProof.
Open Scope Z_scope.

Lemma await_skip skip r : Forall byte skip -> ~ In 24 skip -> await_zdle false (skip ++ 24 :: r) = Some (OK, r).
Proof.
  induction 1 as [|c t Hc Ht IH]; intros N; [reflexivity|].
  cbn [app await_zdle]. unfold recv. cbn [andb]. destruct (ctl c Hc) as (E & _). rewrite E.
  replace (c =? ZDLE) with false; [apply IH; intros H; apply N; right; auto|].
  unfold ZDLE. assert (c <> 24) by (intros ->; apply N; left; auto). lia.
Qed.

Lemma read_hex h : Forall byte h -> forall r, read_hex_bytes false (length h) (flat_map hexdigits h ++ r) = Some (inr h, r).
Proof.
  induction 1 as [|b t Hb Ht IH]; intros r; [reflexivity|].
  cbn [length read_hex_bytes flat_map]. rewrite <- app_assoc.
  destruct (hexdigits_ok b Hb) as (E1 & E2 & E3).
  unfold hexdigits in *. cbn [map nth app] in *.
  set (x := if b / 16 <? 10 then _ else _) in *. set (y := if b mod 16 <? 10 then _ else _) in *.
  pose proof (Forall_inv E2) as Hx. pose proof (Forall_inv (Forall_inv_tail E2)) as Hy.
  destruct (ctl x Hx) as (X1 & _ & X2 & _). destruct (ctl y Hy) as (Y1 & _ & Y2 & _). destruct (ctl b Hb) as (B1 & _ & B2 & _).
  unfold recv. cbn [andb]. rewrite X1, Y1, X2, Y2, E3, B1, B2.
  assert (Nx : x <> 11) by (unfold x; unfold byte in Hb; destruct (b / 16 <? 10) eqn:Q; lia).
  assert (Ny : y <> 11) by (unfold y; unfold byte in Hb; destruct (b mod 16 <? 10) eqn:Q; lia).
  unfold ZEOF. replace (x =? 11) with false by lia. replace (y =? 11) with false by lia.
  rewrite IH. reflexivity.
Qed.

Lemma list5 (h : list Z) : length h = 5%nat -> exists a b c d e, h = [a; b; c; d; e].
Proof. destruct h as [|a [|b [|c [|d [|e [|]]]]]]; try discriminate. eauto 6. Qed.
Lemma list4 (h : list Z) : length h = 4%nat -> exists a b c d, h = [a; b; c; d].
Proof. destruct h as [|a [|b [|c [|d [|]]]]]; try discriminate. eauto 6. Qed.
Lemma list2 (h : list Z) : length h = 2%nat -> exists a b, h = [a; b].
Proof. destruct h as [|a [|b [|]]]; try discriminate. eauto. Qed.

Lemma is_crc_dec w data cks : is_crc w data cks \/ ~ is_crc w data cks.
Proof.
  unfold is_crc.
  assert (D : forall a b : list bool, a = b \/ a <> b) by (intros a b; destruct (list_eq_dec bool_dec a b); auto).
  assert (F : Forall byte cks \/ ~ Forall byte cks).
  { destruct (Forall_dec byte) with (l := cks); auto. intros x. unfold byte. destruct (Z_le_dec 0 x), (Z_lt_dec x 256); [left|right|right|right]; lia. }
  destruct F as [F|F]; [|right; tauto].
  destruct w.
  - destruct (Nat.eq_dec (length cks) 4) as [E|E]; [|right; tauto].
    destruct (D (lsb_first cks) (map negb (remainder g32 (ones 32) (lsb_first data)))); tauto.
  - destruct (Nat.eq_dec (length cks) 2) as [E|E]; [|right; tauto].
    destruct (D (msb_first cks) (remainder g16 (zeros 16) (msb_first data))); tauto.
Qed.

(* The check made by the code. *)
Definition crc_good (w : bool) (data cks : list Z) : bool :=
  if w then BTODW (nth 0 cks 0) (nth 1 cks 0) (nth 2 cks 0) (nth 3 cks 0) =? zm_calc_data_crc32 data
  else BTOW (nth 0 cks 0) (nth 1 cks 0) =? zm_calc_data_crc data.

Lemma crc_good_iff w data cks : Forall byte data -> Forall byte cks -> length cks = cks_len w -> (crc_good w data cks = true <-> is_crc w data cks).
Proof.
  intros Hd Hc L. unfold crc_good. destruct w.
  - apply list4 in L. destruct L as (a & b & c & d & ->). repeat match goal with H : Forall byte (_ :: _) |- _ => inversion H; clear H; subst end.
    cbn [nth]. rewrite crc32_cks by auto. apply Z.eqb_eq.
  - apply list2 in L. destruct L as (a & b & ->). repeat match goal with H : Forall byte (_ :: _) |- _ => inversion H; clear H; subst end.
    cbn [nth]. rewrite crc16_cks by auto. apply Z.eqb_eq.
Qed.

Lemma hdr_crc_eq h : hdr_crc h = zm_calc_data_crc h.
Proof. reflexivity. Qed.

Lemma check16_eq h cks : length h = 5%nat -> length cks = 2%nat -> check16 (inr (h ++ cks)) = (if crc_good false h cks then OK else BAD_CRC, h).
Proof. intros A B. apply list5 in A. apply list2 in B. destruct A as (? & ? & ? & ? & ? & ->). destruct B as (? & ? & ->). unfold check16, crc_good. rewrite hdr_crc_eq. cbn [app firstn nth]. reflexivity. Qed.
Lemma check32_eq h cks : length h = 5%nat -> length cks = 4%nat -> check32 (inr (h ++ cks)) = (if crc_good true h cks then OK else BAD_CRC, h).
Proof. intros A B. apply list5 in A. apply list4 in B. destruct A as (? & ? & ? & ? & ? & ->). destruct B as (? & ? & ? & ? & ->). unfold check32, crc_good. cbn [app firstn nth]. reflexivity. Qed.

Lemma read_nl nl r : In nl [[10]; [138]; [13; 10]; [13; 138]; [141; 10]; [141; 138]] -> read_crlf false (nl ++ r) = Some (OK, r).
Proof. cbn [In]. intuition (subst; reflexivity). Qed.

Lemma header_read h cks w bs r fuel : header_with h cks w bs ->
  (is_crc w h cks -> await_header (S fuel) false (bs ++ r) = Ok (Some (OK, h, Some w, r))) /\
  (~ is_crc w h cks -> exists r', await_header (S fuel) false (bs ++ r) = Ok (Some (BAD_CRC, h, Some w, r'))).
Proof.
  intros (L5 & Hh & Lc & Hc & skip & t & Hs & Ns & T & ->).
  rewrite <- app_assoc. cbn [app await_header]. rewrite await_skip by auto. change (negb (OK =? OK)) with false. cbv iota.
  assert (Ha : Forall byte (h ++ cks)) by (apply Forall_app; auto).
  destruct T as [nl Hnl|bs E|bs E].
  - change (read_escaped false ((66 :: flat_map hexdigits (h ++ cks) ++ nl) ++ r)) with (Some (66, (flat_map hexdigits (h ++ cks) ++ nl) ++ r)).
    change (66 =? CANCELLED) with false. change (is_error 66) with false. change (zvalue 66 =? ZHEX) with true. cbv iota.
    rewrite <- app_assoc. replace 7%nat with (length (h ++ cks)) by (rewrite app_length, L5, Lc; reflexivity).
    rewrite read_hex by auto. rewrite check16_eq by auto.
    destruct (crc_good false h cks) eqn:G.
    + split; [intros _|intros N; apply crc_good_iff in G; auto; tauto]. change (OK =? OK) with true. cbv iota. rewrite read_nl by auto. reflexivity.
    + split; [intros Y; apply crc_good_iff in Y; auto; congruence|]. intros _. change (BAD_CRC =? OK) with false. cbv iota. eexists. reflexivity.
  - change (read_escaped false ((65 :: bs) ++ r)) with (Some (65, bs ++ r)).
    change (65 =? CANCELLED) with false. change (is_error 65) with false. change (zvalue 65 =? ZHEX) with false. change (zvalue 65 =? ZBIN16) with true. cbv iota.
    replace 7%nat with (length (h ++ cks)) by (rewrite app_length, L5, Lc; reflexivity).
    rewrite read_bytes_enc by auto. rewrite check16_eq by auto.
    destruct (crc_good false h cks) eqn:G.
    + split; [reflexivity|intros N; apply crc_good_iff in G; auto; tauto].
    + split; [intros Y; apply crc_good_iff in Y; auto; congruence|intros _; eexists; reflexivity].
  - change (read_escaped false ((67 :: bs) ++ r)) with (Some (67, bs ++ r)).
    change (67 =? CANCELLED) with false. change (is_error 67) with false. change (zvalue 67 =? ZHEX) with false. change (zvalue 67 =? ZBIN16) with false. change (zvalue 67 =? ZBIN32) with true. cbv iota.
    replace 9%nat with (length (h ++ cks)) by (rewrite app_length, L5, Lc; reflexivity).
    rewrite read_bytes_enc by auto. rewrite check32_eq by auto.
    destruct (crc_good true h cks) eqn:G.
    + split; [reflexivity|intros N; apply crc_good_iff in G; auto; tauto].
    + split; [intros Y; apply crc_good_iff in Y; auto; congruence|intros _; eexists; reflexivity].
Qed.

Lemma header_ok h w bs r fuel : header h w bs -> await_header (S fuel) false (bs ++ r) = Ok (Some (OK, h, Some w, r)).
Proof. intros (cks & C & H). apply (header_read h cks w bs r fuel H). auto. Qed.

Lemma header_bad h cks w bs r fuel : header_with h cks w bs -> ~ is_crc w h cks -> exists r', await_header (S fuel) false (bs ++ r) = Ok (Some (BAD_CRC, h, Some w, r')).
Proof. intros H. apply (header_read h cks w bs r fuel H). Qed.

(* --- data blocks --- *)

Lemma recv_block data e : enc data e -> forall k m r n pre gap, sym (Mark k) m -> (length data < n)%nat -> (n <= length gap)%nat ->
  recv_data_block false n (pre ++ gap) (length pre) (e ++ m ++ r) =
  Ok (Some (Z.lor FIN k, pre ++ data ++ k :: skipn (S (length data)) gap, (length pre + S (length data))%nat, r)).
Proof.
  unfold enc. revert e. induction data as [|c data IH]; intros e He k m r n pre gap Hm Hn Hg; cbn [map] in He; inversion He; subst; clear He.
  - destruct n as [|n]; [cbn in Hn; lia|]. destruct gap as [|g gap]; [cbn in Hg; lia|].
    cbn [app recv_data_block]. rewrite (read_sym _ _ _ Hm).
    destruct (code_ok (Mark k) (sym_is_ok _ _ Hm)) as (A & B & C & D). cbn [code] in *. rewrite A, B, D. cbn [loose].
    rewrite wr_app. cbn [bind length skipn app]. replace (length pre + 1)%nat with (S (length pre)) by lia. reflexivity.
  - destruct n as [|n]; [cbn in Hn; lia|]. destruct gap as [|g gap]; [cbn in Hg; lia|].
    rewrite <- app_assoc. cbn [app recv_data_block]. match goal with H : sym (Byte c) _ |- _ => rename H into Hc end.
    rewrite (read_sym _ _ _ Hc).
    destruct (code_ok (Byte c) (sym_is_ok _ _ Hc)) as (A & B & C & D). cbn [code] in *. rewrite A, B, D. cbn [loose].
    rewrite wr_app. cbn [bind].
    replace (pre ++ c :: gap) with ((pre ++ [c]) ++ gap) by (rewrite <- app_assoc; reflexivity).
    replace (S (length pre)) with (length (pre ++ [c])) by (rewrite app_length; cbn; lia).
    match goal with H : syms (map Byte data) ?cs |- _ => rewrite (IH cs H k m r n (pre ++ [c]) gap Hm) by (cbn in *; lia) end. rewrite app_length, <- app_assoc. cbn [app length skipn].
    do 4 f_equal. lia.
Qed.

Lemma firstn_block (data tl : list Z) k n : n = S (length data) -> firstn n (data ++ k :: tl) = data ++ [k].
Proof.
  intros ->. replace (data ++ k :: tl) with ((data ++ [k]) ++ tl) by (rewrite <- app_assoc; reflexivity).
  replace (S (length data)) with (length (data ++ [k])) by (rewrite app_length; cbn; lia).
  rewrite firstn_app, firstn_all, Nat.sub_diag, firstn_O, app_nil_r. reflexivity.
Qed.

Lemma block_read data k cks w bs r buf max : block_with data k cks w bs -> (length data < max)%nat -> (max <= length buf)%nat ->
  zm_read_data_block false w buf max (bs ++ r) =
  Ok (Some (if crc_good w (data ++ [k]) cks then Z.lor FIN k else BAD_CRC, data ++ k :: skipn (S (length data)) buf, S (length data), r)).
Proof.
  intros (Hd & Lc & Hc & e & m & c & He & Hm & Hcc & ->) Hn Hb.
  unfold zm_read_data_block. rewrite <- !app_assoc.
  pose proof (recv_block data e He k m (c ++ r) max [] buf Hm Hn Hb) as E. cbn [app length] in E. rewrite E. cbn [bind].
  destruct (code_ok (Mark k) (sym_is_ok _ _ Hm)) as (A & _ & C & _). cbn [code loose] in A, C. rewrite A.
  change (if w then 4%nat else 2%nat) with (cks_len w). rewrite <- Lc. rewrite read_bytes_enc by auto.
  rewrite firstn_block by lia. reflexivity.
Qed.

Lemma mark_byte k m : sym (Mark k) m -> byte k.
Proof. intros H. apply sym_is_ok in H. cbn in H. unfold byte. lia. Qed.

Lemma block_good data k cks w bs r buf max : block_with data k cks w bs -> is_crc w (data ++ [k]) cks -> (length data < max)%nat -> (max <= length buf)%nat ->
  zm_read_data_block false w buf max (bs ++ r) = Ok (Some (Z.lor FIN k, data ++ k :: skipn (S (length data)) buf, S (length data), r)).
Proof.
  intros H C Hn Hb. rewrite (block_read data k cks w bs r buf max H Hn Hb).
  destruct H as (Hd & Lc & Hc & e & m & c & He & Hm & Hcc & ->).
  apply crc_good_iff in C; auto; [rewrite C; reflexivity|]. apply Forall_app. split; auto. constructor; auto. eapply mark_byte; eauto.
Qed.

Lemma block_ok data k w bs r buf max : block w data k bs -> (length data < max)%nat -> (max <= length buf)%nat ->
  zm_read_data_block false w buf max (bs ++ r) = Ok (Some (Z.lor FIN k, data ++ k :: skipn (S (length data)) buf, S (length data), r)).
Proof. intros (cks & C & H). eapply block_good; eauto. Qed.

Lemma block_bad data k cks w bs r buf max : block_with data k cks w bs -> ~ is_crc w (data ++ [k]) cks -> (length data < max)%nat -> (max <= length buf)%nat ->
  zm_read_data_block false w buf max (bs ++ r) = Ok (Some (BAD_CRC, data ++ k :: skipn (S (length data)) buf, S (length data), r)).
Proof.
  intros H C Hn Hb. rewrite (block_read data k cks w bs r buf max H Hn Hb).
  destruct (crc_good w (data ++ [k]) cks) eqn:G; [|reflexivity].
  destruct H as (Hd & Lc & Hc & e & m & c & He & Hm & Hcc & ->).
  apply crc_good_iff in G; auto; [tauto|]. apply Forall_app. split; auto. constructor; auto. eapply mark_byte; eauto.
Qed.

(* The other way round. *)
Lemma recv_inv n : forall pre gap inp c buf len r, Forall byte inp -> (n <= length gap)%nat ->
  recv_data_block false n (pre ++ gap) (length pre) inp = Ok (Some (c, buf, len, r)) -> is_error c = false ->
  exists data k e m, Forall byte data /\ enc data e /\ sym (Mark k) m /\ inp = e ++ m ++ r /\ c = Z.lor FIN k /\
    (length data < n)%nat /\ len = (length pre + S (length data))%nat /\ buf = pre ++ data ++ k :: skipn (S (length data)) gap.
Proof.
  induction n as [|n IH]; intros pre gap inp c buf len r Hb Hg H Hc; cbn [recv_data_block] in H.
  { inversion H; subst. discriminate Hc. }
  destruct (read_escaped false inp) as [[x t]|] eqn:E; [|discriminate].
  destruct (is_error x) eqn:Ex; [inversion H; subst; congruence|].
  destruct (read_inv inp Hb x t E Ex) as (v & bs & S & -> & ->).
  destruct gap as [|g gap]; [cbn in Hg; lia|].
  destruct (code_ok v (sym_is_ok _ _ S)) as (A & B & C & D). rewrite B, D in H. rewrite wr_app in H. cbn [bind] in H.
  apply Forall_app in Hb. destruct Hb as [_ Hb].
  destruct v as [x|k]; cbn [loose code] in *.
  - replace (pre ++ x :: gap) with ((pre ++ [x]) ++ gap) in H by (rewrite <- app_assoc; reflexivity).
    replace (Datatypes.S (length pre)) with (length (pre ++ [x])) in H by (rewrite app_length; cbn; lia).
    destruct (IH (pre ++ [x]) gap t c buf len r Hb ltac:(cbn in Hg; lia) H Hc) as (data & k & e & m & Hd & He & Hm & -> & -> & Hl & -> & ->).
    exists (x :: data), k, (bs ++ e), m. rewrite app_length, <- !app_assoc. cbn [app length skipn].
    repeat split; auto; try lia; constructor; auto.
  - inversion H; subst. exists [], k, [], bs. cbn [app length skipn]. repeat split; auto; try lia; constructor.
Qed.

Lemma read_bytes_err sg n : forall inp e r, read_bytes sg n inp = Some (inl e, r) -> is_error e = true.
Proof.
  induction n as [|n IH]; intros inp e r H; cbn [read_bytes] in H; [discriminate|].
  destruct (read_escaped sg inp) as [[c t1]|]; [|discriminate]. cbn [obind] in H. destruct (is_error c) eqn:E; [inversion H; subst; auto|].
  destruct (read_bytes sg n t1) as [[[e0|l] t2]|] eqn:E2; cbn [obind] in H; inversion H; subst. eapply IH; eauto.
Qed.

Lemma block_sound w buf max inp c buf' len r : Forall byte inp -> (max <= length buf)%nat ->
  zm_read_data_block false w buf max inp = Ok (Some (c, buf', len, r)) -> is_error c = false ->
  exists data k bs, block_accepted w data k bs /\ inp = bs ++ r /\ c = Z.lor FIN k /\ len = S (length data) /\ (len <= max)%nat /\
    buf' = data ++ k :: skipn len buf.
Proof.
  intros Hb Hm H Hc. unfold zm_read_data_block in H.
  destruct (recv_data_block false max buf 0 inp) as [o| |] eqn:E; cbn [bind] in H; try discriminate.
  destruct o as [[[[x b1] l1] t]|]; [|discriminate].
  destruct (is_error x) eqn:Ex; [inversion H; subst; congruence|].
  destruct (recv_inv max [] buf inp x b1 l1 t Hb Hm E Ex) as (data & k & e & m & Hd & He & Hmk & -> & -> & Hl & -> & ->).
  cbn [length app] in *. change (if w then 4%nat else 2%nat) with (cks_len w) in H.
  rewrite (firstn_block data _ k (0 + S (length data))) in H by lia.
  assert (H' : match read_bytes false (cks_len w) t with
    | Some (inl e, r) => Ok (Some (e, data ++ k :: skipn (S (length data)) buf, S (length data), r))
    | Some (inr l, r) => Ok (Some (if crc_good w (data ++ [k]) l then Z.lor FIN k else BAD_CRC, data ++ k :: skipn (S (length data)) buf, S (length data), r))
    | None => Ok None
    end = Ok (Some (c, buf', len, r))) by exact H.
  clear H. rename H' into H.
  destruct (read_bytes false (cks_len w) t) as [[[e'|l] t']|] eqn:R; try discriminate;
    match type of H with Ok (Some ?a) = Ok (Some ?b) => assert (Q : a = b) by congruence end; clear H;
    apply pair_equal_spec in Q; destruct Q as [Q <-]; apply pair_equal_spec in Q; destruct Q as [Q <-]; apply pair_equal_spec in Q; destruct Q as [<- <-].
  - exfalso. apply read_bytes_err in R. congruence.
  - apply Forall_app in Hb. destruct Hb as [_ Hb]. apply Forall_app in Hb. destruct Hb as [_ Hb].
    destruct (read_bytes_inv _ _ _ _ Hb R) as (vs & bs & Sv & -> & -> & Lv).
    destruct (crc_good w (data ++ [k]) (map loose vs)) eqn:G; [|discriminate].
    exists data, k, (e ++ m ++ bs). split; [|rewrite <- !app_assoc; repeat split; auto; lia].
    exists vs, e, m, bs. split; [auto|]. split; [auto|]. split; [auto|]. split; [|auto].
    apply crc_good_iff; auto.
    + apply Forall_app. split; auto. constructor; auto. eapply mark_byte; eauto.
    + clear - Sv. induction Sv; cbn [map]; constructor; auto. eapply code_ok. eapply sym_is_ok. eauto.
    + rewrite map_length. auto.
Qed.

(* --- any input --- *)

Definition suffix (r inp : list Z) : Prop := exists p, inp = p ++ r.
Lemma suffix_refl r : suffix r r. Proof. exists []. reflexivity. Qed.
Lemma suffix_cons b r inp : suffix r inp -> suffix r (b :: inp). Proof. intros [p ->]. exists (b :: p). reflexivity. Qed.
Lemma suffix_trans a b c : suffix a b -> suffix b c -> suffix a c.
Proof. intros [p ->] [q ->]. exists (q ++ p). rewrite app_assoc. reflexivity. Qed.
Lemma suffix_length a b : suffix a b -> (length a <= length b)%nat.
Proof. intros [p ->]. rewrite app_length. lia. Qed.

Lemma next_can_suffix sg c r c' r' : next_can sg (c, r) = Some (c', r') -> suffix r' r.
Proof.
  unfold next_can. destruct (is_error c); [intros H; inversion H; apply suffix_refl|]. destruct (c =? CAN); [|intros H; inversion H; apply suffix_refl].
  destruct r; [discriminate|]. intros H. inversion H; subst. apply suffix_cons, suffix_refl.
Qed.

Lemma after_suffix sg inp c r : after_zdle sg inp = Some (c, r) -> suffix r inp.
Proof.
  unfold after_zdle. destruct inp as [|b t]; [discriminate|].
  destruct (next_can sg (recv sg b, t)) as [[c1 t1]|] eqn:E1; [|discriminate]. cbn [obind].
  destruct (next_can sg (c1, t1)) as [[c2 t2]|] eqn:E2; [|discriminate]. cbn [obind].
  destruct (next_can sg (c2, t2)) as [[c3 t3]|] eqn:E3; [|discriminate]. cbn [obind fst snd].
  intros H. inversion H; subst. apply suffix_cons. apply next_can_suffix in E1, E2, E3. eauto using suffix_trans.
Qed.

Lemma read_shorter sg inp : forall c r, read_escaped sg inp = Some (c, r) -> suffix r inp /\ (length r < length inp)%nat.
Proof.
  assert (X : forall b t c r, after_zdle sg t = Some (c, r) -> suffix r (b :: t) /\ (length r < length (b :: t))%nat).
  { intros b t c r H. apply after_suffix in H. split; [apply suffix_cons; auto|]. apply suffix_length in H. cbn. lia. }
  induction inp as [|b t IH]; intros c r H; [discriminate|]. cbn [read_escaped] in H.
  destruct (noncontrol (recv sg b) || is_error (recv sg b)).
  { inversion H; subst. split; [apply suffix_cons, suffix_refl|cbn; lia]. }
  match type of H with (if ?q then _ else _) = _ => destruct q end.
  { destruct (IH _ _ H). split; [apply suffix_cons; auto|cbn; lia]. }
  destruct (recv sg b =? ZDLE); [eapply X; eauto|].
  inversion H; subst. split; [apply suffix_cons, suffix_refl|cbn; lia].
Qed.

Lemma read_bytes_suffix sg n : forall inp x r, read_bytes sg n inp = Some (x, r) -> suffix r inp.
Proof.
  induction n as [|n IH]; intros inp x r H; cbn [read_bytes] in H; [inversion H; apply suffix_refl|].
  destruct (read_escaped sg inp) as [[c t]|] eqn:E; [|discriminate]. cbn [obind] in H. apply read_shorter in E. destruct E as [E _].
  destruct (is_error c); [inversion H; subst; auto|].
  destruct (read_bytes sg n t) as [[y t']|] eqn:E2; [|discriminate]. cbn [obind] in H. inversion H; subst. apply IH in E2. eauto using suffix_trans.
Qed.

Lemma recv_safe sg n : forall buf len inp, (len + n <= length buf)%nat ->
  exists o, recv_data_block sg n buf len inp = Ok o /\
  match o with None => True | Some (c, buf', len', r) => (len <= len' <= len + n)%nat /\ length buf' = length buf /\ skipn len' buf' = skipn len' buf /\
    suffix r inp /\ (n <> O -> (length r < length inp)%nat) end.
Proof.
  induction n as [|n IH]; intros buf len inp Hl; cbn [recv_data_block].
  { eexists. split; [reflexivity|]. cbn. repeat split; auto; try lia. apply suffix_refl. }
  destruct (read_escaped sg inp) as [[c t]|] eqn:E; [|exists None; auto].
  destruct (read_shorter sg inp c t E) as [Su Sh].
  destruct (is_error c). { eexists. split; [reflexivity|]. cbn. repeat split; auto; lia. }
  rewrite wr_ok by lia. cbn [bind].
  destruct (is_fin c).
  { eexists. split; [reflexivity|]. cbn [fst]. rewrite set_at_length. repeat split; auto; try lia. apply skipn_set_at. lia. }
  destruct (IH (set_at buf len (zvalue c)) (S len) t ltac:(rewrite set_at_length; lia)) as (o & E2 & Ho). exists o. split; [auto|].
  destruct o as [[[[c' b'] l'] r]|]; auto. destruct Ho as (H1 & H2 & H3 & H4 & H5). rewrite set_at_length in H2.
  repeat split; auto; try lia.
  - rewrite H3. apply skipn_set_at. lia.
  - eauto using suffix_trans.
  - intros _. apply suffix_length in H4. lia.
Qed.

Lemma block_safe sg w buf max inp : (max <= length buf)%nat ->
  exists o, zm_read_data_block sg w buf max inp = Ok o /\
  match o with None => True | Some (c, buf', len, r) => (len <= max)%nat /\ length buf' = length buf /\ skipn len buf' = skipn len buf /\
    suffix r inp /\ (max <> O -> (length r < length inp)%nat) end.
Proof.
  intros H. unfold zm_read_data_block. destruct (recv_safe sg max buf 0 inp ltac:(lia)) as (o & E & Ho). rewrite E. cbn [bind].
  destruct o as [[[[c b] l] r]|]; [|exists None; auto]. destruct Ho as (H1 & H2 & H3 & H4 & H5).
  destruct (is_error c). { eexists. split; [reflexivity|]. cbn. repeat split; auto; lia. }
  destruct (read_bytes sg (if w then 4 else 2)%nat r) as [[[e|l'] t]|] eqn:R; [| |exists None; auto].
  - apply read_bytes_suffix in R. eexists. split; [reflexivity|]. cbn. repeat split; auto; try lia; [eauto using suffix_trans|]. apply suffix_length in R. lia.
  - apply read_bytes_suffix in R. eexists. split; [reflexivity|]. cbn [fst]. repeat split; auto; try lia; [eauto using suffix_trans|]. apply suffix_length in R. lia.
Qed.
