(* Lemmas on fpm_getkey. *)
From Verif Require Import Base Arr ArrLemmas Utf8Model Utf8Spec Utf8Proof EditModel EditSpec.
Open Scope Z_scope.

Lemma gw c r : 0 <= c < 65536 -> getwch (utf8_char c ++ r) = Some (c, r).
Proof. intros H. destruct (char_facts c H) as (E & _). rewrite <- E. apply getwch_char. auto. Qed.

Lemma gw1 c r : 0 <= c < 128 -> getwch (c :: r) = Some (c, r).
Proof.
  intros H. pose proof (gw c r). unfold utf8_char in H0. destruct (Z.ltb_spec c 128); [|lia]. apply H0. lia.
Qed.

Lemma getwch_less inp c r : getwch inp = Some (c, r) -> (length r < length inp)%nat.
Proof.
  unfold getwch. destruct inp as [|c1 [|c2 [|c3 r3]]]; try discriminate;
    repeat (match goal with |- context [if ?b then _ else _] => destruct b end); intros [= <- <-]; cbn; lia.
Qed.

Lemma read_num_len fuel : forall num key inp, (length inp < fuel)%nat ->
  exists o, read_num fuel num key inp = Ok o /\ forall n k r, o = Some (n, k, r) -> (length r < length inp)%nat.
Proof.
  induction fuel as [|f IH]; intros num key inp H; [lia|]. cbn [read_num].
  destruct (getwch inp) as [[k r]|] eqn:E; [|eexists; split; [auto|discriminate]].
  pose proof (getwch_less _ _ _ E). destruct (is_digit k).
  - destruct (IH ((num * 10 + (key - 48)) mod 2 ^ 32) k r) as (o & Eo & Ho); [lia|]. exists o. split; auto.
    intros n k' r' Hn. specialize (Ho n k' r' Hn). lia.
  - eexists; split; [auto|]. intros n k' r' [= <- <- <-]. lia.
Qed.

Lemma getkey_total fuel : forall inp, (length inp < fuel)%nat ->
  exists o, getkey fuel inp = Ok o /\ forall k r, o = Some (k, r) -> (length r < length inp)%nat.
Proof.
  induction fuel as [|f IH]; intros inp H; [lia|]. cbn [getkey].
  destruct (getwch inp) as [[k r]|] eqn:E; [|eexists; split; [auto|discriminate]].
  pose proof (getwch_less _ _ _ E).
  assert (D : forall x : Z, exists o, Ok (Some (x, r)) = Ok o /\ forall k' r', o = Some (k', r') -> (length r' < length inp)%nat)
    by (intros x; eexists; split; [auto|]; intros k' r' [= <- <-]; lia).
  destruct (negb (k =? 27)); auto. clear D.
  destruct (getwch r) as [[k1 r1]|] eqn:E1; [|eexists; split; [auto|discriminate]].
  pose proof (getwch_less _ _ _ E1).
  destruct (negb (k1 =? 91) && negb (k1 =? 79)).
  { destruct (IH r1) as (o & Eo & Ho); [lia|]. exists o. split; auto. intros a b Hab. specialize (Ho a b Hab). lia. }
  destruct (getwch r1) as [[k2 r2]|] eqn:E2; [|eexists; split; [auto|discriminate]].
  pose proof (getwch_less _ _ _ E2).
  assert (D : forall x : Z, exists o, Ok (Some (x, r2)) = Ok o /\ forall k' r', o = Some (k', r') -> (length r' < length inp)%nat)
    by (intros x; eexists; split; [auto|]; intros k' r' [= <- <-]; lia).
  repeat match goal with |- context [if k2 =? ?b then _ else _] => destruct (k2 =? b); auto end. clear D.
  destruct (is_digit k2).
  - destruct (read_num_len (S (length r2)) 0 k2 r2) as (o & Eo & Ho); [lia|]. rewrite Eo. cbn [bind].
    destruct o as [[[num k3] r3]|]; [|eexists; split; [auto|discriminate]].
    specialize (Ho _ _ _ eq_refl). destruct (IH r3) as (o & Eo' & Ho'); [lia|].
    destruct (negb (k3 =? 126)); [|destruct (num =? 3)].
    + exists o. split; auto. intros a b Hab. specialize (Ho' a b Hab). lia.
    + eexists; split; [auto|]. intros k' r' [= <- <-]. lia.
    + exists o. split; auto. intros a b Hab. specialize (Ho' a b Hab). lia.
  - destruct (IH r2) as (o & Eo & Ho); [lia|]. exists o. split; auto. intros a b Hab. specialize (Ho a b Hab). lia.
Qed.

(* More fuel does not matter. *)
Lemma getkey_fuel f1 : forall f2 inp, (length inp < f1)%nat -> (length inp < f2)%nat -> getkey f1 inp = getkey f2 inp.
Proof.
  induction f1 as [|f1 IH]; intros f2 inp H1 H2; [lia|]. destruct f2 as [|f2]; [lia|]. cbn [getkey].
  destruct (getwch inp) as [[k r]|] eqn:E; auto. pose proof (getwch_less _ _ _ E).
  destruct (negb (k =? 27)); auto.
  destruct (getwch r) as [[k1 r1]|] eqn:E1; auto. pose proof (getwch_less _ _ _ E1).
  destruct (negb (k1 =? 91) && negb (k1 =? 79)); [apply IH; lia|].
  destruct (getwch r1) as [[k2 r2]|] eqn:E2; auto. pose proof (getwch_less _ _ _ E2).
  repeat match goal with |- context [if k2 =? ?b then _ else _] => destruct (k2 =? b); auto end.
  destruct (is_digit k2); [|apply IH; lia].
  destruct (read_num_len (S (length r2)) 0 k2 r2) as (o & Eo & Ho); [lia|]. rewrite Eo. cbn [bind].
  destruct o as [[[num k3] r3]|]; auto. specialize (Ho _ _ _ eq_refl).
  destruct (negb (k3 =? 126)); [apply IH; lia|]. destruct (num =? 3); auto. apply IH; lia.
Qed.

Lemma read_num_digits ds : Forall (fun d => 48 <= d <= 57) ds -> forall fuel num d r,
  48 <= d <= 57 -> (length ds < fuel)%nat ->
  read_num fuel (num mod 2 ^ 32) d (ds ++ 126 :: r) =
    Ok (Some (fold_left (fun v d => 10 * v + (d - 48)) (d :: ds) num mod 2 ^ 32, 126, r)).
Proof.
  induction 1 as [|e ds He Hds IH]; intros fuel num d r Hd Hf; (destruct fuel as [|f]; [cbn in Hf; lia|]); cbn [read_num app].
  - rewrite gw1 by lia. unfold is_digit. change ((48 <=? 126) && (126 <=? 57)) with false. cbn [fold_left].
    do 4 f_equal. rewrite Z.add_mod, Z.mul_mod, Z.mod_mod, <- Z.mul_mod, <- Z.add_mod by lia. f_equal. lia.
  - rewrite gw1 by lia. unfold is_digit. destruct (Z.leb_spec 48 e); [|lia]. destruct (Z.leb_spec e 57); [|lia]. cbn [andb].
    cbn [length] in Hf.
    replace ((num mod 2 ^ 32 * 10 + (d - 48)) mod 2 ^ 32) with ((10 * num + (d - 48)) mod 2 ^ 32).
    { rewrite IH by (auto; lia). auto. }
    symmetry. rewrite Z.add_mod, Z.mul_mod, Z.mod_mod, <- Z.mul_mod, <- Z.add_mod by lia. f_equal. lia.
Qed.

Lemma utf8_digits ds : Forall (fun d => 48 <= d <= 57) ds -> utf8 ds = ds.
Proof. intros H. apply utf8_ascii. eapply Forall_impl; [|apply H]. cbn. intros; lia. Qed.

Definition ebytes (e : event) : list Z := utf8 (event_chars e).

Lemma eqbF a b : a <> b -> (a =? b) = false.
Proof. apply Z.eqb_neq. Qed.

(* One event: a key is returned, other sequences are skipped. *)
Lemma getkey_event e r fuel : event_ok e -> (length (ebytes e ++ r) < S fuel)%nat ->
  getkey (S fuel) (ebytes e ++ r) =
    match event_key e with k :: _ => Ok (Some (k, r)) | [] => getkey fuel r end.
Proof.
  intros He Hf. destruct e as [c|o|o|o|o|o|o| |o c|ds]; cbn [event_ok] in He; unfold ebytes in *; cbn [event_chars event_key].
  - destruct He as [H1 H2]. unfold utf8. cbn [flat_map]. rewrite app_nil_r. cbn [getkey]. rewrite gw by auto.
    rewrite eqbF by auto. auto.
  - destruct o; reflexivity.
  - destruct o; reflexivity.
  - destruct o; reflexivity.
  - destruct o; reflexivity.
  - destruct o; reflexivity.
  - destruct o; reflexivity.
  - reflexivity.
  - destruct He as (H1 & H2 & H3). cbn [In] in H2.
    replace (utf8 (csi o c) ++ r) with (27 :: (if o then 79 else 91) :: utf8_char c ++ r)
      by (unfold csi, utf8; cbn [flat_map]; rewrite app_nil_r; destruct o; reflexivity).
    cbn [getkey]. rewrite gw1 by lia. change (negb (27 =? 27)) with false. cbn iota.
    rewrite gw1 by (destruct o; lia).
    replace (negb ((if o then 79 else 91) =? 91) && negb ((if o then 79 else 91) =? 79)) with false by (destruct o; auto).
    cbn iota. rewrite gw by auto. rewrite !eqbF by (intros ->; apply H2; tauto).
    unfold is_digit. destruct (Z.leb_spec 48 c), (Z.leb_spec c 57); cbn [andb]; auto. lia.
  - destruct He as (H1 & H2 & H3). destruct ds as [|d ds]; [tauto|]. inversion H2; subst.
    replace (utf8 ([27; 91] ++ (d :: ds) ++ [126])) with ([27; 91] ++ (d :: ds) ++ [126]) in *
      by (rewrite !utf8_app, (utf8_digits (d :: ds)) by auto; reflexivity).
    rewrite <- !app_assoc in *. cbn [app] in *. cbn [getkey]. rewrite gw1 by lia.
    change (negb (27 =? 27)) with false. cbn iota. rewrite gw1 by lia.
    change (negb (91 =? 91) && negb (91 =? 79)) with false. cbn iota. rewrite gw1 by lia.
    rewrite !eqbF by lia. unfold is_digit at 1. destruct (Z.leb_spec 48 d); [|lia]. destruct (Z.leb_spec d 57); [|lia]. cbn [andb].
    change 0 with (0 mod 2 ^ 32) at 1. rewrite read_num_digits by (auto; len). cbn [bind].
    change (negb (126 =? 126)) with false. cbn iota. fold (decimal (d :: ds)). rewrite eqbF by auto. auto.
Qed.

Lemma ebytes_nonempty e : (1 <= length (ebytes e))%nat.
Proof.
  assert (H : forall c w, (1 <= length (utf8 (c :: w)))%nat).
  { intros c w. change (utf8 (c :: w)) with (utf8_char c ++ utf8 w). rewrite app_length. unfold utf8_char.
    destruct (c <? 128), (c <? 2048); cbn [length]; lia. }
  destruct e; apply H.
Qed.

Lemma fpm_getkey_event e r : event_ok e ->
  fpm_getkey (ebytes e ++ r) =
    match event_key e with k :: _ => Ok (Some (k, r)) | [] => fpm_getkey r end.
Proof.
  intros He. unfold fpm_getkey. rewrite getkey_event by (auto; lia). destruct (event_key e); auto.
  pose proof (ebytes_nonempty e). apply getkey_fuel; len.
Qed.

Lemma fpm_getkey_nil : fpm_getkey [] = Ok None.
Proof. reflexivity. Qed.

Definition stream (es : list event) : list Z := utf8 (flat_map event_chars es).

Lemma stream_cons e es : stream (e :: es) = ebytes e ++ stream es.
Proof. unfold stream, ebytes. cbn [flat_map]. apply utf8_app. Qed.

Lemma event_key_one e : event_key e = [] \/ exists k, event_key e = [k].
Proof. destruct e; cbn; eauto. Qed.

Lemma all_keys_stream es : Forall event_ok es -> forall fuel, (length es < fuel)%nat ->
  all_keys fuel (stream es) = Ok (flat_map event_key es).
Proof.
  induction 1 as [|e es He Hes IH]; intros fuel Hf; (destruct fuel as [|f]; [cbn in Hf; lia|]).
  - reflexivity.
  - cbn [length] in Hf. cbn [flat_map]. destruct (event_key_one e) as [Ek | [k Ek]]; rewrite Ek; cbn [app].
    + rewrite <- (IH (S f)) by lia. cbn [all_keys]. rewrite stream_cons, fpm_getkey_event by auto. rewrite Ek. auto.
    + cbn [all_keys]. rewrite stream_cons, fpm_getkey_event by auto. rewrite Ek. cbn [bind]. rewrite IH by lia. auto.
Qed.

Lemma getkey_waits : forall inp, exists o, fpm_getkey inp = Ok o.
Proof. intros inp. destruct (getkey_total (S (length inp)) inp) as (o & E & _); [lia|]. eauto. Qed.

(* Feeding the editor from the console equals feeding it the keys. *)
Lemma bytes_keys bl prompt es : Forall event_ok es -> forall fuel s, (length es < fuel)%nat ->
  bytes_loop fuel bl prompt s (stream es) = keys_loop bl prompt s (flat_map event_key es).
Proof.
  induction 1 as [|e es He Hes IH]; intros fuel s Hf; (destruct fuel as [|f]; [cbn in Hf; lia|]).
  - reflexivity.
  - cbn [length] in Hf. cbn [flat_map]. destruct (event_key_one e) as [Ek | [k Ek]]; rewrite Ek; cbn [app].
    + rewrite <- (IH (S f)) by lia. cbn [bytes_loop]. rewrite stream_cons, fpm_getkey_event by auto. rewrite Ek. auto.
    + cbn [bytes_loop keys_loop]. rewrite stream_cons, fpm_getkey_event by auto. rewrite Ek. cbn [bind].
      destruct (step bl prompt s k) as [[[s' o] fin]| |]; auto. cbn [bind]. destruct fin; auto. rewrite IH by lia. auto.
Qed.
