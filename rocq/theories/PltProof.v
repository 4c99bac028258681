From Verif Require Import Base BaseLemmas PltModel PltSpec.
Open Scope Z_scope.

Lemma bytes_at_cons m a v l : bytes_at m a (v :: l) <-> (match v with Some x => m a = x | None => True end) /\ bytes_at m (a + 1) l.
Proof.
  unfold bytes_at. split.
  - intros H. split; [destruct v as [x|]; [|auto]; specialize (H 0%nat x eq_refl); now rewrite Z.add_0_r in H|].
    intros k x E. specialize (H (S k) x E). rewrite <- H. f_equal. lia.
  - intros [H1 H2] [|k] x E; cbn in E; [injection E as ->; now rewrite Z.add_0_r|]. specialize (H2 k x E). rewrite <- H2. f_equal. lia.
Qed.
Lemma bytes_at_nil m a : bytes_at m a [] <-> True.
Proof. split; [auto|]. intros _ k v E. destruct k; discriminate. Qed.
Lemma bytes_at_ext m m' a l : (forall x, a <= x < a + Z.of_nat (length l) -> m' x = m x) -> bytes_at m a l -> bytes_at m' a l.
Proof.
  intros E H k v K. rewrite E; [auto|]. assert (k < length l)%nat by (apply nth_error_Some; congruence). lia.
Qed.

Lemma tests8_ok fsz m a l : Forall (fun p => inside fsz (a + fst p) 1 = true) l ->
  exists b, tests8 fsz m a l = Ok b /\ (b = true <-> Forall (fun p => m (a + fst p) = snd p) l).
Proof.
  induction 1 as [|[k v] l I F IH]; cbn [tests8]; [exists true; split; auto; split; auto|]. cbn in I. rewrite I. destruct IH as (b & E & B).
  destruct (Z.eqb_spec (m (a + k)) v) as [Q|Q].
  - exists b. split; [auto|]. rewrite B. split; [intros; constructor; auto|intros H; now inversion H].
  - exists false. split; [auto|]. split; [discriminate|]. intros H. inversion H; subst. cbn in *. congruence.
Qed.
Lemma tests32_ok fsz m a l : Forall (fun p => inside fsz (a + 4 * fst (fst p)) 4 = true) l ->
  exists b, tests32 fsz m a l = Ok b /\ (b = true <-> Forall (fun p => Z.land (w32 m (a + 4 * fst (fst p))) (snd (fst p)) = snd p) l).
Proof.
  induction 1 as [|[[k ma] v] l I F IH]; cbn [tests32]; [exists true; split; auto; split; auto|]. cbn in I. rewrite I. destruct IH as (b & E & B). fold (w32 m (a + 4 * k)).
  destruct (Z.eqb_spec (Z.land (w32 m (a + 4 * k)) ma) v) as [Q|Q].
  - exists b. split; [auto|]. rewrite B. split; [intros; constructor; auto|intros H; now inversion H].
  - exists false. split; [auto|]. split; [discriminate|]. intros H. inversion H; subst. cbn in *. congruence.
Qed.
Lemma puts8_ok fsz l : forall m a, 0 <= a -> a + Z.of_nat (length l) <= fsz ->
  exists m', puts8 fsz m a l = Ok m' /\ (forall x, x < a \/ a + Z.of_nat (length l) <= x -> m' x = m x) /\ bytes_at m' a (map (fun v => Some (v mod 256)) l).
Proof.
  induction l as [|v l IH]; intros m a A F; cbn [puts8 map]; [exists m; split; [auto|]; split; [auto|now apply bytes_at_nil]|]. cbn [length] in *.
  unfold inside. replace ((0 <=? a) && (a + 1 <=? fsz)) with true by lia. destruct (IH (upd m a (v mod 256)) (a + 1)) as (m' & E & O & B); [lia|lia|]. exists m'. split; [auto|]. split.
  - intros x X. rewrite O by lia. apply upd_other. lia.
  - apply bytes_at_cons. split; [|auto]. rewrite O by lia. apply upd_same.
Qed.
Fixpoint words_at (m : Z -> Z) (a : Z) (l : list Z) : Prop := match l with [] => True | v :: l => w32 m a = v /\ words_at m (a + 4) l end.
Lemma puts32_ok fsz l : forall m a, 0 <= a -> a + 4 * Z.of_nat (length l) <= fsz -> Forall (fun v => 0 <= v < 4294967296) l ->
  exists m', puts32 fsz m a l = Ok m' /\ (forall x, x < a \/ a + 4 * Z.of_nat (length l) <= x -> m' x = m x) /\ words_at m' a l.
Proof.
  induction l as [|v l IH]; intros m a A F B; cbn [puts32 words_at]; [exists m; auto|]. cbn [length] in *. inversion B as [|? ? Bv Bl]; subst.
  unfold inside. replace ((0 <=? a) && (a + 4 <=? fsz)) with true by lia. destruct (IH (store_le m a 4 v) (a + 4)) as (m' & E & O & W); [lia|lia|auto|]. exists m'. split; [auto|]. split.
  - intros x X. rewrite O by lia. apply store_le_other. lia.
  - split; [|auto]. unfold w32. rewrite (load_le_ext 4 m' (store_le m a 4 v)); [apply load_store_le_same; change (256 ^ Z.of_nat 4) with 4294967296; lia|]. intros x X. apply O. lia.
Qed.

(* The loop, for any machine. *)
Section Scan.
Variables (fsz sz lim : Z) (step : (Z -> Z) -> Z -> Z -> res (option ((Z -> Z) * Z))).
Variables (other stub : (Z -> Z) -> Z -> Prop) (jumps : (Z -> Z) -> Z -> Z -> Prop).
Hypothesis sz_pos : 0 < sz.
Hypothesis other_ext : forall m m' a, (forall x, a <= x < a + sz -> m' x = m x) -> other m a -> other m' a.
Hypothesis stub_ext : forall m m' a, (forall x, a <= x < a + sz -> m' x = m x) -> stub m a -> stub m' a.
Hypothesis jumps_ext : forall m m' a n, (forall x, a <= x < a + sz -> m' x = m x) -> jumps m a n -> jumps m' a n.
Hypothesis step_other : forall m a n, 0 <= a -> a + sz <= fsz -> other m a -> step m a n = Ok (Some (m, n)).
Hypothesis step_stub : forall m a n, 0 <= a -> a + sz <= fsz -> stub m a -> 0 <= n < lim ->
  exists m', step m a n = Ok (Some (m', n + 1)) /\ (forall x, x < a \/ a + sz <= x -> m' x = m x) /\ jumps m' a n.
Hypothesis step_bad : forall m a n, 0 <= a -> a + sz <= fsz -> ~ other m a -> ~ stub m a -> step m a n = Ok None.

Lemma scan_ok : forall ks fuel m a n, (length ks < fuel)%nat -> 0 <= a -> a + sz * Z.of_nat (length ks) <= fsz -> 0 <= n -> n + before ks (length ks) <= lim ->
  (forall i k, nth_error ks i = Some k -> if k then stub m (a + sz * Z.of_nat i) else other m (a + sz * Z.of_nat i)) ->
  exists m', scan fuel step sz m a (a + sz * Z.of_nat (length ks)) n = Ok (Done m' (n + before ks (length ks))) /\
    (forall x, x < a \/ a + sz * Z.of_nat (length ks) <= x -> m' x = m x) /\
    (forall i, nth_error ks i = Some true -> jumps m' (a + sz * Z.of_nat i) (n + before ks i)) /\
    (forall i x, nth_error ks i = Some false -> a + sz * Z.of_nat i <= x < a + sz * Z.of_nat i + sz -> m' x = m x).
Proof.
  induction ks as [|k ks IH]; intros [|fuel] m a n F A Fs N L H; cbn [length] in *; try lia; cbn [scan].
  - replace (a <? a + sz * Z.of_nat 0) with false by lia. exists m. split; [unfold before; cbn; do 2 f_equal; lia|]. split; [auto|]. split; intros [|i]; discriminate.
  - replace (a <? a + sz * Z.of_nat (S (length ks))) with true by nia. pose proof (H 0%nat k eq_refl) as H0. rewrite Z.mul_0_r, Z.add_0_r in H0.
    assert (Bk : forall i, before (k :: ks) (S i) = (if k then 1 else 0) + before ks i) by (intros i; unfold before; cbn [firstn count_occ]; destruct k, bool_dec; try congruence; lia).
    assert (Bp : forall i, 0 <= before ks i) by (intros; unfold before; lia).
    assert (X : exists m1, step m a n = Ok (Some (m1, n + if k then 1 else 0)) /\ (forall x, x < a \/ a + sz <= x -> m1 x = m x) /\ (k = true -> jumps m1 a n) /\ (k = false -> m1 = m)).
    { destruct k.
      - destruct (step_stub m a n) as (m1 & E & O & J); [lia|nia|auto| |exists m1; repeat split; auto; discriminate]. specialize (Bk (length ks)). cbn [before] in *. specialize (Bp (length ks)). lia.
      - exists m. rewrite step_other by (auto; nia). replace (n + 0) with n by lia. repeat split; auto; discriminate. }
    destruct X as (m1 & E & O & J & U). rewrite E. cbn [bind].
    destruct (IH fuel m1 (a + sz) (n + if k then 1 else 0)) as (m' & E' & O' & J' & U').
    + lia.
    + lia.
    + nia.
    + destruct k; lia.
    + rewrite Bk in L. destruct k; lia.
    + intros i k' K. specialize (H (S i) k' K). replace (a + sz * Z.of_nat (S i)) with (a + sz + sz * Z.of_nat i) in H by lia.
      destruct k'; [eapply stub_ext; [|exact H]|eapply other_ext; [|exact H]]; intros x X; apply O; nia.
    + exists m'. replace (a + sz * Z.of_nat (S (length ks))) with (a + sz + sz * Z.of_nat (length ks)) by lia. rewrite E'. split; [do 2 f_equal; rewrite Bk; destruct k; lia|]. split.
      * intros x X. rewrite O' by nia. apply O. nia.
      * split.
        -- intros [|i] K.
           ++ cbn in K. injection K as ->. rewrite Z.mul_0_r, Z.add_0_r. unfold before. cbn [firstn count_occ]. rewrite Z.add_0_r. eapply jumps_ext; [|apply J; auto]. intros x X. apply O'. nia.
           ++ cbn in K. specialize (J' i K). replace (a + sz * Z.of_nat (S i)) with (a + sz + sz * Z.of_nat i) by lia. rewrite Bk. replace (n + ((if k then 1 else 0) + before ks i)) with (n + (if k then 1 else 0) + before ks i) by lia. auto.
        -- intros [|i] x K X.
           ++ cbn in K. injection K as ->. rewrite O' by nia. now rewrite U.
           ++ cbn in K. rewrite (U' i x K) by nia. apply O. nia.
Qed.

(* Anything else in the section ends the program; so does it leave nothing out silently. *)
Lemma scan_bad : forall ks fuel m a n c, (length ks < fuel)%nat -> 0 <= a -> a + sz * Z.of_nat (S (length ks)) <= fsz -> 0 <= n -> n + before ks (length ks) <= lim ->
  a + sz * Z.of_nat (S (length ks)) <= c -> 
  (forall i k, nth_error ks i = Some k -> if k then stub m (a + sz * Z.of_nat i) else other m (a + sz * Z.of_nat i)) ->
  ~ stub m (a + sz * Z.of_nat (length ks)) -> ~ other m (a + sz * Z.of_nat (length ks)) ->
  exists m', scan fuel step sz m a c n = Ok (Exit m' (n + before ks (length ks))).
Proof.
  induction ks as [|k ks IH]; intros [|fuel] m a n c F A Fs N L C H NS NO; cbn [length] in *; try lia; cbn [scan]; (replace (a <? c) with true by nia).
  - rewrite Z.mul_0_r, Z.add_0_r in *. rewrite step_bad by (auto; lia). cbn [bind]. exists m. unfold before. cbn. replace (n + Z.of_nat 0) with n by lia. reflexivity.
  - pose proof (H 0%nat k eq_refl) as H0. rewrite Z.mul_0_r, Z.add_0_r in H0.
    assert (Bk : forall i, before (k :: ks) (S i) = (if k then 1 else 0) + before ks i) by (intros i; unfold before; cbn [firstn count_occ]; destruct k, bool_dec; try congruence; lia).
    assert (Bp : forall i, 0 <= before ks i) by (intros; unfold before; lia).
    assert (X : exists m1, step m a n = Ok (Some (m1, n + if k then 1 else 0)) /\ (forall x, x < a \/ a + sz <= x -> m1 x = m x)).
    { destruct k.
      - destruct (step_stub m a n) as (m1 & E & O & J); [lia|nia|auto| |exists m1; auto]. specialize (Bk (length ks)). specialize (Bp (length ks)). lia.
      - exists m. rewrite step_other by (auto; nia). replace (n + 0) with n by lia. auto. }
    destruct X as (m1 & E & O). rewrite E. cbn [bind].
    replace (a + sz * Z.of_nat (S (length ks))) with (a + sz + sz * Z.of_nat (length ks)) in * by lia.
    destruct (IH fuel m1 (a + sz) (n + if k then 1 else 0) c) as (m' & E').
    + lia.
    + lia.
    + nia.
    + destruct k; lia.
    + rewrite Bk in L. destruct k; lia.
    + nia.
    + intros i k' K. specialize (H (S i) k' K). replace (a + sz * Z.of_nat (S i)) with (a + sz + sz * Z.of_nat i) in H by lia.
      destruct k'; [eapply stub_ext; [|exact H]|eapply other_ext; [|exact H]]; intros x X; apply O; nia.
    + intros Q. apply NS. eapply stub_ext; [|exact Q]. intros x X. symmetry. apply O. nia.
    + intros Q. apply NO. eapply other_ext; [|exact Q]. intros x X. symmetry. apply O. nia.
    + exists m'. rewrite E'. do 2 f_equal. rewrite Bk. destruct k; lia.
Qed.
End Scan.
