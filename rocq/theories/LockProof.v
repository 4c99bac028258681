(* The table of open objects behaves like the ideal one: proofs. *)
From Coq Require Import Permutation.
From Verif Require Import Base LockModel LockSpec.
Open Scope Z_scope.
Ltac Zify.zify_post_hook ::= Z.div_mod_to_equations.

(* --- lists --- *)

Lemma nth_set_eq l : forall i f x, nth_error l i = Some x -> nth_error (set_nth l i f) i = Some f.
Proof. induction l; intros [|i] f x H; cbn in *; try discriminate; eauto. Qed.
Lemma nth_set_ne l : forall i j f, i <> j -> nth_error (set_nth l i f) j = nth_error l j.
Proof. induction l; intros [|i] [|j] f H; cbn in *; try congruence; auto. Qed.
Lemma set_nth_length l : forall i f, length (set_nth l i f) = length l.
Proof. induction l; intros [|i] f; cbn; auto. Qed.

Lemma index_spec p l : (index p l = length l /\ forall i f, nth_error l i = Some f -> p f = false) \/
  (exists f, nth_error l (index p l) = Some f /\ p f = true).
Proof.
  induction l as [|a l IH]; cbn [index length].
  - left. split; [reflexivity|]. intros [|i] f H; discriminate.
  - destruct (p a) eqn:Pa; [right; exists a; auto|]. destruct IH as [[E H]|(f & E & H)]; [left|right; exists f; auto].
    split; [now rewrite E|]. intros [|i] f Hf; cbn in Hf; [congruence|eauto].
Qed.

Definition keyof (f : sem) : key := mkKey (s_fs f) (s_clu f) (s_ofs f).

Lemma same_iff f k : same f k = true <-> keyof f = k.
Proof.
  destruct f, k. unfold same, keyof. cbn. rewrite !andb_true_iff, !Z.eqb_eq. split; [intros [[-> ->] ->]; reflexivity|].
  intros E. inversion E. auto.
Qed.

Lemma chk_loop_spec l k : forall be,
  match chk_loop l k be with
  | (Some f, _) => exists i, nth_error l i = Some f /\ s_fs f <> 0 /\ keyof f = k
  | (None, be') => be' = be || existsb blank l /\ forall i f, nth_error l i = Some f -> s_fs f <> 0 -> keyof f <> k
  end.
Proof.
  induction l as [|a l IH]; intros be; cbn [chk_loop existsb].
  - split; [now rewrite orb_false_r|]. intros [|i] f H; discriminate.
  - unfold blank at 1. destruct (s_fs a =? 0) eqn:Q; cbn [negb].
    + specialize (IH true). destruct (chk_loop l k true) as [[f|] be'].
      * destruct IH as (i & H1 & H2 & H3). exists (S i). auto.
      * destruct IH as [-> H]. split; [cbn; now rewrite orb_true_r|]. intros [|i] f Hf; cbn in Hf; [inversion Hf; subst; lia|eauto].
    + destruct (same a k) eqn:Sm.
      * exists 0%nat. split; [reflexivity|]. split; [lia|]. now apply same_iff.
      * specialize (IH be). destruct (chk_loop l k be) as [[f|] be'].
        -- destruct IH as (i & H1 & H2 & H3). exists (S i). auto.
        -- destruct IH as [-> H]. split; [reflexivity|]. intros [|i] f Hf; cbn in Hf; [|eauto].
           inversion Hf; subst. intros _ E. apply same_iff in E. congruence.
Qed.

(* --- sessions --- *)

Lemma on_iff k x : on k x = true <-> alive x = true /\ obj x = Some k.
Proof.
  unfold on. destruct (alive x), (obj x) as [k'|]; cbn; try (split; [discriminate|intros [? ?]; discriminate]).
  destruct (key_eq k k') as [->|N]; split; auto; try discriminate. intros [_ E]. congruence.
Qed.

Lemma users_app l l' k : users (l ++ l') k = users l k ++ users l' k.
Proof. apply filter_app. Qed.

Lemma kill_split l : forall i x, nth_error l i = Some x ->
  exists a b, l = a ++ x :: b /\ length a = i /\ kill l i = a ++ mkSession (obj x) (vol x) (writes x) false :: b.
Proof.
  induction l as [|y l IH]; intros [|i] x H; cbn in H; try discriminate.
  - inversion H; subst. exists [], l. auto.
  - destruct (IH i x H) as (a & b & -> & E & K). exists (y :: a), b. cbn. rewrite E, K. auto.
Qed.

Definition wf (x : session) : Prop := match obj x with Some k => k_fs k = vol x | None => True end.

Lemma users_dead v l k : Forall wf l -> users (map (dead v) l) k = if k_fs k =? v then [] else users l k.
Proof.
  induction 1 as [|x l Hx _ IH]; [cbn; now destruct (k_fs k =? v)|]. cbn [map users filter]. fold (users (map (dead v) l) k). fold (users l k). rewrite IH.
  unfold dead at 1 2. destruct (vol x =? v) eqn:Q.
  - assert (O : on k (mkSession (obj x) (vol x) (writes x) false) = false) by reflexivity. rewrite O.
    destruct (on k x) eqn:O2; [|reflexivity]. apply on_iff in O2. destruct O2 as [_ E]. unfold wf in Hx. rewrite E in Hx.
    replace (k_fs k =? v) with true by lia. reflexivity.
  - destruct (on k x) eqn:O2; [|destruct (k_fs k =? v); reflexivity]. apply on_iff in O2. destruct O2 as [_ E]. unfold wf in Hx. rewrite E in Hx.
    replace (k_fs k =? v) with false by lia. reflexivity.
Qed.

Lemma objects_users l k : In k (objects l) <-> users l k <> [].
Proof.
  unfold objects. rewrite in_flat_map. split.
  - intros (x & I & H) E. destruct (obj x) as [k'|] eqn:O; [|contradiction]. destruct (alive x) eqn:A; [|contradiction].
    destruct H as [->|[]]. assert (J : In x (users l k)) by (apply filter_In; split; [auto|]; apply on_iff; auto).
    rewrite E in J. contradiction.
  - intros N. destruct (users l k) as [|x u] eqn:E; [contradiction|].
    assert (J : In x (users l k)) by (rewrite E; cbn; auto). apply filter_In in J. destruct J as [J O]. apply on_iff in O. destruct O as [A O].
    exists x. split; [auto|]. rewrite O, A. cbn. auto.
Qed.

(* --- the invariant --- *)

Definition ctr_ok (f : sem) (u : list session) : Prop :=
  (existsb writes u = true /\ length u = 1%nat /\ s_ctr f = 256) \/
  (existsb writes u = false /\ (1 <= length u <= 255)%nat /\ s_ctr f = Z.of_nat (length u)).

Definition hrel (s : state) (h : handle) (x : session) : Prop :=
  validate s h = alive x /\ 0 <= h_id h <= fsid s /\ (h_fs h <> 0 -> h_fs h = vol x) /\ wf x /\
  (alive x = true -> match obj x with
                     | None => h_lockid h = 0
                     | Some k => exists i f, h_lockid h = Z.of_nat i + 1 /\ nth_error (files s) i = Some f /\ s_fs f <> 0 /\ keyof f = k
                     end).

Record inv (s : state) (t : ideal) : Prop := mkInv {
  v_len : length (files s) = 16%nat;
  v_up : forall v, mounted s v = up t v;
  v_id : fsid s = Z.of_nat (mounts t) /\ fsid s <= 65535;
  v_ids : forall v, 0 <= vol_id s v <= fsid s;
  v_han : Forall2 (hrel s) (handles s) (sessions t);
  v_ent : forall i f, nth_error (files s) i = Some f -> s_fs f <> 0 -> ctr_ok f (users (sessions t) (keyof f));
  v_one : forall i j f g, nth_error (files s) i = Some f -> nth_error (files s) j = Some g -> s_fs f <> 0 -> keyof f = keyof g -> i = j
}.

Lemma start_inv : inv start ideal_start.
Proof.
  assert (B : forall i f, nth_error (files start) i = Some f -> s_fs f = 0).
  { intros i f H. apply nth_error_In in H. apply repeat_spec in H. now subst f. }
  constructor.
  - reflexivity.
  - reflexivity.
  - cbn. lia.
  - intros v. cbn. lia.
  - constructor.
  - intros i f H N. now apply B in H.
  - intros i j f g H _ N. now apply B in H.
Qed.

Lemma F2_nth {A B} (R : A -> B -> Prop) l l' : Forall2 R l l' -> forall i y, nth_error l' i = Some y -> exists x, nth_error l i = Some x /\ R x y.
Proof. induction 1; intros [|i] z E; cbn in *; try discriminate; [inversion E; subst; eauto|eauto]. Qed.
Lemma F2_nth' {A B} (R : A -> B -> Prop) l l' : Forall2 R l l' -> forall i x, nth_error l i = Some x -> exists y, nth_error l' i = Some y /\ R x y.
Proof. induction 1; intros [|i] z E; cbn in *; try discriminate; [inversion E; subst; eauto|eauto]. Qed.
Lemma F2_none {A B} (R : A -> B -> Prop) l l' : Forall2 R l l' -> forall i, nth_error l i = None -> nth_error l' i = None.
Proof. induction 1; intros [|i] E; cbn in *; try discriminate; auto. Qed.

Lemma F2_length {A B} (R : A -> B -> Prop) l l' : Forall2 R l l' -> length l = length l'.
Proof. induction 1; cbn; auto. Qed.
Lemma F2_wf s l l' : Forall2 (hrel s) l l' -> Forall wf l'.
Proof. induction 1; constructor; auto. apply H. Qed.

(* Every open object has its entry. *)
Lemma user_entry s t k : inv s t -> users (sessions t) k <> [] -> exists i f, nth_error (files s) i = Some f /\ s_fs f <> 0 /\ keyof f = k.
Proof.
  intros V N. destruct (users (sessions t) k) as [|x u] eqn:E; [contradiction|].
  assert (J : In x (users (sessions t) k)) by (rewrite E; cbn; auto). apply filter_In in J. destruct J as [J O]. apply on_iff in O. destruct O as [A O].
  apply In_nth_error in J. destruct J as (n & J). destruct (F2_nth _ _ _ (v_han _ _ V) n x J) as (h & _ & Hh).
  destruct Hh as (_ & _ & _ & _ & H). specialize (H A). rewrite O in H. destruct H as (i & f & _ & H). eauto.
Qed.
Lemma entry_user s t i f : inv s t -> nth_error (files s) i = Some f -> s_fs f <> 0 -> (1 <= length (users (sessions t) (keyof f)))%nat.
Proof. intros V H N. destruct (v_ent _ _ V i f H N) as [(_ & L & _)|(_ & L & _)]; lia. Qed.

Lemma NoDup_map_inj {A B} (g : A -> B) (l : list A) :
  (forall i j x y, nth_error l i = Some x -> nth_error l j = Some y -> g x = g y -> i = j) -> NoDup (map g l).
Proof.
  induction l as [|a l IH]; intros H; cbn [map]; [constructor|]. constructor.
  - intros I. apply in_map_iff in I. destruct I as (y & E & I). apply In_nth_error in I. destruct I as (n & I).
    pose proof (H 0%nat (S n) a y eq_refl I (eq_sym E)). discriminate.
  - apply IH. intros i j x y Hx Hy E. pose proof (H (S i) (S j) x y Hx Hy E). lia.
Qed.

Lemma keys_nodup l : (forall i j f g, nth_error l i = Some f -> nth_error l j = Some g -> s_fs f <> 0 -> keyof f = keyof g -> i = j) ->
  NoDup (map keyof (filter (fun f => negb (blank f)) l)).
Proof.
  induction l as [|a l IH]; intros H; cbn [filter map]; [constructor|].
  assert (IH' : NoDup (map keyof (filter (fun f => negb (blank f)) l))).
  { apply IH. intros i j f g Hf Hg N E. pose proof (H (S i) (S j) f g Hf Hg N E). lia. }
  destruct (blank a) eqn:Q; cbn [negb map]; [exact IH'|]. constructor; [|exact IH'].
  intros I. apply in_map_iff in I. destruct I as (y & E & I). apply filter_In in I. destruct I as [I _]. apply In_nth_error in I. destruct I as (n & I).
  unfold blank in Q. pose proof (H 0%nat (S n) a y eq_refl I ltac:(lia) (eq_sym E)). discriminate.
Qed.

Lemma filter_le {A} (p : A -> bool) (l : list A) : (length (filter p l) <= length l)%nat.
Proof. induction l as [|a l IH]; cbn; [lia|]. destruct (p a); cbn; lia. Qed.
Lemma filter_full {A} (p : A -> bool) l : (length (filter p l) < length l)%nat <-> existsb (fun x => negb (p x)) l = true.
Proof.
  induction l as [|a l IH]; cbn; [split; [lia|discriminate]|]. destruct (p a) eqn:Q; cbn.
  - rewrite <- IH. lia.
  - pose proof (filter_le p l). split; [auto|lia].
Qed.

Lemma room s t : inv s t -> (n_objects (sessions t) <? 16)%nat = existsb blank (files s).
Proof.
  intros V. set (K := map keyof (filter (fun f => negb (blank f)) (files s))).
  assert (E : n_objects (sessions t) = length K).
  { unfold n_objects. apply Permutation_length, NoDup_Permutation.
    - apply NoDup_nodup.
    - apply keys_nodup, (v_one _ _ V).
    - intros k. rewrite nodup_In, objects_users. unfold K. rewrite in_map_iff. split.
      + intros N. destruct (user_entry s t k V N) as (i & f & H1 & H2 & H3). exists f. split; [auto|]. apply filter_In.
        split; [eapply nth_error_In; eauto|]. unfold blank. lia.
      + intros (f & <- & I). apply filter_In in I. destruct I as [I B]. apply In_nth_error in I. destruct I as (i & I).
        unfold blank in B. pose proof (entry_user s t i f V I ltac:(lia)). destruct (users (sessions t) (keyof f)); [cbn in *; lia|discriminate]. }
  rewrite E. unfold K. rewrite map_length. pose proof (filter_full (fun f => negb (blank f)) (files s)) as X. rewrite (v_len _ _ V) in X.
  assert (Y : existsb (fun f => negb (negb (blank f))) (files s) = existsb blank (files s)).
  { clear. induction (files s) as [|a l IH]; cbn; [auto|]. now rewrite negb_involutive, IH. }
  rewrite Y in X. destruct (existsb blank (files s)) eqn:Q; [apply Nat.ltb_lt; tauto|]. apply Nat.ltb_ge.
  destruct (le_lt_dec 16 (length (filter (fun f => negb (blank f)) (files s)))) as [|L]; [auto|]. apply X in L. discriminate.
Qed.

(* --- mounting --- *)

Lemma nth_clear l v i : nth_error (clear_share l v) i = option_map (fun f => if s_fs f =? v then mkSem 0 (s_clu f) (s_ofs f) (s_ctr f) else f) (nth_error l i).
Proof. unfold clear_share. revert i. induction l; intros [|i]; cbn; auto. Qed.

Lemma clear_inv l v i f : nth_error (clear_share l v) i = Some f -> s_fs f <> 0 -> nth_error l i = Some f /\ s_fs f <> v.
Proof.
  rewrite nth_clear. destruct (nth_error l i) as [g|]; [|discriminate]. cbn. intros E N. inversion E. destruct (Z.eqb_spec (s_fs g) v).
  - rewrite <- H0 in N. cbn in N. lia.
  - subst g. auto.
Qed.
Lemma clear_keep l v i f : nth_error l i = Some f -> s_fs f <> v -> nth_error (clear_share l v) i = Some f.
Proof. intros H N. rewrite nth_clear, H. cbn. now replace (s_fs f =? v) with false by lia. Qed.

(* Clearing the entries of a volume whose sessions are all dead afterwards. *)
Lemma clear_ok s t v m i' f' n :
  inv s t -> v <> 0 -> f' = Z.of_nat n -> (n >= mounts t)%nat -> f' <= 65535 ->
  (forall x, 0 <= i' x <= f') ->
  (forall x, x <> v -> m x = mounted s x /\ i' x = vol_id s x) ->
  (m v = true -> i' v = f' /\ f' > fsid s) ->
  inv (mkState (clear_share (files s) v) f' m i' (handles s)) (mkIdeal m (map (dead v) (sessions t)) n).
Proof.
  intros V Hv Ef Hn Hf Hi Ho Hm. pose proof (F2_wf _ _ _ (v_han _ _ V)) as W. destruct (v_id _ _ V) as [EF LF].
  constructor; cbn [files fsid mounted vol_id handles up sessions mounts].
  - unfold clear_share. rewrite map_length. apply (v_len _ _ V).
  - reflexivity.
  - auto.
  - auto.
  - pose proof (v_han _ _ V) as H. induction H as [|h x hs xs Hh H IH]; [constructor|]. cbn [map]. constructor.
    + destruct Hh as (Va & Id & Fs & Wx & Al). inversion W; subst.
      assert (Vol : vol (dead v x) = vol x) by (unfold dead; now destruct (vol x =? v)).
      assert (Ob : obj (dead v x) = obj x) by (unfold dead; now destruct (vol x =? v)).
      assert (Al' : validate (mkState (clear_share (files s) v) (Z.of_nat n) m i' (handles s)) h = alive (dead v x)).
      { unfold validate in *. cbn [mounted vol_id]. destruct (Z.eqb_spec (h_fs h) 0) as [E|E]; cbn [negb andb] in *.
        - unfold dead. destruct (vol x =? v); cbn; auto.
        - specialize (Fs E). unfold dead. destruct (Z.eqb_spec (vol x) v) as [Ev|Ev]; cbn [alive].
          + rewrite Fs, Ev. destruct (m v) eqn:M; [|reflexivity]. destruct (Hm eq_refl) as [I1 I2]. cbn [andb]. rewrite I1. lia.
          + rewrite <- Fs in Ev. destruct (Ho _ Ev) as [-> ->]. exact Va. }
      split; [exact Al'|]. split; [cbn; lia|]. split; [now rewrite Vol|]. split; [unfold wf in *; now rewrite Ob, Vol|].
      intros A. rewrite Ob. unfold dead in A. destruct (Z.eqb_spec (vol x) v); [discriminate|]. specialize (Al A). destruct (obj x) as [k|] eqn:O; [|exact Al].
      destruct Al as (i & f & E1 & E2 & E3 & E4). exists i, f. split; [exact E1|]. split; [|auto]. cbn [files]. apply clear_keep; [auto|].
      unfold wf in Wx. rewrite O in Wx. rewrite <- E4 in Wx. cbn in Wx. lia.
    + apply IH; auto; try (now inversion W).
  - intros i f H N. apply clear_inv in H; [|auto]. destruct H as [H Nv]. rewrite users_dead by auto. cbn [keyof k_fs].
    replace (s_fs f =? v) with false by lia. apply (v_ent _ _ V i f H N).
  - intros i j f g Hf' Hg N E. apply clear_inv in Hf'; [|auto]. assert (Ng : s_fs g <> 0) by (inversion E; lia).
    apply clear_inv in Hg; [|auto]. destruct Hf', Hg. eapply (v_one _ _ V); eauto.
Qed.

Lemma mount_inv s t v : inv s t -> v <> 0 -> Z.of_nat (mounts t) < 65535 -> inv (mount_volume s v) (need t v).
Proof.
  intros V Hv Hm. unfold mount_volume, need. rewrite (v_up _ _ V v). destruct (up t v) eqn:U; [exact V|].
  destruct (v_id _ _ V) as [EF LF]. unfold mount.
  assert (E : (fsid s + 1) mod 65536 = Z.of_nat (S (mounts t))) by (rewrite Z.mod_small; lia). rewrite E.
  assert (X : inv (mkState (clear_share (files s) v) (Z.of_nat (S (mounts t))) (put (mounted s) v true) (putz (vol_id s) v (Z.of_nat (S (mounts t)))) (handles s))
    (mkIdeal (put (mounted s) v true) (map (dead v) (sessions t)) (S (mounts t)))).
  { apply clear_ok; auto; try lia.
    - intros x. unfold putz. pose proof (v_ids _ _ V x). destruct (x =? v); lia.
    - intros x Nx. unfold put, putz. replace (x =? v) with false by lia. auto.
    - unfold putz. rewrite Z.eqb_refl. intros _. split; [auto|lia]. }
  destruct X as [X1 X2 X3 X4 X5 X6 X7]. constructor; auto.
  intros x. cbn. unfold put. destruct (x =? v); [auto|]. apply (v_up _ _ V).
Qed.

Lemma unmount_inv s t v : inv s t -> v <> 0 -> inv (unmount s v) (fst (ideal_step t (Unmount v))).
Proof.
  intros V Hv. unfold unmount. cbn [ideal_step fst]. rewrite (v_up _ _ V v). destruct (up t v) eqn:U; [|exact V].
  destruct (v_id _ _ V) as [EF LF].
  assert (X : inv (mkState (clear_share (files s) v) (fsid s) (put (mounted s) v false) (vol_id s) (handles s))
    (mkIdeal (put (mounted s) v false) (map (dead v) (sessions t)) (mounts t))).
  { apply clear_ok; auto; try lia.
    - apply (v_ids _ _ V).
    - intros x Nx. unfold put. replace (x =? v) with false by lia. auto.
    - unfold put. rewrite Z.eqb_refl. discriminate. }
  destruct X as [X1 X2 X3 X4 X5 X6 X7]. constructor; auto.
  intros x. cbn. unfold put. destruct (x =? v); [auto|]. apply (v_up _ _ V).
Qed.

(* --- opening --- *)

Lemma hrel_files s h x fs' l' : hrel s h x ->
  (forall i f, nth_error (files s) i = Some f -> s_fs f <> 0 -> alive x = true -> obj x = Some (keyof f) -> exists f', nth_error fs' i = Some f' /\ s_fs f' <> 0 /\ keyof f' = keyof f) ->
  hrel (mkState fs' (fsid s) (mounted s) (vol_id s) l') h x.
Proof.
  intros (H1 & H2 & H3 & H4 & H5) K. split; [exact H1|]. split; [exact H2|]. split; [exact H3|]. split; [exact H4|].
  intros A. specialize (H5 A). destruct (obj x) as [k|] eqn:O; [|exact H5]. destruct H5 as (i & f & E1 & E2 & E3 & E4).
  destruct (K i f E2 E3 A ltac:(now rewrite E4)) as (f' & F1 & F2 & F3). exists i, f'. cbn [files]. split; [auto|]. split; [auto|]. split; [auto|]. congruence.
Qed.

Lemma F2_impl {A B} (R R' : A -> B -> Prop) l l' : (forall x y, In y l' -> R x y -> R' x y) -> Forall2 R l l' -> Forall2 R' l l'.
Proof. intros H F. revert H. induction F; intros K; constructor; auto. - apply K; cbn; auto. - apply IHF. intros. apply K; cbn; auto. Qed.

(* A refused request leaves a dead session. *)
Lemma refuse s t x : inv s t -> alive x = false -> wf x -> inv (add_handle s (files s) none) (record t x).
Proof.
  intros V A W. pose proof V as V0. destruct V as [X1 X2 X3 X4 X5 X6 X7]. constructor; cbn [add_handle record files fsid mounted vol_id handles up sessions mounts]; auto.
  - apply Forall2_app.
    + eapply F2_impl; [|exact X5]. intros h y _ Hh. apply (hrel_files s); [exact Hh|]. eauto.
    + constructor; [|constructor]. split; [now rewrite A|]. split; [cbn; pose proof (X4 0); lia|]. split; [cbn; lia|]. split; [auto|]. rewrite A. discriminate.
  - intros i f H N. rewrite users_app. assert (E : users [x] (keyof f) = []). { cbn. unfold on. now rewrite A. }
    rewrite E, app_nil_r. eauto.
Qed.

(* A new session on entry i. *)
Lemma install s t i k f0 f' w : inv s t -> k_fs k <> 0 -> up t (k_fs k) = true ->
  nth_error (files s) i = Some f0 -> (s_fs f0 = 0 \/ keyof f0 = k) ->
  (forall j g, nth_error (files s) j = Some g -> s_fs g <> 0 -> keyof g = k -> j = i) ->
  keyof f' = k -> ctr_ok f' (users (sessions t) k ++ [mkSession (Some k) (k_fs k) w true]) ->
  inv (add_handle s (set_nth (files s) i f') (mkHandle (k_fs k) (vol_id s (k_fs k)) (Z.of_nat i + 1)))
      (record t (mkSession (Some k) (k_fs k) w true)).
Proof.
  intros V Hk Hu H0 Hf0 Uq Kf Ct. pose proof V as V0. destruct V as [X1 X2 X3 X4 X5 X6 X7].
  assert (Nf : s_fs f' <> 0) by (rewrite <- Kf in Hk; exact Hk).
  constructor; cbn [add_handle record files fsid mounted vol_id handles up sessions mounts]; auto.
  - now rewrite set_nth_length.
  - apply Forall2_app.
    + eapply F2_impl; [|exact X5]. intros h y _ Hh. apply (hrel_files s); [exact Hh|]. intros j f Hj Nj _ _.
      destruct (Nat.eq_dec i j) as [<-|N].
      * exists f'. rewrite (nth_set_eq _ _ _ _ H0). split; [auto|]. split; [auto|]. rewrite H0 in Hj. inversion Hj; subst f0. destruct Hf0; [contradiction|congruence].
      * exists f. rewrite nth_set_ne by auto. auto.
    + constructor; [|constructor]. split; [|split; [|split; [|split]]].
      * unfold validate. cbn. rewrite X2, Hu, Z.eqb_refl. replace (k_fs k =? 0) with false by lia. reflexivity.
      * cbn. apply X4.
      * reflexivity.
      * reflexivity.
      * intros _. cbn [obj h_lockid files]. exists i, f'. split; [reflexivity|]. split; [apply (nth_set_eq _ _ _ _ H0)|auto].
  - intros j f Hj Nj. rewrite users_app. destruct (Nat.eq_dec i j) as [<-|N].
    + rewrite (nth_set_eq _ _ _ _ H0) in Hj. inversion Hj; subst f. rewrite Kf. assert (E : users [mkSession (Some k) (k_fs k) w true] k = [mkSession (Some k) (k_fs k) w true]).
      { cbn. unfold on. cbn. destruct (key_eq k k); [reflexivity|contradiction]. }
      now rewrite E.
    + rewrite nth_set_ne in Hj by auto. assert (E : users [mkSession (Some k) (k_fs k) w true] (keyof f) = []).
      { cbn [users filter]. destruct (on (keyof f) (mkSession (Some k) (k_fs k) w true)) eqn:O; [|reflexivity]. apply on_iff in O. destruct O as [_ O]. cbn in O.
        inversion O. exfalso. apply N. symmetry. apply (Uq j f); auto. }
      rewrite E, app_nil_r. eauto.
  - intros j l f g Hj Hl Nj E. destruct (Nat.eq_dec i j) as [<-|N], (Nat.eq_dec i l) as [<-|M]; auto.
    + rewrite (nth_set_eq _ _ _ _ H0) in Hj. inversion Hj; subst f. rewrite nth_set_ne in Hl by auto. symmetry. apply (Uq l g); auto; [inversion E; lia|congruence].
    + rewrite (nth_set_eq _ _ _ _ H0) in Hl. inversion Hl; subst g. rewrite nth_set_ne in Hj by auto. apply (Uq j f); auto. congruence.
    + rewrite nth_set_ne in Hj by auto. rewrite nth_set_ne in Hl by auto. eauto.
Qed.

Lemma no_entry s t k : inv s t -> users (sessions t) k = [] -> forall j g, nth_error (files s) j = Some g -> s_fs g <> 0 -> keyof g <> k.
Proof. intros V E j g H N K. pose proof (entry_user s t j g V H N). rewrite K, E in H0. cbn in H0. lia. Qed.

Lemma inc_ok s t k (w : bool) : inv s t -> k_fs k <> 0 -> up t (k_fs k) = true -> (length (users (sessions t) k) < 255)%nat ->
  grant (sessions t) k w = FR_OK ->
  exists fs' id, inc_share (files s) k (if w then 1 else 0) = (fs', id) /\ id <> 0 /\
    inv (add_handle s fs' (mkHandle (k_fs k) (vol_id s (k_fs k)) id)) (record t (mkSession (Some k) (k_fs k) w true)).
Proof.
  intros V Hk Hu Hl G. unfold grant in G. rewrite (room s t V) in G. unfold inc_share.
  destruct (users (sessions t) k) as [|x u] eqn:U.
  - cbn [length] in G. change (0 =? 0)%nat with true in G. cbv iota in G. destruct (existsb blank (files s)) eqn:B; [|discriminate].
    destruct (index_spec (fun f => same f k) (files s)) as [[E _]|(f & E & Sm)].
    2:{ exfalso. apply same_iff in Sm. apply (no_entry s t k V U _ f E); [rewrite <- Sm in Hk; exact Hk|exact Sm]. }
    rewrite E, Nat.eqb_refl. destruct (index_spec blank (files s)) as [[_ Nb]|(f & Ej & Bf)].
    + exfalso. apply existsb_exists in B. destruct B as (f & I & Bf). apply In_nth_error in I. destruct I as (n & I). rewrite (Nb n f I) in Bf. discriminate.
    + assert (L : (index blank (files s) < length (files s))%nat) by (apply nth_error_Some; rewrite Ej; discriminate).
      replace (index blank (files s) =? length (files s))%nat with false by (symmetry; apply Nat.eqb_neq; lia).
      unfold inc_entry. cbn [s_ctr s_fs s_clu s_ofs]. change (0 =? 0) with true. cbn [negb]. rewrite andb_false_r.
      eexists _, _. split; [reflexivity|]. split; [lia|]. unfold blank in Bf. apply install with (f0 := f); auto.
      * left. lia.
      * intros j g Hj Nj Kg. exfalso. eapply no_entry; eauto.
      * now destruct k.
      * rewrite U. cbn [app]. destruct w; [left|right]; cbn; [auto|split; [auto|split; [lia|reflexivity]]].
  - cbn [length] in G. change (S (length u) =? 0)%nat with false in G. cbv iota in G. destruct (w || existsb writes (x :: u)) eqn:Q; [discriminate|].
    apply orb_false_iff in Q. destruct Q as [-> Q].
    destruct (user_entry s t k V ltac:(rewrite U; discriminate)) as (i & f & Hf & Nf & Kf).
    destruct (index_spec (fun f => same f k) (files s)) as [[_ N]|(g & E & Sm)].
    { exfalso. specialize (N i f Hf). apply same_iff in Kf. congruence. }
    apply same_iff in Sm.
    assert (L : (index (fun f => same f k) (files s) < length (files s))%nat) by (apply nth_error_Some; rewrite E; discriminate).
    replace (index (fun f => same f k) (files s) =? length (files s))%nat with false by (symmetry; apply Nat.eqb_neq; lia).
    rewrite E. unfold inc_entry. change (1 <=? 0) with false. cbn [andb]. change (negb (0 =? 0)) with false. cbv iota.
    assert (Ng : s_fs g <> 0) by (rewrite <- Sm in Hk; exact Hk).
    eexists _, _. split; [reflexivity|]. split; [lia|]. apply install with (f0 := g); auto.
    + intros j h Hj Nj Kh. apply (v_one _ _ V j _ h g Hj E Nj). congruence.
    + rewrite U. destruct (v_ent _ _ V _ g E Ng) as [(Wr & _)|(_ & Ln & Ct)]; rewrite Sm, U in *; [congruence|].
      right. rewrite existsb_app, Q. split; [reflexivity|]. rewrite app_length. cbn [length] in *. split; [lia|]. cbn [s_ctr]. rewrite Ct, Z.mod_small; lia.
Qed.

Lemma chk_ok s t k (w : bool) : inv s t -> k_fs k <> 0 -> (length (users (sessions t) k) < 255)%nat ->
  chk_share (files s) k (if w then 1 else 0) = grant (sessions t) k w.
Proof.
  intros V Hk Hl. unfold chk_share, grant. rewrite (room s t V). pose proof (chk_loop_spec (files s) k false) as C.
  destruct (chk_loop (files s) k false) as [[f|] be].
  - destruct C as (i & Hf & Nf & Kf). pose proof (entry_user s t i f V Hf Nf) as L. rewrite Kf in L.
    replace (length (users (sessions t) k) =? 0)%nat with false by (symmetry; apply Nat.eqb_neq; lia).
    destruct (v_ent _ _ V i f Hf Nf) as [(Wr & Ln & Ct)|(Wr & Ln & Ct)]; rewrite Kf in *; rewrite Wr, Ct.
    + destruct w; reflexivity.
    + replace (Z.of_nat (length (users (sessions t) k)) =? 256) with false by lia. destruct w; reflexivity.
  - destruct C as [-> N]. assert (U : users (sessions t) k = []).
    { destruct (users (sessions t) k) eqn:E; [reflexivity|]. destruct (user_entry s t k V ltac:(rewrite E; discriminate)) as (i & f & H1 & H2 & H3). exfalso. eapply N; eauto. }
    rewrite U. cbn [length orb]. change (0 =? 0)%nat with true. destruct (existsb blank (files s)); destruct w; reflexivity.
Qed.
Lemma chk_delete s t k : inv s t -> k_fs k <> 0 ->
  chk_share (files s) k 2 = if (length (users (sessions t) k) =? 0)%nat then FR_OK else FR_LOCKED.
Proof.
  intros V Hk. unfold chk_share. pose proof (chk_loop_spec (files s) k false) as C.
  destruct (chk_loop (files s) k false) as [[f|] be].
  - destruct C as (i & Hf & Nf & Kf). pose proof (entry_user s t i f V Hf Nf) as L. rewrite Kf in L.
    replace (length (users (sessions t) k) =? 0)%nat with false by (symmetry; apply Nat.eqb_neq; lia). reflexivity.
  - destruct C as [-> N]. assert (U : users (sessions t) k = []).
    { destruct (users (sessions t) k) eqn:E; [reflexivity|]. destruct (user_entry s t k V ltac:(rewrite E; discriminate)) as (i & f & H1 & H2 & H3). exfalso. eapply N; eauto. }
    rewrite U. change (negb (2 =? 2)) with false. now rewrite andb_false_r.
Qed.
Lemma enq_blank l : enq_share l = existsb blank l.
Proof.
  unfold enq_share. destruct (index_spec blank l) as [[E N]|(f & E & B)].
  - rewrite E, Nat.eqb_refl. cbn. destruct (existsb blank l) eqn:Q; [|reflexivity]. apply existsb_exists in Q. destruct Q as (f & I & B).
    apply In_nth_error in I. destruct I as (n & I). rewrite (N n f I) in B. discriminate.
  - assert (L : (index blank l < length l)%nat) by (apply nth_error_Some; rewrite E; discriminate).
    replace (index blank l =? length l)%nat with false by (symmetry; apply Nat.eqb_neq; lia). cbn. symmetry. apply existsb_exists. exists f. split; [|auto].
    eapply nth_error_In; eauto.
Qed.

(* --- closing --- *)

Lemma set_handle_F2 (R R' : handle -> session -> Prop) h' x' : forall l l' i x,
  Forall2 R l l' -> nth_error l' i = Some x -> (forall h y, In y l' -> R h y -> R' h y) -> R' h' x' ->
  x' = mkSession (obj x) (vol x) (writes x) false -> Forall2 R' (set_handle l i h') (kill l' i).
Proof.
  intros l l' i x F. revert i x. induction F as [|h y hs ys Hh F IH]; intros i x E K Hx ->; [destruct i; discriminate|]. destruct i as [|i]; cbn in *.
  - inversion E; subst. constructor; [exact Hx|]. eapply F2_impl; [|exact F]. intros. apply K; auto.
  - constructor; [apply K; auto|]. apply (IH i x); auto.
Qed.

Lemma users_kill l i x k : nth_error l i = Some x -> alive x = true ->
  exists a b, users l k = a ++ (if on k x then [x] else []) ++ b /\ users (kill l i) k = a ++ b.
Proof.
  intros H A. destruct (kill_split l i x H) as (a & b & -> & _ & ->). exists (users a k), (users b k). rewrite !users_app.
  split; [|reflexivity]. f_equal. cbn [users filter]. now destruct (on k x).
Qed.

Lemma close_ok s t i : inv s t -> exists s', step s (Close i) = (s', snd (ideal_step t (Close i))) /\ inv s' (fst (ideal_step t (Close i))).
Proof.
  intros V. cbn [step ideal_step]. unfold close. destruct (nth_error (sessions t) i) as [x|] eqn:Ex.
  2:{ destruct (nth_error (handles s) i) as [h|] eqn:Eh; [|eauto]. destruct (F2_nth' _ _ _ (v_han _ _ V) i h Eh) as (y & E & _). congruence. }
  destruct (F2_nth _ _ _ (v_han _ _ V) i x Ex) as (h & Eh & Hh). rewrite Eh. pose proof Hh as (Va & Id & Fs & Wx & Al). rewrite Va.
  destruct (alive x) eqn:A; [|eauto]. specialize (Al eq_refl). cbn [fst snd].
  assert (Dead : forall fs' l', hrel (mkState fs' (fsid s) (mounted s) (vol_id s) l') (mkHandle 0 (h_id h) (h_lockid h)) (mkSession (obj x) (vol x) (writes x) false)).
  { intros fs' l'. split; [reflexivity|]. split; [exact Id|]. split; [cbn; lia|]. split; [exact Wx|discriminate]. }
  destruct (obj x) as [k|] eqn:O.
  - destruct Al as (j & f & El & Hf & Nf & Kf). rewrite El. replace (Z.of_nat j + 1 =? 0) with false by lia.
    assert (Lj : (j < length (files s))%nat) by (apply nth_error_Some; rewrite Hf; discriminate). rewrite (v_len _ _ V) in Lj.
    unfold dec_share. replace ((Z.of_nat j + 1 - 1) mod 4294967296) with (Z.of_nat j) by (rewrite Z.mod_small; lia).
    rewrite (v_len _ _ V). replace (Z.of_nat j <? Z.of_nat 16) with true by lia. rewrite Nat2Z.id, Hf.
    set (n := if s_ctr f =? 256 then 0 else s_ctr f). set (n' := if 0 <? n then n - 1 else n).
    eexists. split; [reflexivity|].
    destruct (users_kill (sessions t) i x k Ex A) as (a & b & U & U'). assert (On : on k x = true) by (apply on_iff; auto). rewrite On in U. cbn [app] in U.
    assert (Ct : n' = Z.of_nat (length (a ++ b)) /\ existsb writes (a ++ b) = false /\ (length (a ++ b) <= 255)%nat).
    { pose proof (v_ent _ _ V j f Hf Nf) as C. rewrite Kf, U in C. unfold ctr_ok in C. rewrite !app_length in C. cbn [length] in C. rewrite app_length.
      unfold n', n. destruct C as [(Wr & Ln & Ct)|(Wr & Ln & Ct)]; rewrite Ct.
      - assert (length a = 0%nat /\ length b = 0%nat) as [La Lb] by lia. destruct a; [|discriminate]. destruct b; [|discriminate].
        change (256 =? 256) with true. cbv iota. change (0 <? 0) with false. cbn. split; [reflexivity|]. split; [reflexivity|lia].
      - rewrite existsb_app in *. cbn [existsb] in Wr. apply orb_false_iff in Wr. destruct Wr as [-> Wr]. apply orb_false_iff in Wr. destruct Wr as [_ ->].
        split; [|split; [reflexivity|lia]]. destruct (Z.eqb_spec (Z.of_nat (length a + S (length b))) 256); [lia|].
        destruct (Z.ltb_spec 0 (Z.of_nat (length a + S (length b)))); lia. }
    destruct Ct as (Ct & Wr & Ln).
    set (f' := mkSem (if n' =? 0 then 0 else s_fs f) (s_clu f) (s_ofs f) n').
    destruct V as [X1 X2 X3 X4 X5 X6 X7].
    assert (Kill : forall k', k' <> k -> users (kill (sessions t) i) k' = users (sessions t) k').
    { intros k' Nk. destruct (users_kill (sessions t) i x k' Ex A) as (a' & b' & W & W'). rewrite W, W'.
      destruct (on k' x) eqn:O2; [|reflexivity]. apply on_iff in O2. destruct O2 as [_ O2]. congruence. }
    constructor; cbn [files fsid mounted vol_id handles up sessions mounts]; auto.
    + now rewrite set_nth_length.
    + (* the slot is kept as long as it has users *)
      (* sessions other than i with object k keep the slot alive *)
      destruct (kill_split (sessions t) i x Ex) as (sa & sb & Es & Ls & Ek). rewrite Ek.
      rewrite Es in X5. apply Forall2_app_inv_r in X5. destruct X5 as (ha & hb & Fa & Fb & Eha).
      inversion Fb as [|h0 y0 hb' sb' Hh0 Fb' Eh0 Ey0]. subst hb y0 sb'.
      assert (Lh : length ha = i) by (rewrite <- Ls; eapply F2_length; eauto).
      assert (Esh : set_handle (handles s) i (mkHandle 0 (h_id h) (Z.of_nat j + 1)) = ha ++ mkHandle 0 (h_id h) (Z.of_nat j + 1) :: hb').
      { rewrite Eha. rewrite <- Lh. clear. induction ha; cbn; [reflexivity|]. now rewrite IHha. }
      assert (Eusers : users (sa ++ sb) k = a ++ b).
      { rewrite <- U', Ek. rewrite !users_app. reflexivity. }
      assert (Keep : forall h' y, In y (sa ++ sb) -> hrel s h' y -> hrel (mkState (set_nth (files s) j f') (fsid s) (mounted s) (vol_id s) (set_handle (handles s) i (mkHandle 0 (h_id h) (Z.of_nat j + 1)))) h' y).
      { intros h' y I Hy. apply hrel_files; [exact Hy|]. intros j' g Hg Ng Ay Oy. destruct (Nat.eq_dec j j') as [<-|Nj].
        - rewrite Hf in Hg. inversion Hg; subst g. exists f'. split; [apply (nth_set_eq _ _ _ _ Hf)|].
          assert (Iu : In y (users (sa ++ sb) k)) by (apply filter_In; split; [auto|]; apply on_iff; split; [auto|congruence]).
          rewrite Eusers in Iu. assert (L1 : (1 <= length (a ++ b))%nat) by (destruct (a ++ b); [contradiction|cbn; lia]).
          assert (Nz : n' =? 0 = false) by lia. unfold f'. rewrite Nz. split; [exact Nf|reflexivity].
        - exists g. rewrite nth_set_ne by auto. auto. }
      rewrite Esh. apply Forall2_app.
      * eapply F2_impl; [|exact Fa]. intros h' y I Hy. rewrite <- Esh. apply Keep; [apply in_or_app; auto|auto].
      * constructor; [specialize (Dead (set_nth (files s) j f')); rewrite El in Dead; rewrite O; apply Dead|].
        eapply F2_impl; [|exact Fb']. intros h' y I Hy. rewrite <- Esh. apply Keep; [apply in_or_app; auto|auto].
    + intros m g Hg Ng. destruct (Nat.eq_dec j m) as [<-|Nm].
      * rewrite (nth_set_eq _ _ _ _ Hf) in Hg. inversion Hg; subst g. unfold f' in Ng. cbn in Ng.
        destruct (n' =? 0) eqn:Q; [congruence|]. assert (Kf' : keyof f' = k) by (unfold f', keyof; cbn [s_fs s_clu s_ofs]; rewrite ?Q; exact Kf). rewrite Kf', U'.
        right. split; [exact Wr|]. split; [lia|]. exact Ct.
      * rewrite nth_set_ne in Hg by auto. rewrite Kill; [eauto|]. intros E. apply Nm. apply (X7 j m f g Hf Hg Nf). congruence.
    + intros m l g g' Hm Hl Ng E. assert (Get : forall m0 g0, nth_error (set_nth (files s) j f') m0 = Some g0 -> s_fs g0 <> 0 -> exists g1, nth_error (files s) m0 = Some g1 /\ s_fs g1 <> 0 /\ keyof g1 = keyof g0).
      { intros m0 g0 H0 N0. destruct (Nat.eq_dec j m0) as [<-|Nm]; [|rewrite nth_set_ne in H0 by auto; eauto].
        rewrite (nth_set_eq _ _ _ _ Hf) in H0. inversion H0; subst g0. exists f. split; [auto|]. split; [auto|]. unfold f' in *. cbn in *. destruct (n' =? 0); [congruence|reflexivity]. }
      assert (Ng' : s_fs g' <> 0) by (inversion E; lia).
      destruct (Get m g Hm Ng) as (g1 & G1 & G2 & G3). destruct (Get l g' Hl Ng') as (g2 & F1 & F2 & F3). apply (X7 m l g1 g2 G1 F1 G2). congruence.
  - rewrite Al. change (0 =? 0) with true. cbv iota. eexists. split; [reflexivity|]. pose proof V as V0. destruct V as [X1 X2 X3 X4 X5 X6 X7].
    assert (Kill : forall k', users (kill (sessions t) i) k' = users (sessions t) k').
    { intros k'. destruct (users_kill (sessions t) i x k' Ex A) as (a' & b' & W & W'). rewrite W, W'.
      destruct (on k' x) eqn:O2; [|reflexivity]. apply on_iff in O2. destruct O2 as [_ O2]. congruence. }
    constructor; cbn [files fsid mounted vol_id handles up sessions mounts]; auto.
    + eapply set_handle_F2; [exact X5|exact Ex| |rewrite Al in Dead; apply Dead|now rewrite O].
      intros h' y _ Hy. apply hrel_files; [exact Hy|]. eauto.
    + intros m g Hg Ng. rewrite Kill. eauto.
Qed.

(* --- histories --- *)

Lemma need_up t v : up (need t v) v = true.
Proof. unfold need. destruct (up t v) eqn:U; [exact U|]. cbn. unfold put. now rewrite Z.eqb_refl. Qed.

Lemma users_need s t v k : inv s t -> (length (users (sessions (need t v)) k) <= length (users (sessions t) k))%nat /\
  (existsb writes (users (sessions t) k) = false -> existsb writes (users (sessions (need t v)) k) = false).
Proof.
  intros V. unfold need. destruct (up t v); [auto|]. cbn [sessions]. rewrite users_dead by (eapply F2_wf, (v_han _ _ V)).
  destruct (k_fs k =? v); cbn; auto with arith.
Qed.

Lemma refused_wf k : wf (refused k).
Proof. reflexivity. Qed.

Lemma step_ok s t o : inv s t -> allowed t o -> exists s', step s o = (s', snd (ideal_step t o)) /\ inv s' (fst (ideal_step t o)).
Proof.
  intros V [Hm Ho]. destruct o as [k w|k|fs own|i|k|v|v]; cbn [allowed] in Ho.
  - destruct Ho as [Hk Hl]. cbn [step ideal_step]. unfold open_file.
    pose proof (mount_inv s t (k_fs k) V Hk Hm) as V1. destruct (users_need s t (k_fs k) k V) as [L1 _].
    set (s1 := mount_volume s (k_fs k)) in *. set (t1 := need t (k_fs k)) in *.
    rewrite (chk_ok s1 t1 k w V1 Hk ltac:(lia)). destruct (grant (sessions t1) k w) eqn:G; cbn [fst snd].
    2-5: eexists; split; [reflexivity|]; apply refuse; auto using refused_wf.
    destruct (inc_ok s1 t1 k w V1 Hk (need_up t _) ltac:(lia) G) as (fs' & id & -> & N & I). replace (id =? 0) with false by lia.
    eexists. split; [reflexivity|exact I].
  - destruct Ho as [Hk Hl]. cbn [step ideal_step]. unfold create_file.
    pose proof (mount_inv s t (k_fs k) V Hk Hm) as V1. destruct (users_need s t (k_fs k) k V) as [L1 _].
    set (s1 := mount_volume s (k_fs k)) in *. set (t1 := need t (k_fs k)) in *.
    rewrite enq_blank, <- (room s1 t1 V1). assert (L0 : length (users (sessions t1) k) = 0%nat) by lia.
    assert (G : grant (sessions t1) k true = if (n_objects (sessions t1) <? 16)%nat then FR_OK else FR_TOO_MANY_OPEN_FILES) by (unfold grant; rewrite L0; reflexivity).
    rewrite G. destruct (n_objects (sessions t1) <? 16)%nat eqn:Q; cbn [fst snd].
    2: eexists; split; [reflexivity|]; apply refuse; auto using refused_wf.
    destruct (inc_ok s1 t1 k true V1 Hk (need_up t _) ltac:(lia) G) as (fs' & id & E & N & I). rewrite E. replace (id =? 0) with false by lia.
    eexists. split; [reflexivity|exact I].
  - destruct Ho as (Hk & Hl & Hw). cbn [step ideal_step]. unfold open_dir.
    pose proof (mount_inv s t fs V Hk Hm) as V1. destruct (users_need s t fs (dir_key fs own) V) as [L1 W1]. specialize (W1 Hw).
    pose proof (need_up t fs) as Up. set (s1 := mount_volume s fs) in *. set (t1 := need t fs) in *. destruct (own =? 0) eqn:Q; cbn [fst snd].
    + eexists. split; [reflexivity|]. destruct V1 as [X1 X2 X3 X4 X5 X6 X7]. constructor; cbn [add_handle record files fsid mounted vol_id handles up sessions mounts]; auto.
      * apply Forall2_app; [eapply F2_impl; [|exact X5]; intros h y _ Hy; apply (hrel_files s1); [exact Hy|eauto]|].
        constructor; [|constructor]. split; [|split; [cbn; apply X4|split; [reflexivity|split; [exact I|reflexivity]]]].
        unfold validate. cbn. rewrite X2, Up, Z.eqb_refl. now replace (fs =? 0) with false by lia.
      * intros j f Hf Nf. rewrite users_app. cbn. rewrite app_nil_r. eauto.
    + destruct (grant (sessions t1) (dir_key fs own) false) eqn:G; cbn [fst snd].
      * destruct (inc_ok s1 t1 (dir_key fs own) false V1 Hk Up ltac:(lia) G) as (fs' & id & E & N & I). cbn [k_fs dir_key] in *. rewrite E. replace (id =? 0) with false by lia.
        eexists. split; [reflexivity|exact I].
      * unfold grant in G. rewrite W1 in G. destruct (length (users (sessions t1) (dir_key fs own)) =? 0)%nat; [|discriminate]. destruct (n_objects (sessions t1) <? 16)%nat; discriminate.
      * (* the table is full and has no such object *)
        unfold grant in G. rewrite W1 in G. destruct (length (users (sessions t1) (dir_key fs own)) =? 0)%nat eqn:Z0; [|discriminate].
        rewrite (room s1 t1 V1) in G. destruct (existsb blank (files s1)) eqn:B; [discriminate|].
        apply Nat.eqb_eq in Z0. assert (U0 : users (sessions t1) (dir_key fs own) = []) by (destruct (users (sessions t1) (dir_key fs own)); [auto|discriminate]).
        unfold inc_share. destruct (index_spec (fun f => same f (dir_key fs own)) (files s1)) as [[E _]|(f & E & Sm)].
        2:{ exfalso. apply same_iff in Sm. apply (no_entry s1 t1 (dir_key fs own) V1 U0 _ f E); [|exact Sm]. inversion Sm. lia. }
        rewrite E, Nat.eqb_refl. destruct (index_spec blank (files s1)) as [[E' _]|(f & E' & Bf)].
        2:{ exfalso. assert (existsb blank (files s1) = true) by (apply existsb_exists; exists f; split; [eapply nth_error_In; eauto|auto]). congruence. }
        rewrite E', Nat.eqb_refl. change (0 =? 0) with true. cbv iota. eexists. split; [reflexivity|]. apply refuse; auto using refused_wf.
      * unfold grant in G. destruct (length (users (sessions t1) (dir_key fs own)) =? 0)%nat; [destruct (n_objects (sessions t1) <? 16)%nat; discriminate|]. destruct (false || existsb writes (users (sessions t1) (dir_key fs own))); discriminate.
      * unfold grant in G. destruct (length (users (sessions t1) (dir_key fs own)) =? 0)%nat; [destruct (n_objects (sessions t1) <? 16)%nat; discriminate|]. destruct (false || existsb writes (users (sessions t1) (dir_key fs own))); discriminate.
  - apply close_ok. exact V.
  - cbn [step ideal_step fst snd]. unfold delete. pose proof (mount_inv s t (k_fs k) V Ho Hm) as V1. eexists. split; [|exact V1]. now rewrite (chk_delete _ _ k V1 Ho).
  - cbn [step ideal_step fst snd]. eexists. split; [reflexivity|]. now apply mount_inv.
  - cbn [step]. eexists. split; [reflexivity|]. now apply unmount_inv.
Qed.

Lemma run_ok os : forall s t, inv s t -> all_allowed t os -> exists s', run s os = (s', snd (ideal_run t os)) /\ inv s' (fst (ideal_run t os)).
Proof.
  induction os as [|o os IH]; intros s t V A; cbn [run ideal_run]; [eauto|]. destruct A as [A1 A2].
  destruct (step_ok s t o V A1) as (s1 & E & V1). rewrite E. destruct (ideal_step t o) as [t1 a] eqn:Et. cbn [fst snd] in *.
  destruct (IH s1 t1 V1 A2) as (s2 & E2 & V2). rewrite E2. destruct (ideal_run t1 os) as [t2 l]. cbn [fst snd] in *. eauto.
Qed.

Lemma inv_exclusive s t : inv s t -> exclusive (sessions t) /\ (n_objects (sessions t) <= 16)%nat.
Proof.
  intros V. split.
  - intros k W. destruct (user_entry s t k V) as (i & f & H1 & H2 & H3); [intros E; rewrite E in W; discriminate|].
    destruct (v_ent _ _ V i f H1 H2) as [(_ & L & _)|(W' & _)]; rewrite H3 in *; [exact L|congruence].
  - pose proof (room s t V) as R. destruct (Nat.ltb_spec (n_objects (sessions t)) 16); [lia|].
    set (K := map keyof (filter (fun f => negb (blank f)) (files s))).
    assert (I : incl (nodup key_eq (objects (sessions t))) K).
    { intros k I. rewrite nodup_In, objects_users in I. destruct (user_entry s t k V I) as (i & f & H1 & H2 & H3). unfold K. apply in_map_iff. exists f. split; [auto|].
      apply filter_In. split; [eapply nth_error_In; eauto|]. unfold blank. lia. }
    apply NoDup_incl_length in I; [|apply NoDup_nodup]. unfold K in I. rewrite map_length in I. pose proof (filter_le (fun f => negb (blank f)) (files s)).
    rewrite (v_len _ _ V) in H0. unfold n_objects in *. lia.
Qed.

Lemma history os : all_allowed ideal_start os ->
  snd (run start os) = snd (ideal_run ideal_start os) /\
  exclusive (sessions (fst (ideal_run ideal_start os))) /\ (n_objects (sessions (fst (ideal_run ideal_start os))) <= 16)%nat.
Proof.
  intros A. destruct (run_ok os start ideal_start start_inv A) as (s' & E & V). split; [now rewrite E|]. now apply (inv_exclusive s').
Qed.

(* --- refutations --- *)

Definition obj1 : key := mkKey 1 0 64.

Lemma readers_overflow : snd (run start (repeat (Open obj1 false) 256 ++ [Close 0; Open obj1 true])) = repeat FR_OK 258 /\
  nth 256 (snd (run start (repeat (Open obj1 false) 257))) FR_OK = FR_LOCKED.
Proof. split; [vm_compute; reflexivity|vm_compute; reflexivity]. Qed.

Lemma dir_removable : exists fs own parent ofs, own <> 0 /\ parent <> own /\
  snd (run start [OpenDir fs own; Delete (mkKey fs parent ofs)]) = [FR_OK; FR_OK].
Proof. exists 1, 5, 0, 96. split; [lia|]. split; [lia|]. reflexivity. Qed.

Definition cycles (n : nat) : list op := flat_map (fun _ => [Unmount 1; Mount 1]) (repeat tt n).
Definition all_blank : list sem := mkSem 0 0 64 1 :: repeat (mkSem 0 0 0 0) 15.

Lemma cycles_run n : forall s, mounted s 1 = true -> files s = all_blank -> 0 <= fsid s < 65536 -> vol_id s 1 = fsid s ->
  exists s', run s (cycles n) = (s', repeat FR_OK (2 * n)) /\ mounted s' 1 = true /\ files s' = all_blank /\
    fsid s' = (fsid s + Z.of_nat n) mod 65536 /\ vol_id s' 1 = fsid s' /\ handles s' = handles s.
Proof.
  induction n as [|n IH]; intros s M F I V.
  - exists s. split; [reflexivity|]. rewrite Z.add_0_r, Z.mod_small by lia. auto.
  - change (cycles (S n)) with (Unmount 1 :: Mount 1 :: cycles n). cbn [run step]. unfold unmount. rewrite M.
    unfold mount_volume at 1. cbn [mounted]. unfold put at 1. change (1 =? 1) with true. cbv iota. unfold mount. cbn [files fsid mounted vol_id handles].
    match goal with |- context [run ?x (cycles n)] => set (s1 := x) end.
    destruct (IH s1) as (s' & R & M' & F' & I' & V' & H').
    + reflexivity.
    + unfold s1. cbn [files]. rewrite F. reflexivity.
    + unfold s1. cbn [fsid]. lia.
    + reflexivity.
    + exists s'. rewrite R. split; [|split; [auto|split; [auto|split; [|auto]]]].
      * replace (2 * S n)%nat with (S (S (2 * n))) by lia. reflexivity.
      * rewrite I'. unfold s1. cbn [fsid]. lia.
Qed.

Lemma run_app os : forall s os', run s (os ++ os') = let '(s1, a) := run s os in let '(s2, b) := run s1 os' in (s2, a ++ b).
Proof.
  induction os as [|o os IH]; intros s os'; cbn [app run]; [now destruct (run s os')|]. destruct (step s o) as [s1 a].
  rewrite IH. destruct (run s1 os) as [s2 l]. now destruct (run s2 os').
Qed.

(* A handle from before 65536 remounts is taken for valid: closing it unlocks the
   file somebody else is writing. *)
Lemma stale_handle : exists n other, snd (run start ([Open obj1 false; Unmount 1; Mount 1] ++ cycles n ++ [Open other true; Close 0; Delete other])) =
  [FR_OK; FR_OK; FR_OK] ++ repeat FR_OK (2 * n) ++ [FR_OK; FR_OK; FR_OK].
Proof.
  exists (Z.to_nat 65535), (mkKey 1 0 128). set (n := Z.to_nat 65535). assert (Hn : Z.of_nat n = 65535) by (unfold n; lia). clearbody n.
  rewrite run_app. set (r0 := run start [Open obj1 false; Unmount 1; Mount 1]). destruct r0 as [s0 a0] eqn:E0. unfold r0 in E0.
  assert (Q : a0 = [FR_OK; FR_OK; FR_OK] /\ mounted s0 1 = true /\ files s0 = all_blank /\ fsid s0 = 2 /\ vol_id s0 1 = 2 /\ handles s0 = [mkHandle 1 1 1]).
  { vm_compute in E0. inversion E0. subst. cbn. auto 10. }
  destruct Q as (-> & M & F & I & V & H). rewrite run_app.
  destruct (cycles_run n s0 M F ltac:(lia) ltac:(lia)) as (s1 & R & M1 & F1 & I1 & V1 & H1). rewrite R.
  destruct s1 as [fs1 id1 m1 v1 h1]. cbn [files fsid mounted vol_id handles] in *. subst fs1 h1. rewrite I, Hn in I1. change ((2 + 65535) mod 65536) with 1 in I1. subst id1. rewrite H.
  cbn [run step]. unfold open_file, mount_volume. cbn [k_fs mounted]. rewrite M1. cbn [files].
  assert (C : chk_share all_blank (mkKey 1 0 128) 1 = FR_OK) by reflexivity. rewrite C.
  assert (J : inc_share all_blank (mkKey 1 0 128) 1 = (mkSem 1 0 128 256 :: repeat (mkSem 0 0 0 0) 15, 1)) by reflexivity. rewrite J.
  change (1 =? 0) with false. cbv iota. unfold add_handle, close. cbn [files fsid mounted vol_id handles app nth_error]. unfold validate. cbn [h_fs h_id h_lockid mounted vol_id]. rewrite M1, V1.
  change (negb (1 =? 0) && true && (1 =? 1)) with true. cbv iota. change (1 =? 0) with false. cbv iota.
  assert (D : dec_share (mkSem 1 0 128 256 :: repeat (mkSem 0 0 0 0) 15) 1 = (mkSem 0 0 128 0 :: repeat (mkSem 0 0 0 0) 15, FR_OK)) by reflexivity. rewrite D.
  unfold delete, mount_volume. cbn [k_fs mounted]. rewrite M1. cbn [files].
  assert (C2 : chk_share (mkSem 0 0 128 0 :: repeat (mkSem 0 0 0 0) 15) (mkKey 1 0 128) 2 = FR_OK) by reflexivity. rewrite C2. cbn [snd]. reflexivity.
Qed.

Lemma set_same l : forall i f, nth_error l i = Some f -> set_nth l i f = l.
Proof. induction l as [|a l IH]; intros [|i] f H; cbn in *; try discriminate; [congruence|now rewrite IH]. Qed.

Lemma inc_backstop files fs clu ofs acc : 1 <= acc ->
  (exists f, In f files /\ s_fs f = fs /\ s_clu f = clu /\ s_ofs f = ofs) ->
  (forall f, In f files -> s_fs f = fs -> s_clu f = clu -> s_ofs f = ofs -> s_ctr f <> 0) ->
  inc_share files (mkKey fs clu ofs) acc = (files, 0).
Proof.
  intros A (f & I & E1 & E2 & E3) H. unfold inc_share.
  destruct (index_spec (fun g => same g (mkKey fs clu ofs)) files) as [[_ N]|(g & E & Sm)].
  - exfalso. apply In_nth_error in I as (n & I). specialize (N n f I). unfold same in N. cbn in N. rewrite E1, E2, E3, !Z.eqb_refl in N. discriminate N.
  - assert (L : (index (fun g => same g (mkKey fs clu ofs)) files < length files)%nat) by (apply nth_error_Some; rewrite E; discriminate).
    replace (index (fun g => same g (mkKey fs clu ofs)) files =? length files)%nat with false by (symmetry; apply Nat.eqb_neq; lia).
    rewrite E. unfold inc_entry. apply same_iff in Sm. unfold keyof in Sm. inversion Sm as [[S1 S2 S3]].
    assert (C : s_ctr g <> 0) by (apply H; auto; now apply nth_error_In in E).
    replace (1 <=? acc) with true by lia. replace (s_ctr g =? 0) with false by lia. cbn [negb andb]. rewrite S1, S2, S3. now rewrite set_same.
Qed.
