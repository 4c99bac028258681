From Verif Require Import Base CrcSpec FutfModel FutfSpec FutfProof LfnModel LfnSpec LfnProof FdirModel FdirSpec FdirProof FdirProof2 FdirProof3 FnameModel VolModel VolSpec.
Open Scope Z_scope.
Ltac Zify.zify_post_hook ::= idtac.

(* --- finding the label ---------------------------------------------------------------------- *)

Definition label_at (d : dirt) (i : Z) : res (drc * Z) :=
  if i <? cap d then label_loop (Z.to_nat (cap d - i)) d i else Ok (D_NO_FILE, i - 1).

Lemma label_step d i : cap d <= MAXENT -> 0 <= i < cap d ->
  label_at d i =
    let e := tab d i in
    if e 0 =? 0 then Ok (D_NO_FILE, i)
    else if (e 0 =? DDEM) || (e 0 =? 46) || negb (Z.land (Z.land (e 11) 63) 223 =? 8) then label_at d (i + 1)
    else Ok (D_OK, i).
Proof.
  intros M I. unfold label_at at 1. replace (i <? cap d) with true by lia.
  replace (Z.to_nat (cap d - i)) with (S (Z.to_nat (cap d - (i + 1)))) by lia. cbn [label_loop]. cbv zeta.
  destruct (tab d i 0 =? 0); [reflexivity|]. destruct (_ || _ || _); [|reflexivity].
  unfold dir_next, label_at. unfold MAXENT in *. destruct (Z.ltb_spec (i + 1) (cap d)).
  - replace (65536 <=? i + 1) with false by lia. reflexivity.
  - destruct (65536 <=? i + 1); cbn; now replace (i + 1 - 1) with i by lia.
Qed.

Lemma label_file d w e p : cap d <= MAXENT -> stored (tab d) p (File w e) -> 0 <= p -> p + parts w < cap d -> label_at d p = label_at d (p + (parts w + 1)).
Proof.
  intros M (T & Sh & Hw) P Pc. pose proof (parts_nonneg w) as Pw.
  assert (X : forall n k, Z.of_nat n = parts w - k -> 0 <= k <= parts w -> label_at d (p + k) = label_at d (p + parts w)).
  { induction n as [|n IH]; intros k N K; [now replace k with (parts w) by lia|].
    assert (W : w <> []) by (intros ->; rewrite parts_nil in *; lia). destruct (Hw W) as (Nw & _ & Hp). destruct (Hp k ltac:(lia)) as [Po _].
    destruct (part_attr w (parts w - k) _ _ Nw ltac:(lia) Po) as (A1 & A2 & A3 & A4 & _).
    rewrite label_step by lia. cbv zeta. rewrite A1, A2, A3, A4. change (negb (Z.land 15 223 =? 8)) with true. rewrite orb_true_r.
    rewrite <- (IH (k + 1)) by lia. f_equal. lia. }
  rewrite <- (Z.add_0_r p) at 1. rewrite (X (Z.to_nat (parts w)) 0) by lia. rewrite label_step by lia. cbv zeta. rewrite T.
  pose proof (short_attr e Sh) as A. cbv zeta in A. destruct A as (_ & _ & A3 & A4 & A5). rewrite A3, A4, A5. cbn [negb]. rewrite orb_true_r. f_equal. lia.
Qed.

Lemma label_items d : cap d <= MAXENT -> forall l p, laid (tab d) p l -> 0 <= p -> p + sizes l <= cap d -> (p + sizes l < cap d -> tab d (p + sizes l) 0 = 0) ->
  (unlabelled l -> exists i, label_at d p = Ok (D_NO_FILE, i)) /\
  (forall l1 e l2, labelled l l1 e l2 -> label_at d p = Ok (D_OK, p + sizes l1)).
Proof.
  intros M. induction l as [|y l IH]; intros p L P Pc T.
  - split; [|intros l1 e l2 (E & _); destruct l1; discriminate]. intros _. cbn in T, Pc. rewrite Z.add_0_r in T. destruct (Z.ltb_spec p (cap d)) as [Q|Q].
    + rewrite label_step by lia. cbv zeta. rewrite T by lia. change (0 =? 0) with true. cbv iota. eexists. reflexivity.
    + unfold label_at. replace (p <? cap d) with false by lia. eexists. reflexivity.
  - cbn [laid] in L. destruct L as [L1 L2]. rewrite sizes_cons in *. pose proof (size_pos y). pose proof (sizes_nonneg l). rewrite Z.add_assoc in T, Pc.
    specialize (IH (p + size y) L2 ltac:(lia) Pc T). destruct IH as [IH1 IH2].
    assert (Step : label_at d p = label_at d (p + size y) -> plain y ->
      (unlabelled (y :: l) -> exists i, label_at d p = Ok (D_NO_FILE, i)) /\ (forall l1 e l2, labelled (y :: l) l1 e l2 -> label_at d p = Ok (D_OK, p + sizes l1))).
    { intros -> Py. split; [intros U; apply IH1; now inversion U|]. intros [|x l1] e l2 (E & U & D0); cbn [app] in E; injection E as -> E; [now exfalso; apply D0|].
      rewrite (IH2 l1 e l2) by (split; [auto|]; split; [now inversion U|auto]). rewrite sizes_cons. do 2 f_equal. lia. }
    destruct y as [|e|w e]; cbn [size] in *.
    + apply Step; [|exact I]. rewrite label_step by lia. cbv zeta. destruct L1 as [_ ->]. reflexivity.
    + destruct L1 as [L1 L1']. pose proof (label_attr e L1') as A. cbv zeta in A. destruct A as (_ & _ & A3 & A4 & A5).
      assert (E : label_at d p = if e 0 =? 46 then label_at d (p + 1) else Ok (D_OK, p)).
      { rewrite label_step by lia. cbv zeta. rewrite L1, A3, A4, A5. cbn [negb orb]. rewrite orb_false_r. destruct (e 0 =? 46); reflexivity. }
      destruct (Z.eqb_spec (e 0) 46) as [Q|Q]; [apply Step; auto|]. split; [intros U; inversion U; cbn in *; lia|].
      intros [|x l1] e' l2 (El & U & D0); cbn [app] in El; injection El as Ee El; [rewrite E; do 2 f_equal; cbn; lia|]. exfalso. subst x. inversion U. cbn in *. lia.
    + apply Step; [|exact I]. rewrite (label_file d w e p) by (auto; lia). reflexivity.
Qed.

Lemma read_label_ok d l : dir_ok d l ->
  (unlabelled l -> exists i, read_label d = Ok (D_NO_FILE, i)) /\ (forall l1 e l2, labelled l l1 e l2 -> read_label d = Ok (D_OK, sizes l1)).
Proof.
  intros D. pose proof (dk_cap _ _ D) as C. assert (E : read_label d = label_at d 0) by (unfold read_label, label_at; replace (0 <? cap d) with true by lia; now rewrite Z.sub_0_r).
  rewrite E. pose proof (sizes_nonneg l). apply (label_items d ltac:(lia) l 0); [apply D|lia|rewrite Z.add_0_l; apply D|]. rewrite Z.add_0_l. intros. apply (dk_tail _ _ D). lia.
Qed.

Lemma read_label_safe d : 1 <= cap d <= MAXENT -> exists i, 0 <= i < cap d /\
  (read_label d = Ok (D_NO_FILE, i) \/ read_label d = Ok (D_OK, i) /\ tab d i 0 <> 0 /\ tab d i 0 <> DDEM /\ Z.land (Z.land (tab d i 11) 63) 223 = 8).
Proof.
  intros C. assert (E : read_label d = label_at d 0) by (unfold read_label, label_at; replace (0 <? cap d) with true by lia; now rewrite Z.sub_0_r). rewrite E.
  assert (X : forall n i, 0 <= i <= cap d -> Z.to_nat (cap d - i) = n -> exists j, (label_at d i = Ok (D_NO_FILE, j) /\ 0 <= j < cap d) \/ label_at d i = Ok (D_OK, j) /\ 0 <= j < cap d /\ tab d j 0 <> 0 /\ tab d j 0 <> DDEM /\ Z.land (Z.land (tab d j 11) 63) 223 = 8 \/ i = 0 /\ cap d = 0 \/ label_at d i = Ok (D_NO_FILE, j) /\ j = i - 1 /\ i = cap d).
  { induction n as [|n IH]; intros i I N.
    - exists (i - 1). right. right. right. unfold label_at. replace (i <? cap d) with false by lia. split; [auto|lia].
    - rewrite label_step by lia. cbv zeta. destruct (Z.eqb_spec (tab d i 0) 0) as [Q|Q]; [exists i; left; split; [auto|lia]|].
      destruct (Z.eqb_spec (tab d i 0) DDEM) as [Q1|Q1]; [|destruct (Z.eqb_spec (tab d i 0) 46) as [Q2|Q2]; [|destruct (Z.eqb_spec (Z.land (Z.land (tab d i 11) 63) 223) 8) as [Q3|Q3]]]; cbn [orb negb].
      3:{ exists i. right. left. split; [auto|]. split; [lia|auto]. }
      all: destruct (IH (i + 1) ltac:(lia) ltac:(lia)) as (j & [H|[H|[H|H]]]); exists j; [left; auto|right; left; auto|lia|left; split; [apply H|lia]]. }
  destruct (X (Z.to_nat (cap d)) 0 ltac:(lia) ltac:(lia)) as (j & [H|[H|[H|H]]]); [exists j; tauto|exists j; tauto|lia|lia].
Qed.

(* --- the string stored ------------------------------------------------------------------------ *)

Lemma put_byte c : 0 < c < 256 -> put_utf c 4 = utf8_of c /\ (1 <= length (utf8_of c) <= 2)%nat.
Proof.
  intros C. assert (Sc : scalar c) by (unfold scalar; lia). split.
  - pose proof (encode_ok c 4 Sc ltac:(lia)) as E. unfold utf16_of in E. replace (c <? 65536) with true in E by lia. rewrite E.
    unfold utf8_count. destruct (c <? 128); [reflexivity|]. now replace (c <? 2048) with true by lia.
  - unfold utf8_of, utf8_count. destruct (c <? 128); [change (1 <= 1 <= 2)%nat; lia|]. replace (c <? 2048) with true by lia. change (1 <= 2 <= 2)%nat. lia.
Qed.

Fixpoint from (n : nat) (e : Z -> Z) (si : Z) : list Z := match n with O => [] | S n => e si :: from n e (si + 1) end.
Lemma from_chars e : from 11 e 0 = chars e.
Proof. reflexivity. Qed.

Lemma get_loop_ok e room : bytes e -> forall n si out, Z.of_nat (length out) + 2 * Z.of_nat n <= room ->
  get_loop n room e si out = Ok (if existsb (Z.eqb 0) (from n e si) then [] else out ++ concat (map utf8_of (from n e si))) /\
  (length (concat (map utf8_of (from n e si))) <= 2 * n)%nat \/ existsb (Z.eqb 0) (from n e si) = true /\ get_loop n room e si out = Ok [].
Proof.
  intros B. induction n as [|n IH]; intros si out R; cbn [get_loop from existsb map concat].
  - left. now rewrite app_nil_r.
  - unfold ff_oem2uni. destruct (Z.eqb_spec (e si) 0) as [Q|Q].
    + right. rewrite Q. now cbn.
    + destruct (put_byte (e si)) as [P1 P2]; [pose proof (B si); lia|]. rewrite P1. unfold len.
      replace (room <? Z.of_nat (length out) + Z.of_nat (length (utf8_of (e si)))) with false by lia.
      replace (0 =? e si) with false by lia. cbn [orb].
      destruct (IH (si + 1) (out ++ utf8_of (e si))) as [[H1 H2]|[H1 H2]]; [rewrite app_length; lia| |].
      * left. rewrite H1. rewrite <- app_assoc. split; [reflexivity|]. rewrite app_length. lia.
      * right. auto.
Qed.

Lemma drop_ok r : exists n, r = repeat 32 n ++ drop_spaces r /\ forall r', drop_spaces r <> 32 :: r'.
Proof.
  induction r as [|c r (n & E & N)]; [exists 0%nat; easy|]. cbn [drop_spaces]. destruct (Z.eqb_spec c 32) as [->|Q].
  - exists (S n). split; [|auto]. cbn [repeat app]. now rewrite <- E.
  - exists 0%nat. split; [reflexivity|]. intros r' X. congruence.
Qed.
Lemma rev_repeat (x : Z) n : rev (repeat x n) = repeat x n.
Proof. induction n; [auto|]. cbn. rewrite IHn. change [x] with (repeat x 1). rewrite <- repeat_app. now rewrite Nat.add_comm. Qed.
Lemma trim_ok s : snipped s (trim s).
Proof.
  destruct (drop_ok (rev s)) as (n & E & N). exists n. unfold trim. split.
  - rewrite <- (rev_involutive s) at 1. rewrite E at 1. now rewrite rev_app_distr, rev_repeat.
  - intros t' X. apply (N (rev t')). rewrite <- (rev_involutive (drop_spaces _)), X, rev_app_distr. reflexivity.
Qed.
Lemma snipped_len s t : snipped s t -> (length t <= length s)%nat.
Proof. intros (n & -> & _). rewrite app_length. lia. Qed.
Lemma snipped_unique s t u : snipped s t -> snipped s u -> t = u.
Proof.
  intros (n & -> & T) (m & E & U). assert (X : forall n m a b, a ++ repeat 32 n = b ++ repeat 32 m -> (n <= m)%nat -> (forall a', a <> a' ++ [32]) -> a = b).
  { clear. intros n m a b E L N. replace m with ((m - n) + n)%nat in E by lia. rewrite repeat_app, app_assoc in E. apply app_inv_tail in E.
    destruct (m - n)%nat as [|k] eqn:K; [now rewrite app_nil_r in E|]. exfalso. apply (N (b ++ repeat 32 k)). rewrite E, <- app_assoc. f_equal. change [32] with (repeat 32 1). rewrite <- repeat_app. now rewrite Nat.add_comm. }
  destruct (le_ge_dec n m) as [L|L]; [now apply (X n m)|symmetry; now apply (X m n)].
Qed.
Lemma snipped_again t n : (forall t', t <> t' ++ [32]) -> snipped (t ++ repeat 32 n) t.
Proof. intros H. exists n. auto. Qed.

Lemma shows_label d i room : bytes (tab d i) -> 23 <= room -> read_label d = Ok (D_OK, i) -> exists t, get_label d room = Ok (D_OK, t) /\ shows (tab d i) t /\ (length t <= 22)%nat.
Proof.
  intros B R E. unfold get_label. rewrite E. cbn [bind]. destruct (get_loop_ok (tab d i) room B 11 0 [] ltac:(cbn; lia)) as [[H1 H2]|[H1 H2]].
  - rewrite H1. cbn [bind]. rewrite from_chars in *. destruct (existsb (Z.eqb 0) (chars (tab d i))) eqn:X.
    + replace (room <=? len []) with false by (unfold len; cbn; lia). exists []. split; [reflexivity|]. split; [|cbn; lia]. left. split; [|auto].
      apply existsb_exists in X. destruct X as (c & I & X). apply Z.eqb_eq in X. subst c. apply in_map_iff in I. destruct I as (k & K & I). exists k. split; [|auto]. cbn in I. lia.
    + cbn [app]. replace (room <=? len (concat (map utf8_of (chars (tab d i))))) with false by (unfold len; lia).
      exists (trim (concat (map utf8_of (chars (tab d i))))). split; [reflexivity|]. pose proof (trim_ok (concat (map utf8_of (chars (tab d i))))) as T. split; [|apply snipped_len in T; lia].
      right. split; [|auto]. intros k K X0. assert (Y : existsb (Z.eqb 0) (chars (tab d i)) = true); [|congruence]. apply existsb_exists. exists 0. split; [|auto]. apply in_map_iff. exists k. split; [auto|]. cbn. lia.
  - rewrite H2. cbn [bind]. replace (room <=? len []) with false by (unfold len; cbn; lia). exists []. split; [reflexivity|]. split; [|cbn; lia]. left. split; [|auto]. rewrite from_chars in H1.
    apply existsb_exists in H1. destruct H1 as (c & I & X). apply Z.eqb_eq in X. subst c. apply in_map_iff in I. destruct I as (k & K & I). exists k. split; [|auto]. cbn in I. lia.
Qed.

Theorem get_ok d l room : dir_ok d l -> 23 <= room ->
  (forall l1 e l2, labelled l l1 e l2 -> exists t, get_label d room = Ok (D_OK, t) /\ shows e t) /\
  (unlabelled l -> get_label d room = Ok (D_OK, [])).
Proof.
  intros D R. destruct (read_label_ok d l D) as [H1 H2]. split.
  - intros l1 e l2 Lb. pose proof (H2 _ _ _ Lb) as E. pose proof Lb as (El & _). pose proof (dk_laid _ _ D) as L. rewrite El in L. apply laid_app in L. destruct L as [_ [[L (Le & _)] _]]. rewrite Z.add_0_l in L.
    destruct (shows_label d (sizes l1) room) as (t & G & S & _); [now rewrite L|auto|auto|]. rewrite L in S. exists t. auto.
  - intros U. destruct (H1 U) as (i & E). unfold get_label. rewrite E. cbn [bind]. now replace (room <=? 0) with false by lia.
Qed.

Theorem get_safe d room : 1 <= cap d <= MAXENT -> (forall i, 0 <= i < cap d -> bytes (tab d i)) -> 23 <= room -> exists t, get_label d room = Ok (D_OK, t) /\ (length t <= 22)%nat.
Proof.
  intros C B R. destruct (read_label_safe d C) as (i & I & [E|[E _]]).
  - exists []. unfold get_label. rewrite E. cbn [bind length]. replace (room <=? 0) with false by lia. split; [auto|lia].
  - destruct (shows_label d i room (B i I) R E) as (t & G & _ & L). exists t. auto.
Qed.
