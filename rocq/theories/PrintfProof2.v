From Verif Require Import Base PrintfModel PrintfSpec PrintfProof.
Open Scope Z_scope.

(* --- strings ------------------------------------------------------------------------------- *)
Lemma until0_ok s x : Forall (fun b => b <> 0) s -> until0 (s ++ 0 :: x) = Ok s.
Proof. induction 1 as [|b s N F IH]; cbn; [reflexivity|]. replace (b =? 0) with false by lia. now rewrite IH. Qed.
Lemma string_ok pre s x : Forall (fun b => b <> 0) s -> string_at (pre ++ s ++ 0 :: x) (length pre) = Ok s.
Proof. intros F. unfold string_at. rewrite skipn_app, skipn_all, Nat.sub_diag. cbn [app skipn]. now apply until0_ok. Qed.
Lemma span_ok f a b r : Forall (fun x => f x = true) a -> f b = false -> span f (a ++ b :: r) = (a, b :: r).
Proof. intros F N. induction F as [|x a H F IH]; cbn; [now rewrite N|]. now rewrite H, IH. Qed.
Lemma span_all f a : Forall (fun x => f x = true) a -> span f a = (a, []).
Proof. induction 1 as [|x a H F IH]; cbn; [auto|]. now rewrite H, IH. Qed.
Lemma skip_ok set l : Forall (fun x => In x set) l -> forall a b r n fuel, ~ In b set -> n = length a -> (length l < fuel)%nat -> skip fuel set (a ++ l ++ b :: r) n = Ok (n + length l)%nat.
Proof.
  assert (X : forall x, existsb (Z.eqb x) set = true <-> In x set) by (intros x; rewrite existsb_exists; split; [intros (y & I & Q); apply Z.eqb_eq in Q; congruence|intros I; exists x; split; [auto|apply Z.eqb_refl]]).
  induction 1 as [|x l H F IH]; intros a b r n fuel N -> L; (destruct fuel as [|fuel]; [cbn in L; lia|]); cbn [app skip]; rewrite rd_at; cbn [bind].
  - destruct (existsb (Z.eqb b) set) eqn:Q; [apply X in Q; contradiction|]. cbn. f_equal. lia.
  - apply X in H. rewrite H. replace (a ++ x :: l ++ b :: r) with ((a ++ [x]) ++ l ++ b :: r) by (now rewrite <- app_assoc). cbn in L. rewrite IH; [cbn; f_equal; lia|auto|rewrite app_length; cbn; lia|lia].
Qed.
Lemma scan_ok t : Forall (fun b => b <> 0 /\ b <> 37) t -> forall pre rest n fuel, n = length pre -> (length t <= fuel)%nat -> scan fuel (pre ++ t ++ rest) n = scan (fuel - length t) (pre ++ t ++ rest) (n + length t).
Proof.
  induction 1 as [|b t [H1 H2] F IH]; intros pre rest n fuel -> L; [cbn; now rewrite Nat.sub_0_r, Nat.add_0_r|]. destruct fuel as [|fuel]; [cbn in L; lia|]. cbn [scan app]. rewrite rd_at. cbn [bind]. replace (b =? 0) with false by lia. replace (b =? 37) with false by lia.
  replace (pre ++ b :: t ++ rest) with ((pre ++ [b]) ++ t ++ rest) by (now rewrite <- app_assoc). cbn in L. rewrite IH; [|rewrite app_length; cbn; lia|lia]. cbn. f_equal. lia.
Qed.

(* --- arguments ----------------------------------------------------------------------------- *)
Section Args.
Variable strtol : strtol_t.
Lemma numeric_iff b : numeric b = true <-> b = 0 \/ numeral b.
Proof.
  unfold numeric. rewrite existsb_exists. split.
  - intros (x & I & Q). apply Z.eqb_eq in Q. subst x. cbn in I. unfold numeral, isdigit. cbn. lia.
  - intros H. exists b. split; [|apply Z.eqb_refl]. unfold numeral, isdigit in H. cbn in H |- *. lia.
Qed.
Lemma means_value a n : means strtol a n -> (numeric (first a) = true /\ strtol a = (n, length a, false)) \/ (numeric (first a) = false /\ asciicode a = n).
Proof.
  intros M. inversion M as [a' n' H E|q b r Q|q Q|c r C0 C1 C2 C3]; subst.
  - left. split; [|auto]. apply numeric_iff. destruct H as [->|H]; [auto|]. right. exact H.
  - right. unfold asciicode, first. cbn [hd tl]. split; [destruct Q as [->| ->]; reflexivity|]. destruct Q as [->| ->]; reflexivity.
  - right. unfold asciicode, first. cbn [hd tl]. split; destruct Q as [->| ->]; reflexivity.
  - right. unfold asciicode, first. cbn [hd tl]. split; [destruct (numeric n) eqn:Q; [apply numeric_iff in Q; tauto|auto]|]. replace (n =? 39) with false by lia. now replace (n =? 34) with false by lia.
Qed.
Lemma getlong_ok args n r : takes strtol args n r -> getlong strtol args = Value n r.
Proof.
  intros T. inversion T as [|a n' r' M]; subst; [reflexivity|]. cbn [getlong]. destruct (means_value a n M) as [[-> E]|[-> E]]; [|now rewrite E]. rewrite E. now rewrite Nat.eqb_refl.
Qed.
Lemma getint_ok args n r : takes strtol args n r -> -2147483648 <= n <= 65535 -> getint strtol args = Ok (Value n r).
Proof.
  intros T B. unfold getint. rewrite (getlong_ok _ _ _ T). replace (65535 <? n) with false by lia. unfold int. now rewrite Z.mod_small, Z.add_simpl_r by lia.
Qed.
Definition stars (s : size) (v : option Z) : list Z := match s, v with Star, Some n => [n] | _, _ => [] end.
Definition code (s : size) (v : option Z) : Z := match s, v with Star, Some n => n | _, _ => 0 end.
Lemma stars_code s args v r : sized strtol s args v r -> (if code s v =? 0 then [] else [code s v]) = stars s v.
Proof. intros H. inversion H as [| |? n ? T N B]; subst; try reflexivity. cbn. now replace (n =? 0) with false by lia. Qed.
Lemma star_ok s args v r m i x : sized strtol s args v r -> rd m i = Ok x -> (x = 42 <-> s = Star) -> star strtol m i args = Ok (Value (code s v) r).
Proof.
  intros H E X. unfold star. rewrite E. cbn [bind]. inversion H as [| |? n ? T N B]; subst.
  - replace (x =? 42) with false; [reflexivity|]. symmetry. apply Z.eqb_neq. intros Q. apply X in Q. discriminate.
  - replace (x =? 42) with false; [reflexivity|]. symmetry. apply Z.eqb_neq. intros Q. apply X in Q. discriminate.
  - replace (x =? 42) with true by (symmetry; apply Z.eqb_eq; now apply X). now apply getint_ok.
Qed.

(* --- fpm_printf ---------------------------------------------------------------------------- *)
Lemma digit_iff b : digit b = true <-> isdigit b.
Proof. unfold digit, isdigit. lia. Qed.
Definition sane (s : size) : Prop := forall ds, s = Num ds -> Forall isdigit ds.
Lemma size_arg_ok s args v r x y more : sized strtol s args v r -> sane s -> (s = Num [] -> False) -> x <> 42 -> ~ isdigit x -> size_arg (text_of s ++ x :: y) (stars s v ++ more) = Ok (x :: y, more, v).
Proof.
  intros H Sn Ne N1 N2. assert (Dx : digit x = false) by (destruct (digit x) eqn:Q; [apply digit_iff in Q; contradiction|auto]). inversion H as [|ds|? n ? T N B]; subst; cbn [text_of stars app].
  - unfold size_arg. destruct (Z.eq_dec x 42); [contradiction|]. assert (E : span digit (x :: y) = ([], x :: y)) by (cbn; now rewrite Dx). rewrite E. destruct x as [|p|p]; try reflexivity. repeat (destruct p as [p|p|]; try reflexivity; try congruence).
  - specialize (Sn ds eq_refl). destruct ds as [|d ds]; [exfalso; auto|]. assert (E : span digit ((d :: ds) ++ x :: y) = (d :: ds, x :: y)) by (apply span_ok; [revert Sn; apply Forall_impl; intros a Q; now apply digit_iff|auto]). inversion Sn as [|? ? Hd _]; subst. unfold size_arg. rewrite E. cbn [app]. unfold isdigit in Hd. assert (Nd : d <> 42) by lia. destruct d as [|p|p]; try lia. repeat (destruct p as [p|p|]; try reflexivity; try congruence; try lia).
  - reflexivity.
Qed.
Lemma precision_ok s args v r x y : sized strtol s args v r -> sane s -> x <> 42 -> x <> 46 -> ~ isdigit x -> precision ((match s with None_ => [] | _ => 46 :: text_of s end) ++ x :: y) (stars s v) = Ok (x :: y, [], v).
Proof.
  intros H Sn N1 N3 N2. inversion H as [|ds|? n ? T N B]; subst.
  - cbn [app stars precision]. destruct x as [|p|p]; try reflexivity. repeat (destruct p as [p|p|]; try reflexivity; try congruence).
  - cbn [text_of app precision]. destruct ds as [|d ds].
    + pose proof (size_arg_ok None_ r None r x y [] (sz_none strtol r) ltac:(intros ? Q; discriminate) ltac:(discriminate) N1 N2) as E. cbn [text_of stars app] in E. cbn [app stars]. rewrite E. reflexivity.
    + pose proof (size_arg_ok (Num (d :: ds)) r _ r x y [] H Sn ltac:(discriminate) N1 N2) as E. cbn [text_of stars app] in E. cbn [app stars]. rewrite E. reflexivity.
  - reflexivity.
Qed.
Lemma flag_iff b : flag b = true <-> isflag b.
Proof. unfold flag, isflag. rewrite existsb_exists. split; [intros (x & I & Q); apply Z.eqb_eq in Q; congruence|intros I; exists b; split; [auto|apply Z.eqb_refl]]. Qed.
Lemma isflag_vals b : isflag b -> b = 35 \/ b = 45 \/ b = 43 \/ b = 32 \/ b = 48.
Proof. unfold isflag. cbn. lia. Qed.
Definition text_p (p : size) : list Z := match p with None_ => [] | _ => 46 :: text_of p end.
(* What follows the flags does not start with one. *)
Lemma after_flags w p c y : (forall ds, w = Num ds -> Forall isdigit ds /\ exists d r, ds = d :: r /\ d <> 48) -> ~ isflag c -> exists x z, text_of w ++ text_p p ++ c :: y = x :: z /\ ~ isflag x.
Proof.
  intros Hw Nc. destruct w as [|ds|].
  - destruct p; cbn; eauto; do 2 eexists; (split; [reflexivity|]); intros Q; apply isflag_vals in Q; lia.
  - destruct (Hw ds eq_refl) as (F & d & r & -> & N). inversion F; subst. cbn. do 2 eexists. split; [reflexivity|]. intros Q. apply isflag_vals in Q. unfold isdigit in *. lia.
  - cbn. do 2 eexists. split; [reflexivity|]. intros Q. apply isflag_vals in Q. lia.
Qed.
Lemma call_ok t fl w p args a1 a2 wv pv x y c v : Forall (fun b => b <> 37) t -> Forall isflag fl -> (forall ds, w = Num ds -> Forall isdigit ds /\ exists d r, ds = d :: r /\ d <> 48) -> sane p ->
  sized strtol w args wv a1 -> sized strtol p a1 pv a2 -> ~ isflag x -> x <> 42 -> x <> 46 -> ~ isdigit x -> convert (x :: y) v = Ok c ->
  pf (t ++ 37 :: fl ++ text_of w ++ text_p p ++ x :: y) (code w wv) (code p pv) v = Ok (map Byte t ++ [Conv fl wv pv c v]).
Proof.
  intros Ft Ff Hw Sp Sw Sz N0 N1 N2 N3 Cv. unfold pf. rewrite (stars_code _ _ _ _ Sw), (stars_code _ _ _ _ Sz). unfold fpm_printf. rewrite span_ok; [|revert Ft; apply Forall_impl; intros b Q; lia|reflexivity].
  destruct (after_flags w p x y Hw N0) as (b & z & E & Nb). rewrite E. rewrite span_ok; [|revert Ff; apply Forall_impl; intros d Q; now apply flag_iff|destruct (flag b) eqn:Q; [apply flag_iff in Q; contradiction|auto]]. rewrite <- E.
  assert (X : size_arg (text_of w ++ text_p p ++ x :: y) (stars w wv ++ stars p pv) = Ok (text_p p ++ x :: y, stars p pv, wv)).
  { assert (Y : exists x' y', text_p p ++ x :: y = x' :: y' /\ x' <> 42 /\ ~ isdigit x') by (destruct p; cbn; do 2 eexists; (split; [reflexivity|]); auto; split; unfold isdigit; lia). destruct Y as (x' & y' & Ex & M1 & M2). rewrite Ex. eapply size_arg_ok; eauto; [intros ds Q; now apply Hw|]. intros ->. destruct (Hw [] eq_refl) as (_ & ? & ? & ? & _). discriminate. }
  rewrite X. cbn [bind]. unfold text_p. erewrite precision_ok by eauto. cbn [bind]. rewrite Cv. reflexivity.
Qed.
End Args.
