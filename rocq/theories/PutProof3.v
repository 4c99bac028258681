From Coq Require Import SpecFloat.
From Verif Require Import Base CrcSpec FtoaModel PutModel PutSpec.
Open Scope Z_scope.
Ltac Zify.zify_post_hook ::= idtac.

Lemma put_ok o b : (length o < 32)%nat -> put o b = Ok (o ++ [b]).
Proof. intros H. unfold put, size_num. replace (length o <? 32)%nat with true by (symmetry; now apply Nat.ltb_lt). reflexivity. Qed.
Lemma put_len o b : (length o < 32)%nat -> put o b = Ok (o ++ [b]) /\ length (o ++ [b]) = S (length o).
Proof. intros H. split; [now apply put_ok|]. rewrite app_length. cbn. lia. Qed.
Lemma pow_up_safe k : forall n v, pow_up k n v <> Ub.
Proof. induction k as [|k IH]; intros n v; cbn [pow_up]; [discriminate|]. destruct (0 <? n); [destruct (5 <=? n); apply IH|discriminate]. Qed.
Lemma pow_down_safe k : forall n v, pow_down k n v <> Ub.
Proof. induction k as [|k IH]; intros n v; cbn [pow_down]; [discriminate|]. destruct (n <? 0); [destruct (n <=? -5); apply IH|discriminate]. Qed.
Lemma i10x_safe fl n : i10x fl n <> Ub.
Proof. unfold i10x. destruct (pow_up fl n f1) as [[v m]| |] eqn:E; cbn [bind]; [apply pow_down_safe|exfalso; eapply pow_up_safe; eauto|discriminate]. Qed.
Lemma log_down_safe k : forall n v, log_down k n v <> Ub.
Proof. induction k as [|k IH]; intros n v; cbn [log_down]; [discriminate|]. destruct (SFleb f10 n); [destruct (SFleb f1e5 n); apply IH|discriminate]. Qed.
Lemma log_up_safe k : forall n v, log_up k n v <> Ub.
Proof. induction k as [|k IH]; intros n v; cbn [log_up]; [discriminate|]. destruct (SFltb n f1); [destruct (SFltb n f1em5); apply IH|discriminate]. Qed.
Lemma ilog10_safe fl n : ilog10 fl n <> Ub.
Proof. unfold ilog10. destruct (log_down fl n 0) as [[v m]| |] eqn:E; cbn [bind]; [apply log_up_safe|exfalso; eapply log_down_safe; eauto|discriminate]. Qed.

Definition need (m prec : Z) : Z := if m <? -1 then m + prec + 1 else m + prec + 2.
Definition dshape (m prec : Z) (q : list Z) : Prop :=
  if 0 <=? m then fixed (m + 1) prec q else if m =? -1 then exists b, q = 46 :: b /\ Z.of_nat (length b) = prec else Z.of_nat (length q) = m + prec + 1.
Lemma put_digits_ok k fl prec : 0 <= prec -> forall o val m, - prec <= m -> Z.of_nat (length o) + need m prec <= 32 ->
  match put_digits k fl o val m prec with Ok o' => exists q, o' = o ++ q /\ dshape m prec q | Ub => False | NoFuel => True end.
Proof.
  intros Hp. induction k as [|k IH]; intros o val m Hm L; cbn [put_digits]; [exact I|].
  assert (E1 : exists o1, (if m =? -1 then put o 46 else Ok o) = Ok o1 /\ o1 = o ++ (if m =? -1 then [46] else []) /\ (length o1 < 32)%nat).
  { destruct (Z.eqb_spec m (-1)) as [->|N]; unfold need in L.
    - change (-1 <? -1) with false in L. cbv iota in L. destruct (put_len o 46) as [E El]; [lia|]. exists (o ++ [46]). repeat split; auto. rewrite El. lia.
    - exists o. rewrite app_nil_r. repeat split; auto. revert L. destruct (Z.ltb_spec m (-1)); lia. }
  destruct E1 as (o1 & -> & Eo & Lo). cbn [bind]. destruct (i10x fl m) as [w| |] eqn:Ew; cbn [bind]; [|exact (i10x_safe fl m Ew)|exact I].
  set (d := to_int (fdiv val w)). destruct (put_len o1 (chr (48 + d)) Lo) as [-> Ln]. cbn [bind]. destruct (Z.leb_spec (- prec) (m - 1)) as [H|H].
  - specialize (IH (o1 ++ [chr (48 + d)]) (fsub val (fmul (of_int d) w)) (m - 1) H). rewrite Ln in IH.
    assert (L1 : Z.of_nat (S (length o1)) + need (m - 1) prec <= 32).
    { rewrite Eo, app_length. unfold need in *. revert L. destruct (Z.eqb_spec m (-1)), (Z.ltb_spec m (-1)), (Z.ltb_spec (m - 1) (-1)); cbn [length]; lia. }
    specialize (IH L1). destruct (put_digits k fl _ _ (m - 1) prec) as [o'| |]; [|exact IH|exact I]. destruct IH as (q & -> & Sh). exists ((if m =? -1 then [46] else []) ++ chr (48 + d) :: q). split; [rewrite Eo, <- !app_assoc; reflexivity|]. unfold dshape in *.
    destruct (Z.leb_spec 0 m) as [G|G].
    + replace (m =? -1) with false by lia. cbn [app]. destruct (Z.leb_spec 0 (m - 1)) as [G2|G2].
      * destruct Sh as (a & b & -> & La & Lb). exists (chr (48 + d) :: a), b. repeat split; auto. cbn [length]. lia.
      * replace (m - 1 =? -1) with true in Sh by lia. destruct Sh as (b & -> & Lb). exists [chr (48 + d)], b. replace (prec =? 0) with false by lia. repeat split; auto. cbn [length]. lia.
    + replace (0 <=? m - 1) with false in Sh by lia. replace (m - 1 =? -1) with false in Sh by lia. destruct (Z.eqb_spec m (-1)) as [->|N].
      * cbn [app]. eexists. split; [reflexivity|]. cbn [length]. lia.
      * cbn [app length]. lia.
  - assert (m = - prec) by lia. subst m. exists ((if - prec =? -1 then [46] else []) ++ [chr (48 + d)]). split; [rewrite Eo, <- !app_assoc; reflexivity|]. unfold dshape. destruct (Z.leb_spec 0 (- prec)) as [G|G].
    + assert (prec = 0) by lia. subst prec. change (- 0 =? -1) with false. cbn [app]. exists [chr (48 + d)], []. repeat split; auto; lia.
    + destruct (Z.eqb_spec (- prec) (-1)) as [E|N]; [cbn [app]; eexists; split; [reflexivity|]; cbn [length]; lia|cbn [app length]; lia].
Qed.
Lemma put_exp_ok o fmt e : (length o <= 28)%nat -> exists s e1 e2, put_exp o fmt e = Ok (o ++ [fmt; s; e1; e2]) /\ (s = 43 \/ s = 45).
Proof.
  intros L. unfold put_exp. destruct (put_len o fmt) as [-> L1]; [lia|]. cbn [bind]. set (s := if e <? 0 then 45 else 43). destruct (put_len (o ++ [fmt]) s) as [-> L2]; [lia|]. cbn [bind]. set (e1 := chr (48 + Z.abs e / 10)). destruct (put_len ((o ++ [fmt]) ++ [s]) e1) as [-> L3]; [lia|]. cbn [bind]. set (e2 := chr (48 + Z.abs e mod 10)). destruct (put_len (((o ++ [fmt]) ++ [s]) ++ [e1]) e2) as [-> L4]; [lia|].
  exists s, e1, e2. rewrite <- !app_assoc. split; [reflexivity|]. unfold s. destruct (e <? 0); auto.
Qed.
Lemma fixed_len i p t : 0 <= p -> fixed i p t -> Z.of_nat (length t) <= i + p + 1.
Proof. intros Hp (a & b & -> & La & Lb). rewrite app_length. destruct (Z.eqb_spec p 0); cbn [length]; [lia|specialize (Lb n); lia]. Qed.

(* The number is not zero, or shown in fixed notation, or the precision is small. *)
Lemma ftoa_ok fl x prec fmt : (fmt = 102 \/ SFeqb x f0 = false \/ prec <= 25) ->
  match ftoa fl x prec fmt with Ok t => (length t <= 31)%nat /\ float_shape x prec fmt t | Ub => False | NoFuel => True end.
Proof.
  intros Hz. unfold ftoa, float_shape. destruct (isnan x) eqn:En; [cbn; split; [lia|reflexivity]|]. cbv zeta. set (p := if prec <? 0 then 6 else prec). assert (Hp : 0 <= p) by (unfold p; destruct (Z.ltb_spec prec 0); lia). fold (minus x). unfold sign, signed. set (ng := minus x). set (val := if ng then fsub f0 x else x).
  assert (Ki : isinf val = isinf x) by (unfold val; destruct ng; [|reflexivity]; destruct x as [s|s| |s m e]; try reflexivity; destruct s; reflexivity).
  assert (Kz : SFeqb val f0 = false \/ fmt = 102 \/ ng = false /\ p <= 25).
  { destruct Hz as [Hz|[Hz|Hz]]; [auto| |].
    - left. unfold val. destruct ng eqn:Q; auto. destruct x as [s|s| |s m e]; try discriminate; try (destruct s; reflexivity).
    - destruct ng eqn:Q.
      + left. unfold val. unfold ng, minus in Q. destruct x as [s|s| |s m e]; try discriminate; try (destruct s; try discriminate; reflexivity).
      + right. right. split; [auto|]. unfold p. destruct (Z.ltb_spec prec 0); lia. }
  assert (Sy : forall er, (length er <= 3)%nat -> (o <- put_all [if ng then 45 else 43] er ;; _ <- put o 0 ;; Ok o) = Ok ((if ng then 45 else 43) :: er)).
  { intros er H. destruct er as [|a [|b [|c [|d er]]]]; cbn in H; try lia; reflexivity. }
  rewrite Ki. destruct (isinf x) eqn:Ei; [cbn [bind]; rewrite Sy by (cbn; lia); cbn; split; [lia|auto]|].
  assert (Ls : (@length Z (if ng then [45%Z] else []) <= 1)%nat) by (destruct ng; cbn; lia).
  destruct (Z.eqb_spec fmt 102) as [->|Nf].
  - unfold f_plan. destruct (i10x fl (0 - p)) as [w| |] eqn:Ew; cbn [bind]; [|exact (i10x_safe _ _ Ew)|exact I]. cbv zeta. set (v1 := fadd val (fdiv w f2)). destruct (ilog10 fl v1) as [m| |] eqn:Em; cbn [bind]; [|exact (ilog10_safe _ _ Em)|exact I]. set (m' := if m <? 0 then 0 else m). assert (Hm : 0 <= m') by (unfold m'; destruct (Z.ltb_spec m 0); lia). destruct (Z.leb_spec (Z.of_nat size_num) (m' + p + 3)) as [H|H]; cbn [bind]; [rewrite Sy by (cbn; lia); cbn; split; [lia|auto]|]. unfold size_num in H.
    clearbody m'. clear Hz Kz Sy. clearbody p. pose proof (put_digits_ok fl fl p Hp (if ng then [45] else []) v1 m' ltac:(lia)) as D. unfold need in D. replace (m' <? -1) with false in D by (symmetry; apply Z.ltb_ge; clear - Hm; lia). assert (D1 : Z.of_nat (length (if ng then [45] else [])) + (m' + p + 2) <= 32) by (clear - H Ls; lia). specialize (D D1). destruct (put_digits fl fl _ v1 m' p) as [o| |]; cbn [bind]; [|exact D|exact I]. destruct D as (q & -> & Sh). unfold dshape in Sh. replace (0 <=? m') with true in Sh by lia. pose proof (fixed_len _ _ _ Hp Sh) as Lq. rewrite put_ok by (rewrite app_length; lia). cbn [bind]. rewrite app_length. split; [lia|]. right. left. split; [reflexivity|]. exists (m' + 1), q. repeat split; auto. lia.
  - assert (G : forall v e, Z.of_nat (length (if ng then [45] else [])) + p <= 25 ->
      match o <- (o <- put_digits fl fl (if ng then [45] else []) v 0 p ;; put_exp o fmt e) ;; _ <- put o 0 ;; Ok o with Ok t => (length t <= 31)%nat /\ (t = [if ng then 45 else 43; 79; 86] \/ (fmt = 102 /\ exists i u, 1 <= i /\ fixed i p u /\ t = (if ng then [45] else []) ++ u) \/ (fmt <> 102 /\ exists u e1 e2 s, fixed 1 p u /\ t = (if ng then [45] else []) ++ u ++ [fmt; s; e1; e2] /\ (s = 43 \/ s = 45))) | Ub => False | NoFuel => True end).
    { intros v e H. pose proof (put_digits_ok fl fl p Hp (if ng then [45] else []) v 0 ltac:(lia)) as D. change (need 0 p) with (0 + p + 2) in D. specialize (D ltac:(lia)). destruct (put_digits fl fl _ v 0 p) as [o| |]; cbn [bind]; [|exact D|exact I]. destruct D as (q & -> & Sh). change (dshape 0 p q) with (fixed 1 p q) in Sh. pose proof (fixed_len _ _ _ Hp Sh) as Lq. destruct (put_exp_ok ((if ng then [45] else []) ++ q) fmt e) as (s & e1 & e2 & -> & Hs); [rewrite app_length; lia|]. cbn [bind]. rewrite put_ok by (rewrite !app_length; cbn [length]; lia). cbn [bind]. rewrite !app_length. cbn [length]. split; [lia|]. right. right. split; [auto|]. exists q, e1, e2, s. rewrite <- app_assoc. auto. }
    unfold e_plan. destruct (SFeqb val f0) eqn:Ez.
    + cbn [bind]. apply G. destruct Kz as [K|[K|[-> K]]]; [discriminate|congruence|cbn [length]; lia].
    + destruct (ilog10 fl val) as [l| |] eqn:El; cbn [bind]; [|exact (ilog10_safe _ _ El)|exact I]. destruct (i10x fl (l - p)) as [w| |] eqn:Ew; cbn [bind]; [|exact (i10x_safe _ _ Ew)|exact I]. cbv zeta. set (v1 := fadd val (fdiv w f2)). destruct (ilog10 fl v1) as [e| |] eqn:Em; cbn [bind]; [|exact (ilog10_safe _ _ Em)|exact I]. destruct (Z.ltb_spec 99 e); cbn [orb]; [cbn [bind]; rewrite Sy by (cbn; lia); cbn; split; [lia|auto]|]. destruct (Z.leb_spec (Z.of_nat size_num) (p + 7)) as [H'|H']; [cbn [bind]; rewrite Sy by (cbn; lia); cbn; split; [lia|auto]|]. unfold size_num in H'. set (e' := if e <? -99 then -99 else e). destruct (i10x fl e') as [w'| |] eqn:Ew'; cbn [bind]; [|exact (i10x_safe _ _ Ew')|exact I]. apply G. destruct ng; cbn [length]; lia.
Qed.

(* --- more fuel changes nothing ------------------------------------------------------------- *)
Lemma pow_up_more k : forall n v x, pow_up k n v = Ok x -> forall k', (k <= k')%nat -> pow_up k' n v = Ok x.
Proof. induction k as [|k IH]; intros n v x; cbn [pow_up]; [discriminate|]. intros H k' Hk. destruct k' as [|k']; [lia|]. cbn [pow_up]. destruct (0 <? n); [destruct (5 <=? n); eapply IH; eauto; lia|auto]. Qed.
Lemma pow_down_more k : forall n v x, pow_down k n v = Ok x -> forall k', (k <= k')%nat -> pow_down k' n v = Ok x.
Proof. induction k as [|k IH]; intros n v x; cbn [pow_down]; [discriminate|]. intros H k' Hk. destruct k' as [|k']; [lia|]. cbn [pow_down]. destruct (n <? 0); [destruct (n <=? -5); eapply IH; eauto; lia|auto]. Qed.
Lemma i10x_more k n x : i10x k n = Ok x -> forall k', (k <= k')%nat -> i10x k' n = Ok x.
Proof. unfold i10x. destruct (pow_up k n f1) as [[v m]| |] eqn:E; cbn [bind]; try discriminate. intros H k' Hk. rewrite (pow_up_more _ _ _ _ E _ Hk). cbn [bind]. eapply pow_down_more; eauto. Qed.
Lemma log_down_more k : forall n v x, log_down k n v = Ok x -> forall k', (k <= k')%nat -> log_down k' n v = Ok x.
Proof. induction k as [|k IH]; intros n v x; cbn [log_down]; [discriminate|]. intros H k' Hk. destruct k' as [|k']; [lia|]. cbn [log_down]. destruct (SFleb f10 n); [destruct (SFleb f1e5 n); eapply IH; eauto; lia|auto]. Qed.
Lemma log_up_more k : forall n v x, log_up k n v = Ok x -> forall k', (k <= k')%nat -> log_up k' n v = Ok x.
Proof. induction k as [|k IH]; intros n v x; cbn [log_up]; [discriminate|]. intros H k' Hk. destruct k' as [|k']; [lia|]. cbn [log_up]. destruct (SFltb n f1); [destruct (SFltb n f1em5); eapply IH; eauto; lia|auto]. Qed.
Lemma ilog10_more k n x : ilog10 k n = Ok x -> forall k', (k <= k')%nat -> ilog10 k' n = Ok x.
Proof. unfold ilog10. destruct (log_down k n 0) as [[v m]| |] eqn:E; cbn [bind]; try discriminate. intros H k' Hk. rewrite (log_down_more _ _ _ _ E _ Hk). cbn [bind]. eapply log_up_more; eauto. Qed.
Lemma i10x_one k n x fl : i10x k n = Ok x -> i10x fl n = Ok x \/ i10x fl n = NoFuel.
Proof. intros H. destruct (i10x fl n) as [y| |] eqn:E; [|exfalso; exact (i10x_safe _ _ E)|auto]. left. rewrite <- (i10x_more _ _ _ E (Nat.max k fl)) by lia. apply (i10x_more _ _ _ H). lia. Qed.
Lemma ilog10_one k n x fl : ilog10 k n = Ok x -> ilog10 fl n = Ok x \/ ilog10 fl n = NoFuel.
Proof. intros H. destruct (ilog10 fl n) as [y| |] eqn:E; [|exfalso; exact (ilog10_safe _ _ E)|auto]. left. rewrite <- (ilog10_more _ _ _ E (Nat.max k fl)) by lia. apply (ilog10_more _ _ _ H). lia. Qed.

(* --- loops that do not end ----------------------------------------------------------------- *)
Lemma zero_log fl : ilog10 fl f0 = NoFuel.
Proof. destruct fl as [|fl]; [reflexivity|]. unfold ilog10. cbn [log_down]. change (SFleb f10 f0) with false. cbn [bind]. assert (H : forall k v, log_up k f0 v = NoFuel) by (induction k as [|k IH]; intros v; cbn [log_up]; [reflexivity|]; change (SFltb f0 f1) with true; change (SFltb f0 f1em5) with true; cbv iota; change (fmul f0 f1e5) with f0; apply IH). apply H. Qed.
Lemma inf_log fl : ilog10 fl (S754_infinity false) = NoFuel.
Proof. unfold ilog10. assert (H : forall k v, log_down k (S754_infinity false) v = NoFuel) by (induction k as [|k IH]; intros v; cbn [log_down]; [reflexivity|]; change (SFleb f10 (S754_infinity false)) with true; change (SFleb f1e5 (S754_infinity false)) with true; cbv iota; change (fdiv (S754_infinity false) f1e5) with (S754_infinity false); apply IH). rewrite H. reflexivity. Qed.
Definition dbl_max : double := S754_finite false 9007199254740991 971.
Definition rounds_up (n : nat) : bool := match i10x 200 (308 - Z.of_nat n) with Ok w => match fadd dbl_max (fdiv w f2) with S754_infinity false => true | _ => false end | _ => false end.
Lemma rounds_up_ok n : rounds_up n = true -> exists w, i10x 200 (308 - Z.of_nat n) = Ok w /\ fadd dbl_max (fdiv w f2) = S754_infinity false.
Proof. unfold rounds_up. generalize (i10x 200 (308 - Z.of_nat n)). intros r. destruct r as [w| |]; [|intros H; discriminate H|intros H; discriminate H]. intros H. exists w. split; [reflexivity|]. revert H. generalize (fadd dbl_max (fdiv w f2)). intros y. destruct y as [s|[]| |s m e]; intros H; first [reflexivity|discriminate H]. Qed.
Lemma max_round p : 0 <= p <= 15 -> exists w, i10x 200 (308 - p) = Ok w /\ fadd dbl_max (fdiv w f2) = S754_infinity false.
Proof.
  intros Hp. assert (F : forallb rounds_up (seq 0 16) = true) by (vm_compute; reflexivity). pose proof (proj1 (forallb_forall _ _) F (Z.to_nat p) ltac:(apply in_seq; lia)) as G. apply rounds_up_ok in G. rewrite Z2Nat.id in G by lia. exact G.
Qed.
Lemma max_e fl p : 0 <= p <= 15 -> ftoa fl dbl_max p 101 = NoFuel.
Proof.
  intros Hp. unfold ftoa. change (isnan dbl_max) with false. cbv iota zeta. replace (p <? 0) with false by lia. change (SFltb dbl_max f0) with false. cbv iota. change (isinf dbl_max) with false. change (101 =? 102) with false. cbv iota. unfold e_plan. change (SFeqb dbl_max f0) with false. cbv iota.
  assert (E : ilog10 100 dbl_max = Ok 308) by (vm_compute; reflexivity). destruct (ilog10_one _ _ _ fl E) as [->| ->]; cbn [bind]; [|reflexivity].
  destruct (max_round p Hp) as (w & E2 & E3). destruct (i10x_one _ _ _ fl E2) as [->| ->]; cbn [bind]; [|reflexivity]. cbv zeta. rewrite E3, inf_log. reflexivity.
Qed.
Lemma zero_f fl : ftoa fl f0 400 102 = NoFuel.
Proof.
  unfold ftoa. change (isnan f0) with false. cbv iota zeta. change (400 <? 0) with false. change (SFltb f0 f0) with false. cbv iota. change (isinf f0) with false. change (102 =? 102) with true. cbv iota. unfold f_plan. assert (E : exists w, i10x 200 (0 - 400) = Ok w /\ fadd f0 (fdiv w f2) = f0) by (eexists; split; [vm_compute; reflexivity|reflexivity]). destruct E as (w & E & E2). destruct (i10x_one _ _ _ fl E) as [->| ->]; cbn [bind]; [|reflexivity]. cbv zeta. rewrite E2, zero_log. reflexivity.
Qed.
