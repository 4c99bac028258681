From Verif Require Import Base CrcSpec FutfModel FutfSpec FutfProof FtoaModel PutModel PutSpec PutProof.
Open Scope Z_scope.
Ltac Zify.zify_post_hook ::= idtac.

(* --- numerals ------------------------------------------------------------------------------ *)
Definition wellformed (r : Z) (ds : list Z) : Prop := Forall (fun d => 0 <= d < r) ds /\ (ds = [0] \/ exists d ds', ds = d :: ds' /\ d <> 0).
Lemma number_snoc r ds d : number r (ds ++ [d]) = number r ds * r + d.
Proof. unfold number. rewrite fold_left_app. reflexivity. Qed.
Lemma number_low r ds : 1 < r -> Forall (fun d => 0 <= d < r) ds -> 0 <= number r ds.
Proof. intros Hr. induction ds as [|d ds IH] using rev_ind; intros F; [reflexivity|]. apply Forall_app in F as [F Fd]. apply Forall_inv in Fd. rewrite number_snoc. specialize (IH F). nia. Qed.
Lemma number_head r ds : 1 < r -> Forall (fun d => 0 <= d < r) ds -> (exists d ds', ds = d :: ds' /\ d <> 0) -> r ^ Z.of_nat (length ds - 1) <= number r ds.
Proof.
  intros Hr. induction ds as [|d ds IH] using rev_ind; intros F (x & q & E & N); [discriminate|]. apply Forall_app in F as [F Fd]. apply Forall_inv in Fd. rewrite number_snoc, app_length. cbn [length]. destruct ds as [|y ds].
  - cbn in E. injection E as -> _. cbn. unfold number. cbn. lia.
  - cbn in E. injection E as -> _. specialize (IH F (ex_intro _ x (ex_intro _ ds (conj eq_refl N)))). cbn [length] in *. replace (S (length ds) + 1 - 1)%nat with (S (S (length ds) - 1)) by lia. rewrite Nat2Z.inj_succ, Z.pow_succ_r by lia. nia.
Qed.
Lemma digit_char (low : bool) d : 0 <= d -> (if 9 <? d then d + (if low then 39 else 7) else d) + 48 = digit_of low d.
Proof. intros H. unfold digit_of. destruct (Z.ltb_spec d 10), (Z.ltb_spec 9 d); try lia. destruct low; lia. Qed.
Lemma digits_ok r low : 1 < r -> forall ds, wellformed r ds -> forall fuel o, (length ds <= fuel)%nat -> digits fuel (number r ds) r low o = o ++ rev (map (digit_of low) ds).
Proof.
  intros Hr ds. induction ds as [|d ds IH] using rev_ind; intros (F & W) fuel o L; [destruct W as [W|(? & ? & W & _)]; discriminate|]. rewrite app_length in L. cbn in L. destruct fuel as [|fuel]; [lia|]. cbn [digits]. apply Forall_app in F as [F Fd]. apply Forall_inv in Fd. rewrite number_snoc.
  pose proof (number_low r ds Hr F) as Hn. replace ((number r ds * r + d) mod r) with d by (rewrite Z.add_comm, Z_mod_plus_full, Z.mod_small; lia). replace ((number r ds * r + d) / r) with (number r ds) by (rewrite Z.add_comm, Z_div_plus_full, Z.div_small; lia). rewrite digit_char by lia. rewrite map_app, rev_app_distr. cbn [map rev app].
  destruct ds as [|y ds].
  - change (number r []) with 0. rewrite Z.eqb_refl. reflexivity.
  - assert (Wy : exists d ds', y :: ds = d :: ds' /\ d <> 0) by (destruct W as [W|(x & q & E & N)]; [destruct ds; discriminate|]; cbn in E; injection E as -> _; eauto).
    pose proof (number_head r (y :: ds) Hr F Wy) as Hh. assert (0 < r ^ Z.of_nat (length (y :: ds) - 1)) by (apply Z.pow_pos_nonneg; lia). replace (number r (y :: ds) =? 0) with false by lia. rewrite IH; [|split; auto|lia]. rewrite <- app_assoc. reflexivity.
Qed.
Lemma length_bound r ds : wellformed r ds -> (8 <= r /\ number r ds < 2 ^ 64 -> (length ds <= 22)%nat) /\ (r = 2 /\ number r ds < 2 ^ 32 -> (length ds <= 32)%nat).
Proof.
  intros (F & [->|W]); [cbn; lia|]. split.
  - intros [Hr Hv]. pose proof (number_head r ds ltac:(lia) F W) as H. destruct (Nat.le_gt_cases (length ds) 22) as [|G]; [auto|]. exfalso. assert (8 ^ 22 <= r ^ Z.of_nat (length ds - 1)); [|change (8 ^ 22) with 73786976294838206464 in *; change (2 ^ 64) with 18446744073709551616 in *; lia].
    apply Z.le_trans with (r ^ 22); [apply Z.pow_le_mono_l; lia|apply Z.pow_le_mono_r; lia].
  - intros [-> Hv]. pose proof (number_head 2 ds ltac:(lia) F W) as H. destruct (Nat.le_gt_cases (length ds) 32) as [|G]; [auto|]. exfalso. assert (2 ^ 32 <= 2 ^ Z.of_nat (length ds - 1)) by (apply Z.pow_le_mono_r; lia). lia.
Qed.

(* --- flag, width, precision, size ---------------------------------------------------------- *)
Definition nodigit (l : list Z) : Prop := exists x r, l = x :: r /\ ~ digit x.
Lemma isdig_iff c : isdig c = true <-> digit c.
Proof. unfold isdig, digit. lia. Qed.
Lemma isdig_not c : ~ digit c -> isdig c = false.
Proof. unfold isdig, digit. lia. Qed.
Definition dec_from (n : Z) (ds : list Z) : Z := fold_left (fun n d => n * 10 + (d - 48)) ds n.
Lemma width_ok ds l : Forall digit ds -> nodigit l -> forall n, width (ds ++ l) (n mod 4294967296) = (dec_from n ds mod 4294967296, l).
Proof.
  intros F (x & r & -> & N). induction F as [|d ds Hd F IH]; intros n.
  - cbn [app width]. now rewrite isdig_not.
  - cbn [app width]. replace (isdig d) with true by (symmetry; now apply isdig_iff). replace ((n mod 4294967296 * 10 + d - 48) mod 4294967296) with ((n * 10 + (d - 48)) mod 4294967296); [apply IH|]. replace (n mod 4294967296 * 10 + d - 48) with (n mod 4294967296 * 10 + (d - 48)) by lia. rewrite <- (Zplus_mod_idemp_l (n * 10)), <- (Zplus_mod_idemp_l (n mod 4294967296 * 10)). now rewrite Zmult_mod_idemp_l.
Qed.
Lemma dec_from_up ds : Forall digit ds -> forall n, 0 <= n -> n <= dec_from n ds.
Proof. induction 1 as [|d ds Hd F IH]; intros n Hn; [cbn; lia|]. cbn. unfold digit in Hd. specialize (IH (n * 10 + (d - 48)) ltac:(lia)). unfold dec_from in *. lia. Qed.
Lemma precn_ok ds l : Forall digit ds -> nodigit l -> forall n, 0 <= n -> dec_from n ds < 2147483590 -> precn (ds ++ l) n = Ok (dec_from n ds, l).
Proof.
  intros F (x & r & -> & N). induction F as [|d ds Hd F IH]; intros n Hn Hm.
  - cbn [app precn]. now rewrite isdig_not.
  - cbn [app precn]. replace (isdig d) with true by (symmetry; now apply isdig_iff). cbn [dec_from fold_left] in Hm. fold (dec_from (n * 10 + (d - 48)) ds) in Hm. unfold digit in Hd. pose proof (dec_from_up ds F (n * 10 + (d - 48)) ltac:(lia)). replace (2147483647 <? n * 10 + d) with false by lia. replace (n * 10 + d - 48) with (n * 10 + (d - 48)) by lia. apply IH; lia.
Qed.
Definition ptext (p : amount) : list Z := match p with No => [] | _ => 46 :: amount_text p end.
Definition cflag (f : flag) : bool := match f with Left => true | _ => false end.
Definition cpad (f : flag) : Z := match f with Zeros => 48 | _ => 32 end.
Definition plain_type (c : Z) : Prop := ~ digit c /\ ~ In c [0; 42; 46; 45; 108].
Lemma size_head sz c r : plain_type c -> exists x q, repeat 108 sz ++ c :: r = x :: q /\ ~ digit x /\ x <> 42 /\ x <> 46 /\ x <> 45.
Proof. intros (H1 & H2). cbn in H2. destruct sz; cbn; do 2 eexists; (split; [reflexivity|]); unfold digit in *; lia. Qed.
Lemma prec_head p sz c r : plain_type c -> exists x q, ptext p ++ repeat 108 sz ++ c :: r = x :: q /\ ~ digit x /\ x <> 42 /\ x <> 45 /\ (x = 46 <-> p <> No).
Proof. intros H. destruct p; [destruct (size_head sz c r H) as (x & q & E & H1 & H2 & H3 & H4); exists x, q; cbn [ptext app]; repeat split; auto; congruence| |]; (exists 46; eexists; split; [reflexivity|]; unfold digit; repeat split; auto; try lia; discriminate). Qed.
Lemma parse_ok f wd pr sz c rest a a1 a2 wn pn : good (Cv f wd pr sz c) -> amounts wd a wn a1 -> amounts pr a1 pn a2 ->
  parse (flag_text f ++ amount_text wd ++ ptext pr ++ repeat 108 sz ++ c :: rest) a =
  Ok ({| left := cflag f; pad := cpad f; w := match wd with No => 0 | _ => wn mod 4294967296 end; prec := pn; size := sz |}, c :: rest, a2).
Proof.
  intros (Gw & Gp & Gs & Gc) Aw Ap. unfold parse. assert (P : plain_type c) by exact Gc. set (T3 := repeat 108 sz ++ c :: rest). set (T2 := ptext pr ++ T3). set (T1 := amount_text wd ++ T2).
  destruct (size_head sz c rest P) as (x3 & q3 & E3 & D3 & N3 & N3' & N3''). fold T3 in E3. destruct (prec_head pr sz c rest P) as (x2 & q2 & E2 & D2 & N2 & N2' & I2). fold T3 in E2. fold T2 in E2.
  assert (H1 : exists x q, T1 = x :: q /\ x <> 45 /\ (f = Plain -> x <> 48)).
  { destruct wd as [|ds|]; [exists x2, q2; split; [exact E2|]; split; [auto|]; intros _ ->; apply D2; unfold digit; lia| |exists 42, T2; repeat split; lia]. destruct (Gw ds eq_refl) as (F & _ & Nn & Hz). destruct ds as [|d ds]; [congruence|]. exists d, (ds ++ T2). split; [reflexivity|]. apply Forall_inv in F. unfold digit in F. split; [lia|auto]. }
  destruct H1 as (x1 & q1 & E1 & N1 & Z1).
  assert (K1 : (let '(tc, r) := getc (flag_text f ++ T1) in if tc =? 48 then (false, 48, r) else if tc =? 45 then (true, 32, r) else (false, 32, flag_text f ++ T1)) = (cflag f, cpad f, T1)).
  { destruct f; cbn [flag_text app getc]; [|reflexivity|reflexivity]. rewrite E1. cbn [getc]. replace (x1 =? 48) with false by (specialize (Z1 eq_refl); lia). now replace (x1 =? 45) with false by lia. }
  destruct (getc (flag_text f ++ T1)) as [tc r]. rewrite K1. clear K1 tc r.
  assert (K2 : (let '(tc, r) := getc T1 in if tc =? 42 then '(n, a) <- get_int a ;; Ok (n mod 4294967296, r, a) else let '(wd, fmt) := width T1 0 in Ok (wd, fmt, a)) = Ok (match wd with No => 0 | _ => wn mod 4294967296 end, T2, a1)).
  { destruct Aw as [a|ds a|n a]; unfold T1; cbn [amount_text app].
    - rewrite E2. cbn [getc]. replace (x2 =? 42) with false by lia. cbn [width]. now rewrite (isdig_not x2).
    - destruct (Gw ds eq_refl) as (F & _ & Nn & _). destruct ds as [|d ds]; [congruence|]. assert (Hd := Forall_inv F). cbn [app getc]. replace (d =? 42) with false by (unfold digit in Hd; lia). change (d :: ds ++ T2) with ((d :: ds) ++ T2). change 0 with (0 mod 4294967296). rewrite (width_ok (d :: ds) T2 F) by (exists x2, q2; auto). reflexivity.
    - reflexivity. }
  rewrite K2. cbn [bind]. clear K2.
  assert (K3 : (let '(tc, r) := getc T2 in if tc =? 46 then let '(tc, r2) := getc r in if tc =? 42 then '(n, a) <- get_int a1 ;; Ok (n, r2, a) else '(p, fmt) <- precn r 0 ;; Ok (p, fmt, a1) else Ok (-1, T2, a1)) = Ok (pn, T3, a2)).
  { rewrite E2. cbn [getc]. destruct Ap as [a'|ds a'|n a'].
    - replace (x2 =? 46) with false by (symmetry; apply Z.eqb_neq; intros Q; apply I2 in Q; congruence). unfold T2 in E2. cbn [ptext app] in E2. now rewrite E2.
    - replace (x2 =? 46) with true by (symmetry; apply Z.eqb_eq, I2; discriminate). unfold T2 in E2. cbn [ptext amount_text app] in E2. injection E2 as _ E2. destruct (Gp ds eq_refl) as (F & M).
      assert (Hq : exists y z, q2 = y :: z /\ y <> 42) by (rewrite <- E2; destruct ds as [|d ds]; cbn; [rewrite E3; eauto|exists d; eexists; split; [reflexivity|]; apply Forall_inv in F; unfold digit in F; lia]). destruct Hq as (y & z & Eq & Ny). rewrite Eq. cbn [getc]. replace (y =? 42) with false by lia. rewrite <- Eq, <- E2, (precn_ok ds T3 F); [reflexivity|exists x3, q3; auto|lia|exact M].
    - replace (x2 =? 46) with true by (symmetry; apply Z.eqb_eq, I2; discriminate). unfold T2 in E2. cbn [ptext amount_text app] in E2. injection E2 as _ <-. reflexivity. }
  rewrite K3. cbn [bind]. clear K3. unfold T3. destruct P as [_ P]. cbn in P. destruct sz as [|[|[|sz]]]; cbn [repeat app getc]; [replace (c =? 108) with false by lia|change (108 =? 108) with true; cbv iota; replace (c =? 108) with false by lia|change (108 =? 108) with true; cbv iota|lia]; reflexivity.
Qed.

(* --- bodies -------------------------------------------------------------------------------- *)
Lemma pad_ok pb f wn sz pn t : -1 <= wn < 4294967296 -> forall w', (w' = wn mod 4294967296 /\ 0 <= wn \/ wn = -1 /\ w' = 0) ->
  field pb {| left := cflag f; pad := cpad f; w := w'; prec := pn; size := sz |} (Z.of_nat (length t)) t = putall pb (padded f wn t).
Proof.
  intros Hw w' E. unfold field, pads, padded. cbn [left pad w]. assert (N : Z.to_nat (w' - Z.of_nat (length t)) = Z.to_nat (wn - Z.of_nat (length t))) by (destruct E as [[-> H]|[-> ->]]; [rewrite Z.mod_small by lia; auto|lia]). rewrite N. destruct f; cbn [cflag cpad].
  - rewrite putall_app. destruct (putall pb (repeat 32 _)) as [p| |]; cbn [bind]; auto. destruct (putall p t); cbn [bind]; auto.
  - rewrite putall_app. destruct (putall pb (repeat 48 _)) as [p| |]; cbn [bind]; auto. destruct (putall p t); cbn [bind]; auto.
  - rewrite putall_app. reflexivity.
Qed.
Lemma integer_nat sz n a : (sz <= 2)%nat -> 0 <= n < 2 ^ bits sz -> integer sz false (int_arg sz n :: a) = Ok (n, a).
Proof. intros Hs Hn. destruct sz as [|[|[|sz]]]; [| | |lia]; cbn [integer int_arg bits] in *; rewrite !Z.mod_small; auto; try (rewrite Z.mod_small; lia); change (2 ^ 32) with 4294967296 in *; change (2 ^ 64) with 18446744073709551616 in *; try lia. Qed.
Lemma integer_signed sz n a : (sz <= 2)%nat -> integer sz true (int_arg sz n :: a) = Ok (n mod 2 ^ 64, a).
Proof. intros Hs. destruct sz as [|[|[|sz]]]; [| | |lia]; reflexivity. Qed.
Lemma numeral_digits r low v t : 1 < r -> numeral r low v t -> (8 <= r /\ v < 2 ^ 64 \/ r = 2 /\ v < 2 ^ 32) -> rev (digits size_num v r low []) = t /\ length (digits size_num v r low []) = length t /\ (8 <= r -> v < 2 ^ 64 -> (length t <= 22)%nat).
Proof.
  intros Hr (ds & -> & F & <- & W) B. assert (Wf : wellformed r ds) by (split; auto). destruct (length_bound r ds Wf) as [L1 L2]. assert (L : (length ds <= size_num)%nat) by (unfold size_num; destruct B as [B|B]; [specialize (L1 B)|specialize (L2 B)]; lia).
  rewrite digits_ok by auto. cbn [app]. rewrite rev_involutive, rev_length. repeat split; auto. intros. rewrite map_length. apply L1. auto.
Qed.
Lemma bits_low sz : 2 ^ 31 <= 2 ^ (bits sz - 1) <= 2 ^ 63 /\ 2 ^ bits sz <= 2 ^ 64.
Proof. destruct sz as [|[|[|sz]]]; cbn [bits]; split; try split; apply Z.pow_le_mono_r; lia. Qed.
Lemma num_ok pb c tc r a v t a' : 1 < r -> (tc = 120 \/ r < 11 \/ tc = 88) ->
  integer (size c) (tc =? 100) a = Ok (v, a') ->
  let neg := (tc =? 100) && (2 ^ 63 <=? v) in let u := if neg then (0 - v) mod 2 ^ 64 else v in
  (8 <= r /\ u < 2 ^ 64 \/ r = 2 /\ u < 2 ^ 32) -> (neg = true -> 8 <= r) -> numeral r (tc =? 120) u t ->
  put_num pb c tc r a = (pb <- field pb c (Z.of_nat (length (if neg then 45 :: t else t))) (if neg then 45 :: t else t) ;; Ok (pb, a')).
Proof.
  intros Hr _ Ei neg u B Bn N. unfold put_num. rewrite Ei. cbn [bind]. cbv zeta. fold neg. fold u. destruct (numeral_digits r (tc =? 120) u t Hr N B) as (E1 & E2 & E3). rewrite <- E1 at 1. destruct neg eqn:Q.
  - assert (length t <= 22)%nat by (apply E3; [auto|]; destruct B as [B|[-> B]]; [tauto|]; specialize (Bn eq_refl); lia). replace (size_num <=? length _)%nat with false by (symmetry; apply Nat.leb_gt; rewrite E2; unfold size_num; lia). cbn [andb]. rewrite rev_app_distr, app_length, E1, E2. cbn [length rev app]. rewrite Nat.add_1_r. reflexivity.
  - cbn [andb]. rewrite E2, E1. reflexivity.
Qed.
Lemma print_ok fl ps a o : shows fl ps a o -> Forall good ps -> forall fuel pb, (length (format ps) < fuel)%nat -> print fuel fl pb (format ps) a = putall pb o.
Proof.
  induction 1 as [a|b ps a o Sh IH|f wd pr sz c ps a a1 a2 a3 wn pn t o Aw Hw Hs Ap Bo Sh IH|f wd pr sz ps a a1 a2 wn pn n o Aw Ap Sh IH|f wd pr sz c ps a a1 a2 wn pn o Nc Aw Ap Sh IH]; intros G fuel pb L; (destruct fuel as [|fuel]; [lia|]).
  - reflexivity.
  - inversion G as [|? ? Gb G']; subst. destruct Gb as [Gb _]. cbn [format flat_map show app print putall length] in *. fold (format ps) in *. replace (b =? 37) with false by lia. cbn [negb]. destruct (putc_bfd pb b); cbn [bind]; auto. apply IH; auto. lia.
  - inversion G as [|? ? Gc G']; subst. cbn [format flat_map show app] in *. fold (format ps) in *. fold (ptext pr) in *. cbn [print]. change (37 =? 37) with true. cbn [negb]. rewrite <- !app_assoc in *. cbn [app] in *. rewrite (parse_ok f wd pr sz c (format ps) a a1 a2 wn pn Gc Aw Ap). cbn [bind].
    assert (Lf : (length (format ps) < fuel)%nat) by (cbn [length] in L; rewrite !app_length in L; cbn [length] in L; lia).
    rewrite putall_app. set (w' := match wd with No => 0 | _ => wn mod 4294967296 end).
    assert (Ew : w' = wn mod 4294967296 /\ 0 <= wn \/ wn = -1 /\ w' = 0).
    { subst w'. destruct Aw as [|ds|]; [right; auto|left; split; [auto|]|left; split; [auto|auto]]. destruct Gc as (Gw & _). destruct (Gw ds eq_refl) as (F & _). apply (dec_from_up ds F 0). lia. }
    assert (Gs : (sz <= 2)%nat) by (destruct Gc as (_ & _ & Gs & _); exact Gs). pose proof (bits_low sz) as Hb. pose proof (pad_ok pb f wn sz pn t Hw w' Ew) as Pd. set (cv := {| left := cflag f; pad := cpad f; w := w'; prec := pn; size := sz |}) in *.
    inversion Bo as [sz' c' r low n p t' a' Ba Hn H2 Nu|sz' n p t' a' Hn Nu|sz' n p t' a' Hn Nu|sz' s p a' H1 H2|sz' s p a' H1|sz' p a' H1|sz' c' x p t' a' Hc Ft]; subst.
    + assert (K : radix c = Some r /\ 1 < r /\ (8 <= r \/ r = 2) /\ (c =? 100) = false /\ (c =? 120) = low) by (inversion Ba; subst; repeat split; auto; lia). destruct K as (Kr & K1 & K2 & K3 & K4). rewrite Kr.
      rewrite (num_ok pb cv c r (int_arg sz n :: a3) n t a3); [|auto|inversion Ba; subst; lia|rewrite K3; cbn [size cv]; now apply integer_nat|rewrite K3; cbn [andb]; destruct K2 as [K2| ->]; [left; lia|right; split; [auto|now apply H2]]|rewrite K3; discriminate|rewrite K3, K4; exact Nu].
      rewrite K3. cbn [andb]. rewrite Pd. destruct (putall pb (padded f wn t)); cbn [bind]; auto.
    + change (radix 100) with (Some 10); cbv iota beta. assert (M : n mod 2 ^ 64 = n) by (apply Z.mod_small; change (2 ^ 63) with 9223372036854775808 in *; change (2 ^ 64) with 18446744073709551616 in *; lia).
      assert (K : (100 =? 100) && (2 ^ 63 <=? n) = false) by (change (100 =? 100) with true; cbn [andb]; change (2 ^ 63) with 9223372036854775808 in *; lia).
      rewrite (num_ok pb cv 100 10 (int_arg sz n :: a3) n t a3); [|lia|lia|change (100 =? 100) with true; cbn [size cv]; rewrite integer_signed, M by auto; reflexivity|rewrite K; left; change (2 ^ 63) with 9223372036854775808 in *; change (2 ^ 64) with 18446744073709551616 in *; lia|lia|rewrite K; exact Nu].
      rewrite K. rewrite Pd. destruct (putall pb (padded f wn t)); cbn [bind]; auto.
    + change (radix 100) with (Some 10); cbv iota beta. assert (M : n mod 2 ^ 64 = n + 2 ^ 64) by (rewrite <- (Z_mod_plus_full n 1), Z.mul_1_l; apply Z.mod_small; change (2 ^ 63) with 9223372036854775808 in *; change (2 ^ 64) with 18446744073709551616 in *; lia).
      assert (K : (100 =? 100) && (2 ^ 63 <=? n + 2 ^ 64) = true) by (change (100 =? 100) with true; cbn [andb]; change (2 ^ 63) with 9223372036854775808 in *; change (2 ^ 64) with 18446744073709551616 in *; lia).
      assert (Ku : (0 - (n + 2 ^ 64)) mod 2 ^ 64 = - n) by (replace (0 - (n + 2 ^ 64)) with (- n + -1 * 2 ^ 64) by lia; rewrite Z_mod_plus_full; apply Z.mod_small; change (2 ^ 63) with 9223372036854775808 in *; change (2 ^ 64) with 18446744073709551616 in *; lia).
      rewrite (num_ok pb cv 100 10 (int_arg sz n :: a3) (n + 2 ^ 64) t' a3); [|lia|lia|change (100 =? 100) with true; cbn [size cv]; rewrite integer_signed, M by auto; reflexivity|rewrite K, Ku; left; change (2 ^ 63) with 9223372036854775808 in *; change (2 ^ 64) with 18446744073709551616 in *; lia|lia|rewrite K, Ku; exact Nu].
      rewrite K. rewrite Pd. destruct (putall pb (padded f wn (45 :: t'))); cbn [bind]; auto.
    + change (radix 115) with (@None Z). change (115 =? 99) with false. change (115 =? 115) with true. cbv iota. unfold put_str. cbn [prec cv]. replace (pn <? 0) with true by lia. replace (pn - Z.of_nat (length t) <? -2147483648) with false by lia. rewrite Pd. destruct (putall pb (padded f wn t)); cbn [bind]; auto.
    + change (radix 115) with (@None Z). change (115 =? 99) with false. change (115 =? 115) with true. cbv iota. unfold put_str. cbn [prec cv]. replace (pn <? 0) with false by lia. replace (Z.min (Z.of_nat (length s)) pn) with (Z.of_nat (length (firstn (Z.to_nat pn) s))) by (rewrite firstn_length; lia). rewrite Pd. destruct (putall pb (padded f wn _)); cbn [bind]; auto.
    + change (radix 115) with (@None Z). change (115 =? 99) with false. change (115 =? 115) with true. cbv iota. unfold put_str. cbn [prec cv length]. destruct (Z.ltb_spec pn 0).
      * replace (pn - Z.of_nat 0 <? -2147483648) with false by lia. change (Z.of_nat 0) with (Z.of_nat (@length Z [])). rewrite Pd. destruct (putall pb (padded f wn [])); cbn [bind]; auto.
      * rewrite firstn_nil. replace (Z.min (Z.of_nat 0) pn) with (Z.of_nat (@length Z [])) by (cbn; lia). rewrite Pd. destruct (putall pb (padded f wn [])); cbn [bind]; auto.
    + assert (K : radix c = None /\ (c =? 99) = false /\ (c =? 115) = false /\ (c =? 102) || (c =? 101) || (c =? 69) = true) by (cbn in Hc; destruct Hc as [<-|[<-|[<-|[]]]]; auto). destruct K as (-> & -> & -> & ->). cbn [prec cv]. rewrite Ft. cbn [bind]. rewrite Pd. destruct (putall pb (padded f wn t)); cbn [bind]; auto.
  - inversion G as [|? ? Gc G']; subst. cbn [format flat_map show app] in *. fold (format ps) in *. fold (ptext pr) in *. cbn [print]. change (37 =? 37) with true. cbn [negb]. rewrite <- !app_assoc in *. cbn [app] in *. rewrite (parse_ok f wd pr sz 99 (format ps) a a1 _ wn pn Gc Aw Ap). cbn [bind].
    change (radix 99) with (@None Z). change (99 =? 99) with true. cbv iota. cbn [get_int bind putall]. destruct (putc_bfd pb (n mod 256)); cbn [bind]; auto. apply IH; auto. cbn [length] in L; rewrite !app_length in L; cbn [length] in L; lia.
  - inversion G as [|? ? Gc G']; subst. cbn [format flat_map show app] in *. fold (format ps) in *. fold (ptext pr) in *. cbn [print]. change (37 =? 37) with true. cbn [negb]. rewrite <- !app_assoc in *. cbn [app] in *. rewrite (parse_ok f wd pr sz c (format ps) a a1 a2 wn pn Gc Aw Ap). cbn [bind].
    assert (K : radix c = None /\ (c =? 99) = false /\ (c =? 115) = false /\ (c =? 102) || (c =? 101) || (c =? 69) = false) by (cbn in Nc; unfold radix; repeat match goal with |- context [c =? ?k] => replace (c =? k) with false by lia end; auto). destruct K as (-> & -> & -> & ->). cbn [putall]. destruct (putc_bfd pb c); cbn [bind]; auto. apply IH; auto. cbn [length] in L; rewrite !app_length in L; cbn [length] in L; lia.
Qed.
Lemma printf_ok fl f ps a o : Forall good ps -> shows fl ps a o -> f_printf fl f (format ps) a = f_puts f o.
Proof. intros G S. unfold f_printf, f_puts. rewrite (print_ok fl ps a o S G) by lia. reflexivity. Qed.
