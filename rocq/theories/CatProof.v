From Verif Require Import Base Finite CatModel CatSpec.
Open Scope Z_scope.
Ltac Zify.zify_post_hook ::= Z.div_mod_to_equations.

(* --- characters --- *)

Definition lead_chk (c : Z) : bool :=
  let '(d, n) := lead c in
  if c <? 192 then true else if c <? 224 then (d =? c - 192) && (n =? 1)%nat
  else if c <? 240 then (d =? c - 224) && (n =? 2)%nat else if c <? 248 then (d =? c - 240) && (n =? 3)%nat else true.
Lemma lead_all : allb 8 lead_chk 0 = true. Proof. vm_compute. reflexivity. Qed.

Lemma lead_eq c d k : 0 <= c < 256 -> (192 <= c < 224 /\ d = c - 192 /\ k = 1%nat \/ 224 <= c < 240 /\ d = c - 224 /\ k = 2%nat \/ 240 <= c < 248 /\ d = c - 240 /\ k = 3%nat) ->
  lead c = (d, k).
Proof.
  intros B H. pose proof (allb0 8 lead_chk lead_all c B) as E. unfold lead_chk in E. destruct (lead c) as (d', n).
  destruct H as [(R & -> & ->)|[(R & -> & ->)|(R & -> & ->)]].
  - replace (c <? 192) with false in E by lia. replace (c <? 224) with true in E by lia.
    apply andb_true_iff in E as (E1 & E2). apply Z.eqb_eq in E1. apply Nat.eqb_eq in E2. congruence.
  - replace (c <? 192) with false in E by lia. replace (c <? 224) with false in E by lia. replace (c <? 240) with true in E by lia.
    apply andb_true_iff in E as (E1 & E2). apply Z.eqb_eq in E1. apply Nat.eqb_eq in E2. congruence.
  - replace (c <? 192) with false in E by lia. replace (c <? 224) with false in E by lia. replace (c <? 240) with false in E by lia. replace (c <? 248) with true in E by lia.
    apply andb_true_iff in E as (E1 & E2). apply Z.eqb_eq in E1. apply Nat.eqb_eq in E2. congruence.
Qed.

Definition trail_chk (c : Z) : bool := (Z.land (128 + c) 192 =? 128) && (Z.land (128 + c) 63 =? c) && (Z.lor 128 c =? 128 + c).
Lemma trail_all : allb 6 trail_chk 0 = true. Proof. vm_compute. reflexivity. Qed.
Lemma trail_byte c : 0 <= c < 64 -> Z.land (128 + c) 192 = 128 /\ Z.land (128 + c) 63 = c /\ Z.lor 128 c = 128 + c.
Proof.
  intros B. pose proof (allb0 6 trail_chk trail_all c B) as E. unfold trail_chk in E.
  apply andb_true_iff in E as (E & E3). apply andb_true_iff in E as (E1 & E2). lia.
Qed.

Lemma lor_low a b : 0 <= a -> 0 <= b < 64 -> Z.lor (a * 64) b = a * 64 + b.
Proof.
  intros A B. assert (L0 : Z.land (a * 64) b = 0); [|now rewrite Z.add_nocarry_lxor, Z.lxor_lor by exact L0].
  apply Z.bits_inj_0. intros n. rewrite Z.land_spec. change 64 with (2 ^ 6). rewrite <- Z.shiftl_mul_pow2 by lia.
  destruct (Z_lt_le_dec n 6).
  - destruct (Z_lt_le_dec n 0); [rewrite Z.testbit_neg_r by lia; reflexivity|]. rewrite Z.shiftl_spec_low by lia. reflexivity.
  - rewrite (Z.bits_above_log2 b n); [apply Bool.andb_false_r | lia|].
    destruct (Z.eq_dec b 0) as [->|]; [cbn; lia|]. apply Z.log2_lt_pow2; [lia|]. assert (2 ^ 6 <= 2 ^ n) by (apply Z.pow_le_mono_r; lia). lia.
Qed.

Lemma trail_step d c s : 0 <= d < 2 ^ 26 -> 0 <= c < 64 -> trail d ((128 + c) :: s) = trail (d * 64 + c) s.
Proof.
  intros D C. cbn [trail]. destruct (trail_byte c C) as (-> & -> & _). cbn [Z.eqb Pos.eqb].
  change (128 =? 128) with true. cbv iota. rewrite Z.shiftl_mul_pow2 by lia. change (2 ^ 6) with 64. rewrite Z.mod_small by lia. rewrite lor_low by lia. reflexivity.
Qed.

Lemma get_utf8 c r : char_ok c -> get_char (utf8_of c ++ r) = (Char c, r).
Proof.
  intros (B & Ns). unfold utf8_of.
  destruct (Z.ltb_spec c 128); [cbn; now replace (c <? 128) with true by lia|].
  assert (OK : (c <? 128) || is_surrogate c || (1114112 <=? c) = false) by (unfold is_surrogate; lia).
  destruct (Z.ltb_spec c 2048).
  { cbn [app get_char]. replace (192 + c / 64 <? 128) with false by lia. rewrite (lead_eq _ (c / 64) 1) by lia. cbn [Nat.eqb length Nat.ltb Nat.leb firstn skipn].
    rewrite trail_step by lia. cbn [trail]. replace (c / 64 * 64 + c mod 64) with c by lia. now rewrite OK. }
  destruct (Z.ltb_spec c 65536).
  { cbn [app get_char]. replace (224 + c / 4096 <? 128) with false by lia. rewrite (lead_eq _ (c / 4096) 2) by lia. cbn [Nat.eqb length Nat.ltb Nat.leb firstn skipn].
    rewrite !trail_step by lia. cbn [trail]. replace ((c / 4096 * 64 + c / 64 mod 64) * 64 + c mod 64) with c by lia. now rewrite OK. }
  cbn [app get_char]. replace (240 + c / 262144 <? 128) with false by lia. rewrite (lead_eq _ (c / 262144) 3) by lia. cbn [Nat.eqb length Nat.ltb Nat.leb firstn skipn].
  rewrite !trail_step by lia. cbn [trail]. replace (((c / 262144 * 64 + c / 4096 mod 64) * 64 + c / 64 mod 64) * 64 + c mod 64) with c by lia. now rewrite OK.
Qed.

Definition top_chk (c : Z) : bool :=
  (Z.land c 31 =? c mod 32) && (Z.land c 15 =? c mod 16) && (Z.land c 7 =? c mod 8).
Lemma put_utf8 c : char_ok c -> put_char c = utf8_of c.
Proof.
  intros (B & _). unfold put_char, utf8_of.
  assert (L63 : forall x, 0 <= x -> Z.lor 128 (Z.land x 63) = 128 + x mod 64).
  { intros x X. change 63 with (Z.ones 6). rewrite Z.land_ones by lia. change (2 ^ 6) with 64. apply trail_byte. lia. }
  assert (T : forall base k x, 0 <= k -> 0 <= x < 2 ^ k -> Z.land base (Z.ones k) = 0 -> Z.lor base (Z.land x (Z.ones k)) = base + x).
  { intros base k x K X Z0. rewrite Z.land_ones, Z.mod_small by lia. assert (L0 : Z.land base x = 0); [|now rewrite Z.add_nocarry_lxor, Z.lxor_lor by exact L0].
    replace x with (Z.land x (Z.ones k)) by (rewrite Z.land_ones, Z.mod_small by lia; reflexivity).
    rewrite (Z.land_comm x), Z.land_assoc, Z0. apply Z.land_0_l. }
  rewrite !Z.shiftr_div_pow2 by lia. change (2 ^ 6) with 64. change (2 ^ 12) with 4096. change (2 ^ 18) with 262144.
  destruct (Z.ltb_spec c 128); [reflexivity|]. destruct (Z.ltb_spec c 2048).
  { rewrite L63 by lia. rewrite (T 192 5); [reflexivity | lia | lia | reflexivity]. }
  destruct (Z.ltb_spec c 65536).
  { rewrite !L63 by lia. rewrite (T 224 4); [reflexivity | lia | lia | reflexivity]. }
  rewrite !L63 by lia. rewrite (T 240 3); [reflexivity | lia | lia | reflexivity].
Qed.

Lemma utf8_size c : (1 <= length (utf8_of c) <= 4)%nat.
Proof. unfold utf8_of. destruct (c <? 128), (c <? 2048), (c <? 65536); cbn; lia. Qed.
Lemma put_size c : (1 <= length (put_char c) <= 4)%nat.
Proof. unfold put_char. destruct (c <? 128), (c <? 2048), (c <? 65536); cbn; lia. Qed.
Lemma text_size cs : (length cs <= length (text cs))%nat.
Proof. induction cs as [|c cs IH]; [reflexivity|]. cbn [text flat_map]. rewrite app_length. fold (text cs). pose proof (utf8_size c). cbn [length]. lia. Qed.
Lemma text_app a b : text (a ++ b) = text a ++ text b.
Proof. unfold text. apply flat_map_app. Qed.

(* --- f_gets --- *)

Lemma get_char_less inp g r : get_char inp = (g, r) -> g <> Eof -> (length r < length inp)%nat.
Proof.
  unfold get_char. destruct inp as [|c inp]; [congruence|]. destruct (c <? 128). { intros [= <- <-] _. cbn. lia. }
  destruct (lead c) as (d, k). destruct (Nat.eqb_spec k 0). { intros [= <- <-] _. cbn. lia. }
  destruct (Nat.ltb_spec (length inp) k); [congruence|]. intros Hr _.
  assert (X : r = skipn k inp) by (destruct (trail d (firstn k inp)); [destruct (_ || _ || _)|]; congruence).
  subst. rewrite skipn_length. cbn. lia.
Qed.

(* Any file: f_gets keeps to the buffer, and stops with nothing only at the
   end. *)
Lemma gets_safe size : (5 <= size)%nat -> forall fuel out inp, (length inp < fuel)%nat -> (length out < size)%nat ->
  exists o r, gets fuel size out inp = Ok (o, r) /\ (length o < size)%nat /\ (length r <= length inp)%nat /\
    (out = [] -> o <> [] -> (length r < length inp)%nat).
Proof.
  intros SZ. induction fuel as [|fuel IH]; intros out inp F L; [lia|]. cbn [gets]. cbv zeta.
  destruct (Z.ltb_spec (Z.of_nat (length out)) (Z.of_nat size - 4)) as [G|G].
  2: { replace (length out <? size)%nat with true by lia. eexists _, _. split; [reflexivity|]. split; [lia|]. split; [lia|]. intros ->. cbn in G. lia. }
  destruct (get_char inp) as (g, r) eqn:Eg. destruct g as [| |dc].
  - replace (length out <? size)%nat with true by lia. eexists _, _. split; [reflexivity|]. split; [lia|].
    assert (X : (length r <= length inp)%nat).
    { destruct inp as [|c inp]; cbn [get_char] in Eg; [injection Eg as <-; lia|]. destruct (c <? 128); [discriminate|]. destruct (lead c) as (d, k).
      destruct (k =? 0)%nat; [discriminate|]. destruct (length inp <? k)%nat; [injection Eg as <-; cbn; lia|].
      destruct (trail d (firstn k inp)); [destruct (_ || _ || _)|]; discriminate. }
    split; [exact X|]. intros -> N. contradiction.
  - pose proof (get_char_less _ _ _ Eg ltac:(discriminate)). destruct (IH out r) as (o & r' & E & A & B & C); try lia.
    exists o, r'. split; [exact E|]. split; [exact A|]. split; [lia|]. intros. lia.
  - pose proof (get_char_less _ _ _ Eg ltac:(discriminate)). pose proof (put_size dc).
    assert (LO : length (out ++ put_char dc) = (length out + length (put_char dc))%nat) by apply app_length.
    replace (size <? length (out ++ put_char dc))%nat with false by lia.
    destruct (dc =? 10).
    + replace (length (out ++ put_char dc) <? size)%nat with true by lia. eexists _, _. split; [reflexivity|]. split; [lia|]. split; lia.
    + destruct (IH (out ++ put_char dc) r) as (o & r' & E & A & B & C); try lia. exists o, r'. split; [exact E|]. split; [exact A|]. split; [lia|]. intros. lia.
Qed.

(* Text is read as it is. *)
Lemma gets_text size : (5 <= size)%nat -> forall fuel out cs, Forall char_ok cs -> (length cs < fuel)%nat -> (length out < size)%nat ->
  exists a b, cs = a ++ b /\ gets fuel size out (text cs) = Ok (out ++ text a, text b) /\
    (cs <> [] -> (length out < size - 4)%nat -> a <> []).
Proof.
  intros SZ. induction fuel as [|fuel IH]; intros out cs V F L; [lia|]. cbn [gets]. cbv zeta.
  destruct (Z.ltb_spec (Z.of_nat (length out)) (Z.of_nat size - 4)) as [G|G].
  2: { replace (length out <? size)%nat with true by lia. exists [], cs. rewrite app_nil_r. split; [reflexivity|]. split; [reflexivity|]. lia. }
  destruct cs as [|c cs].
  { cbn [text flat_map get_char]. replace (length out <? size)%nat with true by lia. exists [], []. split; [reflexivity|]. cbn [text flat_map]. rewrite app_nil_r. split; [reflexivity|]. contradiction. }
  inversion V as [|? ? Vc Vs]; subst. cbn [length] in F. cbn [text flat_map]. fold (text cs). rewrite get_utf8 by exact Vc.
  rewrite put_utf8 by exact Vc. pose proof (utf8_size c). 
  assert (LO : length (out ++ utf8_of c) = (length out + length (utf8_of c))%nat) by apply app_length.
  replace (size <? length (out ++ utf8_of c))%nat with false by lia.
  destruct (c =? 10).
  - replace (length (out ++ utf8_of c) <? size)%nat with true by lia. exists [c], cs. cbn [text flat_map]. rewrite app_nil_r. split; [reflexivity|]. split; [reflexivity|]. discriminate.
  - destruct (IH (out ++ utf8_of c) cs) as (a & b & -> & E & _); try lia; auto.
    exists (c :: a), b. split; [reflexivity|]. split; [rewrite E, <- app_assoc; reflexivity|]. discriminate.
Qed.

(* --- cat --- *)

(* need_cr after a text *)
Definition need_after (need : bool) (s : list Z) : bool := fold_left (fun _ c => negb ((c =? 10) || (c =? 13))) s need.
Fixpoint crs (need : bool) (s : list Z) : list Z :=
  match s with [] => [] | c :: s' => (if (c =? 10) && need then [13; 10] else [c]) ++ crs (negb ((c =? 10) || (c =? 13))) s' end.

Lemma puts_crs s : ~ In 0 s -> forall need, puts_with_cr s need = (crs need s, need_after need s).
Proof.
  induction s as [|c s IH]; intros N need; [reflexivity|]. cbn [puts_with_cr crs]. unfold need_after. cbn [fold_left]. fold (need_after (negb ((c =? 10) || (c =? 13))) s).
  replace (c =? 0) with false by (symmetry; apply Z.eqb_neq; intros ->; apply N; now left).
  assert (N' : ~ In 0 s) by (intros I; apply N; now right).
  destruct (Z.eqb_spec c 10) as [->|].
  - destruct need; cbn [andb orb negb]; rewrite IH by exact N'; reflexivity.
  - destruct (Z.eqb_spec c 13) as [->|]; cbn [andb orb negb]; rewrite IH by exact N'; reflexivity.
Qed.
Lemma crs_app a b : forall need, crs need (a ++ b) = crs need a ++ crs (need_after need a) b.
Proof. induction a as [|c a IH]; intros need; [reflexivity|]. cbn [app crs]. rewrite IH, app_assoc. reflexivity. Qed.
Lemma need_app a b need : need_after need (a ++ b) = need_after (need_after need a) b.
Proof. unfold need_after. apply fold_left_app. Qed.

Lemma text_nil cs : text cs = [] <-> cs = [].
Proof. split; [|intros ->; reflexivity]. intros E. destruct cs as [|c cs]; [reflexivity|]. pose proof (text_size (c :: cs)). rewrite E in H. cbn in H. lia. Qed.

Lemma text_no_nul cs : Forall char_ok cs -> ~ In 0 cs -> ~ In 0 (text cs).
Proof.
  intros V N I. apply in_flat_map in I as (c & C & I). rewrite Forall_forall in V. destruct (V c C) as (B & _). unfold utf8_of in I.
  destruct (Z.ltb_spec c 128). { destruct I as [->|[]]. contradiction. }
  destruct (Z.ltb_spec c 2048). { cbn in I. lia. }
  destruct (Z.ltb_spec c 65536); cbn in I; lia.
Qed.

Lemma display_text fuel : forall cs need, Forall char_ok cs -> ~ In 0 cs -> (length cs < fuel)%nat ->
  display fuel need (text cs) = Ok (crs need (text cs) ++ (if need_after need (text cs) then [13; 10] else [])).
Proof.
  induction fuel as [|fuel IH]; intros cs need V N F; [lia|]. cbn [display].
  destruct (gets_text 1024 ltac:(lia) (S (length (text cs))) [] cs V) as (a & b & -> & E & NE); try (cbn; lia).
  { pose proof (text_size cs). lia. }
  rewrite E. cbn [bind app]. apply Forall_app in V as (Va & Vb).
  assert (Na : ~ In 0 a) by (intros I; apply N; apply in_or_app; now left). assert (Nb : ~ In 0 b) by (intros I; apply N; apply in_or_app; now right).
  destruct a as [|x a].
  { destruct b as [|y b]; [|exfalso; apply NE; [discriminate | cbn; lia | reflexivity]]. reflexivity. }
  remember (x :: a) as a0 eqn:Ea. assert (A0 : text a0 <> []) by (rewrite text_nil; subst; discriminate).
  destruct (text a0) as [|t0 ta] eqn:Et; [contradiction|]. rewrite <- Et in *.
  rewrite puts_crs by (now apply text_no_nul). rewrite IH; auto. 2: { rewrite app_length in F. subst a0. cbn [length] in F. lia. }
  cbn [bind]. rewrite text_app, crs_app, need_app, <- app_assoc. reflexivity.
Qed.

Lemma cat_text cs : Forall char_ok cs -> ~ In 0 cs -> cat (text cs) = Ok (crs false (text cs) ++ (if need_after false (text cs) then [13; 10] else [])).
Proof. intros V N. apply display_text; auto. pose proof (text_size cs). lia. Qed.

(* --- relation to the specification --- *)

Fixpoint pieces (need : bool) (s : list Z) : list (list Z) :=
  match s with [] => [] | c :: s' => (if (c =? 10) && need then [13; 10] else [c]) :: pieces (negb ((c =? 10) || (c =? 13))) s' end.
Lemma pieces_concat s : forall need, concat (pieces need s) = crs need s.
Proof. induction s as [|c s IH]; intros need; [reflexivity|]. cbn [pieces concat crs]. now rewrite IH. Qed.
Lemma pieces_length s : forall need, length (pieces need s) = length s.
Proof. induction s as [|c s IH]; intros need; [reflexivity|]. cbn [pieces length]. now rewrite IH. Qed.

Lemma ordinary_b a : negb ((a =? 10) || (a =? 13)) = true <-> ordinary a.
Proof. unfold ordinary. lia. Qed.

Lemma pieces_nth s : forall need i b, nth_error s i = Some b ->
  exists p, nth_error (pieces need s) i = Some p /\
    let after := match i with O => need = true | S j => exists a, nth_error s j = Some a /\ ordinary a end in
    (b = 10 /\ after /\ p = [13; 10] \/ ~ (b = 10 /\ after) /\ p = [b]).
Proof.
  induction s as [|c s IH]; intros need [|i] b H; try discriminate.
  - injection H as ->. cbn [pieces nth_error]. eexists. split; [reflexivity|]. cbv zeta.
    destruct (Z.eqb_spec b 10) as [->|]; destruct need; cbn [andb]; intuition congruence.
  - cbn [nth_error] in H. destruct (IH (negb ((c =? 10) || (c =? 13))) i b H) as (p & E & A). exists p. split; [exact E|]. cbv zeta in *.
    destruct i as [|i].
    + rewrite ordinary_b in A. cbn [nth_error].
      assert (X : (exists a, Some c = Some a /\ ordinary a) <-> ordinary c) by (split; [intros (a & [= ->] & O); exact O | eauto]). rewrite X. exact A.
    + exact A.
Qed.

Lemma need_last s : need_after false s = true <-> exists s' a, s = s' ++ [a] /\ ordinary a.
Proof.
  destruct s as [|c s _] using rev_ind.
  - split; [discriminate|]. intros (s' & a & E & _). destruct s'; discriminate.
  - rewrite need_app. unfold need_after at 1. cbn [fold_left]. rewrite ordinary_b. split; [eauto|]. intros (s' & a & E & O).
    apply app_inj_tail in E as (_ & ->). exact O.
Qed.

Lemma crs_with s : with_cr s (crs false s ++ (if need_after false s then [13; 10] else [])).
Proof.
  exists (pieces false s), (if need_after false s then [13; 10] else []). rewrite pieces_concat, pieces_length. split; [reflexivity|]. split; [reflexivity|]. split.
  - intros i b H. destruct (pieces_nth s false i b H) as (p & E & A). exists p. split; [exact E|]. cbv zeta in A.
    assert (X : (exists j a, i = S j /\ nth_error s j = Some a /\ ordinary a) <-> match i with O => false = true | S j => exists a, nth_error s j = Some a /\ ordinary a end).
    { destruct i as [|i]; split; try discriminate.
      - intros (j & a & E' & _). discriminate.
      - intros (j & a & [= ->] & R). eauto.
      - intros (a & R). eauto. }
    rewrite X. exact A.
  - rewrite <- need_last. destruct (need_after false s); [left | right]; split; auto; discriminate.
Qed.

Theorem cat_ok cs : Forall char_ok cs -> ~ In 0 cs -> exists out, cat (text cs) = Ok out /\ with_cr (text cs) out.
Proof. intros V N. eexists. split; [now apply cat_text | apply crs_with]. Qed.

Lemma nth_error_ext' {A} (a : list A) : forall b, (forall i, nth_error a i = nth_error b i) -> a = b.
Proof.
  induction a as [|x a IH]; intros [|y b] H; auto; try (specialize (H 0%nat); discriminate).
  pose proof (H 0%nat) as [= ->]. f_equal. apply IH. intros i. exact (H (S i)).
Qed.

(* with_cr determines the output *)
Lemma with_cr_fun s a b : with_cr s a -> with_cr s b -> a = b.
Proof.
  intros (pa & la & -> & La & Pa & Ea) (pb & lb & -> & Lb & Pb & Eb). f_equal.
  - f_equal. apply nth_error_ext'. intros i. destruct (nth_error s i) as [c|] eqn:Ei.
    + destruct (Pa i c Ei) as (p & -> & A). destruct (Pb i c Ei) as (q & -> & B). f_equal.
      destruct A as [(A1 & A2 & ->)|(A & ->)], B as [(B1 & B2 & ->)|(B & ->)]; auto; tauto.
    + apply nth_error_None in Ei. rewrite (proj2 (nth_error_None pa i)), (proj2 (nth_error_None pb i)) by lia. reflexivity.
  - destruct Ea as [(A & ->)|(A & ->)], Eb as [(B & ->)|(B & ->)]; auto; tauto.
Qed.

(* --- consequences --- *)

Lemma crs_strip s : forall need, filter (fun c => negb (c =? 13)) (crs need s) = filter (fun c => negb (c =? 13)) s.
Proof.
  induction s as [|c s IH]; intros need; [reflexivity|]. cbn [crs]. rewrite filter_app, IH.
  destruct (Z.eqb_spec c 10) as [->|]; [destruct need; reflexivity|]. cbn [andb]. cbn [filter app]. destruct (negb (c =? 13)); reflexivity.
Qed.

Lemma crs_stairs s : forall need, 
  (forall i a, nth_error (crs need s) i = Some a -> nth_error (crs need s) (S i) = Some 10 -> ~ ordinary a) /\
  (need = true -> nth_error (crs need s) 0 <> Some 10).
Proof.
  induction s as [|c s IH]; intros need; [split; [intros [|i] a H; discriminate | discriminate]|]. cbn [crs].
  destruct (IH (negb ((c =? 10) || (c =? 13)))) as (A & B). unfold ordinary in *.
  assert (X : forall a, nth_error (crs (negb ((c =? 10) || (c =? 13))) s) 0 = Some 10 -> c = a -> ~ (a <> 10 /\ a <> 13)).
  { intros a H <- O. apply B; [lia | exact H]. }
  destruct (Z.eqb_spec c 10) as [->|N]; [destruct need|]; cbn [andb app]; (split; [|discriminate || (intros _ [= ->]; contradiction) || idtac]).
  - intros [|[|i]] a H H'; cbn [nth_error] in *.
    + injection H as <-. lia.
    + injection H as <-. lia.
    + eapply A; eauto.
  - intros [|i] a H H'; cbn [nth_error] in *.
    + injection H as <-. lia.
    + eapply A; eauto.
  - intros [|i] a H H'; cbn [nth_error] in *.
    + injection H as <-. eapply X; eauto.
    + eapply A; eauto.
Qed.

Theorem cat_strip cs out : Forall char_ok cs -> ~ In 0 cs -> cat (text cs) = Ok out ->
  exists e, (e = [] \/ e = [10]) /\ filter (fun c => negb (c =? 13)) out = filter (fun c => negb (c =? 13)) (text cs) ++ e.
Proof.
  intros V N E. rewrite cat_text in E by auto. injection E as <-. rewrite filter_app, crs_strip. eexists. split; [|reflexivity].
  destruct (need_after false (text cs)); cbn; auto.
Qed.

Lemma last_ordinary s : forall need x, crs need s <> [] -> last (crs need s) x = last s x.
Proof.
  intros need x N. destruct s as [|c s _] using rev_ind; [contradiction|]. rewrite crs_app. cbn [crs]. rewrite app_nil_r, last_last.
  destruct (Z.eqb_spec c 10) as [->|]; [destruct (need_after need s)|]; cbn [andb].
  - change [13; 10] with ([13] ++ [10]). rewrite app_assoc. apply last_last.
  - apply last_last.
  - apply last_last.
Qed.

Theorem cat_stairs cs out : Forall char_ok cs -> ~ In 0 cs -> cat (text cs) = Ok out -> no_staircase (out ++ [10]).
Proof.
  intros V N E. rewrite cat_text in E by auto. injection E as <-. unfold no_staircase. set (s := text cs). clearbody s.
  destruct (crs_stairs s false) as (A & _). destruct (need_after false s) eqn:Nd.
  - intros i a. rewrite <- app_assoc. cbn [app]. intros H H'.
    destruct (Nat.lt_ge_cases (S i) (length (crs false s))) as [L|L].
    + rewrite nth_error_app1 in H, H' by lia. eapply A; eauto.
    + rewrite nth_error_app2 in H' by lia.
      destruct (S i - length (crs false s))%nat as [|[|[|k]]] eqn:K; cbn [nth_error] in H'; try (destruct k; discriminate).
      * discriminate.
      * rewrite nth_error_app2 in H by lia. replace (i - length (crs false s))%nat with 0%nat in H by lia. injection H as <-. unfold ordinary. lia.
      * rewrite nth_error_app2 in H by lia. replace (i - length (crs false s))%nat with 1%nat in H by lia. injection H as <-. unfold ordinary. lia.
  - rewrite app_nil_r. intros i a H H'.
    destruct (Nat.lt_ge_cases (S i) (length (crs false s))) as [L|L].
    + rewrite nth_error_app1 in H, H' by lia. eapply A; eauto.
    + assert (E : S i = length (crs false s)).
      { assert (X : (S i < length (crs false s ++ [10%Z]))%nat) by (apply nth_error_Some; rewrite H'; discriminate). rewrite app_length in X. cbn in X. lia. }
      rewrite nth_error_app1 in H by lia. intros O.
      assert (T : crs false s <> []) by (destruct (crs false s); [cbn in E; lia | discriminate]).
      pose proof (last_ordinary s false 0 T) as LE.
      destruct s as [|c s0 _] using rev_ind; [cbn in T; contradiction|]. rewrite last_last in LE.
      assert (X : last (crs false (s0 ++ [c])) 0 = a).
      { destruct (exists_last T) as (q & z & Q). rewrite Q in *. rewrite last_last. rewrite app_length in E. cbn in E.
        rewrite nth_error_app2 in H by lia. replace (i - length q)%nat with 0%nat in H by lia. now injection H. }
      assert (Y : need_after false (s0 ++ [c]) = true) by (apply need_last; exists s0, c; split; [reflexivity | congruence]). congruence.
Qed.

(* Any file at all. *)
Lemma display_safe fuel : forall inp need, (length inp < fuel)%nat -> exists out, display fuel need inp = Ok out.
Proof.
  induction fuel as [|fuel IH]; intros inp need F; [lia|]. cbn [display].
  destruct (gets_safe 1024 ltac:(lia) (S (length inp)) [] inp) as (o & r & -> & _ & L & N); try (cbn; lia). cbn [bind].
  destruct o as [|x o]; [eauto|]. specialize (N eq_refl ltac:(discriminate)). destruct (puts_with_cr (x :: o) need) as (s, need').
  destruct (IH r need') as (out & ->); [lia|]. cbn [bind]. eauto.
Qed.
Theorem cat_safe file : exists out, cat file = Ok out.
Proof. apply display_safe. lia. Qed.

Theorem cat_nul : exists a b out, ~ In b [0; 10; 13] /\ cat (a ++ [0; b; 10]) = Ok out /\ ~ In b out.
Proof. exists [97], 98, [97; 13; 10]. split; [cbn; lia|]. split; [vm_compute; reflexivity | cbn; lia]. Qed.
(* Latin-1: "\xe9\nab\n" *)
Theorem cat_latin1 : exists out, cat [233; 10; 97; 98; 10] = Ok out /\ ~ In 97 out.
Proof. exists [98; 13; 10]. split; [vm_compute; reflexivity | cbn; lia]. Qed.
(* A blank line. *)
Theorem cat_blank : exists out, cat [97; 10; 10; 98; 10] = Ok out /\ out = [97; 13; 10; 10; 98; 13; 10].
Proof. eexists. split; [vm_compute; reflexivity | reflexivity]. Qed.
