From Coq Require Import Permutation Sorted String.
From Verif Require Import Base Arr ArrLemmas DotwModel ExecModel DirModel DirSpec DirProof DirProof2.
Open Scope Z_scope.
Ltac Zify.zify_post_hook ::= Z.div_mod_to_equations.

(* --- attributes --- *)

Lemma has_bit a k : 0 <= k -> has a (2 ^ k) = Z.testbit a k.
Proof.
  intros K. unfold has. destruct (Z.testbit a k) eqn:T.
  - apply Bool.negb_true_iff. apply Z.eqb_neq. intros E. assert (H : Z.testbit (Z.land a (2 ^ k)) k = true).
    { rewrite Z.land_spec, T, Z.pow2_bits_true by lia. reflexivity. }
    rewrite E, Z.bits_0 in H. discriminate.
  - apply Bool.negb_false_iff. apply Z.eqb_eq. apply Z.bits_inj_0. intros n. rewrite Z.land_spec.
    destruct (Z.eq_dec n k) as [->|N]; [now rewrite T|]. rewrite Z.pow2_bits_false by auto. apply Bool.andb_false_r.
Qed.
Lemma has_dir a : has a AM_DIR = Z.testbit a 4. Proof. exact (has_bit a 4 ltac:(lia)). Qed.
Lemma has_hid a : has a AM_HID = Z.testbit a 1. Proof. exact (has_bit a 1 ltac:(lia)). Qed.

Lemma attrib_ok a : print_attrib a = attrib_text a.
Proof.
  unfold print_attrib, attrib_text. cbn [map fst snd].
  rewrite <- (has_bit a 5), <- (has_bit a 4), <- (has_bit a 2), <- (has_bit a 1), <- (has_bit a 0) by lia. reflexivity.
Qed.

Lemma filename_ok o i : print_filename o i = (shown o i, chars o i).
Proof.
  unfold print_filename, shown, chars, slash, print_type. rewrite has_dir.
  destruct (o_type o), (Z.testbit (i_attrib i) 4); cbn [andb]; rewrite ?app_nil_r; f_equal; cbn [length]; lia.
Qed.

Lemma printable_ok o i : printable o i = true <-> visible o i.
Proof.
  unfold printable, visible, hidden, directory. rewrite has_dir, has_hid.
  destruct (Z.testbit _ 1), (Z.testbit _ 4), (o_showhidden o), (o_toplevel o); cbn; intuition discriminate.
Qed.

Lemma filter_sorted o p l : StronglySorted (le o) l -> StronglySorted (le o) (filter p l).
Proof.
  induction 1 as [|x l S IH F]; cbn; [constructor|]. destruct (p x); [|exact IH]. constructor; [exact IH|].
  rewrite Forall_forall in *. intros y Y. apply filter_In in Y. apply F, Y.
Qed.

Lemma filter_split {A} (p : A -> bool) l : Permutation l (filter p l ++ filter (fun x => negb (p x)) l).
Proof.
  induction l as [|x l IH]; [constructor|]. cbn. destruct (p x); cbn.
  - now constructor.
  - rewrite <- Permutation_middle. now constructor.
Qed.

Lemma listing_ok o l : Forall (date_ok o) l ->
  exists l', sort (S (length l)) o l = Ok l' /\ Permutation l l' /\ listing o l (filter (printable o) l').
Proof.
  intros D. destruct (sort_ok o (S (length l)) l) as (l' & E & P & S); auto. exists l'. split; [exact E|]. split; [exact P|].
  split. { apply sorted_iff. now apply filter_sorted. }
  exists (filter (fun x => negb (printable o x)) l'). split; [|split].
  - rewrite P. apply filter_split.
  - apply Forall_forall. intros i I. apply filter_In in I. apply printable_ok, I.
  - apply Forall_forall. intros i I. apply filter_In in I as (_ & I). rewrite <- printable_ok. intros V. rewrite V in I. discriminate.
Qed.

Lemma listing_nil o l : listing o l [] <-> Forall (fun i => ~ visible o i) l.
Proof.
  split.
  - intros (_ & rest & P & _ & F). cbn in P. rewrite P. exact F.
  - intros F. split; [intros [|i] j x y _ A; discriminate|]. exists l. cbn. auto.
Qed.

(* --- maxima --- *)

Lemma fold_max f l : forall m, let r := fold_left (fun m (i : item) => Z.max m (f i)) l m in
  m <= r /\ (forall i, In i l -> f i <= r) /\ (r = m \/ exists i, In i l /\ f i = r).
Proof.
  induction l as [|x l IH]; intros m; cbn [fold_left]; cbv zeta.
  - split; [lia|]. split; [intros i []|]. now left.
  - destruct (IH (Z.max m (f x))) as (A & B & C). split; [lia|]. split.
    + intros i [<-|I]; [lia | now apply B].
    + destruct C as [C|(i & I & C)]; [|right; exists i; split; [now right | exact C]].
      destruct (Z.max_spec m (f x)) as [(L & M)|(L & M)]; [right; exists x; split; [now left|lia] | left; lia].
Qed.

Lemma maxlen_ok l : l <> [] -> Forall item_ok l -> widest l (maxlen_of l).
Proof.
  intros N F. unfold maxlen_of. destruct (fold_max i_namelen l 0) as (A & B & C). split; [exact B|].
  destruct C as [C|C]; [|exact C]. destruct l as [|x l]; [contradiction|]. exists x. split; [now left|].
  inversion F as [|? ? (_ & _ & X) _]; subst. specialize (B x (or_introl eq_refl)). lia.
Qed.
Lemma maxsize_ok l : l <> [] -> Forall item_ok l -> (forall i, In i l -> i_nbytes i <= maxsize_of l) /\ (exists i, In i l /\ i_nbytes i = maxsize_of l).
Proof.
  intros N F. unfold maxsize_of. destruct (fold_max i_nbytes l 0) as (A & B & C). split; [exact B|].
  destruct C as [C|C]; [|exact C]. destruct l as [|x l]; [contradiction|]. exists x. split; [now left|].
  inversion F as [|? ? (X & _) _]; subst. specialize (B x (or_introl eq_refl)). lia.
Qed.
Lemma widest_fun l m m' : widest l m -> widest l m' -> m = m'.
Proof. intros (A & i & I & E) (B & j & J & E'). apply A in J. apply B in I. lia. Qed.

Lemma kilobytes_nonneg l : Forall item_ok l -> 0 <= kilobytes l.
Proof. induction 1 as [|x l (X & _) F IH]; cbn [kilobytes fold_right]; [lia|]. fold (kilobytes l). lia. Qed.

Lemma kbytes_ok l : Forall item_ok l -> forall s, 0 <= s -> s + kilobytes l < 2 ^ 64 ->
  fold_left (fun s i => (s + (i_nbytes i + 1023) mod 2 ^ 64 / 1024) mod 2 ^ 64) l s = s + kilobytes l.
Proof.
  induction 1 as [|x l (X & _) F IH]; intros s S L; cbn [kilobytes fold_right fold_left] in *; [lia|]. fold (kilobytes l) in *.
  pose proof (kilobytes_nonneg l F). rewrite (Z.mod_small (i_nbytes x + 1023)) by lia. rewrite Z.mod_small by lia. rewrite IH by lia. lia.
Qed.

Lemma total_ok o l : Forall item_ok l -> kilobytes l < 2 ^ 64 -> o_longform o = true -> total_line o l (print_total o (kbytes_of l)).
Proof.
  intros F B L. unfold total_line, print_total. rewrite L, Bool.andb_true_r. destruct (o_toplevel o); cbn [negb]; [reflexivity|].
  pose proof (kilobytes_nonneg l F). unfold kbytes_of. rewrite kbytes_ok by (auto; lia). exists (digits (kilobytes l)). split; [apply digits_number; lia | reflexivity].
Qed.

(* --- columns --- *)

Fixpoint row_of (n R : nat) (arr : list item) (base : nat) : list item :=
  match n with O => [] | S k => match nth_error arr base with Some i => i :: row_of k R arr (base + R) | None => [] end end.

Lemma row_of_nth n R arr : (0 < R)%nat -> forall base, (length arr <= base + n * R)%nat -> forall c, nth_error (row_of n R arr base) c = nth_error arr (c * R + base).
Proof.
  intros HR. induction n as [|n IH]; intros base L c.
  - cbn [row_of]. rewrite (proj2 (nth_error_None arr (c * R + base))) by lia. now destruct c.
  - cbn [row_of]. destruct (nth_error arr base) as [i|] eqn:E.
    + destruct c as [|c]; cbn [nth_error].
      * rewrite Nat.mul_0_l, Nat.add_0_l, E. reflexivity.
      * rewrite IH by lia. f_equal. lia.
    + apply nth_error_None in E. rewrite (proj2 (nth_error_None arr (c * R + base))) by nia. now destruct c.
Qed.

Lemma row_of_ne n R arr base : (0 < n)%nat -> (base < length arr)%nat -> row_of n R arr base <> [].
Proof. intros N B. destruct n; [lia|]. cbn [row_of]. apply nth_error_Some in B. destruct (nth_error arr base); [discriminate|contradiction]. Qed.

Lemma row_of_end n R arr base : (length arr <= base)%nat -> row_of n R arr base = [].
Proof. intros B. destruct n; [reflexivity|]. cbn [row_of]. apply nth_error_None in B. now rewrite B. Qed.

Lemma print_row_ok o arr R w : (0 < R)%nat -> (forall i, In i arr -> chars o i <= w) ->
  forall n base count endcol, (base < length arr)%nat -> (length arr <= base + n * R)%nat -> endcol = count + w ->
  print_row n o arr R base w count endcol = Ok (line o w (row_of n R arr base)).
Proof.
  intros HR W. induction n as [|n IH]; intros base count endcol B L E; [lia|].
  cbn [print_row row_of]. destruct (nth_error arr base) as [i|] eqn:N; [|apply nth_error_None in N; lia]. cbn [bind].
  rewrite filename_ok. pose proof (W i (nth_error_In _ _ N)) as Wi.
  destruct (Nat.leb_spec (length arr) (base + R)) as [G|G].
  - rewrite row_of_end by exact G. reflexivity.
  - assert (NZ : (0 < n)%nat) by (destruct n; lia).
    rewrite IH by lia. cbn [bind]. pose proof (row_of_ne n R arr (base + R) NZ G) as NE.
    cbn [line]. destruct (row_of n R arr (base + R)) as [|j r] eqn:Er; [contradiction|].
    replace (Z.to_nat (endcol - (count + chars o i))) with (Z.to_nat (w - chars o i)) by lia. reflexivity.
Qed.

Lemma row_of_length n R arr : forall base, (length (row_of n R arr base) <= n)%nat.
Proof. induction n as [|n IH]; intros base; [cbn; lia|]. cbn [row_of]. destruct (nth_error arr base); cbn [length]; [specialize (IH (base + R)%nat)|]; lia. Qed.
Lemma row_of_in n R arr : forall base i, In i (row_of n R arr base) -> In i arr.
Proof.
  induction n as [|n IH]; intros base i; [intros []|]. cbn [row_of]. destruct (nth_error arr base) eqn:E; [|intros []].
  intros [<-|I]; [now apply nth_error_In in E | eauto].
Qed.

Lemma print_rows_ok o arr R C w : (0 < R)%nat -> (0 < C)%nat -> (R <= length arr)%nat -> (length arr <= C * R)%nat -> (forall i, In i arr -> chars o i <= w) ->
  forall n row, (row + n = R)%nat ->
  print_rows n row o arr C R w = Ok (concat (map (fun r => line o w r ++ [13; 10]) (map (row_of C R arr) (seq row n)))).
Proof.
  intros HR HC L1 L2 W. induction n as [|n IH]; intros row E; [reflexivity|]. cbn [print_rows].
  rewrite print_row_ok by (auto; lia). cbn [bind]. rewrite IH by lia. cbn [bind]. cbn [seq map concat]. unfold crlf. rewrite <- app_assoc. reflexivity.
Qed.

Lemma nth_error_seq' n : forall s k, (k < n)%nat -> nth_error (seq s n) k = Some (s + k)%nat.
Proof. induction n as [|n IH]; intros s [|k] L; try lia; cbn [seq nth_error]; [f_equal; lia|]. rewrite IH by lia. f_equal. lia. Qed.

Lemma line_chars_ok o w row C : row <> [] -> (length row <= C)%nat -> 0 <= w -> (forall i, In i row -> chars o i <= w) -> line_chars o w row <= w * Z.of_nat C.
Proof.
  intros N L Hw W. unfold line_chars. destruct (rev row) as [|i r] eqn:E.
  { nia. }
  assert (In i row) by (apply in_rev; rewrite E; now left).
  assert (length row = S (length r)) by (rewrite <- (rev_length row), E; reflexivity).
  apply W in H. nia.
Qed.

Lemma chars_le o l m i : widest l m -> In i l -> chars o i <= m + (if o_type o then 1 else 0).
Proof.
  intros (A & _) I. apply A in I. unfold chars, slash. destruct (o_type o); cbn [andb]; [|cbn; lia].
  destruct (Z.testbit _ 4); cbn [length]; lia.
Qed.

Lemma columns_ok o arr m k : arr <> [] -> Forall item_ok arr -> widest arr m -> o_longform o = false -> 0 <= o_termwidth o < 2 ^ 31 ->
  exists out, print_columnized o arr (maxlen_of arr) k = Ok out /\
    let w := m + (if o_type o then 1 else 0) + 2 in
    if 2 * w <=? o_termwidth o then columns_text o arr w out
    else out = concat (map (fun i => shown o i ++ [13; 10]) arr).
Proof.
  intros NE F M LF TW. unfold print_columnized. rewrite (widest_fun _ _ _ (maxlen_ok arr NE F) M).
  assert (Mb : 0 <= m < 2 ^ 16) by (destruct M as (_ & i & I & <-); rewrite Forall_forall in F; apply F in I; apply I).
  set (w := m + (if o_type o then 1 else 0) + 2). cbv zeta.
  replace ((if o_type o then m + 1 else m) + 2) with w by (subst w; destruct (o_type o); lia).
  assert (wb : 0 < w < 2 ^ 17) by (subst w; destruct (o_type o); lia).
  rewrite (Z.mod_small w), (Z.mod_small (2 * w)) by lia.
  destruct (Z.ltb_spec (o_termwidth o) (2 * w)) as [H|H].
  { eexists. split; [reflexivity|]. replace (2 * w <=? o_termwidth o) with false by lia.
    unfold print_single_column. rewrite flat_map_concat_map. f_equal. apply map_ext. intros i. rewrite filename_ok. reflexivity. }
  replace (w =? 0) with false by lia. replace (2 * w <=? o_termwidth o) with true by lia.
  set (C := Z.to_nat (o_termwidth o / w)).
  set (R := (length arr / C + (if length arr mod C =? 0 then 0 else 1))%nat).
  assert (HC : (0 < C)%nat). { subst C. assert (2 <= o_termwidth o / w) by (apply Z.div_le_lower_bound; lia). lia. }
  assert (LA : (0 < length arr)%nat) by (destruct arr; [contradiction | cbn; lia]).
  pose proof (Nat.div_mod (length arr) C ltac:(lia)) as DM. pose proof (Nat.mod_upper_bound (length arr) C ltac:(lia)) as MU.
  assert (RR : (length arr <= C * R /\ C * R < length arr + C /\ 0 < R)%nat).
  { subst R. destruct (Nat.eqb_spec (length arr mod C) 0) as [Z0|Z0]; set (q := (length arr / C)%nat) in *; nia. }
  destruct RR as (R1 & R2 & R0).
  rewrite (print_rows_ok o arr R C w) with (n := R); auto; try nia.
  2: { intros i I. pose proof (chars_le o arr m i M I). subst w. lia. }
  cbn [bind]. eexists. split; [reflexivity|]. exists (map (row_of C R arr) (seq 0 R)).
  split; [|split; [|split]].
  - split.
    + intros E. apply (f_equal (@length _)) in E. rewrite map_length, seq_length in E. cbn in E. lia.
    + intros r row E c. rewrite map_length, seq_length.
      assert (Lr : (r < R)%nat). { assert (X : nth_error (map (row_of C R arr) (seq 0 R)) r <> None) by (rewrite E; discriminate). apply nth_error_Some in X. now rewrite map_length, seq_length in X. }
      rewrite (map_nth_error _ _ _ (nth_error_seq' R 0 r Lr)) in E. injection E as <-. cbn [Nat.add]. apply row_of_nth; auto. lia.
  - unfold print_total. rewrite LF, Bool.andb_false_r. reflexivity.
  - apply Forall_forall. intros row I. apply in_map_iff in I as (r & <- & I). apply in_seq in I.
    eapply Z.le_trans; [apply (line_chars_ok o w _ C)|].
    + apply row_of_ne; nia.
    + apply row_of_length.
    + lia.
    + intros i J. apply row_of_in in J. pose proof (chars_le o arr m i M J). subst w. lia.
    + subst C. rewrite Z2Nat.id by lia. lia.
  - rewrite map_length, seq_length. assert (CZ : o_termwidth o / w = Z.of_nat C) by (subst C; rewrite Z2Nat.id by lia; reflexivity). rewrite CZ. nia.
Qed.

(* --- long form --- *)

Lemma len12 n : 0 <= n < 100 -> length (digits n) = (if n <? 10 then 1%nat else 2%nat).
Proof.
  intros B. destruct (Z.ltb_spec n 10); [rewrite digits_small by lia; reflexivity|].
  replace n with (10 * (n / 10) + n mod 10) by lia. rewrite digits_step by lia. rewrite digits_small by lia. reflexivity.
Qed.
Lemma len4 n : 1000 <= n < 10000 -> length (digits n) = 4%nat.
Proof.
  intros B. replace n with (1000 * (n / 1000) + n mod 1000) by lia. rewrite digits_1000 by lia. rewrite digits_small by lia. reflexivity.
Qed.
Lemma pad_eq c w s : 0 <= w -> pad_left c w s = right_adjusted c w s.
Proof. intros W. unfold pad_left, right_adjusted. f_equal. f_equal. lia. Qed.

Lemma time_ok t : 0 <= t < 2 ^ 32 -> date_text t (print_time t).
Proof.
  intros B. unfold date_text, print_time. cbv zeta.
  set (mi := t / 2 ^ 5 mod 2 ^ 6). set (h := t / 2 ^ 11 mod 2 ^ 5). set (d := t / 2 ^ 16 mod 2 ^ 5). set (mo := t / 2 ^ 21 mod 2 ^ 4).
  set (y := t / 2 ^ 25 mod 2 ^ 7).
  assert (Bm : 0 <= mi < 64) by (apply Z.mod_pos_bound; lia). assert (Bh : 0 <= h < 32) by (apply Z.mod_pos_bound; lia).
  assert (Bd : 0 <= d < 32) by (apply Z.mod_pos_bound; lia). assert (Bo : 0 <= mo < 16) by (apply Z.mod_pos_bound; lia).
  assert (By : 0 <= y < 128) by (apply Z.mod_pos_bound; lia).
  exists (y + 1980), mo, d, h, mi, (t mod 32), (digits (y + 1980)), (digits mo), (digits d), (digits h), (digits mi).
  repeat (split; [first [lia | apply digits_number; lia] |]).
  split. { unfold stamp. subst mi h d mo y. lia. }
  repeat (split; [apply digits_number; lia|]).
  rewrite !pad_eq by lia. unfold left_adjusted. rewrite !app_length, len4, !len12 by lia. cbn [length].
  unfold right_adjusted at 1. rewrite len4 by lia. change (Z.to_nat 4 - 4)%nat with 0%nat. change (Z.to_nat 11) with 11%nat. cbn [repeat app].
  destruct (mo <? 10), (d <? 10); cbn [Nat.add Nat.sub repeat app]; repeat (rewrite <- ?app_assoc; cbn [app]); reflexivity.
Qed.

Lemma fmt_right w s : Z.of_nat (length s) <= w < 2 ^ 31 -> fmt_width w s = right_adjusted 32 w s.
Proof.
  intros B. replace w with (wrap32 w) at 1 by (apply Z.mod_small; lia). rewrite fmt_ok by lia. unfold right_adjusted. f_equal. f_equal. lia.
Qed.

Lemma size_len_mono a b sa sb : 0 <= a <= b -> b < 2 ^ 64 -> grouped a sa -> grouped b sb -> (length sa <= length sb)%nat.
Proof.
  intros B L (da & (Na & Ea)) (db & (Nb & Eb)).
  rewrite (number_unique da (digits a) a Na (digits_number a ltac:(lia))) in Ea. rewrite (number_unique db (digits b) b Nb (digits_number b ltac:(lia))) in Eb.
  subst. rewrite !rev_length.
  assert (G : forall r s : list Z, (length r <= length s)%nat -> (length (commas r) <= length (commas s))%nat).
  { clear. assert (G : forall n (r s : list Z), (length s <= n)%nat -> (length r <= length s)%nat -> (length (commas r) <= length (commas s))%nat).
    { induction n as [|n IH]; intros r s L1 L2.
      - destruct s; [|cbn in L1; lia]. destruct r; [|cbn in L2; lia]. reflexivity.
      - destruct s as [|x [|y [|z [|u s]]]], r as [|x' [|y' [|z' [|u' r]]]]; cbn [length] in *; try lia; try (cbn; lia).
        change (commas (x' :: y' :: z' :: u' :: r)) with (x' :: y' :: z' :: 44 :: commas (u' :: r)).
        change (commas (x :: y :: z :: u :: s)) with (x :: y :: z :: 44 :: commas (u :: s)). cbn [length].
        assert (length (commas (u' :: r)) <= length (commas (u :: s)))%nat by (apply IH; cbn [length]; lia). lia. }
    intros. apply (G (length s)); auto. }
  apply G. rewrite !rev_length.
  assert (D : forall k x y, 0 <= x <= y -> (length (digits_loop k x []) <= length (digits_loop k y []))%nat).
  { clear. induction k as [|k IH]; intros x y B; [reflexivity|]. cbn [digits_loop]. cbv zeta.
    destruct (Z.eqb_spec (x / 10) 0), (Z.eqb_spec (y / 10) 0); try lia; rewrite ?(dl_acc k (x / 10) [_]), ?(dl_acc k (y / 10) [_]), ?app_length; cbn [length].
    - reflexivity.
    - lia.
    - specialize (IH (x / 10) (y / 10)). lia. }
  apply D. lia.
Qed.

Lemma long_ok o w i : item_ok i -> (exists b sb, i_nbytes i <= b < 2 ^ 64 /\ grouped b sb /\ w = Z.of_nat (length sb)) ->
  exists s, long_line o w i = Ok s /\ long_text o w i s.
Proof.
  intros (N & T & _) (b & sb & Bb & Gb & ->). unfold long_line. rewrite has_dir.
  assert (LB : 1 <= Z.of_nat (length sb) < 2 ^ 31).
  { destruct (size_text b ltac:(lia)) as (s & (ds & Ns & Es) & _). destruct Gb as (db & Nb & ->).
    rewrite (number_unique db (digits b) b Nb (digits_number b ltac:(lia))).
    assert (X : forall k : nat, forall n, (length (digits_loop k n []) <= k)%nat).
    { clear. induction k as [|k IH]; intros n; [reflexivity|]. cbn [digits_loop]. cbv zeta. destruct (n / 10 =? 0); [cbn; lia|]. rewrite (dl_acc k _ [_]), app_length. specialize (IH (n / 10)). cbn [length]. lia. }
    specialize (X 20%nat b). fold (digits b) in X. pose proof (digits_ne 19 b) as Y. fold (digits b) in Y.
    assert (CL : forall r : list Z, (length r <= length (commas r) <= 2 * length r)%nat).
    { clear. assert (G : forall n r, (length r <= n -> length r <= length (commas r) <= 2 * length r)%nat).
      { induction n as [|n IH]; intros r L; [destruct r; cbn in *; lia|]. destruct r as [|x [|y [|z [|u r]]]]; cbn [length] in *; try (cbn; lia).
        change (commas (x :: y :: z :: u :: r)) with (x :: y :: z :: 44 :: commas (u :: r)). cbn [length]. specialize (IH (u :: r)). cbn [length] in IH. lia. }
      intros r. now apply (G (length r)). }
    specialize (CL (rev (digits b))). rewrite rev_length in *. destruct (digits b); [contradiction|]. cbn [length] in *. lia. }
  assert (S0 : (if o_type o then print_type i else []) = slash o i).
  { unfold slash, print_type. rewrite has_dir. now destruct (o_type o), (Z.testbit _ 4). }
  rewrite S0, attrib_ok.
  destruct (Z.testbit (i_attrib i) 4) eqn:D.
  - cbn [bind]. eexists. split; [reflexivity|]. exists [45], (print_time (i_mtime i)). rewrite D.
    split; [now apply time_ok|]. split; [reflexivity|]. split; [cbn; lia|].
    rewrite fmt_right by (cbn [length]; lia). unfold shown, crlf. rewrite <- !app_assoc. reflexivity.
  - destruct (size_text (i_nbytes i) ltac:(lia)) as (s & G & _ & P).
    assert (LE : (length s <= length sb)%nat) by (apply (size_len_mono (i_nbytes i) b); auto; lia).
    rewrite P by lia. cbn [bind]. eexists. split; [reflexivity|]. exists s, (print_time (i_mtime i)). rewrite D.
    split; [now apply time_ok|]. split; [exact G|]. split; [lia|].
    unfold right_adjusted, shown, crlf. rewrite Nat2Z.id. rewrite <- !app_assoc. do 3 f_equal. f_equal. lia.
Qed.

Lemma map_res_ok {A B} (f : A -> res B) (Q : A -> B -> Prop) l : (forall x, In x l -> exists y, f x = Ok y /\ Q x y) ->
  exists ys, map_res f l = Ok ys /\ Forall2 Q l ys.
Proof.
  induction l as [|x l IH]; intros H; [exists []; split; [reflexivity|constructor]|].
  destruct (H x (or_introl eq_refl)) as (y & E & Qy). destruct IH as (ys & Es & F). { intros z Z. apply H. now right. }
  exists (y :: ys). cbn [map_res]. rewrite E. cbn [bind]. rewrite Es. cbn [bind]. split; [reflexivity|]. now constructor.
Qed.

Lemma print_long_ok o arr : arr <> [] -> Forall item_ok arr -> kilobytes arr < 2 ^ 64 -> o_longform o = true ->
  exists out w tl lines, print_long o arr (kbytes_of arr) (maxsize_of arr) = Ok out /\
    size_width arr w /\ total_line o arr tl /\ Forall2 (long_text o w) arr lines /\ out = tl ++ concat lines.
Proof.
  intros NE F K L. destruct (maxsize_ok arr NE F) as (A & i & I & E).
  assert (Bi : 0 <= i_nbytes i < 2 ^ 64) by (rewrite Forall_forall in F; apply F in I as (X & _); lia).
  destruct (size_text (i_nbytes i) Bi) as (s & G & SL & _).
  unfold print_long. rewrite <- E, SL. cbn [bind].
  destruct (map_res_ok (long_line o (Z.of_nat (length s))) (long_text o (Z.of_nat (length s))) arr) as (ls & El & Fl).
  { intros x X. apply long_ok; [rewrite Forall_forall in F; now apply F|]. exists (i_nbytes i), s. split; [|auto]. split; [|lia]. rewrite E. now apply A. }
  rewrite El. cbn [bind]. eexists _, _, _, ls. split; [reflexivity|]. split; [|split; [|split; [exact Fl | reflexivity]]].
  - exists i, s. split; [exact I|]. split; [|auto]. intros j J. rewrite E. now apply A.
  - now apply total_ok.
Qed.

(* --- whole listings --- *)

Lemma show_ok o l : Forall item_ok l -> Forall (date_ok o) l ->
  exists arr, listing o l arr /\ Forall item_ok arr /\
  show_files o l = match arr with
    | [] => Ok ([], false)
    | _ => r <- (if o_singlecol o then Ok (print_single_column o arr)
            else if o_longform o then print_long o arr (kbytes_of arr) (maxsize_of arr)
            else print_columnized o arr (maxlen_of arr) (kbytes_of arr)) ;; Ok (r, true) end.
Proof.
  intros F D. destruct (listing_ok o l D) as (l' & E & P & L). exists (filter (printable o) l'). split; [exact L|].
  split. { apply Forall_forall. intros i I. apply filter_In in I as (I & _). rewrite Forall_forall in F. apply F. now rewrite P. }
  unfold show_files. rewrite E. cbn [bind]. destruct (filter (printable o) l'); reflexivity.
Qed.

Lemma single_ok o arr : print_single_column o arr = concat (map (fun i => shown o i ++ [13; 10]) arr).
Proof. unfold print_single_column. rewrite flat_map_concat_map. f_equal. apply map_ext. intros i. rewrite filename_ok. reflexivity. Qed.

Theorem show_nothing o l : Forall item_ok l -> Forall (date_ok o) l -> Forall (fun i => ~ visible o i) l -> show_files o l = Ok ([], false).
Proof.
  intros F D V. destruct (show_ok o l F D) as (arr & (S & rest & P & Va & _) & _ & E).
  destruct arr as [|i arr]; [exact E|]. exfalso. inversion Va; subst. rewrite Forall_forall in V. apply (V i); auto. rewrite P. now left.
Qed.

Lemma some_visible o l arr : Exists (visible o) l -> listing o l arr -> arr <> [].
Proof. intros X L ->. apply listing_nil in L. apply Exists_exists in X as (i & I & V). rewrite Forall_forall in L. now apply (L i). Qed.

Theorem show_single o l : Forall item_ok l -> Forall (date_ok o) l -> Exists (visible o) l -> o_singlecol o = true ->
  exists arr, listing o l arr /\ show_files o l = Ok (concat (map (fun i => shown o i ++ [13; 10]) arr), true).
Proof.
  intros F D X Sc. destruct (show_ok o l F D) as (arr & L & _ & E). exists arr. split; [exact L|]. rewrite E, Sc.
  pose proof (some_visible _ _ _ X L). destruct arr; [contradiction|]. cbn [bind]. now rewrite single_ok.
Qed.

Theorem show_columns o l : Forall item_ok l -> Forall (date_ok o) l -> Exists (visible o) l -> o_singlecol o = false -> o_longform o = false -> 0 <= o_termwidth o < 2 ^ 31 ->
  exists arr m out, listing o l arr /\ widest arr m /\ show_files o l = Ok (out, true) /\
    let w := m + (if o_type o then 1 else 0) + 2 in
    if 2 * w <=? o_termwidth o then columns_text o arr w out
    else out = concat (map (fun i => shown o i ++ [13; 10]) arr).
Proof.
  intros F D X Sc Lf T. destruct (show_ok o l F D) as (arr & L & Fa & E). pose proof (some_visible _ _ _ X L) as NE.
  pose proof (maxlen_ok arr NE Fa) as M. destruct (columns_ok o arr _ (kbytes_of arr) NE Fa M Lf T) as (out & Eo & Ho).
  exists arr, (maxlen_of arr), out. split; [exact L|]. split; [exact M|]. split; [|exact Ho].
  rewrite E, Sc, Lf, Eo. destruct arr; [contradiction|reflexivity].
Qed.

Theorem show_long o l : Forall item_ok l -> Forall (date_ok o) l -> Exists (visible o) l -> o_singlecol o = false -> o_longform o = true -> kilobytes l < 2 ^ 64 ->
  exists arr w tl lines, listing o l arr /\ size_width arr w /\ total_line o arr tl /\ Forall2 (long_text o w) arr lines /\
    show_files o l = Ok (tl ++ concat lines, true).
Proof.
  intros F D X Sc Lf K. destruct (show_ok o l F D) as (arr & L & Fa & E). pose proof (some_visible _ _ _ X L) as NE.
  assert (Ka : kilobytes arr < 2 ^ 64).
  { destruct L as (_ & rest & P & _ & _).
    assert (KP : forall a b, Permutation a b -> kilobytes a = kilobytes b) by (clear; induction 1; unfold kilobytes in *; cbn [fold_right]; lia).
    assert (KA : forall a b, kilobytes (a ++ b) = kilobytes a + kilobytes b) by (clear; induction a as [|x a IH]; intros b; [reflexivity|]; cbn [app]; unfold kilobytes in *; cbn [fold_right]; rewrite IH; lia).
    rewrite (KP _ _ P), KA in K. assert (0 <= kilobytes rest); [|lia]. apply kilobytes_nonneg.
    apply Forall_forall. intros i I. rewrite Forall_forall in F. apply F. rewrite P. apply in_or_app. now right. }
  destruct (print_long_ok o arr NE Fa Ka Lf) as (out & w & tl & lines & Eo & A & B & C & ->).
  exists arr, w, tl, lines. split; [exact L|]. split; [exact A|]. split; [exact B|]. split; [exact C|].
  rewrite E, Sc, Lf, Eo. destruct arr; [contradiction|reflexivity].
Qed.

(* Everything before the name takes the same room in every line. *)
Lemma number_len12 s n : 0 <= n < 100 -> number s n -> length s = (if n <? 10 then 1%nat else 2%nat).
Proof. intros B H. rewrite (number_unique _ _ _ H (digits_number n ltac:(lia))). now apply len12. Qed.
Lemma date_length t s : date_text t s -> length s = 18%nat.
Proof.
  intros (y & mo & d & h & mi & s2 & ty & tmo & td & th & tmi & B1 & B2 & B3 & B4 & B5 & B6 & _ & N1 & N2 & N3 & N4 & N5 & ->).
  unfold left_adjusted, right_adjusted. rewrite ?app_length, ?repeat_length, ?app_length.
  rewrite (number_len12 tmo mo), (number_len12 td d), (number_len12 th h), (number_len12 tmi mi) by (auto; lia).
  rewrite (number_unique _ _ _ N1 (digits_number y ltac:(lia))), len4 by lia. cbn [length].
  change (Z.to_nat 11) with 11%nat. change (Z.to_nat 2) with 2%nat.
  destruct (mo <? 10), (d <? 10), (h <? 10), (mi <? 10); reflexivity.
Qed.
Theorem long_aligned o w i s : long_text o w i s -> exists pre, s = pre ++ shown o i ++ [13; 10] /\ Z.of_nat (length pre) = w + 27.
Proof.
  intros (ts & td & D & _ & L & ->). exists (attrib_text (i_attrib i) ++ [32; 32] ++ right_adjusted 32 w ts ++ [32; 32] ++ td). split.
  - rewrite <- !app_assoc. reflexivity.
  - unfold attrib_text, right_adjusted. rewrite !app_length, (date_length _ _ D), repeat_length, map_length. cbn [length]. lia.
Qed.

(* --- refutations --- *)

Definition late : item := Item 0 (2 ^ 31) 1 0 [97].
Definition early : item := Item 0 (2 ^ 30) 1 0 [98].
Definition by_time : options := Options 80 false false false false true true false.

Theorem time_overflow : exists l, Forall item_ok l /\ sort (S (length l)) by_time l = Ub.
Proof. exists [early; late]. split; [repeat constructor; cbn; lia|]. vm_compute. reflexivity. Qed.

Definition year2107 : item := Item 0 (2 ^ 32 - 1) 1 0 [97].
Definition year1980 : item := Item 0 (2 ^ 21 + 2 ^ 16) 1 0 [98].
Theorem time_wrong_order : exists l l', Forall item_ok l /\ sort (S (length l)) by_time l = Ok l' /\ ~ sorted by_time l'.
Proof.
  exists [year2107; year1980], [year1980; year2107]. split; [repeat constructor; cbn; lia|]. split; [vm_compute; reflexivity|].
  intros H. apply (H 0%nat 1%nat year1980 year2107 ltac:(lia) eq_refl eq_refl). left. reflexivity.
Qed.

Lemma name_ub stat l name : stat name = StatInvalidName -> (256 <= length name)%nat -> list_append_name stat l name = Ub.
Proof.
  intros E L. unfold list_append_name. rewrite E. unfold strcpy. rewrite repeat_length. unfold FNAME.
  replace (length name <? 256)%nat with false by lia. reflexivity.
Qed.
Theorem name_overflow : exists stat l name, ~ In 0 name /\ list_append_name stat l name = Ub.
Proof.
  exists (fun _ => StatInvalidName), [], (repeat 97 300). split.
  - intros I. apply repeat_spec in I. discriminate.
  - now apply name_ub; [|rewrite repeat_length; lia].
Qed.
