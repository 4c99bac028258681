(* The clock and its commands. *)
From Coq Require Import String Lia.
From Verif Require Import Base Arr ExecModel GetoptModel DotwModel DotwSpec DotwProof DirModel DirSpec DirProof2 ClockModel ClockSpec.
Open Scope Z_scope.
Ltac Zify.zify_post_hook ::= Z.div_mod_to_equations.

(* --- scanning --- *)

Lemma figure_dec c : figure c <-> isdigit c = true.
Proof. unfold figure, isdigit. rewrite andb_true_iff, !Z.leb_le. lia. Qed.
Lemma blank_dec c : blank c <-> isspace c = true.
Proof. unfold blank, isspace. rewrite orb_true_iff, andb_true_iff, Z.eqb_eq, !Z.leb_le. lia. Qed.

Lemma value_app ds d : value (ds ++ [d]) = 10 * value ds + (d - 48).
Proof. unfold value. now rewrite fold_left_app. Qed.

Lemma scan_digits_ok : forall ds n rest, Forall figure ds -> (forall x r, rest = x :: r -> ~ figure x) ->
  scan_digits (ds ++ rest) n = (fold_left (fun v d => 10 * v + (d - 48)) ds n, rest).
Proof.
  induction ds as [|d ds IH]; intros n rest F E.
  - cbn [app fold_left]. destruct rest as [|x r]; [reflexivity|]. cbn [scan_digits].
    destruct (isdigit x) eqn:D; [|reflexivity]. exfalso. apply (E x r eq_refl). now apply figure_dec.
  - inversion F as [|? ? Fd Fr]; subst. cbn [app scan_digits fold_left]. rewrite (proj1 (figure_dec d) Fd). now apply IH.
Qed.

Lemma scan_digits_inv : forall s n m r, scan_digits s n = (m, r) ->
  exists ds, s = ds ++ r /\ Forall figure ds /\ m = fold_left (fun v d => 10 * v + (d - 48)) ds n /\ (forall x q, r = x :: q -> ~ figure x).
Proof.
  induction s as [|c s IH]; intros n m r E; cbn [scan_digits] in E.
  - injection E as <- <-. exists []. repeat split; auto. discriminate.
  - destruct (isdigit c) eqn:D.
    + destruct (IH _ _ _ E) as (ds & -> & F & -> & R). exists (c :: ds). repeat split; auto. constructor; auto. now apply figure_dec.
    + injection E as <- <-. exists []. repeat split; auto. intros x q [= -> ->] F. apply figure_dec in F. congruence.
Qed.

Lemma skip_space_ok : forall sp r, Forall blank sp -> (forall x q, r = x :: q -> ~ blank x) -> skip_space (sp ++ r) = r.
Proof.
  induction sp as [|c sp IH]; intros r F E.
  - destruct r as [|x q]; [reflexivity|]. cbn [app skip_space]. destruct (isspace x) eqn:D; [|reflexivity].
    exfalso. apply (E x q eq_refl). now apply blank_dec.
  - inversion F as [|? ? Fd Fr]; subst. cbn [app skip_space]. rewrite (proj1 (blank_dec c) Fd). now apply IH.
Qed.
Lemma skip_space_inv : forall s, exists sp, s = sp ++ skip_space s /\ Forall blank sp.
Proof.
  induction s as [|c s [sp [E F]]]; [exists []; auto|]. cbn [skip_space]. destruct (isspace c) eqn:D.
  - exists (c :: sp). split; [now rewrite E at 1|]. constructor; auto. now apply blank_dec.
  - exists []. auto.
Qed.

Lemma value_bound ds : Forall figure ds -> 0 <= value ds < 10 ^ Z.of_nat (length ds).
Proof.
  induction ds as [|d ds IH] using rev_ind; intros F; [cbn; lia|].
  apply Forall_app in F as [F Fd]. inversion Fd as [|? ? D _]; subst. unfold figure in D. specialize (IH F).
  rewrite value_app, app_length. cbn [length]. rewrite Nat2Z.inj_add, Z.pow_add_r by lia. change (10 ^ Z.of_nat 1) with 10. lia.
Qed.

Lemma nine ds : Forall figure ds -> (length ds <= 9)%nat -> 0 <= value ds < 1000000000.
Proof.
  intros F L. pose proof (value_bound ds F). assert (10 ^ Z.of_nat (length ds) <= 10 ^ 9) by (apply Z.pow_le_mono_r; lia). lia.
Qed.

Lemma short_app p q r : short (p ++ q ++ r) -> short q.
Proof.
  intros S a ds b E F. apply (S (p ++ a) ds (b ++ r)); auto. rewrite E, <- !app_assoc. reflexivity.
Qed.
Lemma short_r p q : short (p ++ q) -> short q.
Proof. intros S. apply (short_app p q []). now rewrite app_nil_r. Qed.
Lemma short_l p q : short (p ++ q) -> short p.
Proof. intros S. now apply (short_app [] p q). Qed.

Lemma figure_not x : figure x -> ~ blank x /\ (x =? 45) = false /\ (x =? 43) = false /\ isdigit x = true.
Proof.
  intros F. split; [unfold figure, blank in *; lia|]. split; [apply Z.eqb_neq; unfold figure in F; lia|]. split; [apply Z.eqb_neq; unfold figure in F; lia|].
  now apply figure_dec.
Qed.

(* a number is read to its end *)
Lemma scan_int_ok s n rest : writes s n -> short s -> (forall x r, rest = x :: r -> ~ figure x) -> scan_int (s ++ rest) = Ok (Some (n, rest)).
Proof.
  intros (sp & sg & ds & -> & B & F & N & V) S R. unfold scan_int.
  assert (L : 0 <= value ds < 1000000000) by (apply nine; [exact F|]; apply (S (sp ++ sg) ds []); [now rewrite app_nil_r, <- app_assoc|exact F]).
  destruct ds as [|d ds]; [congruence|]. inversion F as [|? ? Fd Fr]; subst. destruct (figure_not d Fd) as (Nb & N45 & N43 & Nd).
  assert (SK : skip_space ((sp ++ sg ++ d :: ds) ++ rest) = sg ++ d :: ds ++ rest).
  { rewrite <- !app_assoc. apply skip_space_ok; [exact B|]. intros x q E. destruct V as [[-> _]|[[-> _]|[-> _]]]; injection E as <- _; auto; unfold blank; lia. }
  rewrite SK.
  assert (SD : scan_digits (d :: ds ++ rest) 0 = (value (d :: ds), rest)) by (now apply (scan_digits_ok (d :: ds))).
  unfold value in *. destruct V as [[-> V]|[[-> V]|[-> V]]]; cbn [app].
  - rewrite N45, N43, Nd, SD. rewrite V. unfold int_of. replace (_ && _) with true; [reflexivity|].
    symmetry. apply andb_true_iff. rewrite !Z.leb_le. unfold INT_MIN, INT_MAX. lia.
  - change (43 =? 45) with false. change (43 =? 43) with true. cbn iota. rewrite Nd, SD. rewrite V. unfold int_of. replace (_ && _) with true; [reflexivity|].
    symmetry. apply andb_true_iff. rewrite !Z.leb_le. unfold INT_MIN, INT_MAX. lia.
  - change (45 =? 45) with true. cbn iota. rewrite Nd, SD. rewrite V. unfold int_of. replace (_ && _) with true; [reflexivity|].
    symmetry. apply andb_true_iff. rewrite !Z.leb_le. unfold INT_MIN, INT_MAX. lia.
Qed.

(* and nothing else is *)
Lemma scan_int_inv s : short s -> exists r, scan_int s = Ok r /\
  forall n rest, r = Some (n, rest) -> exists t, s = t ++ rest /\ writes t n /\ (forall x q, rest = x :: q -> ~ figure x).
Proof.
  intros S. unfold scan_int. destruct (skip_space_inv s) as (sp & E & B). set (k := skip_space s) in *. clearbody k. subst s.
  assert (SN : exists neg sg t, match k with c :: r => if c =? 45 then (true, r) else if c =? 43 then (false, r) else (false, k) | [] => (false, []) end = (neg, t) /\
    k = sg ++ t /\ (neg = false /\ (sg = [] \/ sg = [43]) \/ neg = true /\ sg = [45])).
  { destruct k as [|c k']; [exists false, [], []; auto 9|].
    destruct (Z.eqb_spec c 45) as [->|].
    - exists true, [45], k'. auto 9.
    - destruct (Z.eqb_spec c 43) as [->|]; [exists false, [43], k'; auto 9|exists false, [], (c :: k'); auto 9]. }
  destruct SN as (neg & sg & t & ES & EK & G). rewrite ES. subst k. clear ES.
  destruct t as [|c t]; [eexists; split; [reflexivity|discriminate]|].
  destruct (isdigit c) eqn:D; [|eexists; split; [reflexivity|discriminate]].
  destruct (scan_digits (c :: t) 0) as [m r] eqn:SD. destruct (scan_digits_inv _ _ _ _ SD) as (ds & E & F & V & R).
  assert (NE : ds <> []). { intros ->. cbn in E. subst r. apply (R c t eq_refl). now apply figure_dec. }
  assert (L : 0 <= m < 1000000000).
  { rewrite V. apply nine; [exact F|]. apply (S (sp ++ sg) ds r); auto. rewrite E, <- !app_assoc. reflexivity. }
  unfold int_of. replace (_ && _) with true; cycle 1.
  { symmetry. apply andb_true_iff. rewrite !Z.leb_le. unfold INT_MIN, INT_MAX. destruct neg; lia. }
  cbn [bind]. eexists. split; [reflexivity|]. intros n rest [= <- <-]. exists (sp ++ sg ++ ds). split; [rewrite E, <- !app_assoc; reflexivity|].
  split; [|exact R]. exists sp, sg, ds. repeat split; auto. fold (value ds) in V. subst m.
  destruct G as [[-> [->| ->]]|[-> ->]]; auto.
Qed.

Lemma sep_ok sep x : sep = 47 \/ sep = 58 -> forall y r, sep :: x = y :: r -> ~ figure y.
Proof. intros S y r [= -> _]. unfold figure. lia. Qed.

Lemma scan3_ok sep s a b c : sep = 47 \/ sep = 58 -> short s -> triple sep s a b c -> scan3 sep s = Ok (Some (a, b, c)).
Proof.
  intros SP S (sa & sb & sc & rest & -> & A & B & C & R). unfold scan3.
  rewrite (scan_int_ok sa a) by (eauto using short_l, sep_ok). cbn [bind app]. unfold scan_char at 1. rewrite Z.eqb_refl.
  apply short_r in S. apply short_r in S.
  rewrite (scan_int_ok sb b) by (eauto using short_l, sep_ok). cbn [bind app]. unfold scan_char. rewrite Z.eqb_refl.
  apply short_r in S. apply short_r in S.
  rewrite (scan_int_ok sc c) by (eauto using short_l). reflexivity.
Qed.

Lemma scan_char_inv c s r : scan_char c s = Some r -> s = [c] ++ r.
Proof. unfold scan_char. destruct s as [|x q]; [discriminate|]. destruct (Z.eqb_spec x c) as [->|]; [|discriminate]. now intros [= ->]. Qed.

Lemma scan3_inv sep s : short s -> exists r, scan3 sep s = Ok r /\ forall a b c, r = Some (a, b, c) -> triple sep s a b c.
Proof.
  intros S. unfold scan3. destruct (scan_int_inv s S) as ([[a s1]|] & -> & I1); cbn [bind]; [|eexists; split; [reflexivity|discriminate]].
  destruct (I1 _ _ eq_refl) as (sa & -> & A & _). apply short_r in S.
  destruct (scan_char sep s1) as [s2|] eqn:C1; [|eexists; split; [reflexivity|discriminate]]. apply scan_char_inv in C1 as ->. apply short_r in S.
  destruct (scan_int_inv s2 S) as ([[b s3]|] & -> & I2); cbn [bind]; [|eexists; split; [reflexivity|discriminate]].
  destruct (I2 _ _ eq_refl) as (sb & -> & B & _). apply short_r in S.
  destruct (scan_char sep s3) as [s4|] eqn:C2; [|eexists; split; [reflexivity|discriminate]]. apply scan_char_inv in C2 as ->. apply short_r in S.
  destruct (scan_int_inv s4 S) as ([[c s5]|] & -> & I3); cbn [bind]; [|eexists; split; [reflexivity|discriminate]].
  destruct (I3 _ _ eq_refl) as (sc & -> & C & R).
  eexists. split; [reflexivity|]. intros ? ? ? [= <- <- <-]. exists sa, sb, sc, s5. repeat split; auto.
Qed.

(* --- setting --- *)

Lemma dotw_range y m d : 0 <= y <= 9999 -> 1 <= m <= 12 -> 1 <= d <= 31 -> exists w, fpm_get_dotw y m d = Ok w /\ weekday_of (Date y m d) w.
Proof.
  intros Y M D. assert (W : exists w, fpm_get_dotw y m d = Ok w /\ 0 <= w <= 6).
  { unfold fpm_get_dotw, int_of, INT_MIN, INT_MAX.
    assert (O : exists o, nth_error offset (Z.to_nat (m - 1)) = Some o /\ 0 <= o <= 6).
    { assert (C : m = 1 \/ m = 2 \/ m = 3 \/ m = 4 \/ m = 5 \/ m = 6 \/ m = 7 \/ m = 8 \/ m = 9 \/ m = 10 \/ m = 11 \/ m = 12) by lia.
      repeat (destruct C as [->|C]; [eexists; split; [reflexivity|lia]|]). subst. eexists; split; [reflexivity|lia]. }
    destruct O as (o & EO & BO). rewrite EO.
    set (y' := if m <? 3 then y - 1 else y). assert (BY : -1 <= y' <= 9999) by (subst y'; destruct (m <? 3); lia). clearbody y'.
    assert (Q4 : -1 <= Z.quot y' 4 <= 9999) by (Z.quot_rem_to_equations; lia).
    assert (Q100 : 0 <= Z.quot y' 100 <= 9999) by (Z.quot_rem_to_equations; lia).
    assert (Q400 : 0 <= Z.quot y' 400 <= 9999) by (Z.quot_rem_to_equations; lia).
    assert (SUM : 0 <= y' + Z.quot y' 4 - Z.quot y' 100 + Z.quot y' 400 + o + d) by (Z.quot_rem_to_equations; lia).
    assert (IN : forall x, -30000 <= x <= 60000 -> (-2147483648 <=? x) && (x <=? 2147483647) = true) by (intros; apply andb_true_iff; rewrite !Z.leb_le; lia).
    rewrite (IN y') by lia. cbn [bind]. rewrite (IN (y' + Z.quot y' 4)) by lia. cbn [bind].
    rewrite (IN (y' + Z.quot y' 4 - Z.quot y' 100)) by lia. cbn [bind]. rewrite (IN (y' + Z.quot y' 4 - Z.quot y' 100 + Z.quot y' 400)) by lia. cbn [bind].
    rewrite (proj2 (andb_true_iff (1 <=? m) (m <=? 12))) by (rewrite !Z.leb_le; lia). cbn [bind]. rewrite IN by lia. cbn [bind]. rewrite IN by lia. cbn [bind].
    eexists. split; [reflexivity|]. Z.quot_rem_to_equations; lia. }
  destruct W as (w & E & B). exists w. split; [exact E|]. split; [exact B|]. intros n N.
  pose proof (dotw_day n) as P. rewrite N in P. cbn [year month day] in P. rewrite E in P. specialize (P ltac:(lia)). congruence.
Qed.

Lemma set_ok now y m d h mi s : 0 <= y <= 4095 -> 1 <= m <= 12 -> 1 <= d <= 31 -> 0 <= h <= 23 -> 0 <= mi <= 59 -> 0 <= s <= 59 ->
  exists w, set_datetime now y m d h mi s = Ok (Clock y m d w h mi s) /\ weekday_of (Date y m d) w.
Proof.
  intros Y M D H MI S. destruct (dotw_range y m d ltac:(lia) M D) as (w & E & W). exists w. split; [|exact W].
  unfold set_datetime. rewrite E. cbn [bind]. f_equal. unfold rtc_set_datetime. cbn [yr mon dom dow hr mn sc]. destruct W as [W _].
  replace (_ && _) with true; [reflexivity|]. symmetry. repeat (apply andb_true_iff; split); apply Z.leb_le; lia.
Qed.
Lemma set_far now y m d h mi s : 4095 < y <= 9999 -> 1 <= m <= 12 -> 1 <= d <= 31 -> set_datetime now y m d h mi s = Ok now.
Proof.
  intros Y M D. destruct (dotw_range y m d ltac:(lia) M D) as (w & E & W).
  unfold set_datetime. rewrite E. cbn [bind]. f_equal. unfold rtc_set_datetime. cbn [yr].
  replace (y <=? 4095) with false by (symmetry; apply Z.leb_gt; lia). rewrite andb_false_r. reflexivity.
Qed.

Lemma or6 a b c d e f : a || b || c || d || e || f = false <-> a = false /\ b = false /\ c = false /\ d = false /\ e = false /\ f = false.
Proof. rewrite !orb_false_iff. tauto. Qed.

Lemma set_date_ok now s m d y : ok now -> short s -> triple 47 s m d y -> 1 <= m <= 12 -> 1 <= d <= 31 -> 2000 <= y <= 4095 ->
  exists w, set_date now s = Ok (eol, Clock y m d w (hr now) (mn now) (sc now)) /\ weekday_of (Date y m d) w.
Proof.
  intros O S T M D Y. unfold set_date. rewrite (scan3_ok 47 s m d y) by auto. cbn [bind].
  rewrite (proj2 (or6 _ _ _ _ _ _)) by (rewrite !Z.ltb_ge; lia).
  destruct O as (_ & _ & _ & _ & H & MI & SC). destruct (set_ok now y m d (hr now) (mn now) (sc now) ltac:(lia) M D H MI SC) as (w & E & W).
  exists w. rewrite E. auto.
Qed.
Lemma set_date_far now s m d y : short s -> triple 47 s m d y -> 1 <= m <= 12 -> 1 <= d <= 31 -> 4095 < y <= 9999 -> set_date now s = Ok (eol, now).
Proof.
  intros S T M D Y. unfold set_date. rewrite (scan3_ok 47 s m d y) by auto. cbn [bind].
  rewrite (proj2 (or6 _ _ _ _ _ _)) by (rewrite !Z.ltb_ge; lia). rewrite set_far by auto. reflexivity.
Qed.
Lemma set_date_bad now s : short s -> (forall m d y, triple 47 s m d y -> ~ (1 <= m <= 12 /\ 1 <= d <= 31 /\ 2000 <= y <= 9999)) -> set_date now s = Ok (bad_date, now).
Proof.
  intros S N. unfold set_date. destruct (scan3_inv 47 s S) as (r & -> & I). cbn [bind]. destruct r as [[[m d] y]|]; [|reflexivity].
  specialize (N m d y (I _ _ _ eq_refl)). destruct (_ || _) eqn:E; [reflexivity|]. exfalso. apply N. apply or6 in E. rewrite !Z.ltb_ge in E. lia.
Qed.

Lemma set_time_ok now s h m x : ok now -> short s -> triple 58 s h m x -> 0 <= h <= 23 -> 0 <= m <= 59 -> 0 <= x <= 59 ->
  exists w, set_time now s = Ok (eol, Clock (yr now) (mon now) (dom now) w h m x) /\ weekday_of (Date (yr now) (mon now) (dom now)) w.
Proof.
  intros O S T H M X. unfold set_time. rewrite (scan3_ok 58 s h m x) by auto. cbn [bind].
  rewrite (proj2 (or6 _ _ _ _ _ _)) by (rewrite !Z.ltb_ge; lia).
  destruct O as (Y & MO & D & _). destruct (set_ok now (yr now) (mon now) (dom now) h m x Y MO D H M X) as (w & E & W).
  exists w. rewrite E. auto.
Qed.
Lemma set_time_bad now s : short s -> (forall h m x, triple 58 s h m x -> ~ (0 <= h <= 23 /\ 0 <= m <= 59 /\ 0 <= x <= 59)) -> set_time now s = Ok (bad_time, now).
Proof.
  intros S N. unfold set_time. destruct (scan3_inv 58 s S) as (r & -> & I). cbn [bind]. destruct r as [[[m d] y]|]; [|reflexivity].
  specialize (N m d y (I _ _ _ eq_refl)). destruct (_ || _) eqn:E; [reflexivity|]. exfalso. apply N. apply or6 in E. rewrite !Z.ltb_ge in E. lia.
Qed.

(* --- the commands --- *)

Lemma call1 fuel set show now prog s : prog <> [45; 45] -> plain s -> command (S fuel) set show now [prog; s] false opt0 = ('(out, now') <- set s ;; Ok (Said out now')).
Proof.
  intros P H. cbn [command]. unfold getopt. cbn [length opt0 o_ind nth_error Nat.eqb Nat.ltb Nat.leb orb].
  unfold Zlist_eqb. destruct (list_eq_dec Z.eq_dec prog [45; 45]); [congruence|]. cbn [set_pos o_ind nth_error o_where Nat.eqb andb].
  replace (match s with [] => true | _ => _ end) with true; [reflexivity|].
  destruct s as [|c [|c' s]]; [reflexivity|now rewrite orb_true_r|]. destruct H as [H|H]; [|discriminate]. cbn [hd] in H.
  rewrite (proj2 (Z.eqb_neq c 45) H). reflexivity.
Qed.
Lemma call0 fuel set show now prog : prog <> [45; 45] -> command (S fuel) set show now [prog] false opt0 = (out <- show false ;; Ok (Said out now)).
Proof.
  intros P. cbn [command]. unfold getopt. cbn [length opt0 o_ind nth_error Nat.eqb Nat.ltb Nat.leb orb].
  unfold Zlist_eqb. destruct (list_eq_dec Z.eq_dec prog [45; 45]); [congruence|]. reflexivity.
Qed.
Lemma callt fuel set show now prog : prog <> [45; 45] -> command (S (S fuel)) set show now [prog; [45; 116]] false opt0 = (out <- show true ;; Ok (Said out now)).
Proof.
  intros P. cbn [command]. unfold getopt at 1. cbn [length opt0 o_ind nth_error Nat.eqb Nat.ltb Nat.leb orb].
  unfold Zlist_eqb. destruct (list_eq_dec Z.eq_dec prog [45; 45]); [congruence|]. reflexivity.
Qed.

Lemma date_sets now prog s fuel : ok now -> prog <> [45; 45] -> plain s -> short s ->
  (forall m d y, triple 47 s m d y -> 1 <= m <= 12 -> 1 <= d <= 31 -> 2000 <= y <= 4095 -> exists w,
     cmd_date (S fuel) now [prog; s] = Ok (Said eol (Clock y m d w (hr now) (mn now) (sc now))) /\ weekday_of (Date y m d) w) /\
  ((forall m d y, triple 47 s m d y -> ~ (1 <= m <= 12 /\ 1 <= d <= 31 /\ 2000 <= y <= 9999)) ->
     cmd_date (S fuel) now [prog; s] = Ok (Said (str "The specified date is not correct." ++ eol ++ [10]) now)).
Proof.
  intros O P PL S. unfold cmd_date. rewrite call1 by auto. split.
  - intros m d y T M D Y. destruct (set_date_ok now s m d y O S T M D Y) as (w & -> & W). exists w. auto.
  - intros N. rewrite set_date_bad by auto. reflexivity.
Qed.
Lemma date_far now prog s fuel m d y : prog <> [45; 45] -> plain s -> short s -> triple 47 s m d y -> 1 <= m <= 12 -> 1 <= d <= 31 -> 4095 < y <= 9999 ->
  cmd_date (S fuel) now [prog; s] = Ok (Said eol now).
Proof. intros P PL S T M D Y. unfold cmd_date. rewrite call1 by auto. rewrite (set_date_far now s m d y) by auto. reflexivity. Qed.

Lemma time_sets now prog s fuel : ok now -> prog <> [45; 45] -> plain s -> short s ->
  (forall h m x, triple 58 s h m x -> 0 <= h <= 23 -> 0 <= m <= 59 -> 0 <= x <= 59 -> exists w,
     cmd_time (S fuel) now [prog; s] = Ok (Said eol (Clock (yr now) (mon now) (dom now) w h m x)) /\ weekday_of (Date (yr now) (mon now) (dom now)) w) /\
  ((forall h m x, triple 58 s h m x -> ~ (0 <= h <= 23 /\ 0 <= m <= 59 /\ 0 <= x <= 59)) ->
     cmd_time (S fuel) now [prog; s] = Ok (Said (str "The specified time is not correct." ++ eol ++ [10]) now)).
Proof.
  intros O P PL S. unfold cmd_time. rewrite call1 by auto. split.
  - intros h m x T H M X. destruct (set_time_ok now s h m x O S T H M X) as (w & -> & W). exists w. auto.
  - intros N. rewrite set_time_bad by auto. reflexivity.
Qed.

(* --- showing --- *)

Lemma two_ok n : 0 <= n < 100 -> pad_left 48 2 (digits n) = two n.
Proof.
  intros B. unfold two. destruct (Z_lt_le_dec n 10).
  - rewrite digits_small by lia. cbn. replace (n / 10) with 0 by lia. replace (n mod 10) with n by lia. reflexivity.
  - replace n with (10 * (n / 10) + n mod 10) at 1 by lia. rewrite digits_step by lia. rewrite digits_small by lia. reflexivity.
Qed.
Lemma cons4 (a b c d a' b' c' d' : Z) : a = a' -> b = b' -> c = c' -> d = d' -> [a; b; c; d] = [a'; b'; c'; d'].
Proof. congruence. Qed.
Lemma four_ok n : 0 <= n < 10000 -> pad_left 48 4 (digits n) = four n.
Proof.
  intros B. unfold four, two. destruct (Z_lt_le_dec n 1000).
  - assert (E : pad_left 48 4 (digits n) = 48 :: pad_left 48 3 (digits n)).
    { destruct (Z_lt_le_dec n 10); [rewrite digits_small by lia; reflexivity|].
      replace n with (10 * (n / 10) + n mod 10) by lia. rewrite digits_step by lia.
      destruct (Z_lt_le_dec n 100); [rewrite (digits_small (n / 10)) by lia; reflexivity|].
      replace (n / 10) with (10 * (n / 100) + n / 10 mod 10) by lia. rewrite digits_step by lia. rewrite digits_small by lia. reflexivity. }
    rewrite E, dig3_ok by lia. unfold dig3. cbn [app]. apply cons4; lia.
  - replace n with (1000 * (n / 1000) + n mod 1000) at 1 by lia. rewrite digits_1000 by lia. rewrite digits_small by lia.
    unfold dig3, pad_left. cbn [app length Z.of_nat Pos.of_succ_nat Pos.succ]. change (Z.to_nat (4 - 4)) with 0%nat. cbn [repeat app]. apply cons4; lia.
Qed.

Lemma date_shows now prog fuel : ok now -> prog <> [45; 45] ->
  cmd_date (S (S fuel)) now [prog; str "-t"] = Ok (Said (mdy now ++ eol ++ eol) now) /\
  exists m d, number m (mon now) /\ number d (dom now) /\
  cmd_date (S fuel) now [prog] = Ok (Said (str "Current Date: " ++ day_name (dow now) ++ str " " ++ m ++ str "/" ++ d ++ str "/" ++ four (yr now) ++ eol ++
    str "Type 'date MM/DD/YYYY' to change." ++ eol ++ eol) now).
Proof.
  intros O P. unfold cmd_date. change (str "-t") with [45; 116]. rewrite callt, call0 by auto.
  destruct O as (Y & M & D & W & _). unfold show_date. split.
  - cbn [bind]. rewrite !two_ok, four_ok by lia. unfold mdy. rewrite <- !app_assoc. reflexivity.
  - exists (digits (mon now)), (digits (dom now)). split; [apply digits_number; lia|]. split; [apply digits_number; lia|].
    assert (NM : nth_error dotw_name (Z.to_nat (dow now)) = Some (day_name (dow now))).
    { assert (C : dow now = 0 \/ dow now = 1 \/ dow now = 2 \/ dow now = 3 \/ dow now = 4 \/ dow now = 5 \/ dow now = 6) by lia.
      repeat (destruct C as [->|C]; [reflexivity|]). rewrite C. reflexivity. }
    rewrite NM. cbn [bind]. rewrite four_ok by lia. reflexivity.
Qed.

Lemma time_shows now prog fuel : ok now -> prog <> [45; 45] ->
  cmd_time (S (S fuel)) now [prog; str "-t"] = Ok (Said (hms (hr now) now ++ eol ++ eol) now) /\
  exists d half, dial (hr now) d half /\
  cmd_time (S fuel) now [prog] = Ok (Said (str "Current Time: " ++ hms d now ++ str " " ++ half ++ eol ++ str "Type 'time hh:mm:ss' to change." ++ eol ++ eol) now).
Proof.
  intros O P. unfold cmd_time. change (str "-t") with [45; 116]. rewrite callt, call0 by auto.
  destruct O as (_ & _ & _ & _ & H & M & S). unfold show_time. cbn [bind]. rewrite !(two_ok (mn now)), !(two_ok (sc now)), (two_ok (hr now)) by lia. split.
  - unfold hms. rewrite <- !app_assoc. reflexivity.
  - set (d := if hr now =? 0 then _ else _). exists d, (if hr now <=? 11 then str "AM" else str "PM").
    assert (B : 1 <= d <= 12 /\ hr now mod 12 = d mod 12).
    { subst d. destruct (Z.eqb_spec (hr now) 0) as [->|]; [lia|]. destruct (Z.ltb_spec 12 (hr now)); lia. }
    clearbody d. split.
    + split; [lia|]. destruct (Z.leb_spec (hr now) 11); [left|right]; repeat split; lia.
    + rewrite two_ok by lia. unfold hms. rewrite <- !app_assoc. destruct (hr now <=? 11); reflexivity.
Qed.

(* --- stamps --- *)

Lemma lor_add a b k : 0 <= b < 2 ^ k -> 0 <= k -> Z.lor (Z.shiftl a k) b = a * 2 ^ k + b.
Proof.
  intros B K. rewrite Z.shiftl_mul_pow2 by lia. apply Z.bits_inj'. intros i I. rewrite Z.lor_spec.
  destruct (Z_lt_le_dec i k).
  - rewrite Z.mul_pow2_bits_low by lia. cbn [orb]. rewrite <- (Z.mod_pow2_bits_low (a * 2 ^ k + b) k i) by lia.
    rewrite Z.add_comm, Z_mod_plus_full, Z.mod_small by lia. reflexivity.
  - rewrite (Z.mul_pow2_bits a k i) by lia. replace (Z.testbit b i) with false.
    + rewrite orb_false_r. replace i with (i - k + k) at 2 by lia. rewrite <- Z.div_pow2_bits by lia.
      rewrite Z.div_add_l, Z.div_small by lia. now rewrite Z.add_0_r.
    + symmetry. destruct (Z.eq_dec b 0) as [->|]; [apply Z.testbit_0_l|]. apply Z.bits_above_log2; [lia|].
      enough (Z.log2 b < k) by lia. apply Z.log2_lt_pow2; lia.
Qed.

Lemma shift_lor a k j b : 0 <= k -> 0 <= j -> Z.shiftl a (k + j) = Z.shiftl (Z.shiftl a k) j /\ Z.lor (Z.shiftl (Z.shiftl a k) j) (Z.shiftl b j) = Z.shiftl (Z.lor (Z.shiftl a k) b) j.
Proof. intros K J. split; [now rewrite Z.shiftl_shiftl by lia|]. now rewrite Z.shiftl_lor. Qed.

Lemma join a k j b : 0 <= k -> 0 <= j -> 0 <= b < 2 ^ k -> Z.lor (Z.shiftl a (k + j)) (Z.shiftl b j) = Z.shiftl (a * 2 ^ k + b) j.
Proof. intros K J B. destruct (shift_lor a k j b K J) as [-> ->]. now rewrite lor_add. Qed.

Lemma low8 k x : 0 <= k <= 8 -> Z.land (2 ^ k - 1) (u8 x) = x mod 2 ^ k.
Proof.
  intros K. rewrite Z.land_comm. replace (2 ^ k - 1) with (Z.ones k) by (rewrite Z.ones_equiv; lia). rewrite Z.land_ones by lia.
  unfold u8. change 256 with (2 ^ 8). apply Z.bits_inj'. intros i I. destruct (Z_lt_le_dec i k).
  - rewrite !Z.mod_pow2_bits_low by lia. reflexivity.
  - rewrite !Z.mod_pow2_bits_high by lia. reflexivity.
Qed.

Lemma stamp_any c : get_fattime c = stamp (1980 + (yr c - 1980) mod 128) (mon c mod 16) (dom c mod 32) (hr c mod 32) (mn c mod 64) (Z.quot (sc c) 2 mod 32).
Proof.
  unfold get_fattime. change 127 with (2 ^ 7 - 1). change 15 with (2 ^ 4 - 1). change 31 with (2 ^ 5 - 1). change 63 with (2 ^ 6 - 1).
  rewrite (low8 7), (low8 4), (low8 5 (dom c)), (low8 5 (hr c)), (low8 6), (low8 5 (Z.quot (sc c) 2)) by lia.
  set (y := (yr c - 1980) mod 2 ^ 7). set (m := mon c mod 2 ^ 4). set (d := dom c mod 2 ^ 5). set (h := hr c mod 2 ^ 5). set (i := mn c mod 2 ^ 6). set (s := Z.quot (sc c) 2 mod 2 ^ 5).
  assert (0 <= m < 2 ^ 4) by (apply Z.mod_pos_bound; lia). assert (0 <= d < 2 ^ 5) by (apply Z.mod_pos_bound; lia). assert (0 <= h < 2 ^ 5) by (apply Z.mod_pos_bound; lia).
  assert (0 <= i < 2 ^ 6) by (apply Z.mod_pos_bound; lia). assert (0 <= s < 2 ^ 5) by (apply Z.mod_pos_bound; lia).
  change 25 with (4 + 21) at 1. rewrite join by lia. change 21 with (5 + 16). rewrite join by lia. change 16 with (5 + 11) at 1. rewrite join by lia.
  change 11 with (6 + 5) at 1. rewrite join by lia. rewrite lor_add by lia. unfold stamp.
  change 128 with (2 ^ 7). fold y. change 16 with (2 ^ 4). fold m. change 32 with (2 ^ 5). fold d h s. change 64 with (2 ^ 6). fold i.
  clearbody y m d h i s. lia.
Qed.
Lemma stamp_is c : ok c -> 1980 <= yr c <= 2107 -> get_fattime c = stamp (yr c) (mon c) (dom c) (hr c) (mn c) (sc c / 2).
Proof.
  intros (_ & M & D & _ & H & I & S) Y. rewrite stamp_any. rewrite Z.quot_div_nonneg by lia.
  rewrite (Z.mod_small (yr c - 1980)), (Z.mod_small (mon c)), (Z.mod_small (dom c)), (Z.mod_small (hr c)), (Z.mod_small (mn c)), (Z.mod_small (sc c / 2)) by lia.
  f_equal. lia.
Qed.

Lemma len12 n : 0 <= n < 100 -> length (digits n) = (if n <? 10 then 1%nat else 2%nat).
Proof.
  intros B. destruct (Z.ltb_spec n 10); [rewrite digits_small by lia; reflexivity|].
  replace n with (10 * (n / 10) + n mod 10) by lia. rewrite digits_step by lia. rewrite digits_small by lia. reflexivity.
Qed.

Lemma year4 n : 1000 <= n < 10000 -> pad_left 32 4 (digits n) = four n.
Proof.
  intros B. rewrite <- four_ok by lia. replace n with (1000 * (n / 1000) + n mod 1000) by lia. rewrite digits_1000 by lia. rewrite digits_small by lia. reflexivity.
Qed.

Lemma prints t y m d h i s : 1980 <= y <= 2107 -> 1 <= m < 16 -> 1 <= d < 32 -> 0 <= h < 32 -> 0 <= i < 64 -> 0 <= s < 32 -> t = stamp y m d h i s ->
  listed (Clock y m d 0 h i (2 * s)) (print_time t).
Proof.
  intros Y M D H I S ->. unfold print_time. cbv zeta.
  set (t := stamp y m d h i s).
  assert (E : t / 2 ^ 5 mod 2 ^ 6 = i /\ t / 2 ^ 11 mod 2 ^ 5 = h /\ t / 2 ^ 16 mod 2 ^ 5 = d /\ t / 2 ^ 21 mod 2 ^ 4 = m /\ t / 2 ^ 25 mod 2 ^ 7 = y - 1980).
  { subst t. unfold stamp. repeat split; lia. }
  destruct E as (-> & -> & -> & -> & ->). replace (y - 1980 + 1980) with y by lia.
  exists (digits m), (digits d), (digits h). cbn [yr mon dom hr mn].
  split; [apply digits_number; lia|]. split; [apply digits_number; lia|]. split; [apply digits_number; lia|].
  rewrite year4 by lia. rewrite two_ok by lia. f_equal. change (str "/") with [47]. f_equal. f_equal. f_equal. f_equal.
  rewrite !len12 by lia. unfold pad_left. rewrite len12 by lia.
  destruct (m <? 10), (d <? 10), (h <? 10); reflexivity.
Qed.

Lemma lists c : ok c -> 1980 <= yr c <= 2107 -> listed c (print_time (get_fattime c)).
Proof.
  intros O Y. pose proof O as (_ & M & D & _ & H & I & S).
  pose proof (prints (get_fattime c) (yr c) (mon c) (dom c) (hr c) (mn c) (sc c / 2) Y ltac:(lia) ltac:(lia) ltac:(lia) ltac:(lia) ltac:(lia) (stamp_is c O Y)) as P.
  exact P.
Qed.

(* the year wraps after 128 *)
Lemma wraps c y : ok c -> 2108 <= yr c -> 1980 <= y <= 2107 -> (yr c - y) mod 128 = 0 ->
  listed (Clock y (mon c) (dom c) (dow c) (hr c) (mn c) (sc c)) (print_time (get_fattime c)).
Proof.
  intros O L Y E. pose proof O as (_ & M & D & W & H & I & S). set (c' := Clock y (mon c) (dom c) (dow c) (hr c) (mn c) (sc c)).
  assert (O' : ok c') by (unfold ok; cbn; lia).
  replace (get_fattime c) with (get_fattime c'); [apply (lists c' O'); exact Y|]. rewrite !stamp_any. cbn [c' yr mon dom dow hr mn sc].
  f_equal. lia.
Qed.

Lemma ordered a b : ok a -> ok b -> 1980 <= yr a <= 2107 -> 1980 <= yr b <= 2107 ->
  (before (fields a) (fields b) <-> get_fattime a < get_fattime b) /\ (fields a = fields b <-> get_fattime a = get_fattime b).
Proof.
  intros A B YA YB. rewrite !stamp_is by auto. destruct A as (_ & M & D & _ & H & I & S), B as (_ & M' & D' & _ & H' & I' & S').
  assert (P : before (fields a) (fields b) -> stamp (yr a) (mon a) (dom a) (hr a) (mn a) (sc a / 2) < stamp (yr b) (mon b) (dom b) (hr b) (mn b) (sc b / 2)).
  { unfold fields, stamp. intros F. repeat match goal with E : before _ _ |- _ => inversion E; clear E; subst end; lia. }
  assert (T : before (fields a) (fields b) \/ fields a = fields b \/ stamp (yr b) (mon b) (dom b) (hr b) (mn b) (sc b / 2) < stamp (yr a) (mon a) (dom a) (hr a) (mn a) (sc a / 2)).
  { unfold fields, stamp. 
    destruct (Ztrichotomy_inf (yr a) (yr b)) as [[L| ->]|G]; [left; now constructor| |right; right; lia].
    destruct (Ztrichotomy_inf (mon a) (mon b)) as [[L| ->]|G]; [left; now repeat constructor| |right; right; lia].
    destruct (Ztrichotomy_inf (dom a) (dom b)) as [[L| ->]|G]; [left; apply Later; now repeat constructor| |right; right; lia].
    destruct (Ztrichotomy_inf (hr a) (hr b)) as [[L| ->]|G]; [left; do 3 apply Later; now constructor| |right; right; lia].
    destruct (Ztrichotomy_inf (mn a) (mn b)) as [[L| ->]|G]; [left; do 4 apply Later; now constructor| |right; right; lia].
    destruct (Ztrichotomy_inf (sc a / 2) (sc b / 2)) as [[L| ->]|G]; [left; do 5 apply Later; now constructor|right; left; reflexivity|right; right; lia]. }
  assert (Q : fields a = fields b -> stamp (yr a) (mon a) (dom a) (hr a) (mn a) (sc a / 2) = stamp (yr b) (mon b) (dom b) (hr b) (mn b) (sc b / 2)).
  { unfold fields. intros [= -> -> -> -> -> ->]. reflexivity. }
  split; split; auto.
  - intros L. destruct T as [T|[T|T]]; [exact T| |lia]. apply Q in T. lia.
  - intros L. destruct T as [T|[T|T]]; [|exact T|lia]. apply P in T. lia.
Qed.
