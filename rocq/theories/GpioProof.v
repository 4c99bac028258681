(* Proofs about the program gpio. *)
From Coq Require Import String Ascii Lia.
From Verif Require Import Base ExecModel DirModel GetoptModel GetoptSpec GetoptProof CliModel CliProof GpioModel GpioSpec.
Open Scope Z_scope.

(* --- numbers --- *)

Lemma digit_is c d : is_digit c d -> digit_of c = d.
Proof.
  intros H. unfold digit_of. destruct H as [[A ->]|[A [-> | ->]]];
    repeat match goal with |- context[if ?x then _ else _] => destruct x eqn:?E end; rewrite ?andb_true_iff, ?andb_false_iff, ?Z.leb_le, ?Z.leb_gt in *; lia.
Qed.
Lemma scan_reads base s v : reads base s v -> forall rest, scan base (s ++ rest) 0 = scan base rest v.
Proof.
  induction 1 as [|s v c d R IH D L]; intros rest; [reflexivity|]. rewrite <- app_assoc, IH. cbn [app scan]. rewrite (digit_is _ _ D), (proj2 (Z.ltb_lt _ _) L). reflexivity.
Qed.
(* a digit of some base, never a space, a sign or = *)
Definition figure (c : Z) : Prop := 48 <= c <= 57 \/ 65 <= c <= 70 \/ 97 <= c <= 102.
Lemma reads_figures base s v : reads base s v -> Forall figure s.
Proof.
  induction 1 as [|s v c d R IH D L]; [constructor|]. apply Forall_app. split; [exact IH|]. constructor; [|constructor]. unfold figure. destruct D as [[A ->]|[A [-> | ->]]]; lia.
Qed.
Lemma reads_low base s v : base <= 10 -> reads base s v -> Forall (fun c => 48 <= c <= 57 /\ c - 48 < base) s.
Proof.
  intros B. induction 1 as [|s v c d R IH D L]; [constructor|]. apply Forall_app. split; [exact IH|]. constructor; [|constructor]. destruct D as [[A ->]|[A [-> | ->]]]; lia.
Qed.
Definition stop (rest : list Z) : Prop := match rest with [] => True | c :: _ => c = 45 \/ c = 61 end.
Lemma scan_stop base rest v : base <= 16 -> stop rest -> scan base rest v = v.
Proof. intros B. destruct rest as [|c r]; [reflexivity|]. intros [-> | ->]; cbn [scan]; (rewrite (proj2 (Z.ltb_ge _ _)); [reflexivity|try change (digit_of 45) with 99; try change (digit_of 61) with 99; lia]). Qed.

Definition neat (s : list Z) : Prop := exists c r, s = c :: r /\ 48 <= c <= 57 /\ Forall (fun x => x <> 45 /\ x <> 61) s.
Lemma numeral_neat s v : numeral s v -> neat s.
Proof.
  intros H. unfold neat. destruct H as [c s v N R|s v R|x c s v X R].
  - exists c, s. split; [reflexivity|]. pose proof (reads_low 10 _ _ ltac:(lia) R) as F. split; [inversion F; lia|].
    eapply Forall_impl; [|exact F]. cbv beta. intros; lia.
  - exists 48, s. split; [reflexivity|]. split; [lia|]. constructor; [lia|]. eapply Forall_impl; [|exact (reads_figures _ _ _ R)]. unfold figure. intros; lia.
  - exists 48, (x :: c :: s). split; [reflexivity|]. split; [lia|]. do 2 (constructor; [lia|]). eapply Forall_impl; [|exact (reads_figures _ _ _ R)]. unfold figure. intros; lia.
Qed.

(* strtoul on a text beginning with an ordinary digit *)
Definition magnitude (s : list Z) : Z :=
  match s with
  | 48 :: x :: d :: r => if ((x =? 120) || (x =? 88)) && (digit_of d <? 16) then scan 16 (d :: r) 0 else scan 8 s 0
  | 48 :: _ => scan 8 s 0
  | _ => scan 10 s 0
  end.
Lemma strtoul_magnitude c r : 48 <= c <= 57 -> strtoul (c :: r) = if ULONG_MAX <? magnitude (c :: r) then (ULONG_MAX, true) else (magnitude (c :: r), false).
Proof.
  intros C. unfold strtoul. assert (S : skip_space (c :: r) = c :: r).
  { cbn [skip_space]. unfold isspace. destruct (c =? 32) eqn:E1, ((9 <=? c) && (c <=? 13)) eqn:E2; rewrite ?Z.eqb_eq, ?andb_true_iff, ?Z.leb_le in *; try lia; reflexivity. }
  rewrite S. rewrite (proj2 (Z.eqb_neq c 45)), (proj2 (Z.eqb_neq c 43)) by lia. reflexivity.
Qed.
Lemma magnitude_10 c r : c <> 48 -> magnitude (c :: r) = scan 10 (c :: r) 0.
Proof. intros N. unfold magnitude. repeat match goal with |- context[match ?x with _ => _ end] => is_var x; destruct x; try reflexivity end; lia. Qed.
Lemma magnitude_8 r : (forall x d t, r = x :: d :: t -> x <> 120 /\ x <> 88) -> magnitude (48 :: r) = scan 8 (48 :: r) 0.
Proof.
  intros N. destruct r as [|x [|d t]]; try reflexivity. destruct (N x d t eq_refl) as [A B]. cbn [magnitude]. rewrite (proj2 (Z.eqb_neq x 120) A), (proj2 (Z.eqb_neq x 88) B). reflexivity.
Qed.
Lemma magnitude_numeral s v rest : numeral s v -> stop rest -> magnitude (s ++ rest) = v.
Proof.
  intros H S. destruct H as [c s v N R|s v R|x c s v X R].
  - cbn [app]. rewrite magnitude_10 by exact N. change (c :: s ++ rest) with ((c :: s) ++ rest). rewrite (scan_reads _ _ _ R). apply scan_stop; [lia|exact S].
  - cbn [app]. rewrite magnitude_8.
    + change (scan 8 (48 :: s ++ rest) 0) with (scan 8 (s ++ rest) 0). rewrite (scan_reads _ _ _ R). apply scan_stop; [lia|exact S].
    + intros x d t E. pose proof (reads_low 8 _ _ ltac:(lia) R) as F. destruct s as [|y s].
      * destruct rest as [|z rest]; [discriminate|]. cbn [app] in E. injection E as -> ->. cbn in S. lia.
      * cbn [app] in E. injection E as -> _. inversion F; lia.
  - cbn [app magnitude]. assert (D : digit_of c <? 16 = true).
    { apply Z.ltb_lt. pose proof (reads_figures _ _ _ R) as F. inversion F as [|? ? G _]; subst. unfold figure in G. unfold digit_of.
      repeat match goal with |- context[if ?x then _ else _] => destruct x eqn:?E end; rewrite ?andb_true_iff, ?andb_false_iff, ?Z.leb_le, ?Z.leb_gt in *; lia. }
    rewrite D. replace ((x =? 120) || (x =? 88)) with true by (destruct X as [-> | ->]; reflexivity). cbn [andb].
    change (c :: s ++ rest) with ((c :: s) ++ rest). rewrite (scan_reads _ _ _ R). apply scan_stop; [lia|exact S].
Qed.
Lemma strtoul_numeral s v rest : numeral s v -> v <= ULONG_MAX -> stop rest -> strtoul (s ++ rest) = (v, false).
Proof.
  intros H V S. destruct (numeral_neat _ _ H) as (c & r & E & C & _). pose proof (magnitude_numeral _ _ _ H S) as M. rewrite E in *. cbn [app] in *.
  rewrite strtoul_magnitude by exact C. rewrite M. rewrite (proj2 (Z.ltb_ge _ _) V). reflexivity.
Qed.

Lemma behind_none c s : Forall (fun x => x <> c) s -> behind c s = None.
Proof. induction 1 as [|x s X F IH]; [reflexivity|]. cbn [behind]. rewrite (proj2 (Z.eqb_neq _ _) X). exact IH. Qed.
Lemma behind_app c a b : Forall (fun x => x <> c) a -> behind c (a ++ b) = behind c b.
Proof. induction 1 as [|x s X F IH]; [reflexivity|]. cbn [app behind]. rewrite (proj2 (Z.eqb_neq _ _) X). exact IH. Qed.
Lemma neat_no s : neat s -> Forall (fun x => x <> 45) s /\ Forall (fun x => x <> 61) s.
Proof. intros (c & r & _ & _ & F). split; (eapply Forall_impl; [|exact F]); cbv beta; tauto. Qed.

(* a target, perhaps with =NUM behind it *)
Definition value_part (rest : list Z) : Prop := rest = [] \/ exists n v, rest = 61 :: n /\ numeral n v.
Lemma value_stop rest : value_part rest -> stop rest.
Proof. intros [-> | (n & v & -> & _)]; cbn; auto. Qed.
Lemma value_no_dash rest : value_part rest -> behind 45 rest = None.
Proof. intros [-> | (n & v & -> & N)]; [reflexivity|]. cbn [behind Z.eqb Pos.eqb]. apply behind_none, neat_no, (numeral_neat _ _ N). Qed.
Lemma range_ok w lo hi rest : target w lo hi -> lo <= ULONG_MAX -> hi <= ULONG_MAX -> value_part rest -> range (w ++ rest) = inl (lo, hi).
Proof.
  intros T L H V. unfold range. destruct T as [s p N|a b lo hi A B].
  - rewrite (strtoul_numeral _ _ _ N L (value_stop _ V)). rewrite behind_app by apply neat_no, (numeral_neat _ _ N). rewrite value_no_dash by exact V. reflexivity.
  - rewrite <- app_assoc. rewrite (strtoul_numeral a lo _ A L) by (cbn; auto). rewrite behind_app by apply neat_no, (numeral_neat _ _ A).
    change (behind 45 ((45 :: b) ++ rest)) with (Some (b ++ rest)). cbv iota. rewrite (strtoul_numeral b hi _ B H (value_stop _ V)). reflexivity.
Qed.
Lemma range_ok0 w lo hi : target w lo hi -> lo < 30 -> hi < 30 -> range w = inl (lo, hi).
Proof. intros T L H. rewrite <- (app_nil_r w). apply range_ok; [exact T|unfold ULONG_MAX; lia|unfold ULONG_MAX; lia|now left]. Qed.
Lemma strtoul_numeral0 s v : numeral s v -> v <= ULONG_MAX -> strtoul s = (v, false).
Proof. intros N V. rewrite <- (app_nil_r s). apply strtoul_numeral; [exact N|exact V|exact I]. Qed.
Lemma target_no_eq w lo hi : target w lo hi -> Forall (fun x => x <> 61) w.
Proof.
  intros [s p N|a b l h A B]; [apply neat_no, (numeral_neat _ _ N)|]. apply Forall_app. split; [apply neat_no, (numeral_neat _ _ A)|].
  constructor; [lia|]. apply neat_no, (numeral_neat _ _ B).
Qed.
Lemma target_head w lo hi : target w lo hi -> exists c r, w = c :: r /\ 48 <= c <= 57.
Proof.
  intros [s p N|a b l h A B]; [destruct (numeral_neat _ _ N) as (c & r & -> & C & _); eauto|]. destruct (numeral_neat _ _ A) as (c & r & -> & C & _). cbn [app]. eauto.
Qed.

(* --- loops --- *)

Lemma reads_pos base s v : 0 <= base -> reads base s v -> 0 <= v.
Proof. intros B. induction 1 as [|s v c d R IH D L]; [lia|]. destruct D as [[A _]|[A _]]; nia. Qed.
Lemma numeral_pos s v : numeral s v -> 0 <= v.
Proof. intros [c r x N R|r x R|x c r y X R]; eapply reads_pos; try exact R; lia. Qed.
Lemma target_pos w lo hi : target w lo hi -> 0 <= lo.
Proof. intros [s p N|a b l h A B]; eapply numeral_pos; eauto. Qed.

Lemma each_ok {T} (body : T -> Z -> res T) (I : T -> Z -> Prop) lo hi :
  (forall s q, lo <= q <= hi -> I s q -> exists s', body s q = Ok s' /\ I s' (q + 1)) ->
  forall k s p, lo <= p -> I s p -> hi + 1 - p < Z.of_nat k -> (0 < k)%nat -> exists s', each k body s p hi = Ok s' /\ I s' (Z.max p (hi + 1)).
Proof.
  intros H. induction k as [|k IH]; intros s p L J K P; [lia|]. cbn [each]. destruct (Z.leb_spec p hi) as [G|G].
  - destruct (H s p (conj L G) J) as (s' & E & J'). rewrite E. cbn [bind]. destruct (IH s' (p + 1)) as (s2 & E2 & J2); try lia; try exact J'. exists s2. split; [exact E2|].
    replace (Z.max p (hi + 1)) with (Z.max (p + 1) (hi + 1)) by lia. exact J2.
  - exists s. split; [reflexivity|]. now replace (Z.max p (hi + 1)) with p by lia.
Qed.
Lemma from_to_snoc lo q : lo <= q -> from_to lo q = from_to lo (q - 1) ++ [q].
Proof.
  intros L. unfold from_to. replace (Z.to_nat (q + 1 - lo)) with (S (Z.to_nat (q - 1 + 1 - lo))) by lia. rewrite seq_S, map_app. cbn [map]. do 2 f_equal. lia.
Qed.
Lemma from_to_nil lo q : q < lo -> from_to lo q = [].
Proof. intros L. unfold from_to. replace (Z.to_nat (q + 1 - lo)) with 0%nat by lia. reflexivity. Qed.
Lemma from_to_max lo hi : from_to lo (Z.max lo (hi + 1) - 1) = from_to lo hi.
Proof. destruct (Z.max_spec lo (hi + 1)) as [[A ->]|[A ->]]; [f_equal; lia|]. now rewrite !from_to_nil by lia. Qed.

Lemma each_print (body : list Z -> Z -> res (list Z)) (f : Z -> list Z) lo hi : 0 <= lo < 30 -> hi < 30 -> (forall o q, lo <= q <= hi -> body o q = Ok (o ++ f q)) ->
  each ROUNDS body [] lo hi = Ok (flat_map f (from_to lo hi)).
Proof.
  intros L Hh H. destruct (each_ok body (fun o q => o = flat_map f (from_to lo (q - 1))) lo hi) with (k := ROUNDS) (s := @nil Z) (p := lo) as (s' & E & J).
  - intros s q Q ->. exists (flat_map f (from_to lo (q - 1)) ++ f q). split; [apply H; lia|]. replace (q + 1 - 1) with q by lia. rewrite (from_to_snoc lo q) by lia.
    rewrite flat_map_app. cbn [flat_map]. now rewrite app_nil_r.
  - lia.
  - now rewrite from_to_nil by lia.
  - change (Z.of_nat ROUNDS) with 34. lia.
  - unfold ROUNDS. lia.
  - rewrite E, J, from_to_max. reflexivity.
Qed.
Lemma each_board (body : board -> Z -> res board) (f : pin -> pin) lo hi b : 0 <= lo < 30 -> hi < 30 ->
  (forall c q, lo <= q <= hi -> exists c', body c q = Ok c' /\ c' q = f (c q) /\ forall p, p <> q -> c' p = c p) ->
  exists b', each ROUNDS body b lo hi = Ok b' /\ (forall p, lo <= p <= hi -> b' p = f (b p)) /\ (forall p, ~ lo <= p <= hi -> b' p = b p).
Proof.
  intros L Hh H. destruct (each_ok body (fun c q => (forall p, lo <= p < q -> c p = f (b p)) /\ forall p, ~ lo <= p < q -> c p = b p) lo hi) with (k := ROUNDS) (s := b) (p := lo) as (b' & E & J1 & J2).
  - intros c q Q [J1 J2]. destruct (H c q Q) as (c' & E & C1 & C2). exists c'. split; [exact E|]. split; intros p P.
    + destruct (Z.eq_dec p q) as [->|N]; [rewrite C1, J2 by lia; reflexivity|rewrite C2 by exact N; apply J1; lia].
    + rewrite C2 by lia. apply J2. lia.
  - lia.
  - split; intros p P; [lia|reflexivity].
  - change (Z.of_nat ROUNDS) with 34. lia.
  - unfold ROUNDS. lia.
  - exists b'. split; [exact E|]. split; intros p P; [apply J1|apply J2]; lia.
Qed.

Lemma seen_shows ext b p : shows ext b p = seen ext b p.
Proof. unfold shows, seen, SIO. destruct (func (b p) =? 5), (oe (b p)); reflexivity. Qed.
Lemma get_ok ext b p : p < 30 -> gpio_get ext b p = Ok (seen ext b p).
Proof. intros P. unfold gpio_get, PINS. rewrite (proj2 (Z.ltb_lt _ _) P), seen_shows. reflexivity. Qed.
Lemma func_name_ok f : f <> 31 -> func_name f = if 0 <=? f then nth (Z.to_nat f) functions (str "(unknown)") else str "(unknown)".
Proof.
  intros N. destruct (Z.leb_spec 0 f) as [P|P].
  - destruct (Z.lt_ge_cases f 10) as [L|L].
    + assert (C : f = 0 \/ f = 1 \/ f = 2 \/ f = 3 \/ f = 4 \/ f = 5 \/ f = 6 \/ f = 7 \/ f = 8 \/ f = 9) by lia.
      repeat destruct C as [-> | C]; try reflexivity. subst f. reflexivity.
    + rewrite nth_overflow by (change (List.length functions) with 10%nat; lia).
      destruct f as [|p|p]; try lia. do 5 (destruct p as [p|p|]; try reflexivity; try lia).
  - destruct f as [|p|p]; try lia. reflexivity.
Qed.
Lemma table_ok ext b : show_all ext b = Ok (table ext b).
Proof.
  unfold show_all, table. apply (each_print (show_pin ext b) (line ext b) 0 29); try lia. intros o q Q. unfold show_pin, line, FUNC_NULL, SIO.
  destruct (func (b q) =? 31) eqn:E1; [now rewrite <- !app_assoc|]. destruct (func (b q) =? 5) eqn:E2.
  - unfold show_signal. rewrite get_ok by lia. cbn [bind]. unfold bit. destruct (oe (b q)), (seen ext b q), (pu (b q)), (pd (b q)); rewrite <- ?app_assoc; reflexivity.
  - rewrite func_name_ok by (now apply Z.eqb_neq). now rewrite <- !app_assoc.
Qed.

Lemma set_pin_same b p x : set_pin b p x p = x.
Proof. unfold set_pin. now rewrite Z.eqb_refl. Qed.
Lemma set_pin_other b p x q : q <> p -> set_pin b p x q = b q.
Proof. intros N. unfold set_pin. now rewrite (proj2 (Z.eqb_neq _ _) N). Qed.
Lemma configure1_ok m c q : q < 30 -> exists c', configure1 m c q = Ok c' /\ c' q = configured m (c q) /\ forall p, p <> q -> c' p = c p.
Proof.
  intros Q. unfold configure1, gpio_set_dir, gpio_put, gpio_set_function, gpio_set_pulls, PINS. rewrite !(proj2 (Z.ltb_lt _ _) Q).
  destruct m; cbn [bind]; (eexists; split; [reflexivity|]; split; [rewrite ?set_pin_same; cbn; rewrite ?set_pin_same; reflexivity|intros p N; now rewrite ?set_pin_other by exact N]).
Qed.

Lemma get_word_ok ext b w lo hi : target w lo hi -> lo < 30 -> hi < 30 -> get_set ext b w = Ok (b, flat_map (fun p => [32; bit (seen ext b p)]) (from_to lo hi)).
Proof.
  intros T L H. pose proof (target_pos _ _ _ T) as P. unfold get_set. rewrite (range_ok0 w lo hi T L H).
  rewrite behind_none by exact (target_no_eq _ _ _ T). rewrite each_print with (f := fun p => [32; bit (seen ext b p)]); [reflexivity|lia|lia|].
  intros o q Q. rewrite get_ok by lia. reflexivity.
Qed.
Lemma put_word_ok ext b w n lo hi v : target w lo hi -> numeral n v -> lo < 30 -> hi < 30 -> v <= ULONG_MAX -> exists b', get_set ext b (w ++ 61 :: n) = Ok (b', []) /\
  (forall p, lo <= p <= hi -> b' p = Pin (func (b p)) (oe (b p)) (negb (v =? 0)) (pu (b p)) (pd (b p))) /\ (forall p, ~ lo <= p <= hi -> b' p = b p).
Proof.
  intros T N L H V. pose proof (target_pos _ _ _ T) as P. unfold get_set. rewrite (range_ok w lo hi); [|exact T|unfold ULONG_MAX; lia|unfold ULONG_MAX; lia|right; eauto].
  rewrite behind_app by exact (target_no_eq _ _ _ T). change (behind 61 (61 :: n)) with (Some n). cbv iota. rewrite (strtoul_numeral0 n v N V).
  destruct (each_board (fun b p => gpio_put b p (negb (v =? 0))) (fun x => Pin (func x) (oe x) (negb (v =? 0)) (pu x) (pd x)) lo hi b) as (b' & E & B); try lia.
  - intros c q Q. unfold gpio_put, PINS. rewrite (proj2 (Z.ltb_lt q 30)) by lia. eexists. split; [reflexivity|]. split; [apply set_pin_same|intros p Np; now apply set_pin_other].
  - exists b'. rewrite E. split; [reflexivity|exact B].
Qed.
Lemma conf_word_ok b m w lo hi : target w lo hi -> lo < 30 -> hi < 30 -> exists b', configure b w m = Ok (b', []) /\
  (forall p, lo <= p <= hi -> b' p = configured m (b p)) /\ (forall p, ~ lo <= p <= hi -> b' p = b p).
Proof.
  intros T L H. pose proof (target_pos _ _ _ T) as P. unfold configure. rewrite (range_ok0 w lo hi T L H).
  destruct (each_board (configure1 m) (configured m) lo hi b) as (b' & E & B); try lia.
  - intros c q Q. apply configure1_ok. lia.
  - exists b'. rewrite E. split; [reflexivity|exact B].
Qed.

(* --- the command line --- *)

Lemma is_not c r s : match str s with [] => True | x :: _ => x <> c end -> is (c :: r) s = false.
Proof. intros H. unfold is. destruct (list_eq_dec Z.eq_dec (c :: r) (str s)) as [E|E]; [|reflexivity]. rewrite <- E in H. contradiction. Qed.
Lemma round_word ext s c r : 48 <= c <= 57 -> gpio_round ext s 1 (Some (c :: r)) =
  ('(b, o) <- match md s with GETSET => get_set ext (now s) (c :: r) | m => configure (now s) (c :: r) m end ;; Ok (Go (St b (md s) (argcount s + 1) (out s ++ o)))).
Proof. intros C. unfold gpio_round. cbn [Z.eqb Pos.eqb]. rewrite !is_not by (cbn; lia). reflexivity. Qed.
Lemma round_ok ext s w a : spelled w a -> allowed1 (md s) a -> exists b o, gpio_round ext s 1 (Some w) = Ok (Go (St b (after (md s) a) (argcount s + 1) (out s ++ o))) /\
  performed ext (md s) (now s) a b o.
Proof.
  intros S A. destruct S as [| | | | |w lo hi T|w n lo hi v T N|w lo hi T]; cbn [allowed1 after] in *.
  - exists (now s), (table ext (now s)). split; [|constructor]. unfold gpio_round. cbn [Z.eqb Pos.eqb]. change (is (str "info") "info") with true. cbv iota zeta. rewrite table_ok. reflexivity.
  - exists (now s), []. split; [rewrite app_nil_r; reflexivity|constructor].
  - exists (now s), []. split; [rewrite app_nil_r; reflexivity|constructor].
  - exists (now s), []. split; [rewrite app_nil_r; reflexivity|constructor].
  - exists (now s), []. split; [rewrite app_nil_r; reflexivity|constructor].
  - destruct A as [M [L H]]. destruct (target_head _ _ _ T) as (c & r & E & C). eexists (now s), _. split; [|constructor]. rewrite E, round_word by exact C. rewrite <- E, M. cbv iota.
    rewrite (get_word_ok _ _ _ _ _ T L H). reflexivity.
  - destruct A as [M [[L H] V]]. destruct (target_head _ _ _ T) as (c & r & E & C). destruct (put_word_ok ext (now s) w n lo hi v T N L H V) as (b' & G & B1 & B2).
    exists b', []. split; [|now constructor]. rewrite E in *. cbn [app] in *. rewrite round_word by exact C. rewrite M, G. reflexivity.
  - destruct A as [M [L H]]. destruct (target_head _ _ _ T) as (c & r & E & C). destruct (conf_word_ok (now s) (md s) w lo hi T L H) as (b' & G & B1 & B2).
    exists b', []. split; [|now constructor]. rewrite E in *. rewrite round_word by exact C. destruct (md s); [contradiction|rewrite G; reflexivity..].
Qed.
Lemma rounds_ok ext : forall ws acts s, Forall2 spelled ws acts -> allowed (md s) acts -> exists b o m, fold_rounds (gpio_round ext) s (map (fun w => (1, Some w)) ws) =
  Ok (Go (St b m (argcount s + Z.of_nat (List.length ws)) (out s ++ o))) /\ performs ext (md s) (now s) acts b o.
Proof.
  intros ws acts s F. revert s. induction F as [|w a ws acts S F IH]; intros s A.
  - exists (now s), [], (md s). split; [|constructor]. cbn. rewrite app_nil_r, Z.add_0_r. destruct s; reflexivity.
  - destruct A as [A1 A2]. destruct (round_ok ext s w a S A1) as (b1 & o1 & E1 & P1). cbn [map fold_rounds]. rewrite E1. cbn [bind].
    destruct (IH (St b1 (after (md s) a) (argcount s + 1) (out s ++ o1)) A2) as (b2 & o2 & m2 & E2 & P2). cbn [now md argcount out] in *. exists b2, (o1 ++ o2), m2. split.
    + rewrite E2. rewrite <- app_assoc. do 3 f_equal. cbn [List.length]. lia.
    + econstructor; eauto.
Qed.

Lemma plain_words ws : flat_map item_words (map Plain ws) = ws.
Proof. induction ws as [|w ws IH]; [reflexivity|]. cbn [map flat_map item_words app]. now rewrite IH. Qed.
Lemma plain_results ws : flat_map (item_results longs) (map Plain ws) = map (fun w => (1, Some w)) ws.
Proof. induction ws as [|w ws IH]; [reflexivity|]. cbn [map flat_map item_results app]. now rewrite IH. Qed.
Lemma spelled_plain w a : spelled w a -> hd 0 w <> 45.
Proof.
  intros [| | | | |x lo hi T|x n lo hi v T N|x lo hi T]; try (cbn; lia); destruct (target_head _ _ _ T) as (c & r & -> & C); cbn; lia.
Qed.
Lemma main_options ext b prog ws fuel : prog <> [45; 45] -> (List.length ws < fuel)%nat -> Forall (fun w => hd 0 w <> 45) ws ->
  options fuel [104] (gpio_round ext) (prog :: ws) (St b GETSET 0 []) opt0 = fold_rounds (gpio_round ext) (St b GETSET 0 []) (map (fun w => (1, Some w)) ws).
Proof.
  intros P L F. rewrite <- plain_results. rewrite <- (plain_words ws) at 1. change [104] with (shorts_string [(104, No)]). apply options_items.
  - repeat constructor; discriminate.
  - apply Forall_forall. intros it I. apply in_map_iff in I as (w & <- & I). cbn. left. rewrite Forall_forall in F. auto.
  - exact P.
  - rewrite plain_results. apply Forall_forall. intros x I. apply in_map_iff in I as (w & <- & _). cbn. lia.
  - rewrite plain_results, map_length. exact L.
Qed.
Lemma main_ok ext b prog ws acts fuel : Forall2 spelled ws acts -> allowed GETSET acts -> prog <> [45; 45] -> ws <> [] -> (List.length ws < fuel)%nat ->
  exists b' o, gpio_main fuel ext b (prog :: ws) = Ok (b', o) /\ performs ext GETSET b acts b' o.
Proof.
  intros F A P N L. unfold gpio_main. rewrite main_options; try assumption.
  - destruct (rounds_ok ext ws acts (St b GETSET 0 []) F A) as (b' & o & m & E & R). rewrite E. cbn [bind argcount out now].
    rewrite (proj2 (Z.eqb_neq _ 0)) by (destruct ws; [contradiction|cbn [List.length argcount]; lia]). exists b', o. split; [reflexivity|exact R].
  - clear A N L. induction F; constructor; eauto using spelled_plain.
Qed.
Lemma main_none ext b prog fuel : prog <> [45; 45] -> (0 < fuel)%nat -> gpio_main fuel ext b [prog] = Ok (b, table ext b).
Proof.
  intros P L. unfold gpio_main. rewrite (main_options ext b prog [] fuel P L) by constructor. cbn [map fold_rounds bind argcount now out Z.eqb]. rewrite table_ok. reflexivity.
Qed.
