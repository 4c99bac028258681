From Verif Require Import Base CrcSpec FutfModel FutfSpec FutfProof LfnModel LfnSpec LfnProof FdirModel FdirSpec FdirProof FdirProof3 FnameModel FnameSpec FnameProof FnameProof2 FnameProof3.
Open Scope Z_scope.

(* --- names which differ in case ------------------------------------------------------------ *)
Lemma up_sfn c : sfn_char (up c) <-> sfn_char c.
Proof. unfold sfn_char, up. cbn [In]. destruct ((97 <=? c) && (c <=? 122)) eqn:Q; lia. Qed.
Lemma up_dot c : up c = 46 <-> c = 46.
Proof. unfold up. destruct ((97 <=? c) && (c <=? 122)) eqn:Q; lia. Qed.
Lemma up_sfn_all l m : map up l = map up m -> Forall sfn_char m -> Forall sfn_char l.
Proof.
  revert m. induction l as [|c l IH]; intros [|d m] E F; try discriminate; [constructor|]. cbn [map] in E. injection E as E1 E2. inversion F; subst. constructor; [|eauto]. apply up_sfn. rewrite E1. now apply up_sfn.
Qed.
Lemma up_dot_in l m : map up l = map up m -> In 46 l -> In 46 m.
Proof.
  revert m. induction l as [|c l IH]; intros [|d m] E I; try discriminate; [destruct I|]. cbn [map] in E. injection E as E1 E2. destruct I as [->|I]; [left; apply up_dot; rewrite <- E1; now apply up_dot|right; eauto].
Qed.
Lemma upper_ascii c d : 0 <= c < 65536 -> 0 <= d < 128 -> upper c = upper d <-> up c = up d.
Proof.
  intros C D. destruct (upper_ok c C) as (_ & _ & _ & C1 & C2 & _). destruct (upper_ok d ltac:(lia)) as (_ & _ & _ & _ & D2 & _). specialize (D2 ltac:(lia)).
  fold (up d) in D2. rewrite D2. assert (up d < 128) by (unfold up; destruct ((97 <=? d) && (d <=? 122)); lia). destruct (Z.ltb_spec c 128).
  - specialize (C2 ltac:(lia)). fold (up c) in C2. now rewrite C2.
  - specialize (C1 ltac:(lia)). assert (up c = c) by (unfold up; replace ((97 <=? c) && (c <=? 122)) with false by lia; auto). lia.
Qed.
Definition u16 (w : list Z) : Prop := Forall (fun u => 0 < u < 65536) w.
Lemma same_up w x : u16 w -> Forall (fun c => 0 <= c < 128) x -> same_name w x <-> map up w = map up x.
Proof.
  intros W X. unfold same_name. revert x X. induction W as [|c w C W IH]; intros [|d x] X; cbn [map]; try (split; [discriminate|discriminate]); [tauto|].
  inversion X as [|? ? D X']; subst. specialize (IH x X'). pose proof (upper_ascii c d ltac:(lia) D) as U. split; intros E; injection E as E1 E2; f_equal; tauto.
Qed.
Lemma sfn_ascii l : Forall sfn_char l -> Forall (fun c => 0 <= c < 128) l.
Proof. apply Forall_impl. intros c [R _]. lia. Qed.
Lemma split_ascii x b e : split_name x b e -> fits b e -> Forall (fun c => 0 <= c < 128) x.
Proof.
  intros [(-> & _)|(-> & _)] (_ & _ & F1 & F2); [now apply sfn_ascii|]. apply Forall_app. split; [now apply sfn_ascii|]. constructor; [lia|now apply sfn_ascii].
Qed.

Lemma same_83 w x b e : u16 w -> same_name w x -> split_name x b e -> fits b e -> exists b' e', split_name w b' e' /\ fits b' e' /\ map up b' = map up b /\ map up e' = map up e.
Proof.
  intros W S Sp F. pose proof (split_ascii x b e Sp F) as A. apply (same_up w x W A) in S. destruct F as (F1 & F2 & F3 & F4).
  destruct Sp as [(-> & -> & N)|(-> & N)].
  - exists w, []. split; [left; split; [auto|]; split; [auto|]; intros I; apply N; eapply up_dot_in; eauto|]. split; [|auto].
    split; [rewrite <- (map_length up w), S, map_length; auto|]. split; [auto|]. split; [eapply up_sfn_all; eauto|auto].
  - rewrite map_app in S. cbn [map] in S. apply map_eq_app in S as (b' & r & -> & Eb & Er). apply map_eq_cons in Er as (c & e' & -> & Ec & Ee).
    assert (c = 46) by (apply up_dot; rewrite Ec; now apply up_dot). subst c. exists b', e'.
    split; [right; split; [auto|]; intros I; apply N; eapply up_dot_in; eauto|]. split; [|auto].
    split; [rewrite <- (map_length up b'), Eb, map_length; auto|]. split; [rewrite <- (map_length up e'), Ee, map_length; auto|]. split; eapply up_sfn_all; eauto.
Qed.
Lemma pad_ext b e b' e' k : map up b' = map up b -> map up e' = map up e -> pad b' e' k = pad b e k.
Proof. intros E1 E2. unfold pad. now rewrite E1, E2. Qed.

(* Short names tell names apart. *)
Lemma padded l m n : (length l <= n)%nat -> (length m <= n)%nat -> Forall (fun c => c <> 32) l -> Forall (fun c => c <> 32) m -> (forall j, (j < n)%nat -> nth j l 32 = nth j m 32) -> l = m.
Proof.
  revert m n. induction l as [|c l IH]; intros [|d m] n L M Fl Fm E; [auto| | |].
  - inversion Fm; subst. specialize (E 0%nat). destruct n; [cbn in M; lia|]. cbn in E. specialize (E ltac:(lia)). congruence.
  - inversion Fl; subst. specialize (E 0%nat). destruct n; [cbn in L; lia|]. cbn in E. specialize (E ltac:(lia)). congruence.
  - destruct n; [cbn in L; lia|]. inversion Fl; inversion Fm; subst. f_equal; [apply (E 0%nat); lia|]. apply (IH m n); auto; [cbn in L; lia|cbn in M; lia|]. intros j J. apply (E (S j)). lia.
Qed.
Lemma up_space l : Forall sfn_char l -> Forall (fun c => c <> 32) (map up l).
Proof. intros F. rewrite Forall_map. revert F. apply Forall_impl. intros c C. apply up_sfn in C. destruct C. lia. Qed.
Lemma pad_inj b e b' e' : fits b e -> fits b' e' -> (forall k, 0 <= k < 11 -> pad b e k = pad b' e' k) -> map up b = map up b' /\ map up e = map up e'.
Proof.
  intros (A1 & A2 & A3 & A4) (B1 & B2 & B3 & B4) E. split.
  - apply (padded _ _ 8); rewrite ?map_length; try lia; try now apply up_space. intros j J. specialize (E (Z.of_nat j) ltac:(lia)). unfold pad in E. replace (Z.of_nat j <? 8) with true in E by lia. now rewrite Nat2Z.id in E.
  - apply (padded _ _ 3); rewrite ?map_length; try lia; try now apply up_space. intros j J. specialize (E (8 + Z.of_nat j) ltac:(lia)). unfold pad in E. replace (8 + Z.of_nat j <? 8) with false in E by lia. now replace (Z.to_nat (8 + Z.of_nat j - 8)) with j in E by lia.
Qed.
Lemma join_up x b e y b' e' : split_name x b e -> split_name y b' e' -> fits b e -> fits b' e' -> (e = [] -> ~ In 46 x) -> (e' = [] -> ~ In 46 y) -> map up b = map up b' -> map up e = map up e' -> map up x = map up y.
Proof.
  intros S1 S2 F1 F2 N1 N2 E1 E2. assert (D : forall (b e : list Z), In 46 (b ++ 46 :: e)) by (intros; rewrite in_app_iff; cbn; auto).
  destruct S1 as [(-> & -> & Q1)|(-> & Q1)], S2 as [(-> & -> & Q2)|(-> & Q2)].
  - auto.
  - cbn in E2. symmetry in E2. apply map_eq_nil in E2. subst. exfalso. apply N2; auto.
  - cbn in E2. apply map_eq_nil in E2. subst. exfalso. apply N1; auto.
  - rewrite !map_app. cbn [map]. now rewrite E1, E2.
Qed.

Lemma split_exists x : exists b e, split_name x b e.
Proof.
  induction x as [|c x (b & e & IH)]; [exists [], []; left; auto|]. destruct IH as [(-> & -> & N)|(-> & N)].
  - destruct (Z.eq_dec c 46) as [->|C]; [exists [], x; right; auto|]. exists (c :: x), []. left. split; [auto|]. split; [auto|]. intros [|]; auto.
  - exists (c :: b), e. right. auto.
Qed.
Lemma fits_dec b e : fits b e \/ ~ fits b e.
Proof.
  unfold fits. destruct (Nat.le_gt_cases (length b) 8); [|right; lia]. destruct (Nat.le_gt_cases 1 (length b)); [|right; lia]. destruct (Nat.le_gt_cases (length e) 3); [|right; lia].
  destruct (all_dec b); [|right; tauto]. destruct (all_dec e); [|right; tauto]. left. auto.
Qed.
Lemma is_83_dec x : is_83 x \/ ~ is_83 x.
Proof.
  destruct (split_exists x) as (b & e & S). destruct (fits_dec b e) as [F|F]; [left; exists b, e; auto|]. right. intros (b' & e' & S' & F'). destruct (split_unique x b' e' b e S' S) as [-> ->]. auto.
Qed.
Lemma no_loss x last fn : form x last fn -> has (fn 11) 1 = false -> is_83 x.
Proof. intros F N. destruct (is_83_dec x); [auto|]. apply (fm_loss _ _ _ F) in H. congruence. Qed.
Lemma some_loss x last fn : form x last fn -> has (fn 11) 1 = true -> ~ is_83 x.
Proof. intros F N. now apply (fm_loss _ _ _ F). Qed.

Lemma clean_dot x b e : clean x -> split_name x b e -> e = [] -> ~ In 46 x.
Proof.
  intros [_ L] [(-> & _ & N)|(-> & _)] ->; [auto|]. exfalso. apply (L b 46); [auto|]. right. auto.
Qed.

Theorem short_tells x y lx ly fx fy : clean x -> clean y -> form x lx fx -> form y ly fy -> has (fx 11) 1 = false -> has (fy 11) 1 = false ->
  short_same fx fy <-> same_name x y.
Proof.
  intros Cx Cy Fx Fy Nx Ny. destruct (no_loss x lx fx Fx Nx) as (b & e & Sx & Fb). destruct (no_loss y ly fy Fy Ny) as (b' & e' & Sy & Fb').
  pose proof (fm_short _ _ _ Fx b e Sx Fb) as Px. pose proof (fm_short _ _ _ Fy b' e' Sy Fb') as Py. split.
  - intros E. apply same_up; [apply xunits_pos, Cx|eapply split_ascii; eauto|].
    destruct (pad_inj b e b' e' Fb Fb') as [E1 E2]; [intros k K; rewrite <- Px, <- Py by auto; auto|].
    eapply join_up; eauto; eapply clean_dot; eauto.
  - intros E k K. rewrite Px, Py by auto. destruct (same_83 x y b' e' (xunits_pos x (proj1 Cx)) E Sy Fb') as (b2 & e2 & S2 & F2 & E1 & E2). destruct (split_unique x b2 e2 b e S2 Sx) as [-> ->]. now apply pad_ext.
Qed.

(* --- one directory ------------------------------------------------------------------------ *)
Lemma hit_alias x last fn w e l : form x last fn -> u16 w -> w <> [] -> Forall (fun f => fst f <> [] -> forall body ext, split_name (fst f) body ext -> fits body ext -> forall k, 0 <= k < 11 -> snd f k = pad body ext k) l ->
  In (w, e) l -> same_name w x -> has (fn 11) 1 = false -> short_same e fn.
Proof.
  intros F Cw Nw A I S N. destruct (no_loss x last fn F N) as (b & ex & Sx & Fx). destruct (same_83 w x b ex Cw S Sx Fx) as (b' & e' & Sw & Fw & E1 & E2).
  rewrite Forall_forall in A. specialize (A _ I Nw b' e' Sw Fw). intros k K. cbn in A. rewrite A by auto. rewrite (fm_short _ _ _ F b ex Sx Fx) by auto. now apply pad_ext.
Qed.
Lemma ord_pairs {A} (R : A -> A -> Prop) : forall l a f b, ForallOrdPairs R l -> l = a ++ f :: b -> Forall (fun g => R g f) a /\ Forall (R f) b.
Proof.
  induction l as [|x l IH]; intros a f b O E; [destruct a; discriminate|]. inversion O as [|? ? O1 O2]; subst. destruct a as [|y a]; cbn in E; injection E as -> ->; [split; [constructor|auto]|].
  destruct (IH a f b O2 eq_refl) as [I1 I2]. split; [|auto]. constructor; [|auto]. rewrite Forall_forall in O1. apply O1. rewrite in_app_iff. cbn. auto.
Qed.
Lemma pairs_remove {A} (R : A -> A -> Prop) : forall a f b, ForallOrdPairs R (a ++ f :: b) -> ForallOrdPairs R (a ++ b).
Proof.
  induction a as [|x a IH]; intros f b O; cbn in *; inversion O as [|? ? O1 O2]; subst; [auto|]. constructor; [|eauto]. rewrite Forall_app in *. destruct O1 as [O1 O3]. inversion O3; auto.
Qed.
Lemma pairs_insert {A} (R : A -> A -> Prop) : forall a f b, ForallOrdPairs R (a ++ b) -> Forall (fun g => R g f) a -> Forall (R f) b -> ForallOrdPairs R (a ++ f :: b).
Proof.
  induction a as [|x a IH]; intros f b O Fa Fb; cbn in *; [constructor; auto|]. inversion O as [|? ? O1 O2]; subst. inversion Fa; subst. constructor; [|auto]. rewrite Forall_app in *. destruct O1. split; auto.
Qed.
Lemma short_sym a b : short_same a b -> short_same b a.
Proof. intros H k K. symmetry. auto. Qed.
Lemma short_trans a b c : short_same a b -> short_same b c -> short_same a c.
Proof. intros H G k K. rewrite H by auto. auto. Qed.

(* Stored long names are units. *)
Lemma stored_units t : forall l p, laid t p l -> Forall (fun f : entry_t => fst f <> [] -> name_ok (fst f)) (files l).
Proof.
  induction l as [|x l IH]; intros p L; cbn [files]; [constructor|]. destruct L as [S L]. destruct x as [|e|w e]; [eauto|eauto|]. constructor; [|eauto]. cbn. intros N. destruct S as (_ & _ & S). now apply S.
Qed.

(* A name is that of one file only. *)
Definition long_clean (l : list item) : Prop := Forall (fun f => fst f <> [] -> u16 (fst f)) (files l).

Theorem hit_one l x last fn a f b : names_ok l -> long_clean l -> form x last fn -> files l = a ++ f :: b -> hit x fn f -> Forall (fun g => ~ hit x fn g) (a ++ b).
Proof.
  intros [N1 N2 N3] C F E H. destruct (ord_pairs _ _ _ _ _ N1 E) as [S1 S2]. destruct (ord_pairs _ _ _ _ _ N2 E) as [L1 L2].
  assert (R : forall g, In g (files l) -> (short_same (snd g) (snd f) -> False) -> (fst g <> [] -> fst f <> [] -> same_name (fst g) (fst f) -> False) -> ~ hit x fn g).
  { intros g I Sh Lo G. unfold long_clean in C. rewrite Forall_forall in C.
    assert (If : In f (files l)) by (rewrite E, in_app_iff; cbn; auto).
    destruct H as [(_ & Hw & Hs)|(Hl & Hs)], G as [(_ & Gw & Gs)|(Gl & Gs)].
    - apply Lo; auto. unfold same_name in *. congruence.
    - apply Sh. apply (short_trans _ fn); [auto|]. apply short_sym. destruct f as [w e]. apply (hit_alias x last fn w e (files l)); auto. now apply (C (w, e)).
    - apply Sh. apply (short_trans _ fn); [|now apply short_sym]. destruct g as [w e]. apply (hit_alias x last fn w e (files l)); auto. now apply (C (w, e)).
    - apply Sh. apply (short_trans _ fn); [auto|now apply short_sym]. }
  rewrite Forall_forall in *. intros g I. assert (Ig : In g (files l)) by (rewrite E; rewrite in_app_iff in *; cbn; tauto).
  apply in_app_iff in I as [I|I]; apply R; auto.
  - intros Q. now apply (S1 g I).
  - intros Q1 Q2 Q3. now apply (L1 g I).
  - intros Q. apply short_sym in Q. now apply (S2 g I).
  - intros Q1 Q2 Q3. apply (L2 g I); auto. unfold same_name in *. auto.
Qed.

Theorem remove_names l1 w e l2 n : names_ok (l1 ++ File w e :: l2) -> long_clean (l1 ++ File w e :: l2) -> names_ok (l1 ++ repeat Hole n ++ l2) /\ long_clean (l1 ++ repeat Hole n ++ l2).
Proof.
  assert (E : files (l1 ++ repeat Hole n ++ l2) = files l1 ++ files l2) by now rewrite !files_app, files_holes.
  assert (E1 : files (l1 ++ File w e :: l2) = files l1 ++ (w, e) :: files l2) by now rewrite files_app.
  intros [N1 N2 N3] C. unfold long_clean in *. rewrite E1 in *. rewrite E. split; [constructor; rewrite E|].
  - eapply pairs_remove; eauto.
  - eapply pairs_remove; eauto.
  - rewrite Forall_app in *. destruct N3 as [A B]. inversion B; auto.
  - rewrite Forall_app in *. destruct C as [A B]. inversion B; auto.
Qed.

Theorem insert_names l1 h l2 x last fn w e f : form x last fn -> clean x -> x <> [] -> names_ok (l1 ++ repeat Hole h ++ l2) -> long_clean (l1 ++ repeat Hole h ++ l2) ->
  Forall (fun g => ~ hit x fn g) (files (l1 ++ repeat Hole h ++ l2)) -> w = (if has (fn 11) 2 then x else []) -> short_same e f ->
  (if has (fn 11) 1 then Forall (fun g => ~ short_same (snd g) f) (files (l1 ++ repeat Hole h ++ l2)) else short_same f fn) ->
  names_ok (l1 ++ File w e :: l2) /\ long_clean (l1 ++ File w e :: l2) /\ hit x fn (w, e).
Proof.
  assert (E : files (l1 ++ repeat Hole h ++ l2) = files l1 ++ files l2) by now rewrite !files_app, files_holes.
  assert (E1 : files (l1 ++ File w e :: l2) = files l1 ++ (w, e) :: files l2) by now rewrite files_app.
  intros F Cx Nx [N1 N2 N3] C NH Ew Ee Sh. unfold long_clean in *. rewrite E in *. rewrite E1.
  assert (Range : 0 <= fn 11 < 32) by apply (fm_range _ _ _ F).
  assert (H64 : has (fn 11) 64 = false).
  { assert (Q : forallb (fun v => negb (has v 64)) (map Z.of_nat (seq 0 32)) = true) by reflexivity. rewrite forallb_forall in Q. specialize (Q (fn 11)). rewrite in_map_iff in Q. apply negb_true_iff, Q. exists (Z.to_nat (fn 11)). split; [lia|apply in_seq; lia]. }
  assert (Ns : Forall (fun g => ~ short_same (snd g) e) (files l1 ++ files l2)).
  { destruct (has (fn 11) 1) eqn:Lo.
    - revert Sh. apply Forall_impl. intros g G Q. apply G. eapply short_trans; eauto.
    - revert NH. apply Forall_impl. intros g G Q. apply G. right. split; [auto|]. eapply short_trans; [exact Q|]. eapply short_trans; eauto. }
  assert (Nl : Forall (fun g => fst g <> [] -> w <> [] -> ~ same_name (fst g) w) (files l1 ++ files l2)).
  { revert NH. apply Forall_impl. intros g G Q1 Q2 Q3. apply G. left. destruct (has (fn 11) 2); [subst w; auto|congruence]. }
  rewrite Forall_app in Ns, Nl. destruct Ns as [Ns1 Ns2], Nl as [Nl1 Nl2]. split; [constructor; rewrite E1|split].
  - apply pairs_insert; [auto|auto|]. revert Ns2. apply Forall_impl. intros g G Q. apply G. now apply short_sym.
  - apply pairs_insert; [auto|auto|]. revert Nl2. apply Forall_impl. intros g G Q1 Q2 Q3. apply G; auto. unfold same_name in *. auto.
  - rewrite Forall_app in *. split; [tauto|]. constructor; [|tauto]. cbn. intros Nw b ex Sp Ft k K.
    destruct (has (fn 11) 2); [subst w|congruence]. assert (Lo : has (fn 11) 1 = false).
    { destruct (has (fn 11) 1) eqn:Lo; [|auto]. exfalso. apply (some_loss _ _ _ F Lo). exists b, ex. auto. }
    rewrite Lo in Sh. rewrite Ee, Sh by auto. now apply (fm_short _ _ _ F).
  - apply Forall_app in C as [C1 C2]. apply Forall_app. split; [auto|]. constructor; [|auto]. cbn. intros Nw. destruct (has (fn 11) 2); [subst w; apply xunits_pos, Cx|congruence].
  - destruct (has (fn 11) 2) eqn:L2.
    + left. cbn. subst w. split; [auto|]. split; [auto|]. reflexivity.
    + right. assert (Lo : has (fn 11) 1 = false).
      { destruct (has (fn 11) 1) eqn:Lo; [|auto]. pose proof (fm_long _ _ _ F (some_loss _ _ _ F Lo)). congruence. }
      split; [auto|]. rewrite Lo in Sh. cbn. eapply short_trans; eauto.
Qed.
