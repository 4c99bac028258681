From Verif Require Import Base CrcSpec FutfModel FutfSpec FutfProof LfnModel LfnSpec LfnProof FdirModel FdirSpec FdirProof FdirProof3 FnameModel FnameSpec FnameProof FnameProof2 FnameProof3 FnameProof4 FnameProof5 FnameProof6 FpathModel FpathSpec FpathProof FpathProof2 FpathProof3 FpathProof4.
Open Scope Z_scope.

(* --- dot entries stay ---------------------------------------------------------------------- *)
Definition plain (x : item) : Prop := match x with File w e => shown (w, e) = true | _ => True end.
Lemma plain_files m : Forall plain m -> Forall (fun f => shown f = true) (files m).
Proof. induction 1 as [|x m P _ IH]; [constructor|]. destruct x; cbn [files]; auto. Qed.
Lemma dot_hidden b e n c w : dot_at b e n c -> 1 <= n -> shown (w, e) = false.
Proof. intros [D _] N. unfold shown. cbn. rewrite (D 0) by lia. replace (0 <? n) with true by lia. auto. Qed.
Lemma dots_mid A A' c l1 m l2 m' : dots A c (l1 ++ m ++ l2) -> Forall plain m -> Forall plain m' -> (m = [] -> l2 = []) -> wide A' = wide A -> (forall p, parent A p c -> parent A' p c) -> dots A' c (l1 ++ m' ++ l2).
Proof.
  unfold dots. destruct (Z.eqb_spec c 0) as [->|C].
  - rewrite !files_app, !Forall_app. intros (D1 & _ & D2) _ M _ _ _. split; [auto|]. split; [now apply plain_files|auto].
  - intros (e1 & e2 & r & p & E & D1 & D2 & P & Sh) M M' Z W Pa. rewrite W. pose proof (dot_hidden _ _ _ _ [] D1 ltac:(lia)) as H1. pose proof (dot_hidden _ _ _ _ [] D2 ltac:(lia)) as H2.
    assert (Q : exists l0, l1 = File [] e1 :: File [] e2 :: l0 /\ l0 ++ m ++ l2 = r).
    { destruct l1 as [|x l1].
      - exfalso. cbn in E. destruct m as [|x m]; [rewrite Z in E by auto; discriminate|]. injection E as -> _. inversion M as [|? ? M1 _]; subst. cbn in M1. congruence.
      - injection E as -> E. destruct l1 as [|x l1].
        + exfalso. cbn in E. destruct m as [|x m]; [rewrite Z in E by auto; discriminate|]. injection E as -> _. inversion M as [|? ? M1 _]; subst. cbn in M1. congruence.
        + injection E as -> E. eauto. }
    destruct Q as (l0 & -> & <-). exists e1, e2, (l0 ++ m' ++ l2), p. split; [auto|]. split; [auto|]. split; [auto|]. split; [auto|]. rewrite !files_app, !Forall_app in *. destruct Sh as (S1 & _ & S2). split; [auto|]. split; [now apply plain_files|auto].
Qed.
Lemma holes_plain n : Forall plain (repeat Hole n).
Proof. induction n; constructor; cbn; auto. Qed.

(* --- a directory after a change ------------------------------------------------------------ *)
Lemma reads_other A A' c l : wide A' = wide A -> ents A' c = ents A c -> (forall p, parent A p c -> parent A' p c) -> reads A c l -> reads A' c l.
Proof.
  intros W E P [R1 R2 R3 R4]. constructor; [auto|congruence|now rewrite E|]. pose proof (dots_mid A A' c l [] [] []) as Q. cbn [app] in Q. rewrite !app_nil_r in Q. apply Q; auto.
Qed.
Lemma named_keeps cs w e e' : (forall k, 0 <= k < 11 -> e' k = e k) -> e' 12 = e 12 -> named cs (w, e) -> named cs (w, e').
Proof. intros K E (la & fn & F & N1 & N2 & N3). exists la, fn. split; [auto|]. split; [auto|]. split; [cbn in *; congruence|]. intros Lo k J. cbn. rewrite K by auto. now apply N3. Qed.

Definition alike (f g : entry_t) : Prop := fst f = fst g /\ short_same (snd f) (snd g).
Lemma names_alike l l' : Forall2 alike (files l) (files l') -> names_ok l -> names_ok l'.
Proof.
  intros F [N1 N2 N3]. assert (Q : forall R : entry_t -> entry_t -> Prop, (forall f g f' g', alike f f' -> alike g g' -> R f g -> R f' g') -> ForallOrdPairs R (files l) -> ForallOrdPairs R (files l')).
  { intros R HR. clear N1 N2 N3. induction F as [|f f' m m' Af F IH]; intros O; [constructor|]. inversion O as [|? ? O1 O2]; subst. constructor; [|auto]. clear IH O2 O. induction F as [|g g' m m' Ag F IH]; [constructor|]. inversion O1; subst. constructor; [eapply HR; eauto|auto]. }
  constructor.
  - revert N1. apply Q. intros f g f' g' [_ A1] [_ A2] H S. apply H. eapply short_trans; [exact A1|]. eapply short_trans; [exact S|]. now apply short_sym.
  - revert N2. apply Q. intros f g f' g' [A1 _] [A2 _] H. rewrite <- A1, <- A2. auto.
  - clear N1 N2 Q. induction F as [|f f' m m' [A1 A2] F IH]; [constructor|]. inversion N3 as [|? ? M1 M2]; subst. constructor; [|auto]. rewrite <- A1. intros W b e Sp Ft k K. rewrite <- (A2 k K). eauto.
Qed.
Lemma alike_refl l : Forall2 alike l l.
Proof. induction l; constructor; [split; [auto|intros k K; auto]|auto]. Qed.
Lemma alike_set l1 w e e' l2 : short_same e' e -> Forall2 alike (files (l1 ++ File w e :: l2)) (files (l1 ++ File w e' :: l2)).
Proof. intros S. rewrite !files_app. apply Forall2_app; [apply alike_refl|]. cbn [files]. constructor; [split; [auto|now apply short_sym]|apply alike_refl]. Qed.

Lemma filter_mid l1 m l2 : filter shown (files (l1 ++ m ++ l2)) = filter shown (files l1) ++ filter shown (files m) ++ filter shown (files l2).
Proof. now rewrite !files_app, !filter_app. Qed.
Lemma shown_set w e e' : short_same e' e -> shown (w, e') = shown (w, e).
Proof. intros S. unfold shown. cbn. now rewrite (S 0) by lia. Qed.

Lemma reads_set A c l1 w e l2 e' : reads A c (l1 ++ File w e :: l2) -> shown (w, e) = true -> short_same e' e -> e' 12 = e 12 ->
  exists A', replaced A c (w, e) (w, e') A' /\ ((forall p, parent A p c -> parent A' p c) -> reads A' c (l1 ++ File w e' :: l2)).
Proof.
  intros [R1 R2 R3 R4] Sh S K. pose proof (shown_set w e e' S) as Sh'. rewrite Sh in Sh'.
  change (File w e :: l2) with ([File w e] ++ l2) in *. change (File w e' :: l2) with ([File w e'] ++ l2). rewrite filter_mid in R2. cbn [files filter] in R2. rewrite Sh in R2. cbn [app] in R2.
  exists (with_ents A c (filter shown (files l1) ++ (w, e') :: filter shown (files l2))). split; [do 2 eexists; split; [symmetry; exact R2|reflexivity]|]. intros Pa. constructor.
  - eapply names_alike; [|exact R1]. now apply alike_set.
  - rewrite filter_mid. cbn [files filter with_ents ents]. rewrite Sh', put_same. auto.
  - cbn [with_ents ents]. rewrite put_same. rewrite <- R2 in R3. rewrite !Forall_app in *. destruct R3 as [M1 M2]. split; [auto|]. inversion M2 as [|? ? M3 M4]; subst. constructor; [|auto]. destruct M3 as (cs & G & Nm). exists cs. split; [auto|]. eapply named_keeps; eauto.
  - apply (dots_mid A _ c l1 [File w e] l2 [File w e']); auto; repeat constructor; auto; discriminate.
Qed.

Lemma reads_remove A c d l1 w e l2 n : reads A c (l1 ++ File w e :: l2) -> dir_ok d (l1 ++ File w e :: l2) -> shown (w, e) = true ->
  exists A', removed A c (w, e) A' /\ ((forall p, parent A p c -> parent A' p c) -> reads A' c (l1 ++ repeat Hole n ++ l2)).
Proof.
  intros [R1 R2 R3 R4] D Sh. pose proof R1 as R1'. change (File w e :: l2) with ([File w e] ++ l2) in R2, R4. rewrite filter_mid in R2. cbn [files filter] in R2. rewrite Sh in R2. cbn [app] in R2.
  exists (with_ents A c (filter shown (files l1) ++ filter shown (files l2))). split; [do 2 eexists; split; [symmetry; exact R2|reflexivity]|]. intros Pa. constructor.
  - eapply remove_names; [exact R1|]. eapply dir_u16; eauto.
  - rewrite filter_mid, files_holes. cbn [filter app with_ents ents]. now rewrite put_same.
  - cbn [with_ents ents]. rewrite put_same. rewrite <- R2 in R3. rewrite !Forall_app in *. destruct R3 as [M1 M2]. inversion M2; auto.
  - apply (dots_mid A _ c l1 [File w e] l2 (repeat Hole n)); auto; first [discriminate|apply holes_plain|repeat constructor; auto].
Qed.

Lemma good_nil cs : good_name cs -> utf16 cs <> [].
Proof. intros (_ & N & _) Q. apply utf16_nil in Q. auto. Qed.
Lemma new_shown cs last fn w f e : form (utf16 cs) last fn -> new_entry f (fn 11) e -> (if has (fn 11) 1 then exists n, 1 <= n < 100 /\ numbered fn n f else short_same f fn) -> shown (w, e) = true.
Proof.
  intros F (N1 & _) Sh. unfold shown. cbn. rewrite (N1 0) by lia. apply negb_true_iff, Z.eqb_neq. pose proof (form_fn_ok _ _ _ F) as (_ & _ & _ & F0 & _). destruct (has (fn 11) 1).
  - destruct Sh as (n & Hn & Nu). pose proof (numbered_first _ _ _ Nu) as Q. lia.
  - rewrite (Sh 0) by lia. auto.
Qed.
(* The facts about a new entry, before its fields are set. *)
Definition fresh (fn : Z -> Z) (l : list item) (f e : Z -> Z) : Prop :=
  new_entry f (fn 11) e /\ bytes e /\ if has (fn 11) 1 then (exists n, 1 <= n < 100 /\ numbered fn n f) /\ Forall (fun g => ~ short_same (snd g) f) (files l) else short_same f fn.
Lemma fresh_shown cs last fn l f e w : form (utf16 cs) last fn -> fresh fn l f e -> shown (w, e) = true.
Proof. intros F (N & _ & Sh). eapply new_shown; eauto. destruct (has (fn 11) 1); [apply Sh|auto]. Qed.

Lemma reads_add A c cs last fn d l1 h l2 f e e' : let w := if has (fn 11) 2 then utf16 cs else [] in
  reads A c (l1 ++ repeat Hole h ++ l2) -> dir_ok d (l1 ++ repeat Hole h ++ l2) -> good_name cs -> form (utf16 cs) last fn -> Forall (fun g => ~ hit (utf16 cs) fn g) (files (l1 ++ repeat Hole h ++ l2)) ->
  (Z.of_nat h = parts w + 1 \/ l2 = []) -> fresh fn (l1 ++ repeat Hole h ++ l2) f e -> short_same e' e -> e' 12 = e 12 ->
  exists A', added A c (w, e') A' /\ named cs (w, e') /\ ((forall p, parent A p c -> parent A' p c) -> reads A' c (l1 ++ File w e' :: l2)).
Proof.
  intros w [R1 R2 R3 R4] D G F NH Hh Fr Se Ke. pose proof Fr as (Ne & _ & Sh). pose proof Ne as (Ne1 & Ne2 & Ne3 & _).
  assert (Nm : named cs (w, e')).
  { exists last, fn. split; [auto|]. split; [auto|]. split; [cbn; congruence|]. intros Lo. rewrite Lo in Sh. cbn. eapply short_trans; [exact Se|]. eapply short_trans; eauto. }
  assert (Sw : shown (w, e') = true) by (rewrite (shown_set w e e' Se); eapply fresh_shown; eauto).
  rewrite filter_mid, files_holes in R2. cbn [filter app] in R2. exists (with_ents A c (filter shown (files l1) ++ (w, e') :: filter shown (files l2))). split; [do 2 eexists; split; [symmetry; exact R2|reflexivity]|]. split; [auto|]. intros Pa.
  destruct (good_clean cs G) as [Cl _]. destruct (insert_names l1 h l2 (utf16 cs) last fn w e' f) as (N' & _ & _); auto.
  - now apply good_nil.
  - eapply dir_u16; eauto.
  - eapply short_trans; eauto.
  - destruct (has (fn 11) 1); [apply Sh|auto].
  - constructor; [auto| | |].
    + change (File w e' :: l2) with ([File w e'] ++ l2). rewrite filter_mid. cbn [files filter with_ents ents]. rewrite Sw, put_same. auto.
    + cbn [with_ents ents]. rewrite put_same. rewrite <- R2 in R3. rewrite !Forall_app in *. destruct R3 as [M1 M2]. split; [auto|]. constructor; [|auto]. exists cs. auto.
    + change (File w e' :: l2) with ([File w e'] ++ l2). apply (dots_mid A _ c l1 (repeat Hole h) l2 [File w e']); auto; [apply holes_plain|]. intros Q. destruct Hh as [Hh|Hh]; [|auto]. destruct h; [|discriminate]. pose proof (parts_nonneg w). lia.
Qed.

(* --- positions ----------------------------------------------------------------------------- *)
Lemma same_split (l1 l2 l1' l2' : list item) x x' : l1 ++ x :: l2 = l1' ++ x' :: l2' -> sizes l1 + size x = sizes l1' + size x' -> l1 = l1' /\ x = x' /\ l2 = l2'.
Proof.
  assert (Pos : forall y, 1 <= size y) by (intros [| |w e]; cbn [size]; try lia; pose proof (parts_nonneg w); lia).
  revert l1'. induction l1 as [|y l1 IH]; intros [|y' l1'] E Z; cbn [app] in E.
  - injection E as -> ->. auto.
  - injection E as -> E. rewrite sizes_cons in Z. change (sizes []) with 0 in Z. pose proof (sizes_nonneg l1'). pose proof (Pos x'). lia.
  - injection E as -> E. rewrite sizes_cons in Z. change (sizes []) with 0 in Z. pose proof (sizes_nonneg l1). pose proof (Pos x). lia.
  - injection E as -> E. rewrite !sizes_cons in Z. destruct (IH l1' E) as (-> & -> & ->); [lia|auto].
Qed.
Lemma same_file l l1 l2 l1' l2' w e : names_ok l -> l = l1 ++ File w e :: l2 -> l = l1' ++ File w e :: l2' -> l1 = l1' /\ l2 = l2'.
Proof.
  intros N. revert N l1'. intros N. assert (G : forall a b m, l = a ++ File w e :: m ++ File w e :: b -> False).
  { intros a b m E. pose proof (nm_short _ N) as O. assert (Ef : files l = files a ++ (w, e) :: files m ++ (w, e) :: files b) by (rewrite E, files_app; cbn [files]; now rewrite files_app).
    destruct (ord_pairs _ _ _ _ _ O Ef) as [_ O2]. apply Forall_app in O2 as [_ O2]. inversion O2 as [|? ? O3 _]; subst. apply O3. intros k K. auto. }
  clear N. intros l1' E E'. rewrite E in E'. assert (Q : forall a b a' b', a ++ File w e :: b = a' ++ File w e :: b' -> (a = a' /\ b = b') \/ (exists m, a ++ File w e :: b = a ++ File w e :: m ++ File w e :: b') \/ (exists m, a ++ File w e :: b = a' ++ File w e :: m ++ File w e :: b)).
  { clear. induction a as [|x a IH]; intros b [|x' a'] b' E; cbn [app] in E.
    - injection E as ->. auto.
    - injection E as <- E. right. left. exists a'. cbn. now rewrite E.
    - injection E as -> E. right. right. exists a. reflexivity.
    - injection E as -> E. destruct (IH b a' b' E) as [[-> ->]|[[m Q]|[m Q]]]; [auto|right; left; exists m; cbn; now rewrite Q at 1|right; right; exists m; cbn; now rewrite Q at 1]. }
  destruct (Q _ _ _ _ E') as [Q1|[[m Q1]|[m Q1]]]; [auto| |]; exfalso; eapply G; rewrite E; exact Q1.
Qed.
