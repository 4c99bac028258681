(* Lemmas: a place for a new file. *)
From Verif Require Import Base Arr ArrLemmas LfnSpec FutfModel FutfSpec XdirModel XdirSpec XdirProof XdirProof4 XdirProof6 XdirProof8.
Open Scope Z_scope.

Lemma land128 t : 0 <= t < 256 -> (Z.land t 128 =? 0) = (t <? 128).
Proof.
  intros H. assert (A : forallb (fun t => Bool.eqb (Z.land t 128 =? 0) (t <? 128)) (map Z.of_nat (seq 0 256)) = true) by (vm_compute; reflexivity).
  rewrite forallb_forall in A. apply Bool.eqb_prop, A. apply in_map_iff. exists (Z.to_nat t). split; [lia|]. apply in_seq. lia.
Qed.
Lemma first_byte e : entry_ok e -> rd e 0 = Ok (at_ e 0) /\ 0 <= at_ e 0 < 256.
Proof. intros (L & B). split; [apply rd_at; lia|]. destruct e as [|t r]; [discriminate|]. inversion B; subst. auto. Qed.

Definition behind_used (a : list (list Z)) : Prop := a = [] \/ exists a' e, a = a' ++ [e] /\ ~ free e.
(* found: a run of need free entries; not found: there is none *)
Lemma alloc_run need : (0 < need)%nat -> forall tab pre run, Forall entry_ok tab -> behind_used pre -> Forall free run -> (length run < need)%nat ->
  match alloc_x tab (length pre + length run) (length run) need with
  | Ok (Some q) => exists a m c, pre ++ run ++ tab = a ++ m ++ c /\ length m = need /\ Forall free m /\ behind_used a /\ (q + 1 = length a + need)%nat
  | Ok None => forall a m c, run ++ tab = a ++ m ++ c -> length m = need -> ~ Forall free m
  | _ => False
  end.
Proof.
  intros Hn. induction tab as [|e tab IH]; intros pre run Fe Bu Fr L; cbn [alloc_x].
  { intros a m c E M _. apply (f_equal (@length _)) in E. rewrite !app_length in E. cbn [length] in E. lia. }
  inversion Fe as [|? ? Ee Fe']; subst. destruct (first_byte e Ee) as (-> & B). cbn [bind]. rewrite land128 by auto.
  destruct (Z.ltb_spec (at_ e 0) 128) as [H|H].
  - assert (Fr' : Forall free (run ++ [e])) by (apply Forall_app; split; auto).
    destruct (Nat.eqb_spec (S (length run)) need) as [E|E].
    + exists pre, (run ++ [e]), tab. rewrite <- !app_assoc. repeat split; auto. { rewrite app_length. cbn. lia. } lia.
    + specialize (IH pre (run ++ [e]) Fe' Bu Fr'). rewrite app_length in IH. cbn [length] in IH.
      replace (S (length pre + length run)) with (length pre + (length run + 1))%nat by lia. replace (S (length run)) with (length run + 1)%nat by lia.
      rewrite <- !app_assoc in IH. cbn [app] in IH. apply IH. lia.
  - specialize (IH (pre ++ run ++ [e]) [] Fe' ltac:(right; exists (pre ++ run), e; split; [now rewrite app_assoc|unfold free; lia]) (Forall_nil _)). cbn [length] in IH. rewrite Nat.add_0_r in IH. rewrite !app_length in IH. cbn [length app] in IH.
    replace (S (length pre + length run)) with (length pre + (length run + 1))%nat by lia. specialize (IH ltac:(lia)).
    destruct (alloc_x tab _ 0 need) as [[q|]| |]; try contradiction.
    + destruct IH as (a & m & c & E & R). exists a, m, c. rewrite <- !app_assoc in E. cbn [app] in E. auto.
    + intros a m c E M F.
      destruct (Nat.le_gt_cases (length run + 1) (length a)) as [C|C].
      * apply (IH (skipn (length run + 1) a) m c); auto. apply (f_equal (skipn (length run + 1))) in E.
        rewrite skipn_app in E. rewrite skipn_all2 in E by lia. replace (length run + 1 - length run)%nat with 1%nat in E by lia. cbn [skipn app] in E.
        rewrite skipn_app in E. replace (length run + 1 - length a)%nat with 0%nat in E by lia. exact E.
      * assert (X : nth_error (run ++ e :: tab) (length run) = Some e) by (rewrite nth_error_app2, Nat.sub_diag by lia; reflexivity).
        rewrite E in X. rewrite nth_error_app2 in X by lia. rewrite nth_error_app1 in X by lia. apply nth_error_In in X. rewrite Forall_forall in F. specialize (F e X). unfold free in F. lia.
Qed.

Lemma head_free (e : list Z) m x y : e :: x = m ++ y -> m <> [] -> Forall free m -> free e.
Proof. destruct m as [|e' m]; [contradiction|]. cbn. intros [= <- _] _ F. now inversion F. Qed.
Lemma run0 rest : Forall zero rest -> forall items m c, Forall item_ok items -> concat (map entries items) ++ rest = m ++ c -> Forall free m ->
  exists mid after rest', Forall item_ok after /\ items = mid ++ after /\ c = concat (map entries after) ++ rest' /\ Forall zero rest' /\ (forall i, In i mid -> exists e, i = Other e /\ free e).
Proof.
  intros Z. induction items as [|i items IH]; intros m c Fi E F.
  { exists [], [], c. cbn in *. subst rest. apply Forall_app in Z as (_ & Z). repeat split; auto. intros i []. }
  inversion Fi as [|? ? Oi Fi']; subst.
  destruct m as [|e m].
  { exists [], (i :: items), rest. cbn [app] in E. subst c. repeat split; auto. intros j []. }
  inversion F as [|? ? Fe Fm]; subst. destruct i as [o|ws h s names]; cbn [map entries concat app] in E; injection E as E1 E2; subst.
  - destruct (IH m c Fi' E2 Fm) as (mid & after & rest' & A & -> & C & Zr & M). exists (Other e :: mid), after, rest'. repeat split; auto. intros i [<- | I]; eauto.
  - exfalso. cbn [item_ok] in Oi. pose proof (g_file _ _ _ (f_good _ _ _ _ Oi)). unfold free in Fe. lia.
Qed.
Lemma run_split rest : Forall zero rest -> forall items a m c, Forall item_ok items -> concat (map entries items) ++ rest = a ++ m ++ c -> m <> [] -> Forall free m -> behind_used a ->
  exists before mid after rest', Forall item_ok before /\ Forall item_ok after /\ items = before ++ mid ++ after /\ a = concat (map entries before) /\ c = concat (map entries after) ++ rest' /\ Forall zero rest' /\
    (forall i, In i mid -> exists e, i = Other e /\ free e).
Proof.
  intros Z. induction items as [|i items IH]; intros a m c Fi E N F B.
  { cbn [map concat app] in E. destruct B as [-> | (a' & e & -> & H)].
    - exists [], [], [], c. cbn [app] in E. subst rest. apply Forall_app in Z as (_ & Z). repeat split; auto. intros i [].
    - exfalso. apply H. subst rest. rewrite Forall_forall in Z. destruct (Z e) as (_ & T). { apply in_or_app. left. apply in_or_app. right. now left. } unfold free. lia. }
  inversion Fi as [|? ? Oi Fi']; subst.
  destruct a as [|x a].
  { destruct (run0 rest Z (i :: items) m c Fi E F) as (mid & after & rest' & A & Ei & C & Zr & M). exists [], mid, after, rest'. repeat split; auto. }
  destruct i as [o|ws h s names]; cbn [map entries concat] in E.
  - cbn [app] in E. injection E as -> E.
    assert (B' : behind_used a). { destruct B as [B|(a' & e & B & H)]; [discriminate|]. destruct a' as [|y a']; cbn [app] in B; injection B as -> ->; [left; auto|right; eauto]. }
    destruct (IH a m c Fi' E N F B') as (before & mid & after & rest' & F1 & F2 & -> & -> & -> & Zr & M).
    exists (Other x :: before), mid, after, rest'. repeat split; auto.
  - rewrite <- app_assoc in E. pose proof (set_in_use _ _ _ _ Oi) as U. destruct (app_eq_app _ _ _ _ E) as (l & [(E1 & E2)|(E1 & E2)]).
    + (* the free run would begin within the set, unless l is empty *)
      destruct l as [|e l].
      * rewrite app_nil_r in E1. cbn [app] in E2.
        destruct (run0 rest Z items m c Fi' (eq_sym E2) F) as (mid & after & rest' & A & -> & -> & Zr & M).
        exists [File ws h s names], mid, after, rest'. repeat split; auto. cbn [map entries concat]. rewrite app_nil_r. auto.
      * exfalso. assert (free e) by (eapply head_free; [symmetry; exact E2|auto|auto]).
        rewrite Forall_forall in U. destruct (U e) as (_ & H1). { rewrite E1. apply in_or_app. right. now left. } unfold free in *. lia.
    + assert (B' : behind_used l).
      { destruct l as [|y l0]; [now left|]. right. destruct (exists_last (l := y :: l0)) as (l' & e & El); [discriminate|]. rewrite El in *. exists l', e. split; auto.
        destruct B as [B|(a' & e' & B & H)]; [discriminate|]. rewrite E1, app_assoc in B. apply app_inj_tail in B as (_ & ->). auto. }
      destruct (IH l m c Fi' E2 N F B') as (before & mid & after & rest' & F1 & F2 & -> & -> & -> & Zr & M).
      exists (File ws h s names :: before), mid, after, rest'. repeat split; auto.
Qed.

Lemma list_ext (l l' : list (list Z)) : (forall j, nth_error l j = nth_error l' j) -> l = l'.
Proof.
  revert l'. induction l as [|x l IH]; intros [|y l'] H; auto; try (specialize (H 0%nat); discriminate).
  pose proof (H 0%nat) as H0. injection H0 as ->. f_equal. apply IH. intros j. exact (H (S j)).
Qed.
Lemma same_parts (pre a set m post c : list (list Z)) : length pre = length a -> length set = length m ->
  (forall j, (j < length a \/ length a + length m <= j)%nat -> nth_error (pre ++ set ++ post) j = nth_error (a ++ m ++ c) j) -> pre = a /\ post = c.
Proof.
  intros L1 L2 H. split; apply list_ext; intros j.
  - destruct (Nat.lt_ge_cases j (length a)) as [J|J].
    + specialize (H j (or_introl J)). rewrite !nth_error_app1 in H by lia. exact H.
    + rewrite (proj2 (nth_error_None pre j)), (proj2 (nth_error_None a j)) by lia. reflexivity.
  - assert (J : (length a + length m <= length a + (length m + j))%nat) by lia. specialize (H _ (or_intror J)).
    rewrite !nth_error_app2 in H by lia. replace (length a + (length m + j) - length pre - length set)%nat with j in H by lia. replace (length a + (length m + j) - length a - length m)%nat with j in H by lia. exact H.
Qed.
Lemma all_ok items : Forall item_ok items -> Forall entry_ok (concat (map entries items)).
Proof.
  induction 1 as [|[e|ws h s names] items H _ IH]; cbn [map entries concat]; [constructor|..]; apply Forall_app; split; auto.
  - constructor; [apply H|constructor].
  - destruct H as [? ? ? _ _ _ _ _ _]. auto.
Qed.
Lemma count_ok ws : Forall unit_ok' ws -> count (ws ++ [0]) = Ok (length ws).
Proof. induction 1 as [|w ws H _ IH]; cbn [app count length]; auto. unfold unit_ok' in H. replace (w =? 0) with false by lia. rewrite IH. reflexivity. Qed.

Lemma new_ok items rest buf ws a f c n t : Forall item_ok items -> Forall zero rest -> length buf = 608%nat -> Forall unit_ok' ws -> (1 <= length ws <= 255)%nat -> meta_in a f c n t ->
  let tab := concat (map entries items) ++ rest in let need := ((length ws + 14) / 15 + 2)%nat in
  (exists tab' before mid after h s names rest', new_x tab buf (ws ++ [0]) (Meta a f c n t) = Ok (Some tab') /\
     items = before ++ mid ++ after /\ (forall i, In i mid -> exists e, i = Other e /\ free e) /\
     file_set ws h s names /\ Forall item_ok (before ++ File ws h s names :: after) /\
     tab' = concat (map entries (before ++ File ws h s names :: after)) ++ rest' /\ Forall zero rest' /\ length tab' = length tab) \/
  (new_x tab buf (ws ++ [0]) (Meta a f c n t) = Ok None /\ forall x m y, tab = x ++ m ++ y -> length m = need -> ~ Forall free m).
Proof.
  intros Fi Z Lb U R M tab need.
  assert (Fe : Forall entry_ok tab). { apply Forall_app. split; [now apply all_ok|]. eapply Forall_impl; [|exact Z]. intros e (H & _). auto. }
  pose proof (alloc_run need ltac:(lia) tab [] [] Fe (or_introl eq_refl) (Forall_nil _) ltac:(cbn; lia)) as A. cbn [length Nat.add app] in A.
  unfold new_x. rewrite count_ok by auto. cbn [bind]. fold need.
  destruct (alloc_x tab 0 0 need) as [[q|]| |]; try contradiction; cbn [bind].
  2:{ right. split; [reflexivity|]. exact A. }
  left. destruct A as (x & m & y & E & Lm & Fm & Bu & Q). replace (q + 1 - need)%nat with (length x) by lia.
  destruct (run_split rest Z items x m y Fi E) as (before & mid & after & rest' & F1 & F2 & Ei & Ex & Ey & Zr & Mm); auto.
  { intros ->. cbn in Lm. lia. }
  destruct (file_ok tab (length x) buf buf ws a f c n t Lb Lb U R M) as (b1 & b2 & b3 & b4 & tab' & h & s & names & C1 & C2 & C3 & Eh & Es & En & G & Cn & Cl & (pre & post & Ep & Lp) & Lt & Nt & _ & _ & Fs & _).
  { rewrite E, !app_length, Lm. unfold need. lia. }
  rewrite C1. cbn [bind]. rewrite C2. cbn [bind]. rewrite C3. cbn [bind].
  assert (Ls : length (h :: s :: names) = length m) by (cbn [length]; rewrite Lm; unfold need; lia).
  destruct (same_parts pre x (h :: s :: names) m post y Lp Ls) as (-> & ->).
  { intros j J. rewrite <- Ep. rewrite Nt; [now rewrite E|]. cbn [length] in Ls. lia. }
  exists tab', before, mid, after, h, s, names, rest'. split; [reflexivity|]. split; [exact Ei|]. split; [exact Mm|]. split; [exact Fs|].
  split; [apply Forall_app; split; auto|]. split; [|split; auto].
  rewrite Ep, Ex, Ey, map_app, concat_app. cbn [map entries concat]. now rewrite <- !app_assoc.
Qed.
