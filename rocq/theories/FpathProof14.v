From Verif Require Import Base CrcSpec FutfModel FutfSpec FutfProof LfnModel LfnSpec LfnProof FdirModel FdirSpec FdirProof FdirProof2 FdirProof3 FnameModel FnameSpec FnameProof FnameProof2 FnameProof3 FnameProof4 FnameProof5 FnameProof6 FpathModel FpathSpec FpathProof FpathProof2 FpathProof3 FpathProof4 FpathProof5 FpathProof6 FpathProof7.
Open Scope Z_scope.

(* --- a path leads to one place ------------------------------------------------------------- *)
Lemma good_form cs : good_name cs -> exists fn, form (utf16 cs) true fn.
Proof.
  intros (F & N & Le & La). assert (Nb : forall y, snipped cs y -> y = cs).
  { intros y (t & E & T & _). destruct t as [|u t] using rev_ind; [rewrite app_nil_r in E; auto|]. exfalso. rewrite app_assoc in E. apply (La _ _ E). apply Forall_app in T as [_ T]. now inversion T. }
  assert (Nm : name_of cs (Name cs)).
  { split; [auto|]. split; [auto|]. split; [auto|]. right. right. split; [intros ->; apply (La [] 46 eq_refl); right; auto|]. split; [intros ->; apply (La [46] 46 eq_refl); right; auto|].
    exists cs. split; [exists []; split; [now rewrite app_nil_r|]; split; [constructor|auto]|]. now destruct cs. }
  destruct (name_ok_of cs (Name cs) [0] [] true (fun _ => 0) Nm) as [[Q _]|[(n & fn & lfn & Hn & Q & _)|(y & fn & lfn & Q & _ & _ & Fo & _)]]; [constructor; lia|intros ?; lia|discriminate|destruct (n =? 1)%nat; discriminate|].
  injection Q as <-. exists fn. auto.
Qed.
Lemma units_split c d x y : scalar c -> scalar d -> units_of c ++ x = units_of d ++ y -> c = d /\ x = y.
Proof.
  intros Hc Hd E. unfold units_of in E. unfold scalar in *. destruct (Z.ltb_spec c 65536) as [C|C], (Z.ltb_spec d 65536) as [D|D]; cbn [app] in E.
  - injection E as -> ->. auto.
  - injection E as -> E. destruct (pair_split d ltac:(lia)) as (_ & _ & _ & _ & B1 & B2). lia.
  - injection E as <- E. destruct (pair_split c ltac:(lia)) as (_ & _ & _ & _ & B1 & B2). lia.
  - injection E as E1 E2 ->. split; [|auto]. Z.to_euclidean_division_equations. lia.
Qed.
Lemma utf16_eq cs : forall ds, Forall name_char cs -> Forall name_char ds -> utf16 cs = utf16 ds -> cs = ds.
Proof.
  induction cs as [|c cs IH]; intros [|d ds] C D E; [auto|symmetry in E; now apply utf16_nil in E|now apply utf16_nil in E|]. inversion C as [|? ? (Sc & _) C']; subst. inversion D as [|? ? (Sd & _) D']; subst.
  unfold utf16 in E. cbn [flat_map] in E. apply units_split in E as [-> E]; auto. f_equal. now apply IH.
Qed.
Lemma holds_eq buf x : forall y o, (forall u, In u x -> u <> 0) -> (forall u, In u y -> u <> 0) -> 0 <= o -> (forall j, 0 <= j < zlen x -> buf (o + j) = nth (Z.to_nat j) x 0) -> buf (o + zlen x) = 0 ->
  (forall j, 0 <= j < zlen y -> buf (o + j) = nth (Z.to_nat j) y 0) -> buf (o + zlen y) = 0 -> x = y.
Proof.
  unfold zlen. induction x as [|a x IH]; intros [|b y] o X Y O Hx Ex Hy Ey; [auto| | |].
  - exfalso. specialize (Hy 0 ltac:(cbn [length]; lia)). change (Z.to_nat 0) with 0%nat in Hy. cbn [nth] in Hy. cbn [length] in Ex. change (Z.of_nat 0) with 0 in Ex. apply (Y b); [left; auto|]. congruence.
  - exfalso. specialize (Hx 0 ltac:(cbn [length]; lia)). change (Z.to_nat 0) with 0%nat in Hx. cbn [nth] in Hx. cbn [length] in Ey. change (Z.of_nat 0) with 0 in Ey. apply (X a); [left; auto|]. congruence.
  - cbn [length] in *. pose proof (Hx 0 ltac:(lia)) as H1. pose proof (Hy 0 ltac:(lia)) as H2. change (Z.to_nat 0) with 0%nat in H1, H2. cbn [nth] in H1, H2. f_equal; [congruence|]. apply (IH y (o + 1)); [intros; apply X; right; auto|intros; apply Y; right; auto|lia| | | |].
    + intros j J. specialize (Hx (j + 1) ltac:(lia)). replace (Z.to_nat (j + 1)) with (S (Z.to_nat j)) in Hx by lia. cbn [nth] in Hx. rewrite <- Hx. f_equal. lia.
    + rewrite <- Ex. f_equal. lia.
    + intros j J. specialize (Hy (j + 1) ltac:(lia)). replace (Z.to_nat (j + 1)) with (S (Z.to_nat j)) in Hy by lia. cbn [nth] in Hy. rewrite <- Hy. f_equal. lia.
    + rewrite <- Ey. f_equal. lia.
Qed.
Lemma holds_names buf cs ds : good_name cs -> good_name ds -> holds buf (utf16 cs) -> holds buf (utf16 ds) -> cs = ds.
Proof.
  intros C D [H1 H2] [H3 H4]. apply utf16_eq; [apply C|apply D|]. destruct (good_clean cs C) as [_ [U1 _]], (good_clean ds D) as [_ [U2 _]]. rewrite Forall_forall in U1, U2. unfold unit_ok in *.
  apply (holds_eq buf _ _ 0); [intros u J; specialize (U1 u J); lia|intros u J; specialize (U2 u J); lia|lia|exact H1|exact H2|exact H3|exact H4].
Qed.

Section One.
Variables (v : volume) (A : tree) (L : Z -> list item) (total : list Z).
Hypothesis V : vol_ok v A L total.

Lemma one_called c cs f g : In c (nodes A) -> good_name cs -> In f (ents A c) -> In g (ents A c) -> called cs f -> called cs g -> f = g.
Proof.
  intros I G If Ig Cf Cg. destruct (good_form cs G) as [fn Fo]. destruct (vo_tabs _ _ _ _ V c I) as [[D _] R]. apply (ents_in v A L total V c f I) in If as [If _]. apply (ents_in v A L total V c g I) in Ig as [Ig _].
  apply in_split in If as (a & b & E). pose proof (one_file (table v c) (L c) (utf16 cs) true fn a f b D (rd_names _ _ _ R) Fo E ltac:(now apply (hit_called cs true fn))) as N. rewrite E in Ig. rewrite Forall_forall in N. destruct (in_app_or _ _ _ Ig) as [J|[J|J]]; [|auto|].
  - exfalso. apply (N g); [apply in_or_app; auto|]. now apply (hit_called cs true fn).
  - exfalso. apply (N g); [apply in_or_app; auto|]. now apply (hit_called cs true fn).
Qed.

(* Names up to the first bad one. *)
Inductive proper : list name -> Prop :=
| pr_nil : proper []
| pr_bad : forall ss, proper (Bad :: ss)
| pr_dot : forall s ss, s = Here \/ s = Up -> proper ss -> proper (s :: ss)
| pr_name : forall cs ss, good_name cs -> proper ss -> proper (Name cs :: ss).
Lemma name_of_good cs s : name_of cs s -> s = Bad \/ s = Here \/ s = Up \/ exists y, s = Name y /\ good_name y.
Proof.
  intros (F & N & Le & [[_ ->]|[[_ ->]|(_ & _ & y & (t & E & T & La) & ->)]]); [auto|auto|]. destruct y as [|u y]; [auto|]. right. right. right. exists (u :: y). split; [auto|]. rewrite E in F, Le. split; [now apply Forall_app in F|]. split; [discriminate|]. split; [|exact La].
  unfold utf16, zlen in *. rewrite flat_map_app, app_length in Le. lia.
Qed.
Lemma spells_proper ss p : spells ss p -> proper ss.
Proof.
  induction 1 as [x q X|cs s rest q Nm E|cs s rest q ss Nm E Sp IH|cs t ss F Le|cs x t ss F B]; [constructor| | |constructor|constructor].
  - destruct (name_of_good cs s Nm) as [->|[->|[->|(y & -> & G)]]]; [apply pr_bad|apply pr_dot; [auto|constructor]|apply pr_dot; [auto|constructor]|apply pr_name; [auto|constructor]].
  - destruct (name_of_good cs s Nm) as [->|[->|[->|(y & -> & G)]]]; [apply pr_bad|apply pr_dot; auto|apply pr_dot; auto|apply pr_name; auto].
Qed.
Lemma dotted_one c s d d' : dotted A c s d -> dotted A c s d' -> d = d' /\ (In c (nodes A) -> In d (nodes A)).
Proof. intros [_ [[-> ->]|[-> P]]] [_ [[Q ->]|[Q P']]]; try discriminate; [auto|]. split; [eapply parent_unique; eauto; apply V|intros _; apply P]. Qed.
Lemma lookup_one ss : proper ss -> forall c t t', In c (nodes A) -> lookup A c ss t -> lookup A c ss t' -> t = t'.
Proof.
  induction 1 as [|ss|s ss Hs P IH|cs ss G P IH]; intros c t t' I Lt Lt'.
  - inversion Lt; inversion Lt'; congruence.
  - inversion Lt; inversion Lt'; subst; try reflexivity; try (match goal with H : dotted _ _ Bad _ |- _ => destruct H as [_ [[H _]|[H _]]]; discriminate end); try (match goal with H : Bad = _ \/ _ |- _ => destruct H; discriminate end).
  - inversion Lt; subst; try (destruct Hs; discriminate); inversion Lt'; subst; try (destruct Hs; discriminate); try congruence; try (match goal with H : dotted _ 0 _ _ |- _ => destruct H; congruence end).
    + eapply (IH 0); eauto.
    + match goal with H : dotted A c s ?a, H' : dotted A c s ?b |- _ => destruct (dotted_one c s a b H H') as [-> _] end. auto.
    + match goal with H : dotted A c s ?a, H' : dotted A c s ?b |- _ => destruct (dotted_one c s a b H H') as [-> Id]; apply (IH b); auto end.
  - assert (One : forall f g, In f (ents A c) -> In g (ents A c) -> called cs f -> called cs g -> f = g) by (intros; eapply one_called; eauto).
    assert (No : forall f, In f (ents A c) -> called cs f -> Forall (fun f => ~ called cs f) (ents A c) -> False) by (intros f J C F; rewrite Forall_forall in F; exact (F f J C)).
    inversion Lt; subst; try (match goal with H : dotted _ _ (Name _) _ |- _ => destruct H as [_ [[H _]|[H _]]]; discriminate end); try (match goal with H : Name _ = _ \/ _ |- _ => destruct H; discriminate end);
    inversion Lt'; subst; try (match goal with H : dotted _ _ (Name _) _ |- _ => destruct H as [_ [[H _]|[H _]]]; discriminate end); try (match goal with H : Name _ = _ \/ _ |- _ => destruct H; discriminate end); try congruence; try (exfalso; eauto; fail);
    match goal with H : In ?f (ents A c), H' : In ?g (ents A c) |- _ => assert (f = g) by (apply One; auto); subst end; try congruence.
    eapply IH; [|eauto|eauto]. eapply dir_node; eauto.
Qed.
Theorem resolves_one path t t' : resolves A (cdir v) path t -> resolves A (cdir v) path t' -> t = t'.
Proof.
  intros (r1 & s1 & P1 & L1) (r2 & s2 & P2 & L2). set (buf := fun _ : Z => 0). assert (U : units buf) by (intros j; unfold buf; lia).
  assert (Q : forall r ss x, path_of path r ss -> lookup A (if r then 0 else cdir v) ss x -> exists q j b, follow_path v path buf = Ok (q, j, b) /\ ends_at v A L x q j b).
  { intros r ss x P Lk. destruct (follow_ok v A L total V path r ss buf P U) as (y & q & j & b & E & Ly & En). exists q, j, b. split; [auto|].
    assert (Pr : proper ss) by (destruct P; eapply spells_proper; eauto). rewrite (lookup_one ss Pr (if r then 0 else cdir v) x y); auto. destruct r; [apply (in_root v A L total V)|apply V]. }
  destruct (Q _ _ _ P1 L1) as (q & j & b & E & _ & N1). destruct (Q _ _ _ P2 L2) as (q' & j' & b' & E' & _ & N2). rewrite E in E'. injection E' as <- <- <-.
  assert (Hf : forall cs (fnx : Z -> Z), form (utf16 cs) true fnx -> fnx 11 <> 128 /\ fnx 11 <> 36).
  { intros cs fnx Fo. destruct (has_form _ _ _ Fo) as (H1 & H2 & H3). split; intros X; rewrite X in *; discriminate. }
  destruct t as [c|c d|c f cs|c cs| |], t' as [c'|c' d'|c' f' cs'|c' cs'| |]; try reflexivity.
  all: try (pose proof (proj1 N1)); try (pose proof (proj1 N2)); try congruence.
  - destruct N1 as (_ & <- & _), N2 as (_ & <- & _). auto.
  - destruct N1 as (_ & _ & _ & F1), N2 as (_ & _ & _ & _ & _ & F2 & _). congruence.
  - destruct N1 as (_ & _ & _ & F1), N2 as (_ & _ & _ & _ & F2 & _). now apply Hf in F2.
  - destruct N1 as (_ & _ & _ & _ & _ & F1 & _), N2 as (_ & _ & _ & F2). congruence.
  - destruct N1 as (_ & <- & _ & _ & _ & _ & _ & _ & <- & _), N2 as (_ & <- & _ & _ & _ & _ & _ & _ & <- & _). auto.
  - destruct N1 as (_ & _ & _ & _ & _ & F1 & _), N2 as (_ & _ & _ & _ & F2 & _). now apply Hf in F2.
  - destruct N2 as (_ & _ & _ & F2), N1 as (_ & _ & _ & _ & F1 & _). now apply Hf in F1.
  - destruct N2 as (_ & _ & _ & _ & _ & F2 & _), N1 as (_ & _ & _ & _ & F1 & _). now apply Hf in F1.
  - destruct N1 as (_ & C1 & I1 & G1 & F1 & H1 & (l1 & w & e & l2 & -> & El & Ei & _) & _), N2 as (_ & C2 & I2 & G2 & F2 & H2 & (l1' & w' & e' & l2' & -> & El' & Ei' & _) & _).
    assert (c = c') by congruence. subst c'. assert (X : l1 = l1' /\ File w e = File w' e' /\ l2 = l2') by (apply same_split; [congruence|cbn [size]; lia]). destruct X as (_ & X & _). injection X as -> ->. rewrite (holds_names b cs cs'); auto; congruence.
  - destruct N1 as (_ & C1 & I1 & G1 & F1 & H1 & _), N2 as (_ & C2 & I2 & G2 & F2 & H2 & _). assert (c = c') by congruence. subst c'. rewrite (holds_names b cs cs'); auto; congruence.
Qed.
End One.

(* --- every path has a meaning ------------------------------------------------------------- *)
Lemma snip_exists x : exists y, snipped x y.
Proof.
  induction x as [|u x IH] using rev_ind.
  - exists []. exists []. split; [auto|]. split; [constructor|]. intros [|? ?] ? E; discriminate.
  - destruct (Z.eq_dec u 32) as [->|N1]; [|destruct (Z.eq_dec u 46) as [->|N2]].
    + destruct IH as (y & t & -> & T & La). exists y, (t ++ [32]). split; [now rewrite app_assoc|]. split; [apply Forall_app; split; [auto|repeat constructor]|auto].
    + destruct IH as (y & t & -> & T & La). exists y, (t ++ [46]). split; [now rewrite app_assoc|]. split; [apply Forall_app; split; [auto|constructor; [right; auto|constructor]]|auto].
    + exists (x ++ [u]), []. split; [now rewrite app_nil_r|]. split; [constructor|]. intros y' z E. apply app_inj_tail in E as [_ <-]. unfold blank. lia.
Qed.
Lemma name_of_exists cs : Forall name_char cs -> cs <> [] -> zlen (utf16 cs) <= 255 -> exists s, name_of cs s.
Proof.
  intros F N Le. destruct (list_eq_dec Z.eq_dec cs [46]) as [->|N1]; [exists Here; unfold name_of; auto 6|]. destruct (list_eq_dec Z.eq_dec cs [46; 46]) as [->|N2]; [exists Up; unfold name_of; auto 8|].
  destruct (snip_exists cs) as [y Sn]. exists (match y with [] => Bad | _ => Name y end). split; [auto|]. split; [auto|]. split; [auto|]. right. right. split; [auto|]. split; [auto|]. eauto.
Qed.
Lemma char_dec c : {sep c} + {~ sep c}.
Proof. unfold sep. destruct (Z.eq_dec c 47); [left; auto|]. destruct (Z.eq_dec c 92); [left; auto|right; lia]. Qed.
Lemma bad_dec c : {In c BAD_LFN} + {~ In c BAD_LFN}.
Proof. apply (in_dec Z.eq_dec). Qed.
(* The name at the start. *)
Lemma name_span cs : Forall path_char cs -> exists a b, cs = a ++ b /\ Forall name_char a /\ match b with [] => True | c :: _ => sep c \/ In c BAD_LFN end.
Proof.
  induction 1 as [|c cs P F (a & b & -> & Fa & Hb)]; [exists [], []; auto|]. destruct P as [P|P]; [exists (c :: a), b; split; [auto|]; split; [constructor; auto|auto]|exists [], (c :: a ++ b); auto].
Qed.
Lemma sep_span cs : exists a b, cs = a ++ b /\ Forall sep a /\ match b with [] => True | c :: _ => ~ sep c end.
Proof.
  induction cs as [|c cs (a & b & -> & Fa & Hb)]; [exists [], []; auto|]. destruct (char_dec c) as [S|S]; [exists (c :: a), b; split; [auto|]; split; [constructor; auto|auto]|exists [], (c :: a ++ b); auto].
Qed.
Lemma utf8_seps a r : Forall sep a -> utf8 (a ++ r) = a ++ utf8 r.
Proof.
  induction 1 as [|c a S F IH]; [auto|]. unfold utf8 in *. cbn [app flat_map]. rewrite IH. destruct S as [-> | ->]; reflexivity.
Qed.
Lemma utf8_one c r : (0 <= c < 128) -> utf8 (c :: r) = c :: utf8 r.
Proof. intros H. unfold utf8. cbn [flat_map]. unfold utf8_of, utf8_form, utf8_count. replace (c <? 128) with true by lia. reflexivity. Qed.
Lemma utf8_split a b : utf8 (a ++ b) = utf8 a ++ utf8 b.
Proof. unfold utf8. apply flat_map_app. Qed.
(* The first byte of what is no separator is none. *)
Lemma utf8_nosep c r t p : path_char c -> ~ sep c -> utf8 (c :: r) ++ t = p -> exists h q, p = h :: q /\ ~ sep h /\ 32 <= h.
Proof.
  intros P N <-. unfold utf8. cbn [flat_map]. rewrite <- app_assoc.
  assert (R : 32 <= c /\ (c < 128 \/ scalar c)) by (destruct P as [(Sc & _ & C & _)|[P|P]]; [auto|contradiction|cbn in P; lia]). destruct R as [R1 R2]. unfold utf8_of, utf8_form, utf8_count, sep in *.
  destruct (Z.ltb_spec c 128); [cbn [Z.eqb app]; cbn; do 2 eexists; split; [reflexivity|]; split; [auto|lia]|].
  destruct R2 as [R2|R2]; [lia|]. unfold scalar in R2. destruct (Z.ltb_spec c 2048); [cbn; do 2 eexists; split; [reflexivity|]; Z.to_euclidean_division_equations; lia|]. destruct (Z.ltb_spec c 65536); cbn; do 2 eexists; (split; [reflexivity|]); Z.to_euclidean_division_equations; lia.
Qed.
Lemma chars_spells n : forall cs, (length cs <= n)%nat -> Forall path_char cs -> match cs with [] => True | c :: _ => ~ sep c end -> exists ss, spells ss (utf8 cs ++ [0]).
Proof.
  induction n as [|n IH]; intros cs Le F Hc.
  - destruct cs; [|cbn in Le; lia]. exists []. apply sp_end. lia.
  - destruct (name_span cs F) as (a & b & E & Fa & Hb). rewrite E, utf8_split, <- app_assoc. destruct (Z.lt_ge_cases 255 (zlen (utf16 a))) as [Lg|Lg]; [exists [Bad]; now apply sp_long|].
    destruct b as [|c b].
    + destruct a as [|a0 a]; [exists []; apply sp_end; lia|]. destruct (name_of_exists (a0 :: a) Fa ltac:(discriminate) Lg) as [s Nm]. exists [s]. eapply sp_last; [exact Nm|]. cbn. apply (ends_here 0 []). lia.
    + destruct (bad_dec c) as [B|B]; [exists [Bad]; rewrite (utf8_one c b) by (cbn in B; lia); cbn [app]; now apply sp_wild|]. destruct Hb as [S|S]; [|contradiction].
      destruct (sep_span b) as (x & y & -> & Sx & Hy). destruct a as [|a0 a]; [rewrite E in Hc; cbn in Hc; contradiction|]. destruct (name_of_exists (a0 :: a) Fa ltac:(discriminate) Lg) as [s Nm].
      assert (Ec : utf8 (c :: x ++ y) ++ [0] = c :: x ++ utf8 y ++ [0]) by (rewrite utf8_one by (unfold sep in S; lia); rewrite utf8_seps by auto; cbn [app]; now rewrite <- app_assoc). rewrite Ec.
      destruct y as [|h y].
      * exists [s]. eapply sp_last; [exact Nm|]. cbn [utf8 flat_map app]. apply (ends_sep c x 0 []); [auto|auto|unfold sep; lia].
      * assert (Fy : Forall path_char (h :: y)) by (rewrite E in F; apply Forall_app in F as [_ F]; inversion F as [|? ? _ F']; now apply Forall_app in F'). assert (Ln : (length (h :: y) <= n)%nat) by (rewrite E in Le; cbn [length] in *; rewrite !app_length in Le; cbn [length] in Le; rewrite app_length in Le; cbn [length] in Le; lia).
        destruct (IH (h :: y) Ln Fy Hy) as [ss Sp]. inversion Fy as [|? ? Ph _]; subst. destruct (utf8_nosep h y [0] _ Ph Hy eq_refl) as (k & q & Ek & Nk & K32). exists (s :: ss). eapply (sp_more (a0 :: a) s); [exact Nm| |exact Sp]. rewrite Ek. pose proof (ends_sep c x k q S Sx Nk) as En. replace (k <? 32) with false in En by lia. exact En.
Qed.
Theorem all_spelled cs : Forall path_char cs -> spelled (utf8 cs ++ [0]).
Proof.
  intros F. destruct (sep_span cs) as (x & y & -> & Sx & Hy). assert (Fy : Forall path_char y) by now apply Forall_app in F. destruct (chars_spells (length y) y ltac:(lia) Fy Hy) as [ss Sp].
  rewrite utf8_seps, <- app_assoc by auto. assert (Hd : exists h q, utf8 y ++ [0] = h :: q /\ ~ sep h).
  { destruct y as [|h y]; [exists 0, []; split; [auto|unfold sep; lia]|]. inversion Fy; subst. destruct (utf8_nosep h y [0] _ ltac:(eassumption) Hy eq_refl) as (k & q & Ek & Nk & _). eauto. }
  destruct Hd as (h & q & Eh & Nh). rewrite Eh in *. destruct x as [|s x].
  - exists false, ss. now apply po_here.
  - inversion Sx; subst. exists true, ss. now apply (po_root s x h q ss).
Qed.
