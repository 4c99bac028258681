From Verif Require Import Base CrcSpec FutfModel FutfSpec FutfProof LfnModel LfnSpec LfnProof FdirModel FdirSpec FdirProof FdirProof2 FdirProof3 FnameModel FnameSpec FnameProof FnameProof2 FnameProof3 FnameProof4 FnameProof5 FnameProof6 FpathModel FpathSpec FpathProof FpathProof2 FpathProof3 FpathProof4 FpathProof5 FpathProof6 FpathProof7 FpathProof8 FpathProof9 FpathProof14 FpathProof15 FpathProof16 FpathProof17 LockModel RmModel RmSpec.
Open Scope Z_scope.

(* --- trees --------------------------------------------------------------------------------- *)
Lemma under_mono A A' k x : (forall p c, parent A' p c -> parent A p c) -> under A' k x -> under A k x.
Proof. intros P. induction 1 as [|p c U IH Pc]; [constructor|]. econstructor; eauto. Qed.
Lemma parent_part A f A' p c : partly A f A' -> parent A' p c -> parent A p c.
Proof.
  intros (W & _ & H) (I & g & J & Di & E). destruct (H p I) as (I' & first & Ef). split; [auto|]. exists g. split; [rewrite Ef; apply in_or_app; auto|]. split; [auto|]. rewrite <- E. unfold clu. now rewrite W.
Qed.
Lemma below_part A f A' k : partly A f A' -> below A' f k -> below A f k.
Proof. intros P (Di & U). split; [auto|]. assert (E : clu A' f = clu A f) by (unfold clu; now rewrite (proj1 P)). rewrite E in U. eapply under_mono; [|exact U]. intros p c. exact (parent_part A f A' p c P). Qed.
Lemma partly_refl A f : partly A f A.
Proof. split; [auto|]. split; [auto|]. intros k I. split; [auto|]. exists []. auto. Qed.
Lemma partly_trans A B C f : partly A f B -> partly B f C -> partly A f C.
Proof.
  intros P Q. pose proof P as (W & H & K). pose proof Q as (W' & H' & K'). split; [congruence|]. split.
  - intros k I N. destruct (H k I N) as [I1 E1]. destruct (H' k I1) as [I2 E2]; [intros X; apply N; eapply below_part; eauto|]. split; [auto|congruence].
  - intros k I. destruct (K' k I) as (I1 & a & E1). destruct (K k I1) as (I2 & b & E2). split; [auto|]. exists (b ++ a). rewrite E2, E1. apply app_assoc.
Qed.
Lemma wide_clu A A' f : wide A' = wide A -> clu A' f = clu A f.
Proof. intros W. unfold clu. now rewrite W. Qed.

(* Below a child is below. *)
Lemma below_child A f g k x : isdir f = true -> k = clu A f -> In k (nodes A) -> In g (ents A k) -> below A g x -> below A f x.
Proof.
  intros Di -> I J (Dg & U). split; [auto|]. eapply under_trans; [|exact U]. eapply under_down; [apply under_self|]. split; [auto|]. eauto.
Qed.

Lemma ents_nodup v A total c : holds_tree v A total -> In c (nodes A) -> NoDup (ents A c).
Proof.
  intros (L & V) I. destruct (vo_tabs _ _ _ _ V c I) as [_ R]. rewrite <- (rd_ents _ _ _ R). apply NoDup_filter. pose proof (nm_short _ (rd_names _ _ _ R)) as N.
  induction N as [|f l Hf N IH]; constructor; [|auto]. intros J. rewrite Forall_forall in Hf. apply (Hf f J). intros k _. auto.
Qed.
Lemma split_once {X} (a b : list X) f c d : NoDup (a ++ f :: b) -> a ++ f :: b = c ++ f :: d -> a = c /\ b = d.
Proof.
  revert c. induction a as [|x a IH]; intros c N E; destruct c as [|y c]; cbn in *.
  - injection E as ->. auto.
  - injection E as <- E. exfalso. inversion N as [|? ? Nf _]; subst. apply Nf. apply in_or_app. right. left. auto.
  - injection E as -> E. exfalso. inversion N as [|? ? Nf _]; subst. apply Nf. apply in_or_app. right. left. auto.
  - injection E as -> E. inversion N as [|? ? _ N']; subst. destruct (IH c N' E) as [-> ->]. auto.
Qed.

(* Deleting the first child. *)
Lemma deleted_part A f g k A' rest : isdir f = true -> k = clu A f -> In k (nodes A) -> ents A k = g :: rest -> NoDup (ents A k) -> shape A -> deleted A k g A' -> partly A f A' /\ In k (nodes A') /\ ents A' k = rest.
Proof.
  intros Di Ek I Eg Nd S (W & N & (a & b & E1 & E2) & R). assert (Jg : In g (ents A k)) by (rewrite Eg; left; auto). assert (Nk : ~ below A g k) by (intros (Dg & U); revert U; apply not_inside; auto).
  assert (Ik : In k (nodes A')) by (apply N; auto).
  assert (Er : ents A' k = rest).
  { rewrite Eg in E1, Nd. destruct (split_once [] rest g a b Nd E1) as [<- <-]. auto. }
  split; [|auto]. split; [auto|]. split.
  - intros x Ix Nx. assert (Ix' : In x (nodes A')) by (apply N; split; [auto|]; intros Q; apply Nx; eapply below_child; eauto). split; [auto|]. apply R; [auto|]. intros ->. apply Nx. split; [auto|]. rewrite Ek. apply under_self.
  - intros x Ix. split; [now apply N|]. destruct (Z.eq_dec x k) as [->|Nx]; [exists [g]; rewrite Eg, Er; auto|]. exists []. now rewrite R.
Qed.
(* Reasons survive. *)
Lemma pinned_part A A' cd f : partly A f A' -> pinned A' cd f -> pinned A cd f.
Proof.
  intros P [H|[H|(k & g & I & B & J & R)]]; [left; auto|right; left; eapply below_part; eauto|right; right]. pose proof P as (_ & _ & K). destruct (K k I) as (I' & a & E). exists k, g. split; [auto|]. split; [eapply below_part; eauto|]. split; [rewrite E; apply in_or_app; auto|auto].
Qed.
Lemma deep_mono A A' n : (forall p c, parent A' p c -> parent A p c) -> forall k, deep A' n k -> deep A n k.
Proof. intros P. induction n as [|n IH]; cbn; [auto|]. intros k (c & Pc & D). exists c. auto. Qed.
Lemma pinned_child A cd f g k : isdir f = true -> k = clu A f -> In k (nodes A) -> In g (ents A k) -> pinned A cd g -> pinned A cd f.
Proof.
  intros Di Ek I J [H|[H|(x & h & Ix & B & Jx & R)]].
  - right. right. exists k, g. split; [auto|]. split; [split; [auto|rewrite Ek; apply under_self]|auto].
  - right. left. eapply below_child; eauto.
  - right. right. exists x, h. split; [auto|]. split; [eapply below_child; eauto|auto].
Qed.
Lemma partly_child A f g k A' : isdir f = true -> k = clu A f -> In k (nodes A) -> In g (ents A k) -> partly A g A' -> partly A f A'.
Proof.
  intros Di Ek I J (W & H & K). split; [auto|]. split; [|auto]. intros x Ix N. apply H; [auto|]. intros Q. apply N. eapply below_child; eauto.
Qed.

(* The directory f, emptied, is deleted. *)
Lemma emptied_deleted A B c f A' : isdir f = true -> In c (nodes A) -> In f (ents A c) -> NoDup (ents A c) -> shape A -> shape B -> partly A f B -> ents B (clu A f) = [] -> removed (without B (clu A f)) c f A' -> deleted A c f A'.
Proof.
  intros Di I J Nd S SB P Em (a & b & Ea & ->). set (k := clu A f) in *. pose proof P as (W & H & K). destruct (H c I) as [Ic Ec]; [intros (_ & U); revert U; apply not_inside; auto|].
  assert (Only : forall x, In x (nodes B) -> under A k x -> x = k).
  { intros x Ix U. induction U as [|p x U IH Px]; [auto|]. exfalso. destruct (parent_unique _ _ _ _ S Px Px) as [_ X0].
    pose proof (proj2 (proj2 SB) x Ix) as R. inversion R as [|p' x' Rp Pp]; subst; [congruence|]. pose proof (parent_part A f B p' x P Pp) as Pa. destruct (parent_unique _ _ _ _ S Px Pa) as [<- _]. rewrite (IH (proj1 Pp)) in Pp. destruct Pp as (_ & g & Jg & _). rewrite Em in Jg. easy. }
  split; [exact W|]. cbn [with_ents nodes ents wide without]. cbn in Ea. split; [|split].
  - intros x. rewrite filter_In. split.
    + intros (Ix & Nx). split; [now apply K|]. intros (_ & U). apply (Only x Ix) in U. subst x. rewrite Z.eqb_refl in Nx. discriminate.
    + intros (Ix & Nx). destruct (H x Ix Nx) as [Ix' _]. split; [auto|]. destruct (Z.eqb_spec x k) as [->|]; [exfalso; apply Nx; split; [auto|apply under_self]|auto].
  - exists a, b. rewrite put_same. split; [congruence|auto].
  - intros x Ix Nx. rewrite put_other by auto. apply filter_In in Ix as [Ix Nk]. destruct (K x Ix) as (Ix' & _). apply H; [auto|]. intros (_ & U). apply (Only x Ix) in U. subst x. rewrite Z.eqb_refl in Nk. discriminate.
Qed.
Lemma removed_deleted A c f A' : isdir f = false -> removed A c f A' -> deleted A c f A'.
Proof.
  intros Di (a & b & Ea & ->). split; [auto|]. cbn [with_ents nodes ents wide]. split; [|split].
  - intros k. split; [|tauto]. intros I. split; [auto|]. intros (Q & _). congruence.
  - exists a, b. now rewrite put_same.
  - intros k _ N. now rewrite put_other.
Qed.

(* --- paths --------------------------------------------------------------------------------- *)
Lemma lookup_good A c ss t : lookup A c ss t -> t <> Invalid -> t <> NoPath -> ~ In Bad ss.
Proof.
  induction 1 as [c|c ss|s [-> | ->]|s ss t [-> | ->] Ns L IH|c s d (_ & [(-> & _)|(-> & _)])|c s d ss t (_ & [(-> & _)|(-> & _)]) Ns L IH|c cs f I Ca|c cs F|c cs f ss t I Ca Di Ns L IH|c cs f ss I Ca Di Ns|c cs ss F Ns]; intros T1 T2; cbn; try congruence; intuition congruence.
Qed.
Lemma ctl_end (p a q : list Z) t : Forall (fun x => 32 <= x) p -> p ++ [0] = a ++ t :: q -> t < 32 -> p = a /\ t = 0 /\ q = [].
Proof.
  revert a. induction p as [|x p IH]; intros a F E T.
  - destruct a as [|y a]; cbn in E; [injection E as <- <-; auto|]. injection E as _ E. now destruct a.
  - destruct a as [|y a]; cbn in E; injection E as -> E; inversion F; subst; [lia|]. destruct (IH a) as (-> & -> & ->); auto.
Qed.
Lemma ends_slash seps cs : Forall sep seps -> good_name cs -> ends (seps ++ 47 :: utf8 cs ++ [0]) (utf8 cs ++ [0]) false.
Proof.
  intros F G. destruct (good_head cs [0] G) as (h & q & -> & Nh & H32). pose proof (ends_sep 47) as E. destruct seps as [|s seps].
  - specialize (E [] h q (or_introl eq_refl) (Forall_nil _) Nh). replace (h <? 32) with false in E by lia. exact E.
  - inversion F as [|? ? Fs Fr]; subst. pose proof (ends_sep s (seps ++ [47]) h q Fs) as E'. rewrite Forall_app in E'. specialize (E' (conj Fr (Forall_cons _ (or_introl eq_refl) (Forall_nil _))) Nh). replace (h <? 32) with false in E' by lia. rewrite <- app_assoc in E'. exact E'.
Qed.
Lemma child_last cs : good_name cs -> spells [Name cs] (utf8 cs ++ [0]).
Proof. intros G. exact (spells_names [] cs (Forall_cons _ G (Forall_nil _))). Qed.
Lemma spells_child ss x : spells ss x -> forall p, x = p ++ [0] -> Forall (fun x => 32 <= x) p -> ss <> [] -> ~ In Bad ss -> forall cs, good_name cs -> spells (ss ++ [Name cs]) (p ++ 47 :: utf8 cs ++ [0]).
Proof.
  induction 1 as [t q T|cs0 s rest q Nm E|cs0 s rest q ss Nm E Sp IH|cs0 t ss F Le|cs0 c t ss F B]; intros p Ep Fp Ns Nb cs G; try (exfalso; apply Nb; left; auto; fail); [easy| |].
  - assert (R : exists seps, Forall sep seps /\ p = utf8 cs0 ++ seps).
    { inversion E as [t q' T|s0 seps c q' Hs Hss Hc E1 E2 E3]; subst.
      - exists []. rewrite app_nil_r. split; [auto|]. symmetry in Ep. apply ctl_end in Ep; [tauto|auto|lia].
      - exists (s0 :: seps). split; [constructor; auto|]. symmetry in Ep. change (s0 :: seps ++ c :: q') with ((s0 :: seps) ++ c :: q') in Ep. rewrite app_assoc in Ep. apply ctl_end in Ep; [tauto|auto|lia]. }
    destruct R as (seps & Fs & ->). rewrite <- app_assoc. cbn [app]. eapply sp_more; [exact Nm|apply ends_slash; auto|]. now apply child_last.
  - inversion E as [|s0 seps c q' Hs Hss Hc E1 E2 E3]; subst. assert (C32 : 32 <= c) by lia.
    assert (R : exists p', p = utf8 cs0 ++ (s0 :: seps) ++ p' /\ c :: q' = p' ++ [0]).
    { enough (exists p', p = (utf8 cs0 ++ s0 :: seps) ++ p' /\ c :: q' = p' ++ [0]) as (p' & Q1 & Q2) by (exists p'; split; [now rewrite app_assoc|auto]). rewrite app_comm_cons, app_assoc in Ep. remember (utf8 cs0 ++ s0 :: seps) as z. clear - Ep C32. revert p Ep. induction z as [|y z IHz]; intros p Ep; [exists p; auto|]. destruct p as [|y' p]; cbn in Ep; [injection Ep as _ Ep; now destruct z|]. injection Ep as <- Ep. destruct (IHz p Ep) as (p' & -> & E). exists p'. auto. }
    destruct R as (p' & -> & Ep'). cbn [app]. assert (N2 : ss <> []) by (intros ->; inversion Sp; subst; lia). rewrite !Forall_app in Fp.
    assert (IH' : spells (ss ++ [Name cs]) (p' ++ 47 :: utf8 cs ++ [0])) by (apply IH; auto; [apply Fp|intros Q; apply Nb; right; auto]).
    destruct p' as [|c' p']; [cbn in Ep'; injection Ep' as -> _; lia|]. cbn in Ep'. injection Ep' as <- Ep'. rewrite <- app_assoc. eapply sp_more; [exact Nm| |exact IH'].
    cbn [app]. rewrite <- app_assoc. cbn [app]. pose proof (ends_sep s0 seps c (p' ++ 47 :: utf8 cs ++ [0]) Hs Hss Hc) as En. replace (c <? 32) with false in En by lia. exact En.
Qed.
Lemma lookup_child A c ss t : lookup A c ss t -> ss <> [] -> forall x f cs, t = Found x f cs -> isdir f = true -> forall cs' g, In g (ents A (clu A f)) -> called cs' g -> lookup A c (ss ++ [Name cs']) (Found (clu A f) g cs').
Proof.
  induction 1 as [c|c ss|s Hs|s ss t Hs Ns L IH|c s d Hd|c s d ss t Hd Ns L IH|c cs0 f0 I Ca|c cs0 F|c cs0 f0 ss t I Ca Di Ns L IH|c cs0 f0 ss I Ca Di Ns|c cs0 ss F Ns]; intros N x f cs E Df cs' g Ig Cg; try discriminate; cbn [app].
  - apply lk_top_on; [auto|now destruct ss|]. eapply IH; eauto.
  - eapply lk_dot_on; [eauto|now destruct ss|]. eapply IH; eauto.
  - injection E as -> -> ->. eapply lk_down; eauto; [discriminate|]. now apply lk_found.
  - eapply lk_down; [exact I|exact Ca|exact Di|now destruct ss|]. eapply IH; eauto.
Qed.
Lemma utf8_ge cs : Forall name_char cs -> Forall (fun x => 32 <= x) (utf8 cs).
Proof.
  unfold utf8. induction 1 as [|c cs (Sc & _ & C32 & _) F IH]; cbn [flat_map]; [constructor|]. apply Forall_app. split; [|auto]. unfold scalar in Sc. unfold utf8_of, utf8_form, utf8_count.
  destruct (Z.ltb_spec c 128); [cbn; repeat constructor; lia|]. destruct (Z.ltb_spec c 2048); [cbn; repeat constructor; Z.to_euclidean_division_equations; lia|]. destruct (Z.ltb_spec c 65536); cbn; repeat constructor; Z.to_euclidean_division_equations; lia.
Qed.
Lemma leads_child A cd path c f cs cs' g : leads A cd path c f cs -> isdir f = true -> In g (ents A (clu A f)) -> good_name cs' -> called cs' g -> leads A cd ((path ++ [47]) ++ utf8 cs') (clu A f) g cs'.
Proof.
  intros (F & root & ss & P & Nu & L) Di Ig G Ca. assert (Ns : ss <> []) by (intros ->; inversion L). assert (Nb : ~ In Bad ss) by (eapply lookup_good; eauto; discriminate).
  split; [apply Forall_app; split; [apply Forall_app; split; [auto|constructor; [lia|constructor]]|apply utf8_ge, G]|]. exists root, (ss ++ [Name cs']). rewrite <- !app_assoc. cbn [app]. split; [|split].
  - remember (path ++ [0]) as y eqn:Ey. destruct P as [s seps ch q ss Hs Hss Hc Sp|ch q ss Hc Sp].
    + assert (C32 : 32 <= ch) by (destruct (Z.ltb_spec ch 32); [exfalso; apply Ns; eapply spells_nil; eauto; pose proof (spells_head _ _ _ Sp); lia|lia]).
      assert (R : exists p', path = (s :: seps) ++ p' /\ ch :: q = p' ++ [0]).
      { rewrite app_comm_cons in Ey. remember (s :: seps) as z. clear - Ey C32. revert path Ey. induction z as [|y z IHz]; intros p Ep; [exists p; auto|]. destruct p as [|y' p]; cbn in Ep; [injection Ep as _ Ep; now destruct z|]. injection Ep as <- Ep. destruct (IHz p Ep) as (p' & -> & E). exists p'. auto. }
      destruct R as (p' & -> & Ep'). destruct p' as [|c' p']; [cbn in Ep'; injection Ep' as -> _; lia|]. cbn in Ep'. injection Ep' as <- Ep'. rewrite <- app_assoc. cbn [app]. apply po_root; auto.
      apply (spells_child _ _ Sp (ch :: p')); auto; [now rewrite Ep'|]. apply Forall_app in F. tauto.
    + destruct path as [|c' p']; [cbn in Ey; injection Ey as -> ->; exfalso; apply Ns; eapply spells_nil; eauto; lia|]. cbn in Ey. injection Ey as <- Ey. cbn [app]. apply po_here; auto. apply (spells_child _ _ Sp (ch :: p')); auto. now rewrite Ey.
  - rewrite in_app_iff. cbn. intros [Q|[Q|[]]]; [auto|discriminate].
  - eapply lookup_child; eauto.
Qed.
(* Where a path leads does not change with what is below. *)
Lemma lookup_part A f A' x ss t c cs : lookup A x ss t -> t = Found c f cs -> ~ In Up ss -> isdir f = true -> shape A -> In x (nodes A) -> In c (nodes A) -> In f (ents A c) -> partly A f A' -> under A x c /\ lookup A' x ss t.
Proof.
  intros L. revert c cs f. induction L as [x|x ss|s Hs|s ss t Hs Ns L IH|x s d Hd|x s d ss t Hd Ns L IH|x cs0 f0 I Ca|x cs0 F|x cs0 f0 ss t I Ca Di Ns L IH|x cs0 f0 ss I Ca Di Ns|x cs0 ss F Ns]; intros c cs f E Nu Df S Ix Ic Jf P; try discriminate.
  - destruct (IH c cs f E) as [U L']; auto; [intros Q; apply Nu; right; auto|]. split; [auto|]. apply lk_top_on; auto.
  - destruct Hd as (X0 & [(-> & ->)|(-> & _)]); [|exfalso; apply Nu; left; auto]. destruct (IH c cs f E) as [U L']; auto; [intros Q; apply Nu; right; auto|]. split; [auto|]. eapply lk_dot_on; eauto. split; [auto|]. left. auto.
  - injection E as -> -> ->. split; [constructor|]. apply lk_found; [|auto]. destruct P as (_ & H & _). destruct (H c Ic) as [_ ->]; [|auto]. intros (_ & U). revert U. now apply not_inside.
  - assert (Pa : parent A x (clu A f0)) by (split; [auto|]; exists f0; auto). assert (I0 : In (clu A f0) (nodes A)) by (destruct S as (_ & Pm & _); eapply Permutation_in; [exact Pm|]; right; apply in_map, filter_In; split; [unfold links; apply in_flat_map; eauto|auto]).
    destruct (IH c cs f E) as [U L']; auto; [intros Q; apply Nu; right; auto|]. assert (Ux : under A x c) by (eapply under_trans; [eapply under_down; [apply under_self|exact Pa]|auto]). split; [auto|].
    destruct P as (W & H & _). destruct (H x Ix) as [_ Ee]; [intros (_ & V); eapply (not_inside A c f); eauto; eapply under_trans; eauto|]. eapply lk_down; eauto; [now rewrite Ee|]. now rewrite (wide_clu A A').
Qed.
Lemma leads_part v A total A' path c f cs : holds_tree v A total -> leads A (cdir v) path c f cs -> isdir f = true -> In c (nodes A) -> In f (ents A c) -> partly A f A' -> leads A' (cdir v) path c f cs.
Proof.
  intros (L & V) (F & root & ss & P & Nu & Lk) Di Ic Jf Pa. split; [auto|]. exists root, ss. split; [auto|]. split; [auto|]. eapply lookup_part; eauto; [apply V|]. destruct root; [eapply in_root; eauto|apply V].
Qed.
Lemma leads_in v A total path c f cs : holds_tree v A total -> leads A (cdir v) path c f cs -> spelled (path ++ [0]) /\ resolves A (cdir v) (path ++ [0]) (Found c f cs) /\ In c (nodes A) /\ In f (ents A c) /\ called cs f /\ good_name cs.
Proof.
  intros H (F & root & ss & P & Nu & Lk). assert (R : resolves A (cdir v) (path ++ [0]) (Found c f cs)) by (exists root, ss; auto). split; [exists root, ss; auto|]. split; [auto|]. pose proof (target_ok v A total _ _ H R) as T. cbn in T. tauto.
Qed.
