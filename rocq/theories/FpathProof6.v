From Verif Require Import Base CrcSpec FutfModel FutfSpec FutfProof LfnModel LfnSpec LfnProof FdirModel FdirSpec FdirProof FdirProof2 FdirProof3 FnameModel FnameSpec FnameProof FnameProof2 FnameProof3 FnameProof4 FnameProof5 FnameProof6 FpathModel FpathSpec FpathProof FpathProof2 FpathProof3 FpathProof4 FpathProof5.
Open Scope Z_scope.

(* --- clusters ------------------------------------------------------------------------------ *)
Definition one (k : Z) : list Z := if k =? 0 then [] else [k].
Lemma one_in k x : In x (one k) <-> x = k /\ k <> 0.
Proof. unfold one. destruct (Z.eqb_spec k 0); cbn; intuition congruence. Qed.
(* Clusters K1 of files become K2. *)
Lemma space_swap v A total v' A' K1 K2 base : space v A total -> Permutation (owners A) (K1 ++ base) -> Permutation (owners A') (K2 ++ base) ->
  (forall k, In k (0 :: base) -> chains v' k = chains v k) -> Permutation (avail v' ++ flat_map (chains v') K2) (avail v ++ flat_map (chains v) K1) ->
  (forall k, In k K2 -> exists t, chains v' k = k :: t) -> space v' A' total.
Proof.
  intros [P H] O1 O2 C Q H2. split.
  - rewrite <- P. cbn [flat_map]. rewrite O1, O2, !flat_map_app, C by (left; auto). rewrite (flat_map_ext_in (chains v') (chains v) base) by (intros x X; apply C; right; auto).
    rewrite (Permutation_app_swap_app (chains v 0)). rewrite (Permutation_app_swap_app (chains v 0) (flat_map _ K1)). rewrite !app_assoc. do 2 apply Permutation_app_tail. exact Q.
  - intros k K. eapply Permutation_in in K; [|exact O2]. apply in_app_or in K as [K|K]; [auto|]. rewrite C by (right; auto). apply H. eapply Permutation_in; [symmetry; exact O1|]. apply in_or_app. auto.
Qed.
Lemma owners_split A a f b : links A = a ++ f :: b -> Permutation (owners A) (one (clu A f) ++ filter (fun k => negb (k =? 0)) (map (clu A) (a ++ b))).
Proof.
  intros E. unfold owners, one. rewrite E, !map_app, !filter_app. cbn [map filter]. destruct (clu A f =? 0); cbn [negb app]; [auto|]. symmetry. apply Permutation_middle.
Qed.
Lemma owners_plain A a b : links A = a ++ b -> owners A = filter (fun k => negb (k =? 0)) (map (clu A) (a ++ b)).
Proof. unfold owners. now intros ->. Qed.
Lemma clu_wide A A' : wide A' = wide A -> clu A' = clu A.
Proof. intros W. unfold clu. now rewrite W. Qed.
Lemma owners_replaced A c f f' A' : NoDup (nodes A) -> In c (nodes A) -> replaced A c f f' A' ->
  exists base, Permutation (owners A) (one (clu A f) ++ base) /\ Permutation (owners A') (one (clu A f') ++ base).
Proof.
  intros N I R. pose proof R as (x & y & _ & E). assert (W : wide A' = wide A) by now rewrite E. destruct (links_replaced _ _ _ _ _ N I R) as (a & b & E1 & E2).
  pose proof (owners_split _ _ _ _ E1) as O1. pose proof (owners_split _ _ _ _ E2) as O2. rewrite (clu_wide A A' W) in O2. eauto.
Qed.
Lemma owners_added A c f A' : NoDup (nodes A) -> In c (nodes A) -> added A c f A' -> Permutation (owners A') (one (clu A f) ++ owners A).
Proof.
  intros N I R. pose proof R as (x & y & _ & E). assert (W : wide A' = wide A) by now rewrite E. destruct (links_added _ _ _ _ N I R) as (a & b & E1 & E2).
  pose proof (owners_split _ _ _ _ E2) as O2. rewrite (clu_wide A A' W) in O2. now rewrite (owners_plain _ _ _ E1).
Qed.
Lemma owners_removed A c f A' : NoDup (nodes A) -> In c (nodes A) -> removed A c f A' -> Permutation (owners A) (one (clu A f) ++ owners A').
Proof.
  intros N I R. pose proof R as (x & y & _ & E). assert (W : wide A' = wide A) by now rewrite E. destruct (links_removed _ _ _ _ N I R) as (a & b & E1 & E2).
  pose proof (owners_split _ _ _ _ E1) as O1. rewrite (owners_plain _ _ _ E2), (clu_wide A A' W). auto.
Qed.
Lemma in_links A c f : In c (nodes A) -> In f (ents A c) -> In f (links A).
Proof. intros. unfold links. apply in_flat_map. eauto. Qed.
Lemma file_owner A c f : In c (nodes A) -> In f (ents A c) -> clu A f <> 0 -> In (clu A f) (owners A).
Proof. intros I J N. unfold owners. apply filter_In. split; [apply in_map; eapply in_links; eauto|lia]. Qed.
(* Clusters of files are no directories. *)
Lemma file_not_node A c f : shape A -> NoDup (owners A) -> In c (nodes A) -> In f (ents A c) -> isdir f = false -> clu A f <> 0 -> ~ In (clu A f) (nodes A).
Proof.
  intros (_ & P & _) N I J D K X. eapply Permutation_in in X; [|symmetry; exact P]. destruct X as [X|X]; [congruence|]. apply in_map_iff in X as (g & E & G). apply filter_In in G as [G Dg].
  pose proof (in_links _ _ _ I J) as Lf. apply in_split in Lf as (a & b & E1). eapply Permutation_NoDup in N; [|apply (owners_split _ _ _ _ E1)]. unfold one in N. replace (clu A f =? 0) with false in N by lia. inversion N as [|? ? N1 _]; subst.
  apply N1. apply filter_In. split; [|lia]. rewrite <- E. apply in_map. rewrite E1 in G. apply in_app_or in G. apply in_or_app. destruct G as [G|[G|G]]; [auto|congruence|auto].
Qed.

(* --- putting a volume together ------------------------------------------------------------- *)
Lemma rebuild v A L total v' A' c l' : vol_ok v A L total -> same_geo v v' -> wide A' = wide A -> nodes A' = nodes A -> (forall k, k <> c -> ents A' k = ents A k) -> (forall p k, parent A p k -> parent A' p k) ->
  (forall k, In k (nodes A) -> k <> c -> lay v' k (L k)) -> lay v' c l' -> reads A' c l' -> shape A' -> space v' A' total -> vol_ok v' A' (put L c l') total.
Proof.
  intros V (G1 & G2 & G3 & G4) W N E P La Lc R Sh Sp. constructor.
  - rewrite W, G1. apply V.
  - rewrite N. intros k K. destruct (Z.eq_dec k c) as [->|Nk]; [rewrite put_same; auto|]. rewrite put_other by auto. split; [auto|]. destruct (vo_tabs _ _ _ _ V k K) as [_ Rk]. eapply reads_other; [exact W|auto|auto|exact Rk].
  - auto.
  - auto.
  - rewrite G3. apply V.
  - rewrite G1, G2, G3. apply V.
  - rewrite N, G4. apply V.
Qed.
Lemma vol_ext v A L L' total : vol_ok v A L total -> (forall k, L' k = L k) -> vol_ok v A L' total.
Proof. intros [] E. constructor; auto. intros c I. rewrite E. auto. Qed.

Section Change.
Variables (v : volume) (A : tree) (L : Z -> list item) (total : list Z).
Hypothesis V : vol_ok v A L total.
Let N : NoDup (nodes A) := proj1 (vo_shape _ _ _ _ V).

(* A table that grew but holds the same. *)
Lemma vol_grow v' c : In c (nodes A) -> grows v v' c -> lay v' c (L c) -> vol_ok v' A L total.
Proof.
  intros I G La. pose proof G as [As _]. eapply vol_ext; [apply (rebuild v A L total v' A c (L c)); auto|].
  - apply As.
  - intros k K Nk. apply (aside_lay v v' c); auto. now apply (vo_tabs _ _ _ _ V).
  - now apply (vo_tabs _ _ _ _ V).
  - apply V.
  - eapply space_grow; eauto; try apply V. apply node_key; [apply V|auto].
  - intros k. unfold put. destruct (Z.eqb_spec k c) as [->|]; auto.
Qed.

(* An entry that is changed in place. *)
Lemma vol_change c l1 w e l2 e' : In c (nodes A) -> In (w, e) (ents A c) -> L c = l1 ++ File w e :: l2 -> keeps e e' -> e' 12 = e 12 -> isdir (w, e') = isdir (w, e) -> (isdir (w, e) = true -> clu A (w, e') = clu A (w, e)) ->
  exists A', replaced A c (w, e) (w, e') A' /\ forall v2, same_geo v v2 -> (forall k, dirs v2 k = dirs (set_entry v c (sizes l1 + parts w) e') k) ->
    (forall k, In k (nodes A) -> chains v2 k = chains v k) -> space v2 A' total -> vol_ok v2 A' (put L c (l1 ++ File w e' :: l2)) total.
Proof.
  intros I J El K K12 Dd Cc. destruct (vo_tabs _ _ _ _ V c I) as [La Rd]. rewrite El in La, Rd. assert (Sh : shown (w, e) = true) by (apply (ents_in _ _ _ _ V c) in J; tauto).
  destruct (reads_set A c l1 w e l2 e' Rd Sh) as (A' & Re & Rd'); [intros k Hk; apply K; auto|auto|]. exists A'. split; [auto|]. intros v2 G D2 C2 S2. pose proof (parent_replaced _ _ _ _ _ Re Dd Cc) as Pa.
  destruct (lay_set v c l1 w e l2 e' La K) as (L1 & As & St & _). pose proof Re as (x & y & Ex & Ea). apply (rebuild v A L total v2 A' c); auto.
  - now rewrite Ea.
  - now rewrite Ea.
  - intros k Nk. rewrite Ea. cbn. now apply put_other.
  - intros p k. apply Pa.
  - intros k Ik Nk. apply (lay_ext v); [auto| |now rewrite C2|now apply (vo_tabs _ _ _ _ V)]. rewrite D2. now apply As.
  - eapply (lay_ext (set_entry v c (sizes l1 + parts w) e')); [|apply D2|rewrite C2 by auto; reflexivity|exact L1]. exact G.
  - apply Rd'. intros p. apply Pa.
  - eapply shape_replaced; eauto. apply V.
Qed.

(* A name that is registered. *)
Lemma vol_register c cs fn buf : In c (nodes A) -> good_name cs -> form (utf16 cs) true fn -> holds buf (utf16 cs) -> units buf -> let w := if has (fn 11) 2 then utf16 cs else [] in
  exists d q i, dir_register (table v c) fn buf = Ok (d, q, i) /\ let v' := put_table v c d in grows v v' c /\
  ((q = D_OK /\ exists l1 l2 h f e, L c = l1 ++ repeat Hole h ++ l2 /\ (Z.of_nat h = parts w + 1 \/ l2 = []) /\ lay v' c (l1 ++ File w e :: l2) /\ i = sizes l1 + parts w /\ entry v' c i = e /\ fresh fn (L c) f e) \/
   (q = D_DENIED /\ vol_ok v' A L total /\ refused v A c cs)).
Proof.
  intros I G F H U w. destruct (vo_tabs _ _ _ _ V c I) as [La Rd]. destruct (good_clean cs G) as [Cl No]. destruct (lay_register v c (L c) fn buf (utf16 cs) La (form_fn_ok _ _ _ F) No H U) as (d & q & i & E & Gr & Q).
  exists d, q, i. split; [auto|]. cbv zeta. split; [auto|]. destruct Q as [(-> & l1 & l2 & h & f & e & El & Hh & L1 & Ei & Ee & Fr)|(-> & L1 & Why)].
  - left. split; [auto|]. exists l1, l2, h, f, e. repeat (split; [solve [auto]|]). exact Fr.
  - right. split; [auto|]. split; [eapply vol_grow; eauto|]. exists true, fn. split; [auto|]. destruct Why as [[Why1 Why2]|Why]; [left|auto]. split; [auto|]. intros n Hn. destruct (Why2 n Hn) as (f & Nf & Ex). exists f. split; [auto|].
    rewrite Exists_exists in *. destruct Ex as (g & Ig & Sg). exists g. split; [|auto]. apply (ents_in v A L total V c); auto. split; [auto|]. destruct (shown g) eqn:Sh; [auto|exfalso].
    destruct Nf as (m & ds & Hk & _ & _ & M0 & M8 & _ & _ & Fm & _). assert (Gm : snd g m = 126) by (rewrite (Sg m ltac:(lia)); auto). assert (Gd : forall k, 0 <= k < 11 -> snd g k = 46 \/ snd g k = 32).
    { pose proof (rd_dots _ _ _ Rd) as Dt. unfold dots in Dt. destruct (c =? 0); [rewrite Forall_forall in Dt; rewrite (Dt g Ig) in Sh; discriminate|]. destruct Dt as (e1 & e2 & r & p & El & D1 & D2 & _ & Fs). rewrite El in Ig. cbn [files] in Ig. rewrite Forall_forall in Fs.
      intros k K. destruct Ig as [<-|[<-|Ig]]; [cbn [snd]; rewrite (proj1 D1 k K); destruct (_ <? _); auto|cbn [snd]; rewrite (proj1 D2 k K); destruct (_ <? _); auto|rewrite (Fs g Ig) in Sh; discriminate]. }
    destruct (Gd m ltac:(lia)); lia.
Qed.
End Change.
