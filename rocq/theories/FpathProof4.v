From Verif Require Import Base CrcSpec FutfModel FutfSpec FutfProof LfnModel LfnSpec LfnProof FdirModel FdirSpec FdirProof FdirProof3 FnameModel FnameSpec FnameProof FnameProof2 FnameProof3 FnameProof4 FnameProof5 FnameProof6 FpathModel FpathSpec FpathProof FpathProof2 FpathProof3.
Open Scope Z_scope.

(* --- links --------------------------------------------------------------------------------- *)
Lemma flat_map_ext_in {X Y} (f g : X -> list Y) l : (forall x, In x l -> f x = g x) -> flat_map f l = flat_map g l.
Proof. induction l as [|x l IH]; intros H; [auto|]. cbn. rewrite H by (left; auto). f_equal. apply IH. intros. apply H. right. auto. Qed.
Lemma split_nodup (c : Z) l : NoDup l -> In c l -> exists a b, l = a ++ c :: b /\ ~ In c a /\ ~ In c b.
Proof. intros N I. apply in_split in I as (a & b & ->). exists a, b. split; [auto|]. apply NoDup_remove_2 in N. rewrite in_app_iff in N. tauto. Qed.
Lemma links_split A c : NoDup (nodes A) -> In c (nodes A) -> exists a b, links A = a ++ ents A c ++ b /\ forall l, links (with_ents A c l) = a ++ l ++ b.
Proof.
  intros N I. destruct (split_nodup c _ N I) as (n1 & n2 & E & N1 & N2). exists (flat_map (ents A) n1), (flat_map (ents A) n2). unfold links, with_ents. cbn [nodes ents]. rewrite E. split; [now rewrite flat_map_app|].
  intros l. rewrite flat_map_app. cbn [flat_map]. rewrite put_same. f_equal; [|f_equal]; apply flat_map_ext_in; intros x X; apply put_other; intros ->; auto.
Qed.
Lemma links_replaced A c f f' A' : NoDup (nodes A) -> In c (nodes A) -> replaced A c f f' A' -> exists a b, links A = a ++ f :: b /\ links A' = a ++ f' :: b.
Proof.
  intros N I (x & y & E & ->). destruct (links_split A c N I) as (a & b & E1 & E2). exists (a ++ x), (y ++ b). rewrite E1, E2, E, <- !app_assoc. cbn. auto.
Qed.
Lemma links_added A c f A' : NoDup (nodes A) -> In c (nodes A) -> added A c f A' -> exists a b, links A = a ++ b /\ links A' = a ++ f :: b.
Proof.
  intros N I (x & y & E & ->). destruct (links_split A c N I) as (a & b & E1 & E2). exists (a ++ x), (y ++ b). rewrite E1, E2, E, <- !app_assoc. cbn. auto.
Qed.
Lemma links_removed A c f A' : NoDup (nodes A) -> In c (nodes A) -> removed A c f A' -> exists a b, links A = a ++ f :: b /\ links A' = a ++ b.
Proof.
  intros N I (x & y & E & ->). destruct (links_split A c N I) as (a & b & E1 & E2). exists (a ++ x), (y ++ b). rewrite E1, E2, E, <- !app_assoc. cbn. auto.
Qed.

(* --- clusters ------------------------------------------------------------------------------ *)
Lemma nodup_flat (ch : Z -> list Z) ks : NoDup (flat_map ch ks) -> (forall k, In k ks -> In k (ch k)) -> NoDup ks.
Proof.
  induction ks as [|k ks IH]; intros N H; [constructor|]. cbn in N. constructor.
  - intros I. assert (Q : forall x, In x (ch k) -> ~ In x (flat_map ch ks)).
    { clear - N. revert N. generalize (flat_map ch ks) as m. induction (ch k) as [|y l IH]; intros m N x X; [easy|]. inversion N; subst. destruct X as [->|X]; [intros Q; apply H1, in_or_app; auto|eauto]. }
    apply (Q k); [apply H; left; auto|]. apply in_flat_map. exists k. split; [auto|]. apply H. right. auto.
  - apply IH; [|intros; apply H; right; auto]. clear - N. induction (ch k) as [|y l IH]; [auto|]. inversion N; auto.
Qed.
Lemma nodup_app_r {X} (a b : list X) : NoDup (a ++ b) -> NoDup b.
Proof. induction a as [|x a IH]; [auto|]. intros N. inversion N; auto. Qed.
Lemma nodup_app_l {X} (a b : list X) : NoDup (a ++ b) -> NoDup a.
Proof. intros N. apply (nodup_app_r b a). eapply Permutation_NoDup; [apply Permutation_app_comm|auto]. Qed.
Lemma nodup_disj {X} (a b : list X) x : NoDup (a ++ b) -> In x a -> ~ In x b.
Proof. induction a as [|y a IH]; intros N; [easy|]. inversion N; subst. intros [->|I]; [intros J; apply H1, in_or_app; auto|auto]. Qed.

Section Space.
Variables (v : volume) (A : tree) (total : list Z).
Hypothesis S : space v A total.
Hypothesis T : NoDup total /\ Forall (fun k => 2 <= k < top v) total.

Lemma owners_nodup : NoDup (owners A).
Proof.
  destruct S as [P H]. destruct T as [N _]. apply (nodup_flat (chains v)); [|intros k K; destruct (H k K) as [t ->]; left; auto].
  apply Permutation_sym in P. eapply Permutation_NoDup in P; [|auto]. apply nodup_app_r in P. cbn in P. now apply nodup_app_r in P.
Qed.
Lemma owners_zero k : In k (owners A) -> k <> 0.
Proof. unfold owners. rewrite filter_In, negb_true_iff, Z.eqb_neq. tauto. Qed.
Lemma keys_nodup : NoDup (0 :: owners A).
Proof. constructor; [intros I; now apply owners_zero in I|apply owners_nodup]. Qed.
Lemma owner_range k : In k (owners A) -> 2 <= k < top v.
Proof.
  intros I. destruct S as [P H]. destruct T as [_ R]. rewrite Forall_forall in R. apply R. eapply Permutation_in; [exact P|]. apply in_or_app. right. cbn. apply in_or_app. right. apply in_flat_map. exists k. split; [auto|]. destruct (H k I) as [t ->]. left. auto.
Qed.
Lemma avail_fresh k : In k (avail v) -> ~ In k (owners A) /\ 2 <= k < top v.
Proof.
  intros I. destruct S as [P H]. destruct T as [N R]. split.
  - intros J. apply Permutation_sym in P. eapply Permutation_NoDup in P; [|auto]. apply (nodup_disj _ _ k P I). cbn. apply in_or_app. right. apply in_flat_map. exists k. split; [auto|]. destruct (H k J) as [t ->]. left. auto.
  - rewrite Forall_forall in R. apply R. eapply Permutation_in; [exact P|]. apply in_or_app. auto.
Qed.
End Space.

Lemma owners_app A a f b : links A = a ++ f :: b -> forall A', wide A' = wide A -> links A' = a ++ b -> Permutation (owners A) ((if clu A f =? 0 then [] else [clu A f]) ++ owners A').
Proof.
  intros E A' W E'. unfold owners. rewrite E, E', !map_app. assert (Em : map (clu A') = map (clu A)) by (unfold clu; rewrite W; auto). rewrite Em. cbn [map]. rewrite !filter_app. cbn [filter]. destruct (clu A f =? 0); cbn [negb app]; [auto|]. symmetry. apply Permutation_middle.
Qed.
Lemma space_perm v A total v' A' : space v A total -> Permutation (owners A') (owners A) -> Permutation (avail v') (avail v) -> (forall k, chains v' k = chains v k) -> space v' A' total.
Proof.
  intros [P H] O Av C. split.
  - rewrite <- P. apply Permutation_app; [auto|]. cbn [flat_map]. rewrite C. apply Permutation_app_head. rewrite O. erewrite flat_map_ext_in; [apply Permutation_refl|]. intros. apply C.
  - intros k K. rewrite C. apply H. eapply Permutation_in; eauto.
Qed.
Lemma space_grow v A total v' c : space v A total -> NoDup total /\ Forall (fun k => 2 <= k < top v) total -> grows v v' c -> In c (0 :: owners A) -> space v' A total.
Proof.
  intros Sp T [[G O] (used & E1 & E2)] I. pose proof (keys_nodup v A total Sp T) as N. destruct Sp as [P H]. destruct (split_nodup c _ N I) as (a & b & E & Na & Nb). split.
  - rewrite <- P, E, !flat_map_app. cbn [flat_map]. rewrite E1, E2. rewrite (flat_map_ext_in (chains v') (chains v) a), (flat_map_ext_in (chains v') (chains v) b); [|intros x X; apply O; intros ->; auto|intros x X; apply O; intros ->; auto].
    set (fa := flat_map (chains v) a). set (fb := flat_map (chains v) b). rewrite <- !app_assoc. rewrite (Permutation_app_swap_app fa (chains v c)). rewrite (Permutation_app_swap_app fa (chains v c)).
    rewrite (Permutation_app_comm used (avail v' ++ _)). rewrite <- !app_assoc. apply Permutation_app_head, Permutation_app_head, Permutation_app_head. apply Permutation_app_comm.
  - intros k K. destruct (Z.eq_dec k c) as [->|Nk]; [|rewrite (proj2 (O k Nk)); auto]. destruct (H c K) as [t Ht]. rewrite E2, Ht. cbn. eauto.
Qed.
(* The file f goes, its clusters are free. *)
Lemma space_release v A total A' k : space v A total -> NoDup total /\ Forall (fun k => 2 <= k < top v) total -> k <> 0 -> Permutation (owners A) (k :: owners A') -> space (release v k) A' total.
Proof.
  intros Sp T K O. pose proof (owners_nodup v A total Sp T) as N. destruct Sp as [P H]. assert (Nk : ~ In k (owners A')) by (eapply Permutation_NoDup in O; [inversion O; auto|auto]).
  assert (C : forall x, x = 0 \/ In x (owners A') -> chains (release v k) x = chains v x) by (intros x X; cbn; apply put_other; intros ->; destruct X; auto). split.
  - rewrite <- P. cbn [flat_map]. rewrite C by auto. rewrite (flat_map_ext_in (chains (release v k)) (chains v) (owners A')) by auto. rewrite O. cbn [flat_map]. cbn [release set_chains avail].
    rewrite <- app_assoc. rewrite (Permutation_app_swap_app (chains v 0) (chains v k)). rewrite (Permutation_app_swap_app (chains v k) (avail v)). reflexivity.
  - intros x X. rewrite C by auto. apply H. eapply Permutation_in; [symmetry; exact O|right; auto].
Qed.
(* A free cluster is taken for a new directory. *)
Lemma space_alloc v A total A' k rest : space v A total -> NoDup total /\ Forall (fun k => 2 <= k < top v) total -> avail v = k :: rest -> Permutation (owners A') (k :: owners A) ->
  space (set_chains v (put (chains v) k [k]) rest) A' total.
Proof.
  intros Sp T E O. destruct (avail_fresh v A total Sp T k) as [Nk R]; [rewrite E; left; auto|]. destruct Sp as [P H].
  assert (C : forall x, x = 0 \/ In x (owners A) -> put (chains v) k [k] x = chains v x) by (intros x X; apply put_other; intros ->; destruct X; [lia|auto]). split.
  - rewrite <- P. cbn [flat_map set_chains avail chains]. rewrite C by auto. rewrite O. cbn [flat_map]. rewrite put_same. rewrite (flat_map_ext_in (put (chains v) k [k]) (chains v) (owners A)) by auto. rewrite E. cbn [app].
    rewrite app_assoc. symmetry. rewrite app_assoc. apply Permutation_middle.
  - cbn [set_chains chains]. intros x X. eapply Permutation_in in X; [|exact O]. destruct X as [<-|X]; [rewrite put_same; eauto|]. rewrite C by auto. auto.
Qed.

(* --- trees --------------------------------------------------------------------------------- *)
Lemma node_key A c : shape A -> In c (nodes A) -> In c (0 :: owners A).
Proof.
  intros (_ & P & _) I. eapply Permutation_in in I; [|symmetry; exact P]. destruct I as [->|I]; [left; auto|]. apply in_map_iff in I as (f & <- & I). apply filter_In in I as [I _]. destruct (Z.eq_dec (clu A f) 0) as [->|N]; [left; auto|]. right. unfold owners. apply filter_In. split; [now apply in_map|lia].
Qed.
Lemma parent_unique A p p' c : shape A -> parent A p c -> parent A p' c -> p = p' /\ c <> 0.
Proof.
  intros (N & P & _) (I & f & If & D & E) (I' & f' & If' & D' & E'). eapply Permutation_NoDup in N; [|symmetry; exact P].
  assert (Ic : In c (map (clu A) (filter isdir (links A)))) by (rewrite <- E; apply in_map, filter_In; split; [apply in_flat_map; eauto|auto]).
  inversion N as [|? ? N0 N1]; subst. split; [|intros Q; rewrite Q in *; auto].
  destruct (Z.eq_dec p p') as [|Np]; [auto|]. exfalso. clear N N0 Ic P. revert I I' N1. unfold links. induction (nodes A) as [|x l IH]; [easy|]. intros I I' N1. cbn [flat_map] in N1. rewrite filter_app, map_app in N1.
  assert (Q : forall q g, In q l -> In g (ents A q) -> isdir g = true -> In (clu A g) (map (clu A) (filter isdir (flat_map (ents A) l)))) by (intros q g Iq Ig Dg; apply in_map, filter_In; split; [apply in_flat_map; eauto|auto]).
  destruct I as [->|I], I' as [->|I'].
  - auto.
  - eapply nodup_disj; [exact N1| |]; [apply in_map, filter_In; split; [exact If|auto]|]. rewrite <- E'. eapply Q; eauto.
  - eapply nodup_disj; [exact N1| |]; [apply in_map, filter_In; split; [exact If'|auto]|]. rewrite E'. eapply Q; eauto.
  - apply IH; auto. now apply nodup_app_r in N1.
Qed.
Lemma reach_mono A A' : (forall p c, parent A p c -> parent A' p c) -> forall c, reach A c -> reach A' c.
Proof. intros H c R. induction R as [|p c _ IH P]; [constructor|]. econstructor; eauto. Qed.

Lemma parent_with A c l p k : parent (with_ents A c l) p k <-> (p = c /\ In c (nodes A) /\ exists f, In f l /\ isdir f = true /\ clu A f = k) \/ (p <> c /\ parent A p k).
Proof.
  unfold parent, with_ents. cbn [nodes ents wide]. destruct (Z.eq_dec p c) as [->|N].
  - rewrite put_same. split; [intros [I F]; left; auto|intros [(_ & I & F)|[Q _]]; [auto|contradiction]].
  - rewrite put_other by auto. split; [intros P; right; auto|intros [(Q & _)|[_ P]]; [contradiction|auto]].
Qed.
Lemma parent_replaced A c f f' A' : replaced A c f f' A' -> isdir f' = isdir f -> (isdir f = true -> clu A f' = clu A f) -> forall p k, parent A p k <-> parent A' p k.
Proof.
  intros (a & b & E & ->) D C p k. rewrite parent_with. destruct (Z.eq_dec p c) as [->|N]; [|split; [auto|intros [[Q _]|[_ Q]]; [contradiction|auto]]]. unfold parent. rewrite E. split.
  - intros (I & g & Ig & Dg & Eg). left. split; [auto|]. split; [auto|]. apply in_app_iff in Ig as [Ig|[->|Ig]]; [exists g; split; [apply in_or_app; auto|auto]| |exists g; split; [apply in_or_app; right; right; auto|auto]].
    exists f'. split; [apply in_or_app; right; left; auto|]. split; [congruence|]. rewrite C; auto.
  - intros [(_ & I & g & Ig & Dg & Eg)|[Q _]]; [|contradiction]. split; [auto|]. apply in_app_iff in Ig as [Ig|[->|Ig]]; [exists g; split; [apply in_or_app; auto|auto]| |exists g; split; [apply in_or_app; right; right; auto|auto]].
    exists f. split; [apply in_or_app; right; left; auto|]. split; [congruence|]. rewrite <- C; auto. congruence.
Qed.
Lemma shape_same A A' : shape A -> wide A' = wide A -> nodes A' = nodes A -> map (clu A) (filter isdir (links A')) = map (clu A) (filter isdir (links A)) -> (forall p k, parent A p k -> parent A' p k) -> shape A'.
Proof.
  intros (N & P & R) W En Ed Pa. unfold shape. assert (Em : map (clu A') = map (clu A)) by (unfold clu; rewrite W; auto). rewrite En, Em, Ed. split; [auto|]. split; [auto|]. intros c I. apply (reach_mono A); auto.
Qed.
Lemma shape_replaced A c f f' A' : shape A -> In c (nodes A) -> replaced A c f f' A' -> isdir f' = isdir f -> (isdir f = true -> clu A f' = clu A f) -> shape A'.
Proof.
  intros Sh I R D C. pose proof (links_replaced A c f f' A' (proj1 Sh) I R) as (a & b & E1 & E2). apply (shape_same A); auto; try (destruct R as (? & ? & _ & ->); reflexivity).
  - rewrite E1, E2, !filter_app, !map_app. cbn [filter]. rewrite D. destruct (isdir f); [|auto]. cbn [map]. rewrite C; auto.
  - intros p k. apply (parent_replaced A c f f'); auto.
Qed.
Lemma parent_added A c f A' : added A c f A' -> forall p k, parent A p k -> parent A' p k.
Proof.
  intros (a & b & E & ->) p k (I & g & Ig & G). apply parent_with. destruct (Z.eq_dec p c) as [->|N]; [left|right; split; [auto|split; eauto]]. split; [auto|]. split; [auto|]. exists g. rewrite E in Ig. split; [|auto]. apply in_app_iff in Ig. apply in_or_app. cbn. tauto.
Qed.
Lemma shape_added A c f A' : shape A -> In c (nodes A) -> added A c f A' -> isdir f = false -> shape A'.
Proof.
  intros Sh I R D. pose proof (links_added A c f A' (proj1 Sh) I R) as (a & b & E1 & E2). apply (shape_same A); auto; try (destruct R as (? & ? & _ & ->); reflexivity).
  - rewrite E1, E2, !filter_app, !map_app. cbn [filter]. rewrite D. auto.
  - intros p k. now apply (parent_added A c f).
Qed.
Lemma parent_removed A c f A' : removed A c f A' -> forall p k, parent A p k -> (isdir f = false \/ clu A f <> k) -> parent A' p k.
Proof.
  intros (a & b & E & ->) p k (I & g & Ig & Dg & Eg) Nf. apply parent_with. destruct (Z.eq_dec p c) as [->|N]; [left|right; split; [auto|split; eauto]]. split; [auto|]. split; [auto|]. exists g. rewrite E in Ig. split; [|auto]. apply in_app_iff in Ig as [Ig|[->|Ig]]; [apply in_or_app; auto| |apply in_or_app; auto]. exfalso. destruct Nf; congruence.
Qed.
Lemma shape_removed A c f A' : shape A -> In c (nodes A) -> removed A c f A' -> isdir f = false -> shape A'.
Proof.
  intros Sh I R D. pose proof (links_removed A c f A' (proj1 Sh) I R) as (a & b & E1 & E2). apply (shape_same A); auto; try (destruct R as (? & ? & _ & ->); reflexivity).
  - rewrite E1, E2, !filter_app, !map_app. cbn [filter]. rewrite D. auto.
  - intros p k Q. apply (parent_removed A c f); auto.
Qed.

(* Removing an empty directory. *)
Lemma links_without A k : ents A k = [] -> links (without A k) = links A.
Proof.
  intros E. unfold links, without. cbn [nodes ents]. induction (nodes A) as [|x l IH]; [auto|]. cbn [filter flat_map]. destruct (Z.eqb_spec x k) as [->|N]; cbn [negb flat_map]; [now rewrite E, IH|now rewrite IH].
Qed.
Lemma without_perm A k : NoDup (nodes A) -> In k (nodes A) -> Permutation (nodes A) (k :: nodes (without A k)).
Proof.
  unfold without. cbn [nodes]. intros N I. destruct (split_nodup k _ N I) as (a & b & E & Na & Nb). rewrite E, filter_app. cbn [filter]. rewrite Z.eqb_refl. cbn [negb].
  assert (Q : forall l, ~ In k l -> filter (fun c => negb (c =? k)) l = l).
  { clear. induction l as [|x l IH]; intros N; [auto|]. cbn. cbn [In] in N. replace (x =? k) with false by lia. cbn. f_equal. apply IH. tauto. }
  rewrite !Q by auto. symmetry. apply Permutation_middle.
Qed.
Lemma in_without A k c : In c (nodes (without A k)) <-> In c (nodes A) /\ c <> k.
Proof. unfold without. cbn. rewrite filter_In, negb_true_iff, Z.eqb_neq. tauto. Qed.
Lemma shape_rmdir A c f A' : shape A -> In c (nodes A) -> In f (ents A c) -> isdir f = true -> ents A (clu A f) = [] -> removed (without A (clu A f)) c f A' -> shape A' /\ clu A f <> 0 /\ In (clu A f) (nodes A) /\ c <> clu A f.
Proof.
  intros Sh I If D Em R. pose proof Sh as (N & P & Re). set (k := clu A f) in *. assert (Pk : parent A c k) by (split; [auto|exists f; auto]).
  assert (K0 : k <> 0) by (eapply parent_unique; eauto). assert (Ik : In k (nodes A)).
  { eapply Permutation_in; [exact P|]. right. apply in_map, filter_In. split; [apply in_flat_map; eauto|auto]. }
  assert (Ck : c <> k) by (intros Q; rewrite Q, Em in If; destruct If). split; [|auto].
  assert (Nw : NoDup (nodes (without A k))) by now apply NoDup_filter. assert (Iw : In c (nodes (without A k))) by now apply in_without.
  destruct (links_removed (without A k) c f A' Nw Iw R) as (a & b & E1 & E2). rewrite links_without in E1 by auto.
  assert (Wn : wide A' = wide A /\ nodes A' = nodes (without A k)) by (destruct R as (? & ? & _ & ->); auto). destruct Wn as [Wd Nd]. assert (Em' : map (clu A') = map (clu A)) by (unfold clu; rewrite Wd; auto).
  split; [now rewrite Nd|]. split.
  - rewrite Nd, Em', E2. apply (Permutation_cons_inv (a := k)). rewrite <- without_perm by auto. rewrite <- P, E1, !filter_app, !map_app. cbn [filter]. rewrite D. cbn [map]. fold k. rewrite perm_swap. apply perm_skip. apply Permutation_middle.
  - rewrite Nd. intros x Ix. apply in_without in Ix as [Ix Nx]. specialize (Re x Ix). clear Ix. induction Re as [|p x Rp IH Px]; [constructor|].
    assert (Np : p <> k) by (destruct Px as (_ & g & Ig & _); intros ->; rewrite Em in Ig; destruct Ig). econstructor; [apply IH; auto|]. apply (parent_removed _ c f A' R).
    + destruct Px as (Ip & g & G). split; [now apply in_without|exists g; auto].
    + right. intros Q. apply Nx. rewrite <- Q. auto.
Qed.

(* A new directory. *)
Lemma links_with_node A k : ~ In k (nodes A) -> links (with_node A k) = links A.
Proof. intros N. unfold links, with_node. cbn [nodes ents flat_map]. rewrite put_same. cbn. apply flat_map_ext_in. intros x X. apply put_other. intros ->. auto. Qed.
Lemma shape_mkdir A c f A' k : shape A -> In c (nodes A) -> ~ In k (nodes A) -> isdir f = true -> clu A f = k -> added (with_node A k) c f A' -> shape A'.
Proof.
  intros Sh I Nk D C R. pose proof Sh as (N & P & Re). assert (Ck : c <> k) by (intros ->; auto). assert (Nw : NoDup (nodes (with_node A k))) by (cbn; constructor; auto). assert (Iw : In c (nodes (with_node A k))) by (right; auto).
  destruct (links_added (with_node A k) c f A' Nw Iw R) as (a & b & E1 & E2). rewrite links_with_node in E1 by auto.
  assert (Wn : wide A' = wide A /\ nodes A' = k :: nodes A) by (destruct R as (? & ? & _ & ->); auto). destruct Wn as [Wd Nd]. assert (Em' : map (clu A') = map (clu A)) by (unfold clu; rewrite Wd; auto).
  split; [rewrite Nd; constructor; auto|]. split.
  - rewrite Nd, Em', E2, <- P, E1, !filter_app, !map_app. cbn [filter]. rewrite D. cbn [map]. rewrite C, perm_swap. apply perm_skip. symmetry. apply Permutation_middle.
  - rewrite Nd. assert (Re' : forall x, reach A x -> reach A' x).
    { apply reach_mono. intros p x (Ip & g & G). apply (parent_added _ c f A' R). split; [right; auto|]. cbn [with_node ents]. rewrite put_other by (intros ->; auto). exists g. auto. }
    intros x [<-|Ix]; [|auto]. apply reach_down with c; [auto|]. destruct R as (x & y & Ex & ->). apply parent_with. left. split; [auto|]. split; [auto|]. exists f. split; [apply in_or_app; right; left; auto|auto].
Qed.

(* Moving a directory. *)
Lemma under_trans A a b c : under A a b -> under A b c -> under A a c.
Proof. intros H G. induction G as [|p c _ IH P]; [auto|]. econstructor; eauto. Qed.
Lemma no_cycle A : shape A -> forall x, reach A x -> forall k, under A k x -> parent A x k -> False.
Proof.
  intros Sh x R. induction R as [|p c _ IH P]; intros k U Pk.
  - inversion U as [Q|q ? U' P' Q]; subst; [now apply (parent_unique A 0 0 0 Sh) in Pk|]. now apply (parent_unique A q q 0 Sh) in P'.
  - apply (IH c); [|auto]. inversion U as [Q|q ? U' P' Q]; subst.
    + destruct (parent_unique A c p c Sh Pk P) as [-> _]. constructor.
    + destruct (parent_unique A q p c Sh P' P) as [-> _]. apply under_trans with k; [|auto]. econstructor; [constructor|auto].
Qed.
Lemma not_inside A c f : shape A -> In c (nodes A) -> In f (ents A c) -> isdir f = true -> ~ under A (clu A f) c.
Proof. intros Sh I If D U. apply (no_cycle A Sh c ltac:(apply Sh; auto) (clu A f) U). split; [auto|]. exists f. auto. Qed.
Lemma shape_moved A c f c2 f' A1 A' : shape A -> In c (nodes A) -> In c2 (nodes A) -> removed A c f A1 -> added A1 c2 f' A' -> isdir f' = isdir f -> clu A f' = clu A f -> (isdir f = true -> ~ under A (clu A f) c2) -> shape A'.
Proof.
  intros Sh I I2 R Ad D C U. assert (W1 : wide A1 = wide A /\ nodes A1 = nodes A) by (destruct R as (? & ? & _ & ->); auto). destruct W1 as [W1 N1].
  destruct (isdir f) eqn:Df.
  2: { apply (shape_added A1 c2 f'); auto; [apply (shape_removed A c f); auto|now rewrite N1]. }
  specialize (U eq_refl). pose proof Sh as (N & P & Re). set (k := clu A f) in *. assert (W2 : wide A' = wide A /\ nodes A' = nodes A) by (destruct Ad as (? & ? & _ & ->); auto). destruct W2 as [W2 N2].
  destruct (links_removed A c f A1 N I R) as (a & b & E1 & E2). destruct (links_added A1 c2 f' A') as (a' & b' & E3 & E4); [now rewrite N1|now rewrite N1|auto|].
  assert (Em' : map (clu A') = map (clu A)) by (unfold clu; rewrite W2; auto). split; [now rewrite N2|]. split.
  - rewrite N2, Em', <- P, E4, E1. apply perm_skip. transitivity (map (clu A) (filter isdir (f :: a' ++ b'))).
    + rewrite !filter_app. cbn [filter]. rewrite D, Df, filter_app. cbn [map]. rewrite !map_app. cbn [map]. rewrite C. symmetry. apply Permutation_middle.
    + rewrite <- E3, E2, filter_app. cbn [filter]. rewrite Df, filter_app. cbn [map]. rewrite !map_app. cbn [map]. apply Permutation_middle.
  - assert (Pm : forall p x, parent A p x -> x <> k -> parent A' p x).
    { intros p x Px Nx. apply (parent_added A1 c2 f' A' Ad). apply (parent_removed A c f A1 R); auto. }
    assert (Out : forall x, reach A x -> ~ under A k x -> reach A' x).
    { intros x R0. induction R0 as [|p x _ IH Px]; intros Nu; [constructor|]. apply reach_down with p; [apply IH; intros Q; apply Nu; econstructor; eauto|]. apply Pm; [auto|]. intros ->. apply Nu. constructor. }
    assert (Rk : reach A' k).
    { apply reach_down with c2; [apply Out; [apply Re|]; auto|]. destruct Ad as (x & y & _ & ->). apply parent_with. left. split; [auto|]. split; [now rewrite N1|]. exists f'. split; [apply in_or_app; right; left; auto|]. split; [auto|]. unfold clu. rewrite W1. exact C. }
    rewrite N2. intros x Ix. specialize (Re x Ix). clear Ix.
    induction Re as [|p x _ IH Px]; [constructor|]. destruct (Z.eq_dec x k) as [->|Nx]; [auto|]. apply reach_down with p; auto.
Qed.
