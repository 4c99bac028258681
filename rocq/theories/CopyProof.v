(* cp: the file system, paths. *)
From Coq Require Import Lia.
From Verif Require Import Base CopyModel CopySpec.
Open Scope Z_scope.

(* --- find and set --- *)

Lemma find_set l p o q : find (set l p o) q = if path_dec p q then Some o else find l q.
Proof.
  induction l as [|[a x] l IH]; cbn [set find].
  - destruct (path_dec p q); reflexivity.
  - destruct (path_dec a p) as [->|N]; cbn [find].
    + destruct (path_dec p q); reflexivity.
    + rewrite IH. destruct (path_dec a q) as [->|]; [|reflexivity]. destruct (path_dec p q); [congruence|reflexivity].
Qed.
Lemma find_In l p o : find l p = Some o -> In (p, o) l.
Proof.
  induction l as [|[a x] l IH]; cbn [find]; [discriminate|]. destruct (path_dec a p) as [->|]; [intros [= ->]; now left|right; auto].
Qed.
Lemma In_find l p o : NoDup (map fst l) -> In (p, o) l -> find l p = Some o.
Proof.
  induction l as [|[a x] l IH]; cbn [find map fst]; [easy|]. intros N [E|I].
  - injection E as -> ->. destruct (path_dec p p); congruence.
  - inversion N; subst. destruct (path_dec a p) as [->|]; [|auto]. exfalso. apply H1. now apply (in_map fst) in I.
Qed.
Lemma set_paths l p o : map fst (set l p o) = map fst l \/ find l p = None /\ map fst (set l p o) = map fst l ++ [p].
Proof.
  induction l as [|[a x] l IH]; cbn [set find map fst app]; [right; auto|]. destruct (path_dec a p) as [->|N]; cbn [map fst]; [left; reflexivity|].
  destruct IH as [->|[F ->]]; auto.
Qed.

Lemma tree_find l : tree l <-> NoDup (map fst l) /\ forall p o, find l p = Some o -> exists a n, p = a ++ [n] /\ good n /\ (a = [] \/ find l a = Some D).
Proof.
  split; intros [N T]; (split; [exact N|]); intros p o I.
  - apply find_In in I. destruct (T _ _ I) as (a & n & E & G & [R|R]); exists a, n; repeat split; auto; try apply G. right. now apply In_find.
  - apply In_find in I; [|exact N]. destruct (T _ _ I) as (a & n & E & G & [R|R]); exists a, n; repeat split; auto; try apply G. right. now apply find_In.
Qed.

Lemma tree_set l a n o : tree l -> good n -> (a = [] \/ find l a = Some D) -> (forall x, find l (a ++ [n]) = Some x -> kind x = kind o) -> tree (set l (a ++ [n]) o).
Proof.
  rewrite !tree_find. intros [N T] G A K. split.
  - destruct (set_paths l (a ++ [n]) o) as [->|[F ->]]; [exact N|].
    match goal with |- NoDup ?x => rewrite <- (rev_involutive x) end. apply NoDup_rev. rewrite rev_app_distr. cbn [rev app]. constructor.
    + rewrite <- in_rev. intros I. apply in_map_iff in I as ([b x] & E & I). cbn in E. subst b. apply In_find in I; congruence.
    + now apply NoDup_rev.
  - assert (KD : forall q, find l q = Some D -> find (set l (a ++ [n]) o) q = Some D).
    { intros q Fq. rewrite find_set. destruct (path_dec (a ++ [n]) q) as [<-|]; [|exact Fq]. specialize (K _ Fq). destruct o; [discriminate|reflexivity]. }
    intros p x. rewrite find_set. destruct (path_dec (a ++ [n]) p) as [<-|].
    + intros _. exists a, n. repeat split; auto; try apply G. destruct A as [A|A]; auto.
    + intros Fp. destruct (T _ _ Fp) as (b & m & E & Gm & B). exists b, m. repeat split; auto; try apply Gm. destruct B as [B|B]; auto.
Qed.

(* --- strip, children, size --- *)

Lemma strip_spec : forall p q t, strip p q = Some t <-> q = p ++ t.
Proof.
  induction p as [|a p IH]; intros q t; cbn [strip app].
  - split; [now intros [= ->]|now intros ->].
  - destruct q as [|b q]; [split; discriminate|]. destruct (list_eq_dec Z.eq_dec a b) as [->|N].
    + rewrite IH. split; [now intros ->|now intros [= ->]].
    + split; [discriminate|]. intros [= ? ?]. congruence.
Qed.
Lemma strip_none p q : strip p q = None <-> ~ under p q.
Proof.
  split.
  - intros E [t ->]. rewrite (proj2 (strip_spec p (p ++ t) t) eq_refl) in E. discriminate.
  - intros N. destruct (strip p q) as [t|] eqn:E; [|reflexivity]. exfalso. apply N. exists t. now apply strip_spec.
Qed.

Lemma children_In l p n o : In (n, o) (children l p) <-> In (p ++ [n], o) l.
Proof.
  unfold children. rewrite in_flat_map. split.
  - intros ([q x] & I & E). cbn [fst snd] in E. destruct (strip p q) as [[|m [|? ?]]|] eqn:S; cbn in E; try easy. destruct E as [[= -> ->]|[]].
    apply strip_spec in S as ->. exact I.
  - intros I. exists (p ++ [n], o). split; [exact I|]. cbn [fst snd]. rewrite (proj2 (strip_spec p (p ++ [n]) [n]) eq_refl). now left.
Qed.
Lemma children_names l p : NoDup (map fst l) -> NoDup (map fst (children l p)).
Proof.
  induction l as [|[q x] l IH]; [constructor|]. cbn [map fst]. intros N. inversion N as [|? ? NI NR]; subst. unfold children. cbn [flat_map fst snd]. fold (children l p).
  destruct (strip p q) as [[|m [|? ?]]|] eqn:S; cbn [app]; auto. cbn [map fst]. constructor; [|auto].
  intros I. apply in_map_iff in I as ([k y] & E & I). cbn in E. subst k. apply children_In in I. apply strip_spec in S. subst q. apply NI. now apply (in_map fst) in I.
Qed.
Lemma children_le l p : (length (children l p) <= size l p)%nat.
Proof.
  induction l as [|[q x] l IH]; [cbn; lia|]. unfold children, size in *. cbn [flat_map filter fst snd]. rewrite app_length.
  destruct (strip p q) as [[|m [|? ?]]|]; cbn [length]; lia.
Qed.
Lemma children_lt l p o : In (p, o) l -> (length (children l p) < size l p)%nat.
Proof.
  induction l as [|[q x] l IH]; [easy|]. intros I. unfold children, size in *. cbn [flat_map filter fst snd]. rewrite app_length.
  destruct I as [[= -> ->]|I].
  - rewrite (proj2 (strip_spec p p []) (eq_sym (app_nil_r p))). pose proof (children_le l p) as L. unfold children, size in L. cbn [length]. lia.
  - specialize (IH I). destruct (strip p q) as [[|m [|? ?]]|]; cbn [length]; lia.
Qed.
Lemma size_le l p n : (size l (p ++ [n]) <= size l p)%nat.
Proof.
  induction l as [|[q x] l IH]; [cbn; lia|]. unfold size in *. cbn [filter fst]. destruct (strip (p ++ [n]) q) as [t|] eqn:S.
  - apply strip_spec in S. rewrite <- app_assoc in S. apply strip_spec in S. rewrite S. cbn [length]. lia.
  - destruct (strip p q); cbn [length]; lia.
Qed.
Lemma size_lt l p n o : In (p, o) l -> (size l (p ++ [n]) < size l p)%nat.
Proof.
  induction l as [|[q x] l IH]; [easy|]. intros I. unfold size in *. cbn [filter fst]. destruct I as [[= -> ->]|I].
  - rewrite (proj2 (strip_spec p p []) (eq_sym (app_nil_r p))). rewrite (proj2 (strip_none (p ++ [n]) p)).
    + pose proof (size_le l p n) as L. unfold size in L. cbn [length]. lia.
    + intros [t E]. apply (f_equal (@length _)) in E. rewrite !app_length in E. cbn in E. lia.
  - specialize (IH I). destruct (strip (p ++ [n]) q) as [t|] eqn:S.
    + apply strip_spec in S. rewrite <- app_assoc in S. apply strip_spec in S. rewrite S. cbn [length]. lia.
    + destruct (strip p q); cbn [length]; lia.
Qed.

(* --- paths --- *)

Lemma under_trans a b c : under a b -> under b c -> under a c.
Proof. intros [x ->] [y ->]. exists (x ++ y). now rewrite app_assoc. Qed.
Lemma under_app p t : under p (p ++ t).
Proof. now exists t. Qed.
Lemma apart_sym p q : apart p q -> apart q p.
Proof. intros [A B]. now split. Qed.
(* two paths to the same place: one is above the other *)
Lemma two_above : forall (a b x y : path), a ++ x = b ++ y -> under a b \/ under b a.
Proof.
  induction a as [|u a IH]; intros b x y E; [left; now exists b|]. destruct b as [|v b]; [right; now exists (u :: a)|].
  cbn [app] in E. injection E as -> E. destruct (IH _ _ _ E) as [[t ->]|[t ->]]; [left|right]; now exists t.
Qed.
Lemma apart_ne p q x y : apart p q -> p ++ x <> q ++ y.
Proof. intros [A B] E. destruct (two_above _ _ _ _ E); auto. Qed.
Lemma apart_app p q x y : apart p q -> apart (p ++ x) (q ++ y).
Proof. intros A. split; intros [t E]; rewrite <- app_assoc in E; [symmetry in E|]; now apply (apart_ne p q) in E. Qed.
Lemma apart_not p q r : apart p q -> under q r -> ~ under p r.
Proof. intros A [x ->] [y E]. symmetry in E. now apply (apart_ne p q) in E. Qed.

(* --- touched: changes in q --- *)

Inductive touched (q : path) (l : files) : files -> Prop :=
| TNone : touched q l l
| TSet l' a n o : touched q l l' -> under q (a ++ [n]) -> good n -> (a = [] \/ find l' a = Some D) ->
    (forall x, find l' (a ++ [n]) = Some x -> kind x = kind o) -> touched q l (set l' (a ++ [n]) o).

Lemma touched_trans q l l' l'' : touched q l l' -> touched q l' l'' -> touched q l l''.
Proof. intros A B. induction B; [exact A|]. now constructor. Qed.
Lemma touched_up q q' l l' : under q' q -> touched q l l' -> touched q' l l'.
Proof. intros U T. induction T; [constructor|]. constructor; auto. eapply under_trans; eauto. Qed.
Lemma touched_tree q l l' : tree l -> touched q l l' -> tree l'.
Proof. intros T H. induction H; [exact T|]. now apply tree_set. Qed.
Lemma touched_frame q l l' r : touched q l l' -> ~ under q r -> find l' r = find l r.
Proof. intros H N. induction H; [reflexivity|]. rewrite find_set. destruct (path_dec (a ++ [n]) r) as [<-|]; [easy|exact IHtouched]. Qed.
Lemma touched_kind q l l' r x : touched q l l' -> find l r = Some x -> exists x', find l' r = Some x' /\ kind x' = kind x.
Proof.
  intros H E. induction H; [eauto|]. destruct IHtouched as (x' & E' & K'). rewrite find_set. destruct (path_dec (a ++ [n]) r) as [<-|]; [|eauto].
  exists o. split; [reflexivity|]. rewrite <- K'. symmetry. auto.
Qed.
Lemma touched_dir q l l' r : touched q l l' -> find l r = Some D -> find l' r = Some D.
Proof. intros H E. destruct (touched_kind _ _ _ _ _ H E) as ([d|] & E' & K); [discriminate|exact E']. Qed.
Lemma set_children l p q o : ~ under p q -> children (set l q o) p = children l p.
Proof.
  intros N. apply strip_none in N. induction l as [|[a x] l IH]; unfold children in *; cbn [set].
  - cbn [flat_map fst]. rewrite N. reflexivity.
  - destruct (path_dec a q) as [->|]; cbn [flat_map fst snd]; [rewrite N; reflexivity|]. now rewrite IH.
Qed.
Lemma set_size l p q o : ~ under p q -> size (set l q o) p = size l p.
Proof.
  intros N. apply strip_none in N. induction l as [|[a x] l IH]; unfold size in *; cbn [set].
  - cbn [filter fst]. rewrite N. reflexivity.
  - destruct (path_dec a q) as [->|]; cbn [filter fst]; [rewrite N; reflexivity|]. destruct (strip p a); cbn [length]; now rewrite IH.
Qed.
Lemma touched_children q l l' p : touched q l l' -> apart p q -> children l' p = children l p.
Proof. intros H A. induction H; [reflexivity|]. rewrite set_children; [exact IHtouched|]. now apply (apart_not p q). Qed.
Lemma touched_size q l l' p : touched q l l' -> apart p q -> size l' p = size l p.
Proof. intros H A. induction H; [reflexivity|]. rewrite set_size; [exact IHtouched|]. now apply (apart_not p q). Qed.
Lemma touched_confined q l l' : touched q l l' -> confined l l' q.
Proof. intros H. split; [intros r; now apply touched_frame|]. intros r x. now apply touched_kind with (q := q). Qed.

(* --- texts and what they lead to --- *)

Lemma comps_app : forall a b cur, comps (a ++ 47 :: b) cur = comps a cur ++ comps b [].
Proof.
  induction a as [|c a IH]; intros b cur; cbn [app comps].
  - change (47 =? 47) with true. cbn iota. destruct cur; reflexivity.
  - destruct (c =? 47); [|apply IH]. destruct cur; cbn [app]; now rewrite IH.
Qed.
Lemma comps_name : forall n cur, ~ In 47 n -> cur ++ n <> [] -> comps n cur = [cur ++ n].
Proof.
  induction n as [|c n IH]; intros cur S E; cbn [comps].
  - rewrite app_nil_r in *. destruct cur; [congruence|reflexivity].
  - destruct (Z.eqb_spec c 47) as [->|]; [exfalso; apply S; now left|]. rewrite IH; [now rewrite <- app_assoc|intros I; apply S; now right|].
    intros E'. apply app_eq_nil in E' as [E' _]. now apply app_eq_nil in E' as [_ ?].
Qed.
Lemma comps_good n : good n -> comps n [] = [n].
Proof. intros (N & S & _). now apply (comps_name n []). Qed.
Lemma good_dots n : good n -> dots n = false.
Proof.
  intros (_ & _ & A & B & _). destruct (dots n) eqn:E; [|reflexivity]. exfalso. unfold dots in E.
  repeat match type of E with context [match ?x with _ => _ end] => destruct x; try discriminate E end; congruence.
Qed.

Lemma parts_comps s ns : parts s ns -> comps s [] = ns /\ Forall good ns.
Proof.
  induction 1 as [|s ns _ [IH F]|n G|n s ns G _ [IH F]].
  - now split.
  - split; [exact IH|exact F].
  - split; [now apply comps_good|]. constructor; [exact G|constructor].
  - split; [rewrite comps_app, IH, comps_good by exact G; reflexivity|]. now constructor.
Qed.

Lemma walk_ok l : forall ns cur, ns <> [] -> Forall good ns -> (forall a b, ns = a ++ b -> a <> [] -> b <> [] -> find l (cur ++ a) = Some D) -> walk l cur ns = At (cur ++ ns).
Proof.
  induction ns as [|n ns IH]; intros cur NE F P; [congruence|]. inversion F as [|? ? G Fr]; subst. cbn [walk]. rewrite (good_dots n G).
  destruct ns as [|m ns]; [reflexivity|]. rewrite (P [n] (m :: ns)) by (auto; discriminate). rewrite IH; [now rewrite <- app_assoc|discriminate|exact Fr|].
  intros a b E A B. rewrite <- app_assoc. apply (P (n :: a) b); [cbn; now rewrite E|discriminate|exact B].
Qed.

Lemma start_eq s (c : path) : (match s with 47 :: _ => [] | _ => c end) = if Z.eq_dec (hd 0 s) 47 then [] else c.
Proof.
  destruct s as [|x s]; [reflexivity|]. cbn [hd]. destruct (Z.eq_dec x 47) as [->|N]; [reflexivity|].
  destruct x as [|x|x]; try reflexivity. repeat (destruct x; try reflexivity; try congruence).
Qed.

Lemma leads_follow w s p : leads w s p -> follow w s = At p.
Proof.
  intros (ns & start & P & NE & S & -> & C). destruct (parts_comps _ _ P) as [E F]. unfold follow. rewrite E, start_eq.
  destruct S as [[H ->]|[N ->]]; (destruct (Z.eq_dec (hd 0 s) 47); [|try congruence]); try congruence; now apply walk_ok.
Qed.

Lemma parts_slash_end : forall s ns, parts s ns -> forall s', s = s' ++ [47] -> parts s' ns.
Proof.
  induction 1 as [|s ns P IH|n G|n s ns G P IH]; intros s' E.
  - now destruct s'.
  - destruct s' as [|c s']; cbn [app] in E.
    + injection E as ->. exact P.
    + injection E as <- E. constructor. now apply IH.
  - exfalso. destruct G as (_ & S & _). apply S. rewrite E. apply in_or_app. right. now left.
  - destruct (exists_last (l := s')) as [s2 [c E2]].
    + intros ->. cbn in E. destruct n as [|? [|? ?]]; [destruct G; congruence| |]; discriminate E.
    + destruct s as [|x s] using rev_ind.
      * assert (s' = n) as -> by (change (n ++ [47] = s' ++ [47]) in E; now apply app_inj_tail in E as [-> _]).
        assert (ns = []) as -> by (apply parts_comps in P as [P _]; now cbn in P). apply PLast. exact G.
      * clear IHs. assert (E' : (n ++ 47 :: s) ++ [x] = s' ++ [47]) by (rewrite <- E, <- app_assoc; reflexivity).
        apply app_inj_tail in E' as [<- ->]. apply PNext; [exact G|]. now apply IH.
Qed.
Lemma parts_snoc : forall s ns, parts s ns -> forall n, good n -> parts (s ++ 47 :: n) (ns ++ [n]).
Proof.
  induction 1 as [|s ns P IH|m G|m s ns G P IH]; intros n Gn; cbn [app].
  - apply PSlash. now apply PLast.
  - apply PSlash. now apply IH.
  - apply PNext; [exact G|]. now apply PLast.
  - rewrite <- app_assoc. cbn [app]. apply PNext; [exact G|]. now apply IH.
Qed.

Lemma parts_ne s ns : parts s ns -> ns <> [] -> s <> [].
Proof. intros P NE ->. apply parts_comps in P as [P _]. cbn in P. congruence. Qed.
Lemma hd_app (s t : list Z) : s <> [] -> hd 0 (s ++ t) = hd 0 s.
Proof. destruct s; [congruence|reflexivity]. Qed.

Lemma slashed_ok s : s <> [] -> exists b, slashed s = Ok b /\ (b = s ++ [47] \/ b = s /\ exists s', s = s' ++ [47]).
Proof.
  intros N. unfold slashed. destruct (rev s) as [|c r] eqn:E; [exfalso; apply N; rewrite <- (rev_involutive s), E; reflexivity|].
  destruct (Z.eqb_spec c 47) as [->|].
  - exists s. split; [reflexivity|]. right. split; [reflexivity|]. exists (rev r). rewrite <- (rev_involutive s), E. reflexivity.
  - eauto.
Qed.

(* the path of an entry *)
Lemma leads_child w s p : leads w s p -> exists b, slashed s = Ok b /\ (length b <= length s + 1)%nat /\ b <> [] /\
  forall w' n, cwd w' = cwd w -> (forall r, find (fs w) r = Some D -> find (fs w') r = Some D) -> find (fs w') p = Some D -> good n -> leads w' (b ++ n) (p ++ [n]).
Proof.
  intros (ns & start & P & NE & S & -> & C). pose proof (parts_ne _ _ P NE) as SN.
  destruct (slashed_ok s SN) as (b & E & B). exists b. split; [exact E|].
  assert (L : (length b <= length s + 1)%nat) by (destruct B as [->|[-> _]]; [rewrite app_length; cbn; lia|lia]). split; [exact L|].
  split; [destruct B as [->|[-> _]]; [now destruct s|exact SN]|].
  intros w' n CW K PD G. exists (ns ++ [n]), start.
  assert (PB : parts (b ++ n) (ns ++ [n])).
  { destruct B as [->|[-> [s' ->]]]; [rewrite <- app_assoc; now apply parts_snoc|]. rewrite <- app_assoc. apply parts_snoc; [|exact G]. eapply parts_slash_end; eauto. }
  split; [exact PB|]. split; [now destruct ns|]. split.
  { assert (HD : hd 0 (b ++ n) = hd 0 s) by (destruct B as [->|[-> _]]; rewrite !hd_app; auto; now destruct s). rewrite HD, CW. exact S. }
  split; [now rewrite app_assoc|]. intros x y E' X Y.
  destruct (exists_last Y) as [y' [m ->]]. rewrite app_assoc in E'. apply app_inj_tail in E' as [-> ->].
  destruct y' as [|z y']; [rewrite app_nil_r in *; exact PD|]. apply K. apply (C x (z :: y')); auto. discriminate.
Qed.

Lemma leads_keep w w' s p : leads w s p -> cwd w' = cwd w -> (forall r, find (fs w) r = Some D -> find (fs w') r = Some D) -> leads w' s p.
Proof. intros (ns & start & P & NE & S & E & C) CW K. exists ns, start. rewrite CW. repeat split; auto. intros. apply K. eauto. Qed.

Lemma leads_parent w s p : leads w s p -> sane w -> exists a n, p = a ++ [n] /\ good n /\ (a = [] \/ find (fs w) a = Some D).
Proof.
  intros (ns & start & P & NE & S & -> & C) [_ CD]. destruct (parts_comps _ _ P) as [_ F]. destruct (exists_last NE) as [b [n ->]].
  exists (start ++ b), n. apply Forall_app in F as [_ G]. inversion G; subst. split; [now rewrite app_assoc|]. split; [assumption|].
  destruct b as [|x b].
  - rewrite app_nil_r. destruct S as [[_ ->]|[_ ->]]; auto.
  - right. apply (C (x :: b) [n]); auto; discriminate.
Qed.
