(* f_getcwd. *)
From Verif Require Import Base CrcSpec FutfModel FutfSpec FutfProof LfnModel LfnSpec LfnProof FdirModel FdirSpec FdirProof FdirProof2 FdirProof3 FnameModel FnameSpec FnameProof FnameProof5 FnameProof6 FpathModel FpathSpec FpathProof FpathProof2 FpathProof4 FpathProof14 FpathProof15.
Open Scope Z_scope.

(* --- the way up ---------------------------------------------------------------------------- *)
Inductive way (A : tree) : Z -> list entry_t -> Prop :=
| way_root : way A 0 []
| way_up : forall p c f fs, way A p fs -> In p (nodes A) -> In f (ents A p) -> isdir f = true -> clu A f = c -> way A c (f :: fs).
Lemma way_exists A c : shape A -> reach A c -> exists fs, way A c fs.
Proof.
  intros S. induction 1 as [|p c R [fs W] (I & f & If & D & E)]; [exists []; constructor|]. exists (f :: fs). econstructor; eauto.
Qed.
Lemma way_zero A fs : shape A -> way A 0 fs -> fs = [].
Proof. intros S W. inversion W as [|p c f fs' W' I If D E]; subst; [auto|]. exfalso. assert (P : parent A p 0) by (split; eauto). destruct (parent_unique A p p 0 S P P). auto. Qed.
Lemma way_length A c fs : shape A -> way A c fs -> forall fs', way A c fs' -> length fs = length fs'.
Proof.
  intros S. induction 1 as [|p c f fs W IH I If D E]; intros fs' W'; [apply way_zero in W'; subst; auto|].
  inversion W' as [E0|p' c' f' fs'' W'' I' If' D' E' E1 E2]; subst.
  - exfalso. assert (P : parent A p 0) by (split; [auto|]; exists f; auto). destruct (parent_unique A p p 0 S P P). auto.
  - cbn. f_equal. apply IH. assert (P : parent A p (clu A f)) by (split; eauto). assert (P' : parent A p' (clu A f)) by (split; [auto|]; exists f'; auto). destruct (parent_unique A p p' _ S P P') as [-> _]. auto.
Qed.
Lemma way_split A c fs : way A c fs -> forall a g b, fs = a ++ g :: b -> way A (clu A g) (g :: b).
Proof.
  induction 1 as [|p c f fs W IH I If D E]; intros a g b Q; [now destruct a|]. destruct a as [|x a]; cbn in Q; injection Q as <- ->; [subst c; econstructor; eauto|eauto].
Qed.
Lemma way_nodup A c fs : shape A -> way A c fs -> NoDup (map (clu A) fs).
Proof.
  intros S. induction 1 as [|p c f fs W IH I If D E]; cbn; [constructor|]. constructor; [|auto]. intros J. apply in_map_iff in J as (g & Eg & Jg). apply in_split in Jg as (a & b & ->).
  assert (W1 : way A (clu A g) (g :: b)) by (eapply way_split; eauto). rewrite Eg in W1. assert (W2 : way A (clu A f) (f :: a ++ g :: b)) by (econstructor; eauto). pose proof (way_length _ _ _ S W1 _ W2) as Q. cbn in Q. rewrite app_length in Q. cbn in Q. lia.
Qed.
Lemma way_nodes A c fs : shape A -> way A c fs -> forall f, In f fs -> In (clu A f) (nodes A) /\ clu A f <> 0.
Proof.
  intros S. induction 1 as [|p c f fs W IH I If D E]; [easy|]. intros g [->|J]; [|auto]. assert (P : parent A p (clu A g)) by (split; eauto). destruct (parent_unique A p p _ S P P) as [_ N]. split; [|auto].
  destruct S as (_ & Pm & _). eapply Permutation_in; [exact Pm|]. right. apply in_map, filter_In. split; [|auto]. unfold links. apply in_flat_map. eauto.
Qed.
Lemma way_short A c fs : shape A -> way A c fs -> (length fs < length (nodes A))%nat.
Proof.
  intros S W. assert (N : NoDup (0 :: map (clu A) fs)).
  { constructor; [|eapply way_nodup; eauto]. intros J. apply in_map_iff in J as (g & E & J). now destruct (way_nodes A c fs S W g J). }
  assert (Q : incl (0 :: map (clu A) fs) (nodes A)).
  { intros x [<-|J]; [destruct S as (_ & Pm & _); eapply Permutation_in; [exact Pm|left; auto]|]. apply in_map_iff in J as (g & <- & J). now apply (way_nodes A c fs S W). }
  pose proof (NoDup_incl_length N Q) as Le. cbn in Le. rewrite map_length in Le. lia.
Qed.

(* --- the path ------------------------------------------------------------------------------ *)
Definition pbytes (ns : list (list Z)) : list Z := flat_map (fun cs => 47 :: utf8 cs) ns.
Lemma good_name_of cs : good_name cs -> name_of cs (Name cs).
Proof.
  intros (F & N & Le & La). split; [auto|]. split; [auto|]. split; [auto|]. right. right. split; [intros ->; apply (La [] 46 eq_refl); right; auto|]. split; [intros ->; apply (La [46] 46 eq_refl); right; auto|].
  exists cs. split; [exists []; split; [now rewrite app_nil_r|]; split; [constructor|]; intros; eapply La; eauto|]. now destruct cs.
Qed.
Lemma good_head cs t : good_name cs -> exists h q, utf8 cs ++ t = h :: q /\ ~ sep h /\ 32 <= h.
Proof.
  intros (F & N & _). destruct cs as [|c cs]; [easy|]. inversion F as [|? ? Nc _]; subst. apply (utf8_nosep c cs t); [left; auto| |auto]. destruct Nc as (_ & _ & _ & Ns). intros Sp. unfold sep in Sp. apply Ns. cbn. lia.
Qed.
Lemma spells_names ns : forall cs, Forall good_name (cs :: ns) -> spells (map Name (cs :: ns)) (utf8 cs ++ pbytes ns ++ [0]).
Proof.
  induction ns as [|d ns IH]; intros cs F; inversion F as [|? ? G F']; subst; cbn [map].
  - eapply sp_last; [now apply good_name_of|]. cbn. apply (ends_here 0 []). lia.
  - specialize (IH d F'). inversion F' as [|? ? Gd _]; subst. destruct (good_head d (pbytes ns ++ [0]) Gd) as (h & q & E & Nh & H32). eapply sp_more; [now apply good_name_of| |exact IH].
    unfold pbytes. cbn [flat_map]. fold (pbytes ns). rewrite <- app_assoc, E. cbn [app]. pose proof (ends_sep 47 [] h q (or_introl eq_refl) (Forall_nil _) Nh) as En. replace (h <? 32) with false in En by lia. rewrite E. exact En.
Qed.
Definition names_for (fs : list entry_t) (ns : list (list Z)) : Prop := Forall2 (fun f cs => good_name cs /\ named cs f /\ zlen (utf8 cs) <= 255) fs ns.
Lemma way_lookup A c fs : way A c fs -> forall ns, names_for fs ns -> forall ss t, ss <> [] -> lookup A c ss t -> lookup A 0 (map Name (rev ns) ++ ss) t.
Proof.
  induction 1 as [|p c f fs W IH I If D E]; intros ns F ss t Ns Lk; inversion F as [|? cs ? ns' (G & Nm & _) F']; subst; [auto|].
  cbn [rev]. rewrite map_app, <- app_assoc. cbn [map app]. apply IH; [auto|discriminate|]. eapply lk_down; eauto. now apply named_called.
Qed.
Definition cwd_path (ns : list (list Z)) : list Z := match ns with [] => [47] | _ => pbytes ns end.
Lemma way_resolves A c fs ns cd : way A c fs -> names_for fs ns -> exists t, resolves A cd (cwd_path (rev ns) ++ [0]) t /\ opens A t R_OK c.
Proof.
  intros W F. assert (G : Forall good_name ns) by (clear W; induction F as [|? ? ? ? (G & _) F IH]; constructor; auto). inversion W as [|p c' f fs' W' I If D E]; subst; inversion F as [|? cs ? ns' (Gc & Nm & _) F']; subst.
  - exists (At 0). split; [|cbn; auto]. exists true, []. split; [|constructor]. cbn. apply (po_root 47 [] 0 []); [left; auto|constructor|unfold sep; lia|apply sp_end; lia].
  - exists (Found p f cs). split; [|unfold opens; rewrite D; auto]. exists true, (map Name (rev (cs :: ns'))). cbn [rev]. split.
    + assert (Gr : Forall good_name (rev ns' ++ [cs])) by (apply Forall_rev in G; exact G). destruct (rev ns' ++ [cs]) as [|d ds] eqn:Er; [now destruct (rev ns')|]. unfold cwd_path. inversion Gr as [|? ? Gd _]; subst.
      unfold pbytes. cbn [flat_map]. fold (pbytes ds). cbn [app]. rewrite <- app_assoc. destruct (good_head d (pbytes ds ++ [0]) Gd) as (h & q & Eh & Nh & _). rewrite Eh. apply (po_root 47 [] h q); [left; auto|constructor|auto|]. rewrite <- Eh. now apply spells_names.
    + rewrite map_app. apply (way_lookup A p fs' W' ns' F'); [discriminate|]. cbn [map]. apply lk_found; [auto|]. now apply named_called.
Qed.

(* --- the buffer ---------------------------------------------------------------------------- *)
Lemma stack_ok len s : forall b i, zlen s <= i <= len -> exists b', stack len b i (rev s) = Ok (b', i - zlen s) /\
  (forall k, 0 <= k < zlen s -> b' (i - zlen s + k) = nth (Z.to_nat k) s 0) /\ forall j, j < i - zlen s \/ i <= j -> b' j = b j.
Proof.
  induction s as [|x s IH] using rev_ind; intros b i H.
  - exists b. change (zlen []) with 0 in *. cbn. rewrite Z.sub_0_r. split; [auto|]. split; [intros; lia|auto].
  - rewrite rev_app_distr. cbn [rev app stack]. rewrite zlen_app in *. change (zlen [x]) with 1 in *. assert (Zs : 0 <= zlen s) by (unfold zlen; lia). unfold wrb. replace ((0 <=? i - 1) && (i - 1 <? len)) with true by lia. cbn [bind].
    destruct (IH (upd b (i - 1) x) (i - 1)) as (b' & E & H1 & H2); [lia|]. exists b'. replace (i - (zlen s + 1)) with (i - 1 - zlen s) by lia. split; [auto|]. split.
    + intros k K. destruct (Z.eq_dec k (zlen s)) as [->|N].
      * rewrite H2 by lia. replace (i - 1 - zlen s + zlen s) with (i - 1) by lia. rewrite upd_same. rewrite app_nth2 by (unfold zlen; lia). unfold zlen. rewrite Nat2Z.id, Nat.sub_diag. auto.
      * rewrite H1 by lia. rewrite app_nth1 by (unfold zlen in *; lia). auto.
    + intros j J. rewrite H2 by lia. apply upd_other. lia.
Qed.
Lemma store_ok len s : forall b i, 0 <= i -> i + zlen s <= len -> exists b', store_list len b i s = Ok b' /\
  (forall k, 0 <= k < zlen s -> b' (i + k) = nth (Z.to_nat k) s 0) /\ forall j, j < i \/ i + zlen s <= j -> b' j = b j.
Proof.
  induction s as [|x s IH]; intros b i H0 H.
  - exists b. change (zlen []) with 0 in *. split; [auto|]. split; [intros; lia|auto].
  - cbn [store_list]. rewrite zlen_cons in *. assert (Zs : 0 <= zlen s) by (unfold zlen; lia). unfold wrb. replace ((0 <=? i) && (i <? len)) with true by lia. cbn [bind].
    destruct (IH (upd b i x) (i + 1)) as (b' & E & H1 & H2); [lia|lia|]. exists b'. split; [auto|]. split.
    + intros k K. destruct (Z.eq_dec k 0) as [->|N].
      * rewrite H2 by lia. rewrite Z.add_0_r, upd_same. auto.
      * replace (i + k) with (i + 1 + (k - 1)) by lia. rewrite H1 by lia. replace (Z.to_nat k) with (S (Z.to_nat (k - 1))) by lia. auto.
    + intros j J. rewrite H2 by lia. apply upd_other. lia.
Qed.
Lemma copy_ok len n : forall b t i, 0 <= t < i -> i + Z.of_nat n <= len -> exists b', copy_down n len b t i = Ok (t + Z.of_nat n, b') /\
  (forall k, 0 <= k < Z.of_nat n -> b' (t + k) = b (i + k)) /\ forall j, j < t \/ t + Z.of_nat n <= j -> b' j = b j.
Proof.
  induction n as [|n IH]; intros b t i H0 H.
  - exists b. cbn. rewrite Z.add_0_r. split; [auto|]. split; [intros; lia|auto].
  - cbn [copy_down]. unfold rdb, wrb. replace ((0 <=? i) && (i <? len)) with true by lia. cbn [bind]. replace ((0 <=? t) && (t <? len)) with true by lia. cbn [bind].
    destruct (IH (upd b t (b i)) (t + 1) (i + 1)) as (b' & E & H1 & H2); [lia|lia|]. exists b'. replace (t + Z.of_nat (S n)) with (t + 1 + Z.of_nat n) by lia. split; [auto|]. split.
    + intros k K. destruct (Z.eq_dec k 0) as [->|N].
      * rewrite H2 by lia. rewrite !Z.add_0_r, upd_same. auto.
      * replace (t + k) with (t + 1 + (k - 1)) by lia. rewrite H1 by lia. rewrite upd_other by lia. f_equal. lia.
    + intros j J. rewrite H2 by lia. apply upd_other. lia.
Qed.

(* --- the entry of a directory -------------------------------------------------------------- *)
Lemma one_owner (h : entry_t -> Z) l f g : NoDup (filter (fun k => negb (k =? 0)) (map h l)) -> In f l -> In g l -> h f = h g -> h f <> 0 -> f = g.
Proof.
  induction l as [|x l IH]; [easy|]. cbn [map filter]. intros N If Ig E Z. assert (Q : forall y, In y l -> h y <> 0 -> In (h y) (filter (fun k => negb (k =? 0)) (map h l))) by (intros y Iy Zy; apply filter_In; split; [now apply in_map|lia]).
  destruct If as [->|If], Ig as [->|Ig]; auto.
  - replace (negb (h f =? 0)) with true in N by lia. inversion N as [|? ? N1 _]. exfalso. apply N1. rewrite E. apply Q; auto. congruence.
  - replace (negb (h g =? 0)) with true in N by lia. inversion N as [|? ? N1 _]. exfalso. apply N1. rewrite <- E. apply Q; auto.
  - apply IH; auto. destruct (negb (h x =? 0)); [now inversion N|auto].
Qed.
Lemma child_items v d l0 c f : dir_ok d l0 -> forall n l p blk buf, laid (tab d) p l -> 0 <= p -> p < cap d -> p + sizes l = sizes l0 -> (Z.to_nat (cap d - p) <= n)%nat ->
  In f (filter shown (files l)) -> ld_clust (fat32 v) (snd f) = c -> (forall g, In g (filter shown (files l)) -> ld_clust (fat32 v) (snd g) = c -> g = f) ->
  exists i b buf', find_child n v d c p blk buf = Ok (R_OK, i, b, buf') /\ lists d (i, b, buf') f.
Proof.
  intros D. pose proof (dk_cap _ _ D) as C. pose proof (dk_room _ _ D) as Rm. induction n as [|n IH]; intros l p blk buf L P Pc E N If Cf Un; [lia|].
  cbn [find_child]. rewrite dir_read_at by lia.
  destruct (read_items d C l p buf 255 blk L P ltac:(lia)) as [(i & b & buf' & -> & H)|(l1 & w & e & l2 & buf' & -> & H1 & H2 & -> & H3)].
  - intros Q. apply (dk_tail _ _ D). pose proof (sizes_nonneg l). lia.
  - rewrite H in If. easy.
  - cbn [bind]. apply laid_app in L. destruct L as [_ [L1 L2]]. cbn [size] in L2. rewrite sizes_app, sizes_cons in E. cbn [size] in E.
    pose proof (sizes_nonneg l1). pose proof (sizes_nonneg l2). pose proof (parts_nonneg w).
    assert (Ls : lists d (p + sizes l1 + parts w, read_blk w (p + sizes l1), buf') (w, e)).
    { split; [apply L1|]. cbn [fst]. unfold read_blk. destruct w as [|u w]; [auto|]. split; [unfold NONE, MAXENT in *; lia|apply H3; discriminate]. }
    rewrite files_app, filter_app, H1 in If, Un. cbn [app files filter] in If, Un. rewrite H2 in If, Un. assert (Te : tab d (p + sizes l1 + parts w) = e) by apply L1. rewrite Te.
    destruct (Z.eqb_spec c (ld_clust (fat32 v) e)) as [Q|Q].
    + assert (X : (w, e) = f) by (apply Un; [left; auto|auto]). subst f. eauto 6.
    + destruct If as [X|If]; [subst f; cbn in Cf; congruence|]. assert (l2 <> []) by (intros ->; easy). assert (1 <= sizes l2) by (destruct l2 as [|y l2]; [easy|]; rewrite sizes_cons; pose proof (size_pos y); pose proof (sizes_nonneg l2); lia).
      unfold dir_next. unfold MAXENT in *. replace (65536 <=? p + sizes l1 + parts w + 1) with false by lia. replace (p + sizes l1 + parts w + 1 <? cap d) with true by lia.
      apply (IH l2); [now rewrite Z.add_assoc in L2|lia..|auto|auto|]. intros g Ig. apply Un. right. auto.
Qed.

Section Up.
Variables (v : volume) (A : tree) (L : Z -> list item) (total : list Z).
Hypothesis V : vol_ok v A L total.

Lemma find_child_ok p f buf : In p (nodes A) -> In f (ents A p) -> clu A f <> 0 ->
  exists i b buf', find_child (Z.to_nat (cap (table v p))) v (table v p) (clu A f) 0 NONE buf = Ok (R_OK, i, b, buf') /\ lists (table v p) (i, b, buf') f.
Proof.
  intros I If N. destruct (vo_tabs _ _ _ _ V p I) as [[D _] R]. pose proof (dk_cap _ _ D) as C. pose proof (vo_wide _ _ _ _ V) as W. apply (child_items v (table v p) (L p) (clu A f) f D _ (L p)); [apply D|lia..| | |].
  - now rewrite (rd_ents _ _ _ R).
  - unfold clu. now rewrite W.
  - rewrite (rd_ents _ _ _ R). intros g Ig E. apply (one_owner (clu A) (links A)).
    + apply (owners_nodup v A total); [apply V|apply V].
    + unfold links. apply in_flat_map. eauto.
    + unfold links. apply in_flat_map. eauto.
    + unfold clu at 1. now rewrite W.
    + unfold clu at 1. rewrite W, E. auto.
Qed.
Lemma dotdot c p : In c (nodes A) -> parent A p c -> 1 < cap (table v c) /\ ld_clust (fat32 v) (entry v c 1) = p.
Proof.
  intros I P. destruct (parent_unique A p p c (vo_shape _ _ _ _ V) P P) as [_ N]. destruct (vo_tabs _ _ _ _ V c I) as [[D _] R]. pose proof (rd_dots _ _ _ R) as Dt. unfold dots in Dt. replace (c =? 0) with false in Dt by lia. destruct Dt as (e1 & e2 & r & q & El & _ & (_ & _ & Q) & Pq & _).
  destruct (parent_unique A q p c (vo_shape _ _ _ _ V) Pq P) as [-> _]. pose proof (dk_room _ _ D) as Rm. rewrite El, !sizes_cons in Rm. cbn [size] in Rm. change (parts []) with 0 in Rm. pose proof (sizes_nonneg r). split; [lia|].
  rewrite <- (vo_wide _ _ _ _ V), <- Q. f_equal. rewrite El in D. destruct (entry_at v c [File [] e1] [] e2 r D) as [E _]. exact E.
Qed.
Lemma up_ok c fs : way A c fs -> forall ns fuel i len b buf, names_for fs ns -> In c (nodes A) -> (length fs < fuel)%nat -> 0 <= i <= len ->
  exists r i' b', up_loop fuel v c i len b buf = Ok (r, i', b') /\
    if zlen (pbytes (rev ns)) <=? i then r = R_OK /\ i' = i - zlen (pbytes (rev ns)) /\ (forall k, 0 <= k < zlen (pbytes (rev ns)) -> b' (i' + k) = nth (Z.to_nat k) (pbytes (rev ns)) 0) /\ forall j, j < i' \/ i <= j -> b' j = b j
    else r = R_NOT_ENOUGH_CORE.
Proof.
  induction 1 as [|p c f fs W IH I If D E]; intros ns fuel i len b buf F Ic Fu Hi; inversion F as [|? cs ? ns' (G & Nm & Le) F']; subst; (destruct fuel as [|fuel]; [cbn in Fu; lia|]); cbn [up_loop].
  - exists R_OK, i, b. split; [reflexivity|]. change (zlen (pbytes (rev []))) with 0. replace (0 <=? i) with true by lia. rewrite Z.sub_0_r. split; [auto|]. split; [auto|]. split; [intros; lia|auto].
  - assert (P : parent A p (clu A f)) by (split; eauto). destruct (parent_unique A p p _ (vo_shape _ _ _ _ V) P P) as [_ N]. replace (clu A f =? 0) with false by lia. destruct (dotdot (clu A f) p Ic P) as [Cp Dd]. replace (cap (table v (clu A f)) <=? 1) with false by lia. rewrite Dd. cbv zeta.
    destruct (find_child_ok p f buf I If N) as (ix & bk & buf' & -> & Ls). cbn [bind]. destruct (listed_name _ _ _ _ _ _ Ls G Nm Le) as [alt ->]. cbn [bind].
    assert (Ez : pbytes (rev (cs :: ns')) = pbytes (rev ns') ++ 47 :: utf8 cs) by (cbn [rev]; unfold pbytes; rewrite flat_map_app; cbn [flat_map]; now rewrite app_nil_r). rewrite Ez, zlen_app, zlen_cons.
    set (s := pbytes (rev ns')) in *. set (u := utf8 cs) in *. assert (Zsu : 0 <= zlen s /\ 0 <= zlen u) by (unfold zlen; lia). change (Z.of_nat (length u)) with (zlen u). destruct (Z.ltb_spec i (zlen u + 1)) as [Sm|Sm].
    + replace (zlen s + (zlen u + 1) <=? i) with false by lia. eauto 6.
    + destruct (stack_ok len u b i ltac:(lia)) as (b1 & -> & S1 & S2). cbn [bind]. unfold wrb. replace ((0 <=? i - zlen u - 1) && (i - zlen u - 1 <? len)) with true by lia. cbn [bind].
      destruct (IH ns' fuel (i - zlen u - 1) len (upd b1 (i - zlen u - 1) 47) buf' F' I ltac:(cbn in Fu; lia) ltac:(lia)) as (r & i' & b' & -> & H). fold s in H. exists r, i', b'. split; [auto|]. destruct (Z.leb_spec (zlen s) (i - zlen u - 1)) as [Q|Q].
      * replace (zlen s + (zlen u + 1) <=? i) with true by lia. destruct H as (-> & -> & H1 & H2). split; [auto|]. split; [lia|]. split.
        -- intros k K. destruct (Z.lt_trichotomy k (zlen s)) as [T|[T|T]].
           ++ rewrite H1 by lia. rewrite app_nth1 by (unfold zlen in *; lia). auto.
           ++ rewrite H2 by lia. replace (i - zlen u - 1 - zlen s + k) with (i - zlen u - 1) by lia. rewrite upd_same, app_nth2 by (unfold zlen in *; lia). replace (Z.to_nat k - length s)%nat with 0%nat by (unfold zlen in *; lia). auto.
           ++ rewrite H2 by lia. rewrite upd_other by lia. replace (i - zlen u - 1 - zlen s + k) with (i - zlen u + (k - zlen s - 1)) by lia. rewrite S1 by lia. rewrite app_nth2 by (unfold zlen in *; lia). replace (Z.to_nat k - length s)%nat with (S (Z.to_nat (k - zlen s - 1))) by (unfold zlen in *; lia). auto.
        -- intros j J. rewrite H2 by lia. rewrite upd_other by lia. apply S2. lia.
      * replace (zlen s + (zlen u + 1) <=? i) with false by lia. auto.
Qed.
End Up.

Lemma nth_at (z : list Z) x r k : 0 <= k -> k = zlen z -> nth (Z.to_nat k) (z ++ x :: r) 0 = x.
Proof. intros _ ->. unfold zlen. rewrite Nat2Z.id, app_nth2 by lia. now rewrite Nat.sub_diag. Qed.
Theorem getcwd_ok v A total fuel drive len b buf : holds_tree v A total -> (length (nodes A) <= fuel)%nat -> 1 <= len ->
  (forall c f, In c (nodes A) -> In f (ents A c) -> isdir f = true -> exists cs, good_name cs /\ named cs f /\ zlen (utf8 cs) <= 255) ->
  exists path t, resolves A (cdir v) (path ++ [0]) t /\ opens A t R_OK (cdir v) /\
    exists r b', f_getcwd fuel v drive len b buf = Ok (r, b') /\ let s := drive ++ 58 :: path ++ [0] in
      if zlen s <=? len then r = R_OK /\ forall k, 0 <= k < zlen s -> b' k = nth (Z.to_nat k) s 0 else r = R_NOT_ENOUGH_CORE /\ b' 0 = 0.
Proof.
  intros [L V] Fu Ln Hn. pose proof (vo_shape _ _ _ _ V) as Sh. pose proof (vo_cdir _ _ _ _ V) as Ic. destruct (way_exists A (cdir v) Sh) as [fs W]; [now apply Sh|].
  assert (X : exists ns, names_for fs ns).
  { clear - W Hn. induction W as [|p c f fs W [ns IH] I If D E]; [exists []; constructor|]. destruct (Hn p f I If D) as (cs & Q). exists (cs :: ns). constructor; auto. }
  destruct X as [ns F]. destruct (way_resolves A (cdir v) fs ns (cdir v) W F) as (t & Re & Op). exists (cwd_path (rev ns)), t. split; [auto|]. split; [auto|].
  pose proof (way_short _ _ _ Sh W) as Ws. destruct (up_ok v A L total V (cdir v) fs W ns fuel len len (upd b 0 0) buf F Ic ltac:(lia) ltac:(lia)) as (r & i & b1 & E & H). unfold f_getcwd. unfold wrb at 1. replace ((0 <=? 0) && (0 <? len)) with true by lia. cbn [bind]. rewrite E. cbn [bind].
  set (s := pbytes (rev ns)) in *. set (path := cwd_path (rev ns)) in *. cbv zeta. rewrite zlen_app, zlen_cons, zlen_app. change (zlen [0]) with 1. assert (Zds : 0 <= zlen drive /\ 0 <= zlen s) by (unfold zlen; lia).
  assert (Ps : (s = [] /\ path = [47]) \/ (s <> [] /\ path = s)).
  { unfold s, path, cwd_path. destruct (rev ns); [left; auto|right]. split; [discriminate|auto]. }
  assert (Fin : forall rr b0, rr = R_NOT_ENOUGH_CORE -> (b2 <- wrb len b0 0 0 ;; Ok (rr, b2)) = Ok (R_NOT_ENOUGH_CORE, upd b0 0 0)) by (intros rr b0 ->; unfold wrb; replace ((0 <=? 0) && (0 <? len)) with true by lia; auto).
  assert (Lp : zlen s <= zlen path) by (destruct Ps as [[Es Ep]|[_ Ep]]; [rewrite Es, Ep; unfold zlen; cbn [length]; lia|rewrite Ep; lia]).
  destruct (Z.leb_spec (zlen s) len) as [Le|Le].
  2: 
  { subst r. cbn [bind]. rewrite Fin by auto. exists R_NOT_ENOUGH_CORE, (upd b1 0 0). split; [auto|]. replace (zlen drive + (zlen path + 1 + 1) <=? len) with false by lia. split; [auto|apply upd_same]. }
  destruct H as (-> & -> & H1 & H2).
  assert (Y : exists b2, (if len - zlen s =? len then b' <- wrb len b1 (len - zlen s - 1) 47 ;; Ok (len - zlen s - 1, b') else Ok (len - zlen s, b1)) = Ok (len - zlen path, b2) /\ (forall k, 0 <= k < zlen path -> b2 (len - zlen path + k) = nth (Z.to_nat k) path 0)).
  { destruct Ps as [[Es Ep]|[Es Ep]]; rewrite Ep.
    - rewrite Es. change (zlen []) with 0. change (zlen [47]) with 1. rewrite Z.sub_0_r, Z.eqb_refl. unfold wrb. replace ((0 <=? len - 1) && (len - 1 <? len)) with true by lia. eexists. split; [reflexivity|]. intros k K. replace k with 0 by lia. rewrite Z.add_0_r. apply upd_same.
    - replace (len - zlen s =? len) with false by (assert (0 < zlen s) by (destruct s; [easy|rewrite zlen_cons; unfold zlen; lia]); lia). exists b1. auto. }
  destruct Y as (b2 & -> & H3). cbn [bind]. change (Z.of_nat (length drive)) with (zlen drive). destruct (Z.leb_spec (zlen drive + 2) (len - zlen path)) as [R|R].
  - replace (zlen drive + (zlen path + 1 + 1) <=? len) with true by lia. assert (0 <= zlen path) by lia. destruct (store_ok len (drive ++ [58]) b2 0 ltac:(lia)) as (b3 & -> & S1 & S2); [rewrite zlen_app; change (zlen [58]) with 1; lia|]. rewrite zlen_app in S1, S2. change (zlen [58]) with 1 in *. cbn [bind].
    destruct (copy_ok len (Z.to_nat (len - (len - zlen path))) b3 (zlen drive + 1) (len - zlen path)) as (b4 & -> & C1 & C2); [lia|lia|]. cbn [bind]. replace (zlen drive + 1 + Z.of_nat (Z.to_nat (len - (len - zlen path)))) with (zlen drive + 1 + zlen path) in * by lia. unfold wrb. replace ((0 <=? zlen drive + 1 + zlen path) && (zlen drive + 1 + zlen path <? len)) with true by lia. cbn [bind]. do 2 eexists. split; [reflexivity|]. split; [auto|].
    intros k K. destruct (Z.lt_ge_cases k (zlen drive + 1)) as [K1|K1]; [|destruct (Z.lt_ge_cases k (zlen drive + 1 + zlen path)) as [K2|K2]].
    + rewrite upd_other by lia. rewrite C2 by lia. replace (b3 k) with (b3 (0 + k)) by (f_equal; lia). rewrite S1 by lia. change (drive ++ 58 :: path ++ [0]) with (drive ++ [58] ++ path ++ [0]). rewrite (app_assoc drive). symmetry. apply app_nth1. rewrite app_length. cbn [length]. unfold zlen in *. lia.
    + rewrite upd_other by lia. replace k with (zlen drive + 1 + (k - (zlen drive + 1))) at 1 by lia. rewrite C1 by lia. rewrite S2 by lia. rewrite H3 by lia. change (drive ++ 58 :: path ++ [0]) with (drive ++ [58] ++ path ++ [0]). rewrite (app_assoc drive), app_nth2 by (rewrite app_length; cbn [length]; unfold zlen in *; lia). rewrite app_nth1 by (rewrite app_length; cbn [length]; unfold zlen in *; lia). f_equal. rewrite app_length. cbn [length]. unfold zlen in *. lia.
    + replace k with (zlen drive + 1 + zlen path) by lia. rewrite upd_same. symmetry. replace (drive ++ 58 :: path ++ [0]) with ((drive ++ [58] ++ path) ++ [0]) by (rewrite <- !app_assoc; auto). apply nth_at; [lia|]. rewrite !zlen_app. change (zlen [58]) with 1. lia.
  - replace (zlen drive + (zlen path + 1 + 1) <=? len) with false by lia. cbn [bind]. rewrite Fin by auto. exists R_NOT_ENOUGH_CORE, (upd b2 0 0). split; [auto|]. split; [auto|apply upd_same].
Qed.
