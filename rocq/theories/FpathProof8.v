From Verif Require Import Base CrcSpec FutfModel FutfSpec FutfProof LfnModel LfnSpec LfnProof FdirModel FdirSpec FdirProof FdirProof2 FdirProof3 FnameModel FnameSpec FnameProof FnameProof2 FnameProof3 FnameProof4 FnameProof5 FnameProof6 FpathModel FpathSpec FpathProof FpathProof2 FpathProof3 FpathProof4 FpathProof5 FpathProof6 FpathProof7.
Open Scope Z_scope.

Section Ops2.
Variables (v : volume) (A : tree) (L : Z -> list item) (total : list Z).
Hypothesis V : vol_ok v A L total.
Let Nd : NoDup (nodes A) := proj1 (vo_shape _ _ _ _ V).
Let No : NoDup (owners A) := owners_nodup _ _ _ (vo_space _ _ _ _ V) (vo_total _ _ _ _ V).
Let Wd : wide A = fat32 v := vo_wide _ _ _ _ V.

Lemma base_fresh k base : Permutation (owners A) (one k ++ base) -> k <> 0 -> ~ In k (0 :: base).
Proof.
  intros P K [E|I]; [auto|]. pose proof (Permutation_NoDup P No) as N. unfold one in N. replace (k =? 0) with false in N by lia. inversion N; auto.
Qed.
Lemma base_owner k base x : Permutation (owners A) (one k ++ base) -> In x base -> In x (owners A).
Proof. intros P I. eapply Permutation_in; [symmetry; exact P|]. apply in_or_app. auto. Qed.
Lemma clu_fits f c : In c (nodes A) -> In f (ents A c) -> clu A f <> 0 -> 2 <= clu A f < top v.
Proof. intros I J K. eapply owner_range; [apply (vo_space _ _ _ _ V)|apply (vo_total _ _ _ _ V)|]. eapply file_owner; eauto. Qed.
Lemma avail_node k : In k (avail v) -> ~ In k (nodes A) /\ 2 <= k < top v.
Proof.
  intros I. destruct (avail_fresh _ _ _ (vo_space _ _ _ _ V) (vo_total _ _ _ _ V) k I) as [F R]. split; [|auto]. intros J. apply node_key in J; [|apply V]. destruct J as [J|J]; [lia|auto].
Qed.

(* Emptying a file. *)
Lemma overwrite_old c l1 w e l2 tm : In c (nodes A) -> In (w, e) (ents A c) -> L c = l1 ++ File w e :: l2 -> isdir (w, e) = false -> dword tm ->
  exists A', replaced A c (w, e) (w, ow (fat32 v) e tm) A' /\ emptied A tm (w, e) (w, ow (fat32 v) e tm) /\ holds_tree (overwrite v c (sizes l1 + parts w) tm) A' total /\ cdir (overwrite v c (sizes l1 + parts w) tm) = cdir v.
Proof.
  intros I J El Di T. destruct (file_entry _ _ _ _ V c l1 w e l2 I El) as [Ee (B & _ & _ & E8)]. set (e' := ow (fat32 v) e tm). destruct (ow_ok (fat32 v) e tm B T) as (K & Bu & F11 & F14 & F22 & Fc & F28 & F12). fold e' in K, Bu, F11, F14, F22, Fc, F28, F12.
  destruct (vol_change v A L total V c l1 w e l2 e' I J El K F12) as (A' & Re & Hv); [unfold isdir; cbn [snd]; rewrite F11; change (has 32 16) with false; symmetry; exact Di|intros Q; congruence|].
  exists A'. split; [auto|]. assert (Cl : clu A (w, e') = 0) by (unfold clu; cbn [snd]; rewrite Wd; auto). split; [unfold emptied; cbn [fst snd]; auto 10|].
  assert (Eo : overwrite v c (sizes l1 + parts w) tm = (if negb (clu A (w, e) =? 0) then release (set_entry v c (sizes l1 + parts w) e') (clu A (w, e)) else set_entry v c (sizes l1 + parts w) e')).
  { unfold overwrite. rewrite Ee. unfold clu. cbn [snd]. rewrite Wd. reflexivity. }
  rewrite Eo. destruct (owners_replaced _ _ _ _ _ Nd I Re) as (base & O1 & O2). rewrite Cl in O2. destruct (Z.eqb_spec (clu A (w, e)) 0) as [E0|E0]; cbn [negb].
  - split; [|auto]. eexists. apply Hv; [geo|auto|auto|]. eapply space_perm; [apply V| |cbn; auto|auto]. rewrite O1, O2, E0. auto.
  - split; [|auto]. eexists. apply Hv; [geo|auto| |].
    + intros k Ik. cbn. apply put_other. intros ->. revert Ik. apply (file_not_node A c (w, e)); auto. apply V.
    + eapply (space_swap v A total _ A' (one (clu A (w, e))) [] base); [apply V|auto|auto| | |easy].
      * intros k Ik. cbn. apply put_other. intros ->. revert Ik. now apply base_fresh.
      * cbn. rewrite app_nil_r. unfold one. replace (clu A (w, e) =? 0) with false by lia. cbn. rewrite app_nil_r. apply Permutation_app_comm.
Qed.

(* A new file. *)
Lemma vol_added c cs fn v1 l1 l2 h f e e' : let w := if has (fn 11) 2 then utf16 cs else [] in
  In c (nodes A) -> good_name cs -> form (utf16 cs) true fn -> Forall (fun g => ~ hit (utf16 cs) fn g) (files (L c)) -> grows v v1 c ->
  L c = l1 ++ repeat Hole h ++ l2 -> (Z.of_nat h = parts w + 1 \/ l2 = []) -> lay v1 c (l1 ++ File w e :: l2) -> fresh fn (L c) f e ->
  keeps e e' -> e' 12 = e 12 -> has (e' 11) 16 = false -> ld_clust (wide A) e' = 0 ->
  exists A', added A c (w, e') A' /\ named cs (w, e') /\ vol_ok (set_entry v1 c (sizes l1 + parts w) e') A' (put L c (l1 ++ File w e' :: l2)) total.
Proof.
  intros w I G F NH Gr El Hh L1 Fr K K12 Di Cl. destruct (vo_tabs _ _ _ _ V c I) as [[D _] Rd]. rewrite El in D, Rd, NH, Fr. pose proof K as (_ & Ks & _).
  destruct (reads_add A c cs true fn _ l1 h l2 f e e' Rd D G F NH Hh Fr Ks K12) as (A' & Ad & Nm & Rd'). fold w in Ad, Nm, Rd'. exists A'. split; [auto|]. split; [auto|].
  destruct (lay_set v1 c l1 w e l2 e' L1 K) as (L2 & As2 & St & _). pose proof (parent_added _ _ _ _ Ad) as Pa. pose proof Ad as (x & y & Ex & Ea). pose proof Gr as [As1 _]. apply (rebuild v A L total _ A' c); auto.
  - eapply geo_trans; [apply As1|apply As2].
  - now rewrite Ea.
  - now rewrite Ea.
  - intros k Nk. rewrite Ea. cbn. now apply put_other.
  - intros k Ik Nk. apply (aside_lay v1 _ c); auto. apply (aside_lay v _ c); auto. now apply (vo_tabs _ _ _ _ V).
  - eapply shape_added; eauto. apply V.
  - eapply space_perm; [eapply space_grow; [apply (vo_space _ _ _ _ V)|apply (vo_total _ _ _ _ V)|exact Gr|apply node_key; [apply V|auto]]| |rewrite (proj1 St); auto|apply St]. rewrite (owners_added _ _ _ _ Nd I Ad). unfold clu. cbn [snd]. rewrite Cl. auto.
Qed.

Lemma zeros_clu b e : (forall k, 13 <= k < 32 -> e k = 0) -> ld_clust b e = 0.
Proof. intros H. rewrite (ld_clust_ext b (fun _ => 0)); [destruct b; reflexivity|]. unfold CLU. cbn [In]. intros k K. apply H. lia. Qed.

Theorem open_ok path mode tm buf : spelled path -> units buf -> dword tm ->
  ends_well v total ('(v, r, _) <- f_open v path mode tm buf ;; Ok (v, r)) (fun r A' => exists t, resolves A (cdir v) path t /\ open_does v A mode tm t r A').
Proof.
  intros Sp U T. destruct (at_path _ _ _ _ V path buf Sp U) as (t & r & j & buf' & E & Re & [U' En]). unfold f_open. rewrite E. cbn [bind]. destruct t as [c|c d|c f cs|c cs| |].
  - destruct En as (-> & _ & _ & ->). change (has 128 128) with true. cbv iota. destruct (has mode 28); cbn [bind]; apply (stays _ _ _ _ V); exists (At c); cbn; auto.
  - destruct En as (-> & Ec & I & C & Id & -> & Ix & H16 & Hd & Hb). change (has 36 128) with false. cbv iota. unfold attr_of. rewrite Ec.
    assert (B : 0 <= entry v c (idx j) 11 < 256) by (apply (entry_bytes v A L total V c (idx j) I); destruct (vo_tabs _ _ _ _ V c I) as [[D _] R]; pose proof (dk_room _ _ D) as Rm; pose proof (rd_dots _ _ _ R) as Dt; unfold dots in Dt; replace (c =? 0) with false in Dt by lia; destruct Dt as (e1 & e2 & rr & p & El & _); rewrite El, !sizes_cons in Rm; cbn [size] in Rm; change (parts []) with 0 in Rm; pose proof (sizes_nonneg rr); unfold table in Rm; cbn [cap] in Rm; lia).
    destruct (attr_bits63 _ B) as (B16 & B1 & B17 & _). rewrite B16, B1, B17, H16. cbn [orb]. destruct (has mode 28) eqn:Em; cbn [bind]; apply (stays _ _ _ _ V); exists (Dot c d); cbn; rewrite Em; auto.
  - destruct En as (-> & Ec & I & _ & Fo & _ & (l1 & w & e & l2 & -> & El & Ei & _ & Ee) & J & _). rewrite (proj1 (proj2 (has_form _ _ _ Fo))). unfold attr_of. rewrite Ec, Ei in *. rewrite Ee.
    destruct (file_entry _ _ _ _ V c l1 w e l2 I El) as [_ (B & _ & _ & E8)]. destruct (attr_bits63 _ (B 11)) as (B16 & B1 & B17 & _). rewrite B16, B1, B17. change (has (e 11) 16) with (isdir (w, e)). change (has (e 11) 1) with (isro (w, e)).
    destruct (has mode 28) eqn:Em.
    + destruct (isdir (w, e) || isro (w, e)) eqn:Dr; [cbn [bind]; apply (stays _ _ _ _ V); exists (Found c (w, e) cs); split; [auto|]; unfold open_does; rewrite Em, Dr; auto|].
      destruct (has mode 4) eqn:M4; [cbn [bind]; apply (stays _ _ _ _ V); exists (Found c (w, e) cs); split; [auto|]; unfold open_does; rewrite Em, Dr, M4; auto|].
      cbn [bind]. destruct (has mode 8) eqn:M8; [|apply (stays _ _ _ _ V); exists (Found c (w, e) cs); split; [auto|]; unfold open_does; rewrite Em, Dr, M4, M8; auto].
      apply orb_false_iff in Dr as [Di Ro]. destruct (overwrite_old c l1 w e l2 tm I J El Di T) as (A' & Rp & Emp & Hv & Cd). exists (overwrite v c (sizes l1 + parts w) tm), R_OK, A'. split; [auto|]. split; [auto|]. split; [auto|]. exists (Found c (w, e) cs). split; [auto|].
      unfold open_does. rewrite Em, Di, Ro, M4, M8. cbn [orb]. split; [auto|]. eauto.
    + destruct (isdir (w, e)) eqn:Di; [cbn [bind]; apply (stays _ _ _ _ V); exists (Found c (w, e) cs); split; [auto|]; unfold open_does; rewrite Em, Di; auto|].
      destruct (has mode 2 && isro (w, e)) eqn:M2; cbn [bind]; apply (stays _ _ _ _ V); exists (Found c (w, e) cs); split; auto; unfold open_does; rewrite Em, Di, M2; auto.
  - destruct En as (-> & Ec & I & G & Fo & H & NH). destruct (has mode 28) eqn:Em; [|cbn [bind]; apply (stays _ _ _ _ V); exists (Free c cs); split; [auto|]; unfold open_does; rewrite Em; auto].
    rewrite Ec. destruct (vol_register v A L total V c cs (fn j) buf' I G Fo H U') as (d & q & i & Eq & Gr & Q). rewrite Eq. cbn [bind]. cbv zeta. destruct Q as [(-> & l1 & l2 & h & f & e & El & Hh & L1 & -> & Ee & Fr)|(-> & V' & Why)].
    + pose proof Fr as ((_ & _ & _ & Z13) & B & _). destruct (ow_ok (fat32 v) e tm B T) as (K & Bu & F11 & F14 & F22 & Fc & F28 & F12).
      destruct (vol_added c cs (fn j) _ l1 l2 h f e (ow (fat32 v) e tm) I G Fo NH Gr El Hh L1 Fr K F12) as (A' & Ad & Nm & Hv); [rewrite F11; reflexivity|rewrite Wd; auto|].
      set (v1 := put_table v c d) in *. set (w := if has (fn j 11) 2 then utf16 cs else []) in *. assert (G1 : fat32 v1 = fat32 v) by apply Gr.
      assert (Eo : overwrite v1 c (sizes l1 + parts w) tm = set_entry v1 c (sizes l1 + parts w) (ow (fat32 v) e tm)).
      { unfold overwrite. rewrite Ee, G1, zeros_clu by auto. reflexivity. }
      rewrite Eo. cbn [bind]. eexists _, R_OK, A'. split; [reflexivity|]. split; [eexists; exact Hv|]. split; [apply Gr|]. exists (Free c cs). split; [auto|]. unfold open_does. rewrite Em. left. split; [auto|]. eexists. split; [exact Ad|]. split; [auto|].
      unfold new_file. cbn [snd]. unfold clu. cbn [snd]. rewrite Wd. auto 6.
    + cbn [bind of_drc]. eexists _, R_DENIED, A. split; [reflexivity|]. split; [eexists; exact V'|]. split; [apply Gr|]. exists (Free c cs). split; [auto|]. unfold open_does. rewrite Em. auto.
  - subst r. destruct (has mode 28); cbn [bind]; apply (stays _ _ _ _ V); exists NoPath; cbn; auto.
  - subst r. destruct (has mode 28); cbn [bind]; apply (stays _ _ _ _ V); exists Invalid; cbn; auto.
Qed.

Lemma perm_cut {X} (n m : nat) (a b : list X) : Permutation ((skipn n a ++ skipn m b) ++ firstn n a ++ firstn m b) (b ++ a).
Proof.
  rewrite <- (firstn_skipn n a) at 3. rewrite <- (firstn_skipn m b) at 3. set (a1 := firstn n a). set (a2 := skipn n a). set (b1 := firstn m b). set (b2 := skipn m b). rewrite <- !app_assoc.
  rewrite (app_assoc a2 b2), (Permutation_app_comm (a2 ++ b2)), <- !app_assoc. rewrite (Permutation_app_swap_app a1 b1). apply Permutation_app_head. rewrite app_assoc. apply Permutation_app_comm.
Qed.

Theorem store_ok path n size tm buf : spelled path -> units buf -> dword size -> dword tm ->
  ends_well v total (f_store v path n size tm buf) (fun r A' => exists t, resolves A (cdir v) path t /\ store_does A size tm t r A').
Proof.
  intros Sp U Sz T. destruct (at_path _ _ _ _ V path buf Sp U) as (t & r & j & buf' & E & Re & [U' En]). unfold f_store, f_open. rewrite E. cbn [bind]. change (has 2 28) with false. cbv iota. destruct t as [c|c d|c f cs|c cs| |].
  - destruct En as (-> & _ & _ & ->). change (has 128 128) with true. cbv iota. cbn [bind]. apply (stays _ _ _ _ V). exists (At c). cbn. auto.
  - destruct En as (-> & Ec & I & C & Id & -> & Ix & H16 & Hd & Hb). change (has 36 128) with false. cbv iota. unfold attr_of. rewrite Ec.
    assert (B : 0 <= entry v c (idx j) 11 < 256) by (apply (entry_bytes v A L total V c (idx j) I); destruct (vo_tabs _ _ _ _ V c I) as [[D _] R]; pose proof (dk_room _ _ D) as Rm; pose proof (rd_dots _ _ _ R) as Dt; unfold dots in Dt; replace (c =? 0) with false in Dt by lia; destruct Dt as (e1 & e2 & rr & p & El & _); rewrite El, !sizes_cons in Rm; cbn [FdirSpec.size] in Rm; change (parts []) with 0 in Rm; pose proof (sizes_nonneg rr); unfold table in Rm; cbn [cap] in Rm; lia).
    destruct (attr_bits63 _ B) as (B16 & _). rewrite B16, H16. cbn [bind]. apply (stays _ _ _ _ V). exists (Dot c d). cbn. auto.
  - destruct En as (-> & Ec & I & _ & Fo & _ & (l1 & w & e & l2 & -> & El & Ei & _ & Ee) & J & _). rewrite (proj1 (proj2 (has_form _ _ _ Fo))). unfold attr_of. rewrite Ec, Ei in *. rewrite Ee.
    destruct (file_entry _ _ _ _ V c l1 w e l2 I El) as [_ (B & _ & _ & E8)]. destruct (attr_bits63 _ (B 11)) as (B16 & B1 & _ & B32 & _). rewrite B16, B1. change (has (e 11) 16) with (isdir (w, e)). change (has (e 11) 1) with (isro (w, e)). change (has 2 2) with true. cbn [andb].
    destruct (isdir (w, e)) eqn:Di; [cbn [bind]; apply (stays _ _ _ _ V); exists (Found c (w, e) cs); split; [auto|]; unfold store_does; rewrite Di; auto|].
    destruct (isro (w, e)) eqn:Ro; [cbn [bind]; apply (stays _ _ _ _ V); exists (Found c (w, e) cs); split; [auto|]; unfold store_does; rewrite Di, Ro; auto|].
    cbn [bind]. cbv zeta. rewrite Ee. rewrite <- Wd. change (ld_clust (wide A) e) with (clu A (w, e)). set (k := clu A (w, e)). set (old := if k =? 0 then [] else chains v k). set (m := (n - length old)%nat). set (ch := firstn n old ++ firstn m (avail v)). set (k' := hd 0 ch).
    cbn [set_chains chains avail set_entry fat32]. rewrite <- Wd. fold (stored_as (wide A) e k' size tm). set (ch1 := put (chains v) k (if k =? 0 then chains v k else [])). set (ch2 := if k' =? 0 then ch1 else put ch1 k' ch).
    assert (Old : k <> 0 -> exists t, old = k :: t) by (intros K; unfold old; replace (k =? 0) with false by lia; apply (vo_space _ _ _ _ V); eapply file_owner; eauto).
    assert (Ch : (ch = [] /\ k' = 0) \/ ((exists t, ch = k' :: t) /\ (k' = k \/ In k' (avail v)) /\ 2 <= k' < top v)).
    { unfold k'. destruct ch as [|x xs] eqn:Ex; [auto|]. right. cbn [hd]. split; [eauto|]. unfold ch in Ex. destruct (Z.eq_dec k 0) as [K|K].
      - assert (O : old = []) by (unfold old; now rewrite K). rewrite O in Ex. rewrite firstn_nil in Ex. cbn [app] in Ex. assert (X : In x (avail v)) by (rewrite <- (firstn_skipn m (avail v)), Ex; left; auto). split; [auto|]. now apply avail_node.
      - destruct (Old K) as [tt Et]. rewrite Et in Ex. destruct n as [|n]; [unfold m in Ex; cbn in Ex; discriminate|]. cbn in Ex. injection Ex as <- _. split; [auto|]. apply (clu_fits (w, e) c); auto. }
    assert (Fi : fits_clu (wide A) k').
    { destruct (vo_geo _ _ _ _ V) as (_ & _ & Tp). unfold fits_clu. rewrite Wd. assert (R : k' = 0 \/ 2 <= k' < top v) by (destruct Ch as [[_ R]|(_ & _ & R)]; auto). clear - Tp R. destruct (fat32 v); lia. }
    destruct (stored_ok (wide A) e k' size tm B E8 Sz T Fi) as (K & Bu & F11 & F28 & F22 & Fc & F12). set (e' := stored_as (wide A) e k' size tm) in *.
    destruct (vol_change v A L total V c l1 w e l2 e' I J El K F12) as (A' & Rp & Hv); [unfold isdir; cbn [snd]; rewrite F11; exact B32|intros Q; congruence|].
    eexists _, R_OK, A'. split; [reflexivity|]. split; [|split; [auto|]].
    + eexists. assert (Nk : forall x, In x (nodes A) -> ch2 x = chains v x).
      { intros x Ix. assert (X1 : ch1 x = chains v x).
        { unfold ch1, put. destruct (Z.eqb_spec x k) as [->|]; [|auto]. destruct (Z.eqb_spec k 0) as [Q|Q]; [auto|]. exfalso. revert Ix. apply (file_not_node A c (w, e)); auto. apply V. }
        unfold ch2. destruct (Z.eqb_spec k' 0) as [Q|Q]; [auto|]. rewrite put_other; [auto|]. intros ->. destruct Ch as [[_ Q']|(_ & [Q'|Q'] & _)]; [auto| |now apply avail_node in Q']. rewrite Q' in Q, Ix. revert Ix. apply (file_not_node A c (w, e)); auto. apply V. }
      apply Hv; [geo|reflexivity|exact Nk|]. destruct (owners_replaced _ _ _ _ _ Nd I Rp) as (base & O1 & O2). fold k in O1. replace (clu A (w, e')) with k' in O2 by (symmetry; exact Fc).
      assert (Nb : forall x, In x (0 :: base) -> x <> k' \/ k' = 0).
      { intros x Ix. destruct Ch as [[_ Q]|(_ & [Q|Q] & _)]; [auto| |].
        - destruct (Z.eq_dec k' 0) as [K0|K0]; [auto|]. left. intros ->. rewrite Q in *. revert Ix. now apply base_fresh.
        - left. intros ->. destruct (avail_fresh _ _ _ (vo_space _ _ _ _ V) (vo_total _ _ _ _ V) k' Q) as [F1 F2]. destruct Ix as [Ix|Ix]; [lia|]. apply F1. eapply base_owner; eauto. }
      eapply (space_swap v A total _ A' (one k) (one k') base); [apply V|auto|auto| | |].
      * intros x Ix. cbn [set_entry set_dirs set_chains chains]. assert (X1 : ch1 x = chains v x).
        { unfold ch1, put. destruct (Z.eqb_spec x k) as [->|]; [|auto]. destruct (Z.eqb_spec k 0) as [Q|Q]; [auto|]. exfalso. revert Ix. now apply base_fresh. }
        unfold ch2. destruct (Z.eqb_spec k' 0) as [Q|Q]; [auto|]. rewrite put_other; [auto|]. destruct (Nb x Ix); auto.
      * cbn [set_entry set_dirs set_chains chains avail]. assert (F1 : flat_map ch2 (one k') = ch).
        { unfold one, ch2. destruct Ch as [[Q1 Q2]|(_ & _ & Q)]; [rewrite Q2, Q1; auto|]. replace (k' =? 0) with false by lia. cbn. now rewrite put_same, app_nil_r. }
        assert (F2 : flat_map (chains v) (one k) = old) by (unfold one, old; destruct (k =? 0); cbn; [auto|apply app_nil_r]). rewrite F1, F2. apply perm_cut.
      * cbn [set_entry set_dirs set_chains chains]. intros x Ix. apply one_in in Ix as [-> Q]. unfold ch2. replace (k' =? 0) with false by lia. rewrite put_same. destruct Ch as [[_ Q']|(Q' & _)]; [contradiction|auto].
    + exists (Found c (w, e) cs). split; [auto|]. unfold store_does. rewrite Di, Ro. split; [auto|]. eexists. split; [exact Rp|]. split; [auto|]. cbn [snd]. auto.
  - destruct En as (-> & _). cbn [bind]. apply (stays _ _ _ _ V). exists (Free c cs). cbn. auto.
  - subst r. cbn [bind]. apply (stays _ _ _ _ V). exists NoPath. cbn. auto.
  - subst r. cbn [bind]. apply (stays _ _ _ _ V). exists Invalid. cbn. auto.
Qed.
End Ops2.
