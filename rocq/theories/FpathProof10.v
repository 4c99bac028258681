From Verif Require Import Base CrcSpec FutfModel FutfSpec FutfProof LfnModel LfnSpec LfnProof FdirModel FdirSpec FdirProof FdirProof2 FdirProof3 FnameModel FnameSpec FnameProof FnameProof2 FnameProof3 FnameProof4 FnameProof5 FnameProof6 FpathModel FpathSpec FpathProof FpathProof2 FpathProof3 FpathProof4 FpathProof5 FpathProof6 FpathProof7 FpathProof8 FpathProof9.
Open Scope Z_scope.

(* --- the table of a new directory ---------------------------------------------------------- *)
Definition dot1 (b : bool) (k tm : Z) : Z -> Z := dot_entry b k tm.
Definition dot2 (b : bool) (k p tm : Z) : Z -> Z := st_clust b (upd (dot_entry b k tm) 1 46) p.
Lemma dot_bytes b k tm : bytes (dot_entry b k tm).
Proof.
  unfold dot_entry. apply st_clust_bytes, st_dword_bytes. intros i. destruct (i =? 0); [lia|]. destruct (_ && _); [lia|]. destruct (i =? 11); lia.
Qed.
Lemma dot_name b k tm i : 0 <= i < 12 -> dot_entry b k tm i = if i =? 0 then 46 else if i =? 11 then 16 else 32.
Proof.
  intros I. unfold dot_entry. rewrite st_clust_other by notin. rewrite st_dword_other by lia. destruct (Z.eqb_spec i 0); [auto|]. destruct (Z.eqb_spec i 11) as [->|]; [auto|]. replace (1 <=? i) with true by lia. replace (i <? 11) with true by lia. auto.
Qed.
Lemma dot1_at b k tm : fits_clu b k -> dot_at b (dot1 b k tm) 1 k /\ short_ok (dot1 b k tm).
Proof.
  intros F. unfold dot1. split; [split; [|split]|split; [|split; [|split]]].
  - intros i I. rewrite dot_name by lia. destruct (Z.eqb_spec i 0); [replace (i <? 1) with true by lia; auto|]. replace (i =? 11) with false by lia. now replace (i <? 1) with false by lia.
  - now rewrite dot_name by lia.
  - unfold dot_entry. now apply ld_st_clust.
  - apply dot_bytes.
  - rewrite dot_name by lia. intros Q; vm_compute in Q; discriminate.
  - rewrite dot_name by lia. intros Q; vm_compute in Q; discriminate.
  - now rewrite dot_name by lia.
Qed.
Lemma dot2_at b k p tm : fits_clu b p -> dot_at b (dot2 b k p tm) 2 p /\ short_ok (dot2 b k p tm).
Proof.
  intros F. unfold dot2. assert (Nm : forall i, 0 <= i < 12 -> st_clust b (upd (dot_entry b k tm) 1 46) p i = if i <? 2 then 46 else if i =? 11 then 16 else 32).
  { intros i I. rewrite st_clust_other by notin. destruct (Z.eq_dec i 1) as [->|N1]; [now rewrite upd_same|]. rewrite upd_other, dot_name by lia. destruct (Z.eqb_spec i 0); [now replace (i <? 2) with true by lia|]. now replace (i <? 2) with false by lia. }
  split; [split; [|split]|split; [|split; [|split]]].
  - intros i I. rewrite Nm by lia. destruct (i <? 2); [auto|]. now replace (i =? 11) with false by lia.
  - now rewrite Nm by lia.
  - now apply ld_st_clust.
  - apply st_clust_bytes, upd_bytes; [apply dot_bytes|lia].
  - rewrite Nm by lia. intros Q; vm_compute in Q; discriminate.
  - rewrite Nm by lia. intros Q; vm_compute in Q; discriminate.
  - now rewrite Nm by lia.
Qed.
Lemma new_items b k p tm n s : fits_clu b k -> fits_clu b p -> 16 <= n -> (n | MAXENT) -> 0 <= s ->
  dir_ok (mkDir (tab (new_table b n k p tm)) n n s) [File [] (dot1 b k tm); File [] (dot2 b k p tm)].
Proof.
  intros F1 F2 N Dv S. destruct (dot1_at b k tm F1) as [_ S1]. destruct (dot2_at b k p tm F2) as [_ S2]. assert (Sz : sizes [File [] (dot1 b k tm); File [] (dot2 b k p tm)] = 2) by reflexivity.
  constructor; cbn [tab cap chunk spare]; rewrite ?Sz; try lia.
  - cbn [laid size]. change (parts []) with 0. cbn [stored]. change (parts []) with 0. split; [split; [reflexivity|split; [exact S1|easy]]|]. split; [split; [reflexivity|split; [exact S2|easy]]|auto].
  - split; [lia|]. apply Z.divide_pos_le in Dv; [auto|unfold MAXENT; lia].
  - split; [apply Z.divide_refl|auto].
  - intros j J. unfold new_table. cbn [tab]. replace (j =? 0) with false by lia. replace (j =? 1) with false by lia. split; [auto|]. intros o. lia.
Qed.

Section Mkdir.
Variables (v : volume) (A : tree) (L : Z -> list item) (total : list Z).
Hypothesis V : vol_ok v A L total.
Variables (k : Z) (rest : list Z).
Hypothesis Av : avail v = k :: rest.
Let Wd : wide A = fat32 v := vo_wide _ _ _ _ V.

Lemma new_range : ~ In k (nodes A) /\ ~ In k (0 :: owners A) /\ 2 <= k < top v.
Proof.
  assert (I : In k (avail v)) by (rewrite Av; left; auto). destruct (avail_node v A L total V k I) as [N R]. destruct (avail_fresh _ _ _ (vo_space _ _ _ _ V) (vo_total _ _ _ _ V) k I) as [F _]. split; [auto|]. split; [intros [Q|Q]; [lia|auto]|auto].
Qed.
Lemma fits_top x : 0 <= x < top v -> fits_clu (wide A) x.
Proof. intros R. destruct (vo_geo _ _ _ _ V) as (_ & _ & T). rewrite Wd. unfold fits_clu. clear - R T. destruct (fat32 v); lia. Qed.
Lemma node_fits c : In c (nodes A) -> fits_clu (wide A) c.
Proof.
  intros I. apply node_key in I; [|apply V]. destruct I as [<-|I]; [unfold fits_clu; clear; destruct (wide A); lia|]. apply fits_top. pose proof (owner_range _ _ _ (vo_space _ _ _ _ V) (vo_total _ _ _ _ V) c I). lia.
Qed.

(* The cluster is taken. *)
Definition taken (nt : dirt) : volume := set_dirs (set_chains v (put (chains v) k [k]) rest) (put (dirs v) k nt).
Let total' := rest ++ flat_map (chains v) (0 :: owners A).
Lemma total_perm : Permutation total (k :: total').
Proof. destruct (vo_space _ _ _ _ V) as [P _]. rewrite <- P, Av. auto. Qed.
Lemma vol_take nt : vol_ok (taken nt) A L total'.
Proof.
  destruct new_range as (N1 & N2 & R). constructor; try apply V.
  - intros c I. destruct (vo_tabs _ _ _ _ V c I) as [La Rd]. split; [|auto]. assert (c <> k) by (intros ->; auto). apply (lay_ext v); [geo| | |auto]; cbn; now rewrite put_other.
  - destruct (vo_space _ _ _ _ V) as [P H]. split.
    + unfold total'. cbn [taken set_dirs set_chains avail chains]. rewrite (flat_map_ext_in (put (chains v) k [k]) (chains v)); [auto|]. intros x X. apply put_other. intros ->. auto.
    + intros x X. cbn. rewrite put_other; [auto|]. intros ->. apply N2. right. auto.
  - destruct (vo_total _ _ _ _ V) as [T1 T2]. pose proof total_perm as P. split; [eapply Permutation_NoDup in P; [inversion P; auto|auto]|]. rewrite P in T2. inversion T2. auto.
Qed.
(* It is given back. *)
Lemma give_back v1 : vol_ok v1 A L total' -> same_geo v v1 -> chains v1 k = [k] -> vol_ok (release v1 k) A L total.
Proof.
  intros V1 (_ & _ & G3 & G4) C1. destruct new_range as (N1 & N2 & R). constructor; try apply V1; try (cbn [release set_chains top]; rewrite G3; apply V).
  - intros c I. destruct (vo_tabs _ _ _ _ V1 c I) as [La Rd]. split; [|auto]. assert (c <> k) by (intros ->; auto). apply (lay_ext v1); [geo|auto| |auto]; cbn; now rewrite put_other.
  - destruct (vo_space _ _ _ _ V1) as [P H]. split.
    + cbn [release set_chains avail chains]. rewrite (flat_map_ext_in (put (chains v1) k []) (chains v1)); [|intros x X; apply put_other; intros ->; auto]. rewrite C1. rewrite total_perm. cbn [app]. apply perm_skip. exact P.
    + intros x X. cbn. rewrite put_other; [auto|]. intros ->. apply N2. right. auto.
Qed.

Lemma mkdir_new c cs fn v1 l1 l2 h f e tm : let w := if has (fn 11) 2 then utf16 cs else [] in let v0 := taken (new_table (fat32 v) (epc v) k c tm) in
  In c (nodes A) -> good_name cs -> form (utf16 cs) true fn -> Forall (fun g => ~ hit (utf16 cs) fn g) (files (L c)) -> grows v0 v1 c -> dword tm ->
  L c = l1 ++ repeat Hole h ++ l2 -> (Z.of_nat h = parts w + 1 \/ l2 = []) -> lay v1 c (l1 ++ File w e :: l2) -> fresh fn (L c) f e ->
  exists A', added (with_node A k) c (w, mdir (wide A) e k tm) A' /\ named cs (w, mdir (wide A) e k tm) /\ new_dir A k tm (w, mdir (wide A) e k tm) /\
    holds_tree (set_entry v1 c (sizes l1 + parts w) (mdir (wide A) e k tm)) A' total.
Proof.
  intros w v0 I G F NH Gr T El Hh L1 Fr. destruct new_range as (N1 & N2 & R). assert (Nc : c <> k) by (intros ->; auto). destruct (vo_tabs _ _ _ _ V c I) as [[D _] Rd]. rewrite El in D, Rd, NH, Fr.
  pose proof Fr as ((_ & _ & _ & Z13) & B & _). destruct (mdir_ok (wide A) e k tm B T (fits_top k ltac:(lia)) Z13) as (K & F11 & F22 & Fc & F28 & F12). set (e' := mdir (wide A) e k tm) in *. pose proof K as (_ & Ks & _).
  assert (P0 : forall p x, parent A p x -> parent (with_node A k) p x).
  { intros p x (I1 & g & I2 & I3 & I4). split; [right; auto|]. exists g. cbn. rewrite put_other by (intros ->; auto). auto. }
  assert (Rd0 : reads (with_node A k) c (l1 ++ repeat Hole h ++ l2)) by (apply (reads_other A); auto; cbn; now apply put_other).
  destruct (reads_add (with_node A k) c cs true fn _ l1 h l2 f e e' Rd0 D G F NH Hh Fr Ks F12) as (A' & Ad & Nm & Rd'). fold w in Ad, Nm, Rd'. exists A'. split; [auto|]. split; [auto|].
  assert (Cf : clu A (w, e') = k) by exact Fc. assert (Di : isdir (w, e') = true) by (unfold isdir; cbn [snd]; rewrite F11; reflexivity).
  split; [unfold new_dir; cbn [snd]; auto|]. destruct (lay_set v1 c l1 w e l2 e' L1 K) as (L2 & As2 & St & _). pose proof Gr as [As1 _]. pose proof (parent_added _ _ _ _ Ad) as P1. pose proof Ad as (x & y & Ex & Ea). set (v2 := set_entry v1 c (sizes l1 + parts w) e') in *.
  assert (Sh' : shape A') by (eapply shape_mkdir; eauto; apply V). assert (Nn : nodes A' = k :: nodes A) by now rewrite Ea. assert (Wn : wide A' = wide A) by now rewrite Ea.
  assert (G0 : same_geo v v2) by (apply (geo_trans _ v1); [apply As1|apply As2]). pose proof G0 as (G1 & G2 & G3 & G4). assert (Pc : parent A' c k).
  { split; [rewrite Nn; right; auto|]. exists (w, e'). split; [rewrite Ea; cbn [with_ents ents]; rewrite put_same; apply in_or_app; right; left; auto|]. split; [auto|]. rewrite (clu_wide A A' Wn). auto. }
  exists (put (put L c (l1 ++ File w e' :: l2)) k [File [] (dot1 (fat32 v) k tm); File [] (dot2 (fat32 v) k c tm)]). constructor.
  - rewrite Wn, G1. auto.
  - rewrite Nn. intros q [<-|Iq].
    + rewrite put_same. assert (D2 : dirs v2 k = new_table (fat32 v) (epc v) k c tm) by (destruct As2 as [_ O2], As1 as [_ O1]; rewrite (proj1 (O2 k ltac:(auto))), (proj1 (O1 k ltac:(auto))); cbn; apply put_same).
      assert (C2 : chains v2 k = [k]) by (destruct As2 as [_ O2], As1 as [_ O1]; rewrite (proj2 (O2 k ltac:(auto))), (proj2 (O1 k ltac:(auto))); cbn; apply put_same).
      pose proof (fits_top k ltac:(lia)) as Fk. pose proof (node_fits c I) as Fp. rewrite Wd in Fk, Fp. destruct (vo_geo _ _ _ _ V) as (Ge & Gd & _). destruct (dot1_at (fat32 v) k tm Fk) as [Da _]. destruct (dot2_at (fat32 v) k c tm Fp) as [Db _]. split; [split|].
      * unfold table. rewrite D2. cbn [cap chunk new_table]. apply new_items; auto. destruct (fixed v2 k); lia.
      * intros _. rewrite D2, C2, G2. change (zlen [k]) with 1. cbn [new_table chunk cap]. split; [auto|ring].
      * assert (S1 : shown ([], dot1 (fat32 v) k tm) = false) by (eapply dot_hidden; [exact Da|lia]). assert (S2 : shown ([], dot2 (fat32 v) k c tm) = false) by (eapply dot_hidden; [exact Db|lia]).
        constructor.
        -- constructor; cbn [files]; [|repeat constructor; cbn; congruence|repeat constructor; cbn; congruence]. constructor; [|repeat constructor]. constructor; [|constructor]. cbn [snd]. intros Sm. specialize (Sm 1 ltac:(lia)). rewrite (proj1 Da 1), (proj1 Db 1) in Sm by lia. discriminate.
        -- cbn [files filter]. rewrite S1, S2. rewrite Ea. cbn [with_ents ents with_node]. rewrite put_other, put_same by auto. auto.
        -- rewrite Ea. cbn [with_ents ents with_node]. rewrite put_other, put_same by auto. constructor.
        -- unfold dots. replace (k =? 0) with false by lia. exists (dot1 (fat32 v) k tm), (dot2 (fat32 v) k c tm), [], c. rewrite Wn, Wd. split; [auto|]. split; [auto|]. split; [auto|]. split; [auto|constructor].
    + assert (Nq : q <> k) by (intros ->; auto). rewrite put_other by auto. destruct (Z.eq_dec q c) as [->|Nqc].
      * rewrite put_same. split; [auto|]. apply Rd'. auto.
      * rewrite put_other by auto. destruct (vo_tabs _ _ _ _ V q Iq) as [Lq Rq]. split.
        -- apply (aside_lay v1 _ c); auto. apply (aside_lay v0 _ c); auto. apply (lay_ext v); [geo| | |auto]; cbn; now rewrite put_other by auto.
        -- apply (reads_other A); auto. rewrite Ea. cbn. rewrite !put_other by auto. auto.
  - auto.
  - assert (N0 : NoDup (nodes (with_node A k))) by (cbn; constructor; [auto|apply V]). assert (I0 : In c (nodes (with_node A k))) by (right; auto).
    pose proof (owners_added _ _ _ _ N0 I0 Ad) as Ow. change (clu (with_node A k) (w, e')) with (clu A (w, e')) in Ow. rewrite Cf in Ow. assert (Eo : owners (with_node A k) = owners A) by (unfold owners; change (clu (with_node A k)) with (clu A); now rewrite links_with_node).
    rewrite Eo in Ow. unfold one in Ow. replace (k =? 0) with false in Ow by lia. cbn [app] in Ow. pose proof (vol_take (new_table (fat32 v) (epc v) k c tm)) as V0. fold v0 in V0.
    assert (S2 : space v2 A total') by (eapply space_perm; [eapply space_grow; [apply (vo_space _ _ _ _ V0)|apply (vo_total _ _ _ _ V0)|exact Gr|apply node_key; [apply V|auto]]|auto|rewrite (proj1 St); auto|apply St]).
    assert (C2 : chains v2 k = [k]) by (destruct As2 as [_ O2], As1 as [_ O1]; rewrite (proj2 (O2 k ltac:(auto))), (proj2 (O1 k ltac:(auto))); cbn; apply put_same). destruct S2 as [P2 H2]. split.
    + rewrite total_perm, <- P2. cbn [flat_map]. rewrite Ow. cbn [flat_map]. rewrite C2. cbn [app]. rewrite !app_assoc. symmetry. apply Permutation_middle.
    + intros q Q. eapply Permutation_in in Q; [|exact Ow]. destruct Q as [<-|Q]; [rewrite C2; eauto|auto].
  - rewrite G3. apply V.
  - rewrite G1, G2, G3. apply V.
  - rewrite G4, Nn. right. apply V.
Qed.
End Mkdir.

Theorem mkdir_ok v A L total path tm buf : vol_ok v A L total -> spelled path -> units buf -> dword tm ->
  ends_well v total (f_mkdir v path tm buf) (fun r A' => exists t, resolves A (cdir v) path t /\ mkdir_does v A tm t r A').
Proof.
  intros V Sp U T. destruct (at_path _ _ _ _ V path buf Sp U) as (t & r & j & buf' & E & Re & [U' En]). unfold f_mkdir. rewrite E. cbn [bind]. destruct t as [c|c d|c f cs|c cs| |].
  - destruct En as (-> & _). apply (stays _ _ _ _ V). exists (At c). cbn. auto.
  - destruct En as (-> & _). apply (stays _ _ _ _ V). exists (Dot c d). cbn. auto.
  - destruct En as (-> & _). apply (stays _ _ _ _ V). exists (Found c f cs). cbn. auto.
  - destruct En as (-> & Ec & I & G & Fo & H & NH). destruct (has_form _ _ _ Fo) as (_ & _ & ->). destruct (avail v) as [|k rest] eqn:Av; [apply (stays _ _ _ _ V); exists (Free c cs); split; [auto|]; right; auto|]. cbv zeta. rewrite Ec.
    cbn [set_chains fat32 epc]. set (nt := new_table (fat32 v) (epc v) k c tm). change (set_dirs _ _) with (taken v k rest nt). pose proof (vol_take v A L total V k rest Av nt) as V0. destruct (new_range v A L total V k rest Av) as (N1 & N2 & R).
    destruct (vol_register _ A L _ V0 c cs (fn j) buf' I G Fo H U') as (d & q & i & Eq & Gr & Q). rewrite Eq. cbn [bind]. set (v1 := put_table (taken v k rest nt) c d) in *. pose proof Gr as [[(G1 & G2 & G3 & G4) O1] _]. destruct Q as [(-> & l1 & l2 & h & f & e & El & Hh & L1 & -> & Ee & Fr)|(-> & V' & Why)].
    + destruct (mkdir_new v A L total V k rest Av c cs (fn j) v1 l1 l2 h f e tm I G Fo NH Gr T El Hh L1 Fr) as (A' & Ad & Nm & Nw & Hv). rewrite Ee, G1. change (fat32 (taken v k rest nt)) with (fat32 v). rewrite <- (vo_wide _ _ _ _ V). eexists _, R_OK, A'. split; [reflexivity|]. split; [exact Hv|]. split; [exact G4|].
      exists (Free c cs). split; [auto|]. unfold mkdir_does. left. split; [auto|]. exists k. eexists. split; [auto|]. split; [exact Ad|]. auto.
    + cbn [of_drc]. eexists _, R_DENIED, A. split; [reflexivity|]. split; [exists L; apply (give_back v A L total V k rest Av); [exact V'| |]|split; [exact G4|]].
      * split; [auto|split; [auto|split; auto]].
      * rewrite (proj2 (O1 k ltac:(intros Q; apply N1; now rewrite Q))). cbn. apply put_same.
      * exists (Free c cs). split; [auto|]. right. split; [auto|]. split; [auto|]. right. destruct Why as (last & f & Ff & Why). exists last, f. split; [auto|]. destruct Why as [Why|Why]; [auto|right].
        unfold table, fixed, less in *. cbn [taken set_dirs set_chains dirs avail fat32] in *. rewrite put_other in Why by (intros Q; apply N1; now rewrite <- Q). rewrite Av. exact Why.
  - subst r. apply (stays _ _ _ _ V). exists NoPath. cbn. auto.
  - subst r. apply (stays _ _ _ _ V). exists Invalid. cbn. auto.
Qed.
