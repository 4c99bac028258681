From Verif Require Import Base CrcSpec FutfModel FutfSpec FutfProof LfnModel LfnSpec LfnProof FdirModel FdirSpec FdirProof FdirProof3 FnameModel FnameSpec FnameProof FnameProof2 FnameProof3 FnameProof4 FnameProof5 FnameProof6 FpathModel FpathSpec FpathProof.
Open Scope Z_scope.

(* --- one directory ------------------------------------------------------------------------- *)
Lemma entry_at v c l1 w e l2 : dir_ok (table v c) (l1 ++ File w e :: l2) -> entry v c (sizes l1 + parts w) = e /\ short_ok e.
Proof. intros D. pose proof (dk_laid _ _ D) as Q. apply laid_app in Q as [_ [[Q1 [Q2 _]] _]]. rewrite Z.add_0_l in Q1. auto. Qed.
Lemma in_files l w e : In (w, e) (files l) -> exists l1 l2, l = l1 ++ File w e :: l2.
Proof.
  induction l as [|x l IH]; cbn [files]; [easy|]. intros I. destruct x as [|e'|w' e'].
  - destruct (IH I) as (a & b & ->). exists (Hole :: a), b. auto.
  - destruct (IH I) as (a & b & ->). exists (Label e' :: a), b. auto.
  - destruct I as [E|I]; [injection E as -> ->; exists [], l; auto|]. destruct (IH I) as (a & b & ->). exists (File w' e' :: a), b. auto.
Qed.

Section Follow.
Variables (v : volume) (A : tree) (L : Z -> list item) (total : list Z).
Hypothesis V : vol_ok v A L total.

Lemma ents_in c f : In c (nodes A) -> In f (ents A c) <-> In f (files (L c)) /\ shown f = true.
Proof. intros I. destruct (vo_tabs _ _ _ _ V c I) as [_ R]. rewrite <- (rd_ents _ _ _ R). apply filter_In. Qed.
Lemma ents_made c f : In c (nodes A) -> In f (ents A c) -> exists cs, good_name cs /\ named cs f.
Proof. intros I J. destruct (vo_tabs _ _ _ _ V c I) as [_ R]. pose proof (rd_made _ _ _ R) as M. rewrite Forall_forall in M. auto. Qed.

(* Names that are looked for are those of listed files. *)
Lemma form_shown x last fn f : form x last fn -> hit x fn f -> (fst f <> [] -> snd f 0 <> 46) -> shown f = true.
Proof.
  intros F H W. unfold shown. apply negb_true_iff, Z.eqb_neq. destruct H as [(_ & N & _)|[_ S]]; [auto|]. rewrite (S 0) by lia. destruct (fm_bytes _ _ _ F 0 ltac:(lia)) as [->|[[_ B] _]]; [lia|]. intros E. apply B. cbn. auto.
Qed.

Lemma find_name c cs last fn buf : In c (nodes A) -> good_name cs -> form (utf16 cs) last fn -> holds buf (utf16 cs) -> units buf ->
  (exists i b, dir_find (table v c) fn buf = Ok (D_NO_FILE, i, b) /\ Forall (fun f => ~ hit (utf16 cs) fn f) (files (L c)) /\ Forall (fun f => ~ called cs f) (ents A c)) \/
  (exists l1 w e l2, L c = l1 ++ File w e :: l2 /\ dir_find (table v c) fn buf = Ok (D_OK, sizes l1 + parts w, read_blk w (sizes l1)) /\ called cs (w, e) /\ In (w, e) (ents A c) /\ entry v c (sizes l1 + parts w) = e).
Proof.
  intros I G F H U. destruct (vo_tabs _ _ _ _ V c I) as [[D _] R]. destruct (good_clean cs G) as [[Cx _] _].
  destruct (find_ok (table v c) (L c) fn buf (utf16 cs) D U) as [(i & b & E & N)|(l1 & w & e & l2 & El & N & Hi & E)]; [revert Cx; apply Forall_impl; lia|auto| |].
  - left. exists i, b. split; [auto|]. split; [auto|]. rewrite Forall_forall in *. intros f If. rewrite <- (hit_called cs last fn f F). apply N. now apply (ents_in c f I).
  - right. exists l1, w, e, l2. split; [auto|]. unfold blk_of in E. rewrite (has64 _ _ _ F) in E. split; [auto|]. split; [now apply (hit_called cs last fn _ F)|]. rewrite El in D. destruct (entry_at v c l1 w e l2 D) as [Ee _]. split; [|auto].
    apply (ents_in c _ I). split; [rewrite El, files_app; apply in_or_app; right; left; auto|]. apply (form_shown (utf16 cs) last fn); [auto|auto|]. cbn. intros W.
    pose proof (dk_laid _ _ D) as Q. apply laid_app in Q as [_ [(_ & _ & Q) _]]. apply (Q W).
Qed.
Lemma find_dot c n last fn buf : In c (nodes A) -> (n = 1 \/ n = 2)%nat -> dot_form (Z.of_nat n) last fn -> holds buf (repeat 46 n) -> units buf ->
  (c = 0 /\ exists i b, dir_find (table v c) fn buf = Ok (D_NO_FILE, i, b)) \/
  (c <> 0 /\ exists b d, b = NONE /\ dir_find (table v c) fn buf = Ok (D_OK, Z.of_nat n - 1, b) /\ dotted A c (if (n =? 1)%nat then Here else Up) d /\ In d (nodes A) /\
     has (entry v c (Z.of_nat n - 1) 11) 16 = true /\ ld_clust (wide A) (entry v c (Z.of_nat n - 1)) = d).
Proof.
  intros I N F H U. destruct (vo_tabs _ _ _ _ V c I) as [[D _] R]. assert (Nu : Forall (fun u => 0 < u < 65536) (repeat 46 n)) by (destruct N as [-> | ->]; repeat constructor; lia).
  pose proof (find_ok (table v c) (L c) fn buf (repeat 46 n) D U Nu H) as Fd. pose proof (rd_dots _ _ _ R) as Dt. unfold dots in Dt. destruct (Z.eqb_spec c 0) as [->|C].
  - left. split; [auto|]. destruct Fd as [(i & b & E & _)|(l1 & w & e & l2 & El & _ & Hi & _)]; [eauto|]. exfalso. assert (If : In (w, e) (files (L 0))) by (rewrite El, files_app; apply in_or_app; right; left; auto).
    assert (Sh : shown (w, e) = true) by (rewrite Forall_forall in Dt; auto). apply (made_dots (w, e) n last fn N); auto. apply (ents_made 0); [auto|]. apply ents_in; auto.
  - right. split; [auto|]. destruct Dt as (e1 & e2 & r & p & El & D1 & D2 & P & _). assert (En : forall k f, dot_at (wide A) f k (if k =? 1 then c else p) -> 1 <= k <= 2 -> hit (repeat 46 n) fn ([], f) <-> k = Z.of_nat n).
    { intros k f Df K. pose proof (dot_hit f (Z.of_nat n) k _ _ last fn Df F ltac:(lia) K) as Q. now rewrite Nat2Z.id in Q. }
    assert (H1 := En 1 e1 D1 ltac:(lia)). assert (H2 := En 2 e2 D2 ltac:(lia)).
    assert (T1 : entry v c 0 = e1) by (rewrite El in D; apply (entry_at v c [] [] e1 _ D)). assert (T2 : entry v c 1 = e2) by (rewrite El in D; apply (entry_at v c [File [] e1] [] e2 r D)).
    destruct Fd as [(i & b & _ & No)|(l1 & w & e & l2 & El' & No & Hi & E)].
    + exfalso. rewrite El in No. cbn [files] in No. apply Forall_cons_iff in No as [N1 N2]. apply Forall_cons_iff in N2 as [N3 _]. destruct N as [-> | ->]; [apply N1, H1|apply N3, H2]; auto.
    + rewrite El in El'. destruct l1 as [|x1 l1].
      * injection El' as <- <- <-. assert (n = 1)%nat by (apply H1 in Hi; lia). subst n. exists NONE, c. split; [auto|]. split; [rewrite E; unfold blk_of; destruct (has _ _); reflexivity|]. split; [split; auto|]. split; [auto|]. change (Z.of_nat 1 - 1) with 0. rewrite T1. apply D1.
      * injection El' as <- El'. cbn [files] in No. apply Forall_cons_iff in No as [N1 N2]. assert (n = 2)%nat by (destruct N as [-> | ->]; [exfalso; apply N1, H1; auto|auto]). subst n. destruct l1 as [|x2 l1].
        -- injection El' as <- <- <-. exists NONE, p. split; [auto|]. split; [rewrite E; unfold blk_of; destruct (has _ _); reflexivity|]. split; [split; auto|]. split; [apply P|]. change (Z.of_nat 2 - 1) with 1. rewrite T2. apply D2.
        -- injection El' as <- El'. cbn [files] in N2. apply Forall_cons_iff in N2 as [N3 _]. exfalso. apply N3, H2. auto.
Qed.

(* --- names of paths ------------------------------------------------------------------------ *)
Lemma name_ok_of cs s rest p last buf : name_of cs s -> ends rest p last -> units buf ->
  (s = Bad /\ create_name (utf8 cs ++ rest) buf = Ok None) \/
  (exists n fn lfn, (n = 1 \/ n = 2)%nat /\ s = (if (n =? 1)%nat then Here else Up) /\ create_name (utf8 cs ++ rest) buf = Ok (Some (p, fn, lfn)) /\ dot_form (Z.of_nat n) last fn /\ holds lfn (repeat 46 n) /\ units lfn) \/
  (exists y fn lfn, s = Name y /\ good_name y /\ create_name (utf8 cs ++ rest) buf = Ok (Some (p, fn, lfn)) /\ form (utf16 y) last fn /\ holds lfn (utf16 y) /\ units lfn).
Proof.
  intros (F & N & Le & S) E U. pose proof (create_ok cs rest p last buf F Le E) as An. destruct An as [(fn & lfn & X & Er & Df & Hl & Ul)|(X1 & X2 & y & Sn & Y1 & Y2)].
  - right. left. destruct X as [X|X]; rewrite X in *.
    + assert (Ec : cs = [46]) by (apply (utf16_dots cs F 1); auto). exists 1%nat, fn, lfn. split; [auto|]. split; [|split; [auto|split; [auto|split; [auto|auto]]]]. destruct S as [[_ S]|[[S _]|(S & _)]]; [auto|subst; discriminate|contradiction].
    + assert (Ec : cs = [46; 46]) by (apply (utf16_dots cs F 2); auto). exists 2%nat, fn, lfn. split; [auto|]. split; [|split; [auto|split; [auto|split; [auto|auto]]]]. destruct S as [[S _]|[[_ S]|(_ & S & _)]]; [subst; discriminate|auto|contradiction].
  - destruct S as [[-> _]|[[-> _]|(_ & _ & z & Sz & ->)]]; [now destruct X1|now destruct X2|]. assert (Ey : y = utf16 z) by (eapply snip_unique; eauto; now apply snip_chars). subst y. destruct z as [|c z]; [left; auto|]. right. right.
    destruct Y2 as (fn & lfn & Er & Hl & Fo & Ul); [intros Q; apply utf16_nil in Q; discriminate|]. exists (c :: z), fn, lfn. split; [auto|]. split; [apply (snip_good cs); auto; discriminate|]. auto 6.
Qed.

(* Where follow_path stops. *)
Definition found_in (c : Z) (f : entry_t) (j : dj_t) : Prop :=
  exists l1 w e l2, f = (w, e) /\ L c = l1 ++ File w e :: l2 /\ idx j = sizes l1 + parts w /\ blk j = read_blk w (sizes l1) /\ entry v c (idx j) = e.
Definition ends_at (t : target) (r : prc) (j : dj_t) (buf : Z -> Z) : Prop :=
  units buf /\
  match t with
  | At c => r = R_OK /\ sclust j = c /\ In c (nodes A) /\ fn j 11 = 128
  | Dot c d => r = R_OK /\ sclust j = c /\ In c (nodes A) /\ c <> 0 /\ In d (nodes A) /\ fn j 11 = 36 /\ (idx j = 0 \/ idx j = 1) /\ has (entry v c (idx j) 11) 16 = true /\ ld_clust (wide A) (entry v c (idx j)) = d /\ blk j = NONE
  | Found c f cs => r = R_OK /\ sclust j = c /\ In c (nodes A) /\ good_name cs /\ form (utf16 cs) true (fn j) /\ holds buf (utf16 cs) /\ found_in c f j /\ In f (ents A c) /\ called cs f
  | Free c cs => r = R_NO_FILE /\ sclust j = c /\ In c (nodes A) /\ good_name cs /\ form (utf16 cs) true (fn j) /\ holds buf (utf16 cs) /\ Forall (fun f => ~ hit (utf16 cs) (fn j) f) (files (L c))
  | NoPath => r = R_NO_PATH
  | Invalid => r = R_INVALID_NAME
  end.

Lemma dir_node c f : In c (nodes A) -> In f (ents A c) -> isdir f = true -> In (clu A f) (nodes A).
Proof.
  intros I If Di. destruct (vo_shape _ _ _ _ V) as (_ & P & _). eapply Permutation_in; [exact P|]. right. apply in_map, filter_In. split; [|auto]. unfold links. apply in_flat_map. eauto.
Qed.
Lemma and63 x : bytes x -> has (Z.land (x 11) 63) 16 = has (x 11) 16.
Proof. intros B. pose proof (byte_all (fun z => Bool.eqb (has (Z.land z 63) 16) (has z 16)) eq_refl (x 11) (B 11)) as Q. now apply Bool.eqb_prop in Q. Qed.
Lemma entry_bytes c i : In c (nodes A) -> 0 <= i < cap (dirs v c) -> bytes (entry v c i).
Proof. intros I C. destruct (vo_tabs _ _ _ _ V c I) as [[D _] _]. apply (all_bytes _ _ D). auto. Qed.

Lemma ends_len rest p last : ends rest p last -> (length p < length rest)%nat.
Proof. intros E. destruct E; cbn [length]; [lia|]. rewrite app_length. cbn [length]. lia. Qed.
Lemma utf8_len cs : cs <> [] -> (1 <= length (utf8 cs))%nat.
Proof. destruct cs as [|c cs]; [easy|]. intros _. unfold utf8. cbn [flat_map]. rewrite app_length. unfold utf8_of, utf8_form. destruct (utf8_count c =? 1), (utf8_count c =? 2), (utf8_count c =? 3); cbn [length]; lia. Qed.

Lemma loop_ok ss path : spells ss path -> forall c fuel buf, In c (nodes A) -> units buf -> (length path <= fuel)%nat -> (exists ch q, path = ch :: q /\ 32 <= ch) ->
  exists t r j buf', follow_loop fuel v path c buf = Ok (r, j, buf') /\ lookup A c ss t /\ ends_at t r j buf'.
Proof.
  pose proof (vo_wide _ _ _ _ V) as Wd.
  induction 1 as [x p X|cs s rest p Nm E|cs s rest p ss Nm E Sp IH|cs t ss F Le|cs x t ss F B]; intros c fuel buf I U Fu (ch & q & Eq & Ch).
  - injection Eq as -> _. lia.
  - destruct fuel as [|fuel]; [pose proof (utf8_len cs (proj1 (proj2 Nm))); rewrite app_length in Fu; lia|]. cbn [follow_loop].
    destruct (name_ok_of cs s rest p true buf Nm E U) as [[-> ->]|[(n & fn & lfn & N & -> & -> & Df & Hl & Ul)|(y & fn & lfn & -> & G & -> & Fo & Hl & Ul)]]; cbn [bind].
    + do 4 eexists. split; [reflexivity|]. split; [apply lk_bad|]. split; auto.
    + destruct Df as [Df1 Df2]. rewrite Df2. change (has 36 4) with true. change (has 36 32) with true. cbn [negb].
      destruct (find_dot c n true fn lfn I N (conj Df1 Df2) Hl Ul) as [[-> (i & b & ->)]|(C & b & d & -> & -> & Dd & Id & E1 & E2)]; cbn [bind].
      * do 4 eexists. split; [reflexivity|]. split; [apply lk_top; destruct N as [-> | ->]; auto|]. split; [auto|]. cbn. auto.
      * do 4 eexists. split; [reflexivity|]. split; [apply lk_dot with (d := d); exact Dd|]. split; [auto|]. cbn. repeat (split; [solve [auto]|]). split; [clear - N; lia|auto].
    + rewrite (fm_last _ _ _ Fo). destruct (has_form _ _ _ Fo) as (H1 & H2 & H3). rewrite H3. cbn [negb].
      destruct (find_name c y true fn lfn I G Fo Hl Ul) as [(i & b & -> & No1 & No2)|(l1 & w & e & l2 & El & -> & Ca & In' & Ee)]; cbn [bind].
      * do 4 eexists. split; [reflexivity|]. split; [now apply lk_free|]. split; [auto|]. cbn. auto 10.
      * do 4 eexists. split; [reflexivity|]. split; [eapply lk_found; eauto|]. split; [auto|]. cbn [sclust FpathModel.fn idx blk]. repeat (split; [solve [auto]|]). split; [exists l1, w, e, l2; cbn; auto 6|auto].
  - assert (Nz : exists ch q, p = ch :: q /\ 32 <= ch) by (inversion E; subst; do 2 eexists; split; [reflexivity|lia]). assert (Ns : ss <> []) by (destruct Nz as (ch' & q' & -> & Hc); inversion Sp; subst; try discriminate; lia).
    pose proof (ends_len _ _ _ E) as Ll. pose proof (utf8_len cs (proj1 (proj2 Nm))) as L1. rewrite app_length in Fu. destruct fuel as [|fuel]; [lia|]. cbn [follow_loop].
    destruct (name_ok_of cs s rest p false buf Nm E U) as [[-> ->]|[(n & fn & lfn & N & -> & -> & Df & Hl & Ul)|(y & fn & lfn & -> & G & -> & Fo & Hl & Ul)]]; cbn [bind].
    + do 4 eexists. split; [reflexivity|]. split; [apply lk_bad|]. split; auto.
    + destruct Df as [Df1 Df2]. rewrite Df2. change (has 32 4) with false. change (has 32 32) with true. cbn [negb].
      destruct (find_dot c n false fn lfn I N (conj Df1 Df2) Hl Ul) as [[-> (i & b & ->)]|(C & b & d & -> & -> & Dd & Id & E1 & E2)]; cbn [bind].
      * destruct (IH 0 fuel lfn I Ul ltac:(lia) Nz) as (t & r & j & buf' & -> & Lk & En). do 4 eexists. split; [reflexivity|]. split; [apply lk_top_on; [destruct N as [-> | ->]; auto|auto|eauto]|auto].
      * rewrite and63, E1 by (apply entry_bytes; [auto|]; destruct (vo_tabs _ _ _ _ V c I) as [[D _] R]; pose proof (dk_room _ _ D) as Rm; pose proof (rd_dots _ _ _ R) as Dt; unfold dots in Dt; destruct (Z.eqb_spec c 0); [contradiction|]; destruct Dt as (e1 & e2 & r' & p' & El & _); rewrite El in Rm; rewrite !sizes_cons in Rm; cbn [size] in Rm; change (parts []) with 0 in Rm; pose proof (sizes_nonneg r'); cbn [table cap] in Rm; lia).
        cbn [negb]. rewrite <- Wd, E2. destruct (IH d fuel lfn Id Ul ltac:(lia) Nz) as (t & r & j & buf' & -> & Lk & En). do 4 eexists. split; [reflexivity|]. split; [eapply lk_dot_on; eauto|auto].
    + rewrite (fm_last _ _ _ Fo). destruct (has_form _ _ _ Fo) as (H1 & H2 & H3). rewrite H3. cbn [negb].
      destruct (find_name c y false fn lfn I G Fo Hl Ul) as [(i & b & -> & No1 & No2)|(l1 & w & e & l2 & El & -> & Ca & In' & Ee)]; cbn [bind].
      * do 4 eexists. split; [reflexivity|]. split; [now apply lk_miss|]. split; auto.
      * rewrite Ee. destruct (vo_tabs _ _ _ _ V c I) as [[D _] _]. rewrite El in D. destruct (entry_at v c l1 w e l2 D) as [_ [B _]]. rewrite and63 by auto. change (has (e 11) 16) with (isdir (w, e)). destruct (isdir (w, e)) eqn:Di; cbn [negb].
        -- rewrite <- Wd. change (ld_clust (wide A) e) with (clu A (w, e)). destruct (IH (clu A (w, e)) fuel lfn (dir_node c _ I In' Di) Ul ltac:(lia) Nz) as (t & r & j & buf' & -> & Lk & En). do 4 eexists. split; [reflexivity|]. split; [eapply lk_down; eauto|auto].
        -- do 4 eexists. split; [reflexivity|]. split; [eapply lk_file; eauto|]. split; auto.
  - destruct fuel as [|fuel]; [rewrite Eq in Fu; cbn in Fu; lia|]. cbn [follow_loop]. assert (En : create_name (utf8 cs ++ t) buf = Ok None) by (unfold create_name; now rewrite seg_more by auto). rewrite En. cbn [bind].
    do 4 eexists. split; [reflexivity|]. split; [apply lk_bad|]. split; auto.
  - destruct fuel as [|fuel]; [rewrite Eq in Fu; cbn in Fu; lia|]. cbn [follow_loop]. rewrite create_reject by auto. cbn [bind]. do 4 eexists. split; [reflexivity|]. split; [apply lk_bad|]. split; auto.
Qed.

Lemma in_root : In 0 (nodes A).
Proof. destruct (vo_shape _ _ _ _ V) as (_ & P & _). eapply Permutation_in; [exact P|left; auto]. Qed.

Lemma spells_nil ss t p : spells ss (t :: p) -> 0 <= t < 32 -> ss = [].
Proof.
  intros S T. remember (t :: p) as q eqn:E1. destruct S as [x0 p0 X0|cs s rest p0 Nm En|cs s rest p0 ss Nm En Sp|cs t0 ss F Le|cs c t0 ss F B]; [auto| | | |].
  all: exfalso; assert (Q : forall cs r, cs <> [] -> Forall name_char cs -> utf8 cs ++ r = t :: p -> False);
    [intros cs' r' N' F' E'; destruct cs' as [|c' cs']; [easy|]; inversion F' as [|? ? (Sc & _ & C32 & _) _]; subst; unfold utf8 in E'; cbn [flat_map] in E'; rewrite <- app_assoc in E'; unfold scalar in Sc;
     unfold utf8_of, utf8_form, utf8_count in E'; destruct (Z.ltb_spec c' 128); [cbn in E'; injection E' as E' _; lia|]; destruct (Z.ltb_spec c' 2048); [cbn in E'; injection E' as E' _; Z.to_euclidean_division_equations; lia|]; destruct (Z.ltb_spec c' 65536); cbn in E'; injection E' as E' _; Z.to_euclidean_division_equations; lia|].
  - apply (Q cs rest); auto; apply Nm.
  - apply (Q cs rest); auto; apply Nm.
  - apply (Q cs t0); auto. intros ->. unfold zlen in Le. cbn in Le. lia.
  - destruct cs as [|c' cs]; [cbn in E1; injection E1 as -> _; cbn in B; lia|]. apply (Q (c' :: cs) (c :: t0)); [discriminate|auto|exact E1].
Qed.
Lemma spells_head ss t p : spells ss (t :: p) -> 0 <= t.
Proof.
  intros S. assert (Q : forall cs r, (cs <> [] -> Forall name_char cs) -> (cs = [] -> exists a b, r = a :: b /\ 0 <= a) -> utf8 cs ++ r = t :: p -> 0 <= t).
  { intros cs r F N E. destruct cs as [|c cs]; [destruct N as (a & b & -> & Ha); [auto|]; cbn in E; injection E as <- _; auto|]. specialize (F ltac:(discriminate)). inversion F as [|? ? (Sc & _ & C32 & _) _]; subst. unfold utf8 in E. cbn [flat_map] in E. rewrite <- app_assoc in E. unfold scalar in Sc.
    unfold utf8_of, utf8_form, utf8_count in E. destruct (Z.ltb_spec c 128); [cbn in E; injection E as E _; lia|]. destruct (Z.ltb_spec c 2048); [cbn in E; injection E as E _; Z.to_euclidean_division_equations; lia|]. destruct (Z.ltb_spec c 65536); cbn in E; injection E as E _; Z.to_euclidean_division_equations; lia. }
  remember (t :: p) as q eqn:E1. destruct S as [x0 p0 X0|cs s rest p0 Nm En|cs s rest p0 ss Nm En Sp|cs t0 ss F Le|cs c t0 ss F B]; [injection E1 as <- _; lia| | | |].
  - apply (Q cs rest); [intros; apply Nm|intros ->; now destruct Nm as (_ & N & _)|auto].
  - apply (Q cs rest); [intros; apply Nm|intros ->; now destruct Nm as (_ & N & _)|auto].
  - apply (Q cs t0); [auto|intros ->; unfold zlen in Le; cbn in Le; lia|auto].
  - apply (Q cs (c :: t0)); [auto|intros _; exists c, t0; split; [auto|cbn in B; lia]|auto].
Qed.

Lemma follow_ok path root ss buf : path_of path root ss -> units buf ->
  exists t r j buf', follow_path v path buf = Ok (r, j, buf') /\ lookup A (if root then 0 else cdir v) ss t /\ ends_at t r j buf'.
Proof.
  intros P U. assert (Go : forall c0 ch p, In c0 (nodes A) -> spells ss (ch :: p) ->
    exists t r j buf', (if ch <? 32 then Ok (R_OK, mkDj c0 (fun _ => 128) 0 NONE, buf) else follow_loop (S (length (ch :: p))) v (ch :: p) c0 buf) = Ok (r, j, buf') /\ lookup A c0 ss t /\ ends_at t r j buf').
  { intros c0 ch p I Sp. destruct (Z.ltb_spec ch 32) as [C|C].
    - apply spells_nil in Sp as ->; [|pose proof (spells_head _ _ _ Sp); lia]. do 4 eexists. split; [reflexivity|]. split; [apply lk_nil|]. split; cbn; auto.
    - apply (loop_ok ss (ch :: p) Sp c0); [auto|auto|cbn; lia|eauto]. }
  destruct P as [s seps ch p ss Hs Hss Hc Sp|ch p ss Hc Sp]; unfold follow_path; cbn [next bind].
  - rewrite (proj2 (is_sep_ok s) Hs). assert (Sk : skip_seps (s :: seps ++ ch :: p) = Ok (ch :: p)) by (apply (skip_ok (s :: seps)); [constructor; auto|auto]). rewrite Sk. cbn [bind next]. apply Go; [apply in_root|auto].
  - rewrite is_sep_no by auto. cbn [bind next]. apply Go; [apply (vo_cdir _ _ _ _ V)|auto].
Qed.
End Follow.
