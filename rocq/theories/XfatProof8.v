(* Histories of operations on several exFAT files. *)
From Coq Require Import ZArith Lia Bool List.
From Verif Require Import Base FatModel FatSpec FatProof FatProof2 FatProof4 XfatModel XfatSpec XfatRun XfatProof XfatProof2 XfatProof3 XfatProof4 XfatProof5 XfatProof6 XfatProof7.
Import ListNotations.
Open Scope Z_scope.

Lemma split_at {A} (l : list A) i d : (i < length l)%nat -> exists xs ys, l = xs ++ nth i l d :: ys /\ length xs = i.
Proof. intros I. destruct (nth_split l d I) as (xs & ys & E & L). eauto. Qed.
Lemma edit_split {A} (xs ys : list A) x y : edit (xs ++ x :: ys) (length xs) y = xs ++ y :: ys.
Proof.
  unfold edit. rewrite firstn_app, Nat.sub_diag, firstn_all. cbn [firstn]. rewrite app_nil_r. f_equal. f_equal.
  rewrite skipn_app. rewrite skipn_all2 by lia. replace (S (length xs) - length xs)%nat with 1%nat by lia. reflexivity.
Qed.
Lemma nth_mid {A} (xs ys : list A) x d : nth (length xs) (xs ++ x :: ys) d = x.
Proof. rewrite app_nth2, Nat.sub_diag by lia. reflexivity. Qed.

Lemma split2 {A B} (P : A -> B -> Prop) fs ls i d e : Forall2 P fs ls -> (i < length ls)%nat ->
  exists fx fy xs ys, fs = fx ++ nth i fs d :: fy /\ ls = xs ++ nth i ls e :: ys /\ length fx = i /\ length xs = i /\
    Forall2 P fx xs /\ Forall2 P fy ys /\ P (nth i fs d) (nth i ls e).
Proof.
  intros F. revert i. induction F as [|f l fs ls H F IH]; intros i I; [cbn in I; lia|]. destruct i as [|i].
  - exists [], fs, [], ls. cbn. repeat split; auto.
  - destruct (IH i ltac:(cbn in I; lia)) as (fx & fy & xs & ys & E1 & E2 & L1 & L2 & F1 & F2 & H').
    exists (f :: fx), fy, (l :: xs), ys. cbn [nth app length]. rewrite <- E1, <- E2, L1, L2. repeat split; auto.
Qed.

Definition zero_on (m : list Z) (E : Z -> Z) (c : Z) : Z := if in_dec Z.eq_dec c m then 0 else E c.
Lemma count_drop g m : forall E F, 2 < n_fatent g -> NoDup m -> Forall (fun c => 2 <= c < n_fatent g) m -> (forall c, In c m -> E c <> 0 /\ F c = 0) ->
  (forall c, 2 <= c < n_fatent g -> ~ In c m -> (F c =? 0) = (E c =? 0)) -> count_free g F = count_free g E + Z.of_nat (length m).
Proof.
  induction m as [|x m IH]; intros E F N ND R H K.
  - cbn [length]. replace (count_free g F) with (count_free g E); [lia|]. unfold count_free. f_equal. f_equal. apply filter_same. intros c Hc. apply in_clusters in Hc; auto.
    unfold free_in. symmetry. apply K; auto.
  - inversion ND; subst. inversion R; subst. set (E' := fun c => if c =? x then 0 else E c).
    rewrite (IH E' F); auto.
    + assert (CT : count_free g E' = count_free g E + 1).
      { apply (count_take g E' E x); auto; [unfold E'; now rewrite Z.eqb_refl|apply H; now left|]. intros c Hc NE. unfold E'. replace (c =? x) with false by lia. auto. }
      rewrite CT. cbn [length]. lia.
    + intros c I. unfold E'. replace (c =? x) with false by (symmetry; apply Z.eqb_neq; intros ->; auto). apply H. now right.
    + intros c Hc NI. unfold E'. destruct (Z.eqb_spec c x) as [->|NE].
      * destruct (H x (or_introl eq_refl)) as [_ ->]. reflexivity.
      * apply K; auto. intros [Q|Q]; auto.
Qed.

Section S.
Variables (g : geo) (bb : Z).
Hypothesis G : xgeo_ok g bb.
Hypothesis SMALL : n_fatent g < EOC.

(* A file whose clusters and entries are not touched. *)
Lemma other_file v v' f l : xfile_ok g bb v f l -> (forall c, In c l -> used g bb v' c = used g bb v c) -> (forall c, In c l -> xent g v' c = xent g v c) ->
  xfile_ok g bb v' f l.
Proof using.
  intros [A1 A2 A3 A4 A5 A6 A7] U E. constructor; auto.
  - rewrite Forall_forall in *. intros c I. rewrite U by auto. auto.
  - intros N. eapply desc_step; [|apply A5; auto]. auto.
Qed.
Lemma other_files v v' fs ls : Forall2 (xfile_ok g bb v) fs ls -> (forall c, In c (concat ls) -> 2 <= c < n_fatent g -> used g bb v' c = used g bb v c) ->
  (forall c, In c (concat ls) -> 2 <= c < n_fatent g -> xent g v' c = xent g v c) -> Forall2 (xfile_ok g bb v') fs ls.
Proof using.
  induction 1 as [|f l fs ls H F IH]; intros U E; constructor.
  - assert (R : forall c, In c l -> 2 <= c < n_fatent g) by (intros c I; pose proof (xf_used _ _ _ _ _ H) as Q; rewrite Forall_forall in Q; apply Q; auto).
    eapply other_file; eauto; intros c I; [apply U|apply E]; auto; cbn; apply in_or_app; auto.
  - apply IH; intros; [apply U|apply E]; auto; cbn; apply in_or_app; auto.
Qed.

Lemma file_range v f l : xfile_ok g bb v f l -> forall c, In c l -> 2 <= c < n_fatent g.
Proof using. intros H c I. pose proof (xf_used _ _ _ _ _ H) as Q. rewrite Forall_forall in Q. apply Q; auto. Qed.
Lemma all_range v fs ls R : Forall2 (xfile_ok g bb v) fs ls -> Forall (fun c => 2 <= c < n_fatent g) R -> forall c, In c (concat ls ++ R) -> 2 <= c < n_fatent g.
Proof using.
  intros F HR c I. apply in_app_or in I as [I|I]; [|rewrite Forall_forall in HR; auto].
  induction F as [|f l fs ls H F IH]; cbn in I; [tauto|]. apply in_app_or in I as [I|I]; auto. eapply file_range; eauto.
Qed.

(* The clusters of file i against the rest. *)
Lemma mid (xs ys : list (list Z)) l R c : In c (concat (xs ++ l :: ys) ++ R) <-> In c l \/ In c (concat xs ++ concat ys ++ R).
Proof using. rewrite concat_app. cbn [concat]. rewrite !in_app_iff. tauto. Qed.
Lemma mid_perm (xs ys : list (list Z)) l R : NoDup (concat (xs ++ l :: ys) ++ R) <-> NoDup (l ++ (concat xs ++ concat ys ++ R)).
Proof using.
  rewrite concat_app. cbn [concat]. rewrite <- !app_assoc. split; intros H; (eapply Permutation.Permutation_NoDup; [|exact H]);
  [|symmetry]; rewrite !app_assoc; repeat apply Permutation.Permutation_app_tail; apply Permutation.Permutation_app_comm.
Qed.
Lemma nodup_app (l m : list Z) : NoDup l -> NoDup m -> (forall c, In c l -> ~ In c m) -> NoDup (l ++ m).
Proof using.
  induction l as [|x l IH]; intros A B H; auto. inversion A; subst. cbn. constructor; [|apply IH; auto; intros; apply H; now right].
  rewrite in_app_iff. intros [I|I]; auto. apply (H x); auto. now left.
Qed.

(* The whole disk, from what happened to one file. *)
Lemma rebuild v fs ls R i v' f' l' : xdisk g bb v fs ls R -> (i < length ls)%nat -> let l := nth i ls [] in
  xvol_ok g v' -> xfile_ok g bb v' f' l' ->
  (forall c, 2 <= c < n_fatent g -> ~ In c l -> ~ In c l' -> used g bb v' c = used g bb v c) ->
  (forall c, In c l -> ~ In c l' -> used g bb v' c = false) ->
  (forall c, In c l' -> ~ In c l -> used g bb v c = false) ->
  (forall c, 0 <= c < n_fatent g -> ~ In c l -> xent g v' c = xent g v c) ->
  same_other g bb v v' -> (free_clst v' = xfree g bb v' \/ free_clst v' = ERR) -> 0 <= last_clst v' < 4294967296 ->
  xdisk g bb v' (edit fs i f') (edit ls i l') R /\ apart g bb R v v'.
Proof using.
  intros D I l V' X' U1 U2 U3 EN SO FR LA. destruct D as [D1 D2 D3 D4 D5 D6 D7].
  destruct (split2 _ fs ls i blank_file [] D2 I) as (fx & fy & xs & ys & E1 & E2 & L1 & L2 & F1 & F2 & H). fold l in E2, H.
  set (rest := concat xs ++ concat ys ++ R).
  rewrite E2 in D3, D5. apply mid_perm in D3. fold rest in D3.
  assert (RL : forall c, In c rest -> ~ In c l) by (intros c I1 I2; apply (nodup_apart l rest c D3); auto).
  assert (USED : forall c, In c rest -> 2 <= c < n_fatent g -> used g bb v c = true) by (intros c I1 RC; apply D5; auto; apply mid; auto).
  assert (RL' : forall c, In c rest -> 2 <= c < n_fatent g -> ~ In c l').
  { intros c I1 RC I2. pose proof (U3 c I2 (RL c I1)). rewrite USED in H0 by auto. discriminate. }
  assert (INR : forall c, In c (concat xs) \/ In c (concat ys) -> In c rest) by (intros c; unfold rest; rewrite !in_app_iff; tauto).
  assert (FX : forall fz zs, Forall2 (xfile_ok g bb v) fz zs -> (forall c, In c (concat zs) -> In c rest) -> Forall2 (xfile_ok g bb v') fz zs).
  { intros fz zs FZ IZ. eapply other_files; eauto; intros c I1 RC; specialize (IZ c I1).
    - apply U1; auto.
    - apply EN; auto. lia. }
  assert (ES : edit fs i f' = fx ++ f' :: fy) by (rewrite E1, <- L1; apply edit_split).
  assert (EL : edit ls i l' = xs ++ l' :: ys) by (rewrite E2, <- L2; apply edit_split).
  rewrite Forall_forall in D4. split.
  - rewrite ES, EL. constructor; auto.
    + apply Forall2_app; [apply FX; auto|constructor; [auto|apply FX; auto]].
    + apply mid_perm. fold rest. apply nodup_app; [exact (xf_nodup _ _ _ _ _ X')|now apply nodup_app_r in D3|]. intros c I1 I2. exact (RL' c I2 (file_range _ _ _ X' c I1) I1).
    + now apply Forall_forall.
    + intros c RC. rewrite mid. fold rest. split.
      * intros U. destruct (in_dec Z.eq_dec c l') as [|N1]; auto. destruct (in_dec Z.eq_dec c l) as [N2|N2]; [rewrite (U2 c N2 N1) in U; discriminate|].
        rewrite (U1 c RC N2 N1) in U. apply D5 in U; auto. apply mid in U. tauto.
      * intros [I1|I1].
        -- pose proof (xf_used _ _ _ _ _ X') as Q. rewrite Forall_forall in Q. apply Q; auto.
        -- rewrite (U1 c RC (RL c I1) (RL' c I1 RC)). auto.
  - split; auto. intros c IR. assert (In c rest) by (unfold rest; rewrite !in_app_iff; auto). specialize (D4 c IR). apply EN; auto. lia.
Qed.

Lemma busy_used v c : (busy g bb v c =? 0) = negb (used g bb v c).
Proof using. unfold busy. destruct (used g bb v c); auto. Qed.

Lemma free_same v v' : (forall c, 2 <= c < n_fatent g -> used g bb v' c = used g bb v c) -> xfree g bb v' = xfree g bb v.
Proof using G. intros H. pose proof (x_ent _ _ G). unfold xfree. apply count_same; [lia|]. intros c C. unfold busy. now rewrite H. Qed.

(* An operation which keeps the clusters *)
Lemma step_kept v fs ls R i v' f' : xdisk g bb v fs ls R -> (i < length ls)%nat -> kept g bb v v' (nth i ls []) -> xfile_ok g bb v' f' (nth i ls []) ->
  xdisk g bb v' (edit fs i f') ls R /\ apart g bb R v v'.
Proof using G.
  intros D I K X. assert (U : forall c, 2 <= c < n_fatent g -> used g bb v' c = used g bb v c) by (intros; eapply used_kept; eauto).
  destruct (k_info _ _ _ _ _ K) as (J1 & J2 & _).
  assert (EE : edit ls i (nth i ls []) = ls). { destruct (split_at ls i [] I) as (xs & ys & E & L). set (l := nth i ls []) in *. rewrite E, <- L. apply edit_split. }
  rewrite <- EE at 1. apply (rebuild v fs ls R i v' f' (nth i ls [])); auto.
  - apply K.
  - intros c I1 N. tauto.
  - intros c I1 N. tauto.
  - apply K.
  - apply K.
  - rewrite (free_same v v' U), J1. apply D.
  - rewrite J2. apply D.
Qed.

Lemma step_ok fuel v fs ls R op : xdisk g bb v fs ls R -> legal fs ls op -> 2 * clusts g <= Z.of_nat fuel ->
  exists v' fs' r, do_xop fuel g bb v fs op = Ok (v', fs', r) /\ result_ok g R ls op r /\ xdisk g bb v' fs' (next ls op r) R /\ apart g bb R v v'.
Proof using G SMALL.
  intros D LE FU. pose proof (clusts_pos g bb G) as CP. pose proof (x_ent _ _ G) as XE.
  assert (AT : forall i, (i < length ls)%nat -> xfile_ok g bb v (nth i fs blank_file) (nth i ls [])).
  { intros i I. destruct (split2 _ fs ls i blank_file [] (xd_files _ _ _ _ _ _ D) I) as (fx & fy & xs & ys & _ & _ & _ & _ & _ & _ & H). exact H. }
  pose proof (xd_vol _ _ _ _ _ _ D) as V. pose proof (xd_free _ _ _ _ _ _ D) as FR.
  assert (CL : forall v, 0 <= xfree g bb v <= clusts g) by (intros w; unfold xfree, clusts; apply count_le; lia).
  assert (FC : 0 <= free_clst v < 4294967296) by (specialize (CL v); unfold EOC, ERR in *; lia).
  assert (ALLR : forall c, In c (concat ls ++ R) -> 2 <= c < n_fatent g) by (intros c; eapply all_range; apply D).
  (* removal *)
  assert (DROP : forall i v1 v2 f' l' m, (i < length ls)%nat -> nth i ls [] = l' ++ m -> kept g bb v v1 (nth i ls []) -> xfile_ok g bb v2 f' l' -> dropped g bb v1 v2 (nth i ls []) m ->
     xdisk g bb v2 (edit fs i f') (edit ls i l') R /\ apart g bb R v v2).
  { intros i v1 v2 f' l' m I EL K X' DD. set (l := nth i ls []) in *.
    assert (U1 : forall c, 2 <= c < n_fatent g -> used g bb v1 c = used g bb v c) by (intros; eapply used_kept; eauto).
    pose proof (xf_nodup _ _ _ _ _ (AT i I)) as ND. fold l in ND. rewrite EL in ND.
    assert (RM : forall c, In c m -> 2 <= c < n_fatent g) by (intros c IM; eapply file_range; [exact (AT i I)|]; fold l; rewrite EL; apply in_or_app; auto).
    assert (FRE : xfree g bb v2 = xfree g bb v + Z.of_nat (length m)).
    { unfold xfree. apply count_drop; [lia|now apply nodup_app_r in ND|apply Forall_forall; auto| |].
      - intros c IM. split; [|unfold busy; now rewrite (d_gone _ _ _ _ _ _ DD c IM)].
        pose proof (xf_used _ _ _ _ _ (AT i I)) as Q. rewrite Forall_forall in Q. fold l in Q. unfold busy.
        destruct (Q c) as [_ ->]; [rewrite EL; apply in_or_app; auto|lia].
      - intros c RC NM. rewrite !busy_used. f_equal. rewrite (d_bits _ _ _ _ _ _ DD); auto. now apply (inb g bb G). }
    destruct (k_info _ _ _ _ _ K) as (J1 & J2 & _).
    apply (rebuild v fs ls R i v2 f' l'); auto.
    - apply DD.
    - intros c RC N1 N2. rewrite (d_bits _ _ _ _ _ _ DD); auto; [now apply (inb g bb G)|]. intros IM. apply N1. fold l. rewrite EL. apply in_or_app; auto.
    - intros c I1 N1. fold l in I1. rewrite EL in I1. apply in_app_or in I1 as [I1|I1]; [tauto|]. apply DD; auto.
    - intros c I1 N1. exfalso. apply N1. fold l. rewrite EL. apply in_or_app; auto.
    - intros c RC N1. rewrite (d_ents _ _ _ _ _ _ DD) by auto. apply K; auto.
    - intros t o T O. rewrite (d_other _ _ _ _ _ _ DD) by auto. apply K; auto.
    - destruct FR as [FR|FR].
      + left. rewrite (d_free _ _ _ _ _ _ DD); rewrite J1, FR; [lia|]. rewrite <- FRE. apply CL.
      + right. rewrite (d_unknown _ _ _ _ _ _ DD); rewrite J1, FR; auto. unfold ERR, EOC in *. lia.
    - rewrite (d_last _ _ _ _ _ _ DD), J2. apply D. }
  destruct op as [i|i k|i|i|i|i k]; cbn [legal do_xop result_ok next] in *.
  - destruct LE as [I POS]. pose proof (AT i I) as X. set (l := nth i ls []) in *. set (f := nth i fs blank_file) in *.
    destruct (grow_ok g bb G v f l fuel V X POS ltac:(lia) (xd_last _ _ _ _ _ _ D) FC) as (v' & f' & c & E & CASES).
    { intros F0 c RC. destruct FR as [FR|FR]; [|unfold ERR in FR; lia]. rewrite F0 in FR. symmetry in FR.
      pose proof (count_zero g (busy g bb v) ltac:(lia) FR c RC) as B. unfold busy in B. destruct (used g bb v c); [reflexivity|congruence]. }
    rewrite E. cbn [bind]. eexists _, _, c. split; [reflexivity|]. destruct CASES as [(-> & -> & (A1 & A2 & A3 & A4 & A5) & ALL)|(RC & UC & X' & CC & T & LA & FF)].
    + change (0 =? 0) with true. cbv iota. split; [left; split; auto; intros c RC; apply D; auto|].
      apply step_kept; auto; fold l.
      * constructor; auto.
      * apply (other_file v); auto; intros c IC; pose proof (file_range _ _ _ X c IC) as RC; [|apply A3; lia].
        unfold used. apply A2. pose proof (inb g bb G c RC). lia.
    + replace (c =? 0) with false by lia. split; [right; split; auto; intros IC; apply (xd_used _ _ _ _ _ _ D) in IC; auto; congruence|].
      assert (UU : forall d, 2 <= d < n_fatent g -> used g bb v' d = if d =? c then true else used g bb v d) by (intros d Hd; apply T; now apply (inb g bb G)).
      assert (FRE : xfree g bb v = xfree g bb v' + 1).
      { unfold xfree. apply (count_take g _ _ c); auto; [lia|unfold busy; now rewrite UC|unfold busy; rewrite UU, Z.eqb_refl by auto; lia|].
        intros d Hd NE. rewrite !busy_used, UU by auto. replace (d =? c) with false by lia. auto. }
      apply (rebuild v fs ls R i v' f' (l ++ [c])); auto.
      * apply T.
      * intros d Hd N1 N2. rewrite UU by auto. destruct (Z.eqb_spec d c) as [->|]; auto. exfalso. apply N2. apply in_or_app. right. now left.
      * intros d I1 N1. exfalso. apply N1. apply in_or_app. auto.
      * intros d I1 N1. apply in_app_or in I1 as [I1|[<-|[]]]; [tauto|auto].
      * apply T.
      * apply T.
      * rewrite FF. destruct FR as [FR|FR].
        -- left. specialize (CL v'). assert (Q : free_clst v <= clusts g) by (rewrite FR; apply CL || (pose proof (count_le g (busy g bb v) ltac:(lia)); unfold xfree, clusts; lia)).
           replace (free_clst v <=? clusts g) with true by lia. rewrite w32_id by lia. lia.
        -- right. replace (free_clst v <=? clusts g) with false by (unfold ERR, EOC in *; lia). auto.
      * rewrite LA. unfold EOC in *. lia.
  - destruct LE as [I KL]. destruct (seek_ok g bb G v _ _ k fuel V (AT i I) KL) as (v' & f' & E & X' & _ & _ & K). rewrite E. cbn [bind].
    eexists _, _, _. split; [reflexivity|]. split; auto. now apply step_kept.
  - destruct (sync_ok g bb G v _ _ V (AT i LE)) as (v' & f' & E & K & X' & _ & _). rewrite E. cbn [bind code].
    eexists _, _, _. split; [reflexivity|]. split; auto. now apply step_kept.
  - destruct (sync_ok g bb G v _ _ V (AT i LE)) as (v' & f' & E & K & _ & _ & X'). rewrite E. cbn [bind code].
    eexists _, _, _. split; [reflexivity|]. split; auto. now apply step_kept.
  - destruct LE as [I N]. destruct (seek_ok g bb G v _ _ 0 fuel V (AT i I) (len_pos _ N)) as (v1 & f1 & E & X1 & _ & F1 & K). rewrite E. cbn [bind].
    destruct (k_info _ _ _ _ _ K) as (J1 & _).
    destruct (empty_ok g bb G SMALL v1 f1 _ fuel (k_ok _ _ _ _ _ K) X1 N F1 ltac:(rewrite J1; exact FC) FU) as (v2 & f2 & E2 & X2 & DD). rewrite E2. cbn [bind code].
    eexists _, _, _. split; [reflexivity|]. split; auto. eapply (DROP i v1 v2 f2 [] (nth i ls [])); auto.
  - destruct LE as [I KL]. destruct (seek_ok g bb G v _ _ k fuel V (AT i I) ltac:(lia)) as (v1 & f1 & E & X1 & C1 & F1 & K). rewrite E. cbn [bind].
    destruct (k_info _ _ _ _ _ K) as (J1 & _). set (l := nth i ls []) in *. set (p := firstn (S k) l). set (q := skipn (S k) l).
    assert (PQ : l = p ++ q) by (symmetry; apply firstn_skipn). assert (LP : length p = S k) by (unfold p; apply firstn_length_le; lia).
    assert (LQ : (0 < length q)%nat) by (unfold q; rewrite skipn_length; lia).
    destruct (cut_ok g bb G SMALL v1 f1 p q fuel (k_ok _ _ _ _ _ K)) as (v2 & f2 & E2 & X2 & _ & _ & DD); auto.
    { rewrite <- PQ. exact X1. } { apply not_nil. lia. } { now apply not_nil. }
    { rewrite C1, last_nth, LP. replace (S k - 1)%nat with k by lia. rewrite PQ. apply app_nth1. lia. }
    { rewrite J1. exact FC. }
    rewrite LP in E2. replace (S k - 1)%nat with k in E2 by lia. rewrite E2. cbn [bind code].
    eexists _, _, _. split; [reflexivity|]. split; auto. rewrite <- PQ in DD. eapply (DROP i v1 v2 f2 p q); auto.
Qed.

Lemma run_ok fuel R : 2 * clusts g <= Z.of_nat fuel -> forall ops v fs ls, xdisk g bb v fs ls R -> all_legal fuel g bb v fs ls ops ->
  exists v' fs' ls', xrun fuel g bb v fs ls ops = Ok (v', fs', ls') /\ xdisk g bb v' fs' ls' R /\ apart g bb R v v'.
Proof using G SMALL.
  intros FU. induction ops as [|op ops IH]; intros v fs ls D LE.
  - exists v, fs, ls. split; auto. split; auto. split; auto. intros t o _ _. auto.
  - destruct LE as [L1 L2]. destruct (step_ok fuel v fs ls R op D L1 FU) as (v1 & fs1 & r & E & _ & D1 & A1 & A2). cbn [xrun]. rewrite E. cbn [bind].
    destruct (IH v1 fs1 _ D1 (L2 _ _ _ E)) as (v2 & fs2 & ls2 & E2 & D2 & B1 & B2). exists v2, fs2, ls2. split; auto. split; auto. split.
    + intros t o T O. rewrite B1 by auto. auto.
    + intros c I. rewrite B2 by auto. auto.
Qed.

End S.
