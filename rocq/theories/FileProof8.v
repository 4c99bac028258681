(* Several open files. *)
From Coq Require Import ZifyClasses ZifyInst ZifyBool.
From Verif Require Import Base FatModel FatSpec FileModel FileSpec FatProof FatProof2 FatProof3 FatProof4 FatProof5 FatProof6 FileProof FileProof2 FileProof3 FileProof4 FileProof5 FileProof6 FileProof7.
Open Scope Z_scope.
Ltac Zify.zify_post_hook ::= idtac.

Lemma call_ok g D cs i v f d x fuel : geo_ok g -> data_ok g -> ready g D cs i v -> file_ok g v (nth i cs []) f d -> sane x -> enough fuel x ->
  exists v' f' cs' a d', do_call fuel g v f x = Ok (v', f', a) /\ ready g D cs' i v' /\ (exists l', cs' = edit cs i l') /\
    (exists own, keeps g own v v' /\ forall c, In c own -> In c (nth i cs []) \/ In c (nth i cs' [])) /\
    mode f f' /\ file_ok g v' (nth i cs' []) f' d' /\ means_call (none_free g v') (fread f) (fwrite f) d x a d'.
Proof.
  intros G A R F Sn En. pose proof (rd_idx _ _ _ _ _ R) as I.
  assert (Gr : forall v' cs', grown g D i v cs v' cs' -> ready g D cs' i v' /\ (exists l', cs' = edit cs i l') /\ (exists own, keeps g own v v' /\ forall c, In c own -> In c (nth i cs []) \/ In c (nth i cs' []))).
  { intros v' cs' [W1 (m & W2 & _) W3 _]. split; [auto|]. split; [eauto|]. eauto. }
  destruct x as [n|w n|p|]; cbn [do_call sane enough] in *.
  - destruct (fread f) eqn:Fr.
    + destruct (f_read_ok g D cs i v f d buffer n n fuel G A R F Fr) as (v' & f' & rb & E & W & F' & M & _ & Fi); try lia. rewrite E. cbn [bind].
      eexists v', f', cs, _, _. split; [reflexivity|]. apply Gr in W. destruct W as (W1 & W2 & W3). split; [auto|]. split; [auto|]. split; [auto|].
      split; [split; apply M|]. split; [exact F'|]. destruct Fi as [Fi1 Fi2]. apply mc_read; auto.
    + unfold f_read. rewrite (fo_err _ _ _ _ _ F), Fr. cbn [bind]. eexists v, f, cs, _, d. split; [reflexivity|].
      destruct (Gr _ _ (grown_refl _ _ _ _ _ R)) as (W1 & W2 & W3). split; [auto|]. split; [auto|]. split; [auto|]. split; [now split|]. split; [auto|]. now apply mc_read_denied.
  - destruct Sn as [Sn1 Sn2]. destruct (fwrite f) eqn:Fw.
    + destruct (f_write_ok g D cs i v f d w n n fuel G A R F Fw) as (v' & f' & cs' & k & E & K1 & K2 & W & M & F'); auto; try lia. rewrite E. cbn [bind].
      eexists v', f', cs', _, _. split; [reflexivity|]. apply Gr in W. destruct W as (W1 & W2 & W3). split; [auto|]. split; [auto|]. split; [auto|].
      split; [auto|]. split; [exact F'|]. now apply mc_write.
    + unfold f_write. rewrite (fo_err _ _ _ _ _ F), Fw. cbn [bind]. eexists v, f, cs, _, d. split; [reflexivity|].
      destruct (Gr _ _ (grown_refl _ _ _ _ _ R)) as (W1 & W2 & W3). split; [auto|]. split; [auto|]. split; [auto|]. split; [now split|]. split; [auto|]. now apply mc_write_denied.
  - destruct (f_lseek_ok g D cs i v f d p fuel G A R F) as (v' & f' & cs' & q & E & W & M & F' & Q); try lia. rewrite E. cbn [bind].
    destruct (fwrite f) eqn:Fw.
    + eexists v', f', cs', _, _. split; [reflexivity|]. apply Gr in W. destruct W as (W1 & W2 & W3). split; [auto|]. split; [auto|]. split; [auto|].
      split; [auto|]. split; [exact F'|]. apply mc_seek; auto. destruct Q as [Q|(Q1 & _ & Q2)]; auto.
    + destruct Q as [->|(_ & Q & _)]; [|discriminate]. eexists v', f', cs', _, _. split; [reflexivity|]. apply Gr in W. destruct W as (W1 & W2 & W3).
      split; [auto|]. split; [auto|]. split; [auto|]. split; [auto|]. split; [exact F'|].
      assert (X : extended d (Z.min p (len d)) = at_pos d (Z.min p (len d))) by (unfold extended, at_pos; f_equal; lia). rewrite X. now apply mc_seek_ro.
  - destruct (fwrite f) eqn:Fw.
    + destruct (f_truncate_ok g D cs i v f d G A R F Fw) as (v' & f' & cs' & E & [W1 (k & W2) W3] & M & F'). rewrite E. cbn [bind].
      eexists v', f', cs', _, _. split; [reflexivity|]. split; [auto|]. split; [eauto|]. split; [eauto|]. split; [auto|]. split; [exact F'|]. now apply mc_cut.
    + unfold f_truncate. rewrite (fo_err _ _ _ _ _ F), Fw. cbn [bind]. eexists v, f, cs, _, d. split; [reflexivity|].
      destruct (Gr _ _ (grown_refl _ _ _ _ _ R)) as (W1 & W2 & W3). split; [auto|]. split; [auto|]. split; [auto|]. split; [now split|]. split; [auto|]. now apply mc_cut_denied.
Qed.

Lemma nth_error_same {A} (a : list A) : forall b, (forall i, nth_error a i = nth_error b i) -> a = b.
Proof.
  induction a as [|x a IH]; intros [|y b] H; auto; try (specialize (H 0%nat); discriminate).
  pose proof (H 0%nat) as [= ->]. f_equal. apply IH. intros i. exact (H (S i)).
Qed.

(* --- chains do not share clusters ------------------------------------------------ *)

Lemma nth_concat (cs : list (list Z)) i c : In c (nth i cs []) -> In c (concat cs).
Proof.
  intros H. destruct (Nat.lt_ge_cases i (length cs)) as [L|L]; [|rewrite nth_overflow in H by auto; destruct H].
  apply in_concat. exists (nth i cs []). split; [now apply nth_In|auto].
Qed.
Lemma chains_disj (cs : list (list Z)) : NoDup (concat cs) -> forall i j c, i <> j -> In c (nth i cs []) -> ~ In c (nth j cs []).
Proof.
  induction cs as [|l cs IH]; intros N i j c D H1 H2; [destruct i; destruct H1|]. cbn [concat] in N. pose proof (nodup_app_r _ _ N) as N2. pose proof (fun x => nodup_app_disj _ _ x N) as N3.
  destruct i as [|i], j as [|j]; cbn [nth] in *; try lia.
  - apply (N3 c H1). now apply nth_concat in H2.
  - apply (N3 c H2). now apply nth_concat in H1.
  - apply (IH N2 i j c); auto.
Qed.
Lemma skipn_disj (cs : list (list Z)) n i c : NoDup (concat cs) -> (i < n)%nat -> In c (concat (skipn n cs)) -> In c (concat cs) /\ ~ In c (nth i cs []).
Proof.
  intros N L H. apply in_concat in H. destruct H as (l & H1 & H2). destruct (In_nth _ _ [] H1) as (j & J1 & J2).
  assert (E : nth j (skipn n cs) [] = nth (n + j) cs []).
  { clear. revert cs. induction n; intros cs; [auto|]. destruct cs; [cbn; now destruct j|]. cbn. apply IHn. }
  rewrite E in J2. rewrite <- J2 in H2. split; [now apply nth_concat in H2|]. apply (chains_disj cs N (n + j) i); auto. lia.
Qed.

Lemma skipn_edit {A} (l : list A) n i x : (i < n)%nat -> (i < length l)%nat -> skipn n (edit l i x) = skipn n l.
Proof.
  revert n i. induction l as [|a l IH]; intros n i L H; [cbn in H; lia|]. destruct n; [lia|]. destruct i; [reflexivity|].
  change (edit (a :: l) (S i) x) with (a :: edit l i x). cbn [skipn]. apply IH; cbn in H; lia.
Qed.
Lemma edit_error {A} (l : list A) k j x : (k < length l)%nat -> nth_error (edit l k x) j = if (j =? k)%nat then Some x else nth_error l j.
Proof.
  revert k j. induction l as [|a l IH]; intros k j L; [cbn in L; lia|]. destruct k; [destruct j; reflexivity|].
  change (edit (a :: l) (S k) x) with (a :: edit l k x). destruct j; [reflexivity|]. cbn. apply IH. cbn in L. lia.
Qed.

Lemma calls_ok g fuel xs : forall v cs fs ds, geo_ok g -> data_ok g -> open_files g v cs fs ds ->
  Forall (fun kx => (fst kx < length fs)%nat /\ sane (snd kx) /\ enough fuel (snd kx)) xs ->
  exists v' cs' fs' ds' out, do_calls fuel g v fs xs = Ok (v', fs', out) /\ open_files g v' cs' fs' ds' /\ ideal g (modes fs) ds xs out ds' /\
    length cs' = length cs /\ length fs' = length fs /\ modes fs' = modes fs /\ skipn (length fs) cs' = skipn (length fs) cs /\
    (forall s o, outside g s -> ~ ours g (concat (skipn (length fs) cs)) s -> 0 <= o < ss g -> view v' s o = view v s o).
Proof.
  induction xs as [|[k x] xs IH]; intros v cs fs ds G A O Fa.
  - exists v, cs, fs, ds, []. cbn. split; [auto|]. split; [auto|]. split; [constructor|]. auto 6.
  - inversion Fa as [|? ? (K & Sn & En) Fa' E1]; subst. cbn [fst snd] in *. cbn [do_calls].
    destruct O as [O1 O2 O3 O4 O5]. set (n := length fs) in *.
    destruct (nth_error fs k) as [f|] eqn:Ef; [|apply nth_error_None in Ef; fold n in Ef; lia].
    destruct (nth_error ds k) as [d|] eqn:Ed; [|apply nth_error_None in Ed; lia].
    pose proof (O5 k f d Ef Ed) as F. set (D := concat (skipn n cs)) in *. pose proof (ow_nodup _ _ _ O2) as Nd.
    assert (Kc : (k < length cs)%nat) by lia.
    assert (R : ready g D cs k v) by (constructor; auto; intros c Hc; apply (skipn_disj cs n k c); auto).
    destruct (call_ok g D cs k v f d x fuel G A R F Sn En) as (v1 & f1 & cs1 & a & d1 & E & R1 & (l1 & C1) & (own & Ke & Ow) & M & F1 & Mc). rewrite E. cbn [bind].
    assert (L1 : length cs1 = length cs) by (rewrite C1; now apply edit_length).
    assert (S1 : skipn n cs1 = skipn n cs) by (rewrite C1; now apply skipn_edit).
    assert (Lf : length (edit fs k f1) = n) by (now apply edit_length).
    pose proof (ow_nodup _ _ _ (rd_own _ _ _ _ _ R1)) as Nd1.
    assert (Out : forall s o, outside g s -> ~ ours g D s -> 0 <= o < ss g -> view v1 s o = view v s o).
    { intros s o Hs Ho Hb. apply Ke; auto. intros c Hc Hi. apply Ho. destruct (Ow c Hc) as [X|X].
      - apply (cluster_ours g D cs k v c); auto; apply R.
      - apply (cluster_ours g D cs1 k v1 c); auto; apply R1. }
    assert (Md : modes (edit fs k f1) = modes fs).
    { apply nth_error_same. intros j. unfold modes. rewrite !nth_error_map, edit_error by auto. destruct (Nat.eqb_spec j k) as [->|]; [|auto].
      rewrite Ef. cbn. destruct M as [-> ->]. auto. }
    destruct (IH v1 cs1 (edit fs k f1) (edit ds k d1) G A) as (v' & cs' & fs' & ds' & out & E' & O' & Id & L' & Lf' & M' & S' & Out').
    + constructor.
      * rewrite Lf, edit_length; lia.
      * apply R1.
      * rewrite Lf. lia.
      * rewrite Lf, S1. apply R1.
      * intros j fj dj Hf Hd. rewrite edit_error in Hf by lia. rewrite edit_error in Hd by lia. destruct (Nat.eqb_spec j k) as [->|Nk]; [inversion Hf; inversion Hd; subst; auto|].
        pose proof (O5 j fj dj Hf Hd) as Fj. assert (Jn : (j < n)%nat) by (apply nth_error_Some; congruence).
        assert (Ej : nth j cs1 [] = nth j cs []) by (rewrite C1; now apply edit_other). rewrite Ej.
        destruct Fj as [H1 H2 H3 H4 H5 H6 H7 H8 H9]. constructor; auto. destruct H1 as [B1 B2 B3 B4 B5 B6]. constructor; auto.
        intros p b X Y. rewrite <- (B5 p b X Y). pose proof (B4 p b X) as Z.
        destruct (sector_in g (nth j cs []) p G A ltac:(clear - Z H5; lia)) as (c & Cc & Cs).
        assert (Jc : (j < length cs)%nat) by (clear - Jn O3; lia). pose proof (ss_pos g G) as Sp. pose proof (Z.mod_pos_bound p (ss g) ltac:(lia)) as Pm.
        assert (Os : ours g D (sector_of g (nth j cs []) p)).
        { apply (cluster_ours g D cs j v c); auto. intros y Hy. now apply (skipn_disj cs n j y). }
        rewrite <- (ours_view g D v1), <- (ours_view g D v) by (auto; apply R1). apply Ke; auto.
        -- destruct (own_chain g v cs j O2 Jc) as (Ch & _). apply (cluster_out g c); auto. now apply (chain_in _ _ _ _ Ch).
        -- intros y Hy Hi. pose proof (cluster_disj g _ _ _ A Hi Cs) as ->. destruct (Ow c Hy) as [W|W].
           ++ apply (chains_disj cs Nd k j c); auto.
           ++ apply (chains_disj cs1 Nd1 k j c); auto. now rewrite Ej.
    + rewrite Lf. auto.
    + rewrite Lf in *. rewrite E'. cbn [bind]. exists v', cs', fs', ds', ((a, v1) :: out). split; [auto|]. split; [auto|].
      split. { apply (id_cons g (modes fs) ds k x xs a v1 out d d1 (fread f, fwrite f)); auto; [|now rewrite Md in Id].
               unfold modes. now rewrite nth_error_map, Ef. }
      split; [congruence|]. split; [auto|]. split; [congruence|]. split; [congruence|]. rewrite S1 in Out'. fold D in Out'.
      intros s o Hs Ho Hb. rewrite Out', Out; auto.
Qed.

(* A file just opened. *)
Lemma opened_ok g v l n c r w : geo_ok g -> data_ok g -> vol_ok g v -> 0 <= n < 4294967296 -> n <= Z.of_nat (length l) * bcs g ->
  chain g (entry g v) l -> file_ok g v l (opened (hd 0 l) n c r w) (on_disk g v l n).
Proof.
  intros G A V N L Ch. constructor; cbn [opened on_disk data len pos fptr objsize sclust clust ferr fsect]; auto.
  - constructor; cbn [opened on_disk data len pos fbuf fsect fdirty].
    + intros o. unfold vbyte. lia.
    + lia.
    + discriminate.
    + intros p b. destruct ((0 <=? p) && (p <? n)) eqn:E; [lia|discriminate].
    + intros p b. destruct ((0 <=? p) && (p <? n)) eqn:E; [|discriminate]. intros [= <-] _. auto.
    + intros p b. destruct ((0 <=? p) && (p <? n)) eqn:E; [|discriminate]. intros _ X. exfalso.
      destruct (sector_in g l p G A ltac:(lia)) as (y & Cc & Cs). rewrite <- X in Cs. unfold in_cluster in Cs.
      destruct (chain_in _ _ _ _ Ch Cc) as [Cr _]. destruct (clst_sect g y G A Cr) as (_ & D1 & _). lia.
  - lia.
  - lia.
  - rewrite Z.mod_0_l by (pose proof (ss_pos g G); lia). now intros [].
Qed.
