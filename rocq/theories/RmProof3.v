From Verif Require Import Base CrcSpec FutfModel FutfSpec FutfProof LfnModel LfnSpec LfnProof FdirModel FdirSpec FdirProof FdirProof2 FdirProof3 FnameModel FnameSpec FnameProof FnameProof2 FnameProof3 FnameProof4 FnameProof5 FnameProof6 FpathModel FpathSpec FpathProof FpathProof2 FpathProof3 FpathProof4 FpathProof5 FpathProof6 FpathProof7 FpathProof8 FpathProof9 FpathProof14 FpathProof15 FpathProof16 FpathProof17 LockModel RmModel RmSpec RmProof RmProof2.
Open Scope Z_scope.

(* --- locks --------------------------------------------------------------------------------- *)
Lemma same_locks_refl s : same_locks s s.
Proof. induction s; constructor; auto. Qed.
Lemma same_locks_trans a b c : same_locks a b -> same_locks b c -> same_locks a c.
Proof.
  intros H. revert c. induction H as [|x y a b P H IH]; intros c G; inversion G as [|? z ? c' Q G']; subst; constructor; [|now apply IH].
  destruct P as [->|[P1 P2]]; [auto|]. destruct Q as [->|[Q1 Q2]]; auto.
Qed.
Lemma same_locks_places a b : same_locks a b -> places b = places a /\ length b = length a.
Proof.
  unfold places. induction 1 as [|x y a b P H [IH1 IH2]]; [auto|]. cbn [filter length]. split; [|lia]. destruct P as [->|[P1 P2]]; [|rewrite P1, P2]; [destruct (LockModel.blank x)|]; cbn; lia.
Qed.
Lemma same_locks_unopened a b A f : same_locks a b -> unopened a A f -> unopened b A f.
Proof.
  intros H. induction H as [|x y a b P H IH]; intros U; inversion U; subst; constructor; [|now apply IH]. destruct P as [->|[P1 P2]]; [auto|]. unfold LockModel.blank in P2. lia.
Qed.
Lemma unopened_part s A f A' : partly A f A' -> unopened s A f -> unopened s A' f.
Proof. intros P. apply Forall_impl. intros x H F O B. apply (H F O). eapply below_part; eauto. Qed.
Lemma index_none p s : Forall (fun x => p x = false) s -> LockModel.index p s = length s.
Proof. induction 1 as [|x s H F IH]; cbn; [auto|]. now rewrite H, IH. Qed.
Lemma index_blank s : (LockModel.index LockModel.blank s <? length s)%nat = negb (places s =? 0)%nat.
Proof.
  unfold places. induction s as [|x s IH]; [auto|]. cbn [LockModel.index length filter]. destruct (LockModel.blank x) eqn:B; [auto|]. cbn [length]. rewrite <- IH. apply eq_true_iff_eq. rewrite !Nat.ltb_lt. lia.
Qed.
(* Opening takes a place. *)
Lemma opened_lock s A f : isdir f = true -> unopened s A f -> (length s < 1000)%nat ->
  (places s = 0%nat /\ inc_share s (mkKey 1 (clu A f) 0) 0 = (s, 0)) \/
  (exists a x b, s = a ++ x :: b /\ LockModel.blank x = true /\ places s = Datatypes.S (places (a ++ mkSem 1 (clu A f) 0 1 :: b)) /\
     inc_share s (mkKey 1 (clu A f) 0) 0 = (a ++ mkSem 1 (clu A f) 0 1 :: b, Z.of_nat (length a) + 1)).
Proof.
  intros Di U Le. unfold inc_share. rewrite index_none.
  2: { revert U. apply Forall_impl. intros x H. unfold same. cbn [k_fs k_clu k_ofs]. destruct (Z.eqb_spec (s_fs x) 1) as [E1|]; [|auto]. destruct (Z.eqb_spec (s_ofs x) 0) as [E2|]; [|now rewrite andb_false_r]. destruct (Z.eqb_spec (s_clu x) (clu A f)) as [E3|]; [|auto]. exfalso. apply (H E1 E2). split; [auto|]. rewrite E3. apply under_self. }
  rewrite Nat.eqb_refl. pose proof (index_blank s) as Ib. destruct (places s =? 0)%nat eqn:P.
  - left. split; [now apply Nat.eqb_eq|]. cbn in Ib. apply Nat.ltb_ge in Ib. assert (Hi : forall q l, (LockModel.index q l <= length l)%nat) by (clear; induction l as [|x l IH]; cbn; [lia|destruct (q x); lia]). specialize (Hi LockModel.blank s). replace (LockModel.index LockModel.blank s =? length s)%nat with true by (symmetry; apply Nat.eqb_eq; lia). reflexivity.
  - right. cbn in Ib. apply Nat.ltb_lt in Ib. replace (LockModel.index LockModel.blank s =? length s)%nat with false by (symmetry; apply Nat.eqb_neq; lia).
    unfold inc_entry. cbn [Z.leb Z.compare andb s_ctr s_fs s_clu s_ofs]. change (1 <=? 0) with false. cbn [andb]. change (negb (0 =? 0)) with false. cbv iota. change ((0 + 1) mod 4294967296) with 1. clear - Ib.
    assert (H : exists a x b, s = a ++ x :: b /\ LockModel.blank x = true /\ LockModel.index LockModel.blank s = length a /\ forall y, LockModel.blank y = false -> places s = Datatypes.S (places (a ++ y :: b)) /\ set_nth s (length a) y = a ++ y :: b).
    { induction s as [|x s IH]; [cbn in Ib; lia|]. cbn [LockModel.index length] in Ib. destruct (LockModel.blank x) eqn:B.
      - exists [], x, s. cbn [LockModel.index]. rewrite B. split; [auto|]. split; [auto|]. split; [auto|]. intros y Y. unfold places. cbn [app filter]. rewrite B, Y. auto.
      - destruct IH as (a & z & b & -> & Bz & Ei & H); [lia|]. exists (x :: a), z, b. split; [auto|]. split; [auto|]. cbn [LockModel.index app]. rewrite B, Ei. split; [auto|]. intros y Y. destruct (H y Y) as [H1 H2]. unfold places in *. cbn [app filter length set_nth]. rewrite B. split; [auto|]. cbn in H2. now rewrite H2. }
    destruct H as (a & x & b & -> & Bx & Ei & H). destruct (H (mkSem 1 (clu A f) 0 1) eq_refl) as [H1 H2]. exists a, x, b. split; [auto|]. split; [auto|]. split; [auto|]. rewrite Ei.
    cbn [k_fs k_clu k_ofs]. rewrite H2. auto.
Qed.
Lemma closed_lock k a x b s' : LockModel.blank x = true -> same_locks (a ++ mkSem 1 k 0 1 :: b) s' -> (length (a ++ mkSem 1 k 0 1 :: b) < 1000)%nat ->
  same_locks (a ++ x :: b) (fst (dec_share s' (Z.of_nat (length a) + 1))).
Proof.
  intros Bx H Le. apply Forall2_app_inv_l in H as (a' & s2 & Ha & Hb & ->). inversion Hb as [|? y ? b' P Hb']; subst. destruct P as [->|[P _]]; [|discriminate].
  pose proof (proj2 (same_locks_places _ _ Ha)) as La. pose proof (proj2 (same_locks_places _ _ Hb')) as Lb. rewrite app_length in Le. cbn [length] in Le. unfold dec_share. replace (Z.of_nat (length a) + 1 - 1) with (Z.of_nat (length a)) by lia. rewrite Z.mod_small by lia.
  rewrite app_length. cbn [length]. replace (Z.of_nat (length a) <? Z.of_nat (length a' + Datatypes.S (length b'))) with true by lia. rewrite Nat2Z.id, <- La. rewrite nth_error_app2, Nat.sub_diag by lia. cbn [nth_error s_ctr s_fs s_clu s_ofs]. change (1 =? 256) with false. cbv iota. change (0 <? 1) with true. cbv iota. change (1 - 1 =? 0) with true. cbv iota. change (1 - 1) with 0. cbn [fst].
  assert (E : forall y, set_nth (a' ++ mkSem 1 k 0 1 :: b') (length a') y = a' ++ y :: b') by (intros y; clear; induction a' as [|z a' IH]; cbn; [auto|now rewrite IH]). rewrite E. apply Forall2_app; [auto|]. constructor; [right; auto|auto].
Qed.
Lemma opened_unopened A f g k a b x : isdir f = true -> k = clu A f -> In k (nodes A) -> shape A -> In g (ents A k) -> unopened (a ++ x :: b) A f -> unopened (a ++ mkSem 1 k 0 1 :: b) A g.
Proof.
  intros Di Ek I S J U. assert (M : forall l, Forall (fun x => s_fs x = 1 -> s_ofs x = 0 -> ~ below A f (s_clu x)) l -> Forall (fun x => s_fs x = 1 -> s_ofs x = 0 -> ~ below A g (s_clu x)) l).
  { intros l. apply Forall_impl. intros y H F O B. apply (H F O). eapply below_child; eauto. }
  apply Forall_app in U as [U1 U2]. inversion U2; subst. apply Forall_app. split; [now apply M|]. constructor; [|now apply M]. cbn. intros _ _ (Dg & U). revert U. now apply not_inside.
Qed.

(* --- f_readdir ----------------------------------------------------------------------------- *)
Definition pos_ok (v : volume) (k : Z) (d : dirobj) : Prop :=
  d_clu d = k /\ match d_pos d with Some p => 0 <= p < cap (dirs v k) /\ clean (dirs v k) p | None => clean (dirs v k) (cap (dirs v k)) end.
Section Remove.
Variable bufs : nat -> Z -> Z.
Hypothesis Bu : forall n, units (bufs n).
Lemma readdir_ok w A total k d : holds_tree (vol w) A total -> In k (nodes A) -> pos_ok (vol w) k d -> Forall (fun g => exists cs, good_name cs /\ named cs g /\ zlen (utf8 cs) <= 255) (ents A k) ->
  (ents A k = [] /\ exists d', readdir bufs w d = Ok (with_vol w (vol w), Rc R_OK, d', [], 0) /\ d_lock d' = d_lock d) \/
  (exists g rest cs d', ents A k = g :: rest /\ good_name cs /\ called cs g /\ zlen (utf8 cs) <= 255 /\ readdir bufs w d = Ok (with_vol w (vol w), Rc R_OK, d', utf8 cs, Z.land (snd g 11) 63) /\ d_lock d' = d_lock d /\
     0 <= snd g 11 < 256 /\ forall v', gone (vol w) v' k -> pos_ok v' k d').
Proof.
  intros (L & V) I (Ek & Po) Nm. destruct (vo_tabs _ _ _ _ V k I) as [[D _] R]. pose proof (dk_cap _ _ D) as C. cbn [table cap] in C. unfold readdir. destruct (d_pos d) as [p|] eqn:Ep.
  - destruct Po as [P Cl]. rewrite Ek, dir_read_at by (cbn; lia). destruct (first_file (vol w) A L total k (bufs (calls w)) p (d_blk d) V I ltac:(lia) Cl (Bu _)) as [(i & b & buf' & -> & E0)|(l1 & wn & e & l2 & rest & i & b & buf' & El & F1 & Ef & Ei & Pi & E & Ls)].
    + left. split; [auto|]. cbn [bind]. eexists. split; [reflexivity|auto].
    + right. rewrite E. cbn [bind]. pose proof Nm as Nm'. rewrite Ef in Nm'. inversion Nm' as [|? ? (cs & G & N & Le) _]; subst. destruct (listed_name _ _ _ _ _ cs Ls G N Le) as (alt & ->). cbn [bind]. destruct Ls as [Et _]. cbn [table tab snd] in Et |- *. rewrite Et.
      destruct (file_entry _ _ _ _ V (d_clu d) l1 wn e l2 I El) as [_ (B & _)].
      assert (Rd0 : read_at (table (vol w) (d_clu d)) (bufs (calls w)) 0 255 255 NONE = Ok (D_OK, sizes l1 + parts wn, read_blk wn (sizes l1), buf') \/ exists buf2 b2, read_at (table (vol w) (d_clu d)) (bufs (calls w)) 0 255 255 NONE = Ok (D_OK, sizes l1 + parts wn, b2, buf2)).
      { right. destruct (first_file (vol w) A L total (d_clu d) (bufs (calls w)) 0 NONE V I ltac:(lia) ltac:(intros j J; lia) (Bu _)) as [(i' & b' & buf2 & _ & E0)|(m1 & wm & em & m2 & rest' & i' & b' & buf2 & Em & F1' & Ef' & -> & Pi' & E' & _)]; [rewrite E0 in Ef; discriminate|].
        rewrite Ef in Ef'. injection Ef' as <- <- <-. destruct (same_file _ _ _ _ _ _ _ (rd_names _ _ _ R) El Em) as [<- <-]. eauto. }
      assert (Rd : exists buf2 b2, dir_read (table (vol w) (d_clu d)) (bufs (calls w)) 0 NONE = Ok (D_OK, sizes l1 + parts wn, b2, buf2)) by (rewrite dir_read_at by (cbn; lia); destruct Rd0 as [Q|Q]; eauto). destruct Rd as (buf2 & b2 & Rd).
      set (i := sizes l1 + parts wn) in *. unfold dir_next, MAXENT in *. cbn [table cap].
      assert (Gn : forall v', gone (vol w) v' (d_clu d) -> clean (dirs v' (d_clu d)) (i + 1) /\ cap (dirs v' (d_clu d)) = cap (dirs (vol w) (d_clu d))) by (intros v' [Q1 Q2]; split; [eapply Q2; eauto|auto]).
      exists (wn, e), rest, cs. cbn [snd]. destruct (65536 <=? i + 1) eqn:E1; [|destruct (i + 1 <? cap (dirs (vol w) (d_clu d))) eqn:E2; [|cbn [negb]]].
      * eexists. do 7 (split; [first [exact Ef|reflexivity|assumption|apply named_called; assumption|apply B]|]). intros v' Gv. destruct (Gn v' Gv) as [Q1 Q2]. split; [auto|]. cbn [d_pos]. rewrite Q2. replace (cap (dirs (vol w) (d_clu d))) with (i + 1) by lia. auto.
      * eexists. do 7 (split; [first [exact Ef|reflexivity|assumption|apply named_called; assumption|apply B]|]). intros v' Gv. destruct (Gn v' Gv) as [Q1 Q2]. split; [auto|]. cbn [d_pos]. rewrite Q2. split; [lia|auto].
      * eexists. do 7 (split; [first [exact Ef|reflexivity|assumption|apply named_called; assumption|apply B]|]). intros v' Gv. destruct (Gn v' Gv) as [Q1 Q2]. split; [auto|]. cbn [d_pos]. rewrite Q2. replace (cap (dirs (vol w) (d_clu d))) with (i + 1) by lia. auto.
  - left. destruct (first_file (vol w) A L total k (bufs (calls w)) (cap (dirs (vol w) k)) NONE V I ltac:(lia) Po (Bu _)) as [(i & b & buf' & E & E0)|(l1 & wn & e & l2 & rest & i & b & buf' & El & F1 & Ef & Ei & Pi & E & Ls)]; [|lia]. split; [auto|]. eexists. split; [reflexivity|auto].
Qed.
End Remove.
