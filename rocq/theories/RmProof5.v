From Verif Require Import Base CrcSpec FutfModel FutfSpec FutfProof LfnModel LfnSpec LfnProof FdirModel FdirSpec FdirProof FdirProof2 FdirProof3 FnameModel FnameSpec FnameProof FnameProof2 FnameProof3 FnameProof4 FnameProof5 FnameProof6 FpathModel FpathSpec FpathProof FpathProof2 FpathProof3 FpathProof4 FpathProof5 FpathProof6 FpathProof7 FpathProof8 FpathProof9 FpathProof14 FpathProof15 FpathProof16 FpathProof17 LockModel RmModel RmSpec RmProof RmProof2 RmProof3 RmProof4.
Open Scope Z_scope.

Lemma yes_ok k : (k =? 121) || (k =? 89) = true <-> yes k.
Proof. unfold yes. lia. Qed.
Lemma file_bytes v A total c f : holds_tree v A total -> In c (nodes A) -> In f (ents A c) -> bytes (snd f).
Proof.
  intros (L & V) I J. apply (ents_in _ _ _ _ V c) in J; [|auto]. destruct J as [J _]. assert (E : exists l1 l2, L c = l1 ++ File (fst f) (snd f) :: l2).
  { clear - J. induction (L c) as [|x l IH]; [easy|]. destruct x as [|e|w e]; cbn [files] in J; try (destruct (IH J) as (l1 & l2 & ->); eexists (_ :: l1), l2; reflexivity). destruct J as [<-|J]; [exists [], l; auto|]. destruct (IH J) as (l1 & l2 & ->). eexists (_ :: l1), l2. reflexivity. }
  destruct E as (l1 & l2 & E). destruct f as [w e]. destruct (file_entry _ _ _ _ V c l1 w e l2 I E) as [_ (B & _)]. exact B.
Qed.

Section Top.
Variable bufs : nat -> Z -> Z.
Hypothesis Bu : forall n, units (bufs n).

(* f_stat of a path. *)
Lemma stat_at w A total path t : holds_tree (vol w) A total -> spelled (path ++ [0]) -> resolves A (cdir (vol w)) (path ++ [0]) t ->
  exists r a, stat bufs w path = Ok (with_vol w (vol w), r, a) /\
    match t with Found _ f _ => r = R_OK /\ has a 16 = isdir f | Dot _ _ => r = R_OK /\ has a 16 = true | Free _ _ => r = R_NO_FILE /\ a = 0 | NoPath => r = R_NO_PATH /\ a = 0 | _ => r = R_INVALID_NAME /\ a = 0 end.
Proof.
  intros H Sp Re. unfold stat. destruct (stat_ok (vol w) A total (path ++ [0]) (bufs (calls w)) H Sp (Bu _)) as (t' & r & x & -> & Re' & D). assert (t' = t) by (destruct H as (L & V); eapply (resolves_one (vol w) A L total V); eauto). subst t'. cbn [bind]. do 2 eexists. split; [reflexivity|].
  destruct t as [c|c d|c f cs|c cs| |]; cbn in D; try (destruct D as [-> ->]; auto; fail).
  - destruct D as (-> & e & fname & alt & -> & Ha & _). split; [auto|]. change 16 with (2 ^ 4) in *. rewrite has_bit in * by lia. rewrite Z.land_spec. change (Z.testbit 63 4) with true. now rewrite andb_true_r.
  - destruct D as (-> & fname & alt & -> & _). split; [auto|]. unfold isdir. change 16 with (2 ^ 4). rewrite !has_bit by lia. rewrite Z.land_spec. change (Z.testbit 63 4) with true. now rewrite andb_true_r.
Qed.

Theorem directory_ok fuel o w A total path c f cs : holds_tree (vol w) A total -> leads A (cdir (vol w)) path c f cs -> isdir f = true -> short_names A f -> unopened (sems w) A f -> length (sems w) = 16%nat ->
  recursive o = true -> yes (hd 0 (keys w)) -> (length (nodes A) + length (links A) < fuel)%nat ->
  exists w' r A' ms, remove bufs fuel o w path = Ok w' /\ rm_result o total w w' A A' c f r /\ keys w' = tl (keys w) /\ out w' = ms ++ Ask true path :: out w /\ told o r ms.
Proof.
  intros H Ld Di Sn Un Le Rc Y Fu. pose proof (leads_in _ _ _ _ _ _ _ H Ld) as (Sp & Re & Ic & Jf & _). unfold remove. destruct (stat_at w A total path (Found c f cs) H Sp Re) as (r & a & -> & -> & Ha). cbn [bind]. rewrite Ha, Di. unfold remove_directory. rewrite Rc. cbn [negb].
  unfold ask. cbn [with_vol keys]. rewrite (proj2 (yes_ok _) Y). cbn [negb]. set (w1 := mkWorld _ _ _ _ _).
  pose proof (holds_shape total _ _ H) as Sh. pose proof (child_in A c f Sh Ic Jf Di) as Ik.
  destruct (recursive_ok bufs Bu total o fuel (length (nodes A)) (length (links A)) w1 A path c f cs) as (w' & r & A' & ms & E & (H' & Cd & Ks & Lk & Ou & Td & Sr & _ & Fa)); auto; [cbn; lia|now apply not_deep|intros x; apply ents_links|].
  rewrite E. cbn [bind]. exists w', r, A', ms. split; [auto|]. split.
  - split; [auto|]. split; [exact Cd|]. split; [exact Lk|]. split; [auto|]. destruct Fa as [(-> & D & _)|(P & Why)]; [left; auto|right]. split; [auto|]. destruct Why as [Why|(-> & _ & D)]; [left; auto|right; auto].
  - split; [exact Ks|]. split; [exact Ou|auto].
Qed.
Theorem directory_all fuel o w A total path c f cs : holds_tree (vol w) A total -> leads A (cdir (vol w)) path c f cs -> isdir f = true -> short_names A f -> unopened (sems w) A f -> length (sems w) = 16%nat ->
  recursive o = true -> yes (hd 0 (keys w)) -> (length (nodes A) + length (links A) < fuel)%nat -> ~ pinned A (cdir (vol w)) f -> ~ deep A (places (sems w)) (clu A f) ->
  exists w' A' ms, remove bufs fuel o w path = Ok w' /\ holds_tree (vol w') A' total /\ deleted A c f A' /\ out w' = ms ++ Ask true path :: out w /\ told o (Rc R_OK) ms.
Proof.
  intros H Ld Di Sn Un Le Rc Y Fu Np Nd. destruct (directory_ok fuel o w A total path c f cs) as (w' & r & A' & ms & E & (H' & _ & _ & _ & D) & _ & Ou & Td); auto. exists w', A', ms. split; [auto|]. split; [auto|].
  destruct D as [(-> & D)|(_ & [(_ & P)|(_ & P)])]; [auto|contradiction|contradiction].
Qed.

Theorem file_ok fuel o w A total path c f cs : holds_tree (vol w) A total -> spelled (path ++ [0]) -> resolves A (cdir (vol w)) (path ++ [0]) (Found c f cs) -> isdir f = false -> force o = true \/ yes (hd 0 (keys w)) ->
  exists w', remove bufs fuel o w path = Ok w' /\ sems w' = sems w /\ keys w' = (if force o then keys w else tl (keys w)) /\ cdir (vol w') = cdir (vol w) /\
    let asked := if force o then out w else Ask false path :: out w in
    if isro f then vol w' = vol w /\ out w' = (if force o then asked else Failed path (Rc R_DENIED) :: asked)
    else exists A', holds_tree (vol w') A' total /\ removed A c f A' /\ out w' = if verbose o then Shown path :: asked else asked.
Proof.
  intros H Sp Re Di Fy. unfold remove. destruct (stat_at w A total path (Found c f cs) H Sp Re) as (r & a & -> & -> & Ha). cbn [bind]. rewrite Ha, Di. unfold remove_file.
  set (p := if force o then _ else _). assert (P : exists w1, p = (w1, true) /\ vol w1 = vol w /\ sems w1 = sems w /\ keys w1 = (if force o then keys w else tl (keys w)) /\ out w1 = if force o then out w else Ask false path :: out w).
  { unfold p. destruct (force o); [eexists; repeat (split; [reflexivity|]); reflexivity|]. destruct Fy as [|Y]; [discriminate|]. unfold ask. cbn [with_vol keys]. rewrite (proj2 (yes_ok _) Y). eexists. repeat (split; [reflexivity|]). reflexivity. }
  destruct P as (w1 & -> & V1 & S1 & K1 & O1). cbn [negb]. destruct H as (L & V). unfold unlink. rewrite V1. destruct (unlink_found _ _ _ _ (path ++ [0]) (bufs (calls w1)) c f cs V Sp (Bu _) Re) as (v' & r & A' & -> & H' & Cd & D). cbn [bind]. rewrite Di in D. eexists. split; [reflexivity|]. destruct D as [(-> & -> & -> & D)|(-> & Ro & D & _)]; cbn [is_ok negb].
  - assert (Ro : isro f = true) by (destruct D as [D|[D _]]; [auto|discriminate]). rewrite Ro. unfold note. destruct (force o); cbn [negb say with_vol vol sems keys out] in *; rewrite ?O1; auto.
  - rewrite Ro. unfold note. destruct (verbose o); cbn [say with_vol vol sems keys out]; rewrite ?O1; repeat (split; [solve [auto]|]); exists A'; auto.
Qed.

Theorem kept_ok fuel o w A total path t : holds_tree (vol w) A total -> spelled (path ++ [0]) -> resolves A (cdir (vol w)) (path ++ [0]) t -> spares o t (hd 0 (keys w)) ->
  exists w', remove bufs fuel o w path = Ok w' /\ vol w' = vol w /\ sems w' = sems w /\ exists ms, out w' = ms ++ out w /\ forall p, ~ In (Shown p) ms.
Proof.
  intros H Sp Re Ss. unfold remove. destruct (stat_at w A total path t H Sp Re) as (r & a & -> & Ht). cbn [bind].
  assert (Dir : has a 16 = true -> r = R_OK -> recursive o = false \/ ~ yes (hd 0 (keys w)) -> exists w', remove_directory bufs fuel o (with_vol w (vol w)) path = Ok w' /\ vol w' = vol w /\ sems w' = sems w /\ exists ms, out w' = ms ++ out w /\ forall p, ~ In (Shown p) ms).
  { intros _ _ S. unfold remove_directory. destruct (recursive o); cbn [negb].
    - destruct S as [S|S]; [discriminate|]. unfold ask. cbn [with_vol keys]. assert (N : (hd 0 (keys w) =? 121) || (hd 0 (keys w) =? 89) = false) by (rewrite <- yes_ok in S; now apply not_true_iff_false). rewrite N. cbn [negb]. eexists. split; [reflexivity|]. split; [auto|]. split; [auto|]. exists [Kept; Ask true path]. split; [auto|]. intros p [Q|[Q|[]]]; discriminate.
    - eexists. split; [reflexivity|]. unfold note. destruct (negb (force o)); (split; [auto|]); (split; [auto|]); [exists [NeedsR path]|exists []]; (split; [auto|]); cbn; [intros p [Q|[]]; discriminate|auto]. }
  assert (Miss : match r with R_OK => False | _ => True end -> exists w', Ok (note (with_vol w (vol w)) (negb (force o)) (Failed path (Rc r))) = Ok w' /\ vol w' = vol w /\ sems w' = sems w /\ exists ms, out w' = ms ++ out w /\ forall p, ~ In (Shown p) ms).
  { intros _. eexists. split; [reflexivity|]. unfold note. destruct (negb (force o)); (split; [auto|]); (split; [auto|]); [exists [Failed path (Rc r)]|exists []]; (split; [auto|]); cbn; [intros p [Q|[]]; discriminate|auto]. }
  destruct t as [c|c d|c f cs|c cs| |]; destruct Ht as [-> Ha]; try (apply Miss; exact I).
  - rewrite Ha. apply Dir; auto.
  - rewrite Ha. cbn in Ss. destruct (isdir f); [apply Dir; auto|]. destruct Ss as [Fo Ny]. unfold remove_file. rewrite Fo. unfold ask. cbn [with_vol keys]. assert (N : (hd 0 (keys w) =? 121) || (hd 0 (keys w) =? 89) = false) by (rewrite <- yes_ok in Ny; now apply not_true_iff_false). rewrite N. cbn [negb].
    eexists. split; [reflexivity|]. split; [auto|]. split; [auto|]. exists [Kept; Ask false path]. split; [auto|]. intros p [Q|[Q|[]]]; discriminate.
Qed.
End Top.
