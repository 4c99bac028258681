(* The loop which chooses the layout ends, with a sound layout or none. *)
From Verif Require Import Base FatModel MkfsModel MkfsProof.
Open Scope Z_scope.

Section two.
Variable D : drive.
Variable b_vol sz_vol : Z.
Hypothesis Ss : sizes (d_ss D).
Hypothesis Bl : block D.
Hypothesis Bv : b_vol = 0 \/ b_vol = 63.
Hypothesis Sv : 128 <= sz_vol.
Hypothesis Sm : b_vol + sz_vol < 4294967296.
Variable f32 : bool.

Definition may (ty t : fat) : Prop :=
  match ty with FAT32 => t = FAT32 | _ => t = FAT32 -> f32 = true end.

Definition fitting (ty : fat) (au : Z) : Prop :=
  ty <> FAT12 /\ (au = 0 \/ In au pows /\ sz_vol <= au * 134217728).

Lemma pows_double p : In p [1; 2; 4; 8; 16; 32; 64] -> In (p * 2) pows.
Proof. unfold pows. cbn [In]. lia. Qed.
Lemma pows_half p : In p [1; 2; 4; 8; 16; 32; 64] -> p / 2 <> 0 -> In (p / 2) pows /\ p = p / 2 * 2.
Proof.
  intros H N. cbn [In] in H.
  repeat (destruct H as [H|H]; [rewrite <- H in *; clear H; vm_compute in N |- *; solve [now elim N|tauto]|]). tauto.
Qed.

Lemma pau0_in ty : In (pau_of sz_vol ty 0) [1; 2; 4; 8; 16; 32; 64].
Proof. unfold pau_of. change (0 =? 0) with true. cbv iota. destruct ty; [apply auto_cst|apply auto_cst|apply auto_cst32]. Qed.

Lemma pau_au ty au : au <> 0 -> pau_of sz_vol ty au = au.
Proof. intro H. unfold pau_of. destruct (Z.eqb_spec au 0); [now elim H|reflexivity]. Qed.

Lemma step k ty au : fitting ty au ->
  let r := choose (S k) D b_vol sz_vol f32 ty au in
  r = Ok None \/
  (exists l, r = Ok (Some l) /\ sound D b_vol sz_vol l /\ may ty (l_type l)) \/
  (exists au', r = choose k D b_vol sz_vol f32 ty au' /\ au = 0 /\ au' <> 0 /\ fitting ty au') \/
  (ty = FAT16 /\ f32 = true /\ r = choose k D b_vol sz_vol f32 FAT32 au /\ fitting FAT32 au).
Proof.
  intros [Ty Au]. cbv zeta.
  assert (Fi : (au = 0 \/ In au pows) /\ sz_vol <= pau_of sz_vol ty au * 134217728).
  { destruct Au as [->|[A B]].
    - split; [now left|]. pose proof (auto_fits b_vol sz_vol Bv Sm ty) as X. clear - X Sv. lia.
    - split; [now right|]. rewrite pau_au; [exact B|]. unfold pows in A. cbn [In] in A. clear - A. lia. }
  destruct Fi as [Fa Fi].
  destruct (try_shape D b_vol sz_vol Ss Bl Bv Sv ty au Ty Fa Fi) as (n & N & _ & T). cbv zeta in T.
  set (pau := pau_of sz_vol ty au) in *. set (c := sz_vol / pau) in *. set (t := first_type ty c) in *.
  assert (P : In pau pows) by (unfold pau, pau_of; eapply pau_in; eassumption).
  assert (Tt : match ty with FAT32 => t = FAT32 | _ => t = FAT12 /\ c <= MAX_FAT12 \/ t = FAT16 /\ MAX_FAT12 < c end).
  { subst t. unfold first_type. destruct ty; [now elim Ty| |reflexivity].
    destruct (Z.ltb_spec MAX_FAT12 c); [right|left]; split; auto. }
  cbn [choose]. rewrite T.
  destruct (match ty with FAT32 => (c <=? MAX_FAT16) || (MAX_FAT32 <? c) | _ => false end) eqn:B1; [now left|].
  destruct (Z.ltb_spec sz_vol (rsv0 t + fat0 D t c + dir0 D t + pau * 16)) as [B2|B2]; [now left|].
  assert (LT : l_type (made D b_vol sz_vol t pau n) = t) by (unfold made; destruct t; reflexivity).
  rewrite LT.
  assert (AU0 : forall x, (au =? 0) && x = true -> au = 0) by (intros x H; apply andb_prop in H; lia).
  assert (D2 : au = 0 -> fitting FAT16 (pau * 2)).
  { intro E. split; [discriminate|]. right. split.
    - apply pows_double. subst pau. rewrite E. apply pau0_in.
    - clear - Fi Sv. lia. }
  assert (P1 : 1 <= pau) by (clear - P; unfold pows in P; cbn [In] in P; lia).
  set (m := l_ncl (made D b_vol sz_vol t pau n)) in *.
  destruct ty; [now elim Ty| |].
  - destruct Tt as [[-> Tc]|[-> Tc]].
    + destruct (Z.ltb_spec MAX_FAT12 m) as [B3|B3]; [now left|].
      right. left. eexists. split; [reflexivity|]. rewrite LT. split; [|cbn; discriminate].
      apply (made_sound D b_vol sz_vol Ss Bl Bv Sv Sm); auto. split; [exact B2|]. split; assumption.
    + destruct (Z.ltb_spec MAX_FAT16 m) as [B3|B3].
      * destruct ((au =? 0) && (pau * 2 <=? 64)) eqn:X1.
        { right. right. left. exists (pau * 2). pose proof (AU0 _ X1) as E. split; [reflexivity|]. split; [exact E|].
          split; [clear - P1; lia|now apply D2]. }
        destruct f32 eqn:F.
        { right. right. right. split; [reflexivity|]. split; [reflexivity|]. split; [reflexivity|].
          split; [discriminate|]. exact Au. }
        destruct ((au =? 0) && (pau * 2 <=? 128)) eqn:X2; [|now left].
        right. right. left. exists (pau * 2). pose proof (AU0 _ X2) as E. split; [reflexivity|]. split; [exact E|].
        split; [clear - P1; lia|now apply D2].
      * destruct (Z.leb_spec m MAX_FAT12) as [B4|B4].
        { destruct ((au =? 0) && (pau * 2 <=? 128)) eqn:X2; [|now left].
          right. right. left. exists (pau * 2). pose proof (AU0 _ X2) as E. split; [reflexivity|]. split; [exact E|].
          split; [clear - P1; lia|now apply D2]. }
        right. left. eexists. split; [reflexivity|]. rewrite LT. split; [|cbn; discriminate].
        apply (made_sound D b_vol sz_vol Ss Bl Bv Sv Sm); auto. split; [exact B2|]. split; [assumption|]. split; assumption.
  - rewrite Tt in *. destruct (Z.leb_spec m MAX_FAT16) as [B3|B3].
    + destruct ((au =? 0) && negb (pau / 2 =? 0)) eqn:X; [|now left].
      right. right. left. exists (pau / 2). split; [reflexivity|]. pose proof (AU0 _ X) as E. split; [exact E|].
      assert (N0 : pau / 2 <> 0) by (clear - X; lia). split; [exact N0|]. split; [discriminate|]. right.
      destruct (pows_half pau) as [H1 H2]; [subst pau; rewrite E; apply pau0_in|exact N0|]. split; [exact H1|].
      pose proof (auto_fits b_vol sz_vol Bv Sm FAT32) as Y. subst pau. rewrite E in *. clear - Y H2. lia.
    + right. left. eexists. split; [reflexivity|]. rewrite LT. split; [|reflexivity].
      apply (made_sound D b_vol sz_vol Ss Bl Bv Sv Sm); auto. split; [exact B2|].
      split; [|assumption]. apply orb_false_elim in B1. fold c. clear - B1. lia.
Qed.

Lemma choose_ok ty k : ty <> FAT12 -> (4 <= k)%nat ->
  exists r, choose k D b_vol sz_vol f32 ty 0 = Ok r /\
            forall l, r = Some l -> sound D b_vol sz_vol l /\ may ty (l_type l).
Proof.
  intros Ty K.
  assert (G : forall ty au, fitting ty au -> forall k, ((if (au =? 0)%Z then 1 else 0) + match ty with FAT32 => 1 | _ => 2 end <= k)%nat ->
     exists r, choose k D b_vol sz_vol f32 ty au = Ok r /\
            forall l, r = Some l -> sound D b_vol sz_vol l /\ may ty (l_type l)).
  { clear ty k Ty K.
    assert (G0 : forall au, au <> 0 -> fitting FAT32 au -> forall k, (1 <= k)%nat ->
      exists r, choose k D b_vol sz_vol f32 FAT32 au = Ok r /\ forall l, r = Some l -> sound D b_vol sz_vol l /\ may FAT32 (l_type l)).
    { intros au A F [|k] K; [lia|].
      destruct (step k FAT32 au F) as [E|[(l & E & So & M)|[(au' & E & Z & _)|(E & _)]]]; [| |now elim A|discriminate E].
      - eexists. split; [exact E|]. intros l X. discriminate X.
      - eexists. split; [exact E|]. intros l' X. injection X as X. subst l'. now split. }
    assert (G1 : forall au, fitting FAT32 au -> forall k, ((if (au =? 0)%Z then 1 else 0) + 1 <= k)%nat ->
      exists r, choose k D b_vol sz_vol f32 FAT32 au = Ok r /\ forall l, r = Some l -> sound D b_vol sz_vol l /\ may FAT32 (l_type l)).
    { intros au F [|k] K; [lia|].
      destruct (step k FAT32 au F) as [E|[(l & E & So & M)|[(au' & E & Z & N & F')|(E & _)]]]; [| | |discriminate E].
      - eexists. split; [exact E|]. intros l X. discriminate X.
      - eexists. split; [exact E|]. intros l' X. injection X as X. subst l'. now split.
      - rewrite E. apply G0; auto. subst au. change (0 =? 0) with true in K. cbn in K. lia. }
    assert (G2 : forall au, au <> 0 -> fitting FAT16 au -> forall k, (2 <= k)%nat ->
      exists r, choose k D b_vol sz_vol f32 FAT16 au = Ok r /\ forall l, r = Some l -> sound D b_vol sz_vol l /\ may FAT16 (l_type l)).
    { intros au A F [|k] K; [lia|].
      destruct (step k FAT16 au F) as [E|[(l & E & So & M)|[(au' & E & Z & _)|(_ & F3 & E & F')]]]; [| |now elim A|].
      - eexists. split; [exact E|]. intros l X. discriminate X.
      - eexists. split; [exact E|]. intros l' X. injection X as X. subst l'. now split.
      - rewrite E. destruct (G0 au A F' k) as (r & R & Q); [lia|]. exists r. split; [exact R|].
        intros l X. destruct (Q l X) as [Q1 Q2]. split; [exact Q1|]. intros _. exact F3. }
    intros ty au F [|k] K; [destruct ty, (au =? 0)%Z; lia|].
    destruct ty; [destruct F as [F _]; now elim F| |now apply G1].
    destruct (step k FAT16 au F) as [E|[(l & E & So & M)|[(au' & E & Z & N & F')|(_ & F3 & E & F')]]].
    - eexists. split; [exact E|]. intros l X. discriminate X.
    - eexists. split; [exact E|]. intros l' X. injection X as X. subst l'. now split.
    - rewrite E. apply G2; auto. subst au. change (0 =? 0) with true in K. cbn in K. lia.
    - rewrite E. destruct (G1 au F' k) as (r & R & Q); [lia|]. exists r. split; [exact R|].
      intros l X. destruct (Q l X) as [Q1 Q2]. split; [exact Q1|]. intros _. exact F3. }
  apply G; [split; [exact Ty|now left]|]. change (0 =? 0) with true. destruct ty; lia.
Qed.
End two.
