(* The volume and the partition table on the drive. *)
From Verif Require Import Base FatModel MkfsModel MountModel MkfsProof MkfsProof3.
Open Scope Z_scope.

Definition root_len (l : layout) : Z := match l_type l with FAT32 => l_pau l | _ => l_dir l end.

(* The sectors written for a volume. *)
Definition writes (b_vol : Z) (l : layout) (s : Z) : Prop :=
  s = b_vol \/ (l_type l = FAT32 /\ (s = b_vol + 1 \/ s = b_vol + 6 \/ s = b_vol + 7)) \/
  l_base l <= s < l_base l + l_fat l + root_len l.

Definition nil_buf : Z -> Z := fun _ => 0.

Record written (D : drive) (b_vol sz_vol vsn : Z) (l : layout) (d d' : store) : Prop := {
  wv_vbr : forall o, 0 <= o < d_ss D -> d' b_vol o = vbr D b_vol sz_vol vsn l nil_buf o;
  wv_info : l_type l = FAT32 -> if d_wr D (b_vol + 1) then forall o, 0 <= o < d_ss D -> d' (b_vol + 1) o = fsinfo (l_ncl l) nil_buf o
                                else d' (b_vol + 1) = d (b_vol + 1);
  wv_fat0 : forall o, 0 <= o < d_ss D -> d' (l_base l) o = fat_head (l_type l) nil_buf o;
  wv_fat : forall s o, l_base l < s < l_base l + l_fat l -> 0 <= o < d_ss D -> d' s o = 0;
  wv_root : forall s o, l_base l + l_fat l <= s < l_base l + l_fat l + root_len l -> 0 <= o < d_ss D -> d' s o = 0 }.

Lemma zeros_nil b n o : zeros b n -> 0 <= o < n -> b o = nil_buf o.
Proof. intros Z O. now apply Z. Qed.

Section vol.
Variable D : drive.
Variable b_vol sz_vol vsn len szb : Z.
Variable l : layout.
Hypothesis Ss : sizes (d_ss D).
Hypothesis Bv : b_vol = 0 \/ b_vol = 63.
Hypothesis Sm : b_vol + sz_vol < 4294967296.
Hypothesis Sz : b_vol + sz_vol <= d_size D.
Hypothesis So : sound D b_vol sz_vol l.
Hypothesis Le : 1 <= szb.
Hypothesis Lb : szb * d_ss D <= len.

Lemma ss_len : 512 <= d_ss D <= len.
Proof.
  assert (S4 : 512 <= d_ss D) by (clear - Ss; destruct Ss as [E|[E|[E|E]]]; lia). split; [exact S4|].
  rewrite <- (Z.mul_1_l (d_ss D)). apply (fits 1 szb); lia.
Qed.

Lemma root_pos : 1 <= root_len l /\ l_base l + l_fat l + root_len l <= b_vol + sz_vol.
Proof.
  destruct So as [[P1 P2 P3 P4 P5] F N T R _]. unfold root_len.
  assert (P : 1 <= l_pau l <= 128) by (clear - P1; unfold pows in P1; cbn [In] in P1; lia).
  destruct (l_type l).
  - clear - P4 P3 F Ss. destruct Ss as [E|[E|[E|E]]]; rewrite E in P4; lia.
  - clear - P4 P3 F Ss. destruct Ss as [E|[E|[E|E]]]; rewrite E in P4; lia.
  - split; [lia|]. cbn [least] in T. unfold MAX_FAT16 in T.
    pose proof (Z.mul_div_le (sz_vol - l_rsv l - l_fat l - l_dir l) (l_pau l)) as X.
    rewrite <- N in X. clear - X T P P3 P4. nia.
Qed.

Lemma write_ok d b : tame b -> tame2 d ->
  exists ok d' b', write_volume D d b len szb b_vol sz_vol vsn l = Ok (ok, d', b') /\ tame b' /\ tame2 d' /\
    (forall s, ~ writes b_vol l s -> d' s = d s) /\
    (ok = true -> written D b_vol sz_vol vsn l d d' /\ d_wr D b_vol = true) /\
    ((forall s, 0 <= s < d_size D -> d_wr D s = true) -> ok = true).
Proof.
  intros Tb Td. pose proof ss_len as SL. pose proof root_pos as [RP RF].
  destruct So as [[P1 P2 P3 P4 P5] F N T R _].
  assert (Rsv : 1 <= l_rsv l) by (clear - P2; destruct (l_type l); lia).
  assert (Fat : 1 <= l_fat l) by (clear - P5; destruct (l_type l); lia).
  assert (B0 : 0 <= b_vol <= 63) by (clear - Bv; lia).
  assert (Dir : 0 <= l_dir l) by (clear - P4 Ss; destruct (l_type l); try (rewrite P4; lia); destruct Ss as [E|[E|[E|E]]]; rewrite E in P4; lia).
  clear N T R P4 P1 P5 So Bv Ss.
  unfold write_volume.
  destruct (clear_ok b len (d_ss D)) as (b1 & E1 & C1 & _ & C3); [lia|]. rewrite E1. cbn [bind].
  set (v := vbr D b_vol sz_vol vsn l b1).
  assert (Tv : tame v) by (apply vbr_tame; auto).
  destruct (put_ok D d v len b_vol 1) as (ok & d1 & E & Q1 & Q2 & Q3 & Q4 & Q5 & Q6); [lia|lia|].
  rewrite E. cbn [bind]. destruct ok; cbn [negb].
  2:{ exists false, d1, v. split; [reflexivity|]. split; [exact Tv|]. split; [auto|].
      split. { intros s S. apply Q1. intro X. apply S. left. lia. }
      split; [discriminate|]. intro W. apply Q5; [lia|lia|]. intros t Ht. apply W. lia. }
  destruct Q4 as (_ & Q4 & Q4'); [reflexivity|].
  assert (V : forall o, 0 <= o < d_ss D -> d1 b_vol o = vbr D b_vol sz_vol vsn l nil_buf o).
  { intros o O. rewrite Q4' by lia. replace ((b_vol - b_vol) * d_ss D + o) with o by lia.
    unfold v. apply vbr_ext. unfold nil_buf. apply C1; lia. }
  assert (WV : d_wr D b_vol = true).
  { destruct (d_wr D b_vol) eqn:W; [reflexivity|]. assert (X : true = false) by (apply Q6; exists b_vol; split; [lia|exact W]). discriminate X. }
  (* the records of FAT32 *)
  assert (M : exists d2 b2,
     match l_type l with
     | FAT32 =>
         '(_, d) <- put D d1 v len (w32 (b_vol + 6)) 1 ;;
         b <- clear v len (d_ss D) ;;
         '(_, d) <- put D d (fsinfo (l_ncl l) b) len (w32 (b_vol + 7)) 1 ;;
         '(_, d) <- put D d (fsinfo (l_ncl l) b) len (w32 (b_vol + 1)) 1 ;;
         Ok (d, fsinfo (l_ncl l) b)
     | _ => Ok (d1, v)
     end = Ok (d2, b2) /\ tame b2 /\ tame2 d2 /\
     (forall s, ~ (l_type l = FAT32 /\ (s = b_vol + 1 \/ s = b_vol + 6 \/ s = b_vol + 7)) -> d2 s = d1 s) /\
     (l_type l = FAT32 -> if d_wr D (b_vol + 1) then forall o, 0 <= o < d_ss D -> d2 (b_vol + 1) o = fsinfo (l_ncl l) nil_buf o
                                else d2 (b_vol + 1) = d1 (b_vol + 1))).
  { destruct (l_type l) eqn:Ty.
    1, 2: exists d1, v; split; [reflexivity|]; split; [exact Tv|]; split; [auto|]; split; [auto|discriminate].
    rewrite (w32_id (b_vol + 6)), (w32_id (b_vol + 7)), (w32_id (b_vol + 1)) by lia.
    destruct (put_ok D d1 v len (b_vol + 6) 1) as (k1 & e1 & X1 & Y1 & Z1 & _); [lia|lia|]. rewrite X1. cbn [bind].
    destruct (clear_ok v len (d_ss D)) as (b2 & E2 & A1 & _ & A3); [lia|]. rewrite E2. cbn [bind].
    set (f := fsinfo (l_ncl l) b2). assert (Tf : tame f) by (apply fsinfo_tame; auto).
    destruct (put_ok D e1 f len (b_vol + 7) 1) as (k2 & e2 & X2 & Y2 & Z2 & _); [lia|lia|]. rewrite X2. cbn [bind].
    destruct (put_ok D e2 f len (b_vol + 1) 1) as (k3 & e3 & X3 & Y3 & Z3 & U3 & V3 & W3 & R3); [lia|lia|]. rewrite X3. cbn [bind].
    exists e3, f. split; [reflexivity|]. split; [exact Tf|]. split; [auto|]. split.
    - intros s S. rewrite Y3, Y2, Y1; [reflexivity| | |]; intro X; apply S; (split; [reflexivity|]); lia.
    - intros _. destruct (d_wr D (b_vol + 1)) eqn:W.
      + intros o O. assert (K : k3 = true).
        { apply W3; [lia|lia|]. intros t Ht. replace t with (b_vol + 1) by lia. exact W. }
        destruct (V3 K) as (_ & _ & V4). rewrite V4 by lia.
        replace ((b_vol + 1 - (b_vol + 1)) * d_ss D + o) with o by lia. unfold f. apply fsinfo_ext. unfold nil_buf. apply A1; lia.
      + rewrite U3.
        * rewrite Y2, Y1 by lia. reflexivity.
        * apply R3. exists (b_vol + 1). split; [lia|exact W]. }
  destruct M as (d2 & b2 & -> & T2 & T2' & M1 & M2). cbn [bind].
  destruct (clear_ok b2 len (szb * d_ss D)) as (b3 & E3 & A1 & _ & A3); [lia|]. rewrite E3. cbn [bind].
  set (h := fat_head (l_type l) b3). assert (Th : tame h) by (apply head_tame; auto).
  assert (Hh : forall o, d_ss D <= o < szb * d_ss D -> h o = 0).
  { intros o O. rewrite <- (A1 o) by lia. unfold h, fat_head. destruct (l_type l); rewrite !poke_out by (cbn [length le4]; lia); reflexivity. }
  assert (B1 : 0 <= l_base l) by lia.
  assert (B2 : l_base l + l_fat l < 4294967296) by (clear - RF RP Sm; lia).
  destruct (fill_head D len szb (proj1 SL) Le Lb d2 h (l_base l) (l_fat l) Th T2' Hh B1 Fat B2)
    as (ok & d3 & b4 & sect & E4 & F1 & F2 & F3 & F4 & F5).
  rewrite E4. cbn [bind]. destruct ok; cbn [negb].
  2:{ exists false, d3, b4. split; [reflexivity|]. split; [exact F2|]. split; [exact F3|].
      split.
      { intros s S. rewrite F1, M1, Q1; [reflexivity| | |]; intro X; apply S; unfold writes; [left; lia|right; left; exact X|right; right; lia]. }
      split; [discriminate|]. intro W. apply F5; [lia|]. intros t Ht. apply W. lia. }
  destruct F4 as (G1 & G2 & G3 & G4 & G5); [reflexivity|].
  assert (Sect : 0 <= sect) by (clear - G2 B1 Fat; lia).
  assert (Sect2 : sect + root_len l < 4294967296) by (clear - G2 RF Sm; lia).
  destruct (fill_zero D len szb false (proj1 SL) Le Lb (Z.to_nat (root_len l)) d3 b4 sect (root_len l) F2 F3 G1 Sect RP (le_n _) Sect2)
    as (ok & d4 & b5 & sect' & E5 & H1 & H2 & H3 & H4 & H5).
  fold (root_len l). rewrite E5. cbn [bind].
  rewrite G2 in *.
  exists ok, d4, b5. split; [reflexivity|]. split; [exact H2|]. split; [exact H3|].
  assert (In1 : forall s, s < l_base l -> d4 s = d2 s) by (intros s S; rewrite H1, F1 by lia; reflexivity).
  split.
  { intros s S. rewrite H1, F1, M1, Q1; [reflexivity| | | |]; intro X; apply S; unfold writes; [left; lia|right; left; exact X|right; right; lia|right; right; lia]. }
  split.
  - intro O. destruct (H4 O) as (I1 & I2 & I3 & I4). split; [|exact WV]. constructor.
    + intros o Ho. rewrite In1 by lia. rewrite M1 by lia. now apply V.
    + intro Ty. specialize (M2 Ty). rewrite Ty in P2. rewrite In1 by lia.
      destruct (d_wr D (b_vol + 1)); [exact M2|]. rewrite M2. apply Q1. lia.
    + intros o Ho. rewrite H1 by lia. rewrite G4 by exact Ho. unfold h. apply head_ext. unfold nil_buf. apply A1.
      split; [lia|]. apply Z.lt_le_trans with (d_ss D); [lia|]. rewrite <- (Z.mul_1_l (d_ss D)) at 1. apply Z.mul_le_mono_nonneg_r; lia.
    + intros s o S Ho. rewrite H1 by lia. now apply G5.
    + intros s o S Ho. now apply I4.
  - intro W. apply H5; [lia|]. intros t Ht. apply W. lia.
Qed.
End vol.
