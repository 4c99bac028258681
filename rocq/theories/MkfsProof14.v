(* Formatting, mounting and counting put together. *)
From Verif Require Import Base FatModel FatSpec MkfsModel MountModel MkfsSpec MkfsProof MkfsProof2 MkfsProof3 MkfsProof4 MkfsProof5 MkfsProof6 MkfsProof7 MkfsProof8 MkfsProof10 MkfsProof11 MkfsProof13.
Open Scope Z_scope.

Lemma table_one w sz t : (forall o, 0 <= w o < 256) -> table w sz (sys_id t sz) -> one_partition w sz (kind_id t sz).
Proof.
  intros B [T1 T2 T3 T4 T5 T6]. constructor; try assumption.
  - rewrite T4. unfold sys_id, kind_id. destruct t; [| |reflexivity]; destruct (Z.leb_spec 65536 sz), (Z.ltb_spec sz 65536); lia.
  - unfold ld2 in T6. change (510 + 1) with 511 in T6. pose proof (B 510). pose proof (B 511). lia.
Qed.

Lemma writes_in D b_vol sz_vol l s : sizes (d_ss D) -> sound D b_vol sz_vol l -> writes b_vol l s ->
  b_vol <= s < l_base l + l_fat l + l_dir l + match l_type l with FAT32 => l_pau l | _ => 0 end /\ s < b_vol + sz_vol.
Proof.
  intros Ss So W. pose proof (root_pos D b_vol sz_vol l Ss So) as [R1 R2].
  destruct So as [[P1 P2 P3 P4 P5] F _ _ _ _]. unfold root_len in R1, R2. unfold writes, root_len in W.
  destruct (l_type l).
  - clear - W R1 R2 P2 P3 P5. destruct W as [W|[[W _]|W]]; [|discriminate W|]; lia.
  - clear - W R1 R2 P2 P3 P5. destruct W as [W|[[W _]|W]]; [|discriminate W|]; lia.
  - clear - W R1 R2 P2 P3 P4 P5. destruct W as [W|[[_ W]|W]]; lia.
Qed.

Section made.
Variables (fuel : nat) (D : drive) (d : store) (fmt : Z) (buf : Z -> Z) (len t : Z) (d' : store).
Hypothesis Us : usable D.
Hypothesis Bd : bytes d.
Hypothesis Bb : forall o, vbyte (buf o).
Hypothesis Le : 0 <= len.
Hypothesis Fu : (4 <= fuel)%nat.

Lemma formatted : d_blk D <= 16 -> f_mkfs fuel D d fmt buf len t = Ok (MK_OK, d') ->
  tame2 d' /\ exists vsn l, vsn = w32 (d_size D - start D fmt + t) /\ done D fmt vsn d d' l /\ 1 <= l_ncl l.
Proof.
  intros Bk H. destruct (mkfs_cases D d fmt buf len t fuel Us Bd Bb Le Fu) as [(E & _)|(r & d1 & E & T & C)]; rewrite H in E; [discriminate E|].
  injection E as <- <-. split; [exact T|]. destruct C as (vsn & l & Ev & C). exists vsn, l. split; [exact Ev|]. split; [exact C|].
  destruct C as (_ & _ & So & _). apply So. apply drive_small. split; [apply Us|exact Bk].
Qed.

Lemma format_mount : d_blk D <= 16 -> f_mkfs fuel D d fmt buf len t = Ok (MK_OK, d') -> forall w, exists m,
  mount D d' w = Mounted m /\ laid_out D fmt m /\ disk (m_vol m) = d' /\
  (start D fmt = 63 -> one_partition (d' 0) (d_size D - 63) (kind_id (ftype (m_geo m)) (d_size D - 63))).
Proof.
  intros Bk H w. destruct (formatted Bk H) as (T & vsn & l & _ & C & N).
  destruct (done_mount D fmt vsn d d' l w (us_size _ Us) C N T) as (m & M1 & M2 & M3 & _ & M5 & _).
  exists m. split; [exact M1|]. split; [exact M3|]. split; [exact M5|]. intro X.
  destruct C as (_ & _ & _ & _ & _ & Tb & _). rewrite M2. cbn [geo_of ftype]. apply table_one; [apply T|exact (Tb X)].
Qed.

Lemma format_blank : d_blk D <= 16 -> f_mkfs fuel D d fmt buf len t = Ok (MK_OK, d') -> forall w, exists m,
  mount D d' w = Mounted m /\ blank m /\
  (ftype (m_geo m) <> FAT32 \/ d_wr D (volbase (m_geo m) + 1) = true ->
     owns (m_geo m) (m_vol m) (files (m_geo m)) /\
     forall fuel', (Z.to_nat (n_fatent (m_geo m)) <= fuel')%nat -> exists m',
       f_statfs fuel' m = Ok (m', FR_OK, Some (answer m (n_clst (m_geo m) - Z.of_nat (length (files (m_geo m)))))) /\ kept m m').
Proof.
  intros Bk H w. destruct (formatted Bk H) as (T & vsn & l & _ & C & N).
  destruct (done_mount D fmt vsn d d' l w (us_size _ Us) C N T) as (m & M1 & M2 & M3 & M4 & M5 & M6 & M7 & _).
  exists m. split; [exact M1|]. split; [exact M4|]. intro X.
  pose proof (lo_geo _ _ _ M3) as G. pose proof (ok_ent _ G) as Ne. pose proof (ok_type _ G) as Tp.
  destruct M4 as [B1 B2 Bc [B3 B3'] B4 B5].
  assert (Fl : concat (files (m_geo m)) = match ftype (m_geo m) with FAT32 => [2] | _ => [] end) by (unfold files; destruct (ftype (m_geo m)); reflexivity).
  assert (Cf : count_free (m_geo m) (entry (m_geo m) (m_vol m)) = n_clst (m_geo m) - Z.of_nat (length (files (m_geo m)))).
  { unfold n_clst. rewrite Fl in B2. unfold files in Bc |- *. destruct (ftype (m_geo m)) eqn:F; cbn [length].
    - rewrite count_all; [lia|lia|]. intros c Hc. apply B2; [exact Hc|intros []].
    - rewrite count_all; [lia|lia|]. intros c Hc. apply B2; [exact Hc|intros []].
    - inversion Bc as [|x y Hx Hy]. subst x y. cbn [chain] in Hx. rewrite count_but; [lia|lia|lia|].
      intros c Hc. apply B2; [lia|]. intros [Y|[]]. lia. }
  assert (Ow : owns (m_geo m) (m_vol m) (files (m_geo m))).
  { constructor.
    - exact B4.
    - exact Bc.
    - rewrite Fl. destruct (ftype (m_geo m)); repeat constructor; intros [].
    - intros c Hc Y. left. now apply B2.
    - rewrite Cf. unfold files. destruct (ftype (m_geo m)) eqn:F; [right; apply M6; discriminate|right; apply M6; discriminate|].
      left. destruct X as [X|X]; [now elim X|]. rewrite (proj1 (M7 eq_refl X)). reflexivity.
    - destruct (ftype (m_geo m)) eqn:F; [rewrite (proj2 (M6 ltac:(discriminate))); unfold ERR; lia|rewrite (proj2 (M6 ltac:(discriminate))); unfold ERR; lia|].
      destruct X as [X|X]; [now elim X|]. rewrite (proj2 (M7 eq_refl X)). lia. }
  split; [exact Ow|]. intros fuel' Fu'.
  destruct (statfs_owns m fuel' (files (m_geo m)) G Ow) as (m' & S1 & S2 & _); [|exact Fu'|].
  { intros _. rewrite B3, B3'. unfold modulus. destruct (ftype (m_geo m)); lia. }
  exists m'. rewrite <- Cf. split; [exact S1|exact S2].
Qed.

Lemma format_frame r : f_mkfs fuel D d fmt buf len t = Ok (r, d') ->
  match r with
  | MK_OK => d_blk D <= 16 -> forall w m, mount D d' w = Mounted m -> forall s, ~ overwritten m s -> d' s = d s
  | MK_DISK_ERR => forall s, s < start D fmt \/ d_size D <= s -> d' s = d s
  | _ => d' = d
  end.
Proof.
  intros H. destruct (mkfs_cases D d fmt buf len t fuel Us Bd Bb Le Fu) as [(E & _)|(r1 & d1 & E & T & C)]; rewrite H in E; [discriminate E|].
  injection E as <- <-. destruct r; try exact C.
  - intros Bk w m M s S. destruct C as (vsn & l & _ & C).
    assert (N : 1 <= l_ncl l).
    { destruct C as (_ & _ & So & _). apply So. apply drive_small. split; [apply Us|exact Bk]. }
    destruct (done_mount D fmt vsn d d' l w (us_size _ Us) C N T) as (m' & M1 & M2 & _). rewrite M in M1. injection M1 as <-.
    destruct C as (Ss & _ & So & _ & _ & _ & Fr). apply Fr. intro Ch. apply S. clear S. unfold overwritten. rewrite M2.
    cbn [geo_of volbase database ftype csize].
    destruct Ch as [W|[W1 W2]]; [|left; now split]. right. apply (writes_in (drive' D) _ _ l s Ss So W).
  - intros s S. destruct C as [->|(l & Ss & So & Fr)]; [reflexivity|]. apply Fr. intro W.
    pose proof (writes_in (drive' D) _ _ l s Ss So W). lia.
Qed.

Lemma format_safe : wants fmt 3 = true \/ 4096 <= len -> exists r d'', f_mkfs fuel D d fmt buf len t = Ok (r, d'').
Proof.
  intros H. destruct (mkfs_cases D d fmt buf len t fuel Us Bd Bb Le Fu) as [(E & A & B)|(r1 & d1 & E & _)].
  - destruct H as [H|H]; [rewrite A in H; discriminate H|lia].
  - exists r1, d1. exact E.
Qed.
End made.

Lemma format_perfect fuel D d fmt buf len t : perfect D -> bytes d -> (forall o, vbyte (buf o)) -> 4096 <= len -> (4 <= fuel)%nat ->
  exists d', f_mkfs fuel D d fmt buf len t = Ok (verdict D fmt, d').
Proof. exact (perfect_ok D d fmt buf len t fuel). Qed.
