(* Histories of FAT accesses. *)
From Coq Require Import ZifyClasses ZifyInst ZifyBool.
From Verif Require Import Base FatModel FatSpec FatProof FatProof2.
Open Scope Z_scope.
Ltac Zify.zify_post_hook ::= Z.div_mod_to_equations.

(* What one access does to the entries. *)
Record estep (g : geo) (v v' : vol) (E : Z -> Z) : Prop := {
  es_ok : vol_ok g v';
  es_ent : forall c, 0 <= c < n_fatent g -> entry g v' c = E c;
  es_out : same_outside g v v';
  es_win : winsect v' = winsect v \/ in_fat g (winsect v') }.

Lemma es_trans g a b c E F : estep g a b E -> estep g b c F -> estep g a c F.
Proof.
  intros [A1 A2 A3 A4] [B1 B2 B3 B4]. constructor; auto; [intros s o M O; rewrite B3, A3; auto|].
  destruct B4 as [B4|B4]; [rewrite B4|]; auto.
Qed.
Lemma es_ext g a b E F : estep g a b E -> (forall c, 0 <= c < n_fatent g -> E c = F c) -> estep g a b F.
Proof. intros [A1 A2 A3 A4] H. constructor; auto. intros c Hc. rewrite <- H by auto. auto. Qed.
Lemma es_refl g v : vol_ok g v -> estep g v v (entry g v).
Proof. intros. constructor; auto. intros s o M O. auto. Qed.
Lemma es_info g v f l i E v0 : estep g v0 v E -> estep g v0 (set_info v f l i) E.
Proof. intros [A1 A2 A3 A4]. constructor; [constructor; apply A1|exact A2|exact A3|exact A4]. Qed.

Lemma step_estep g v v' F : geo_ok g -> step g v v' F -> estep g v v' (entry_of (ftype g) F).
Proof.
  intros G [A1 A2 A3 A4 A5]. constructor; auto. intros c Hc. unfold entry.
  apply (entry_ext _ _ _ c (fsize g * ss g)); [now apply room|lia|auto].
Qed.

Lemma get_entry g v c : geo_ok g -> vol_ok g v -> 2 <= c < n_fatent g ->
  exists v', get_fat g v c = Ok (v', entry g v c) /\ estep g v v' (entry g v) /\ same_info v v'.
Proof.
  intros G V C. destruct (get_ok g v c G V C) as (v' & E & S1). exists v'. split; [auto|].
  split; [apply (step_estep g v v' _ G S1)|apply S1].
Qed.
Lemma put_entry g v c x : geo_ok g -> vol_ok g v -> 2 <= c < n_fatent g -> 0 <= x < 4294967296 ->
  exists v', put_fat g v c x = Ok (v', FR_OK) /\ estep g v v' (upd (entry g v) c (x mod modulus (ftype g))) /\ same_info v v'.
Proof.
  intros G V C X. destruct (put_ok g v c x G V C X) as (v' & E & S1). exists v'. split; [auto|].
  split; [|apply S1]. eapply es_ext; [apply (step_estep g v v' _ G S1)|].
  intros c' Hc'. rewrite entry_put by (try lia; intros; now apply fat_byte_ok). reflexivity.
Qed.

(* The whole effect of put_fat on the bytes of the FAT. *)
Lemma put_all g v c x : geo_ok g -> vol_ok g v -> 2 <= c < n_fatent g -> 0 <= x < 4294967296 ->
  exists v', put_fat g v c x = Ok (v', FR_OK) /\ vol_ok g v' /\
    entry g v' c = x mod modulus (ftype g) /\
    (forall c', 0 <= c' < n_fatent g -> c' <> c -> entry g v' c' = entry g v c') /\
    (forall i, 0 <= i < fsize g * ss g -> ~ touched (ftype g) c i -> fat_byte g v' i = fat_byte g v i) /\
    (ftype g = FAT32 -> reserved g v' c = reserved g v c) /\
    same_outside g v v' /\ same_info v v'.
Proof.
  intros G V C X. destruct (put_entry g v c x G V C X) as (v1 & E1 & Es & _).
  destruct (put_ok g v c x G V C X) as (v' & E & S1). rewrite E in E1. injection E1 as ->. exists v1.
  split; [auto|]. split; [apply S1|]. split; [rewrite (es_ent _ _ _ _ Es) by lia; apply upd_eq|].
  split; [intros c' H D; rewrite (es_ent _ _ _ _ Es) by auto; now apply upd_ne|].
  split; [|split; [|split; apply S1]].
  - intros i Hi T. rewrite (st_fat _ _ _ _ S1) by auto. unfold put_of, touched in *.
    destruct (ftype g); [destruct (Z.even c)|..]; cbv zeta; rewrite !upd_ne by lia; auto.
  - intros T. unfold reserved. pose proof (room32 g c G T ltac:(lia)) as (R1 & R2 & _).
    rewrite (st_fat _ _ _ _ S1) by lia. unfold put_of. rewrite T. rewrite upd_eq.
    pose proof (fat_byte_ok g v (4 * c + 3) V). unfold vbyte in *. lia.
Qed.

Lemma get_all g v c : geo_ok g -> vol_ok g v -> 2 <= c < n_fatent g ->
  exists v', get_fat g v c = Ok (v', entry g v c) /\ vol_ok g v' /\
    (forall i, 0 <= i < fsize g * ss g -> fat_byte g v' i = fat_byte g v i) /\ same_outside g v v' /\ same_info v v'.
Proof. intros G V C. destruct (get_ok g v c G V C) as (v' & E & [A1 A2 A3 A4 A5]). exists v'. auto. Qed.

Lemma means_es g v v' d : means g v d -> (forall c, 0 <= c < n_fatent g -> entry g v' c = entry g v c) -> same_outside g v v' -> means g v' d.
Proof.
  intros [M1 M2] H O. split.
  - intros c Hc. rewrite H, M1; auto.
  - intros s o Hs B. rewrite O; auto.
Qed.
Lemma same_entries g v v' : geo_ok g -> same g v v' -> (forall c, 0 <= c < n_fatent g -> entry g v' c = entry g v c) /\ same_outside g v v'.
Proof.
  intros G (V & S1 & I). split.
  - intros c Hc. unfold entry. apply (entry_ext _ _ _ c (fsize g * ss g)); [now apply room|lia|].
    intros i Hi. unfold fat_byte. apply S1; [apply in_fat_mine; auto; now apply byte_sector|].
    apply Z.mod_pos_bound. pose proof (ss_pos g G). lia.
  - intros s o [M _] O. now apply S1.
Qed.

Lemma outside_mine g s : outside g s -> mine g s.
Proof. now intros []. Qed.

Lemma move_es g v s : geo_ok g -> vol_ok g v -> mine g s ->
  exists v', move_window g v s = (v', FR_OK) /\ vol_ok g v' /\ (forall c, 0 <= c < n_fatent g -> entry g v' c = entry g v c) /\
             same_outside g v v' /\ winsect v' = s /\ same_info v v'.
Proof.
  intros G V M. destruct (move_ok g v s G V M) as (v' & E & Sm & W). exists v'. split; [auto|]. split; [apply Sm|].
  destruct (same_entries g v v' G Sm). split; [auto|]. split; [auto|]. split; [auto|apply Sm].
Qed.

Lemma fat_sector g i : geo_ok g -> 0 <= i < fsize g * ss g -> in_fat g (fatbase g + i / ss g).
Proof. apply byte_sector. Qed.

(* Writing into a sector outside the FAT. *)
Lemma poke_es g v o b : geo_ok g -> vol_ok g v -> outside g (winsect v) -> 0 <= o < ss g -> vbyte b ->
  let v' := dirty v (upd (win v) o (w8 b)) in
  vol_ok g v' /\ same_info v v' /\ (forall c, 0 <= c < n_fatent g -> entry g v' c = entry g v c) /\
  (forall s' o', view v' s' o' = if (s' =? winsect v) && (o' =? o) then b else view v s' o').
Proof.
  intros G V O Ho B v'. destruct (dirty_ok g v (upd (win v) o (w8 b)) G V (outside_mine _ _ O)) as (D1 & D2 & D3).
  { apply upd_byte. apply V. }
  fold v' in D1, D2, D3. split; [auto|]. split; [auto|]. split.
  - intros c Hc. unfold entry. apply (entry_ext _ _ _ c (fsize g * ss g)); [now apply room|lia|].
    intros i Hi. unfold fat_byte. rewrite D3. destruct (Z.eqb_spec (fatbase g + i / ss g) (winsect v)) as [Q|]; [|auto].
    exfalso. apply O. rewrite <- Q. now apply byte_sector.
  - intros s' o'. rewrite D3. unfold upd. unfold vbyte in B. destruct (Z.eqb_spec s' (winsect v)) as [->|]; cbn [andb]; [|auto].
    destruct (o' =? o); [unfold w8; lia|]. unfold view. now rewrite Z.eqb_refl.
Qed.

Lemma op_ok g v d x : geo_ok g -> vol_ok g v -> legal g x -> means g v d ->
  exists v', do_op g v x = Ok (v', snd (ideal_op g d x)) /\ vol_ok g v' /\ means g v' (fst (ideal_op g d x)) /\ same_info v v'.
Proof.
  intros G V L M. destruct x as [c|c x|s o|s o b|]; cbn [do_op ideal_op legal] in *.
  - destruct ((2 <=? c) && (c <? n_fatent g)) eqn:R.
    + destruct (get_entry g v c G V ltac:(lia)) as (v' & E & Es & I). exists v'. rewrite E. cbn.
      rewrite (proj1 M c ltac:(lia)). split; [auto|]. split; [apply Es|]. split; [|auto].
      eapply means_es; [eauto|apply Es|apply Es].
    + exists v. unfold get_fat. replace ((c <? 2) || (n_fatent g <=? c)) with true by lia. cbn.
      split; [auto|]. split; [auto|]. split; [auto|]. now unfold same_info.
  - destruct L as [L1 L2]. destruct ((2 <=? c) && (c <? n_fatent g)) eqn:R.
    + destruct (put_entry g v c x G V ltac:(lia) L2) as (v' & E & Es & I). exists v'. rewrite E. cbn.
      split; [auto|]. split; [apply Es|]. split; [|auto]. split.
      * intros c' Hc. cbn. rewrite (es_ent _ _ _ _ Es) by auto. unfold upd, at_. destruct (c' =? c); [auto|]. now apply M.
      * intros s o Hs O. cbn. rewrite (es_out _ _ _ _ Es) by auto. now apply M.
    + exists v. unfold put_fat. rewrite R. cbn. split; [auto|]. split; [auto|]. split; [auto|]. now unfold same_info.
  - destruct L as [L1 L2]. destruct (move_es g v s G V (outside_mine _ _ L1)) as (v' & E & V' & En & Ou & W & I). rewrite E.
    pose proof (ss_pos g G). rewrite rd_ok by lia. cbn. exists v'. split.
    + f_equal. f_equal. rewrite <- (proj2 M s o L1 L2), <- (Ou s o L1 L2). unfold view. rewrite W, Z.eqb_refl. auto.
    + split; [auto|]. split; [|auto]. eapply means_es; eauto.
  - destruct L as (L1 & L2 & L3). destruct (move_es g v s G V (outside_mine _ _ L1)) as (v1 & E & V1 & En & Ou & W & I). rewrite E.
    pose proof (ss_pos g G). rewrite wr_ok by lia. cbn [bind fst snd].
    assert (O1 : outside g (winsect v1)) by now rewrite W.
    destruct (poke_es g v1 o b G V1 O1 L2 L3) as (P1 & P2 & P3 & P4).
    eexists. split; [reflexivity|]. split; [exact P1|]. split; [|eapply info_trans; eauto].
    assert (M1 : means g v1 d) by (eapply means_es; eauto). split.
    + intros c Hc. cbn [table]. rewrite P3 by auto. now apply M1.
    + intros s' o' Hs Ho. rewrite P4, W. cbn [sectors]. unfold at_. destruct (Z.eqb_spec s' s) as [->|]; cbn [andb]; [|now apply M1].
      destruct (o' =? o); [auto|]. now apply M1.
  - destruct (sync_ok g v G V) as (v' & E & Sm & _). rewrite E. cbn. exists v'. split; [auto|]. split; [apply Sm|].
    split; [|apply Sm]. destruct (same_entries g v v' G Sm). eapply means_es; eauto.
Qed.

Lemma history_ok g xs : forall v d, geo_ok g -> vol_ok g v -> Forall (legal g) xs -> means g v d ->
  exists v', do_ops g v xs = Ok (v', snd (ideal_ops g d xs)) /\ vol_ok g v' /\ means g v' (fst (ideal_ops g d xs)).
Proof.
  induction xs as [|x xs IH]; intros v d G V L M; cbn [do_ops ideal_ops].
  - exists v. auto.
  - inversion L; subst. destruct (op_ok g v d x G V) as (v1 & E1 & V1 & M1 & _); auto. rewrite E1. cbn [bind].
    destruct (ideal_op g d x) as [d1 a]. cbn [fst snd] in *.
    destruct (IH v1 d1 G V1) as (v2 & E2 & V2 & M2); auto. rewrite E2. cbn [bind].
    destruct (ideal_ops g d1 xs) as [d2 l]. cbn [fst snd] in *. exists v2. auto.
Qed.

Lemma stored_ok g v d : geo_ok g -> vol_ok g v -> means g v d ->
  exists v', sync_window g v = (v', FR_OK) /\ vol_ok g v' /\ means g v' d /\ wflag v' = false /\ stored g v' d.
Proof.
  intros G V M. destruct (sync_ok g v G V) as (v' & E & Sm & W & X & D). exists v'. split; [auto|]. split; [apply Sm|].
  destruct (same_entries g v v' G Sm) as [En Ou].
  assert (M' : means g v' d) by (eapply means_es; eauto). split; [auto|]. split; [auto|].
  assert (DV : forall s o, mine g s -> 0 <= o < ss g -> disk v' s o = view v' s o).
  { intros s o Ms O. rewrite D by auto. symmetry. now apply Sm. }
  split.
  - intros k c Hk Hc. rewrite <- (proj1 M' c Hc). unfold entry.
    apply (entry_ext _ _ _ c (fsize g * ss g)); [now apply room|lia|]. intros i Hi. unfold disk_fat, fat_byte.
    pose proof (byte_sector g i G Hi) as F. pose proof (ss_pos g G).
    pose proof (Z.mod_pos_bound i (ss g) ltac:(lia)) as MB.
    rewrite <- DV by (auto; now apply in_fat_mine).
    destruct (Z.eq_dec k 0) as [->|K]; [now rewrite Z.mul_0_l, Z.add_0_r|].
    assert (N : n_fats g = 2) by (destruct (ok_fats g G); lia). replace k with 1 by lia.
    replace (fatbase g + 1 * fsize g + i / ss g) with (fatbase g + i / ss g + fsize g) by lia.
    apply (ok_mirror g v' (proj1 Sm) N); auto.
  - intros s o Hs O. rewrite <- (proj2 M' s o Hs O). apply DV; auto. now apply outside_mine.
Qed.
