(* f_statfs, and mounting whatever is on the drive. *)
From Verif Require Import Base FatModel FatSpec MkfsModel MountModel MkfsSpec FatProof FatProof2 MkfsProof9.
Open Scope Z_scope.

Lemma entry_range g v c : vol_ok g v -> 0 <= entry g v c < modulus (ftype g).
Proof.
  intro V. unfold entry, entry_of, modulus.
  assert (B : forall i, 0 <= fat_byte g v i < 256) by (intro i; apply (FatProof2.fat_byte_ok g v i V)).
  destruct (ftype g).
  - pose proof (B (3 * c / 2)). pose proof (B (3 * c / 2 + 1)). destruct (Z.even c); lia.
  - pose proof (B (2 * c)). pose proof (B (2 * c + 1)). lia.
  - pose proof (B (4 * c)). pose proof (B (4 * c + 1)). pose proof (B (4 * c + 2)). pose proof (B (4 * c + 3)). lia.
Qed.

Lemma step_view g v v' : geo_ok g -> step g v v' (fat_byte g v) -> forall s o, mine g s -> 0 <= o < ss g -> view v' s o = view v s o.
Proof.
  intros G St s o M O. pose proof (ss_pos g G) as SS.
  destruct (Z.leb_spec (fatbase g) s) as [A|A]; [destruct (Z.ltb_spec s (fatbase g + fsize g)) as [B|B]|].
  - pose proof (st_fat _ _ _ _ St ((s - fatbase g) * ss g + o)) as F. unfold fat_byte in F.
    rewrite (Z.add_comm _ o) in F. rewrite Z.div_add, Z.mod_add in F by lia. rewrite Z.div_small, Z.mod_small in F by lia.
    replace (fatbase g + (0 + (s - fatbase g))) with s in F by lia. apply F. nia.
  - apply St; [|exact O]. split; [exact M|]. unfold in_fat. lia.
  - apply St; [|exact O]. split; [exact M|]. unfold in_fat. lia.
Qed.

Lemma scan_all g v fuel : geo_ok g -> vol_ok g v -> (Z.to_nat (n_fatent g) <= fuel)%nat ->
  match ftype g with
  | FAT12 => (forall c, 2 <= c < n_fatent g -> entry g v c <> 1) ->
      exists v', scan12 fuel g v 2 0 = Ok (v', FR_OK, count_free g (entry g v)) /\ step g v v' (fat_byte g v)
  | _ => exists v', scan fuel g v (n_fatent g) (fatbase g) 0 0 =
           Ok (v', FR_OK, (if entry g v 0 =? 0 then 1 else 0) + (if entry g v 1 =? 0 then 1 else 0) + count_free g (entry g v)) /\ step g v v' (fat_byte g v)
  end.
Proof.
  intros G V F. pose proof (ok_ent g G) as N. pose proof (ok_type g G) as T.
  assert (S0 : step g v v (fat_byte g v)) by (apply same_step; [exact G|now apply same_refl|now left]).
  assert (Big : n_fatent g <= 268435447) by (clear - T; destruct (ftype g); lia).
  assert (Sc : ftype g <> FAT12 -> exists v', scan fuel g v (n_fatent g) (fatbase g) 0 0 =
           Ok (v', FR_OK, (if entry g v 0 =? 0 then 1 else 0) + (if entry g v 1 =? 0 then 1 else 0) + count_free g (entry g v)) /\ step g v v' (fat_byte g v)).
  { intro Ty. destruct (scan_ok g v G V Ty (Z.to_nat (n_fatent g)) fuel 0 v 0) as (v' & E & S').
    - lia.
    - lia.
    - lia.
    - exact S0.
    - lia.
    - rewrite Z.mul_0_r. rewrite Z.mod_0_l by (pose proof (ss_pos g G); lia). intro X. now elim X.
    - exists v'. split; [|exact S']. rewrite Z.mul_0_r in E. rewrite Z.mod_0_l, Z.div_0_l in E by (pose proof (ss_pos g G); lia).
      change (0 =? 0) with true in E. cbv iota in E. rewrite !Z.add_0_r in E. rewrite Z2Nat.id in E by lia. rewrite E. do 2 f_equal.
      rewrite count_zeros. replace (Z.to_nat (n_fatent g)) with (S (S (Z.to_nat (n_fatent g - 2)))) by lia. cbn [zeros_from].
      change (0 + 1) with 1. change (1 + 1) with 2. lia. }
  destruct (ftype g) eqn:Ty; [|apply Sc; discriminate|apply Sc; discriminate].
  intro H. destruct (scan12_ok g v G V (Z.to_nat (n_fatent g - 2)) fuel 2 v 0) as (v' & E & S').
  - lia.
  - lia.
  - lia.
  - exact S0.
  - lia.
  - lia.
  - intros k K. split; [now apply H|]. pose proof (entry_range g v k V) as X. rewrite Ty in X. unfold modulus in X. unfold ERR. lia.
  - exists v'. split; [|exact S']. rewrite E. now rewrite count_zeros.
Qed.

Lemma set_ok g v f l i : vol_ok g v -> vol_ok g (set_info v f l i).
Proof. intros [A B C D E]. constructor; assumption. Qed.

Lemma statfs_ok m fuel : geo_ok (m_geo m) -> vol_ok (m_geo m) (m_vol m) -> 0 <= free_clst (m_vol m) -> (Z.to_nat (n_fatent (m_geo m)) <= fuel)%nat ->
  let g := m_geo m in let v := m_vol m in
  if free_clst v <=? n_fatent g - 2 then f_statfs fuel m = Ok (m, FR_OK, Some (answer m (free_clst v)))
  else
    match ftype g with
    | FAT12 => forall c, 2 <= c < n_fatent g -> entry g v c <> 1
    | _ => entry g v 0 <> 0 /\ entry g v 1 <> 0
    end ->
    exists m', f_statfs fuel m = Ok (m', FR_OK, Some (answer m (count_free g (entry g v)))) /\ kept m m' /\
      free_clst (m_vol m') = count_free g (entry g v) /\ Z.testbit (fsi_flag (m_vol m')) 0 = true.
Proof.
  intros G V F0 Fu g v. pose proof (ok_ent g G) as N. pose proof (ok_type g G) as T.
  assert (Big : n_fatent g <= 268435447) by (clear - T; destruct (ftype g); lia).
  unfold f_statfs. fold g. fold v. rewrite (w32_id (n_fatent g - 2)) by lia.
  destruct (Z.leb_spec (free_clst v) (n_fatent g - 2)) as [K|K].
  { cbn [bind]. unfold answer, g, v. destruct m; reflexivity. }
  intro H. pose proof (scan_all g v fuel G V Fu) as Sc.
  assert (E : exists v', (match ftype g with FAT12 => scan12 fuel g v 2 0 | _ => scan fuel g v (n_fatent g) (fatbase g) 0 0 end)
                         = Ok (v', FR_OK, count_free g (entry g v)) /\ step g v v' (fat_byte g v)).
  { destruct (ftype g).
    - now apply Sc.
    - destruct Sc as (v' & E & S). exists v'. split; [|exact S]. rewrite E. destruct H as [H0 H1].
      destruct (Z.eqb_spec (entry g v 0) 0); [now elim H0|]. destruct (Z.eqb_spec (entry g v 1) 0); [now elim H1|]. reflexivity.
    - destruct Sc as (v' & E & S). exists v'. split; [|exact S]. rewrite E. destruct H as [H0 H1].
      destruct (Z.eqb_spec (entry g v 0) 0); [now elim H0|]. destruct (Z.eqb_spec (entry g v 1) 0); [now elim H1|]. reflexivity. }
  destruct E as (v' & E & S). rewrite E. cbn [bind].
  eexists. split; [reflexivity|]. split; [|split; [reflexivity|]].
  - split; [reflexivity|]. split; [reflexivity|]. split; [reflexivity|]. split; [reflexivity|]. cbn [m_vol]. split; [|split].
    + apply set_ok. apply S.
    + cbn [set_info last_clst]. apply S.
    + intros s o M O. exact (step_view g v v' G S s o M O).
  - cbn [m_vol set_info fsi_flag]. rewrite Z.lor_spec. apply orb_true_r.
Qed.

(* In a sound volume no entry is 1. *)
Lemma chain_not1 g E l : 2 <= n_fatent g -> chain g E l -> forall c, In c l -> E c <> 1.
Proof.
  intro N. induction l as [|a l IH]; intros H c C; [destruct C|]. destruct H as (A & B & H).
  destruct C as [<-|C]; [|now apply IH]. destruct l as [|b l]; [lia|]. destruct H as (H & _). lia.
Qed.

Lemma owns_not1 g v cs : geo_ok g -> owns g v cs -> forall c, 2 <= c < n_fatent g -> entry g v c <> 1.
Proof.
  intros G O c C. pose proof (ok_ent g G). destruct (in_dec Z.eq_dec c (concat cs)) as [I|I].
  - apply in_concat in I as (l & L & I). pose proof (ow_chain _ _ _ O) as F. rewrite Forall_forall in F.
    apply (chain_not1 g (entry g v) l); [lia|now apply F|exact I].
  - destruct (ow_rest _ _ _ O c C I); lia.
Qed.

Lemma count_range g E : 2 <= n_fatent g -> 0 <= count_free g E <= n_fatent g - 2.
Proof. intro N. rewrite count_zeros. pose proof (zeros_range E (Z.to_nat (n_fatent g - 2)) 2). lia. Qed.

Lemma kept_entry m m' : geo_ok (m_geo m) -> kept m m' -> forall c, 0 <= c < n_fatent (m_geo m) -> entry (m_geo m) (m_vol m') c = entry (m_geo m) (m_vol m) c.
Proof.
  intros G (_ & _ & _ & _ & _ & _ & K) c C. unfold entry. apply (entry_ext _ _ _ _ (fsize (m_geo m) * ss (m_geo m))); [now apply room|lia|].
  intros i I. unfold fat_byte. apply K; [apply in_fat_mine; [exact G|now apply byte_sector]|]. apply Z.mod_pos_bound. pose proof (ss_pos _ G). lia.
Qed.

Lemma chain_ext g (E E' : Z -> Z) l : (forall c, 2 <= c < n_fatent g -> E' c = E c) -> chain g E l -> chain g E' l.
Proof.
  intro H. induction l as [|a l IH]; intro C; [exact I|]. destruct C as (A & B & C). split; [exact A|]. split; [|now apply IH].
  destruct l; rewrite H by exact A; exact B.
Qed.

Lemma statfs_owns m fuel cs : geo_ok (m_geo m) -> owns (m_geo m) (m_vol m) cs ->
  (ftype (m_geo m) <> FAT12 -> entry (m_geo m) (m_vol m) 0 <> 0 /\ entry (m_geo m) (m_vol m) 1 <> 0) ->
  (Z.to_nat (n_fatent (m_geo m)) <= fuel)%nat ->
  exists m', f_statfs fuel m = Ok (m', FR_OK, Some (answer m (count_free (m_geo m) (entry (m_geo m) (m_vol m))))) /\ kept m m' /\
    owns (m_geo m) (m_vol m') cs /\ free_clst (m_vol m') = count_free (m_geo m) (entry (m_geo m) (m_vol m)).
Proof.
  intros G O H Fu. pose proof (ok_ent _ G) as N. pose proof (ok_type _ G) as T.
  assert (Big : n_fatent (m_geo m) <= 268435447) by (clear - T; destruct (ftype (m_geo m)); lia).
  pose proof (count_range (m_geo m) (entry (m_geo m) (m_vol m))) as Cr.
  pose proof (ow_vol _ _ _ O) as V.
  assert (F0 : 0 <= free_clst (m_vol m)) by (destruct (ow_free _ _ _ O) as [E|E]; rewrite E; unfold ERR; lia).
  pose proof (statfs_ok m fuel G V F0 Fu) as S. cbv zeta in S.
  destruct (Z.leb_spec (free_clst (m_vol m)) (n_fatent (m_geo m) - 2)) as [K|K].
  - destruct (ow_free _ _ _ O) as [E|E]; [|rewrite E in K; unfold ERR in K; lia].
    exists m. rewrite <- E. split; [exact S|]. split; [|split; [exact O|reflexivity]].
    repeat split; auto; apply V.
  - destruct S as (m' & S1 & S2 & S3 & S4).
    { pose proof (owns_not1 _ _ _ G O) as X. destruct (ftype (m_geo m)); [exact X|apply H; discriminate|apply H; discriminate]. }
    exists m'. split; [exact S1|]. split; [exact S2|]. split; [|exact S3].
    pose proof (kept_entry m m' G S2) as En. destruct O as [O1 O2 O3 O4 O5 O6]. constructor.
    + apply S2.
    + eapply Forall_impl; [|exact O2]. intros l L. eapply chain_ext; [|exact L]. intros c C. apply En. lia.
    + exact O3.
    + intros c C I. rewrite En by lia. now apply O4.
    + left. rewrite S3. rewrite !count_zeros. clear - En N.
      assert (X : forall n c, 0 <= c -> c + Z.of_nat n <= n_fatent (m_geo m) -> zeros_from (entry (m_geo m) (m_vol m)) c n = zeros_from (entry (m_geo m) (m_vol m')) c n).
      { induction n as [|n IH]; intros c C L; cbn [zeros_from]; [reflexivity|]. rewrite En by lia. f_equal. apply IH; lia. }
      apply X; lia.
    + destruct S2 as (_ & _ & _ & _ & _ & S2 & _). rewrite S2. exact O6.
Qed.
