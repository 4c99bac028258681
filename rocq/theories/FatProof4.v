(* Cluster chains. *)
From Coq Require Import ZifyClasses ZifyInst ZifyBool Permutation.
From Verif Require Import Base FatModel FatSpec FatProof FatProof2 FatProof3.
Open Scope Z_scope.
Ltac Zify.zify_post_hook ::= Z.div_mod_to_equations.

Lemma ent_small g : geo_ok g -> 2 < n_fatent g <= 268435447 /\ n_fatent g < modulus (ftype g) /\ n_fatent g <= ERR mod modulus (ftype g) /\
  modulus (ftype g) <= 268435456.
Proof.
  intros G. pose proof (ok_ent g G). pose proof (ok_type g G). unfold modulus, ERR. destruct (ftype g).
  - change (4294967295 mod 4096) with 4095. lia.
  - change (4294967295 mod 65536) with 65535. lia.
  - change (4294967295 mod 268435456) with 268435455. lia.
Qed.

Lemma entry_range g v c : vol_ok g v -> 0 <= entry g v c < 4294967295.
Proof.
  intros V. unfold entry, entry_of.
  assert (B : forall i, 0 <= fat_byte g v i < 256) by (intros; now apply fat_byte_ok).
  destruct (ftype g); [destruct (Z.even c)|..].
  - pose proof (B (3 * c / 2)). pose proof (B (3 * c / 2 + 1)). lia.
  - pose proof (B (3 * c / 2)). pose proof (B (3 * c / 2 + 1)). lia.
  - pose proof (B (2 * c)). pose proof (B (2 * c + 1)). lia.
  - pose proof (B (4 * c)). pose proof (B (4 * c + 1)). pose proof (B (4 * c + 2)). pose proof (B (4 * c + 3)). lia.
Qed.

(* --- counting ------------------------------------------------------------------ *)

Lemma in_clusters g c : 2 < n_fatent g -> In c (clusters g) <-> 2 <= c < n_fatent g.
Proof.
  intros N. unfold clusters. rewrite in_map_iff. split.
  - intros (i & <- & H). apply in_seq in H. lia.
  - intros H. exists (Z.to_nat (c - 2)). split; [lia|]. apply in_seq. lia.
Qed.
Lemma clusters_nodup g : NoDup (clusters g).
Proof. unfold clusters. apply FinFun.Injective_map_NoDup; [|apply seq_NoDup]. intros a b H. lia. Qed.
Lemma clusters_len g : 2 < n_fatent g -> Z.of_nat (length (clusters g)) = n_fatent g - 2.
Proof. intros. unfold clusters. rewrite map_length, seq_length. lia. Qed.

Lemma filter_same {A} (f h : A -> bool) l : (forall x, In x l -> f x = h x) -> filter f l = filter h l.
Proof. induction l as [|x l IH]; cbn; intros H; auto. rewrite H by auto. rewrite IH by auto. auto. Qed.
Lemma filter_one (f h : Z -> bool) l x : NoDup l -> In x l -> f x = true -> h x = false ->
  (forall y, In y l -> y <> x -> f y = h y) -> length (filter f l) = S (length (filter h l)).
Proof.
  induction l as [|y l IH]; cbn; intros N I F H Q; [tauto|]. inversion N; subst. destruct (Z.eq_dec y x) as [->|D].
  - rewrite F, H. cbn. f_equal. f_equal. apply filter_same. intros z Hz. apply Q; auto. intros ->. auto.
  - destruct I as [|I]; [lia|]. rewrite <- (Q y) by auto. destruct (f y); cbn; rewrite IH; auto.
Qed.
Lemma filter_all {A} (f : A -> bool) l : (length (filter f l) <= length l)%nat.
Proof. induction l as [|x l IH]; cbn; auto. destruct (f x); cbn; lia. Qed.

Lemma count_same g E F : 2 < n_fatent g -> (forall c, 2 <= c < n_fatent g -> E c = F c) -> count_free g E = count_free g F.
Proof.
  intros N H. unfold count_free. f_equal. f_equal. apply filter_same. intros c Hc. apply in_clusters in Hc; auto. unfold free_in. now rewrite H.
Qed.
Lemma count_take g E F x : 2 < n_fatent g -> 2 <= x < n_fatent g -> E x = 0 -> F x <> 0 ->
  (forall c, 2 <= c < n_fatent g -> c <> x -> (E c =? 0) = (F c =? 0)) -> count_free g E = count_free g F + 1.
Proof.
  intros N X Ex Fx H. unfold count_free. rewrite (filter_one (free_in E) (free_in F) (clusters g) x).
  - lia.
  - apply clusters_nodup.
  - now apply in_clusters.
  - unfold free_in. lia.
  - unfold free_in. lia.
  - intros y Hy D. apply in_clusters in Hy; auto. unfold free_in. now apply H.
Qed.
Lemma count_le g E : 2 < n_fatent g -> 0 <= count_free g E <= n_fatent g - 2.
Proof. intros. unfold count_free. pose proof (filter_all (free_in E) (clusters g)). pose proof (clusters_len g H). lia. Qed.
Lemma count_zero g E : 2 < n_fatent g -> count_free g E = 0 -> forall c, 2 <= c < n_fatent g -> E c <> 0.
Proof.
  intros N C c Hc Q. unfold count_free in C. assert (I : In c (filter (free_in E) (clusters g))).
  { apply filter_In. split; [now apply in_clusters|]. unfold free_in. lia. }
  destruct (filter (free_in E) (clusters g)); [easy|]. cbn in C. lia.
Qed.

(* --- search --------------------------------------------------------------------- *)

Definition usable (g : geo) (E : Z -> Z) : Prop := forall c, 2 <= c < n_fatent g -> E c <> 1.

(* What a search finds. *)
Definition search_post (g : geo) (v : vol) (r : vol * Z * bool) : Prop :=
  let '(v', x, found) := r in
  estep g v v' (entry g v) /\ same_info v v' /\
  if (found : bool) then 2 <= x < n_fatent g /\ entry g v x = 0
  else x = 0 /\ forall c, 2 <= c < n_fatent g -> entry g v c <> 0.

Lemma search_ok g fuel : forall v ncl scl, geo_ok g -> vol_ok g v -> usable g (entry g v) -> 1 <= scl < n_fatent g ->
  (scl <= ncl < n_fatent g /\ (forall c, scl < c <= ncl -> entry g v c <> 0) /\ (n_fatent g - ncl) + scl <= Z.of_nat fuel \/
   2 <= ncl < scl /\ (forall c, scl < c < n_fatent g -> entry g v c <> 0) /\ (forall c, 2 <= c <= ncl -> entry g v c <> 0) /\ scl - ncl <= Z.of_nat fuel) ->
  exists r, search fuel g v ncl scl = Ok r /\ search_post g v r.
Proof.
  induction fuel as [|k IH]; intros v ncl scl G V U B C; [exfalso; lia|]. cbn [search].
  pose proof (ent_small g G) as (N1 & _). rewrite w32_id by (destruct C; lia).
  destruct C as [(C1 & C2 & C3)|(C1 & C2 & C3 & C4)].
  - destruct (Z.leb_spec (n_fatent g) (ncl + 1)) as [L|L].
    + (* wrap *)
      destruct (Z.ltb_spec scl 2) as [Q|Q]; cbn [andb].
      * eexists. split; [reflexivity|]. cbn. split; [now apply es_refl|]. split; [now unfold same_info|]. split; [auto|].
        intros c Hc. apply C2. lia.
      * destruct (get_entry g v 2 G V ltac:(lia)) as (v1 & E1 & S1 & I1). rewrite E1. cbn [bind].
        destruct (Z.eqb_spec (entry g v 2) 0) as [Z0|Z0].
        { eexists. split; [reflexivity|]. cbn. split; [auto|]. split; [auto|]. lia. }
        replace ((entry g v 2 =? 1) || (entry g v 2 =? ERR)) with false
          by (pose proof (entry_range g v 2 V); specialize (U 2 ltac:(lia)); unfold ERR; lia).
        assert (EE : forall c, 0 <= c < n_fatent g -> entry g v1 c = entry g v c) by apply S1.
        destruct (Z.eqb_spec 2 scl) as [Q2|Q2].
        { eexists. split; [reflexivity|]. cbn. split; [auto|]. split; [auto|]. split; [auto|]. intros c Hc.
          destruct (Z.eq_dec c 2) as [->|]; [auto|]. apply C2. lia. }
        destruct (IH v1 2 scl G (es_ok _ _ _ _ S1)) as (r & Er & P).
        { intros c Hc. rewrite EE by lia. now apply U. }
        { lia. }
        { right. split; [lia|]. split; [intros c Hc; rewrite EE by lia; apply C2; lia|]. split; [|lia].
          intros c Hc. replace c with 2 by lia. now rewrite EE by lia. }
        exists r. split; [auto|]. destruct r as [[v2 x] found]. cbn in *. destruct P as (P1 & P2 & P3).
        split; [eapply es_ext; [eapply es_trans; eauto|]; auto|]. split; [eapply info_trans; eauto|].
        destruct found.
        { split; [apply P3|]. rewrite <- EE by lia. apply P3. }
        { split; [apply P3|]. intros c Hc. rewrite <- EE by lia. now apply P3. }
    + cbn [andb]. destruct (get_entry g v (ncl + 1) G V ltac:(lia)) as (v1 & E1 & S1 & I1). rewrite E1. cbn [bind].
      destruct (Z.eqb_spec (entry g v (ncl + 1)) 0) as [Z0|Z0].
      { eexists. split; [reflexivity|]. cbn. split; [auto|]. split; [auto|]. lia. }
      replace ((entry g v (ncl + 1) =? 1) || (entry g v (ncl + 1) =? ERR)) with false
        by (pose proof (entry_range g v (ncl + 1) V); specialize (U (ncl + 1) ltac:(lia)); unfold ERR; lia).
      assert (EE : forall c, 0 <= c < n_fatent g -> entry g v1 c = entry g v c) by apply S1.
      replace (ncl + 1 =? scl) with false by lia.
      destruct (IH v1 (ncl + 1) scl G (es_ok _ _ _ _ S1)) as (r & Er & P).
      { intros c Hc. rewrite EE by lia. now apply U. }
      { lia. }
      { left. split; [lia|]. split; [|lia]. intros c Hc. rewrite EE by lia. destruct (Z.eq_dec c (ncl + 1)) as [->|]; [auto|]. apply C2. lia. }
      exists r. split; [auto|]. destruct r as [[v2 x] found]. cbn in *. destruct P as (P1 & P2 & P3).
      split; [eapply es_ext; [eapply es_trans; eauto|]; auto|]. split; [eapply info_trans; eauto|].
      destruct found.
      { split; [apply P3|]. rewrite <- EE by lia. apply P3. }
      { split; [apply P3|]. intros c Hc. rewrite <- EE by lia. now apply P3. }
  - replace (n_fatent g <=? ncl + 1) with false by lia. cbn [andb].
    destruct (get_entry g v (ncl + 1) G V ltac:(lia)) as (v1 & E1 & S1 & I1). rewrite E1. cbn [bind].
    destruct (Z.eqb_spec (entry g v (ncl + 1)) 0) as [Z0|Z0].
    { eexists. split; [reflexivity|]. cbn. split; [auto|]. split; [auto|]. lia. }
    replace ((entry g v (ncl + 1) =? 1) || (entry g v (ncl + 1) =? ERR)) with false
      by (pose proof (entry_range g v (ncl + 1) V); specialize (U (ncl + 1) ltac:(lia)); unfold ERR; lia).
    assert (EE : forall c, 0 <= c < n_fatent g -> entry g v1 c = entry g v c) by apply S1.
    destruct (Z.eqb_spec (ncl + 1) scl) as [Q2|Q2].
    { eexists. split; [reflexivity|]. cbn. split; [auto|]. split; [auto|]. split; [auto|]. intros c Hc.
      destruct (Z.eq_dec c (ncl + 1)) as [->|]; [auto|]. destruct (Z_lt_le_dec c scl); [apply C3; lia|apply C2; lia]. }
    destruct (IH v1 (ncl + 1) scl G (es_ok _ _ _ _ S1)) as (r & Er & P).
    { intros c Hc. rewrite EE by lia. now apply U. }
    { lia. }
    { right. split; [lia|]. split; [intros c Hc; rewrite EE by lia; now apply C2|]. split; [|lia].
      intros c Hc. rewrite EE by lia. destruct (Z.eq_dec c (ncl + 1)) as [->|]; [auto|]. apply C3. lia. }
    exists r. split; [auto|]. destruct r as [[v2 x] found]. cbn in *. destruct P as (P1 & P2 & P3).
    split; [eapply es_ext; [eapply es_trans; eauto|]; auto|]. split; [eapply info_trans; eauto|].
    destruct found.
    { split; [apply P3|]. rewrite <- EE by lia. apply P3. }
    { split; [apply P3|]. intros c Hc. rewrite <- EE by lia. now apply P3. }
Qed.

(* --- linking ---------------------------------------------------------------------- *)

Definition free_right (g : geo) (v : vol) : Prop := free_clst v = count_free g (entry g v) \/ free_clst v = ERR.

Definition linked (g : geo) (v : vol) (c x : Z) : Z -> Z :=
  if c =? 0 then upd (entry g v) x (ERR mod modulus (ftype g))
  else upd (upd (entry g v) x (ERR mod modulus (ftype g))) c x.

Lemma link_ok g v c x : geo_ok g -> vol_ok g v -> 2 <= x < n_fatent g -> entry g v x = 0 ->
  (c = 0 \/ 2 <= c < n_fatent g /\ entry g v c <> 0) -> free_right g v ->
  exists v', link g v c x = Ok (v', x) /\ estep g v v' (linked g v c x) /\ free_right g v' /\ last_clst v' = x.
Proof.
  intros G V X X0 C F. pose proof (ent_small g G) as (N1 & N2 & N3 & N4).
  destruct (put_entry g v x ERR G V X ltac:(unfold ERR; lia)) as (v1 & E1 & S1 & I1). unfold link. rewrite E1. cbn [bind].
  assert (exists v2, (if negb (c =? 0) then put_fat g v1 c x else Ok (v1, FR_OK)) = Ok (v2, FR_OK) /\ estep g v v2 (linked g v c x) /\ same_info v v2) as (v2 & E2 & S2 & I2).
  { unfold linked. destruct (Z.eqb_spec c 0) as [C0|C0]; cbn [negb].
    - exists v1. auto.
    - destruct C as [|[C C']]; [lia|]. destruct (put_entry g v1 c x G (es_ok _ _ _ _ S1) C ltac:(lia)) as (v2 & E2 & S2 & I2).
      exists v2. split; [auto|]. split; [|eapply info_trans; eauto]. eapply es_ext; [eapply es_trans; eauto|].
      intros y Hy. destruct (Z.eq_dec y c) as [->|D]; [rewrite !upd_eq; apply Z.mod_small; lia|].
      rewrite (upd_ne _ c _ y) by auto. rewrite (upd_ne _ c _ y) by auto. now apply S1. }
  rewrite E2. cbn [bind]. eexists. split; [reflexivity|]. split; [now apply es_info|]. split; [|reflexivity].
  unfold free_right. cbn [free_clst set_info].
  assert (CT : count_free g (entry g v) = count_free g (entry g v2) + 1).
  { rewrite (count_same g (entry g v2) (linked g v c x)) by (try lia; intros; apply S2; lia).
    apply (count_take g _ _ x); auto; try lia.
    - unfold linked. destruct (Z.eqb_spec c 0); [rewrite upd_eq; lia|]. destruct C as [|[C C']]; [lia|].
      rewrite upd_ne by (intros ->; congruence). rewrite upd_eq. lia.
    - intros y Hy D. unfold linked. destruct (Z.eqb_spec c 0); [now rewrite upd_ne by auto|]. destruct C as [|[C C']]; [lia|].
      destruct (Z.eq_dec y c) as [->|]; [rewrite upd_eq; lia|]. now rewrite !upd_ne by auto. }
  destruct I2 as (I2 & _). rewrite I2.
  change (entry g (set_info v2 ?a ?b ?c)) with (entry g v2).
  rewrite w32_id by lia. pose proof (count_le g (entry g v2) ltac:(lia)).
  destruct F as [F|F]; rewrite F.
  - left. replace (count_free g (entry g v) <=? n_fatent g - 2) with true by (pose proof (count_le g (entry g v) ltac:(lia)); lia).
    rewrite w32_id by lia. unfold entry, fat_byte, view in *; cbn in *. lia.
  - right. unfold ERR. now replace (4294967295 <=? n_fatent g - 2) with false by lia.
Qed.
