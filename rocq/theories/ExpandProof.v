(* The search for a block of free clusters, and linking it. *)
From Coq Require Import ZifyClasses ZifyInst ZifyBool Permutation.
From Verif Require Import Base FatModel FatSpec FileModel FileSpec FatProof FatProof2 FatProof3 FatProof4 FatProof5 FatProof6 FileProof FileProof2 FileProof3 ExpandModel ExpandSpec.
Open Scope Z_scope.

(* The i-th cluster looked at. *)
Definition cl (g : geo) (st i : Z) : Z := if st + i <? n_fatent g then st + i else st + i - n_fatent g + 2.

Lemma cl_range g st i : 2 <= st < n_fatent g -> 0 <= i < n_fatent g - 2 -> 2 <= cl g st i < n_fatent g.
Proof. unfold cl. intros. destruct (Z.ltb_spec (st + i) (n_fatent g)); lia. Qed.
Lemma cl_next g st i : n_fatent g < 4294967296 -> 2 <= st < n_fatent g -> 0 <= i < n_fatent g - 2 ->
  (if n_fatent g <=? w32 (cl g st i + 1) then 2 else w32 (cl g st i + 1)) = cl g st (i + 1).
Proof.
  intros H S1 Hi. pose proof (cl_range g st i S1 Hi). rewrite w32_id by lia. revert H0. unfold cl.
  destruct (Z.ltb_spec (st + i) (n_fatent g)); destruct (Z.ltb_spec (st + (i + 1)) (n_fatent g)); intros;
    destruct (Z.leb_spec (n_fatent g) (st + i + 1)); try lia; destruct (Z.leb_spec (n_fatent g) (st + i - n_fatent g + 2 + 1)); lia.
Qed.
Lemma cl_st g st i : 2 <= st < n_fatent g -> 0 < i <= n_fatent g - 2 -> (cl g st i =? st) = (i =? n_fatent g - 2).
Proof. intros. unfold cl. destruct (Z.ltb_spec (st + i) (n_fatent g)); lia. Qed.

(* There are n consecutive clusters in the order of the search, free. *)
Definition run_at (g : geo) (E : Z -> Z) (st n a : Z) : Prop :=
  0 <= a /\ a + n <= n_fatent g - 2 /\ forall j, a <= j < a + n -> E (cl g st j) = 0.

Lemma find_ok g E st tcl fuel : geo_ok g -> usable g E -> 2 <= st < n_fatent g -> 0 < tcl ->
  forall v i ncl, vol_ok g v -> (forall c, 0 <= c < n_fatent g -> entry g v c = E c) ->
  0 <= ncl <= i -> ncl < tcl -> i < n_fatent g - 2 ->
  (forall j, i - ncl <= j < i -> E (cl g st j) = 0) -> (ncl < i -> E (cl g st (i - ncl - 1)) <> 0) ->
  (forall a, 0 <= a -> a + tcl <= i -> exists j, a <= j < a + tcl /\ E (cl g st j) <> 0) ->
  n_fatent g - 2 - i <= Z.of_nat fuel ->
  exists v' s r, find_block fuel g v st tcl (cl g st (i - ncl)) (cl g st i) ncl = Ok (v', s, r) /\ estep g v v' E /\ same_info v v' /\
    (r = FR_OK /\ (exists a, run_at g E st tcl a /\ s = cl g st a) \/
     r = FR_DENIED /\ forall a, ~ run_at g E st tcl a).
Proof.
  intros G U S1 T. pose proof (ent_small g G) as (N1 & _).
  induction fuel as [|k IH]; intros v i ncl V EE I1 I2 I3 R1 R2 R3 F; [exfalso; lia|]. cbn [find_block].
  pose proof (cl_range g st i S1 ltac:(lia)) as CR.
  destruct (get_entry g v (cl g st i) G V CR) as (v1 & E1 & Es & If). rewrite E1. cbn [bind].
  rewrite cl_next by lia. rewrite EE in * by lia.
  replace (E (cl g st i) =? 1) with false by (specialize (U _ CR); lia).
  replace (E (cl g st i) =? ERR) with false by (pose proof (entry_range g v (cl g st i) V); rewrite EE in * by lia; unfold ERR; lia).
  assert (Es' : estep g v v1 E) by (eapply es_ext; [exact Es|auto]).
  assert (EE1 : forall c, 0 <= c < n_fatent g -> entry g v1 c = E c) by apply Es'.
  destruct (Z.eqb_spec (E (cl g st i)) 0) as [Z0|Z0].
  - rewrite w32_id by lia. destruct (Z.eqb_spec (ncl + 1) tcl) as [Q|Q].
    + exists v1, (cl g st (i - ncl)), FR_OK. split; [auto|]. split; [auto|]. split; [auto|]. left. split; [auto|].
      exists (i - ncl). split; [|auto]. split; [lia|]. split; [lia|]. intros j Hj.
      destruct (Z.eq_dec j i) as [->|]; [auto|]. apply R1. lia.
    + assert (R3' : forall a, 0 <= a -> a + tcl <= i + 1 -> exists j, a <= j < a + tcl /\ E (cl g st j) <> 0).
      { intros a A1 A2. destruct (Z.eq_dec (a + tcl) (i + 1)) as [X|X]; [|apply R3; lia].
        exists (i - ncl - 1). split; [lia|]. apply R2. lia. }
      rewrite cl_st by lia. destruct (Z.eqb_spec (i + 1) (n_fatent g - 2)) as [W|W].
      * exists v1, (cl g st (i - ncl)), FR_DENIED. split; [auto|]. split; [auto|]. split; [auto|]. right. split; [auto|].
        intros a (A1 & A2 & A3). destruct (R3' a A1 ltac:(lia)) as (j & J1 & J2). apply J2. now apply A3.
      * destruct (IH v1 (i + 1) (ncl + 1) (es_ok _ _ _ _ Es) EE1) as (v' & s & r & Ef & P1 & P2 & P3); try lia; auto.
        { intros j Hj. destruct (Z.eq_dec j i) as [->|]; [auto|]. apply R1. lia. }
        { intros X0. replace (i + 1 - (ncl + 1) - 1) with (i - ncl - 1) by lia. apply R2. lia. }
        replace (i + 1 - (ncl + 1)) with (i - ncl) in Ef by lia.
        exists v', s, r. split; [auto|]. split; [eapply es_trans; eauto|]. split; [eapply info_trans; eauto|auto].
  - assert (R3' : forall a, 0 <= a -> a + tcl <= i + 1 -> exists j, a <= j < a + tcl /\ E (cl g st j) <> 0).
    { intros a A1 A2. destruct (Z.eq_dec (a + tcl) (i + 1)) as [X|X]; [|apply R3; lia]. exists i. split; [lia|auto]. }
    rewrite cl_st by lia. destruct (Z.eqb_spec (i + 1) (n_fatent g - 2)) as [W|W].
    + eexists v1, _, FR_DENIED. split; [reflexivity|]. split; [auto|]. split; [auto|]. right. split; [auto|].
      intros a (A1 & A2 & A3). destruct (R3' a A1 ltac:(lia)) as (j & J1 & J2). apply J2. now apply A3.
    + destruct (IH v1 (i + 1) 0 (es_ok _ _ _ _ Es) EE1) as (v' & s & r & Ef & P1 & P2 & P3); try lia; auto.
      { intros _. replace (i + 1 - 0 - 1) with i by lia. auto. }
      replace (i + 1 - 0) with (i + 1) in Ef by lia.
      exists v', s, r. split; [auto|]. split; [eapply es_trans; eauto|]. split; [eapply info_trans; eauto|auto].
Qed.

(* The search as a whole. *)
Lemma search_block g v st tcl fuel : geo_ok g -> vol_ok g v -> usable g (entry g v) -> 2 <= st < n_fatent g -> 0 < tcl -> n_fatent g <= Z.of_nat fuel ->
  exists v' s r, find_block fuel g v st tcl st st 0 = Ok (v', s, r) /\ estep g v v' (entry g v) /\ same_info v v' /\
    (r = FR_OK /\ (free_block g (entry g v) s tcl \/ split_block g (entry g v) s tcl /\ st <= s /\ s + tcl - n_fatent g + 2 <= st) \/
     r = FR_DENIED /\ forall s, free_block g (entry g v) s tcl -> s < st < s + tcl).
Proof.
  intros G V U S1 T F. destruct (find_ok g (entry g v) st tcl fuel G U S1 T v 0 0 V) as (v' & s & r & Ef & P1 & P2 & P3); try lia; auto.
  replace (cl g st (0 - 0)) with st in Ef by (unfold cl; destruct (Z.ltb_spec (st + (0 - 0)) (n_fatent g)); lia).
  replace (cl g st 0) with st in Ef by (unfold cl; destruct (Z.ltb_spec (st + 0) (n_fatent g)); lia).
  exists v', s, r. split; [auto|]. split; [auto|]. split; [auto|]. destruct P3 as [(-> & a & (A1 & A2 & A3) & ->)|(-> & P3)].
  - left. split; [auto|]. unfold cl in *. destruct (Z.ltb_spec (st + a) (n_fatent g)) as [L|L].
    + destruct (Z_le_gt_dec (st + a + tcl) (n_fatent g)) as [M|M].
      * left. split; [lia|]. split; [lia|]. intros c Hc. specialize (A3 (c - st) ltac:(lia)).
        replace (st + (c - st) <? n_fatent g) with true in A3 by lia. now replace (st + (c - st)) with c in A3 by lia.
      * right. split; [|lia]. split; [lia|]. split; [lia|]. split; intros c Hc.
        -- specialize (A3 (c - st) ltac:(lia)). replace (st + (c - st) <? n_fatent g) with true in A3 by lia. now replace (st + (c - st)) with c in A3 by lia.
        -- specialize (A3 (c - 2 + n_fatent g - st) ltac:(lia)). replace (st + (c - 2 + n_fatent g - st) <? n_fatent g) with false in A3 by lia.
           now replace (st + (c - 2 + n_fatent g - st) - n_fatent g + 2) with c in A3 by lia.
    + left. split; [lia|]. split; [lia|]. intros c Hc. specialize (A3 (c - 2 + n_fatent g - st) ltac:(lia)). replace (st + (c - 2 + n_fatent g - st) <? n_fatent g) with false in A3 by lia.
      now replace (st + (c - 2 + n_fatent g - st) - n_fatent g + 2) with c in A3 by lia.
  - right. split; [auto|]. intros b (B1 & B2 & B3). destruct (Z_lt_le_dec b st) as [L|L].
    + split; [auto|]. destruct (Z_lt_le_dec st (b + tcl)) as [M|M]; [auto|]. exfalso. apply (P3 (b - 2 + n_fatent g - st)).
      split; [lia|]. split; [lia|]. intros j Hj. unfold cl. replace (st + j <? n_fatent g) with false by lia. apply B3. lia.
    + exfalso. apply (P3 (b - st)). split; [lia|]. split; [lia|]. intros j Hj. unfold cl. replace (st + j <? n_fatent g) with true by lia. apply B3. lia.
Qed.

(* --- linking -------------------------------------------------------------------- *)

Lemma block_in s n c : In c (block s n) <-> s <= c < s + n.
Proof.
  unfold block. rewrite in_map_iff. split.
  - intros (i & <- & I). apply in_seq in I. lia.
  - intros H. exists (Z.to_nat (c - s)). split; [lia|]. apply in_seq. lia.
Qed.
Lemma block_step s n : 0 < n -> block s n = s :: block (s + 1) (n - 1).
Proof.
  intros H. unfold block. replace (Z.to_nat n) with (S (Z.to_nat (n - 1))) by lia. cbn [seq map]. f_equal; [lia|].
  rewrite <- seq_shift, map_map. apply map_ext. intros. lia.
Qed.
Lemma block_none s n : n <= 0 -> block s n = [].
Proof. intros H. unfold block. now replace (Z.to_nat n) with O by lia. Qed.
Lemma block_len s n : length (block s n) = Z.to_nat n.
Proof. unfold block. now rewrite map_length, seq_length. Qed.
Lemma block_nodup s n : NoDup (block s n).
Proof. unfold block. apply FinFun.Injective_map_NoDup; [intros x y H; lia|apply seq_NoDup]. Qed.

(* What linking the block makes of the entries. *)
Definition linked_block (g : geo) (E : Z -> Z) (s n c : Z) : Z :=
  if (s <=? c) && (c <? s + n) then (if c =? s + n - 1 then ERR mod modulus (ftype g) else c + 1) else E c.

Lemma link_block_ok g n : forall v s l, geo_ok g -> vol_ok g v -> 2 <= s -> s + Z.of_nat n <= n_fatent g ->
  exists v', link_block n g v s l = Ok (v', match n with O => l | S _ => s + Z.of_nat n - 1 end, FR_OK) /\
    estep g v v' (linked_block g (entry g v) s (Z.of_nat n)) /\ same_info v v'.
Proof.
  induction n as [|k IH]; intros v s l G V S1 S2; pose proof (ent_small g G) as (N1 & N2 & N3 & N4).
  - exists v. split; [auto|]. split; [|now unfold same_info]. eapply es_ext; [now apply es_refl|]. intros c Hc. unfold linked_block.
    replace ((s <=? c) && (c <? s + Z.of_nat 0)) with false by lia. auto.
  - cbn [link_block]. set (x := match k with O => ERR | S _ => w32 (s + 1) end).
    assert (X : 0 <= x < 4294967296 /\ x mod modulus (ftype g) = if (k =? 0)%nat then ERR mod modulus (ftype g) else s + 1).
    { unfold x. destruct k; cbn [Nat.eqb]; [unfold ERR; split; [lia|auto]|]. rewrite w32_id by lia. split; [lia|]. apply Z.mod_small. lia. }
    destruct X as [X1 X2]. destruct (put_entry g v s x G V ltac:(lia) X1) as (v1 & E1 & Es & If). rewrite E1. cbn [bind]. rewrite w32_id by lia.
    destruct (IH v1 (s + 1) s G (es_ok _ _ _ _ Es) ltac:(lia) ltac:(lia)) as (v2 & E2 & Es2 & If2). rewrite E2.
    exists v2. split; [destruct k; f_equal; f_equal; f_equal; lia|]. split; [|eapply info_trans; eauto].
    eapply es_ext; [eapply es_trans; eauto|]. intros c Hc. unfold linked_block.
    assert (Ec : entry g v1 c = upd (entry g v) s (x mod modulus (ftype g)) c) by (now apply Es).
    destruct (Z.eq_dec c s) as [->|D].
    + replace ((s + 1 <=? s) && (s <? s + 1 + Z.of_nat k)) with false by lia. replace ((s <=? s) && (s <? s + Z.of_nat (S k))) with true by lia.
      rewrite Ec, upd_eq, X2. destruct (Nat.eqb_spec k 0) as [->|K]; [now replace (s =? s + Z.of_nat 1 - 1) with true by lia|].
      now replace (s =? s + Z.of_nat (S k) - 1) with false by lia.
    + replace ((s <=? c) && (c <? s + Z.of_nat (S k))) with ((s + 1 <=? c) && (c <? s + 1 + Z.of_nat k)) by lia.
      destruct ((s + 1 <=? c) && (c <? s + 1 + Z.of_nat k)) eqn:Q.
      * now replace (s + 1 + Z.of_nat k - 1) with (s + Z.of_nat (S k) - 1) by lia.
      * rewrite Ec. now apply upd_ne.
Qed.

(* A block which runs over the end of the volume. *)
Lemma link_split g n : forall v s l, geo_ok g -> vol_ok g v -> 2 <= s <= n_fatent g -> n_fatent g < s + Z.of_nat n ->
  exists v' l', link_block n g v s l = Ok (v', l', FR_INT_ERR) /\
    estep g v v' (fun c => if s <=? c then c + 1 else entry g v c) /\ same_info v v'.
Proof.
  induction n as [|k IH]; intros v s l G V S1 S2; pose proof (ent_small g G) as (N1 & N2 & N3 & N4); [exfalso; lia|].
  cbn [link_block]. destruct (Z.eq_dec s (n_fatent g)) as [->|D].
  - unfold put_fat. replace ((2 <=? n_fatent g) && (n_fatent g <? n_fatent g)) with false by lia. cbn [bind].
    exists v, l. split; [auto|]. split; [|now unfold same_info]. eapply es_ext; [now apply es_refl|]. intros c Hc. cbn beta.
    now replace (n_fatent g <=? c) with false by lia.
  - destruct k as [|k]; [exfalso; lia|]. rewrite w32_id by lia.
    destruct (put_entry g v s (s + 1) G V ltac:(lia) ltac:(lia)) as (v1 & E1 & Es & If). rewrite E1. cbn [bind].
    destruct (IH v1 (s + 1) s G (es_ok _ _ _ _ Es) ltac:(lia) ltac:(lia)) as (v2 & l2 & E2 & Es2 & If2). rewrite E2.
    exists v2, l2. split; [auto|]. split; [|eapply info_trans; eauto]. eapply es_ext; [eapply es_trans; eauto|]. intros c Hc. cbn beta.
    assert (Ec : entry g v1 c = upd (entry g v) s ((s + 1) mod modulus (ftype g)) c) by (now apply Es).
    rewrite Ec. destruct (Z.eq_dec c s) as [->|D2].
    + replace (s + 1 <=? s) with false by lia. replace (s <=? s) with true by lia. rewrite upd_eq. apply Z.mod_small. lia.
    + replace (s <=? c) with (s + 1 <=? c) by lia. destruct (s + 1 <=? c); [auto|]. now apply upd_ne.
Qed.
