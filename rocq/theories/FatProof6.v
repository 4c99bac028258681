(* Cutting chains, and histories. *)
From Coq Require Import ZifyClasses ZifyInst ZifyBool Permutation.
From Verif Require Import Base FatModel FatSpec FatProof FatProof2 FatProof3 FatProof4 FatProof5.
Open Scope Z_scope.
Ltac Zify.zify_post_hook ::= Z.div_mod_to_equations.

Definition freed (l : list Z) (E : Z -> Z) (c : Z) : Z := if in_dec Z.eq_dec c l then 0 else E c.

Lemma remove_loop_ok g l : forall v c fuel, geo_ok g -> vol_ok g v -> chain g (entry g v) (c :: l) -> NoDup (c :: l) -> free_right g v ->
  (length l < fuel)%nat ->
  exists v', remove_loop fuel g v c = Ok (v', FR_OK) /\ estep g v v' (freed (c :: l) (entry g v)) /\ free_right g v' /\ last_clst v' = last_clst v.
Proof.
  induction l as [|d l IH]; intros v c [|k] G V C N F Fu; try (cbn in Fu; lia); cbn [remove_loop];
    pose proof (ent_small g G) as (N1 & N2 & N3 & N4); destruct C as (C1 & C2 & C3).
  all: destruct (get_entry g v c G V C1) as (v1 & E1 & S1 & I1); rewrite E1; cbn [bind].
  all: assert (R : 2 <= entry g v c < 4294967295) by (pose proof (entry_range g v c V); cbn in C3; lia).
  all: replace (entry g v c =? 0) with false by lia; replace (entry g v c =? 1) with false by lia;
       replace (entry g v c =? ERR) with false by (unfold ERR; lia).
  all: destruct (put_entry g v1 c 0 G (es_ok _ _ _ _ S1) C1 ltac:(lia)) as (v2 & E2 & S2 & I2); rewrite E2; cbn [bind]; cbv zeta.
  all: rewrite (w32_id (n_fatent g - 2)) by lia.
  all: assert (EE : forall y, 0 <= y < n_fatent g -> entry g v2 y = upd (entry g v) c 0 y)
         by (intros y Hy; rewrite (es_ent _ _ _ _ S2) by auto; unfold upd; destruct (y =? c); [rewrite Z.mod_0_l by lia; auto|]; now apply S1).
  all: assert (CT : count_free g (entry g v2) = count_free g (entry g v) + 1)
         by (apply (count_take g _ _ c); try lia; [rewrite EE by lia; apply upd_eq|intros y Hy D; rewrite EE by lia; now rewrite upd_ne]).
  all: assert (FI : free_clst v2 = free_clst v /\ last_clst v2 = last_clst v)
         by (destruct I1 as (I11 & I12 & _), I2 as (I21 & I22 & _); rewrite I21, I22; auto).
  all: destruct FI as [FI LI].
  all: set (v3 := if free_clst v2 <? n_fatent g - 2 then _ else v2).
  all: assert (ES3 : forall y, entry g v3 y = entry g v2 y) by (intros y; unfold v3; destruct (free_clst v2 <? n_fatent g - 2); reflexivity).
  all: assert (S3 : estep g v v3 (upd (entry g v) c 0)).
  all: try (apply (es_ext g v v3 (entry g v2)); [|auto]; assert (T : estep g v v2 (entry g v2))
       by (constructor; [apply S2|auto|intros s o M O; rewrite (es_out _ _ _ _ S2), (es_out _ _ _ _ S1) by auto; auto|apply (es_win _ _ _ _ (es_trans _ _ _ _ _ _ S1 S2))]);
       unfold v3; destruct (free_clst v2 <? n_fatent g - 2); [now apply es_info|auto]).
  all: assert (F3 : free_right g v3)
         by (pose proof (count_le g (entry g v2) ltac:(lia)); pose proof (count_le g (entry g v) ltac:(lia)); unfold free_right;
             rewrite (count_same g (entry g v3) (entry g v2)) by (try lia; auto);
             unfold v3; rewrite FI; destruct F as [F|F]; rewrite F;
             [left; replace (count_free g (entry g v) <? n_fatent g - 2) with true by lia; cbn; rewrite w32_id by lia; lia
             |right; unfold ERR; replace (4294967295 <? n_fatent g - 2) with false by lia; rewrite FI, F; auto]).
  all: assert (L3 : last_clst v3 = last_clst v) by (unfold v3; destruct (free_clst v2 <? n_fatent g - 2); auto).
  - replace (entry g v c <? n_fatent g) with false by lia. exists v3. split; [auto|]. split; [|auto].
    eapply es_ext; [exact S3|]. intros y Hy. unfold freed, upd. destruct (in_dec Z.eq_dec y [c]) as [[->|[]]|Q].
    + now rewrite Z.eqb_refl.
    + destruct (Z.eqb_spec y c) as [->|]; [|auto]. exfalso. apply Q. now left.
  - cbn in C3. inversion N as [|? ? N5 N6]; subst. replace (entry g v c <? n_fatent g) with true by lia.
    destruct (IH v3 (entry g v c) k G (es_ok _ _ _ _ S3)) as (v' & E' & S' & F' & L'); auto.
    + apply (chain_ext g (entry g v)); [|cbn; auto]. intros y Hy. symmetry. rewrite (es_ent _ _ _ _ S3).
      * apply upd_ne. intros ->. auto.
      * assert (C' : chain g (entry g v) (entry g v c :: l)) by (cbn; auto). pose proof (chain_in g _ _ y C' Hy). lia.
    + cbn in Fu. lia.
    + exists v'. split; [auto|]. split; [|split; [auto|congruence]]. eapply es_ext; [eapply es_trans; [exact S3|exact S']|].
      intros y Hy. unfold freed. destruct (in_dec Z.eq_dec y (entry g v c :: l)) as [Q|Q].
      * destruct (in_dec Z.eq_dec y (c :: entry g v c :: l)) as [|Q2]; [auto|]. exfalso. apply Q2. now right.
      * rewrite (es_ent _ _ _ _ S3) by auto. unfold upd. destruct (Z.eqb_spec y c) as [->|D].
        -- destruct (in_dec Z.eq_dec c (c :: entry g v c :: l)) as [|Q2]; [auto|]. exfalso. apply Q2. now left.
        -- destruct (in_dec Z.eq_dec y (c :: entry g v c :: l)) as [[Q2|Q2]|]; [congruence|tauto|auto].
Qed.

Lemma chain_len g E l : chain g E l -> NoDup l -> (length l <= Z.to_nat (n_fatent g - 2))%nat.
Proof.
  intros C N. destruct l as [|a l']; [cbn; lia|]. assert (B : 2 < n_fatent g) by (destruct C; lia).
  pose proof (clusters_len g B) as L. assert ((length (a :: l') <= length (clusters g))%nat); [|lia].
  apply NoDup_incl_length; [auto|]. intros c Hc. apply in_clusters; auto. now apply (chain_in g E (a :: l') c C).
Qed.

Lemma nodup_app_r (a b : list Z) : NoDup (a ++ b) -> NoDup b.
Proof. induction a as [|x a IH]; cbn; auto. intros N. inversion N; auto. Qed.
Lemma nodup_app_l (a b : list Z) : NoDup (a ++ b) -> NoDup a.
Proof. induction a as [|x a IH]; cbn; [constructor|]. intros N. inversion N; subst. constructor; auto. intros Q. auto using in_or_app. Qed.
Lemma nodup_app_disj (a b : list Z) x : NoDup (a ++ b) -> In x a -> In x b -> False.
Proof. induction a as [|y a IH]; cbn; [easy|]. intros N [->|I] J; inversion N; subst; auto. apply H1. apply in_or_app. auto. Qed.
Lemma in_firstn {A} (l : list A) k x : In x (firstn k l) -> In x l.
Proof. intros H. rewrite <- (firstn_skipn k l). apply in_or_app. auto. Qed.
Lemma in_skipn {A} (l : list A) k x : In x (skipn k l) -> In x l.
Proof. intros H. rewrite <- (firstn_skipn k l). apply in_or_app. auto. Qed.

Lemma skipn_nth (l : list Z) k : (k < length l)%nat -> skipn k l = nth k l 0 :: skipn (S k) l.
Proof. revert k. induction l as [|a l IH]; intros [|k] H; cbn in *; try lia; auto. apply IH. lia. Qed.

(* Cutting chain i down to k clusters. *)
Lemma cut_ok g v cs i k fuel : geo_ok g -> owns g v cs -> (i < length cs)%nat -> n_fatent g <= Z.of_nat fuel ->
  let l := nth i cs [] in (k < length l)%nat ->
  exists v', remove_chain fuel g v (nth k l 0) (match k with O => 0 | S j => nth j l 0 end) = Ok (v', FR_OK) /\
    same_outside g v v' /\ owns g v' (edit cs i (firstn k l)) /\
    (forall c, In c (skipn k l) -> entry g v' c = 0) /\
    (forall c, 2 <= c < n_fatent g -> ~ In c l -> entry g v' c = entry g v c) /\
    last_clst v' = last_clst v /\ (winsect v' = winsect v \/ in_fat g (winsect v')).
Proof.
  intros G O I Fu l K. pose proof (ent_small g G) as (N1 & N2 & N3 & N4).
  pose proof (ow_vol _ _ _ O) as V. pose proof (ow_free _ _ _ O) as F. pose proof (ow_last _ _ _ O) as L.
  assert (IL : In l cs) by (apply nth_In; auto).
  assert (CL : chain g (entry g v) l) by (pose proof (ow_chain _ _ _ O) as C; rewrite Forall_forall in C; auto).
  assert (ND : NoDup (l ++ concat (firstn i cs ++ skipn (S i) cs))) by (eapply Permutation_NoDup; [apply at_perm; exact I|apply O]).
  assert (NL : NoDup l) by (now apply nodup_app_l in ND).
  assert (SUB : forall c, In c l -> In c (concat cs)) by (intros c Hc; apply in_concat; eauto).
  assert (NS : NoDup (firstn k l ++ skipn k l)) by (now rewrite firstn_skipn).
  set (c := nth k l 0). pose proof (skipn_nth l k K) as SK. fold c in SK.
  assert (Hc : 2 <= c < n_fatent g /\ 2 <= entry g v c) by (apply (chain_in g _ l); auto; apply nth_In; auto).
  set (p := match k with O => 0 | S j => nth j l 0 end).
  assert (Hp : (k <> 0%nat) -> In p (firstn k l) /\ p = nth (k - 1) l 0 /\ 2 <= p < n_fatent g /\ 2 <= entry g v p).
  { intros Q. destruct k as [|j]; [easy|]. unfold p. split.
    - rewrite (split_at l j 0) at 2 by lia. rewrite firstn_app, firstn_length. replace (Nat.min j (length l)) with j by lia.
      apply in_or_app. right. replace (S j - j)%nat with 1%nat by lia. now left.
    - split; [f_equal; lia|]. apply (chain_in g _ l); auto. apply nth_In. lia. }
  (* after marking the end *)
  assert (A : exists v1, (if negb (p =? 0) then put_fat g v p ERR else Ok (v, FR_OK)) = Ok (v1, FR_OK) /\
              estep g v v1 (if negb (p =? 0) then upd (entry g v) p (ERR mod modulus (ftype g)) else entry g v) /\ same_info v v1).
  { destruct (Z.eqb_spec p 0) as [Q|Q]; cbn [negb].
    - exists v. split; [auto|]. split; [now apply es_refl|now unfold same_info].
    - destruct (put_entry g v p ERR G V) as (v1 & E1 & S1 & I1); [|unfold ERR; lia|exists v1; auto].
      apply Hp. intros ->. now apply Q. }
  destruct A as (v1 & E1 & S1 & I1).
  assert (PZ : (p =? 0) = (k =? 0)%nat).
  { destruct k as [|j]; [reflexivity|]. destruct Hp as (_ & _ & Hp & _); [discriminate|]. cbn [Nat.eqb]. lia. }
  assert (EE : forall y, 0 <= y < n_fatent g -> (k = 0%nat \/ y <> p) -> entry g v1 y = entry g v y).
  { intros y Hy D. rewrite (es_ent _ _ _ _ S1) by auto. rewrite PZ. destruct k; cbn [Nat.eqb negb]; [auto|]. destruct D; [discriminate|]. now apply upd_ne. }
  assert (NP : forall y, In y (skipn k l) -> k = 0%nat \/ y <> p).
  { intros y Hy. destruct k as [|j]; [now left|right]. intros ->. destruct Hp as (Hp & _); [discriminate|]. eapply nodup_app_disj; eauto. }
  assert (CS : chain g (entry g v1) (c :: skipn (S k) l)).
  { rewrite <- SK. apply (chain_ext g (entry g v)); [|now apply chain_tail]. intros y Hy. symmetry. apply EE; [|auto].
    pose proof (chain_in g _ l y CL (in_skipn _ _ _ Hy)). lia. }
  assert (EP : k <> 0%nat -> entry g v1 p = ERR mod modulus (ftype g)).
  { intros Q. destruct (Hp Q) as (_ & _ & R & _). rewrite (es_ent _ _ _ _ S1) by lia. rewrite PZ. destruct k; [easy|]. cbn [Nat.eqb negb]. apply upd_eq. }
  assert (F1 : free_right g v1).
  { unfold free_right. destruct I1 as (I1 & _). rewrite I1.
    replace (count_free g (entry g v1)) with (count_free g (entry g v)); [apply F|].
    unfold count_free. f_equal. f_equal. apply filter_same. intros y Hy. apply in_clusters in Hy; [|lia]. unfold free_in.
    destruct (Nat.eq_dec k 0) as [Q|Q]; [rewrite EE by (auto; lia); auto|].
    destruct (Z.eq_dec y p) as [->|D]; [|rewrite EE by (auto; lia); auto]. rewrite EP by auto. destruct (Hp Q) as (_ & _ & _ & R). lia. }
  assert (NT : NoDup (c :: skipn (S k) l)) by (rewrite <- SK; now apply nodup_app_r in NS).
  destruct (remove_loop_ok g (skipn (S k) l) v1 c fuel G (es_ok _ _ _ _ S1) CS NT F1) as (v2 & E2 & S2 & F2 & L2).
  { pose proof (chain_len g _ _ CL NL). rewrite skipn_length. lia. }
  rewrite <- SK in S2.
  exists v2. split.
  { unfold remove_chain. fold c. fold p. replace ((c <? 2) || (n_fatent g <=? c)) with false by lia.
    destruct (negb (p =? 0)); [rewrite E1; cbn [bind]; auto|]. injection E1 as <-. auto. }
  assert (S12 : estep g v v2 (freed (skipn k l) (entry g v1))) by (eapply es_trans; eauto).
  split; [apply S12|].
  assert (EF : forall y, 2 <= y < n_fatent g -> ~ In y (skipn k l) -> entry g v2 y = entry g v1 y).
  { intros y Hy Q. rewrite (es_ent _ _ _ _ S12) by lia. unfold freed. now destruct (in_dec Z.eq_dec y (skipn k l)). }
  assert (EO : forall y, 2 <= y < n_fatent g -> ~ In y l -> entry g v2 y = entry g v y).
  { intros y Hy Q. rewrite EF; [apply EE; [lia|]|auto|intros J; apply Q; now apply in_skipn in J].
    destruct (Nat.eq_dec k 0) as [->|K0]; [now left|right]. intros ->. apply Q. destruct (Hp K0) as (J & _). now apply in_firstn in J. }
  assert (E0 : forall y, In y (skipn k l) -> entry g v2 y = 0).
  { intros y Hy. pose proof (chain_in g _ l y CL (in_skipn _ _ _ Hy)). rewrite (es_ent _ _ _ _ S12) by lia. unfold freed.
    now destruct (in_dec Z.eq_dec y (skipn k l)). }
  assert (LL : last_clst v2 = last_clst v) by (rewrite L2; apply I1).
  split; [|split; [auto|split; [auto|split; [auto|apply S12]]]].
  constructor.
  - apply S12.
  - apply (edit_forall (chain g (entry g v))); auto; [apply O| |].
    + intros m Hm Cm. apply (chain_ext g (entry g v)); auto. intros y Hy. symmetry.
      pose proof (chain_in g _ m y Cm Hy) as [R _]. apply EO; [auto|]. intros Q. eapply nodup_app_disj; [exact ND|exact Q|]. apply in_concat. eauto.
    + destruct (Nat.eq_dec k 0) as [->|K0]; [exact Logic.I|]. destruct (Hp K0) as (P1 & P2 & P3 & P4).
      apply (chain_cut g (entry g v)); auto; [lia|lia|..].
      * rewrite <- P2. rewrite EF; [rewrite EP; auto|auto|]. intros Q. eapply nodup_app_disj; [exact NS|exact P1|exact Q].
      * intros y Hy. assert (In y (firstn k l)).
        { replace (firstn (k - 1) l) with (firstn (k - 1) (firstn k l)) in Hy by (rewrite firstn_firstn; f_equal; lia). now apply in_firstn in Hy. }
        pose proof (chain_in g _ l y CL (in_firstn _ _ _ H)) as [R _].
        rewrite EF; [apply EE; [lia|]|auto|intros Q; eapply nodup_app_disj; [exact NS|exact H|exact Q]].
        right. intros ->. rewrite P2 in Hy.
        (* the last one does not occur before *)
        assert (SP : firstn k l = firstn (k - 1) l ++ [nth (k - 1) l 0]).
        { rewrite (split_at l (k - 1) 0) at 1 by lia. rewrite firstn_app, firstn_length. rewrite firstn_firstn.
          replace (Nat.min k (k - 1)) with (k - 1)%nat by lia. replace (k - Nat.min (k - 1) (length l))%nat with 1%nat by lia. reflexivity. }
        rewrite SP in NS. apply nodup_app_l in NS. eapply nodup_app_disj; [exact NS|exact Hy|now left].
  - eapply Permutation_NoDup; [symmetry; apply edit_perm; auto|].
    rewrite <- (firstn_skipn k l) in ND. rewrite <- app_assoc in ND.
    apply (nodup_app_r (skipn k l)). eapply Permutation_NoDup; [|exact ND]. rewrite !app_assoc. apply Permutation_app_tail. apply Permutation_app_comm.
  - intros y Hy Ny. destruct (in_dec Z.eq_dec y (skipn k l)) as [Q|Q]; [left; auto|].
    assert (NI : ~ In y (concat cs)).
    { intros J. apply Ny. eapply Permutation_in; [symmetry; apply edit_perm; auto|].
      pose proof (Permutation_in _ (at_perm cs i I) J) as J'. apply in_app_or in J'. apply in_or_app. destruct J' as [J'|J']; [left|now right].
      fold l in J'. rewrite <- (firstn_skipn k l) in J'. apply in_app_or in J'. tauto. }
    rewrite EO; [now apply O|auto|]. intros J. apply NI. auto.
  - exact F2.
  - now rewrite LL.
Qed.

(* --- histories -------------------------------------------------------------------------- *)

Lemma edit_length {A} (l : list A) i x : (i < length l)%nat -> length (edit l i x) = length l.
Proof. intros. unfold edit. rewrite app_length, firstn_length. cbn [length]. rewrite skipn_length. lia. Qed.

Lemma fop_ok g v cs x fuel : geo_ok g -> owns g v cs -> n_fatent g <= Z.of_nat fuel ->
  exists v' cs', do_fop fuel g v cs x = Ok (v', cs') /\ owns g v' cs' /\ same_outside g v v' /\ length cs' = length cs.
Proof.
  intros G O Fu. destruct x as [i|i k]; cbn [do_fop].
  - destruct (Nat.ltb_spec i (length cs)) as [I|I].
    + destruct (grow_ok g v cs i fuel G O I Fu) as (v' & x & E & SO & _ & P). rewrite E. cbn [bind].
      destruct P as [(-> & _ & _ & _ & P)|(P1 & _ & _ & P & _)].
      * change (0 =? 0) with true. exists v', cs. auto.
      * replace (x =? 0) with false by lia. exists v', (edit cs i (nth i cs [] ++ [x])). split; [auto|]. split; [auto|]. split; [auto|]. now apply edit_length.
    + exists v, cs. split; [auto|]. split; [auto|]. split; [|auto]. intros s o M B. auto.
  - destruct (Nat.ltb_spec k (length (nth i cs []))) as [K|K].
    + assert (I : (i < length cs)%nat).
      { destruct (Nat.lt_ge_cases i (length cs)) as [|Q]; [auto|]. rewrite nth_overflow in K by auto. cbn in K. lia. }
      destruct (cut_ok g v cs i k fuel G O I Fu K) as (v' & E & SO & P & _). rewrite E. cbn [bind].
      exists v', (edit cs i (firstn k (nth i cs []))). split; [auto|]. split; [auto|]. split; [auto|]. now apply edit_length.
    + exists v, cs. split; [auto|]. split; [auto|]. split; [|auto]. intros s o M B. auto.
Qed.

Lemma fops_ok g fuel xs : forall v cs, geo_ok g -> owns g v cs -> n_fatent g <= Z.of_nat fuel ->
  exists v' cs', do_fops fuel g v cs xs = Ok (v', cs') /\ owns g v' cs' /\ same_outside g v v' /\ length cs' = length cs.
Proof.
  induction xs as [|x xs IH]; intros v cs G O Fu; cbn [do_fops].
  - exists v, cs. split; [auto|]. split; [auto|]. split; [|auto]. intros s o M B. auto.
  - destruct (fop_ok g v cs x fuel G O Fu) as (v1 & cs1 & E1 & O1 & S1 & L1). rewrite E1. cbn [bind].
    destruct (IH v1 cs1 G O1 Fu) as (v2 & cs2 & E2 & O2 & S2 & L2). exists v2, cs2. split; [auto|]. split; [auto|]. split; [|congruence].
    intros s o M B. rewrite S2, S1; auto.
Qed.

Lemma chain_nth g E l : chain g E l -> forall i, (i < length l)%nat ->
  2 <= nth i l 0 < n_fatent g /\ ((S i < length l)%nat -> E (nth i l 0) = nth (S i) l 0) /\ (S i = length l -> n_fatent g <= E (nth i l 0)).
Proof.
  induction l as [|a l IH]; intros C i H; [cbn in H; lia|]. destruct C as (C1 & C2 & C3). destruct i as [|i].
  - cbn [nth]. split; [auto|]. destruct l as [|b l]; cbn [length nth] in *.
    + split; [lia|auto].
    + split; [auto|lia].
  - cbn [nth length] in *. destruct (IH C3 i ltac:(lia)) as (A1 & A2 & A3). split; [auto|]. split.
    + intros Q. rewrite A2 by lia. auto.
    + intros Q. apply A3. lia.
Qed.

Lemma follows_ok g v cs l : geo_ok g -> owns g v cs -> In l cs -> follows g v l.
Proof.
  intros G O I i H. pose proof (ow_chain _ _ _ O) as C. rewrite Forall_forall in C.
  destruct (chain_nth g _ l (C l I) i H) as (R & A1 & A2).
  destruct (get_entry g v _ G (ow_vol _ _ _ O) R) as (v' & E & _). exists v'. auto.
Qed.
