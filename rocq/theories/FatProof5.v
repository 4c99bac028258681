(* Extending and cutting chains. *)
From Coq Require Import ZifyClasses ZifyInst ZifyBool Permutation.
From Verif Require Import Base FatModel FatSpec FatProof FatProof2 FatProof3 FatProof4.
Open Scope Z_scope.
Ltac Zify.zify_post_hook ::= Z.div_mod_to_equations.


Definition alloc_post (g : geo) (v : vol) (c : Z) (v' : vol) (x : Z) : Prop :=
  (x = 0 /\ none_free g v /\ estep g v v' (entry g v) /\ same_info v v') \/
  (2 <= x < n_fatent g /\ entry g v x = 0 /\ estep g v v' (linked g v c x) /\ free_right g v' /\ last_clst v' = x).

Lemma linked_moved g v v1 c x : (forall y, 0 <= y < n_fatent g -> entry g v1 y = entry g v y) ->
  forall y, 0 <= y < n_fatent g -> linked g v1 c x y = linked g v c x y.
Proof. intros H y Hy. unfold linked, upd. destruct (c =? 0); [|destruct (y =? c); [auto|]]; destruct (y =? x); auto. Qed.

Lemma moved_free g v v1 : geo_ok g -> (forall y, 0 <= y < n_fatent g -> entry g v1 y = entry g v y) -> same_info v v1 ->
  free_right g v -> free_right g v1.
Proof.
  intros G H (I & _) F. pose proof (ent_small g G). unfold free_right. rewrite I.
  rewrite (count_same g (entry g v1) (entry g v)) by (try lia; intros; apply H; lia). auto.
Qed.

Lemma link_alloc g v v1 c x : geo_ok g -> estep g v v1 (entry g v) -> same_info v v1 -> 2 <= x < n_fatent g -> entry g v x = 0 ->
  (c = 0 \/ 2 <= c < n_fatent g /\ entry g v c <> 0) -> free_right g v ->
  exists v', link g v1 c x = Ok (v', x) /\ alloc_post g v c v' x.
Proof.
  intros G S1 I1 X X0 C F. assert (EE : forall y, 0 <= y < n_fatent g -> entry g v1 y = entry g v y) by apply S1.
  destruct (link_ok g v1 c x G (es_ok _ _ _ _ S1) X) as (v' & E & S2 & F2 & L2).
  - now rewrite EE by lia.
  - destruct C as [|[C C']]; [auto|]. right. split; [auto|]. now rewrite EE by lia.
  - eapply moved_free; eauto.
  - exists v'. split; [auto|]. right. split; [auto|]. split; [auto|]. split; [|auto].
    eapply es_ext; [eapply es_trans; eauto|]. now apply linked_moved.
Qed.

Lemma allocate_ok g v c scl fuel : geo_ok g -> vol_ok g v -> usable g (entry g v) -> free_right g v ->
  0 <= last_clst v < 4294967296 -> n_fatent g <= Z.of_nat fuel ->
  (c = 0 /\ 1 <= scl < n_fatent g \/ 2 <= c < n_fatent g /\ entry g v c <> 0 /\ scl = c) ->
  exists v' x, allocate fuel g v c scl = Ok (v', x) /\ alloc_post g v c v' x.
Proof.
  intros G V U F L Fu C. pose proof (ent_small g G) as (N1 & N2 & N3 & N4). unfold allocate.
  destruct (Z.eqb_spec (free_clst v) 0) as [Z0|Z0].
  { exists v, 0. split; [auto|]. left. split; [auto|]. split; [|split; [now apply es_refl|now unfold same_info]].
    unfold none_free. intros y Hy. apply (count_zero g (entry g v) ltac:(lia)); [|exact Hy]. destruct F as [F|F]; [lia|unfold ERR in F; lia]. }
  assert (CC : c = 0 \/ 2 <= c < n_fatent g /\ entry g v c <> 0) by lia.
  assert (SR : 1 <= scl < n_fatent g) by lia.
  (* the search, from wherever *)
  assert (SE : forall v1 s, estep g v v1 (entry g v) -> same_info v v1 -> 1 <= s < n_fatent g ->
            exists v' x, ('(v, x, found) <- search fuel g v1 s s ;; if (found : bool) then link g v c x else Ok (v, x)) = Ok (v', x) /\ alloc_post g v c v' x).
  { intros v1 s S1 I1 Hs. assert (EE : forall y, 0 <= y < n_fatent g -> entry g v1 y = entry g v y) by apply S1.
    destruct (search_ok g fuel v1 s s G (es_ok _ _ _ _ S1)) as ([[v2 x] found] & E2 & P2).
    - intros y Hy. rewrite EE by lia. now apply U.
    - auto.
    - left. split; [lia|]. split; [intros; lia|lia].
    - rewrite E2. cbn [bind]. cbn in P2. destruct P2 as (S2 & I2 & R).
      assert (S12 : estep g v v2 (entry g v)) by (eapply es_ext; [eapply es_trans; eauto|auto]).
      assert (I12 : same_info v v2) by (eapply info_trans; eauto).
      destruct found.
      + destruct R as [R1 R2]. rewrite EE in R2 by lia.
        destruct (link_alloc g v v2 c x G S12 I12 R1 R2 CC F) as (v' & E3 & P3). exists v', x. auto.
      + destruct R as [-> R]. exists v2, 0. split; [auto|]. left. split; [auto|]. split; [|auto].
        intros y Hy. rewrite <- EE by lia. now apply R. }
  destruct (Z.eqb_spec scl c) as [Q|Q].
  - assert (Hc : 2 <= c < n_fatent g) by lia. cbv zeta.
    rewrite w32_id by lia. set (n1 := if n_fatent g <=? scl + 1 then 2 else scl + 1).
    assert (Hn : 2 <= n1 < n_fatent g) by (unfold n1; destruct (Z.leb_spec (n_fatent g) (scl + 1)); lia).
    destruct (get_entry g v n1 G V Hn) as (v1 & E1 & S1 & I1). rewrite E1. cbn [bind].
    replace ((entry g v n1 =? 1) || (entry g v n1 =? ERR)) with false
      by (pose proof (entry_range g v n1 V); specialize (U n1 Hn); unfold ERR; lia).
    destruct (Z.eqb_spec (entry g v n1) 0) as [E0|E0]; cbn [negb bind].
    + replace (n1 =? 0) with false by lia. destruct (link_alloc g v v1 c n1 G S1 I1 Hn E0 CC F) as (v' & E3 & P3).
      exists v', n1. auto.
    + change (0 =? 0) with true. cbv iota. apply SE; auto.
      destruct ((2 <=? last_clst v1) && (last_clst v1 <? n_fatent g)) eqn:Q1; lia.
  - cbn [bind]. change (0 =? 0) with true. cbv iota. apply SE; auto; [now apply es_refl|now unfold same_info].
Qed.

(* --- chains as lists ----------------------------------------------------------------- *)

Lemma chain_in g E l c : chain g E l -> In c l -> 2 <= c < n_fatent g /\ 2 <= E c.
Proof.
  induction l as [|a l IH]; [easy|]. intros (A & B & C) [->|I]; [|now apply IH]. split; [auto|].
  destruct l as [|d l]; [lia|]. cbn in C. lia.
Qed.
Lemma chain_ext g E F l : (forall c, In c l -> E c = F c) -> chain g E l -> chain g F l.
Proof.
  induction l as [|a l IH]; [easy|]. intros H (A & B & C). split; [auto|]. split.
  - rewrite <- H by (now left). auto.
  - apply IH; auto. intros c Hc. apply H. now right.
Qed.
Lemma ends_in l : l <> [] -> In (ends l) l.
Proof.
  intros H. destruct (exists_last H) as (l' & a & ->). unfold ends. rewrite last_last. apply in_or_app. right. now left.
Qed.
Lemma chain_ends g E l : l <> [] -> chain g E l -> n_fatent g <= E (ends l).
Proof.
  induction l as [|a l IH]; [easy|]. intros _ (A & B & C). unfold ends. destruct l as [|b l]; [auto|].
  change (last (a :: b :: l) 0) with (ends (b :: l)). now apply IH.
Qed.
(* A chain with one cluster more. *)
Lemma chain_grow g E F l x : chain g E l -> NoDup l -> 2 <= x < n_fatent g -> n_fatent g <= F x ->
  (l <> [] -> F (ends l) = x) -> (forall c, In c l -> c <> ends l -> F c = E c) -> chain g F (l ++ [x]).
Proof.
  induction l as [|a l IH]; intros C N X FX FE FO.
  - cbn. auto.
  - destruct C as (C1 & C2 & C3). inversion N as [|? ? N1 N2]; subst. destruct l as [|b l].
    + cbn. split; [auto|]. split; [apply FE; discriminate|]. auto.
    + change ((a :: b :: l) ++ [x]) with (a :: b :: (l ++ [x])). split; [auto|]. split.
      * rewrite FO; [auto|now left|]. intros Q. apply N1. change (a = ends (b :: l)) in Q. rewrite Q. apply ends_in. discriminate.
      * apply IH; auto.
        -- intros _. apply FE. discriminate.
        -- intros c Hc D. apply FO; [now right|]. exact D.
Qed.
Lemma chain_tail g E l k : chain g E l -> chain g E (skipn k l).
Proof. revert k. induction l as [|a l IH]; intros [|k] C; cbn; auto. apply IH. apply C. Qed.
(* The first part of a chain, once its end has been marked. *)
Lemma chain_cut g E F l k : chain g E l -> NoDup l -> (0 < k)%nat -> (k <= length l)%nat ->
  n_fatent g <= F (nth (k - 1) l 0) -> (forall c, In c (firstn (k - 1) l) -> F c = E c) -> chain g F (firstn k l).
Proof.
  revert k. induction l as [|a l IH]; intros k C N K1 K2 FE FO; [now destruct k|].
  destruct k as [|k]; [lia|]. destruct C as (C1 & C2 & C3). inversion N as [|? ? N1 N2]; subst.
  destruct k as [|k].
  - cbn. cbn in FE. auto.
  - cbn [firstn]. replace (S (S k) - 1)%nat with (S k) in * by lia. cbn [nth firstn] in FE, FO.
    destruct l as [|b l]; [cbn in K2; lia|]. cbn [firstn]. split; [auto|]. split.
    + rewrite FO by (now left). auto.
    + change (b :: firstn k l) with (firstn (S k) (b :: l)). apply IH; auto; try lia.
      * cbn in K2 |- *. lia.
      * now replace (S k - 1)%nat with k by lia.
      * intros c Hc. apply FO. right. now replace (S k - 1)%nat with k in Hc by lia.
Qed.

(* --- lists of chains ------------------------------------------------------------------ *)

Lemma split_at {A} (l : list A) i d : (i < length l)%nat -> l = firstn i l ++ nth i l d :: skipn (S i) l.
Proof.
  revert i. induction l as [|a l IH]; intros i H; [cbn in H; lia|]. destruct i as [|i]; [auto|]. cbn. f_equal. apply IH. cbn in H. lia.
Qed.
Lemma edit_perm (cs : list (list Z)) i l : (i < length cs)%nat ->
  Permutation (concat (edit cs i l)) (l ++ concat (firstn i cs ++ skipn (S i) cs)).
Proof.
  intros H. unfold edit. rewrite !concat_app. cbn [concat]. rewrite app_assoc.
  rewrite (Permutation_app_comm (concat (firstn i cs)) l). now rewrite <- app_assoc.
Qed.
Lemma at_perm (cs : list (list Z)) i : (i < length cs)%nat ->
  Permutation (concat cs) (nth i cs [] ++ concat (firstn i cs ++ skipn (S i) cs)).
Proof. intros H. rewrite <- edit_perm by auto. unfold edit. now rewrite <- (split_at cs i []) by auto. Qed.

Lemma others_in (cs : list (list Z)) i l : (i < length cs)%nat -> In l (firstn i cs ++ skipn (S i) cs) -> In l cs.
Proof.
  intros H I. apply in_app_or in I. rewrite (split_at cs i []) by auto. apply in_or_app. destruct I; [now left|right; now right].
Qed.
Lemma edit_forall (P Q : list Z -> Prop) (cs : list (list Z)) i l : (i < length cs)%nat ->
  Forall P cs -> (forall m, In m (firstn i cs ++ skipn (S i) cs) -> P m -> Q m) -> Q l -> Forall Q (edit cs i l).
Proof.
  intros H F A B. unfold edit. rewrite Forall_forall in F. apply Forall_forall. intros m I. apply in_app_or in I. destruct I as [I|[<-|I]]; auto.
  - apply A; [apply in_or_app; auto|]. apply F. apply (others_in cs i); auto. apply in_or_app; auto.
  - apply A; [apply in_or_app; auto|]. apply F. apply (others_in cs i); auto. apply in_or_app; auto.
Qed.

Lemma owns_usable g v cs : geo_ok g -> owns g v cs -> usable g (entry g v).
Proof.
  intros G O c Hc. destruct (in_dec Z.eq_dec c (concat cs)) as [I|I].
  - apply in_concat in I. destruct I as (l & I1 & I2). pose proof (ow_chain _ _ _ O) as C. rewrite Forall_forall in C.
    pose proof (chain_in g _ l c (C l I1) I2). lia.
  - destruct (ow_rest _ _ _ O c Hc I); pose proof (ok_ent g G); lia.
Qed.
Lemma owned_nonzero g v cs c : owns g v cs -> In c (concat cs) -> 2 <= c < n_fatent g /\ 2 <= entry g v c.
Proof.
  intros O I. apply in_concat in I. destruct I as (l & I1 & I2). pose proof (ow_chain _ _ _ O) as C. rewrite Forall_forall in C.
  exact (chain_in g _ l c (C l I1) I2).
Qed.

(* --- extending ------------------------------------------------------------------------ *)

Lemma grow_ok g v cs i fuel : geo_ok g -> owns g v cs -> (i < length cs)%nat -> n_fatent g <= Z.of_nat fuel ->
  let l := nth i cs [] in
  exists v' x, create_chain fuel g v (ends l) = Ok (v', x) /\ same_outside g v v' /\ (winsect v' = winsect v \/ in_fat g (winsect v')) /\
    ((x = 0 /\ none_free g v /\ (forall c, 0 <= c < n_fatent g -> entry g v' c = entry g v c) /\ same_info v v' /\ owns g v' cs) \/
     (2 <= x < n_fatent g /\ entry g v x = 0 /\ ~ In x (concat cs) /\ owns g v' (edit cs i (l ++ [x])) /\
      (forall c, 2 <= c < n_fatent g -> ~ In c (concat cs) -> c <> x -> entry g v' c = entry g v c))).
Proof.
  intros G O I Fu l. pose proof (ent_small g G) as (N1 & N2 & N3 & N4).
  pose proof (ow_vol _ _ _ O) as V. pose proof (owns_usable g v cs G O) as U. pose proof (ow_free _ _ _ O) as F. pose proof (ow_last _ _ _ O) as L.
  assert (IL : In l cs) by (apply nth_In; auto).
  assert (CL : chain g (entry g v) l) by (pose proof (ow_chain _ _ _ O) as C; rewrite Forall_forall in C; auto).
  assert (ND : NoDup (l ++ concat (firstn i cs ++ skipn (S i) cs))) by (eapply Permutation_NoDup; [apply at_perm; exact I|apply O]).
  assert (NL : NoDup l) by (clear - ND; induction l as [|a l IH]; [constructor|]; inversion ND; subst; constructor; auto; intros Q; auto using in_or_app).
  assert (SUB : forall c, In c l -> In c (concat cs)) by (intros c Hc; apply in_concat; eauto).
  assert (A : exists v' x, create_chain fuel g v (ends l) = Ok (v', x) /\ alloc_post g v (ends l) v' x).
  { unfold create_chain. destruct l as [|a l'] eqn:EL.
    - change (ends []) with 0. change (0 =? 0) with true. cbv iota. apply allocate_ok; auto. left. split; [auto|].
      destruct ((last_clst v =? 0) || (n_fatent g <=? last_clst v)) eqn:Q; lia.
    - rewrite <- EL in *. assert (NE : l <> []) by (rewrite EL; discriminate).
      pose proof (chain_in g _ l _ CL (ends_in l NE)) as (R1 & R2). pose proof (chain_ends g _ l NE CL) as R3.
      replace (ends l =? 0) with false by lia.
      destruct (get_entry g v (ends l) G V R1) as (v1 & E1 & S1 & I1). rewrite E1. cbn [bind].
      replace (entry g v (ends l) <? 2) with false by lia.
      replace (entry g v (ends l) =? ERR) with false by (pose proof (entry_range g v (ends l) V); unfold ERR; lia).
      replace (entry g v (ends l) <? n_fatent g) with false by lia.
      assert (EE : forall y, 0 <= y < n_fatent g -> entry g v1 y = entry g v y) by apply S1.
      destruct (allocate_ok g v1 (ends l) (ends l) fuel G (es_ok _ _ _ _ S1)) as (v' & x & E2 & P2).
      + intros c Hc. rewrite EE by lia. now apply U.
      + eapply moved_free; eauto.
      + destruct I1 as (_ & I1 & _). now rewrite I1.
      + auto.
      + right. split; [auto|]. split; [rewrite EE by lia; lia|auto].
      + exists v', x. split; [auto|]. destruct P2 as [(P1 & P2 & P3 & P4)|(P1 & P2 & P3 & P4 & P5)].
        * left. split; [auto|]. split; [intros c Hc; rewrite <- EE by lia; now apply P2|]. split; [eapply es_ext; [eapply es_trans; eauto|auto]|eapply info_trans; eauto].
        * right. split; [auto|]. split; [now rewrite <- EE by lia|]. split; [|auto]. eapply es_ext; [eapply es_trans; eauto|]. now apply linked_moved. }
  destruct A as (v' & x & E & P). exists v', x. split; [auto|].
  destruct P as [(P1 & P2 & P3 & P4)|(P1 & P2 & P3 & P4 & P5)].
  - split; [apply P3|]. split; [apply P3|]. left. split; [auto|]. split; [auto|]. split; [apply P3|]. split; [auto|].
    assert (EE : forall y, 0 <= y < n_fatent g -> entry g v' y = entry g v y) by apply P3.
    constructor.
    + apply P3.
    + pose proof (ow_chain _ _ _ O) as C. rewrite Forall_forall in *. intros m Hm. apply (chain_ext g (entry g v)); auto.
      intros c Hc. symmetry. apply EE. pose proof (chain_in g _ m c (C m Hm) Hc). lia.
    + apply O.
    + intros c Hc Nc. rewrite EE by lia. now apply O.
    + change (free_right g v'). eapply moved_free; eauto.
    + destruct P4 as (_ & P4 & _). now rewrite P4.
  - split; [apply P3|]. split; [apply P3|]. right. split; [auto|]. split; [auto|].
    assert (NI : ~ In x (concat cs)) by (intros Q; pose proof (owned_nonzero g v cs x O Q); lia).
    split; [auto|].
    assert (EE : forall y, 0 <= y < n_fatent g -> entry g v' y = linked g v (ends l) x y) by apply P3.
    assert (EO : forall y, 0 <= y < n_fatent g -> y <> x -> (y <> ends l \/ l = []) -> entry g v' y = entry g v y).
    { intros y Hy D1 D2. rewrite EE by auto. unfold linked. destruct (Z.eqb_spec (ends l) 0) as [Q|Q].
      - now apply upd_ne.
      - destruct D2 as [D2|D2]; [|rewrite D2 in Q; cbn in Q; lia]. now rewrite !upd_ne by auto. }
    assert (EX : n_fatent g <= entry g v' x).
    { rewrite EE by lia. unfold linked. destruct (Z.eqb_spec (ends l) 0) as [Q|Q]; [rewrite upd_eq; auto|].
      rewrite upd_ne; [rewrite upd_eq; auto|]. intros ->. apply NI. apply SUB. apply ends_in. intros ->. apply Q. reflexivity. }
    split.
    + constructor.
      * apply P3.
      * apply (edit_forall (chain g (entry g v))); auto; [apply O| |].
        -- intros m Hm Cm. apply (chain_ext g (entry g v)); auto. intros c Hc. symmetry.
           pose proof (chain_in g _ m c Cm Hc) as [R _].
           assert (IC : In c (concat cs)) by (apply in_concat; exists m; split; [now apply (others_in cs i)|auto]).
           apply EO; [lia|intros ->; auto|]. destruct l as [|a l'] eqn:EL; [now right|left]. rewrite <- EL in *.
           intros ->. assert (IE : In (ends l) l) by (apply ends_in; rewrite EL; discriminate).
           assert (IO : In (ends l) (concat (firstn i cs ++ skipn (S i) cs))) by (apply in_concat; eauto).
           revert ND IE IO. clear. generalize (ends l). intros z. induction l as [|a l IH]; [easy|]. cbn. intros ND [->|I] J; inversion ND; subst.
           ++ apply H1. apply in_or_app. auto.
           ++ auto.
        -- apply (chain_grow g (entry g v)); auto.
           ++ intros NE. rewrite EE by (pose proof (chain_in g _ l _ CL (ends_in l NE)); lia). unfold linked.
              pose proof (chain_in g _ l _ CL (ends_in l NE)). replace (ends l =? 0) with false by lia. apply upd_eq.
           ++ intros c Hc D. pose proof (chain_in g _ l c CL Hc). apply EO; [lia| |auto]. intros ->. auto.
      * eapply Permutation_NoDup; [symmetry; apply edit_perm; auto|].
        apply (Permutation_NoDup (l := x :: (l ++ concat (firstn i cs ++ skipn (S i) cs)))).
        -- rewrite <- app_assoc. cbn. apply Permutation_middle.
        -- constructor; auto. intros Q. apply NI. eapply Permutation_in; [symmetry; apply at_perm; exact I|exact Q].
      * intros c Hc Nc. assert (NC : ~ In c (concat cs) /\ c <> x).
        { split; intros Q; apply Nc; eapply Permutation_in; try (symmetry; apply edit_perm; auto); rewrite <- app_assoc.
          - pose proof (Permutation_in _ (at_perm cs i I) Q) as Q'. apply in_app_or in Q'. apply in_or_app. destruct Q'; [now left|right; cbn; now right].
          - apply in_or_app. right. cbn. now left. }
        destruct NC as [NC1 NC2]. rewrite EO; [now apply O|lia|auto|].
        destruct l as [|a l'] eqn:EL; [now right|left]. rewrite <- EL in *. intros ->. apply NC1. apply SUB. apply ends_in. rewrite EL. discriminate.
      * exact P4.
      * rewrite P5. lia.
    + intros c Hc NC1 NC2. apply EO; [lia|auto|].
      destruct l as [|a l'] eqn:EL; [now right|left]. rewrite <- EL in *. intros ->. apply NC1. apply SUB. apply ends_in. rewrite EL. discriminate.
Qed.
