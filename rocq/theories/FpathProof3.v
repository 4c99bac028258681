From Verif Require Import Base CrcSpec FutfModel FutfSpec FutfProof LfnModel LfnSpec LfnProof FdirModel FdirSpec FdirProof FdirProof3 FnameModel FnameSpec FnameProof FnameProof2 FnameProof3 FnameProof4 FnameProof5 FnameProof6 FpathModel FpathSpec FpathProof FpathProof2.
Open Scope Z_scope.

(* --- what register and remove leave alone -------------------------------------------------- *)
Definition grown (d d' : dirt) : Prop := chunk d' = chunk d /\ 0 <= spare d' <= spare d /\ cap d' = cap d + chunk d * (spare d - spare d').
Lemma grown_refl d : 0 <= spare d -> grown d d.
Proof. intros. split; [auto|]. split; [lia|]. lia. Qed.
Lemma grown_set d d' t : grown d d' -> grown d (set_tab d' t).
Proof. auto. Qed.
Lemma grown_trans a b c : grown a b -> grown b c -> grown a c.
Proof. intros (A1 & A2 & A3) (B1 & B2 & B3). split; [congruence|]. split; [lia|]. rewrite B3, A3, A1. lia. Qed.
Lemma grown_next d i b : 0 <= spare d -> grown d (fst (dir_next d i b)).
Proof.
  intros S. unfold dir_next. destruct (_ <=? _); [now apply grown_refl|]. destruct (_ <? _); [now apply grown_refl|]. destruct (negb b); [now apply grown_refl|]. destruct (Z.leb_spec (spare d) 0); [now apply grown_refl|]. cbn. split; [auto|]. split; cbn; lia.
Qed.
Lemma grown_alloc n : forall fuel d i cnt d' r k, 0 <= spare d -> alloc_loop fuel d i n cnt = Ok (d', r, k) -> grown d d'.
Proof.
  induction fuel as [|fuel IH]; intros d i cnt d' r k S E; [discriminate|]. cbn [alloc_loop] in E. destruct (_ && _); [injection E as <- <- <-; now apply grown_refl|].
  pose proof (grown_next d i true S) as G. destruct (dir_next d i true) as [d1 q]. cbn [fst] in G. destruct q; try (injection E as <- <- <-; auto). eapply grown_trans; [exact G|]. eapply IH; [|eauto]. destruct G as (_ & ? & _). lia.
Qed.
Lemma grown_dir_alloc d n d' r k : 0 <= spare d -> dir_alloc d n = Ok (d', r, k) -> grown d d'.
Proof. unfold dir_alloc. generalize (Z.to_nat MAXENT) as fuel. intros fuel S E. exact (grown_alloc n fuel d 0 0 d' r k S E). Qed.
Lemma parts_frame n : forall d buf i sum d' r k, put_parts n d buf i sum = Ok (d', r, k) -> exists t, d' = set_tab d t.
Proof.
  induction n as [|n IH]; intros d buf i sum d' r k E; [injection E as <- <- <-; exists (tab d); now destruct d|]. cbn [put_parts] in E. destruct (put_lfn _ _ _ _) as [e| |]; cbn [bind] in E; try discriminate.
  destruct (dir_next _ i false) as [d1 q]. destruct q; try (injection E as <- <- <-; eauto). apply IH in E as [t ->]. eexists. reflexivity.
Qed.
Lemma register_grown d fn buf : 0 <= spare d -> match dir_register d fn buf with Ok (d', _, _) => grown d d' | _ => True end.
Proof.
  intros S. unfold dir_register. destruct (has (fn 11) 160); [now apply grown_refl|]. destruct (name_len _ _ _) as [n| |]; cbn [bind]; [|exact I|exact I].
  destruct (if has (fn 11) 1 then _ else _) as [[f|r]| |]; cbn [bind]; [|now apply grown_refl|exact I|exact I].
  set (m := if has (fn 11) 2 then (n + 12) / 13 + 1 else 1). pose proof (fun d' r k => grown_dir_alloc d m d' r k S) as Al. destruct (dir_alloc d m) as [[[d1 r] k]| |]; cbn [bind]; [|exact I|exact I].
  specialize (Al d1 r k eq_refl). destruct r; try exact Al.
  assert (T : match (if m =? 1 then Ok (d1, D_OK, k) else if k - (m - 1) <? 0 then Ok (d1, D_INT_ERR, k) else put_parts (Z.to_nat (m - 1)) d1 buf (k - (m - 1)) (sum_sfn (upd f 11 (fn 11)))) with Ok (d2, _, _) => exists t, d2 = set_tab d1 t | _ => True end).
  { destruct (m =? 1); [exists (tab d1); now destruct d1|]. destruct (_ <? 0); [exists (tab d1); now destruct d1|]. pose proof (fun d' r i => parts_frame (Z.to_nat (m - 1)) d1 buf (k - (m - 1)) (sum_sfn (upd f 11 (fn 11))) d' r i) as Q. destruct (put_parts _ _ _ _ _) as [[[d2 r] k2]| |]; [|exact I|exact I]. eapply Q. reflexivity. }
  destruct (if m =? 1 then _ else _) as [[[d2 r] k2]| |]; cbn [bind]; [|exact I|exact I]. destruct T as [t ->]. destruct r; exact Al.
Qed.
Lemma register_frame d fn buf d' q i : 0 <= spare d -> dir_register d fn buf = Ok (d', q, i) -> grown d d'.
Proof. intros S E. pose proof (register_grown d fn buf S) as G. rewrite E in G. exact G. Qed.
Lemma remove_frame : forall n d j last d' q, remove_loop n d j last = Ok (d', q) -> exists t, d' = set_tab d t.
Proof.
  induction n as [|n IH]; intros d j last d' q E; [discriminate|]. cbn [remove_loop] in E. destruct (last <=? j); [injection E as <- <-; eauto|].
  destruct (dir_next _ j false) as [d1 r]. destruct r; try (injection E as <- <-; eauto). apply IH in E as [t ->]. eexists. reflexivity.
Qed.

(* --- tables of a volume -------------------------------------------------------------------- *)
Definition same_geo (v v' : volume) : Prop := fat32 v' = fat32 v /\ epc v' = epc v /\ top v' = top v /\ cdir v' = cdir v.
Lemma geo_trans a b c : same_geo a b -> same_geo b c -> same_geo a c.
Proof. unfold same_geo. intuition congruence. Qed.
Lemma dir_spare d l s : dir_ok d l -> 0 <= s -> dir_ok (mkDir (tab d) (cap d) (chunk d) s) l.
Proof. intros D S. constructor; cbn [tab cap chunk spare]; auto; apply D. Qed.
Lemma lay_ext v v' c l : same_geo v v' -> dirs v' c = dirs v c -> zlen (chains v' c) = zlen (chains v c) -> lay v c l -> lay v' c l.
Proof.
  intros (G1 & G2 & _) E1 E2 [D S]. assert (Fx : fixed v' c = fixed v c) by (unfold fixed; now rewrite G1). split.
  - unfold table. rewrite E1. apply (dir_spare (table v c) l); [auto|]. destruct (fixed v' c); lia.
  - rewrite Fx, E1, G2, E2. auto.
Qed.
Lemma put_same {X} (f : Z -> X) c x : put f c x c = x.
Proof. unfold put. now rewrite Z.eqb_refl. Qed.
Lemma put_other {X} (f : Z -> X) c x k : k <> c -> put f c x k = f k.
Proof. intros N. unfold put. now replace (k =? c) with false by lia. Qed.

(* Changing an entry but for its name. *)
Definition keeps (e e' : Z -> Z) : Prop := bytes e' /\ (forall k, 0 <= k < 11 -> e' k = e k) /\ Z.land (e' 11) 8 = 0.
Lemma dir_set d l1 w e l2 e' : dir_ok d (l1 ++ File w e :: l2) -> keeps e e' -> dir_ok (set_tab d (set_ent (tab d) (sizes l1 + parts w) e')) (l1 ++ File w e' :: l2).
Proof.
  intros D (B & K & A8). pose proof (dk_laid _ _ D) as La. apply laid_app in La as [L1 [S L2]]. rewrite Z.add_0_l in *. cbn [size] in L2.
  pose proof (sizes_nonneg l1). pose proof (sizes_nonneg l2). pose proof (parts_nonneg w).
  assert (Sz : sizes (l1 ++ File w e' :: l2) = sizes (l1 ++ File w e :: l2)) by (rewrite !sizes_app, !sizes_cons; reflexivity).
  constructor; cbn [set_tab tab cap chunk spare]; rewrite ?Sz; try apply D.
  - apply laid_app. split; [apply (laid_ext (tab d)); [|auto]; intros j J; unfold set_ent; now replace (j =? sizes l1 + parts w) with false by lia|]. rewrite Z.add_0_l. cbn [laid size]. split.
    + destruct S as (S1 & (S2 & S3 & S4 & S5) & S6). cbn [stored]. split; [unfold set_ent; now rewrite Z.eqb_refl|]. split; [split; [auto|]; rewrite (K 0) by lia; auto|].
      intros W. destruct (S6 W) as (T1 & T2 & T3). split; [auto|]. split; [rewrite (K 0) by lia; auto|]. intros j J. unfold set_ent. replace (sizes l1 + j =? sizes l1 + parts w) with false by lia. rewrite (sum_same e' e) by exact K. auto.
    + apply (laid_ext (tab d)); [|auto]. intros j J. unfold set_ent. now replace (j =? sizes l1 + parts w) with false by lia.
  - intros j J. pose proof J as J'. rewrite sizes_app, sizes_cons in J'. cbn [size] in J'. unfold set_ent. replace (j =? sizes l1 + parts w) with false by lia. now apply (dk_tail _ _ D).
Qed.
Definition aside (v v' : volume) (c : Z) : Prop := same_geo v v' /\ (forall k, k <> c -> dirs v' k = dirs v k /\ chains v' k = chains v k).
Definition still (v v' : volume) : Prop := avail v' = avail v /\ forall k, chains v' k = chains v k.
Lemma aside_lay v v' c k l : aside v v' c -> k <> c -> lay v k l -> lay v' k l.
Proof. intros [G O] N. destruct (O k N) as [E1 E2]. apply lay_ext; [auto|auto|now rewrite E2]. Qed.
Lemma geo_refl v : same_geo v v.
Proof. split; [|split; [|split]]; auto. Qed.

Ltac geo := split; [|split; [|split]]; reflexivity.

Lemma lay_set v c l1 w e l2 e' : lay v c (l1 ++ File w e :: l2) -> keeps e e' -> let v' := set_entry v c (sizes l1 + parts w) e' in
  lay v' c (l1 ++ File w e' :: l2) /\ aside v v' c /\ still v v' /\ entry v' c (sizes l1 + parts w) = e'.
Proof.
  intros [D S] K v'. assert (Ed : dirs v' c = set_tab (dirs v c) (set_ent (tab (dirs v c)) (sizes l1 + parts w) e')) by apply put_same. split; [split|split; [|split]].
  - pose proof (dir_set (table v c) l1 w e l2 e' D K) as Q. unfold table at 1. rewrite Ed. exact Q.
  - rewrite Ed. exact S.
  - split; [geo|]. intros k N. split; [|auto]. cbn. now apply put_other.
  - split; auto.
  - unfold entry. rewrite Ed. cbn. unfold set_ent. now rewrite Z.eqb_refl.
Qed.

(* Storing a table. *)
Definition grows (v v' : volume) (c : Z) : Prop := aside v v' c /\ exists used, avail v = used ++ avail v' /\ chains v' c = chains v c ++ used.
Lemma put_grown v c d l l' : lay v c l -> grown (table v c) d -> dir_ok d l' -> lay (put_table v c d) c l' /\ grows v (put_table v c d) c /\ dirs (put_table v c d) c = d.
Proof.
  intros [D S] (G1 & G2 & G3) D'. unfold put_table. destruct (fixed v c) eqn:Fx.
  - cbn [table spare] in G2. rewrite Fx in G2. assert (Sp : spare d = 0) by lia. split; [|split; [|apply put_same]].
    + split; [|intros Q; unfold fixed in *; cbn in Q; congruence]. unfold table. cbn [dirs set_dirs avail]. rewrite put_same. apply dir_spare; [auto|]. destruct (fixed _ c); lia.
    + split; [split; [geo|]; intros k N; split; [cbn; now apply put_other|auto]|]. exists []. cbn. rewrite app_nil_r. auto.
  - set (n := (length (avail v) - Z.to_nat (spare d))%nat). cbn [table chunk cap spare] in G1, G2, G3. rewrite Fx in *. split; [|split; [|apply put_same]].
    + split.
      * unfold table. cbn [dirs set_chains set_dirs avail]. rewrite put_same. apply dir_spare; [auto|]. destruct (fixed _ c); lia.
      * intros _. cbn [dirs set_chains set_dirs chains epc]. rewrite !put_same. destruct (S eq_refl) as [S1 S2]. split; [congruence|]. rewrite G3, S2, S1, zlen_app. replace (zlen (firstn n (avail v))) with (Z.of_nat (length (avail v)) - spare d) by (unfold zlen, n; rewrite firstn_length, Nat.min_l; lia). ring.
    + split; [split; [geo|]; intros k N; cbn; rewrite !put_other by auto; auto|]. exists (firstn n (avail v)). cbn [set_chains set_dirs avail chains]. rewrite firstn_skipn, put_same. auto.
Qed.
Lemma spare_table v c : 0 <= spare (table v c).
Proof. unfold table. cbn. destruct (fixed v c); lia. Qed.

Lemma grown_full d d' l n : 1 <= n -> dir_ok d l -> dir_ok d' l -> grown d d' -> (forall j, j < cap d -> tab d' j = tab d j) -> no_room d' n -> full d n.
Proof.
  intros N D D' (G1 & G2 & G3) T [S R] p P Q. pose proof (dk_cap _ _ D'). pose proof (dk_room _ _ D). pose proof (dk_chunk _ _ D).
  assert (Le : p + n <= cap d') by (destruct S as [S|S]; [rewrite S in G3; replace (spare d - 0) with (spare d) in G3 by lia; lia|lia]).
  destruct (R p P Le) as (j & J & F). exists j. split; [auto|]. destruct (Z.lt_ge_cases j (cap d)) as [Lt|Ge]; [split; [auto|]; unfold free in *; now rewrite <- T by auto|].
  exfalso. apply F. left. apply (dk_tail _ _ D'). lia.
Qed.
Lemma lay_register v c l fn buf x : lay v c l -> fn_ok fn -> name_ok x -> holds buf x -> units buf -> let w := if has (fn 11) 2 then x else [] in
  exists d q i, dir_register (table v c) fn buf = Ok (d, q, i) /\ let v' := put_table v c d in grows v v' c /\
  ((q = D_OK /\ exists l1 l2 h f e, l = l1 ++ repeat Hole h ++ l2 /\ (Z.of_nat h = parts w + 1 \/ l2 = []) /\ lay v' c (l1 ++ File w e :: l2) /\ i = sizes l1 + parts w /\ entry v' c i = e /\
      new_entry f (fn 11) e /\ bytes e /\ (if has (fn 11) 1 then (exists n, 1 <= n < 100 /\ numbered fn n f) /\ Forall (fun g => ~ short_same (snd g) f) (files l) else short_same f fn)) \/
   (q = D_DENIED /\ lay v' c l /\ ((has (fn 11) 1 = true /\ forall n, 1 <= n < 100 -> exists f, numbered fn n f /\ Exists (fun g => short_same (snd g) f) (files l)) \/ full (table v c) (parts w + 1)))).
Proof.
  intros La F O H U w. pose proof La as [D _]. destruct (register_ok (table v c) l fn buf x D F O H U) as [(d' & i & l1 & l2 & h & f & e & E & El & Hh & D' & Ei & Et & Ne & Sh)|(d' & i & E & D' & Td & Why)].
  - exists d', D_OK, i. split; [auto|]. destruct (put_grown v c d' l _ La (register_frame _ _ _ _ _ _ (spare_table v c) E) D') as (P1 & P2 & P3). split; [auto|]. left. split; [auto|]. exists l1, l2, h, f, e. split; [auto|]. split; [auto|]. split; [auto|]. split; [auto|]. split; [unfold entry; rewrite P3; auto|]. split; [auto|]. split; [|auto].
    pose proof (dk_laid _ _ D') as Q. apply laid_app in Q as [_ [(_ & (Q & _) & _) _]]. auto.
  - exists d', D_DENIED, i. split; [auto|]. destruct (put_grown v c d' l _ La (register_frame _ _ _ _ _ _ (spare_table v c) E) D') as (P1 & P2 & _). split; [auto|]. right. split; [auto|]. split; [auto|]. destruct Why as [Why|Why]; [auto|right].
    apply (grown_full (table v c) d' l); auto; [pose proof (parts_nonneg w); lia|]. exact (register_frame _ _ _ _ _ _ (spare_table v c) E).
Qed.
Lemma lay_remove v c l1 w e l2 : lay v c (l1 ++ File w e :: l2) ->
  exists d, dir_remove (table v c) (sizes l1 + parts w) (read_blk w (sizes l1)) = Ok (d, D_OK) /\ let v' := put_table v c d in
  aside v v' c /\ still v v' /\ lay v' c (l1 ++ repeat Hole (Z.to_nat (parts w + 1)) ++ l2).
Proof.
  intros La. pose proof La as [D _]. destruct (remove_ok (table v c) l1 w e l2 D) as (d & E & D'). exists d. split; [auto|]. unfold dir_remove in E. apply remove_frame in E as [t ->].
  destruct (put_grown v c (set_tab (table v c) t) _ _ La (grown_set _ _ t (grown_refl _ (spare_table v c))) D') as (P1 & (P2 & used & P3 & P4) & P5). cbv zeta. split; [auto|]. split; [|auto].
  assert (Ea : avail (put_table v c (set_tab (table v c) t)) = avail v).
  { unfold put_table. destruct (fixed v c) eqn:Fx; [auto|]. cbn [set_chains avail spare set_tab table]. rewrite Fx, Nat2Z.id, Nat.sub_diag. auto. }
  split; [auto|]. rewrite Ea in P3. rewrite <- (app_nil_l (avail v)) in P3 at 1. apply app_inv_tail in P3. subst used. rewrite app_nil_r in P4. intros k. destruct (Z.eq_dec k c) as [->|N]; [auto|]. now apply P2.
Qed.
