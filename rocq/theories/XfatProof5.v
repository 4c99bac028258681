(* Operations on one exFAT file. *)
From Coq Require Import ZArith Lia Bool List.
From Verif Require Import Base FatModel FatSpec FatProof FatProof2 FatProof4 XfatModel XfatSpec XfatProof XfatProof2 XfatProof3 XfatProof4.
Import ListNotations.
Open Scope Z_scope.

Lemma last_app (l m : list Z) : m <> [] -> last (l ++ m) 0 = last m 0.
Proof.
  intros N. induction l as [|a l IH]; auto. cbn [app]. destruct (l ++ m) eqn:E; [destruct l; cbn in E; congruence|].
  rewrite <- IH. reflexivity.
Qed.
Lemma block_in c x : c <> [] -> block c -> (In x c <-> hd 0 c <= x <= last c 0).
Proof.
  intros N B. assert (L : last c 0 = hd 0 c + Z.of_nat (length c - 1)) by (rewrite last_nth; apply block_nth; auto; destruct c; [tauto|cbn [length]; lia]).
  assert (0 < length c)%nat by (destruct c; [tauto|cbn [length]; lia]). split.
  - intros I. destruct (In_nth _ _ 0 I) as (i & I1 & <-). rewrite (block_nth c i) by auto. lia.
  - intros R. replace x with (nth (Z.to_nat (x - hd 0 c)) c 0); [apply nth_In; lia|]. rewrite block_nth by (auto; lia). lia.
Qed.
Lemma snoc (l : list Z) : l <> [] -> l = removelast l ++ [last l 0].
Proof. intros. now apply app_removelast_last. Qed.
Lemma len_pos (l : list Z) : l <> [] -> (0 < length l)%nat. Proof. destruct l; [tauto|cbn; lia]. Qed.
Lemma not_nil (l : list Z) : (0 < length l)%nat -> l <> []. Proof. destruct l; [cbn; lia|congruence]. Qed.
Lemma nodup_app_r (l m : list Z) : NoDup (l ++ m) -> NoDup m.
Proof. induction l; auto. cbn. intros H. inversion H; auto. Qed.
Lemma nodup_apart (l m : list Z) x : NoDup (l ++ m) -> In x l -> ~ In x m.
Proof. induction l; cbn; [tauto|]. intros H [->|I]; inversion H; subst; auto. intros K. apply H2. apply in_or_app. auto. Qed.
Lemma nodup_snoc (l : list Z) x : NoDup l -> ~ In x l -> NoDup (l ++ [x]).
Proof. intros. induction l as [|a l IH]; cbn; [constructor; auto; constructor|]. inversion H; subst. constructor; [|apply IH; auto; intros K; apply H0; now right].
  intros K. apply in_app_or in K. destruct K as [K|[->|[]]]; auto. apply H0. now left. Qed.

Section S.
Variables (g : geo) (bb : Z).
Hypothesis G : xgeo_ok g bb.

Lemma kept_id v l : xvol_ok g v -> kept g bb v v l.
Proof using. intros V. constructor; auto; [intros k _; auto|intros s o _ _; auto|split; auto]. Qed.
Lemma kept_trans a b c l : kept g bb a b l -> kept g bb b c l -> kept g bb a c l.
Proof using.
  intros [A1 A2 A3 A4 A5] [C1 C2 C3 C4 C5]. constructor; auto.
  - intros k K. rewrite C2, A2; auto.
  - intros x X N. rewrite C3, A3; auto.
  - intros s o H K. rewrite C4, A4; auto.
  - eapply info_trans; eauto.
Qed.
Lemma kept_step v v' l : xstep g bb v v' (bit g bb v) (xent g v) -> kept g bb v v' l.
Proof using. intros [A B C D E]. constructor; auto. Qed.
Lemma kept_more v v' l m : (forall x, In x l -> In x m) -> kept g bb v v' l -> kept g bb v v' m.
Proof using. intros H [A B C D E]. constructor; auto. Qed.

Lemma file_base v f l : xfile_ok g bb v f l -> l <> [] -> base g (obj f) l.
Proof using.
  intros X N. constructor; auto; try apply X. eapply Forall_impl; [|apply X]. cbn beta. tauto.
Qed.
Lemma used_kept v v' l c : kept g bb v v' l -> 2 <= c < n_fatent g -> used g bb v' c = used g bb v c.
Proof using G. intros K C. pose proof (clusts_bits g bb G). unfold used. apply (k_bits _ _ _ _ _ K). unfold clusts in *. lia. Qed.

Lemma fill_block v o b c term : xvol_ok g v -> Forall (fun x => 2 <= x < n_fatent g) (b ++ c) -> NoDup (b ++ c) -> c <> [] ->
  Z.of_nat (length c) = n_frag o -> block c -> linked_to (xent g v) b (hd 0 c) -> 0 <= term < 4294967296 -> term mod 2147483648 = term \/ term = ERR ->
  exists v', fill_last g v o (last c 0) term = Ok (v', set_frag o 0, FR_OK) /\ kept g bb v v' c /\ linked_to (xent g v') (b ++ c) (term mod 2147483648).
Proof using G.
  intros V R ND N LC BC LK T1 T2. pose proof (len_pos c N) as LP. apply Forall_app in R as [RB RC].
  assert (L : last c 0 = hd 0 c + Z.of_nat (length c - 1)) by (rewrite last_nth; apply block_nth; auto; lia).
  assert (RL : 2 <= last c 0 < n_fatent g) by (rewrite Forall_forall in RC; apply RC; now apply last_in).
  assert (RH : 2 <= hd 0 c < n_fatent g) by (rewrite Forall_forall in RC; apply RC; destruct c; [tauto|now left]).
  unfold fill_last. replace (Z.to_nat (n_frag o)) with (length c) by lia.
  destruct (last_loop_ok g bb G (last c 0) term (length c) v V) as (v' & E & X); [lia|lia|lia|]. rewrite E. cbn [bind].
  exists v'. split; auto.
  assert (IV : forall x, ((last c 0 - Z.of_nat (length c) + 1 <=? x) && (x <=? last c 0)) = true -> In x c).
  { intros x H. apply block_in; auto. lia. }
  split.
  - constructor; [exact (xs_ok _ _ _ _ _ _ X)|exact (xs_bits _ _ _ _ _ _ X)| |exact (xs_other _ _ _ _ _ _ X)|exact (xs_info _ _ _ _ _ _ X)]. intros x Hx NI. rewrite (xs_ents _ _ _ _ _ _ X) by auto.
    destruct ((last c 0 - Z.of_nat (length c) + 1 <=? x) && (x <=? last c 0)) eqn:Q; auto. exfalso. auto.
  - apply linked_app. split.
    + rewrite (hd_any c _ 0 N). eapply linked_ext; [|exact LK]. intros x I. rewrite Forall_forall in RB. specialize (RB x I).
      rewrite (xs_ents _ _ _ _ _ _ X) by lia.
      destruct ((last c 0 - Z.of_nat (length c) + 1 <=? x) && (x <=? last c 0)) eqn:Q; auto. exfalso. apply (nodup_apart b c x ND I). auto.
    + eapply linked_ext; [|apply (fill_linked g bb G (xent g v) c term N BC RC T2)].
      intros x I. rewrite Forall_forall in RC. specialize (RC x I). rewrite (xs_ents _ _ _ _ _ _ X) by lia. auto.
Qed.

(* fill_last before anything else is done with a file *)
Lemma settle v f l : xvol_ok g v -> xfile_ok g bb v f l -> l <> [] ->
  exists v', fill_last g v (obj f) (clust f) ERR = Ok (v', set_frag (obj f) 0, FR_OK) /\ kept g bb v v' l /\ described (xent g v') (set_frag (obj f) 0) l.
Proof using G.
  intros V X N. pose proof (file_base v f l X N) as B. pose proof (xf_desc _ _ _ _ _ X N) as D.
  destruct (Z.eq_dec (n_frag (obj f)) 0) as [F|F].
  - exists v. unfold fill_last. rewrite F. cbn. split; auto. split; [now apply kept_id|].
    destruct (obj f) as [a b c d e]. cbn in F. subst d. exact D.
  - pose proof (xf_edge _ _ _ _ _ X F) as ED.
    destruct D as [(S & F0 & _)|(a & b & c & -> & LC & BC & LK & ST)]; [lia|].
    assert (NC : c <> []) by (apply not_nil; lia). assert (NBC : b ++ c <> []) by (destruct b; [auto|cbn; congruence]). rewrite (last_app a (b ++ c) NBC), (last_app b c NC) in ED.
    destruct (fill_block v (obj f) b c ERR V) as (v' & E & K & L); auto.
    + pose proof (b_range _ _ _ B) as R. apply Forall_app in R. tauto.
    + pose proof (b_nodup _ _ _ B) as R. now apply nodup_app_r in R.
    + destruct c; [tauto|]. exact LK.
    + unfold ERR; lia.
    + rewrite <- ED in E. exists v'. split; auto. split; [eapply kept_more; [|exact K]; intros x I; apply in_or_app; right; apply in_or_app; now right|].
      right. exists a, (b ++ c), []. rewrite app_nil_r. cbn [n_frag stat n_cont set_frag]. split; auto. split; auto. split; [exact I|]. split; [exact L|].
      destruct ST as [ST|(S1 & S2 & S3 & S4 & S5)]; auto. right. split; auto. split; auto.
      split; [destruct b; [tauto|cbn; congruence]|]. split; auto. rewrite hd_app; auto.
Qed.

Lemma walk_ok fuel o l : base g o l -> n_frag o = 0 -> forall k v i, xvol_ok g v -> described (xent g v) o l -> (i + k < length l)%nat ->
  exists v', walk fuel g bb v o (nth i l 0) k = Ok (v', o, nth (i + k) l 0) /\ xstep g bb v v' (bit g bb v) (xent g v).
Proof using G.
  intros B F. pose proof (x_ent _ _ G) as XE. unfold EOC in XE. induction k as [|k IH]; intros v i V D L.
  - exists v. rewrite Nat.add_0_r. split; auto. now apply xstep_id.
  - cbn [walk]. destruct (get_link g bb G v o l i V B F ltac:(lia)) as (v1 & E1 & X1).
    { apply desc_link; auto; [apply B|lia]. }
    unfold after in E1. replace (S i <? length l)%nat with true in E1 by lia.
    pose proof (range_nth g l i (b_range _ _ _ B) ltac:(lia)) as R0. pose proof (range_nth g l (S i) (b_range _ _ _ B) ltac:(lia)) as R1.
    unfold xcreate. replace (nth i l 0 =? 0) with false by lia. rewrite E1. cbn [bind].
    replace (nth (S i) l 0 <? 2) with false by lia. replace (nth (S i) l 0 =? ERR) with false by (unfold ERR; lia).
    replace (nth (S i) l 0 <? n_fatent g) with true by lia. cbn [bind]. replace (nth (S i) l 0 <? 2) with false by lia.
    replace (nth (S i) l 0 =? ERR) with false by (unfold ERR; lia). cbn [orb].
    assert (D1 : described (xent g v1) o l).
    { destruct D as [D|(a & b & c & -> & LC & BC & LK & ST)]; [left; auto|right]. exists a, b, c. split; auto. split; auto. split; auto. split; auto.
      eapply linked_ext; [|exact LK]. intros x I. apply X1. pose proof (b_range _ _ _ B) as R. rewrite Forall_forall in R.
      assert (2 <= x < n_fatent g) by (apply R; apply in_or_app; right; apply in_or_app; now left). lia. }
    destruct (IH v1 (S i) (xs_ok _ _ _ _ _ _ X1) D1 ltac:(lia)) as (v2 & E2 & X2). exists v2. replace (i + S k)%nat with (S i + k)%nat by lia. split; auto.
    eapply xs_ext; [eapply xs_trans; eauto| |]; intros; apply X1; auto.
Qed.

Lemma desc_step E E' o l : (forall x, In x l -> E' x = E x) -> described E o l -> described E' o l.
Proof using.
  intros H [D|(a & b & c & -> & LC & BC & LK & ST)]; [left; auto|right]. exists a, b, c. split; auto. split; auto. split; auto. split; auto.
  eapply linked_ext; [|exact LK]. intros x I. apply H. apply in_or_app; right; apply in_or_app; now left.
Qed.

Lemma seek_ok v f l k fuel : xvol_ok g v -> xfile_ok g bb v f l -> (k < length l)%nat ->
  exists v' f', seek fuel g bb v f k = Ok (v', f', nth k l 0) /\ xfile_ok g bb v' f' l /\ clust f' = nth k l 0 /\ n_frag (obj f') = 0 /\ kept g bb v v' l.
Proof using G.
  intros V X KL. assert (N : l <> []) by (apply not_nil; lia). pose proof (file_base v f l X N) as B.
  destruct (settle v f l V X N) as (v1 & E1 & K1 & D1). unfold seek. rewrite E1. cbn [bind].
  set (o := set_frag (obj f) 0) in *. assert (BO : base g o l) by (destruct B as [B1 B2 B3 B4 B5]; constructor; auto).
  destruct (walk_ok fuel o l BO eq_refl k v1 O (k_ok _ _ _ _ _ K1) D1 ltac:(lia)) as (v2 & E2 & X2).
  replace (sclust o) with (nth 0 l 0) by (rewrite (b_start _ _ _ BO); destruct l; auto). rewrite E2. cbn [bind].
  exists v2, (mkXfil o (nth k l 0)). split; auto. cbn [obj clust].
  assert (K2 : kept g bb v v2 l) by (eapply kept_trans; [exact K1|now apply kept_step]).
  split; [|split; [auto|split; [auto|exact K2]]].
  constructor; cbn [obj clust]; try apply BO.
  - apply Forall_forall. intros x I. pose proof (xf_used _ _ _ _ _ X) as U. rewrite Forall_forall in U. destruct (U x I) as [U1 U2]. split; auto.
    rewrite (used_kept v v2 l); auto.
  - intros _. eapply desc_step; [|exact D1]. intros x I. pose proof (b_range _ _ _ BO) as R. rewrite Forall_forall in R. specialize (R x I). apply X2. lia.
  - tauto.
  - intros F. exfalso. apply F. reflexivity.
Qed.

(* --- f_sync --- *)

Lemma first_ok v o l : xvol_ok g v -> base g o l -> described (xent g v) o l ->
  exists v' s, fill_first g v o = Ok (v', set_stat o s, FR_OK) /\ (s = 0 \/ s = 2) /\ kept g bb v v' l /\ described (xent g v') (set_stat o s) l.
Proof using G.
  intros V B D. unfold fill_first. destruct (Z.eqb_spec (stat o) 3) as [S3|S3].
  - destruct D as [(S & _)|(a & b & c & -> & LC & BC & LK & [(S & ->)|(S & LA & NB & BA & L2)])]; [lia|lia|].
    pose proof (b_range _ _ _ B) as R. pose proof (b_start _ _ _ B) as ST.
    replace (Z.to_nat (n_cont o)) with (length a) by lia.
    assert (HD : sclust o = hd 0 (a ++ [hd 0 b])) by (rewrite ST; destruct a; [destruct b; [tauto|auto]|auto]).
    assert (NTH : forall i, (i <= length a)%nat -> nth i (a ++ b) 0 = sclust o + Z.of_nat i).
    { intros i I. rewrite HD, <- block_nth by (auto; rewrite app_length; cbn; lia). destruct (Nat.ltb_spec i (length a)); [rewrite !app_nth1 by lia; auto|].
      rewrite !app_nth2 by lia. replace (i - length a)%nat with O by lia. destruct b; [tauto|auto]. }
    pose proof (len_pos b NB) as LB. rewrite app_assoc in R. apply Forall_app in R as [R RC].
    assert (LAST : 2 <= nth (length a) (a ++ b) 0 < n_fatent g) by (apply range_nth; auto; rewrite app_length; lia).
    assert (FIRST : 2 <= nth 0 (a ++ b) 0 < n_fatent g) by (apply range_nth; auto; rewrite app_length; lia).
    rewrite NTH in LAST, FIRST by lia.
    destruct (first_loop_ok g bb G (length a) v (sclust o) V) as (v' & E & X); [lia|lia|]. rewrite E. cbn [bind].
    exists v', 0. split; auto. split; auto.
    assert (IV : forall x, (sclust o <=? x) && (x <? sclust o + Z.of_nat (length a)) = true -> In x a).
    { intros x H. assert (Q : nth (Z.to_nat (x - sclust o)) (a ++ b) 0 = x) by (rewrite NTH by lia; lia). rewrite <- Q. rewrite app_nth1 by lia. apply nth_In. lia. }
    assert (ND : NoDup ((a ++ b) ++ c)) by (rewrite <- app_assoc; apply B).
    split.
    + constructor; [exact (xs_ok _ _ _ _ _ _ X)|exact (xs_bits _ _ _ _ _ _ X)| |exact (xs_other _ _ _ _ _ _ X)|exact (xs_info _ _ _ _ _ _ X)]. intros x Hx NI. rewrite (xs_ents _ _ _ _ _ _ X) by auto.
      destruct ((sclust o <=? x) && (x <? sclust o + Z.of_nat (length a))) eqn:Q; auto. exfalso. apply NI. apply in_or_app; auto.
    + right. exists [], (a ++ b), c. cbn [app n_frag stat set_stat]. rewrite app_assoc. split; auto. split; auto. split; auto. split; auto.
      apply linked_app. split.
      * apply linked_all. intros i I. assert (Q : nth i a 0 = sclust o + Z.of_nat i) by (rewrite <- NTH by lia; now rewrite app_nth1).
        pose proof (x_ent _ _ G) as XE. unfold EOC in XE. rewrite (xs_ents _ _ _ _ _ _ X) by (rewrite Q; lia). rewrite Q.
        replace ((sclust o <=? sclust o + Z.of_nat i) && (sclust o + Z.of_nat i <? sclust o + Z.of_nat (length a))) with true by lia.
        rewrite Z.mod_small by lia. unfold after. destruct (Nat.ltb_spec (Datatypes.S i) (length a)).
        -- rewrite <- (app_nth1 a b 0) by auto. rewrite NTH by lia. lia.
        -- replace (hd _ b) with (nth (length a) (a ++ b) 0); [rewrite NTH by lia; lia|]. rewrite app_nth2 by lia. rewrite Nat.sub_diag. destruct b; [tauto|auto].
      * eapply linked_ext; [|exact LK]. intros x I. assert (Rx : 2 <= x < n_fatent g) by (rewrite Forall_forall in R; apply R; apply in_or_app; auto).
        rewrite (xs_ents _ _ _ _ _ _ X) by lia. destruct ((sclust o <=? x) && (x <? sclust o + Z.of_nat (length a))) eqn:Q; auto.
        exfalso. apply (nodup_apart a (b ++ c) x); [rewrite app_assoc; auto|auto|apply in_or_app; auto].
  - exists v, (stat o). assert (set_stat o (stat o) = o) as -> by (destruct o; auto). split; auto. split.
    + destruct D as [(S & _)|(a & b & c & _ & _ & _ & _ & [(S & _)|(S & _)])]; auto; lia.
    + split; [now apply kept_id|auto].
Qed.

Lemma sync_ok v f l : xvol_ok g v -> xfile_ok g bb v f l ->
  exists v' f', xsync g v f = Ok (v', f', FR_OK) /\ kept g bb v v' l /\ xfile_ok g bb v' f' l /\ clust f' = clust f /\ xfile_ok g bb v' (reopen f') l.
Proof using G.
  intros V X. destruct l as [|x0 l0].
  - destruct (xf_empty _ _ _ _ _ X eq_refl) as [F S]. unfold xsync, fill_first, fill_last. replace (stat (obj f) =? 3) with false by lia. cbn [bind].
    rewrite F. cbn [Z.to_nat last_loop bind]. eexists _, _. split; [reflexivity|]. split; [now apply kept_id|].
    pose proof (xf_start _ _ _ _ _ X) as ST. pose proof (xf_size _ _ _ _ _ X) as SZ. cbn in ST, SZ.
    split; [|split; [auto|]]; constructor; cbn [obj clust reopen n_frag stat sclust objsize set_frag hd length Z.of_nat]; auto; try constructor; auto; try tauto; try lia.
    destruct S as [-> | ->]; auto.
  - set (l := x0 :: l0) in *. assert (N : l <> []) by (unfold l; congruence). pose proof (file_base v f l X N) as B.
    destruct (first_ok v (obj f) l V B (xf_desc _ _ _ _ _ X N)) as (v1 & s & E1 & S & K1 & D1). unfold xsync. rewrite E1. cbn [bind].
    set (f1 := mkXfil (set_stat (obj f) s) (clust f)).
    assert (U1 : forall v', kept g bb v v' l -> Forall (fun c => 2 <= c < n_fatent g /\ used g bb v' c = true) l).
    { intros v' K. apply Forall_forall. intros x I. pose proof (xf_used _ _ _ _ _ X) as U. rewrite Forall_forall in U. destruct (U x I) as [Ua Ub]. split; auto.
      rewrite (used_kept v v' l); auto. }
    assert (X1 : xfile_ok g bb v1 f1 l).
    { constructor; cbn [obj clust f1]; try apply B; auto; try tauto. apply X. }
    destruct (settle v1 f1 l (k_ok _ _ _ _ _ K1) X1 N) as (v2 & E2 & K2 & D2). cbn [obj clust f1] in E2, D2. rewrite E2. cbn [bind].
    pose proof (kept_trans _ _ _ _ K1 K2) as K. eexists _, _. split; [reflexivity|]. split; auto.
    split; [|split; [auto|]]; constructor; cbn [obj clust reopen sclust objsize n_frag set_frag set_stat stat]; try apply B; auto; try tauto.
    intros _. assert (Q : Z.land (Z.lor s 1) 2 = s) by (destruct S as [-> | ->]; reflexivity). rewrite Q.
    destruct D2 as [(A1 & A2 & A3)|(a & b & c & A0 & LC & BC & LK & [(ST & ->)|(ST & _)])].
    + left. auto.
    + right. exists [], b, c. split; auto. split; auto.
    + exfalso. cbn in ST. lia.
Qed.

End S.
