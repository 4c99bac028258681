(* Clusters are given back. *)
From Coq Require Import ZArith Lia Bool List.
From Verif Require Import Base FatModel FatSpec FatProof FatProof2 FatProof4 XfatModel XfatSpec XfatProof XfatProof2 XfatProof3 XfatProof4 XfatProof5 XfatProof6.
Import ListNotations.
Open Scope Z_scope.

Lemma mem_nth (l : list Z) x i s : (forall j, (i <= j < s)%nat -> x <> nth j l 0) \/ exists j, (i <= j < s)%nat /\ x = nth j l 0.
Proof.
  induction s as [|s IH]; [left; lia|]. destruct IH as [IH|(j & J & E)]; [|right; exists j; split; auto; lia].
  destruct (Nat.le_gt_cases i s) as [L|L]; [|left; intros j J; lia]. destruct (Z.eq_dec x (nth s l 0)) as [E|E]; [right; exists s; split; auto; lia|].
  left. intros j J. destruct (Nat.eq_dec j s) as [->|]; auto. apply IH. lia.
Qed.

Lemma all_block (l : list Z) : l <> [] -> (forall j, (0 <= j < length l)%nat -> nth j l 0 = nth 0 l 0 + (Z.of_nat j - Z.of_nat 0)) -> block l.
Proof.
  intros N H. unfold block. assert (A : forall m c, (forall j, (j < length m)%nat -> nth j m 0 = c + Z.of_nat j) -> run c m).
  { induction m as [|x m IH]; intros c K; cbn; auto. split; [specialize (K O ltac:(cbn; lia)); cbn in K; lia|]. apply IH. intros j J. specialize (K (S j) ltac:(cbn; lia)). cbn [nth] in K. lia. }
  apply A. intros j J. rewrite H by lia. destruct l; [tauto|]. cbn [nth hd]. lia.
Qed.

Section S.
Variables (g : geo) (bb : Z).
Hypothesis G : xgeo_ok g bb.
Hypothesis SMALL : n_fatent g < EOC.

(* Where the loop of remove_chain is: the clusters k to s - 1 of l are free already. *)
Record part (v0 v : vol) (l : list Z) (k s : nat) : Prop := {
  p_ok : xvol_ok g v;
  p_gone : forall j, (k <= j < s)%nat -> used g bb v (nth j l 0) = false;
  p_bits : forall d, 2 <= d < bits g + 2 -> (forall j, (k <= j < s)%nat -> d <> nth j l 0) -> used g bb v d = used g bb v0 d;
  p_ents : forall c, 0 <= c < n_fatent g -> xent g v c = xent g v0 c;
  p_other : same_other g bb v0 v;
  p_last : last_clst v = last_clst v0 }.

Definition counted_up (v v' : vol) (n : Z) : Prop :=
  (free_clst v + n <= clusts g -> free_clst v' = free_clst v + n) /\ (clusts g < free_clst v -> free_clst v' = free_clst v).

Lemma inb c : 2 <= c < n_fatent g -> 2 <= c < bits g + 2.
Proof using G. pose proof (clusts_bits g bb G). unfold clusts in *. lia. Qed.

Lemma part_step v0 v v' l k s : (s <= length l)%nat -> Forall (fun c => 2 <= c < n_fatent g) l -> part v0 v l k s ->
  xstep g bb v v' (bit g bb v) (xent g v) -> part v0 v' l k s.
Proof using G.
  intros SL R P X. assert (U : forall d, 2 <= d < bits g + 2 -> used g bb v' d = used g bb v d) by (intros d D; unfold used; apply X; lia).
  constructor.
  - apply X.
  - intros j J. rewrite U; [apply P; auto|]. apply inb. apply range_nth; auto; lia.
  - intros d D N. rewrite U by auto. apply P; auto.
  - intros c C. rewrite (xs_ents _ _ _ _ _ _ X) by auto. apply P; auto.
  - intros t o T O. rewrite (xs_other _ _ _ _ _ _ X) by auto. apply P; auto.
  - destruct (xs_info _ _ _ _ _ _ X) as (_ & -> & _). apply P.
Qed.
Lemma part_info v0 v l k s f i : part v0 v l k s -> part v0 (set_info v f (last_clst v) i) l k s.
Proof using. intros [A B C D E F]. constructor; auto. destruct A as [a1 a2 a3 a4 a5]. constructor; auto. Qed.

Lemma rem_loop v0 o l k : base g o l -> n_frag o = 0 -> (forall j, (k <= j < length l)%nat -> link (xent g v0) o l j) ->
  (forall c, In c l -> used g bb v0 c = true) ->
  forall fuel v i s, part v0 v l k s -> (k <= s <= i)%nat -> (i < length l)%nat -> 0 <= free_clst v < 4294967296 ->
  (forall j, (s <= j <= i)%nat -> nth j l 0 = nth s l 0 + (Z.of_nat j - Z.of_nat s)) ->
  clusts g + Z.of_nat (length l) - Z.of_nat i <= Z.of_nat fuel ->
  exists v', xremove_loop fuel g bb v o (nth i l 0) (nth s l 0) (nth i l 0) = Ok (v', FR_OK) /\ part v0 v' l k (length l) /\
    counted_up v v' (Z.of_nat (length l) - Z.of_nat i).
Proof using G SMALL.
  intros B F LK US. pose proof (b_range _ _ _ B) as R. pose proof (b_nodup _ _ _ B) as ND. pose proof (few g bb G l ND R) as FW.
  pose proof (x_ent _ _ G) as XE. unfold EOC in *. pose proof (clusts_pos g bb G) as CP.
  assert (CN : w32 (n_fatent g - 2) = clusts g) by (unfold clusts; apply w32_id; lia).
  induction fuel as [|fuel IH]; intros v i s P KS I FC BL FU; [lia|].
  pose proof (range_nth g l i R I) as RI. pose proof (range_nth g l s R ltac:(lia)) as RS.
  destruct (get_link g bb G v o l i (p_ok _ _ _ _ _ P) B F I) as (v1 & E1 & X1).
  { specialize (LK i ltac:(lia)). unfold link in *. rewrite (p_ents _ _ _ _ _ P) by lia. auto. }
  cbn [xremove_loop]. rewrite E1. cbn [bind].
  set (nxt := after l i 2147483647). assert (NX : (S i < length l)%nat /\ nxt = nth (S i) l 0 /\ 2 <= nxt < n_fatent g \/ S i = length l /\ nxt = 2147483647).
  { unfold nxt, after. destruct (Nat.ltb_spec (S i) (length l)); [left|right; lia]. split; auto. split; auto. apply range_nth; auto. }
  change (after l i EOC) with nxt.
  replace (nxt =? 0) with false by (clear - NX XE; lia). replace (nxt =? 1) with false by (clear - NX XE; lia). replace (nxt =? ERR) with false by (unfold ERR; clear - NX XE; lia).
  rewrite CN. pose proof (part_step v0 v v1 l k s ltac:(lia) R P X1) as P1.
  destruct (xs_info _ _ _ _ _ _ X1) as (J1 & J2 & _).
  set (v2 := if free_clst v1 <? clusts g then set_info v1 (w32 (free_clst v1 + 1)) (last_clst v1) (Z.lor (fsi_flag v1) 1) else v1).
  assert (P2 : part v0 v2 l k s) by (unfold v2; destruct (free_clst v1 <? clusts g); [now apply part_info|auto]).
  assert (C2 : counted_up v v2 1 /\ 0 <= free_clst v2 < 4294967296).
  { unfold v2, counted_up. rewrite J1. destruct (Z.ltb_spec (free_clst v) (clusts g)); cbn [free_clst set_info]; [rewrite w32_id by (unfold clusts in *; lia)|rewrite J1]; unfold clusts in *; lia. }
  clearbody v2. clear P1 E1 X1 J1 J2 v1. destruct C2 as [C2 FC2].
  rewrite (w32_id (nth i l 0 + 1)) by lia.
  destruct (Z.eqb_spec (nth i l 0 + 1) nxt) as [EN|EN].
  - destruct NX as [(N1 & N2 & N3)|(_ & N2)]; [|clear - N2 EN RI SMALL; lia].
    replace (nxt <? n_fatent g) with true by lia. rewrite N2.
    destruct (IH v2 (S i) s P2 ltac:(lia) N1 FC2) as (v' & E & P' & C').
    + intros j J. destruct (Nat.eq_dec j (S i)) as [->|]; [rewrite <- N2, <- EN, (BL i) by lia; lia|apply BL; lia].
    + lia.
    + exists v'. split; auto. split; auto. clear - C' C2 N1. unfold counted_up in *. lia.
  - assert (SI : nth i l 0 = nth s l 0 + (Z.of_nat i - Z.of_nat s)) by (apply BL; lia).
    replace (w32 (w32 (nth i l 0 - nth s l 0) + 1)) with (Z.of_nat i - Z.of_nat s + 1).
    2: { rewrite SI. replace (nth s l 0 + (Z.of_nat i - Z.of_nat s) - nth s l 0) with (Z.of_nat i - Z.of_nat s) by lia. rewrite !w32_id; unfold clusts in *; rewrite ?w32_id; lia. }
    set (n := Z.of_nat i - Z.of_nat s + 1). pose proof (inb _ RI) as BI.
    destruct (change_marks g bb G v2 (nth s l 0) n false fuel (p_ok _ _ _ _ _ P2)) as (v3 & m & r & E3 & (M1 & M2 & M3 & M4) & (T1 & T2 & T3) & PR & Q).
    { lia. } { unfold n; lia. } { unfold n. lia. } { unfold n, clusts in *; lia. } { lia. } { unfold n; lia. }
    rewrite E3. cbn [bind].
    assert (UB : forall j, (s <= j <= i)%nat -> used g bb v2 (nth j l 0) = true).
    { intros j J. rewrite (p_bits _ _ _ _ _ P2); [apply US; apply nth_In; lia|apply inb; apply range_nth; auto; lia|].
      intros j' J' Q'. assert (j = j'); [|lia]. apply (proj1 (NoDup_nth l 0) ND); auto; lia. }
    destruct Q as [(-> & ->)|(Q1 & _ & Q3)].
    2: { exfalso. replace (nth s l 0 + m) with (nth (s + Z.to_nat m) l 0) in Q3 by (rewrite BL; unfold n in *; lia). rewrite UB in Q3 by (unfold n in *; lia). discriminate. }
    assert (P3 : part v0 v3 l k (S i)).
    { constructor.
      - auto.
      - intros j J. pose proof (range_nth g l j R ltac:(lia)) as RJ. rewrite M2 by (apply inb; auto).
        destruct ((nth s l 0 <=? nth j l 0) && (nth j l 0 <? nth s l 0 + n)) eqn:Q; auto. destruct (Nat.lt_ge_cases j s); [apply P2; lia|].
        exfalso. pose proof (BL j ltac:(lia)). unfold n in Q. lia.
      - intros d D N. rewrite M2 by auto.
        destruct ((nth s l 0 <=? d) && (d <? nth s l 0 + n)) eqn:Q; [|apply P2; auto; intros j J; apply N; lia].
        exfalso. apply (N (Nat.add s (Z.to_nat (d - nth s l 0)))); [unfold n in Q; lia|]. rewrite BL by (unfold n in Q; lia). lia.
      - intros c C. rewrite M3 by auto. apply P2; auto.
      - intros t o' Ht Ho. rewrite M4 by auto. apply P2; auto.
      - rewrite T2. apply P2. }
    destruct NX as [(N1 & N2 & N3)|(N1 & N2)].
    + replace (nxt <? n_fatent g) with true by lia. rewrite N2.
      destruct (IH v3 (S i) (S i) P3 ltac:(lia) N1) as (v' & E & P' & C').
      * rewrite T1. auto.
      * intros j J. replace j with (S i) by lia. lia.
      * lia.
      * exists v'. split; auto. split; auto. clear - C' C2 T1 N1. unfold counted_up in *. lia.
    + replace (nxt <? n_fatent g) with false by lia. exists v3. split; auto. rewrite <- N1. split; auto. clear - C2 T1 N1. unfold counted_up in *. lia.
Qed.

Lemma part_start v l k : xvol_ok g v -> part v v l k k.
Proof using. intros V. constructor; auto; [lia|intros t o _ _; auto]. Qed.

Lemma part_dropped v0 v v' l m a : part v v' (a ++ m) (length a) (length (a ++ m)) -> counted_up v v' (Z.of_nat (length m)) ->
  (forall c, 0 <= c < n_fatent g -> ~ In c l -> xent g v c = xent g v0 c) -> same_bits g bb v0 v -> same_other g bb v0 v -> same_info v0 v ->
  dropped g bb v0 v' l m.
Proof using.
  intros P [C1 C2] HE HB HO (H1 & H2 & H3).
  assert (IN : forall c, In c m <-> exists j, (length a <= j < length (a ++ m))%nat /\ c = nth j (a ++ m) 0).
  { intros c. split.
    - intros I. destruct (In_nth _ _ 0 I) as (j & J & <-). exists (length a + j)%nat. rewrite app_length. split; [lia|]. rewrite app_nth2 by lia. f_equal. lia.
    - intros (j & J & ->). rewrite app_nth2 by lia. apply nth_In. rewrite app_length in J. lia. }
  constructor.
  - apply P.
  - intros c I. apply IN in I as (j & J & ->). apply P; auto.
  - intros c Hc NI. rewrite (p_bits _ _ _ _ _ P) by (auto; intros j J Q; apply NI; apply IN; eauto). unfold used. apply HB. lia.
  - intros c Hc NI. rewrite (p_ents _ _ _ _ _ P) by auto. auto.
  - intros t o Ht Ho. rewrite (p_other _ _ _ _ _ P) by auto. auto.
  - rewrite (p_last _ _ _ _ _ P). auto.
  - rewrite <- H1. auto.
  - rewrite <- H1. auto.
Qed.

Lemma empty_ok v f l fuel : xvol_ok g v -> xfile_ok g bb v f l -> l <> [] -> n_frag (obj f) = 0 -> 0 <= free_clst v < 4294967296 -> 2 * clusts g <= Z.of_nat fuel ->
  exists v' f', empty fuel g bb v f = Ok (v', f', FR_OK) /\ xfile_ok g bb v' f' [] /\ dropped g bb v v' l l.
Proof using G SMALL.
  intros V X N F FC FU. pose proof (file_base g bb v f l X N) as B. pose proof (len_pos l N) as LP.
  pose proof (few g bb G l (b_nodup _ _ _ B) (b_range _ _ _ B)) as FW.
  assert (H0 : sclust (obj f) = nth 0 l 0) by (rewrite (b_start _ _ _ B); destruct l; auto).
  pose proof (range_nth g l 0 (b_range _ _ _ B) LP) as R0.
  destruct (rem_loop v (obj f) l 0 B F) with (fuel := fuel) (v := v) (i := O) (s := O) as (v1 & E1 & P1 & C1); try lia.
  { intros j J. apply desc_link; auto; [now apply X|lia]. }
  { intros c I. pose proof (xf_used _ _ _ _ _ X) as U. rewrite Forall_forall in U. destruct (U c I); auto. }
  { now apply part_start. }
  { intros j J. replace j with O by lia. lia. }
  unfold empty, xremove. rewrite H0. replace ((nth 0 l 0 <? 2) || (n_fatent g <=? nth 0 l 0)) with false by lia.
  change (0 =? 0) with true. cbn [negb andb bind]. rewrite E1. cbn [bind]. eexists _, _. split; [reflexivity|]. split.
  - constructor; cbn [obj clust sclust objsize set_size set_start set_stat stat n_frag length hd]; auto; try constructor; try tauto; try lia.
  - apply (part_dropped v v v1 l l []); auto; [|intros k K; auto|intros t o _ _; auto|split; auto]. replace (Z.of_nat (length l)) with (Z.of_nat (length l) - Z.of_nat 0) by lia. auto.
Qed.

(* --- f_truncate behind a cluster --- *)

Lemma get0 v o c : xvol_ok g v -> 2 <= c < n_fatent g -> stat o = 0 -> n_frag o = 0 ->
  exists v', xget g v o c = Ok (v', xent g v c mod 2147483648) /\ xstep g bb v v' (bit g bb v) (xent g v).
Proof using G.
  intros V C S F. unfold xget. replace ((c <? 2) || (n_fatent g <=? c)) with false by lia. rewrite S, F. change (0 =? 0) with true. rewrite orb_true_r.
  cbv zeta. change (0 =? 2) with false. change (0 =? 3) with false. cbn [andb negb]. now apply get_entry.
Qed.

Lemma contig_ok o l : Forall (fun c => 2 <= c < n_fatent g) l -> NoDup l -> stat o = 0 -> n_frag o = 0 ->
  forall fuel v i, xvol_ok g v -> linked_to (xent g v) l EOC -> (i < length l)%nat -> Z.of_nat (length l) - Z.of_nat i <= Z.of_nat fuel ->
  exists v' b, contig fuel g v o (nth i l 0) (last l 0) = Ok (v', b, FR_OK) /\ xstep g bb v v' (bit g bb v) (xent g v) /\
    (b = true -> forall j, (i <= j < length l)%nat -> nth j l 0 = nth i l 0 + (Z.of_nat j - Z.of_nat i)).
Proof using G.
  intros R ND S F. pose proof (x_ent _ _ G) as XE. unfold EOC in XE.
  induction fuel as [|fuel IH]; intros v i V L I FU; [lia|]. cbn [contig]. pose proof (range_nth g l i R I) as RI.
  destruct (Z.eqb_spec (nth i l 0) (last l 0)) as [E|E].
  - exists v, true. split; auto. split; [now apply xstep_id|]. intros _ j J. rewrite last_nth in E.
    assert (i = (length l - 1)%nat) by (apply (proj1 (NoDup_nth l 0) ND); auto; lia). replace j with i by lia. lia.
  - assert (SI : (Datatypes.S i < length l)%nat).
    { destruct (Nat.eq_dec (Datatypes.S i) (length l)) as [Q|]; [|lia]. exfalso. apply E. rewrite last_nth. f_equal. lia. }
    destruct (get0 v o (nth i l 0) V RI S F) as (v1 & E1 & X1). rewrite E1. cbn [bind].
    rewrite (linked_nth _ _ _ i L I). unfold after. replace (Datatypes.S i <? length l)%nat with true by lia.
    pose proof (range_nth g l _ R SI) as RS. replace (nth (Datatypes.S i) l 0 <? 2) with false by lia. replace (nth (Datatypes.S i) l 0 =? ERR) with false by (unfold ERR; lia).
    rewrite w32_id by lia. destruct (Z.eqb_spec (nth (Datatypes.S i) l 0) (nth i l 0 + 1)) as [Q|Q]; cbn [negb].
    + rewrite <- Q. destruct (IH v1 (Datatypes.S i)) as (v2 & b & E2 & X2 & H2); auto; [apply X1| |lia|].
      * eapply linked_ext; [|exact L]. intros x Hx. rewrite Forall_forall in R. specialize (R x Hx). apply X1. lia.
      * exists v2, b. split; auto. split; [eapply xs_ext; [eapply xs_trans; eauto| |]; intros; apply X1; auto|].
        intros T j J. destruct (Nat.eq_dec j i) as [->|]; [lia|]. rewrite (H2 T) by lia. lia.
    + exists v1, false. split; auto. split; auto. discriminate.
Qed.



Lemma cut_ok v f p q fuel : xvol_ok g v -> xfile_ok g bb v f (p ++ q) -> p <> [] -> q <> [] -> n_frag (obj f) = 0 -> clust f = last p 0 ->
  0 <= free_clst v < 4294967296 -> 2 * clusts g <= Z.of_nat fuel ->
  exists v' f', cut fuel g bb v f (length p - 1) = Ok (v', f', FR_OK) /\ xfile_ok g bb v' f' p /\ clust f' = clust f /\ n_frag (obj f') = 0 /\ dropped g bb v v' (p ++ q) q.
Proof using G SMALL.
  intros V X NP NQ F CL FC FU. set (l := p ++ q) in *. assert (N : l <> []) by (unfold l; destruct p; [tauto|cbn; congruence]).
  pose proof (file_base g bb v f l X N) as B. pose proof (b_range _ _ _ B) as R. pose proof (b_nodup _ _ _ B) as ND.
  pose proof (few g bb G l ND R) as FW. pose proof (x_ent _ _ G) as XE. unfold EOC in *. pose proof (len_pos p NP) as LP. pose proof (len_pos q NQ) as LQ.
  assert (LL : length l = (length p + length q)%nat) by (unfold l; apply app_length).
  set (k := (length p - 1)%nat). assert (CK : clust f = nth k l 0) by (rewrite CL, last_nth; unfold l; rewrite app_nth1 by lia; auto).
  assert (HQ : nth (length p) l 0 = hd 0 q) by (unfold l; rewrite app_nth2, Nat.sub_diag by lia; destruct q; auto).
  pose proof (range_nth g l k R ltac:(lia)) as RK. pose proof (range_nth g l (length p) R ltac:(lia)) as RQ.
  pose proof (xf_desc _ _ _ _ _ X N) as D.
  destruct (get_link g bb G v (obj f) l k V B F ltac:(lia)) as (v1 & E1 & X1); [apply desc_link; auto; lia|].
  unfold after in E1. replace (S k) with (length p) in E1 by lia. replace (length p <? length l)%nat with true in E1 by lia.
  unfold cut. rewrite CK, E1. cbn [bind]. set (ncl := nth (length p) l 0) in *.
  replace (ncl =? ERR) with false by (unfold ERR; lia). replace (ncl =? 1) with false by lia. replace (ncl <? n_fatent g) with true by lia.
  unfold xremove. replace ((ncl <? 2) || (n_fatent g <=? ncl)) with false by lia. replace (nth k l 0 =? 0) with false by lia. cbn [negb andb].
  (* the end of the chain *)
  assert (END : exists v2, (if negb (stat (obj f) =? 2) then xput g v1 (nth k l 0) ERR else Ok (v1, FR_OK)) = Ok (v2, FR_OK) /\
     xvol_ok g v2 /\ same_bits g bb v v2 /\ same_other g bb v v2 /\ same_info v v2 /\
     (forall c, 0 <= c < n_fatent g -> c <> nth k l 0 -> xent g v2 c = xent g v c) /\ (stat (obj f) <> 2 -> xent g v2 (nth k l 0) = ERR)).
  { destruct (Z.eqb_spec (stat (obj f)) 2) as [S2|S2]; cbn [negb].
    - exists v1. split; auto. split; [apply X1|]. split; [exact (xs_bits _ _ _ _ _ _ X1)|]. split; [apply X1|]. split; [apply X1|]. split; [intros; apply X1; auto|tauto].
    - destruct (xput_ok g bb G v1 (nth k l 0) ERR (xs_ok _ _ _ _ _ _ X1) RK ltac:(unfold ERR; lia)) as (v2 & E2 & X2). exists v2. split; auto.
      split; [apply X2|]. split; [intros j J; rewrite (xs_bits _ _ _ _ _ _ X2) by auto; apply X1; auto|].
      split; [intros t o Ht Ho; rewrite (xs_other _ _ _ _ _ _ X2) by auto; apply X1; auto|]. split; [eapply info_trans; [apply X1|apply X2]|].
      split; [intros c Hc NE; rewrite (xs_ents _ _ _ _ _ _ X2) by auto; unfold upd; replace (c =? nth k l 0) with false by lia; apply X1; auto|].
      intros _. rewrite (xs_ents _ _ _ _ _ _ X2) by lia. unfold upd. now rewrite Z.eqb_refl. }
  destruct END as (v2 & E2 & V2 & SB & SO & SI & EN & EE). rewrite E2. cbn [bind]. clear E1 E2 X1 v1.
  destruct (rem_loop v2 (obj f) l (length p) B F) with (fuel := fuel) (v := v2) (i := length p) (s := length p) as (v3 & E3 & P3 & C3); try lia.
  { intros j J. assert (LJ : link (xent g v) (obj f) l j) by (apply desc_link; auto; lia). unfold link in *.
    pose proof (range_nth g l j R ltac:(lia)) as RJ. rewrite EN; [auto|lia|]. intros Q. assert (j = k); [|lia]. apply (proj1 (NoDup_nth l 0) ND); auto; lia. }
  { intros c I. pose proof (xf_used _ _ _ _ _ X) as U. rewrite Forall_forall in U. destruct (U c I) as [Ua Ub]. pose proof (inb c Ua). unfold used. rewrite SB by lia. exact Ub. }
  { now apply part_start. }
  { destruct SI as (-> & _). auto. }
  { intros j J. replace j with (length p) by lia. lia. }
  fold ncl in E3. rewrite E3. cbn [bind].
  assert (DR : forall v', xstep g bb v3 v' (bit g bb v3) (xent g v3) -> dropped g bb v v' l q).
  { intros v' X'. apply (part_dropped v v2 v' l q p); auto.
    - fold l. eapply part_step; eauto; lia.
    - unfold counted_up in *. destruct (xs_info _ _ _ _ _ _ X') as (-> & _). rewrite LL in C3. replace (Z.of_nat (length q)) with (Z.of_nat (length p + length q) - Z.of_nat (length p)) by lia. auto.
    - intros c Hc NI. apply EN; auto. intros ->. apply NI. apply nth_In. clear - LL LP LQ. unfold k. lia. }
  (* what is left is described *)
  assert (FIN : forall v' o', xstep g bb v3 v' (bit g bb v3) (xent g v3) -> sclust o' = sclust (obj f) -> n_frag o' = 0 -> described (xent g v') o' p ->
     xfile_ok g bb v' (mkXfil (set_size o' (w64 ((Z.of_nat k + 1) * cbytes g))) (nth k l 0)) p).
  { intros v' o' X' Q1 Q2 Q3. assert (FP : forall c, In c p -> In c l) by (intros; apply in_or_app; auto).
    pose proof (ssz g bb G) as SS. pose proof (x_csize _ _ G) as CS. pose proof (x_clusters _ _ G) as XC. pose proof (ok_dsize _ (x_geo _ _ G)) as DS. change (dsize (small g)) with (dsize g) in DS.
    constructor; cbn [obj clust sclust objsize set_size n_frag stat].
    - unfold l in ND. clear - ND. induction p as [|x p0 IH]; [constructor|]. cbn in ND. inversion ND; subst. constructor; auto. intros I. apply H1. apply in_or_app; auto.
    - apply Forall_forall. intros c I. rewrite Forall_forall in R. split; [auto|]. rewrite (d_bits _ _ _ _ _ _ (DR v' X')).
      + pose proof (xf_used _ _ _ _ _ X) as U. rewrite Forall_forall in U. apply U; auto.
      + apply inb; auto.
      + apply (nodup_apart p q c ND I).
    - rewrite Q1, (b_start _ _ _ B). unfold l. now apply hd_app.
    - replace (Z.of_nat k + 1) with (Z.of_nat (length p)) by lia. unfold w64. apply Z.mod_small. set (n := Z.of_nat (length p)) in *.
      assert (N0 : 0 <= n) by (unfold n; lia). assert (N1 : n <= clusts g) by (unfold n; lia). unfold cbytes. clear - N0 N1 SS CS XC DS.
      assert (n * csize g <= 4294967295) by nia. nia.
    - intros _. exact Q3.
    - tauto.
    - intros NF. exfalso. apply NF. auto. }
  assert (E3S : forall c, 0 <= c < n_fatent g -> xent g v3 c = xent g v2 c) by (intros; apply P3; auto).
  assert (V3 : xvol_ok g v3) by apply P3.
  pose proof (snoc p NP) as SP.
  assert (LK0 : forall b0, b0 <> [] -> last b0 0 = nth k l 0 -> (forall c, In c b0 -> In c p) -> NoDup b0 -> linked_to (xent g v) b0 ncl -> stat (obj f) <> 2 -> linked_to (xent g v3) b0 2147483647).
  { intros b0 NB LB IB NDB LK ST. rewrite (snoc b0 NB) in LK |- *. apply linked_app in LK as [LK _]. apply linked_app. rewrite LB in LK |- *. cbn [hd] in *. split.
    - eapply linked_ext; [|exact LK]. intros c I. assert (IP : In c p) by (apply IB; rewrite (snoc b0 NB); apply in_or_app; auto).
      assert (RC : 2 <= c < n_fatent g) by (rewrite Forall_forall in R; apply R; apply in_or_app; auto).
      assert (NK : c <> nth k l 0).
      { intros Q. rewrite (snoc b0 NB) in NDB. apply (nodup_apart _ _ c NDB I). left. congruence. }
      rewrite E3S by lia. apply EN; [lia|exact NK].
    - cbn. split; auto. rewrite E3S, EE by (auto; lia). reflexivity. }
  assert (KP : last p 0 = nth k l 0) by (rewrite <- CL; auto).
  assert (NDP : NoDup p) by (unfold l in ND; clear - ND; induction p as [|x p0 IH]; [constructor|]; cbn in ND; inversion ND; subst; constructor; auto; intros I; apply H1; apply in_or_app; auto).
  assert (RP : Forall (fun c => 2 <= c < n_fatent g) p) by (apply Forall_app in R; tauto).
  destruct (Z.eqb_spec (stat (obj f)) 0) as [S0|S0].
  - (* a chain on the FAT *)
    assert (LK3 : linked_to (xent g v3) p 2147483647).
    { destruct D as [(S & _)|(a & b & c & L & LC & BC & LK & [(S & ->)|(S & _)])]; [lia| |lia]. rewrite F in LC. destruct c; [|cbn in LC; lia].
      cbn [app] in L. rewrite app_nil_r in L. rewrite <- L in LK. unfold l in LK. apply linked_app in LK as [LK _]. apply LK0; auto; [|lia].
      rewrite HQ. rewrite (hd_any q 0 EOC NQ). exact LK. }
    assert (SC : sclust (obj f) = nth 0 p 0) by (rewrite (b_start _ _ _ B); unfold l; rewrite hd_app by auto; destruct p; auto).
    rewrite SC. destruct (contig_ok (obj f) p RP NDP S0 F fuel v3 0 V3 LK3 LP ltac:(lia)) as (v4 & b & E4 & X4 & H4).
    rewrite KP in E4. rewrite E4. cbn [bind].
    assert (L4 : linked_to (xent g v4) p 2147483647).
    { eapply linked_ext; [|exact LK3]. intros c I. rewrite Forall_forall in RP. specialize (RP c I). apply X4. lia. }
    eexists v4, _. split; [reflexivity|]. cbn [obj clust]. split; [|split; [auto|split; [destruct b; exact F|apply DR; auto]]].
    apply FIN; auto; [destruct b; auto|destruct b; auto|]. destruct b.
    + left. split; auto. split; auto. apply all_block; [exact NP|]. intros j J. exact (H4 eq_refl j J).
    + right. exists [], p, []. rewrite app_nil_r. cbn [app length]. split; auto. split; [rewrite F; auto|]. split; [exact I|]. split; [exact L4|]. auto.
  - destruct (Z.eqb_spec (stat (obj f)) 3) as [S3|S3].
    + destruct D as [(S & _)|(a & b & c & L & LC & BC & LK & [(S & _)|(S & LA & NB & BA & L2)])]; [lia|lia|].
      rewrite F in LC. destruct c; [|cbn in LC; lia]. rewrite !app_nil_r in *.
      assert (HD : hd 0 l = hd 0 (a ++ [hd 0 b])) by (rewrite L; destruct a; [destruct b; [tauto|auto]|auto]).
      assert (NTH : forall j, (j <= length a)%nat -> nth j l 0 = hd 0 l + Z.of_nat j).
      { intros j J. rewrite HD, <- block_nth by (auto; rewrite app_length; cbn; lia). rewrite L. destruct (Nat.ltb_spec j (length a)); [rewrite !app_nth1 by lia; auto|].
        rewrite !app_nth2 by lia. replace (j - length a)%nat with O by lia. destruct b; [tauto|auto]. }
      assert (LAB : length l = (length a + length b)%nat) by (rewrite L; apply app_length). pose proof (len_pos b NB) as LB.
      pose proof (range_nth g l (length a) R ltac:(lia)) as RA. rewrite NTH in RA by lia. pose proof (range_nth g l 0 R ltac:(lia)) as R0. rewrite NTH in R0 by lia.
      rewrite (b_start _ _ _ B). rewrite (w32_id (hd 0 l + n_cont (obj f))) by lia. cbn [andb].
      exists v3. destruct (Nat.le_gt_cases k (length a)) as [KA|KA].
      * pose proof (NTH k KA) as NK. replace ((hd 0 l <=? nth k l 0) && (nth k l 0 <=? hd 0 l + n_cont (obj f))) with true by lia.
        eexists. split; [reflexivity|]. cbn [obj clust]. split; [|split; [auto|split; [exact F|apply DR; now apply xstep_id]]].
        apply FIN; auto; [now apply xstep_id|]. left. split; auto. split; auto. apply all_block; auto. intros j J.
        assert (PJ : forall j, (j < length p)%nat -> nth j p 0 = nth j l 0) by (intros; unfold l; now rewrite app_nth1). rewrite !PJ by lia. rewrite !NTH by lia. lia.
      * replace ((hd 0 l <=? nth k l 0) && (nth k l 0 <=? hd 0 l + n_cont (obj f))) with false.
        2: { symmetry. apply not_true_is_false. intros H. assert (QQ : nth (Z.to_nat (nth k l 0 - hd 0 l)) l 0 = nth k l 0) by (rewrite NTH by lia; lia).
             assert (Z.to_nat (nth k l 0 - hd 0 l) = k); [|lia]. apply (proj1 (NoDup_nth l 0) ND); auto; lia. }
        eexists. split; [reflexivity|]. cbn [obj clust]. split; [|split; [auto|split; [exact F|apply DR; now apply xstep_id]]].
        apply FIN; auto; [now apply xstep_id|]. right.
        (* p = a ++ b0 *)
        assert (PB : exists b0, p = a ++ b0 /\ b = b0 ++ q).
        { exists (skipn (length a) p). assert (PF : firstn (length a) p = a).
          { assert (FA : firstn (length a) l = a) by (rewrite L, firstn_app, Nat.sub_diag, firstn_all; cbn; now rewrite app_nil_r).
            unfold l in FA. rewrite firstn_app in FA. replace (length a - length p)%nat with O in FA by lia. cbn in FA. now rewrite app_nil_r in FA. }
          assert (PP : p = a ++ skipn (length a) p) by (pose proof (firstn_skipn (length a) p) as FS; rewrite PF in FS; auto). split; auto.
          apply (app_inv_head a). rewrite app_assoc, <- PP, <- L. reflexivity. }
        destruct PB as (b0 & PB & BQ). assert (LB0 : (2 <= length b0)%nat) by (assert (length p = (length a + length b0)%nat) by (rewrite PB; apply app_length); lia).
        assert (NB0 : b0 <> []) by (apply not_nil; lia).
        exists a, b0, []. rewrite app_nil_r. cbn [length]. split; auto. split; [rewrite F; auto|]. split; [exact I|]. split.
        -- apply LK0; auto; try lia.
           ++ rewrite <- KP, PB. symmetry. now apply last_app.
           ++ intros c I. rewrite PB. apply in_or_app; auto.
           ++ rewrite PB in NDP. now apply nodup_app_r in NDP.
           ++ rewrite BQ in LK. apply linked_app in LK as [LK _]. rewrite HQ. rewrite (hd_any q 0 EOC NQ). exact LK.
        -- right. split; auto. split; auto. split; auto. split; [|lia]. rewrite BQ in BA. rewrite hd_app in BA by auto. exact BA.
    + assert (S2 : stat (obj f) = 2 /\ block l). { destruct D as [(S & _ & BL)|(a & b & c & _ & _ & _ & _ & [(S & _)|(S & _)])]; [auto|lia|lia]. }
      destruct S2 as [S2 BL]. cbn [andb]. exists v3. eexists. split; [reflexivity|]. cbn [obj clust]. split; [|split; [auto|split; [exact F|apply DR; now apply xstep_id]]].
      apply FIN; auto; [now apply xstep_id|]. left. split; auto. split; auto. unfold l in BL. now apply block_pre in BL.
Qed.

End S.
