(* Reading and writing the chain of an exFAT file. *)
From Coq Require Import ZArith Lia Bool List.
From Verif Require Import Base FatModel FatSpec FatProof FatProof2 FatProof4 XfatModel XfatSpec XfatProof XfatProof2 XfatProof3.
Import ListNotations.
Open Scope Z_scope.

(* --- lists --- *)

Lemma run_nth l : forall c i, run c l -> (i < length l)%nat -> nth i l 0 = c + Z.of_nat i.
Proof.
  induction l as [|d l IH]; intros c i R I; [cbn in I; lia|]. destruct R as [-> R]. destruct i as [|i]; [cbn; lia|].
  cbn [nth]. rewrite (IH _ _ R) by (cbn in I; lia). lia.
Qed.
Lemma run_app l m : forall c, run c (l ++ m) <-> run c l /\ run (c + Z.of_nat (length l)) m.
Proof.
  induction l as [|d l IH]; intros c; cbn [app run length].
  - rewrite Z.add_0_r. tauto.
  - rewrite IH. replace (c + 1 + Z.of_nat (length l)) with (c + Z.of_nat (S (length l))) by lia. tauto.
Qed.
Lemma block_nth l i : block l -> (i < length l)%nat -> nth i l 0 = hd 0 l + Z.of_nat i.
Proof. intros. now apply run_nth. Qed.
Lemma hd_app (l m : list Z) d : l <> [] -> hd d (l ++ m) = hd d l.
Proof. destruct l; [tauto|auto]. Qed.
Lemma hd_any (l : list Z) d e : l <> [] -> hd d l = hd e l. Proof. destruct l; [tauto|auto]. Qed.
Lemma last_nth (l : list Z) : last l 0 = nth (length l - 1) l 0.
Proof.
  induction l as [|a l IH]; auto. destruct l as [|b l]; auto. change (last (a :: b :: l) 0) with (last (b :: l) 0). rewrite IH.
  cbn [length]. rewrite !Nat.sub_succ, !Nat.sub_0_r. reflexivity.
Qed.
Lemma last_in (l : list Z) : l <> [] -> In (last l 0) l.
Proof. intros N. rewrite last_nth. apply nth_In. destruct l; [congruence|cbn; lia]. Qed.
Lemma block_snoc l x : l <> [] -> block l -> x = last l 0 + 1 -> block (l ++ [x]).
Proof.
  intros N B ->. unfold block. rewrite hd_app by auto. apply run_app. split; auto. cbn. split; auto.
  rewrite last_nth, block_nth; auto; (destruct l; [tauto|]); cbn [length]; lia.
Qed.
Lemma block_pre l m : l <> [] -> block (l ++ m) -> block l.
Proof. intros N B. unfold block in *. rewrite hd_app in B by auto. apply run_app in B. tauto. Qed.

Lemma linked_app E l m e : linked_to E (l ++ m) e <-> linked_to E l (hd e m) /\ linked_to E m e.
Proof.
  induction l as [|c l IH]; cbn [app linked_to]; [tauto|]. rewrite IH. destruct l; cbn [app hd]; tauto.
Qed.
Lemma linked_ext E E' l e : (forall c, In c l -> E' c = E c) -> linked_to E l e -> linked_to E' l e.
Proof.
  induction l as [|c l IH]; cbn [linked_to]; auto. intros H [A B]. split; [rewrite H; cbn; auto|]. apply IH; auto. intros. apply H. now right.
Qed.
Definition after (l : list Z) (i : nat) (e : Z) : Z := if (S i <? length l)%nat then nth (S i) l 0 else e.
Lemma linked_nth E l e : forall i, linked_to E l e -> (i < length l)%nat -> E (nth i l 0) mod 2147483648 = after l i e.
Proof.
  induction l as [|c l IH]; intros i L I; [cbn in I; lia|]. destruct L as [A B]. destruct i as [|i].
  - unfold after. cbn [nth length]. rewrite A. destruct l; reflexivity.
  - cbn [nth length] in *. rewrite (IH i B) by lia. unfold after. cbn [length nth]. 
    change (S (S i) <? S (length l))%nat with (S i <? length l)%nat. reflexivity.
Qed.
Lemma after_app a b i e : (length a <= i)%nat -> after (a ++ b) i e = after b (i - length a) e.
Proof.
  intros H. unfold after. rewrite app_length. destruct (Nat.ltb_spec (S i) (length a + length b)); destruct (Nat.ltb_spec (S (i - length a)) (length b)); try lia; auto.
  rewrite app_nth2 by lia. f_equal. lia.
Qed.
Lemma linked_all E l e : (forall i, (i < length l)%nat -> E (nth i l 0) mod 2147483648 = after l i e) -> linked_to E l e.
Proof.
  induction l as [|c l IH]; intros H; cbn [linked_to]; auto. split.
  - specialize (H O ltac:(cbn; lia)). cbn [nth] in H. rewrite H. unfold after. destruct l; reflexivity.
  - apply IH. intros i I. specialize (H (S i) ltac:(cbn; lia)). cbn [nth] in H. rewrite H. unfold after. cbn [length nth].
    change (S (S i) <? S (length l))%nat with (S i <? length l)%nat. reflexivity.
Qed.

Lemma land_eoc x : Z.land x EOC = x mod 2147483648.
Proof. change EOC with (Z.ones 31). rewrite Z.land_ones by lia. reflexivity. Qed.

(* The clusters of a file, apart from the links. *)
Record base (g : geo) (o : xobj) (l : list Z) : Prop := {
  b_nodup : NoDup l;
  b_range : Forall (fun c => 2 <= c < n_fatent g) l;
  b_some : l <> [];
  b_start : sclust o = hd 0 l;
  b_size : objsize o = Z.of_nat (length l) * cbytes g }.

(* The link of cluster number i. *)
Definition link (E : Z -> Z) (o : xobj) (l : list Z) (i : nat) : Prop :=
  (stat o = 2 /\ block l) \/
  (stat o = 0 /\ E (nth i l 0) mod 2147483648 = after l i EOC) \/
  (stat o = 3 /\ 0 <= n_cont o /\ n_cont o + 1 < Z.of_nat (length l) /\ (forall j, Z.of_nat j <= n_cont o -> nth j l 0 = hd 0 l + Z.of_nat j) /\
   (n_cont o <= Z.of_nat i -> E (nth i l 0) mod 2147483648 = after l i EOC)).

Lemma desc_link E o l i : l <> [] -> described E o l -> n_frag o = 0 -> (i < length l)%nat -> link E o l i.
Proof.
  intros N [(S & _ & B)|(a & b & c & -> & LC & BC & LK & [(S & ->)|(S & LA & NB & BA & L2)])] F I.
  - left. auto.
  - rewrite F in LC. destruct c; [|cbn in LC; lia]. right; left. split; auto. rewrite !app_nil_r in *. cbn [app] in *. now apply linked_nth.
  - rewrite F in LC. destruct c; [|cbn in LC; lia]. right; right. rewrite !app_nil_r in *. split; auto. split; [lia|].
    rewrite app_length in *. split; [lia|].
    assert (HD : hd 0 (a ++ b) = hd 0 (a ++ [hd 0 b])) by (destruct a; [destruct b; [tauto|auto]|auto]). split.
    + intros j J. rewrite HD. rewrite <- block_nth by (auto; rewrite app_length; cbn; lia).
      destruct (Nat.ltb_spec j (length a)).
      * rewrite !app_nth1 by lia. auto.
      * rewrite !app_nth2 by lia. replace (j - length a)%nat with O by lia. destruct b; [tauto|auto].
    + intros J. rewrite app_nth2 by lia. rewrite after_app by lia. apply linked_nth; auto. lia.
Qed.

Section S.
Variables (g : geo) (bb : Z).
Hypothesis G : xgeo_ok g bb.

Lemma few l : NoDup l -> Forall (fun c => 2 <= c < n_fatent g) l -> Z.of_nat (length l) <= clusts g.
Proof using G.
  intros N R. pose proof (x_ent _ _ G). unfold clusts. rewrite Forall_forall in R.
  assert (L : (length l <= length (clusters g))%nat).
  { apply NoDup_incl_length; auto. intros c C. apply in_clusters; [lia|]. apply R; auto. }
  pose proof (clusters_len g ltac:(lia)). lia.
Qed.

Lemma clen_ok o l : base g o l -> w32 (w64 (objsize o - 1) / ss g) / csize g = Z.of_nat (length l) - 1.
Proof using G.
  intros B. pose proof (few l (b_nodup _ _ _ B) (b_range _ _ _ B)) as F. pose proof (ssz g bb G) as SS. pose proof (x_csize _ _ G) as CS.
  pose proof (x_clusters _ _ G) as XC. pose proof (ok_dsize _ (x_geo _ _ G)) as DS. change (dsize (small g)) with (dsize g) in DS.
  rewrite (b_size _ _ _ B). unfold cbytes. assert (L : 1 <= Z.of_nat (length l)) by (pose proof (b_some _ _ _ B); destruct l; [tauto|cbn [length]; lia]).
  set (n := Z.of_nat (length l)) in *. set (m := n * csize g). assert (M : 1 <= m < 4294967295) by (unfold m; clear - F CS XC DS L; nia).
  replace (n * (csize g * ss g)) with (m * ss g) by (unfold m; ring).
  unfold w64. rewrite (Z.mod_small (m * ss g - 1)) by (clear - M SS; nia).
  replace ((m * ss g - 1) / ss g) with (m - 1) by (apply (Z.div_unique_pos _ _ _ (ss g - 1)); clear - M SS; nia).
  rewrite w32_id by lia. symmetry. unfold m. apply (Z.div_unique_pos _ _ _ (csize g - 1)); [lia|]. ring.
Qed.

Lemma range_nth l i : Forall (fun c => 2 <= c < n_fatent g) l -> (i < length l)%nat -> 2 <= nth i l 0 < n_fatent g.
Proof using. intros F I. rewrite Forall_forall in F. apply F. now apply nth_In. Qed.

Lemma xstep_id v : xvol_ok g v -> xstep g bb v v (bit g bb v) (xent g v).
Proof using. intros V. constructor; auto; [intros s o _ _; auto|split; auto]. Qed.

Lemma get_entry v c : xvol_ok g v -> 2 <= c < n_fatent g ->
  exists v', (let '(v, r) := move_window g v (w32 (fatbase g + c / (ss g / 4))) in
        match r with
        | FR_OK => x <- ld_dword (win v) (w32 (c * 4) mod ss g) ;; Ok (v, Z.land x EOC)
        | _ => Ok (v, ERR)
        end) = Ok (v', xent g v c mod 2147483648) /\ xstep g bb v v' (bit g bb v) (xent g v).
Proof using G.
  intros V C. destruct (read_x g bb G v c V C) as (v' & E & X & L). exists v'. rewrite E. rewrite L. cbn [bind]. rewrite land_eoc. auto.
Qed.

Lemma size_pos o l : base g o l -> objsize o <> 0 /\ sclust o <> 0.
Proof using G.
  intros B. pose proof (b_some _ _ _ B) as N. rewrite (b_size _ _ _ B), (b_start _ _ _ B).
  pose proof (ssz g bb G) as SS. pose proof (x_csize _ _ G) as CS. pose proof (b_range _ _ _ B) as R. unfold cbytes.
  destruct l as [|c l]; [tauto|]. inversion R; subst. cbn [length hd]. split; [|lia]. clear - SS CS. nia.
Qed.

Lemma get_link v o l i : xvol_ok g v -> base g o l -> n_frag o = 0 -> (i < length l)%nat -> link (xent g v) o l i ->
  exists v', xget g v o (nth i l 0) = Ok (v', after l i EOC) /\ xstep g bb v v' (bit g bb v) (xent g v).
Proof using G.
  intros V B F I L. pose proof (range_nth l i (b_range _ _ _ B) I) as R. destruct (size_pos o l B) as [P1 P2].
  pose proof (few l (b_nodup _ _ _ B) (b_range _ _ _ B)) as FW. pose proof (x_ent _ _ G) as XE. unfold EOC in XE.
  assert (RH : 2 <= hd 0 l < n_fatent g) by (pose proof (range_nth l O (b_range _ _ _ B)) as H; destruct l; [cbn in I; lia|cbn in *; apply H; lia]).
  unfold xget. replace ((nth i l 0 <? 2) || (n_fatent g <=? nth i l 0)) with false by lia.
  replace (negb (objsize o =? 0) && negb (sclust o =? 0)) with true by lia. cbv zeta. cbn [orb].
  rewrite (clen_ok o l B), (b_start _ _ _ B). rewrite F. change (0 =? 0) with true. cbn [negb].
  destruct L as [(S & BL)|[(S & L)|(S & N0 & N1 & FR & L)]]; rewrite S.
  - change (2 =? 2) with true. cbn [andb]. rewrite (block_nth l i BL I).
    replace (hd 0 l + Z.of_nat i - hd 0 l) with (Z.of_nat i) by lia. rewrite w32_id by (unfold clusts in *; lia).
    replace (Z.of_nat i <=? Z.of_nat (length l) - 1) with true by lia. exists v. split; [|now apply xstep_id].
    unfold after. destruct (Nat.ltb_spec (Datatypes.S i) (length l)).
    + replace (Z.of_nat i =? Z.of_nat (length l) - 1) with false by lia. rewrite (block_nth l (Datatypes.S i) BL) by auto.
      rewrite <- (block_nth l i BL I). rewrite w32_id by lia. rewrite (block_nth l i BL I). replace (Z.of_nat (Datatypes.S i)) with (Z.of_nat i + 1) by lia. now rewrite Z.add_assoc.
    + replace (Z.of_nat i =? Z.of_nat (length l) - 1) with true by lia. auto.
  - change (0 =? 2) with false. change (0 =? 3) with false. cbn [andb negb]. rewrite <- L. apply get_entry; auto.
  - change (3 =? 2) with false. change (3 =? 3) with true. cbn [andb negb].
    destruct (Z_lt_ge_dec (Z.of_nat i) (n_cont o)) as [A|A].
    + rewrite (FR i) by lia. replace (hd 0 l + Z.of_nat i - hd 0 l) with (Z.of_nat i) by lia. rewrite w32_id by (unfold clusts in *; lia).
      replace (Z.of_nat i <? n_cont o) with true by lia. exists v. split; [|now apply xstep_id].
      unfold after. replace (Datatypes.S i <? length l)%nat with true by lia. rewrite (FR (Datatypes.S i)) by lia.
      rewrite <- (FR i) by lia. rewrite w32_id by lia. rewrite (FR i) by lia. replace (Z.of_nat (Datatypes.S i)) with (Z.of_nat i + 1) by lia. now rewrite Z.add_assoc.
    + replace (w32 (nth i l 0 - hd 0 l) <? n_cont o) with false; [rewrite <- L by lia; apply get_entry; auto|].
      symmetry. apply Z.ltb_ge. destruct (Z_le_gt_dec (hd 0 l) (nth i l 0)) as [Q|Q].
      * rewrite w32_id by lia. destruct (Z_lt_ge_dec (nth i l 0 - hd 0 l) (n_cont o)) as [Y|]; [|lia]. exfalso.
        set (j := Z.to_nat (nth i l 0 - hd 0 l)). assert (J : nth j l 0 = nth i l 0) by (rewrite FR by (unfold j; lia); unfold j; lia).
        assert (JI : j = i); [|clear - JI Y A Q; unfold j in JI; lia]. apply (proj1 (NoDup_nth l 0) (b_nodup _ _ _ B)); auto. clear - Y Q N1 N0; unfold j; lia.
      * unfold w32. replace ((nth i l 0 - hd 0 l) mod 4294967296) with (nth i l 0 - hd 0 l + 4294967296); [unfold clusts in *; lia|].
        apply (Z.mod_unique_pos _ _ (-1)); lia.
Qed.

(* The last cluster has no successor, whether its entry is written or not. *)
Lemma get_last v o l : xvol_ok g v -> base g o l -> described (xent g v) o l ->
  exists v', xget g v o (last l 0) = Ok (v', EOC) /\ xstep g bb v v' (bit g bb v) (xent g v).
Proof using G.
  intros V B D. pose proof (b_some _ _ _ B) as N. assert (I : (length l - 1 < length l)%nat) by (destruct l; [congruence|cbn; lia]).
  rewrite last_nth. destruct (Z.eq_dec (n_frag o) 0) as [F|F].
  - destruct (get_link v o l (length l - 1) V B F I (desc_link _ _ _ _ N D F I)) as (v' & E & X). exists v'. rewrite E. split; auto.
    unfold after. replace (S (length l - 1) <? length l)%nat with false by lia. auto.
  - exists v. split; [|now apply xstep_id]. pose proof (range_nth l _ (b_range _ _ _ B) I) as R. destruct (size_pos o l B) as [P1 P2].
    pose proof (few l (b_nodup _ _ _ B) (b_range _ _ _ B)) as FW. pose proof (x_ent _ _ G) as XE. unfold EOC in XE.
    unfold xget. replace ((nth (length l - 1) l 0 <? 2) || (n_fatent g <=? nth (length l - 1) l 0)) with false by lia.
    replace (negb (objsize o =? 0) && negb (sclust o =? 0)) with true by lia. cbv zeta. cbn [orb].
    replace (n_frag o =? 0) with false by lia. cbn [negb].
    destruct D as [(S & F0 & _)|(a & b & c & -> & LC & BC & LK & [(S & ->)|(S & LA & NB & BA & L2)])]; [lia| |]; rewrite S.
    + reflexivity.
    + change (3 =? 2) with false. change (3 =? 3) with true. cbn [andb negb]. rewrite (b_start _ _ _ B).
      set (x := nth (length (a ++ b ++ c) - 1) (a ++ b ++ c) 0) in *. set (h := hd 0 (a ++ b ++ c)) in *.
      assert (RH : 2 <= h < n_fatent g) by (unfold h; pose proof (b_range _ _ _ B) as H; rewrite Forall_forall in H; apply H; destruct (a ++ b ++ c); [tauto|left; auto]).
      replace (w32 (x - h) <? n_cont o) with false; auto.
      symmetry. apply Z.ltb_ge. destruct (Z_le_gt_dec h x) as [Q|Q].
      * rewrite w32_id by lia. destruct (Z_lt_ge_dec (x - h) (n_cont o)) as [Y|]; [|lia]. exfalso.
        set (j := Z.to_nat (x - h)). assert (J : nth j (a ++ b ++ c) 0 = x).
        { rewrite app_nth1 by (unfold j; lia). assert (NA : a <> []) by (destruct a; [cbn in LA; lia|congruence]).
          assert (HH : h = hd 0 a) by (unfold h; now rewrite hd_app). rewrite block_nth; [unfold j; lia|eapply block_pre; eauto|unfold j; lia]. }
        assert (j = (length (a ++ b ++ c) - 1)%nat).
        { apply (proj1 (NoDup_nth _ 0) (b_nodup _ _ _ B)); auto. rewrite !app_length in *. unfold j. lia. }
        rewrite !app_length in *. unfold j in *. lia.
      * unfold w32. replace ((x - h) mod 4294967296) with (x - h + 4294967296); [rewrite !app_length in *; unfold clusts in *; lia|].
        apply (Z.mod_unique_pos _ _ (-1)); lia.
Qed.

(* --- writing --- *)

Lemma last_loop_ok lcl term n : forall v, xvol_ok g v -> 2 <= lcl - Z.of_nat n + 1 -> lcl < n_fatent g -> 0 <= term < 4294967296 ->
  exists v', last_loop n g v lcl term = Ok (v', FR_OK, O) /\
    xstep g bb v v' (bit g bb v) (fun c => if (lcl - Z.of_nat n + 1 <=? c) && (c <=? lcl) then (if c =? lcl then term else c + 1) else xent g v c).
Proof using G.
  pose proof (x_ent _ _ G) as XE. unfold EOC in XE.
  induction n as [|n IH]; intros v V L1 L2 T.
  - exists v. split; auto. eapply xs_ext; [now apply xstep_id|auto|]. intros c C. cbn beta. replace ((lcl - Z.of_nat 0 + 1 <=? c) && (c <=? lcl)) with false by lia. auto.
  - cbn [last_loop]. rewrite w32_id by lia. set (c0 := lcl - Z.of_nat (S n) + 1) in *.
    set (x := if 1 <? Z.of_nat (S n) then w32 (lcl - Z.of_nat (S n) + 2) else term).
    assert (XV : x = if c0 =? lcl then term else c0 + 1).
    { unfold x. destruct (Z.ltb_spec 1 (Z.of_nat (S n))); [replace (c0 =? lcl) with false by (unfold c0; lia); rewrite w32_id by (unfold c0 in *; lia); unfold c0; lia|].
      replace (c0 =? lcl) with true by (unfold c0; lia). auto. }
    destruct (xput_ok g bb G v c0 x V) as (v1 & E1 & X1); [unfold c0 in *; lia|rewrite XV; destruct (c0 =? lcl); unfold c0 in *; lia|].
    rewrite E1. cbn [bind]. destruct (IH v1) as (v2 & E2 & X2); [apply X1|unfold c0 in *; lia|lia|lia|]. exists v2. split; auto.
    eapply xs_ext; [eapply xs_trans; eauto| |].
    + intros k K. apply X1; auto.
    + intros c C. cbn beta. rewrite (xs_ents _ _ _ _ _ _ X1) by auto. unfold upd. rewrite XV.
      clear - L1. unfold c0. destruct (Z.eqb_spec c (lcl - Z.of_nat (S n) + 1)) as [->|NE].
      * replace ((lcl - Z.of_nat (S n) + 1 <=? lcl - Z.of_nat (S n) + 1) && (lcl - Z.of_nat (S n) + 1 <=? lcl)) with true by lia.
        replace ((lcl - Z.of_nat n + 1 <=? lcl - Z.of_nat (S n) + 1)) with false by lia. auto.
      * replace ((lcl - Z.of_nat n + 1 <=? c)) with (lcl - Z.of_nat (S n) + 1 <=? c) by lia. auto.
Qed.

Lemma first_loop_ok n : forall v cl, xvol_ok g v -> 2 <= cl -> cl + Z.of_nat n <= n_fatent g ->
  exists v', first_loop n g v cl = Ok (v', FR_OK) /\
    xstep g bb v v' (bit g bb v) (fun c => if (cl <=? c) && (c <? cl + Z.of_nat n) then c + 1 else xent g v c).
Proof using G.
  pose proof (x_ent _ _ G) as XE. unfold EOC in XE.
  induction n as [|n IH]; intros v cl V L1 L2.
  - exists v. split; auto. eapply xs_ext; [now apply xstep_id|auto|]. intros c C. cbn beta. replace ((cl <=? c) && (c <? cl + Z.of_nat 0)) with false by lia. auto.
  - cbn [first_loop]. rewrite w32_id by lia. destruct (xput_ok g bb G v cl (cl + 1) V) as (v1 & E1 & X1); [lia|lia|].
    rewrite E1. cbn [bind]. destruct (IH v1 (cl + 1)) as (v2 & E2 & X2); [apply X1|lia|lia|]. exists v2. split; auto.
    eapply xs_ext; [eapply xs_trans; eauto| |].
    + intros k K. apply X1; auto.
    + intros c C. cbn beta. rewrite (xs_ents _ _ _ _ _ _ X1) by auto. unfold upd. clear - L1.
      destruct (Z.eqb_spec c cl) as [->|NE].
      * replace ((cl <=? cl) && (cl <? cl + Z.of_nat (S n))) with true by lia. replace (cl + 1 <=? cl) with false by lia. auto.
      * replace ((cl + 1 <=? c) && (c <? cl + 1 + Z.of_nat n)) with ((cl <=? c) && (c <? cl + Z.of_nat (S n))) by lia. auto.
Qed.

(* The links of a block c, once fill_last has written them. *)
Lemma fill_linked E c term : c <> [] -> block c -> Forall (fun x => 2 <= x < n_fatent g) c -> term mod 2147483648 = term \/ term = ERR ->
  linked_to (fun x => if (last c 0 - Z.of_nat (length c) + 1 <=? x) && (x <=? last c 0) then (if x =? last c 0 then term else x + 1) else E x) c (term mod 2147483648).
Proof using G.
  intros N B F T. pose proof (x_ent _ _ G) as XE. unfold EOC in XE. apply linked_all. intros i I.
  assert (L : last c 0 = hd 0 c + Z.of_nat (length c - 1)) by (rewrite last_nth; apply block_nth; auto; lia).
  assert (LI : (length c - 1 < length c)%nat) by lia. pose proof (range_nth c _ F LI) as RL. rewrite <- last_nth in RL.
  assert (X : nth i c 0 = hd 0 c + Z.of_nat i) by now apply block_nth.
  replace ((last c 0 - Z.of_nat (length c) + 1 <=? nth i c 0) && (nth i c 0 <=? last c 0)) with true by lia.
  unfold after. destruct (Nat.ltb_spec (S i) (length c)).
  - replace (nth i c 0 =? last c 0) with false by lia. pose proof (range_nth c _ F H). rewrite (block_nth c (S i)) in * by auto.
    rewrite Z.mod_small by lia. lia.
  - replace (nth i c 0 =? last c 0) with true by lia. auto.
Qed.

End S.
