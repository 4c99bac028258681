(* Termination and bounds of option parsing, and the refuted claims. *)
From Verif Require Import Base Arr ArrLemmas GetoptModel GetoptSpec GetoptProof.
Open Scope Z_scope.

Lemma at_le s i : (i <= length s)%nat -> exists c, at_ s i = Ok c.
Proof.
  intros H. unfold at_. destruct (nth_error s i) eqn:E; [eauto|]. apply nth_error_None in E.
  replace i with (length s) by lia. rewrite Nat.eqb_refl. eauto.
Qed.

Lemma at_nz s i c : at_ s i = Ok c -> c <> 0 -> (i < length s)%nat.
Proof.
  unfold at_. destruct (nth_error s i) eqn:E.
  - intros _ _. apply nth_error_Some. congruence.
  - destruct (i =? length s)%nat; [|discriminate]. intros [= <-]. tauto.
Qed.

Lemma at_in s i c : at_ s i = Ok c -> (i < length s)%nat -> In c s.
Proof.
  unfold at_. destruct (nth_error s i) eqn:E.
  - intros [= <-] _. eapply nth_error_In; eauto.
  - apply nth_error_None in E. lia.
Qed.

Lemma strchr_lt s c i : strchr s c = Some i -> c <> 0 -> (i < length s)%nat.
Proof.
  revert i. induction s as [|x s IH]; cbn [strchr length]; intros i H Hc.
  - rewrite eqbF in H by auto. discriminate.
  - destruct (x =? c); [injection H as <-; lia|]. destruct (strchr s c); [|discriminate]. injection H as <-. specialize (IH _ eq_refl Hc). lia.
Qed.

Section Progress.
Variable argv : list (list Z).
Hypothesis Hchars : Forall (Forall (fun c => c <> 0)) argv.

Definition later (o o' : opt) (cur : list Z) : Prop :=
  ((o_ind o < o_ind o')%nat /\ (o_where o' = 1%nat \/ (length argv <= o_ind o')%nat)) \/
  (o_ind o' = o_ind o /\ (o_where o < o_where o' /\ o_where o' < length cur)%nat).

Lemma finish_ok ls silent colon o cur lm has pa cp :
  match lm with None => (o_where o < length cur)%nat | Some i => (i < length ls)%nat end ->
  exists o', finish_opt argv ls silent colon o cur lm has pa cp = Ok o' /\ later o o' cur.
Proof.
  intros H. unfold finish_opt, later.
  set (pa' := match pa with [] => [] | c :: p => if c =? 61 then p else pa end).
  assert (Hl : forall i, lm = Some i -> exists l, nth_error ls i = Some l).
  { intros i ->. destruct (nth_error ls i) eqn:E; [eauto|]. apply nth_error_None in E. lia. }
  destruct (has =? OPTIONAL_ARG).
  { cbn [set_pos set_arg o_where o_ind]. change ((1 =? 1)%nat) with true. cbn iota.
    destruct lm as [i|]; [destruct (Hl i eq_refl) as [l ->]|]; (eexists; split; [reflexivity|]; cbn; left; split; [lia|auto]). }
  destruct (has =? REQUIRED_ARG).
  { destruct pa'.
    - destruct (Nat.leb_spec (length argv) (o_ind o + 1)).
      + eexists. split; [reflexivity|]. destruct silent; cbn; left; split; lia.
      + destruct (nth_error argv (o_ind o + 1)) eqn:E; [|apply nth_error_None in E; lia].
        cbn [set_pos set_arg o_where o_ind]. change ((1 =? 1)%nat) with true. cbn iota.
        destruct lm as [i|]; [destruct (Hl i eq_refl) as [l' ->]|]; (eexists; split; [reflexivity|]; cbn; left; split; [lia|auto]).
    - cbn [set_pos set_arg o_where o_ind]. change ((1 =? 1)%nat) with true. cbn iota.
      destruct lm as [i|]; [destruct (Hl i eq_refl) as [l' ->]|]; (eexists; split; [reflexivity|]; cbn; left; split; [lia|auto]). }
  destruct lm as [i|].
  - cbn [bind set_pos set_arg o_where o_ind]. change ((1 =? 1)%nat) with true. cbn iota.
    destruct (Hl i eq_refl) as [l' ->]. eexists; split; [reflexivity|]; cbn; left; split; [lia|auto].
  - destruct (at_le cur (S (o_where o))) as [c Hc]; [lia|]. rewrite Hc. cbn [bind].
    destruct (Z.eqb_spec c 0) as [-> | Hn].
    + cbn [set_pos set_arg o_where o_ind]. change ((1 =? 1)%nat) with true. cbn iota.
      eexists; split; [reflexivity|]; cbn; left; split; [lia|auto].
    + pose proof (at_nz _ _ _ Hc Hn). cbn [set_pos set_arg o_where o_ind].
      destruct (Nat.eqb_spec (S (o_where o)) 1).
      * eexists; split; [reflexivity|]; cbn; left; split; [lia|auto].
      * eexists; split; [reflexivity|]; cbn; right; split; [auto|]. lia.
Qed.

Lemma short_ok ls silent colon shorts o cur : In cur argv -> (o_where o < length cur)%nat ->
  exists o', short_opt argv ls silent colon shorts o cur = Ok o' /\ later o o' cur.
Proof.
  intros Hin Hw. unfold short_opt. destruct shorts as [ss|]; [|apply finish_ok; auto].
  destruct (at_le cur (o_where o)) as [c Hc]; [lia|]. rewrite Hc. cbn [bind].
  assert (Hnz : c <> 0).
  { rewrite Forall_forall in Hchars. pose proof (Hchars _ Hin) as G. rewrite Forall_forall in G. apply G. eapply at_in; eauto. }
  destruct (strchr ss c) as [i|] eqn:Es.
  - apply strchr_lt in Es; [|auto]. destruct (at_le ss (S i)) as [c1 Hc1]; [lia|]. rewrite Hc1. cbn [bind].
    assert (G : exists h, (if c1 =? 58 then c2 <- at_ ss (S (S i)) ;; Ok (if c2 =? 58 then OPTIONAL_ARG else REQUIRED_ARG) else Ok NO_ARG) = Ok h).
    { destruct (Z.eqb_spec c1 58); [|eauto]. apply at_nz in Hc1; [|lia]. destruct (at_le ss (S (S i))) as [c2 ->]; [lia|]. cbn. eauto. }
    destruct G as [h ->]. cbn [bind]. destruct (Nat.ltb_spec (length cur) (S (o_where o))); [lia|].
    destruct (finish_ok ls silent colon (set_opt o c) cur None h (skipn (S (o_where o)) cur) c) as (o' & E & E'); [auto|]. eauto.
  - destruct (at_le cur (S (o_where o))) as [c1 Hc1]; [lia|]. rewrite Hc1. cbn [bind]. eexists. split; [reflexivity|]. unfold later.
    destruct (Z.eqb_spec c1 0); cbn [set_ret_opt set_pos o_ind o_where].
    + left. split; [lia|auto].
    + apply at_nz in Hc1; [|auto]. right. split; [auto|lia].
Qed.

Variable longs : option (list longopt).

Hypothesis Hknown : longs_known argv longs.

Lemma split_eq_spec s : exists t tail, s = t ++ tail /\ split_eq s = (t, tail) /\ Forall (fun c => c <> 61) t /\
  (tail = [] \/ exists s', tail = 61 :: s').
Proof.
  induction s as [|c s (t & tail & E & E1 & E2 & E3)].
  - exists [], []. auto.
  - destruct (Z.eqb_spec c 61) as [-> | Hc].
    + exists [], (61 :: s). split; [auto|]. split; [reflexivity|]. split; [constructor|]. right. eauto.
    + exists (c :: t), tail. cbn [split_eq]. rewrite eqbF, E1 by auto. subst. auto.
Qed.

Lemma find_known t tail : forall ls j m, (m <> None \/ exists l, In l ls /\ begins t (l_name l)) ->
  (forall i, m = Some i -> (i < j)%nat) ->
  match find_long ls (t ++ tail) (length t) j m with inl None => False | inl (Some i) => (i < j + length ls)%nat | inr _ => True end.
Proof.
  induction ls as [|l ls IH]; intros j m H Hm; cbn [find_long length].
  - destruct m as [i|]; [specialize (Hm _ eq_refl); lia|]. destruct H as [? | (l & [] & _)]. tauto.
  - destruct (memeq (t ++ tail) (l_name l) (length t)) eqn:E.
    + destruct (_ =? _)%nat; [lia|]. destruct m as [i|]; [auto|].
      specialize (IH (S j) (Some j)). destruct (find_long ls _ _ _ _) as [[i|]|]; auto.
      * enough (i < S j + length ls)%nat by lia. apply IH; [left; discriminate|]. intros i' [= <-]. lia.
      * apply IH; [left; discriminate|]. intros i' [= <-]. lia.
    + specialize (IH (S j) m).
      assert (G : m <> None \/ (exists l, In l ls /\ begins t (l_name l))).
      { destruct H as [H | (l' & [<- | Hin] & Hb)]; auto.
        - apply (memeq_begins t tail) in Hb. congruence.
        - right. eauto. }
      specialize (IH G). destruct (find_long ls _ _ _ _) as [[i|]|]; auto.
      * enough (i < S j + length ls)%nat by lia. apply IH. intros i' Hi'. specialize (Hm _ Hi'). lia.
      * apply IH. intros i' Hi'. specialize (Hm _ Hi'). lia.
Qed.

Definition live (o : opt) : Prop :=
  (1 <= o_ind o)%nat /\
  ((length argv <= o_ind o)%nat \/ nth_error argv (o_ind o) = Some [45; 45] \/
   exists cur, nth_error argv (o_ind o) = Some cur /\ (o_where o = 1%nat \/ (2 <= o_where o < length cur)%nat)).

Definition weight (n : nat) : nat := fold_right (fun s a => length s + 2 + a)%nat 0%nat (skipn n argv).
Definition left_ (o : opt) : nat := (weight (o_ind o) - o_where o)%nat.

Lemma weight_S n s : nth_error argv n = Some s -> weight n = (length s + 2 + weight (S n))%nat.
Proof.
  unfold weight. intros H. assert (E : skipn n argv = s :: skipn (S n) argv).
  { clear -H. revert n H. induction argv as [|a l IH]; intros [|n] H; try discriminate.
    - injection H as ->. auto.
    - cbn [nth_error] in H. change (skipn (S n) (a :: l)) with (skipn n l). rewrite IH by auto. auto. }
  rewrite E. auto.
Qed.

Lemma weight_le m : forall n, (n <= m)%nat -> (weight m <= weight n)%nat.
Proof.
  induction m as [|m IH]; intros n H; [replace n with 0%nat by lia; auto|].
  destruct (Nat.eq_dec n (S m)) as [-> | Hn]; [auto|]. specialize (IH n ltac:(lia)).
  destruct (nth_error argv m) eqn:E.
  - pose proof (weight_S _ _ E). lia.
  - apply nth_error_None in E. unfold weight. rewrite skipn_all2 by lia. cbn. lia.
Qed.

Lemma weight_end n : (length argv <= n)%nat -> weight n = 0%nat.
Proof. intros H. unfold weight. rewrite skipn_all2 by lia. auto. Qed.

Lemma later_left o o' cur : (1 <= o_ind o)%nat -> nth_error argv (o_ind o) = Some cur -> (o_where o <= length cur \/ o_where o = 1)%nat ->
  later o o' cur -> (1 <= o_where o)%nat -> live o' /\ (left_ o' < left_ o)%nat.
Proof.
  intros Hi Hn Hw H H1. pose proof (weight_S _ _ Hn) as Ew. unfold live, left_. destruct H as [[G1 G2] | (G1 & G2 & G3)].
  - split.
    + split; [lia|]. destruct G2 as [G2 | G2]; [|auto]. destruct (nth_error argv (o_ind o')) eqn:E.
      * right. right. eauto.
      * left. apply nth_error_None. auto.
    + pose proof (weight_le (o_ind o') (S (o_ind o)) ltac:(lia)). lia.
  - split.
    + split; [lia|]. right. right. exists cur. rewrite G1. split; [auto|]. lia.
    + rewrite G1. lia.
Qed.

Lemma body_ok shorts colon silent o cur : (1 <= o_ind o)%nat -> nth_error argv (o_ind o) = Some cur ->
  (o_where o = 1%nat \/ (2 <= o_where o < length cur)%nat) ->
  exists o', body argv shorts colon longs silent o cur = Ok o' /\ live o' /\ (left_ o' < left_ o)%nat.
Proof.
  intros Hi Hn Hw. pose proof (nth_error_In _ _ Hn) as Hin. unfold body.
  set (plain := match cur with [] => true | _ => _ end).
  destruct ((o_where o =? 1)%nat && plain) eqn:Ep.
  - eexists. split; [reflexivity|]. apply andb_true_iff in Ep. destruct Ep as [Ep _]. apply Nat.eqb_eq in Ep.
    apply (later_left o _ cur); auto; try lia. left. cbn. split; [lia|auto].
  - assert (Hlen : (o_where o < length cur)%nat).
    { destruct Hw as [Hw | Hw]; [|lia]. rewrite Hw in *. change ((1 =? 1)%nat) with true in Ep. cbn [andb] in Ep. unfold plain in Ep.
      destruct cur as [|a [|b cur]]; cbn [length]; try discriminate; try lia. }
    assert (Hshort : forall ls, exists o', short_opt argv ls silent colon shorts o cur = Ok o' /\ live o' /\ (left_ o' < left_ o)%nat).
    { intros ls. destruct (short_ok ls silent colon shorts o cur Hin Hlen) as (o' & E & E'). exists o'. split; [auto|].
      apply (later_left o o' cur); auto; lia. }
    destruct longs as [ls|] eqn:El; [|apply Hshort].
    destruct (memeq cur [45; 45] 2 && (o_where o =? 1)%nat) eqn:Em; [|apply Hshort].
    apply andb_true_iff in Em. destruct Em as [Em Ew]. apply Nat.eqb_eq in Ew.
    assert (Hcur : exists r, cur = 45 :: 45 :: r).
    { destruct cur as [|a [|b r]]; cbn in Em; try discriminate.
      - rewrite andb_false_r in Em. discriminate.
      - rewrite andb_true_r in Em. apply andb_true_iff in Em. destruct Em as [Ea Eb]. apply Z.eqb_eq in Ea, Eb. subst. eauto. }
    destruct Hcur as [r ->]. cbn [skipn]. destruct (split_eq_spec r) as (t & tail & -> & -> & Ht & Htl).
    assert (G : exists l, In l ls /\ begins t (l_name l)) by (eapply Hknown; eauto).
    pose proof (find_known t tail ls 0 None (or_intror G) ltac:(discriminate)) as F.
    destruct (find_long ls (t ++ tail) (length t) 0 None) as [[i|]|]; [|tauto|].
    + cbn [Nat.add] in F. destruct (nth_error ls i) as [l|] eqn:Ei; [|apply nth_error_None in Ei; lia].
      destruct (finish_ok ls silent colon (set_pos o (o_ind o) 2) (45 :: 45 :: t ++ tail) (Some i) (l_has l) tail 0 F) as (o' & E & E').
      exists o'. split; [auto|].
      assert (E2 : later o o' (45 :: 45 :: t ++ tail)).
      { destruct E' as [E' | (E1 & E2 & E3)]; [left; auto|right; cbn in E1, E2; split; [auto|lia]]. }
      apply (later_left o o' (45 :: 45 :: t ++ tail)); auto; lia.
    + eexists. split; [reflexivity|]. cbn [set_ret_opt set_pos o_ind o_where].
      destruct (t ++ tail) as [|x y] eqn:Et.
      * split; [|unfold left_; cbn [set_ret_opt set_pos o_ind o_where]; pose proof (weight_S _ _ Hn); cbn [length] in *; lia].
        split; [auto|]. cbn [set_ret_opt set_pos o_ind]. auto.
      * apply (later_left o _ (45 :: 45 :: x :: y)); auto; try lia. right. cbn. lia.
Qed.

Lemma getopt_live shorts silent o : live o -> exists o', getopt argv shorts longs silent o = Ok o' /\
  (o_ret o' = -1 \/ (live o' /\ (left_ o' < left_ o)%nat)).
Proof.
  intros [Hi H].
  assert (Hs : (shorts <> None \/ longs <> None) \/ (shorts = None /\ longs = None)).
  { destruct shorts; [left; left; discriminate|]. destruct longs; [left; right; discriminate|auto]. }
  destruct Hs as [Hs | [Hs1 Hs2]].
  2: { unfold getopt. rewrite Hs1, Hs2. rewrite orb_true_r. eexists. split; [reflexivity|auto]. }
  destruct H as [H | [H | (cur & Hn & Hw)]].
  - destruct (Nat.eq_dec (o_ind o) (length argv)) as [He | He].
    + destruct (getopt_end argv shorts longs silent o He Hi) as (o' & E & E' & _); eauto.
    + unfold getopt; destruct (Nat.ltb_spec (length argv) (o_ind o)); [|lia]; rewrite orb_true_r; eexists; split; [reflexivity|auto].
  - destruct (getopt_marker argv shorts longs silent o H Hs) as (o' & E & E' & _); eauto.
  - destruct (list_eq_dec Z.eq_dec cur [45; 45]) as [-> | Hc].
    + destruct (getopt_marker argv shorts longs silent o Hn Hs) as (o' & E & E' & _); eauto.
    + rewrite (getopt_word _ _ _ _ _ _ Hn Hc Hi Hs).
      destruct (body_ok (fst (strip shorts)) (snd (strip shorts)) silent o cur Hi Hn Hw) as (o' & E & E'); eauto.
Qed.

Lemma loop_live shorts silent : forall fuel o, live o -> (left_ o < fuel)%nat ->
  exists o', getopt_loop fuel argv shorts longs silent o = Ok o' /\ o_ret o' < 0.
Proof.
  induction fuel as [|fuel IH]; intros o Hl Hf; [lia|]. cbn [getopt_loop].
  destruct (getopt_live shorts silent o Hl) as (o' & E & E'). rewrite E. cbn [bind].
  destruct (Z.leb_spec 0 (o_ret o')); [|eauto]. destruct E' as [? | [E1 E2]]; [lia|]. apply IH; auto. lia.
Qed.

(* The first call. *)
Lemma getopt_start shorts silent : exists o', getopt argv shorts longs silent opt0 = Ok o' /\
  (o_ret o' = -1 \/ (live o' /\ (left_ o' < weight 1)%nat)).
Proof.
  unfold getopt. destruct argv as [|prog args] eqn:Ea.
  { eexists. split; [reflexivity|auto]. }
  rewrite <- Ea in *. assert (Hl : (1 <= length argv)%nat) by (rewrite Ea; cbn; lia).
  destruct (Nat.eqb_spec (length argv) 0); [lia|]. cbn [orb].
  destruct (match shorts with Some _ => false | None => _ end || _) eqn:Eb; [eexists; split; [reflexivity|auto]|].
  destruct (match nth_error argv (o_ind opt0) with Some _ => _ | None => _ end); [eexists; split; [reflexivity|auto]|].
  change (o_ind opt0 =? 0)%nat with true. cbn iota.
  destruct (nth_error argv 1) as [cur|] eqn:En.
  - destruct (body_ok (fst (strip shorts)) (snd (strip shorts)) silent (set_pos opt0 1 1) cur) as (o' & E & E1 & E2); auto.
    exists o'. split.
    + rewrite <- E. unfold strip, body. destruct shorts as [ss|]; cbn [set_pos o_ind o_where fst snd]; rewrite ?En; auto.
      destruct (starts_colon (drop_sign ss)); cbn [fst snd]; rewrite ?En; auto.
    + right. split; [auto|]. unfold left_ in *. cbn [set_pos o_ind o_where] in E2. lia.
  - exists (Opt (-1) 0 None 0 1 1 None). split; [|auto]. cbn [set_pos o_ind o_where]. destruct shorts as [ss|].
    + destruct (starts_colon (drop_sign ss)); rewrite ?En; auto.
    + rewrite ?En. auto.
Qed.

Lemma loop_ok shorts silent fuel : (weight 1 < fuel)%nat ->
  exists o', getopt_loop fuel argv shorts longs silent opt0 = Ok o' /\ o_ret o' < 0.
Proof.
  intros Hf. destruct fuel as [|fuel]; [lia|]. cbn [getopt_loop].
  destruct (getopt_start shorts silent) as (o' & E & E'). rewrite E. cbn [bind].
  destruct (Z.leb_spec 0 (o_ret o')); [|eauto]. destruct E' as [? | [E1 E2]]; [lia|]. apply loop_live; auto. lia.
Qed.

End Progress.

Lemma weight_chars args : fold_right (fun s a => length s + 2 + a)%nat 0%nat args = (chars args + length args)%nat.
Proof. induction args as [|s r IH]; cbn [fold_right chars length]; lia. Qed.

Lemma loop_chars : forall argv shorts longs silent, Forall (Forall (fun c => c <> 0)) argv -> longs_known argv longs ->
  exists o', getopt_loop (S (chars argv + length argv)) argv shorts longs silent opt0 = Ok o' /\ o_ret o' < 0.
Proof.
  intros argv shorts longs silent Hc Hk. apply loop_ok; auto. unfold weight. rewrite weight_chars. destruct argv; cbn [skipn chars length]; lia.
Qed.

(* --- refuted claims --- *)

(* "prog --zzz -a": a is a known flag, zzz is unknown. *)
Definition ex_argv : list (list Z) := [[112]; [45; 45; 122; 122; 122]; [45; 97]].
Definition ex_longs : list longopt := [Longopt [104; 101; 108; 112] 0 false 104].

Lemma unknown_long_ub : exists o, getopt ex_argv (Some [97]) (Some ex_longs) true opt0 = Ok o /\ o_ret o = 63 /\ o_ind o = 2%nat /\
  getopt ex_argv (Some [97]) (Some ex_longs) true o = Ub.
Proof. eexists. split; [vm_compute; reflexivity|]. split; [reflexivity|]. split; reflexivity. Qed.

(* "prog --zzz file": the plain argument is taken for short options. *)
Definition ex_argv2 : list (list Z) := [[112]; [45; 45; 122; 122; 122]; [102; 105; 97; 101]].
Lemma unknown_long_plain : exists o o', getopt ex_argv2 (Some [97]) (Some ex_longs) true opt0 = Ok o /\ o_ret o = 63 /\
  getopt ex_argv2 (Some [97]) (Some ex_longs) true o = Ok o' /\ o_ret o' = 97.
Proof. do 2 eexists. split; [vm_compute; reflexivity|]. split; [reflexivity|]. split; [vm_compute; reflexivity|reflexivity]. Qed.

(* Ambiguous: "prog --ver" with --verbose and --version; then v, e, r are parsed as short options. *)
Definition amb_longs : list longopt :=
  [Longopt [118; 101; 114; 98] 0 false 1000; Longopt [118; 101; 114; 115] 0 false 1001; Longopt [118; 101; 114] 0 false 1002].
Definition amb_argv : list (list Z) := [[112]; [45; 45; 118; 101; 114]].
Lemma ambiguous_letters : getopts 4 amb_argv (Some [118; 101; 114]) (Some (firstn 2 amb_longs)) true opt0 =
  Ok ([(63, None); (118, None); (101, None); (114, None)], Opt 114 114 None 0 2 1 None).
Proof. reflexivity. Qed.

(* --ver is the exact name of the third option. *)
Lemma exact_ambiguous : exists o, getopt amb_argv (Some []) (Some amb_longs) true opt0 = Ok o /\ o_ret o = 63.
Proof. eexists. split; reflexivity. Qed.

(* "prog -- -a" *)
Definition mark_argv : list (list Z) := [[112]; [45; 45]; [45; 97]].
Lemma marker_first : exists longs o, getopt mark_argv (Some [97]) (Some longs) true opt0 = Ok o /\ o_ret o = 104.
Proof. exists ex_longs. eexists. split; reflexivity. Qed.

Lemma unknown_refuted :
  (exists argv shorts longs o, getopt argv (Some shorts) (Some longs) true opt0 = Ok o /\ o_ret o = 63 /\ o_ind o = 2%nat /\
     getopt argv (Some shorts) (Some longs) true o = Ub) /\
  (exists argv shorts longs o o', getopt argv (Some shorts) (Some longs) true opt0 = Ok o /\ o_ret o = 63 /\
     hd 0 (nth 2 argv []) <> 45 /\ getopt argv (Some shorts) (Some longs) true o = Ok o' /\ o_ret o' <> 1).
Proof.
  split.
  - exists ex_argv, [97], ex_longs. exact unknown_long_ub.
  - destruct unknown_long_plain as (o & o' & H1 & H2 & H3 & H4). exists ex_argv2, [97], ex_longs, o, o'.
    rewrite H4. repeat split; auto; cbn; lia.
Qed.

Lemma ambiguous_refuted : exists longs,
  getopts 4 [[112]; [45; 45; 118; 101; 114]] (Some [118; 101; 114]) (Some longs) true opt0 =
  Ok ([(63, None); (118, None); (101, None); (114, None)], Opt 114 114 None 0 2 1 None).
Proof. eexists. exact ambiguous_letters. Qed.

Lemma exact_refuted : exists longs i l argv o,
  nth_error longs i = Some l /\ argv = [[112]; 45 :: 45 :: l_name l] /\ l_val l <> 63 /\
  getopt argv (Some []) (Some longs) true opt0 = Ok o /\ o_ret o = 63.
Proof.
  destruct exact_ambiguous as (o & H1 & H2). exists amb_longs, 2%nat, (Longopt [118; 101; 114] 0 false 1002), amb_argv, o.
  repeat split; auto. cbn. lia.
Qed.
