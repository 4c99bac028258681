(* Parsing well-formed command lines. *)
From Verif Require Import Base Arr ArrLemmas GetoptModel GetoptSpec.
Open Scope Z_scope.

Lemma eqbF a b : a <> b -> (a =? b) = false.
Proof. apply Z.eqb_neq. Qed.

(* What getopt does once the current word is known to be no marker. *)
Definition body (argv : list (list Z)) (shorts : option (list Z)) (colon : bool) (longs : option (list longopt))
    (silent : bool) (o : opt) (cur : list Z) : res opt :=
  let plain := match cur with
               | [] => true
               | c :: r => negb (c =? 45) || (match r with [] => true | _ => false end)
               end in
  if (o_where o =? 1)%nat && plain then
    Ok (Opt 1 1 (Some cur) (o_long o) (S (o_ind o)) (o_where o) (o_store o))
  else
    match longs with
    | Some ls =>
        if memeq cur [45; 45] 2 && (o_where o =? 1)%nat then
          let o := set_pos o (o_ind o) 2 in
          let '(typed, pa) := split_eq (skipn 2 cur) in
          match find_long ls (skipn 2 cur) (length typed) 0 None with
          | inr _ => Ok (set_ret_opt o 63)
          | inl None => Ok (set_ret_opt (set_pos o (S (o_ind o)) 2) 63)
          | inl (Some i) =>
              match nth_error ls i with
              | None => Ub
              | Some l => finish_opt argv ls silent colon o cur (Some i) (l_has l) pa 0
              end
          end
        else short_opt argv ls silent colon shorts o cur
    | None => short_opt argv [] silent colon shorts o cur
    end.

Definition strip (shorts : option (list Z)) : option (list Z) * bool :=
  match shorts with
  | None => (None, false)
  | Some ss => let s1 := drop_sign ss in if starts_colon s1 then (Some (tl s1), true) else (Some s1, false)
  end.

Lemma getopt_word argv shorts longs silent o cur :
  nth_error argv (o_ind o) = Some cur -> cur <> [45; 45] -> (1 <= o_ind o)%nat ->
  (shorts <> None \/ longs <> None) ->
  getopt argv shorts longs silent o = body argv (fst (strip shorts)) (snd (strip shorts)) longs silent o cur.
Proof.
  intros Hn Hc Hi Hs. unfold getopt.
  assert (Hl : (o_ind o < length argv)%nat) by (apply nth_error_Some; congruence).
  destruct (Nat.eqb_spec (length argv) 0); [lia|]. destruct (Nat.ltb_spec (length argv) (o_ind o)); [lia|].
  replace (false || match shorts, longs with None, None => true | _, _ => false end || false) with false
    by (destruct shorts, longs; auto; destruct Hs; congruence).
  rewrite Hn. unfold Zlist_eqb. destruct (list_eq_dec Z.eq_dec cur [45; 45]); [tauto|].
  destruct (Nat.eqb_spec (o_ind o) 0); [lia|]. rewrite Hn. unfold strip, body.
  destruct shorts as [ss|]; auto. destruct (starts_colon (drop_sign ss)); auto.
Qed.

Lemma getopt_end argv shorts longs silent o :
  o_ind o = length argv -> (1 <= o_ind o)%nat ->
  exists o', getopt argv shorts longs silent o = Ok o' /\ o_ret o' = -1 /\ o_ind o' = length argv.
Proof.
  intros Hi H1. unfold getopt. destruct (Nat.eqb_spec (length argv) 0); [lia|]. destruct (Nat.ltb_spec (length argv) (o_ind o)); [lia|].
  destruct (false || _ || false).
  - eexists. split; [reflexivity|]. auto.
  - rewrite (proj2 (nth_error_None argv (o_ind o))) by lia. destruct (Nat.eqb_spec (o_ind o) 0); [lia|].
    rewrite (proj2 (nth_error_None argv (o_ind o))) by lia.
    destruct shorts as [ss|]; cbn [fst snd]; [destruct (starts_colon (drop_sign ss))|]; eexists; split; try reflexivity; auto.
Qed.

Lemma getopt_marker argv shorts longs silent o :
  nth_error argv (o_ind o) = Some [45; 45] -> (shorts <> None \/ longs <> None) ->
  exists o', getopt argv shorts longs silent o = Ok o' /\ o_ret o' = -1 /\ o_ind o' = S (o_ind o) /\ o_where o' = o_where o.
Proof.
  intros Hn Hs. unfold getopt.
  assert (Hl : (o_ind o < length argv)%nat) by (apply nth_error_Some; congruence).
  destruct (Nat.eqb_spec (length argv) 0); [lia|]. destruct (Nat.ltb_spec (length argv) (o_ind o)); [lia|].
  replace (false || match shorts, longs with None, None => true | _, _ => false end || false) with false
    by (destruct shorts, longs; auto; destruct Hs; congruence).
  rewrite Hn. unfold Zlist_eqb. destruct (list_eq_dec Z.eq_dec [45; 45] [45; 45]); [|tauto].
  eexists. split; [reflexivity|]. auto.
Qed.

(* The first call starts at the first word, unless a marker is involved. *)
Lemma getopt_first argv shorts longs silent o prog :
  nth_error argv 0 = Some prog -> prog <> [45; 45] -> nth_error argv 1 <> Some [45; 45] -> o_ind o = 0%nat ->
  getopt argv shorts longs silent o = getopt argv shorts longs silent (set_pos o 1 1) \/
  (exists o', getopt argv shorts longs silent o = Ok o' /\ shorts = None /\ longs = None).
Proof.
  intros Hp Hq H1 Hi. unfold getopt. cbn [set_pos o_ind]. rewrite Hi.
  assert (Hl : (0 < length argv)%nat) by (apply nth_error_Some; congruence).
  destruct (Nat.eqb_spec (length argv) 0); [lia|]. destruct (Nat.ltb_spec (length argv) 0); [lia|]. destruct (Nat.ltb_spec (length argv) 1); [lia|].
  destruct (false || match shorts, longs with None, None => true | _, _ => false end || false) eqn:E.
  { right. eexists. split; [reflexivity|]. destruct shorts, longs; try discriminate. auto. }
  left. rewrite Hp. unfold Zlist_eqb at 1. destruct (list_eq_dec Z.eq_dec prog [45; 45]); [tauto|].
  assert (Hm : match nth_error argv 1 with Some a => Zlist_eqb a [45; 45] | None => false end = false).
  { destruct (nth_error argv 1) as [a|]; auto. unfold Zlist_eqb. destruct (list_eq_dec Z.eq_dec a [45; 45]); auto. congruence. }
  rewrite Hm. reflexivity.
Qed.

(* --- short option strings --- *)

Definition colons (k : kind) : list Z := match k with No => [] | Req => [58] | Maybe => [58; 58] end.

Lemma shorts_cons c k t : shorts_string ((c, k) :: t) = c :: colons k ++ shorts_string t.
Proof. destruct k; reflexivity. Qed.

Lemma at_S x s i : at_ (x :: s) (S i) = at_ s i.
Proof. reflexivity. Qed.

Lemma shorts_head tbl : tbl_ok tbl -> exists c, at_ (shorts_string tbl) 0 = Ok c /\ c <> 58.
Proof.
  intros H. destruct tbl as [|[c k] t]; [exists 0; split; [reflexivity|lia]|].
  rewrite shorts_cons. exists c. split; [reflexivity|]. inversion H as [|? ? H1 H2]; subst. destruct H1 as (? & ? & ? & ?). auto.
Qed.

Definition has_of (ss : list Z) (i : nat) : res Z :=
  c1 <- at_ ss (S i) ;;
  (if c1 =? 58 then c2 <- at_ ss (S (S i)) ;; Ok (if c2 =? 58 then OPTIONAL_ARG else REQUIRED_ARG) else Ok NO_ARG).

Lemma strchr_kind tbl c k : tbl_ok tbl -> kind_of tbl c = Some k ->
  exists i, strchr (shorts_string tbl) c = Some i /\ has_of (shorts_string tbl) i = Ok (kind_code k) /\ opt_char c.
Proof.
  intros H. induction H as [|[d k'] t Hd Ht IH]; [discriminate|]. cbn [kind_of]. rewrite shorts_cons.
  cbn [fst] in Hd. destruct (Z.eqb_spec d c) as [-> | Hne].
  - intros [= ->]. exists O. split; [cbn; rewrite Z.eqb_refl; auto|]. split; [|auto].
    destruct (shorts_head t Ht) as (x & Hx & Hx').
    destruct k; cbn [colons app]; unfold has_of; rewrite ?at_S.
    + rewrite Hx. cbn [bind]. rewrite eqbF by auto. auto.
    + change (at_ (58 :: shorts_string t) 0) with (Ok 58). cbn [bind]. rewrite Hx. cbn [bind]. rewrite (eqbF x) by auto. reflexivity.
    + reflexivity.
  - intros E. destruct (IH E) as (i & E1 & E2 & Hc). 
    exists (S (length (colons k') + i)). split; [|split; auto].
    + cbn [strchr]. rewrite eqbF by auto. destruct Hc as (Hc0 & Hc58 & _).
      assert (G : forall l, Forall (fun x => x = 58) l -> strchr (l ++ shorts_string t) c = Some (length l + i)%nat).
      { induction 1 as [|x l -> Hl IHl]; cbn [app strchr length]; auto. rewrite eqbF by auto. rewrite IHl. auto. }
      rewrite G by (destruct k'; repeat constructor). auto.
    + unfold has_of in *. rewrite !at_S.
      assert (G : forall l j, at_ (l ++ shorts_string t) (length l + j) = at_ (shorts_string t) j) by (induction l; intros; cbn [app length Nat.add]; rewrite ?at_S; auto).
      replace (S (length (colons k') + i)) with (length (colons k') + S i)%nat by lia.
      replace (S (length (colons k') + S i)) with (length (colons k') + S (S i))%nat by lia.
      rewrite !G. auto.
Qed.

Lemma strchr_none tbl c : tbl_ok tbl -> opt_char c -> kind_of tbl c = None -> strchr (shorts_string tbl) c = None.
Proof.
  intros H Hc. induction H as [|[d k'] t Hd Ht IH]; intros E.
  - cbn. destruct Hc. rewrite eqbF by auto. auto.
  - rewrite shorts_cons. cbn [kind_of] in E. cbn [strchr]. destruct (Z.eqb_spec d c); [discriminate|].
    destruct Hc as (Hc0 & Hc58 & _).
    assert (G : forall l, Forall (fun x => x = 58) l -> strchr (l ++ shorts_string t) c = None).
    { induction 1 as [|x l -> Hl IHl]; cbn [app strchr length]; auto. rewrite eqbF by auto. rewrite IHl. auto. }
    rewrite G by (destruct k'; repeat constructor). auto.
Qed.

(* The given string: an optional sign, an optional colon, the table. *)
Lemma strip_full sg colon tbl : sign_ok sg -> tbl_ok tbl -> strip (Some (full_string sg colon tbl)) = (Some (shorts_string tbl), colon).
Proof.
  intros Hs Ht. unfold strip, full_string.
  assert (E : drop_sign (sg ++ (if colon then [58] else []) ++ shorts_string tbl) = (if colon then [58] else []) ++ shorts_string tbl).
  { destruct Hs as [-> | [-> | ->]]; try reflexivity. cbn [app]. destruct colon; [reflexivity|].
    destruct tbl as [|[c k] t]; [reflexivity|]. rewrite shorts_cons. cbn [app drop_sign].
    inversion Ht as [|? ? H1 H2]; subst. destruct H1 as (G1 & G2 & G3 & G4). cbn [fst] in *. rewrite !eqbF by auto. auto. }
  rewrite E. destruct colon; [reflexivity|]. cbn [app]. destruct (shorts_head tbl Ht) as (c & Hc & Hn).
  destruct (shorts_string tbl) as [|x y] eqn:Es; [reflexivity|]. cbn [starts_colon].
  assert (x = c) by (cbn in Hc; congruence). subst. rewrite eqbF by auto. auto.
Qed.

(* --- one short option in a cluster --- *)

Section Cluster.
Context (argv : list (list Z)) (tbl : list (Z * kind)) (sg : list Z) (colon silent : bool) (longs : option (list longopt)).
Context (Hsg : sign_ok sg) (Htbl : tbl_ok tbl).
Let shorts := Some (full_string sg colon tbl).

Lemma body_short o cur : (o_where o = 1%nat -> exists c r, cur = 45 :: c :: r /\ c <> 45) ->
  body argv (Some (shorts_string tbl)) colon longs silent o cur =
  short_opt argv (match longs with Some ls => ls | None => [] end) silent colon (Some (shorts_string tbl)) o cur.
Proof.
  intros H. unfold body. destruct (Nat.eqb_spec (o_where o) 1) as [E | E]; cbn [andb].
  - destruct (H E) as (c & r & -> & Hc). cbn [negb orb]. change (negb (45 =? 45)) with false. cbn [orb].
    destruct longs; auto. cbn [memeq]. rewrite (eqbF c 45) by auto. rewrite andb_false_r. cbn [andb]. auto.
  - destruct longs; auto. rewrite andb_false_r. auto.
Qed.

Lemma at_app (pre : list Z) c r : at_ (pre ++ c :: r) (length pre) = Ok c.
Proof. unfold at_. rewrite nth_error_app2, Nat.sub_diag; auto. Qed.

Lemma at_end (s : list Z) : at_ s (length s) = Ok 0.
Proof. unfold at_. rewrite (proj2 (nth_error_None s (length s))), Nat.eqb_refl; auto. Qed.

Lemma at_app_next (pre : list Z) c d r : at_ (pre ++ c :: d :: r) (S (length pre)) = Ok d.
Proof. replace (pre ++ c :: d :: r) with ((pre ++ [c]) ++ d :: r) by (rewrite <- app_assoc; auto).
  replace (S (length pre)) with (length (pre ++ [c])) by len. apply at_app. Qed.

(* The current word is pre ++ c :: r, where |pre| = where. *)
Lemma short_step o (pre : list Z) c r k : nth_error argv (o_ind o) = Some (pre ++ c :: r) -> (1 <= o_ind o)%nat ->
  o_where o = length pre -> (exists pre', pre = 45 :: pre') -> pre ++ c :: r <> [45; 45] ->
  (o_where o = 1%nat -> c <> 45) -> kind_of tbl c = Some k ->
  exists i, getopt argv shorts longs silent o =
    finish_opt argv (match longs with Some ls => ls | None => [] end) silent colon (set_opt o c) (pre ++ c :: r) None
      (kind_code k) r c /\ strchr (shorts_string tbl) c = Some i.
Proof.
  intros Hn Hi Hw [pre' ->] Hm Hd Hk.
  destruct (strchr_kind tbl c k Htbl Hk) as (i & E1 & E2 & Hc). exists i. split; auto.
  rewrite (getopt_word _ _ _ _ _ _ Hn Hm Hi) by (left; discriminate). unfold shorts. rewrite strip_full by auto. cbn [fst snd].
  rewrite body_short.
  2: { intros E. rewrite E in *. destruct pre'; cbn in Hw; [|lia]. exists c, r. auto. }
  unfold short_opt. rewrite Hw, at_app. cbn [bind]. rewrite E1. unfold has_of in E2.
  destruct (at_ (shorts_string tbl) (S i)) as [c1| |]; cbn [bind] in *; try discriminate. rewrite E2. cbn [bind].
  destruct (Nat.ltb_spec (length ((45 :: pre') ++ c :: r)) (S (length (45 :: pre')))) as [Hlt|]; [exfalso; len|].
  f_equal. replace ((45 :: pre') ++ c :: r) with (((45 :: pre') ++ [c]) ++ r) by (rewrite <- app_assoc; auto).
  apply skipn_app_eq. len.
Qed.

Lemma nz_char c : kind_of tbl c <> None -> c <> 0 /\ c <> 45.
Proof.
  destruct (kind_of tbl c) as [k|] eqn:E; [|tauto]. intros _. destruct (strchr_kind tbl c k Htbl E) as (_ & _ & _ & H). destruct H as (?&?&?&?). auto.
Qed.

(* A flag that is not the last character. *)
Lemma flag_step o (pre : list Z) c d r : nth_error argv (o_ind o) = Some (pre ++ c :: d :: r) -> (1 <= o_ind o)%nat ->
  o_where o = length pre -> (exists pre', pre = 45 :: pre') -> pre ++ c :: d :: r <> [45; 45] ->
  kind_of tbl c = Some No -> d <> 0 ->
  exists o', getopt argv shorts longs silent o = Ok o' /\ o_ret o' = c /\ o_arg o' = None /\
    o_ind o' = o_ind o /\ o_where o' = S (length pre).
Proof.
  intros Hn Hi Hw Hp Hm Hk Hd.
  assert (Hc : c <> 0 /\ c <> 45) by (apply nz_char; congruence).
  destruct (short_step o pre c (d :: r) No) as (i & E & _); auto; [tauto|].
  rewrite E. unfold finish_opt. cbn [kind_code]. change (0 =? OPTIONAL_ARG) with false. change (0 =? REQUIRED_ARG) with false. cbn iota.
  cbn [set_opt o_where]. rewrite Hw, at_app_next. cbn [bind]. rewrite (eqbF d) by auto.
  assert (1 <= length pre)%nat by (destruct Hp as [p' ->]; cbn; lia).
  cbn [set_arg set_pos o_where]. destruct (Nat.eqb_spec (S (length pre)) 1); [lia|].
  eexists. split; [reflexivity|]. auto.
Qed.

(* The last option of the word, with its value. *)
Lemma last_step o (pre : list Z) c v k rest pre_argv : argv = pre_argv ++ ((pre ++ c :: value_tail v) :: value_word v) ++ rest ->
  o_ind o = length pre_argv -> (1 <= o_ind o)%nat ->
  o_where o = length pre -> (exists pre', pre = 45 :: pre') ->
  kind_of tbl c = Some k -> value_fits k v ->
  exists o', getopt argv shorts longs silent o = Ok o' /\ o_ret o' = c /\ o_arg o' = value_text v /\
    o_ind o' = (o_ind o + 1 + length (value_word v))%nat /\ o_where o' = 1%nat.
Proof.
  intros Ha Hin Hi Hw Hp Hk Hv.
  assert (Hn : nth_error argv (o_ind o) = Some (pre ++ c :: value_tail v)).
  { rewrite Ha, Hin, nth_error_app2, Nat.sub_diag by lia. auto. }
  assert (Hc : c <> 0 /\ c <> 45) by (apply nz_char; congruence).
  assert (Hm : pre ++ c :: value_tail v <> [45; 45]).
  { destruct Hp as [p' ->]. destruct p' as [|x [|y p']]; cbn; intros G; inversion G; subst; tauto. }
  destruct (short_step o pre c (value_tail v) k) as (i & E & _); auto; [tauto|].
  rewrite E. unfold finish_opt. destruct k, v as [|s|s|s]; cbn [value_fits] in Hv; try tauto; cbn [kind_code value_tail value_word value_text].
  - (* flag *)
    change (0 =? OPTIONAL_ARG) with false. change (0 =? REQUIRED_ARG) with false. cbn iota.
    cbn [set_opt o_where]. rewrite Hw. replace (S (length pre)) with (length (pre ++ [c])) by len. rewrite at_end. cbn [bind].
    rewrite Z.eqb_refl. cbn [set_arg set_pos o_where Nat.eqb]. eexists. split; [reflexivity|]. cbn. auto.
  - change (1 =? OPTIONAL_ARG) with false. change (1 =? REQUIRED_ARG) with true. cbn iota.
    destruct Hv as [H1 H2]. destruct s as [|x s]; [tauto|]. cbn [hd] in H2. rewrite (eqbF x) by auto.
    eexists. split; [reflexivity|]. cbn. repeat split; auto; lia.
  - change (1 =? OPTIONAL_ARG) with false. change (1 =? REQUIRED_ARG) with true. cbn iota.
    rewrite Z.eqb_refl. destruct s as [|x s]; [tauto|].
    eexists. split; [reflexivity|]. cbn. repeat split; auto; lia.
  - change (1 =? OPTIONAL_ARG) with false. change (1 =? REQUIRED_ARG) with true. cbn iota.
    cbn [set_opt o_ind].
    destruct (Nat.leb_spec (length argv) (o_ind o + 1)) as [Hle|]; [exfalso; rewrite Ha in Hle; cbn [value_word] in Hle; len|].
    assert (Hn1 : nth_error argv (o_ind o + 1) = Some s).
    { rewrite Ha, Hin, nth_error_app2 by lia. replace (length pre_argv + 1 - length pre_argv)%nat with 1%nat by lia. auto. }
    rewrite Hn1. eexists. split; [reflexivity|]. cbn. auto.
  - change (2 =? OPTIONAL_ARG) with true. cbn iota. eexists. split; [reflexivity|]. cbn. repeat split; auto; lia.
  - change (2 =? OPTIONAL_ARG) with true. cbn iota. destruct Hv as [H1 H2]. destruct s as [|x s]; [tauto|]. cbn [hd] in H2. rewrite (eqbF x) by auto.
    eexists. split; [reflexivity|]. cbn. repeat split; auto; lia.
  - change (2 =? OPTIONAL_ARG) with true. cbn iota. rewrite Z.eqb_refl. destruct s as [|x s]; [tauto|].
    eexists. split; [reflexivity|]. cbn. repeat split; auto; lia.
Qed.

Lemma cluster_ok rest pre_argv c v k : kind_of tbl c = Some k -> value_fits k v ->
  forall fl pre o, Forall (fun f => kind_of tbl f = Some No) fl ->
  argv = pre_argv ++ ((pre ++ fl ++ c :: value_tail v) :: value_word v) ++ rest ->
  o_ind o = length pre_argv -> (1 <= o_ind o)%nat -> o_where o = length pre -> (exists pre', pre = 45 :: pre') ->
  exists o', getopts (length fl + 1) argv shorts longs silent o = Ok (map (fun f => (f, None)) fl ++ [(c, value_text v)], o') /\
    o_ind o' = (o_ind o + 1 + length (value_word v))%nat /\ o_where o' = 1%nat.
Proof.
  intros Hk Hv. induction fl as [|f fl IH]; intros pre o Hfl Ha Hin Hi Hw Hp.
  - cbn [app] in Ha. destruct (last_step o pre c v k rest pre_argv Ha Hin Hi Hw Hp Hk Hv) as (o' & E & E1 & E2 & E3 & E4).
    cbn [length Nat.add getopts map app]. rewrite E. cbn [bind]. rewrite E1, E2. exists o'. auto.
  - apply Forall_cons_iff in Hfl. destruct Hfl as [Hf Hfl'].
    assert (Hfc : f <> 0 /\ f <> 45) by (apply nz_char; congruence).
    assert (exists d r, fl ++ c :: value_tail v = d :: r /\ d <> 0) as (d & r & Ed & Hd).
    { destruct fl as [|g fl]; [exists c, (value_tail v)|exists g, (fl ++ c :: value_tail v)]; split; auto.
      - apply nz_char. congruence.
      - apply Forall_cons_iff in Hfl'. destruct Hfl' as [Hg _]. apply nz_char. congruence. }
    assert (Hn : nth_error argv (o_ind o) = Some (pre ++ f :: d :: r)).
    { rewrite Ha, Hin, nth_error_app2, Nat.sub_diag by lia. cbn [app nth_error]. rewrite <- Ed. auto. }
    destruct (flag_step o pre f d r Hn Hi Hw Hp) as (o' & E & E1 & E2 & E3 & E4); auto.
    { destruct Hp as [p' ->]. destruct p' as [|x [|y p']]; cbn; intros G; inversion G; subst; tauto. }
    cbn [length Nat.add getopts map app]. rewrite E. cbn [bind].
    destruct (IH (pre ++ [f]) o') as (o'' & E5 & E6 & E7); auto.
    + rewrite <- app_assoc. auto.
    + congruence.
    + lia.
    + rewrite E4. len.
    + destruct Hp as [p' ->]. exists (p' ++ [f]). auto.
    + rewrite E5. cbn [bind]. rewrite E1, E2. exists o''. split; [auto|]. lia.
Qed.

End Cluster.

(* --- long options --- *)

Lemma memeq_begins t : forall tail n, memeq (t ++ tail) n (length t) = true <-> begins t n.
Proof.
  unfold begins. induction t as [|x t IH]; intros tail n; cbn [app length memeq].
  - split; eauto.
  - destruct n as [|y n].
    + split; [discriminate|]. intros [r E]. discriminate.
    + rewrite andb_true_iff, IH. split.
      * intros [E [r ->]]. apply Z.eqb_eq in E. subst. exists r. auto.
      * intros [r E]. inversion E; subst. split; [apply Z.eqb_refl|]. eauto.
Qed.

Lemma find_rest t tail i ls : forall j, (forall k l', nth_error ls k = Some l' -> ~ begins t (l_name l')) ->
  find_long ls (t ++ tail) (length t) j (Some i) = inl (Some i).
Proof.
  induction ls as [|l ls IH]; intros j H; cbn [find_long]; auto.
  destruct (memeq (t ++ tail) (l_name l) (length t)) eqn:E.
  - apply memeq_begins in E. exfalso. apply (H O l); auto.
  - apply IH. intros k l' Hk. apply (H (S k)). auto.
Qed.

Lemma find_means t tail ls : forall i j, means ls t i ->
  find_long ls (t ++ tail) (length t) j None = inl (Some (j + i)%nat).
Proof.
  induction ls as [|l ls IH]; intros i j (l0 & Hi & Hb & Hu).
  - destruct i; discriminate.
  - cbn [find_long]. destruct (memeq (t ++ tail) (l_name l) (length t)) eqn:E.
    + apply memeq_begins in E. destruct (Hu O l eq_refl E) as [<- | [_ ?]]; [|lia].
      cbn in Hi. injection Hi as <-. destruct (Nat.eqb_spec (length t) (length (l_name l))) as [El | El].
      * do 2 f_equal. lia.
      * replace (j + 0)%nat with j by lia. apply find_rest. intros k l' Hk Hb'.
        destruct (Hu (S k) l' Hk Hb') as [? | [Hex _]]; [lia|]. rewrite Hex in El. tauto.
    + destruct i as [|i].
      * cbn in Hi. injection Hi as <-. apply (memeq_begins t tail) in Hb. congruence.
      * replace (j + S i)%nat with (S j + i)%nat by lia. apply IH. exists l0. split; [auto|]. split; [auto|].
        intros k l' Hk Hb'. destruct (Hu (S k) l' Hk Hb') as [? | [? ?]]; [left; lia|right; split; [auto|lia]].
Qed.

Lemma split_eq_app t tail : Forall (fun c => c <> 61) t -> (tail = [] \/ exists s, tail = 61 :: s) -> split_eq (t ++ tail) = (t, tail).
Proof.
  intros Ht Htl. induction Ht as [|c t Hc Ht IH]; cbn [app].
  - destruct Htl as [-> | [s ->]]; reflexivity.
  - cbn [split_eq]. rewrite eqbF by auto. rewrite IH. auto.
Qed.

Lemma long_step argv shorts longs silent o t i v rest pre_argv :
  argv = pre_argv ++ ((45 :: 45 :: t ++ value_tail v) :: value_word v) ++ rest ->
  o_ind o = length pre_argv -> (1 <= o_ind o)%nat -> o_where o = 1%nat ->
  t <> [] -> Forall (fun c => c <> 61) t -> (forall s, v <> Attached s) -> means longs t i ->
  (exists k, option_map l_has (nth_error longs i) = Some (kind_code k) /\ value_fits k v) ->
  exists o', getopt argv shorts (Some longs) silent o = Ok o' /\ o_ret o' = long_ret longs i /\ o_arg o' = value_text v /\
    o_ind o' = (o_ind o + 1 + length (value_word v))%nat /\ o_where o' = 1%nat.
Proof.
  intros Ha Hin Hi Hw Ht Heq Hna Hm (k & Hk & Hv).
  assert (Hn : nth_error argv (o_ind o) = Some (45 :: 45 :: t ++ value_tail v)).
  { rewrite Ha, Hin, nth_error_app2, Nat.sub_diag by lia. auto. }
  rewrite (getopt_word _ _ _ _ _ _ Hn); [|destruct t; [tauto|discriminate]|auto|right; discriminate].
  unfold body. rewrite Hw. change ((1 =? 1)%nat) with true.
  change (negb (45 =? 45) || match 45 :: t ++ value_tail v with [] => true | _ :: _ => false end) with false. cbn [andb].
  assert (Hme : memeq (45 :: 45 :: t ++ value_tail v) [45; 45] 2 = true) by reflexivity. rewrite Hme. cbn [andb skipn].
  rewrite split_eq_app by (auto; destruct v; cbn; eauto; destruct (Hna v); auto).
  rewrite find_means with (i := i) by auto. cbn [Nat.add].
  destruct (nth_error longs i) as [l|] eqn:El; [|discriminate]. cbn [option_map] in Hk. injection Hk as Hk.
  unfold finish_opt, long_ret. rewrite El, Hk.
  destruct k, v as [|s|s|s]; cbn [value_fits] in Hv; try tauto; cbn [kind_code value_tail value_word value_text];
    try (exfalso; apply (Hna s); auto; fail).
  - change (0 =? OPTIONAL_ARG) with false. change (0 =? REQUIRED_ARG) with false. cbn iota.
    eexists. split; [reflexivity|]. cbn. repeat split; auto; lia.
  - change (1 =? OPTIONAL_ARG) with false. change (1 =? REQUIRED_ARG) with true. cbn iota.
    change (61 =? 61) with true. cbn iota. destruct s as [|x s]; [tauto|]. eexists. split; [reflexivity|]. cbn. repeat split; auto; lia.
  - change (1 =? OPTIONAL_ARG) with false. change (1 =? REQUIRED_ARG) with true. cbn iota. cbn [set_pos o_ind].
    destruct (Nat.leb_spec (length argv) (o_ind o + 1)) as [Hle|]; [exfalso; rewrite Ha in Hle; cbn [value_word] in Hle; len|].
    assert (Hn1 : nth_error argv (o_ind o + 1) = Some s).
    { rewrite Ha, Hin, nth_error_app2 by lia. replace (length pre_argv + 1 - length pre_argv)%nat with 1%nat by lia. auto. }
    rewrite Hn1. eexists. split; [reflexivity|]. cbn. auto.
  - change (2 =? OPTIONAL_ARG) with true. cbn iota. eexists. split; [reflexivity|]. cbn. repeat split; auto; lia.
  - change (2 =? OPTIONAL_ARG) with true. cbn iota. change (61 =? 61) with true. cbn iota. destruct s as [|x s]; [tauto|].
    eexists. split; [reflexivity|]. cbn. repeat split; auto; lia.
Qed.

(* --- the whole line --- *)

Lemma getopts_app argv shorts longs silent n : forall m o l o' l' o'',
  getopts n argv shorts longs silent o = Ok (l, o') -> getopts m argv shorts longs silent o' = Ok (l', o'') ->
  getopts (n + m) argv shorts longs silent o = Ok (l ++ l', o'').
Proof.
  induction n as [|n IH]; intros m o l o' l' o'' H1 H2; cbn [getopts Nat.add] in *.
  - injection H1 as <- <-. auto.
  - destruct (getopt argv shorts longs silent o) as [o1| |]; cbn [bind] in *; try discriminate.
    destruct (getopts n argv shorts longs silent o1) as [[l1 o2]| |] eqn:E; cbn [bind] in *; try discriminate.
    injection H1 as <- <-. rewrite (IH _ _ _ _ _ _ E H2). auto.
Qed.

Lemma item_parse argv sg colon tbl longs silent : sign_ok sg -> tbl_ok tbl ->
  forall it o rest pre_argv, item_ok tbl longs it ->
  argv = pre_argv ++ item_words it ++ rest -> o_ind o = length pre_argv -> (1 <= o_ind o)%nat -> o_where o = 1%nat ->
  exists o', getopts (length (item_results longs it)) argv (Some (full_string sg colon tbl)) (Some longs) silent o =
      Ok (item_results longs it, o') /\
    o_ind o' = (o_ind o + length (item_words it))%nat /\ o_where o' = 1%nat.
Proof.
  intros Hsg Ht it o rest pre_argv Hit Ha Hin Hi Hw. destruct it as [s|fl c v|t i v]; cbn [item_ok item_words item_results] in *.
  - assert (Hn : nth_error argv (o_ind o) = Some s) by (rewrite Ha, Hin, nth_error_app2, Nat.sub_diag by lia; auto).
    cbn [length getopts].
    rewrite (getopt_word _ _ _ _ _ _ Hn); [|destruct Hit as [H | ->]; [intros ->; apply H; reflexivity|discriminate]|auto|left; discriminate].
    unfold body. rewrite Hw. change ((1 =? 1)%nat) with true.
    replace (match s with [] => true | c :: r => negb (c =? 45) || match r with [] => true | _ :: _ => false end end) with true.
    2: { destruct s as [|c r]; auto. destruct Hit as [H | H]; [cbn [hd] in H; rewrite eqbF by auto; auto|]. inversion H; subst. reflexivity. }
    cbn [andb bind]. eexists. split; [reflexivity|]. cbn. split; [lia|auto].
  - destruct Hit as (Hfl & k & Hk & Hv).
    destruct (cluster_ok argv tbl sg colon silent (Some longs) Hsg Ht rest pre_argv c v k Hk Hv fl [45] o) as (o' & E & E1 & E2); auto.
    { exists []. auto. }
    exists o'. rewrite app_length, map_length. cbn [length]. split; [auto|]. split; [rewrite E1; cbn [length]; lia|auto].
  - destruct Hit as (H1 & H2 & H3 & H4 & H5).
    destruct (long_step argv (Some (full_string sg colon tbl)) longs silent o t i v rest pre_argv) as (o' & E & E1 & E2 & E3 & E4); auto.
    cbn [length getopts]. rewrite E. cbn [bind]. exists o'. rewrite E1, E2. split; [auto|]. cbn [length]. split; [lia|auto].
Qed.

Lemma items_parse argv sg colon tbl longs silent : sign_ok sg -> tbl_ok tbl ->
  forall its o rest pre_argv, Forall (item_ok tbl longs) its ->
  argv = pre_argv ++ flat_map item_words its ++ rest -> o_ind o = length pre_argv -> (1 <= o_ind o)%nat -> o_where o = 1%nat ->
  exists o', getopts (length (flat_map (item_results longs) its)) argv (Some (full_string sg colon tbl)) (Some longs) silent o =
      Ok (flat_map (item_results longs) its, o') /\
    o_ind o' = (o_ind o + length (flat_map item_words its))%nat /\ o_where o' = 1%nat.
Proof.
  intros Hsg Ht. induction its as [|it its IH]; intros o rest pre_argv Hits Ha Hin Hi Hw.
  - exists o. cbn. split; [auto|]. split; [lia|auto].
  - apply Forall_cons_iff in Hits. destruct Hits as [Hit Hits]. cbn [flat_map] in *.
    destruct (item_parse argv sg colon tbl longs silent Hsg Ht it o (flat_map item_words its ++ rest) pre_argv) as (o1 & E1 & E2 & E3); auto.
    { rewrite Ha, <- app_assoc. auto. }
    destruct (IH o1 rest (pre_argv ++ item_words it)) as (o2 & E4 & E5 & E6); auto.
    { rewrite Ha, <- !app_assoc. auto. }
    { rewrite app_length. lia. }
    { lia. }
    exists o2. rewrite !app_length. split; [apply getopts_app with (o' := o1); auto|]. split; [lia|auto].
Qed.

Lemma item_first it tbl longs : tbl_ok tbl -> item_ok tbl longs it -> hd_error (item_words it) <> Some [45; 45].
Proof.
  intros Ht. destruct it as [s|fl c v|t i v]; cbn [item_ok item_words hd_error].
  - intros [H | ->] [= ->]; try discriminate. apply H. auto.
  - intros (Hfl & k & Hk & Hv) G. assert (G' : fl ++ c :: value_tail v = [45]) by congruence.
    destruct fl as [|f fl]; cbn in G'; inversion G'; subst.
    + assert (Hc : 45 <> 0 /\ 45 <> 45) by (apply (nz_char tbl Ht); congruence). tauto.
    + destruct fl; discriminate.
  - intros (H & _) G. assert (G' : t ++ value_tail v = []) by congruence. apply app_eq_nil in G'. tauto.
Qed.

Lemma words_first its tbl longs : tbl_ok tbl -> Forall (item_ok tbl longs) its ->
  forall rest, (its = [] -> hd_error rest <> Some [45; 45]) -> hd_error (flat_map item_words its ++ rest) <> Some [45; 45].
Proof.
  intros Ht Hits rest Hr. destruct its as [|it its]; [apply Hr; auto|]. inversion Hits as [|? ? Hit _]; subst.
  pose proof (item_first it tbl longs Ht Hit). cbn [flat_map]. destruct it; cbn [item_words app hd_error] in *; auto.
Qed.

(* The whole argument list is options and arguments. *)
Lemma parse_all prog its sg colon tbl longs silent : sign_ok sg -> tbl_ok tbl -> Forall (item_ok tbl longs) its -> prog <> [45; 45] ->
  let argv := prog :: flat_map item_words its in
  let res := flat_map (item_results longs) its in
  exists o o', getopts (length res) argv (Some (full_string sg colon tbl)) (Some longs) silent opt0 = Ok (res, o) /\
    getopt argv (Some (full_string sg colon tbl)) (Some longs) silent o = Ok o' /\ o_ret o' = -1.
Proof.
  intros Hsg Ht Hits Hp argv res.
  assert (H1 : nth_error argv 1 <> Some [45; 45]).
  { unfold argv. cbn [nth_error]. pose proof (words_first its tbl longs Ht Hits []) as G. rewrite app_nil_r in G.
    destruct (flat_map item_words its); [cbn in *; discriminate|]. cbn in *. apply G. intros _. discriminate. }
  destruct (items_parse argv sg colon tbl longs silent Hsg Ht its (set_pos opt0 1 1) [] [prog]) as (o1 & E1 & E2 & E3); auto.
  { unfold argv. rewrite app_nil_r. auto. }
  assert (Hfirst : getopt argv (Some (full_string sg colon tbl)) (Some longs) silent opt0 =
                   getopt argv (Some (full_string sg colon tbl)) (Some longs) silent (set_pos opt0 1 1)).
  { destruct (getopt_first argv (Some (full_string sg colon tbl)) (Some longs) silent opt0 prog) as [E | (o' & _ & E & _)]; auto; discriminate. }
  fold res in E1. destruct res as [|r res'] eqn:Er; cbn [length] in *.
  - cbn [getopts] in *. injection E1 as <-. exists opt0.
    destruct (getopt_end argv (Some (full_string sg colon tbl)) (Some longs) silent (set_pos opt0 1 1)) as (o' & E & E' & _).
    { cbn [set_pos o_ind] in *. unfold argv. cbn [length]. lia. }
    { cbn. lia. }
    exists o'. rewrite Hfirst. auto.
  - cbn [getopts] in *. rewrite Hfirst, E1. exists o1.
    destruct (getopt_end argv (Some (full_string sg colon tbl)) (Some longs) silent o1) as (o' & E & E' & _).
    { rewrite E2. unfold argv. cbn [length set_pos o_ind]. lia. }
    { rewrite E2. cbn [set_pos o_ind]. lia. }
    exists o'. auto.
Qed.

(* With a marker after at least one item: the words behind it are left. *)
Lemma parse_marker prog its rest sg colon tbl longs silent : sign_ok sg -> tbl_ok tbl -> Forall (item_ok tbl longs) its ->
  prog <> [45; 45] -> its <> [] ->
  let argv := prog :: flat_map item_words its ++ [45; 45] :: rest in
  let res := flat_map (item_results longs) its in
  exists o o', getopts (length res) argv (Some (full_string sg colon tbl)) (Some longs) silent opt0 = Ok (res, o) /\
    getopt argv (Some (full_string sg colon tbl)) (Some longs) silent o = Ok o' /\ o_ret o' = -1 /\
    skipn (o_ind o') argv = rest.
Proof.
  intros Hsg Ht Hits Hp Hne argv res.
  assert (H1 : nth_error argv 1 <> Some [45; 45]).
  { unfold argv. cbn [nth_error]. pose proof (words_first its tbl longs Ht Hits ([45; 45] :: rest)) as G.
    destruct (flat_map item_words its ++ [45; 45] :: rest) as [|x y]; [cbn in *; discriminate|]. cbn [hd_error nth_error] in *. apply G. tauto. }
  destruct (items_parse argv sg colon tbl longs silent Hsg Ht its (set_pos opt0 1 1) ([45; 45] :: rest) [prog]) as (o1 & E1 & E2 & E3); auto.
  assert (Hfirst : getopt argv (Some (full_string sg colon tbl)) (Some longs) silent opt0 =
                   getopt argv (Some (full_string sg colon tbl)) (Some longs) silent (set_pos opt0 1 1)).
  { destruct (getopt_first argv (Some (full_string sg colon tbl)) (Some longs) silent opt0 prog) as [E | (o' & _ & E & _)]; auto; discriminate. }
  fold res in E1. cbn [set_pos o_ind] in E2.
  destruct (getopt_marker argv (Some (full_string sg colon tbl)) (Some longs) silent o1) as (o' & E & E' & E'' & _).
  { rewrite E2. unfold argv. cbn [nth_error Nat.add]. rewrite nth_error_app2, Nat.sub_diag by lia. auto. }
  { left. discriminate. }
  exists o1, o'. split; [|split; [auto|split; [auto|]]].
  - destruct res as [|r res'] eqn:Er; cbn [length] in *.
    + exfalso. destruct its as [|it its']; [tauto|]. unfold res in Er. cbn [flat_map] in Er. apply app_eq_nil in Er. destruct Er as [Er _].
      destruct it; cbn in Er; try discriminate. destruct (map (fun f : Z => (f, @None (list Z))) flags); discriminate.
    + cbn [getopts] in *. rewrite Hfirst, E1. auto.
  - rewrite E'', E2. unfold argv. rewrite skipn_cons, Nat.add_1_l.
    assert (E4 : forall l : list (list Z), skipn (S (length l)) (l ++ [45; 45] :: rest) = rest).
    { clear. induction l; cbn [length app]; [auto|rewrite skipn_cons; auto]. }
    apply E4.
Qed.
