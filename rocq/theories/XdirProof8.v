(* Lemmas: removing a file. *)
From Verif Require Import Base Arr ArrLemmas LfnSpec FutfModel FutfSpec XdirModel XdirSpec XdirProof XdirProof6.
Open Scope Z_scope.

Definition in_use (e : list Z) : Prop := entry_ok e /\ 128 < at_ e 0.
Lemma clear_bit t : 128 <= t < 256 -> Z.land t 127 = t - 128.
Proof. intros H. change 127 with (Z.ones 7). rewrite Z.land_ones by lia. change (2 ^ 7) with 128. Z.to_euclidean_division_equations. lia. Qed.
Lemma set_mid (pre : list (list Z)) e post e' p : p = length pre -> set_at (pre ++ e :: post) p e' = pre ++ e' :: post.
Proof. intros ->. induction pre as [|x pre IH]; cbn; auto. now rewrite IH. Qed.

Lemma remove_run es : forall e pre post n, Forall in_use (e :: es) -> (length es < n)%nat ->
  remove_x n (pre ++ (e :: es) ++ post) (length pre) (length pre + length es) = Ok (pre ++ map unused (e :: es) ++ post, true).
Proof.
  induction es as [|e2 es IH]; intros e pre post n F N; destruct n as [|n]; try lia; inversion F as [|? ? ((Le & Be) & Ue) F']; subst;
    destruct e as [|t r]; try discriminate; unfold at_ in Ue; cbn [nth] in Ue; inversion Be as [|? ? Bt _]; subst; unfold byte_ok in Bt.
  - cbn [remove_x app]. rewrite nth_error_app2, Nat.sub_diag by lia. cbn [nth_error]. unfold rd, wr. cbn [nth_error bind length Nat.ltb Nat.leb set_at].
    rewrite clear_bit by lia. replace (length pre + 0 <=? length pre)%nat with true by lia. rewrite set_mid by auto. reflexivity.
  - cbn [remove_x app]. rewrite nth_error_app2, Nat.sub_diag by lia. cbn [nth_error]. unfold rd, wr. cbn [nth_error bind length Nat.ltb Nat.leb set_at].
    rewrite clear_bit by lia. replace (length pre + S (length es) <=? length pre)%nat with false by lia. rewrite set_mid by auto.
    specialize (IH e2 (pre ++ [(t - 128) :: r]) post n F'). rewrite <- !app_assoc in IH. cbn [app] in IH. rewrite app_length in IH. cbn [length] in IH, N.
    replace (S (length pre)) with (length pre + 1)%nat by lia. replace (length pre + S (length es))%nat with (length pre + 1 + length es)%nat by lia.
    rewrite IH by lia. reflexivity.
Qed.

Lemma set_in_use ws h s names : file_set ws h s names -> Forall in_use (h :: s :: names).
Proof.
  intros [Eh Es En G _ _ _ _ _]. constructor; [split; auto; rewrite (g_file _ _ _ G); lia|]. constructor; [split; auto; rewrite (g_stream _ _ _ G); lia|].
  pose proof (g_names _ _ _ G) as T. rewrite Forall_forall in *. intros e I. split; auto. rewrite (T e I). lia.
Qed.
Lemma unused_ok e : in_use e -> item_ok (Other (unused e)).
Proof.
  intros ((L & B) & U). destruct e as [|t r]; [discriminate|]. unfold at_ in U. cbn [nth] in U. inversion B as [|? ? Bt Br]; subst. unfold byte_ok in Bt.
  cbn. unfold at_. cbn [nth]. repeat split; auto; try lia. constructor; auto. unfold byte_ok. lia.
Qed.
Lemma others es : concat (map entries (map Other es)) = es.
Proof. induction es as [|e es IH]; cbn; auto. now rewrite IH. Qed.

Lemma remove_ok before ws h s names after tab b zs : directory (before ++ File ws h s names :: after) tab -> length b = 608%nat -> Forall unit_ok' zs ->
  Forall (fun i => ~ is_named zs i) before -> same_name ws zs ->
  exists tab', unlink_x tab b (zs ++ [0]) = Ok (tab', Some true) /\ directory (before ++ map Other (map unused (h :: s :: names)) ++ after) tab' /\ length tab' = length tab /\
    (forall j, (j < length (concat (map entries before)) \/ length (concat (map entries before)) + 2 + length names <= j)%nat -> nth_error tab' j = nth_error tab j).
Proof.
  intros D Lb Uz Nb Sn. pose proof D as D0. destruct D as (Fi & rest & -> & Er).
  apply Forall_app in Fi as (F1 & F2). inversion F2 as [|? ? Fs F3]; subst.
  pose proof (set_in_use _ _ _ _ Fs) as U.
  assert (Fd : exists b', dir_find_x (concat (map entries (before ++ File ws h s names :: after)) ++ rest) b (zs ++ [0]) = Ok (Xfound (length (concat (map entries before))) b' (length (concat (map entries before)) + (length names + 1)))).
  { destruct (find_ok _ _ b zs D0 Lb Uz) as [(bf & w & h' & s' & n' & af & b' & E & Nf & Sf & R & _)|(N & _)].
    - assert (X : bf = before /\ File w h' s' n' = File ws h s names).
      { clear - E Nf Sf Nb Sn. revert before Nb E. induction bf as [|x bf IH]; intros [|y before] Nb E; cbn [app] in E; inversion E; subst.
        - auto.
        - inversion Nb as [|? ? H _]; subst. destruct H. exact Sf.
        - inversion Nf as [|? ? H _]; subst. destruct H. exact Sn.
        - inversion Nb; subst. inversion Nf; subst. destruct (IH ltac:(assumption) before) as (-> & ?); auto. }
      destruct X as (-> & [= -> -> -> ->]). eauto.
    - apply Forall_app in N as (_ & N). inversion N as [|? ? H _]; subst. destruct H. exact Sn. }
  destruct Fd as (b' & Fd). unfold unlink_x. rewrite Fd. cbn [bind].
  rewrite map_app, concat_app. cbn [map entries concat]. rewrite <- !(app_assoc (concat (map entries before))), <- (app_assoc (h :: s :: names)).
  set (pre := concat (map entries before)) in *. set (post := concat (map entries after) ++ rest).
  pose proof (remove_run (s :: names) h pre post (S (length (pre ++ (h :: s :: names) ++ post))) U) as R.
  cbn [length] in R. replace (length pre + S (length names))%nat with (length pre + (length names + 1))%nat in R by lia.
  rewrite R by (rewrite !app_length; cbn [length]; lia). cbn [bind].
  exists (pre ++ map unused (h :: s :: names) ++ post). split; [reflexivity|]. split; [split|].
  - apply Forall_app. split; auto. apply Forall_app. split; auto. apply Forall_forall. intros i I. assert (I' : In i (map Other (map unused (h :: s :: names)))) by exact I. clear I. apply in_map_iff in I' as (e & <- & I). apply in_map_iff in I as (e0 & <- & I).
    apply unused_ok. rewrite Forall_forall in U. auto.
  - exists rest. split; auto. match goal with |- context [before ++ ?x] => change x with (map Other (map unused (h :: s :: names)) ++ after) end. rewrite !map_app, !concat_app, others. unfold post. now rewrite <- !app_assoc.
  - split; [rewrite !app_length, map_length; reflexivity|]. intros j [J|J].
    + rewrite !nth_error_app1 by lia. reflexivity.
    + rewrite !(nth_error_app2 pre) by lia. rewrite !nth_error_app2 by (rewrite ?map_length; cbn [length]; lia). rewrite map_length. reflexivity.
Qed.
Lemma remove_none items tab b zs : directory items tab -> length b = 608%nat -> Forall unit_ok' zs -> Forall (fun i => ~ is_named zs i) items ->
  unlink_x tab b (zs ++ [0]) = Ok (tab, None).
Proof.
  intros D Lb Uz N. unfold unlink_x. destruct (find_ok items tab b zs D Lb Uz) as [(bf & w & h' & s' & n' & af & b' & -> & _ & Sf & _)|(_ & ->)]; [|reflexivity].
  apply Forall_app in N as (_ & N). inversion N as [|? ? H _]; subst. destruct H. exact Sf.
Qed.
