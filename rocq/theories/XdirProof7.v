(* Lemmas: listing a directory. *)
From Verif Require Import Base Arr ArrLemmas LfnSpec FutfModel FutfSpec XdirModel XdirSpec XdirProof XdirProof6.
Open Scope Z_scope.

Definition lgo (m n : nat) (tab : list (list Z)) (p : nat) (b : list Z) : res (list (nat * list Z) * bool) :=
  r <- dir_read_x n tab p b ;;
  match r with
  | Xfound k b q => '(l, ok) <- list_x m tab (S q) b ;; Ok ((k, b) :: l, ok)
  | Xnone => Ok ([], true)
  | Xerr => Ok ([], false)
  end.
Lemma list_run rest (ok : bool) : (forall pre b n, length b = 608%nat -> dir_read_x (S n) (pre ++ rest) (length pre) b = Ok (if ok then Xnone else Xerr)) ->
  forall items pre b m n tab, Forall item_ok items ->
  tab = pre ++ concat (map entries items) ++ rest -> length b = 608%nat -> (length items <= m)%nat -> (length tab < n + length pre)%nat ->
  exists l, lgo m n tab (length pre) b = Ok (l, ok) /\ Forall2 shows l (listing (length pre) items).
Proof.
  intros Er. induction items as [|i items IH]; intros pre b m n tab Fi -> Lb Hm Hn.
  { unfold lgo. cbn [map concat app] in *. destruct n as [|n]; [rewrite app_length in Hn; lia|]. rewrite Er by auto. exists []. split; [destruct ok; reflexivity|constructor]. }
  inversion Fi as [|? ? Oi Fi']; subst. cbn [length] in Hm.
  destruct i as [e|ws h s names]; cbn [map entries concat item_ok listing] in *.
  - destruct Oi as (Ee & E0 & E1). cbn [app] in *. destruct n as [|n]; [rewrite app_length in Hn; lia|].
    destruct (IH (pre ++ [e]) b m n (pre ++ e :: concat (map entries items) ++ rest)) as (l & R & S); auto.
    { now rewrite <- app_assoc. } { lia. } { rewrite (app_length pre [e]). cbn [length]. lia. }
    rewrite (app_length pre [e]) in *. cbn [length] in *. exists l. split; [|exact S]. unfold lgo in *. rewrite skip1 by auto.
    replace (Datatypes.S (length pre)) with (length pre + 1)%nat by lia. exact R.
  - pose proof (set_length h s names (f_h _ _ _ _ Oi) (f_s _ _ _ _ Oi) (f_n _ _ _ _ Oi)) as Ln.
    pose proof (g_size _ _ _ (f_good _ _ _ _ Oi)) as Gz.
    destruct n as [|n]; [rewrite !app_length in Hn; cbn [length] in Hn; lia|].
    set (b1 := concat (h :: s :: names) ++ skipn (length (concat (h :: s :: names))) b).
    assert (Lb1 : length b1 = 608%nat) by (unfold b1; rewrite app_length, skipn_length; lia).
    destruct m as [|m]; [lia|].
    destruct (IH (pre ++ h :: s :: names) b1 m (S (length (pre ++ ((h :: s :: names) ++ concat (map entries items)) ++ rest))) (pre ++ ((h :: s :: names) ++ concat (map entries items)) ++ rest)) as (l & R & F); auto.
    { rewrite <- !app_assoc. reflexivity. } { lia. } { lia. }
    exists ((length pre, b1) :: l). split.
    + unfold lgo at 1. rewrite <- (app_assoc (h :: s :: names)) at 1. rewrite (found1 n pre ws) by auto. cbn [bind]. fold b1. cbn [list_x].
      replace (S (length pre + (length names + 1))) with (length (pre ++ h :: s :: names)) by (rewrite app_length; cbn [length]; lia).
      unfold lgo in R. rewrite R. reflexivity.
    + constructor.
      * split; [reflexivity|]. cbn [fst snd]. unfold b1. rewrite firstn_app, Nat.sub_diag, firstn_all, firstn_O. apply app_nil_r.
      * rewrite (app_length pre) in F. cbn [length] in F. replace (length pre + 2 + length names)%nat with (length pre + S (S (length names)))%nat by lia. exact F.
Qed.

Lemma end_ok rest : (forall e, hd_error rest = Some e -> entry_ok e /\ at_ e 0 = 0) ->
  forall pre b n, length b = 608%nat -> dir_read_x (S n) (pre ++ rest) (length pre) b = Ok Xnone.
Proof.
  intros Er pre b n _. cbn [dir_read_x]. rewrite nth_error_app2, Nat.sub_diag by lia. destruct rest as [|e rest]; cbn [nth_error]; [reflexivity|].
  destruct (Er e eq_refl) as ((Le & _) & E0). rewrite rd_at by lia. rewrite E0. reflexivity.
Qed.
Lemma list_ok items tab b : directory items tab -> length b = 608%nat ->
  exists l, readdir_x tab b = Ok (l, true) /\ Forall2 shows l (listing 0 items).
Proof.
  intros (Fi & rest & -> & Er) Lb.
  pose proof (list_run rest true (end_ok rest Er) items [] b (length (concat (map entries items) ++ rest)) (S (length (concat (map entries items) ++ rest))) _ Fi eq_refl Lb) as X.
  cbn [app length Nat.add] in X. apply X; [|lia]. rewrite app_length. pose proof (entries_length items). lia.
Qed.

(* a set that is not valid ends the list with an error; what is behind it is not reached *)
Lemma bad_end h s names post : entry_ok h -> entry_ok s -> Forall entry_ok names -> at_ h 0 = 133 -> at_ h 1 = Z.of_nat (length names) + 1 -> ~ good h s names ->
  forall pre b n, length b = 608%nat -> dir_read_x (S n) (pre ++ (h :: s :: names) ++ post) (length pre) b = Ok Xerr.
Proof.
  intros Eh Es Fn T C G pre b n L.
  destruct (load_ok (pre ++ (h :: s :: names) ++ post) (length pre) h s names b Eh Es Fn) as (b' & r & X & Y & _); auto. { exists pre, post. auto. }
  destruct r; [destruct G; now apply Y|].
  cbn [dir_read_x]. rewrite X. cbn [app]. rewrite nth_error_app2, Nat.sub_diag by lia. cbn [nth_error]. destruct Eh as (Lh & _). rewrite rd_at by lia. cbn [bind].
  rewrite T. reflexivity.
Qed.
Lemma list_bad items h s names post b : Forall item_ok items -> entry_ok h -> entry_ok s -> Forall entry_ok names -> at_ h 0 = 133 -> at_ h 1 = Z.of_nat (length names) + 1 -> ~ good h s names ->
  length b = 608%nat ->
  exists l, readdir_x (concat (map entries items) ++ (h :: s :: names) ++ post) b = Ok (l, false) /\ Forall2 shows l (listing 0 items).
Proof.
  intros Fi Eh Es Fn T C G Lb. set (rest := (h :: s :: names) ++ post).
  pose proof (list_run rest false (bad_end h s names post Eh Es Fn T C G) items [] b (length (concat (map entries items) ++ rest)) (S (length (concat (map entries items) ++ rest))) _ Fi eq_refl Lb) as X.
  cbn [app length Nat.add] in X. apply X; [|lia]. rewrite app_length. pose proof (entries_length items). lia.
Qed.
