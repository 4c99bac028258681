From Verif Require Import Base Arr ArrLemmas TokModel TokSpec TokProof.
Open Scope Z_scope.

Lemma lex_length s : forall n m, (length s <= n)%nat -> (length (fst (lex m s)) <= length s)%nat.
Proof.
  intros n. revert s. induction n as [|n IH]; intros s m H; destruct s as [|c s]; cbn in *; try lia.
  destruct (c =? 92).
  - destruct s as [|d s]; cbn in *; [lia|]. pose proof (IH s m). lia.
  - assert (H' : (length s <= n)%nat) by lia.
    destruct m; repeat (match goal with |- context [if ?b then _ else _] => destruct b end);
      cbn; match goal with |- context [lex ?m s] => pose proof (IH s m H') end; lia.
Qed.

Lemma words_bound l : forall w, (2 * length (words_from w l) <= length l + if isnil w then 1 else 2)%nat.
Proof.
  induction l as [|[|c] l IH]; intros w; cbn [words_from length].
  - destruct w; cbn; lia.
  - destruct w; cbn [isnil length]; specialize (IH []); cbn [isnil] in IH; lia.
  - specialize (IH (w ++ [c])). destruct w; cbn [isnil app] in *; lia.
Qed.

Lemma split_count s : (2 * length (split_words s) <= length s + 1)%nat.
Proof.
  unfold split_words. pose proof (words_bound (fst (lex Plain s)) []). pose proof (lex_length s _ Plain (le_n _)).
  cbn in H. lia.
Qed.

Definition lit_nn (i : item) : Prop := match i with Sep => True | Lit c => c <> 0 end.

Lemma lex_nn s : forall n m, (length s <= n)%nat -> no_nul s -> Forall lit_nn (fst (lex m s)).
Proof.
  intros n. revert s. induction n as [|n IH]; intros s m H Hs; destruct s as [|c s]; cbn in *; try lia; try constructor.
  inversion Hs as [|? ? Hc Hs']; subst.
  destruct (c =? 92).
  - destruct s as [|d s]; cbn in *; [constructor|]. inversion Hs' as [|? ? Hd Hs'']; subst.
    constructor; [exact Hd|]. apply IH; auto. lia.
  - assert (H' : (length s <= n)%nat) by lia.
    destruct m; repeat (match goal with |- context [if ?b then _ else _] => destruct b end);
      cbn; repeat constructor; auto.
Qed.

Lemma words_nn l : Forall lit_nn l -> forall w, no_nul w ->
  Forall (fun x => no_nul x /\ x <> []) (words_from w l).
Proof.
  induction 1 as [|i l Hi Hl IH]; intros w Hw; cbn.
  - destruct w; constructor; [split; [auto|discriminate]|constructor].
  - destruct i as [|c].
    + destruct w; [apply IH; constructor|]. constructor; [split; [auto|discriminate]|]. apply IH. constructor.
    + apply IH. apply Forall_app. split; auto.
Qed.

Lemma split_nn s : no_nul s -> Forall (fun x => no_nul x /\ x <> []) (split_words s).
Proof. intros H. apply words_nn; [apply (lex_nn s _ _ (le_n _) H)|constructor]. Qed.

Lemma enc_strings ws : Forall no_nul ws -> forall pre Y,
  Forall2 (string_at (pre ++ enc ws ++ Y)) (starts (length pre) ws) ws.
Proof.
  induction 1 as [|w ws Hw Hws IH]; intros pre Y; cbn [starts enc flat_map]; constructor.
  - split; auto. exists pre, (enc ws ++ Y). split; auto.
    rewrite <- !app_assoc. auto.
  - specialize (IH (pre ++ w ++ [0]) Y).
    replace (length pre + S (length w))%nat with (length (pre ++ w ++ [0])) by len.
    replace (pre ++ ((w ++ [0]) ++ flat_map (fun w => w ++ [0]) ws) ++ Y) with ((pre ++ w ++ [0]) ++ enc ws ++ Y); auto.
    rewrite <- !app_assoc. auto.
Qed.

Lemma tokenize_ok cap s x tail : no_nul s -> (length (split_words s) < cap)%nat ->
  exists b av, tokenize cap (s ++ 0 :: x :: tail) = Ok (b, av, split_error s) /\
    length b = length (s ++ 0 :: x :: tail) /\ skipn (length s + 2) b = tail /\
    length av = length (split_words s) /\
    (split_error s = None -> Forall2 (string_at b) av (split_words s)) /\
    (split_error s <> None -> skipn (length s + 1) b = x :: tail).
Proof.
  intros Hs Hcap. unfold tokenize.
  destruct (loop_ok cap (x :: tail) ltac:(discriminate) (S (length (s ++ 0 :: x :: tail))) s [] [] [] Plain) as (t & E & R);
    [len|auto|exact Hcap|].
  change (state [] [] [] s (x :: tail) Plain) with (Tk (s ++ 0 :: x :: tail) 0 0 true false false []) in E, R.
  rewrite E. cbn [bind]. exists (buf t), (argv t).
  destruct R as (R1 & R2 & R3 & R4 & R5). cbn [app enc flat_map buf] in *.
  split; [reflexivity|]. split; [exact R2|].
  assert (Hn : length (s ++ [0]) = (length s + 1)%nat) by len. rewrite Hn in *.
  split.
  { replace (length s + 2)%nat with (S (length s + 1)) by lia. rewrite R3.
    replace (s ++ 0 :: x :: tail) with ((s ++ [0; x]) ++ tail) by (rewrite <- app_assoc; auto).
    apply skipn_app_eq. len. }
  split; [rewrite R1; apply starts_length|].
  split.
  - intros He. destruct (R5 He) as [Y HY]. rewrite R1, HY. change 0%nat with (length (@nil Z)) at 1.
    apply (enc_strings (split_words s)) with (pre := []) (Y := 0 :: Y).
    eapply Forall_impl; [|apply split_nn; auto]. cbn. tauto.
  - intros He. rewrite R4; auto.
    replace (s ++ 0 :: x :: tail) with ((s ++ [0]) ++ x :: tail) by (rewrite <- app_assoc; auto).
    apply skipn_app_eq. len.
Qed.

(* --- C13 --- *)

Lemma lex_escape w r : lex Plain (escape_word w ++ r) =
  (map Lit w ++ fst (lex Plain r), snd (lex Plain r)).
Proof.
  induction w as [|c w IH]; [cbn; destruct (lex Plain r); auto|].
  change (escape_word (c :: w)) with (92 :: c :: escape_word w). cbn [app lex].
  change (92 =? 92) with true. cbn iota. rewrite IH. auto.
Qed.

Lemma lex_quoted w r : quotable w -> lex InApos (w ++ 39 :: r) =
  (map Lit w ++ fst (lex Plain r), snd (lex Plain r)).
Proof.
  induction 1 as [|c w [H1 H2] Hw IH]; cbn.
  - change (39 =? 92) with false. rewrite Z.eqb_refl. destruct (lex Plain r); auto.
  - destruct (Z.eqb_spec c 92); [tauto|]. destruct (Z.eqb_spec c 39); [tauto|]. rewrite IH. auto.
Qed.

Lemma words_lits w l : forall v, words_from v (map Lit w ++ l) = words_from (v ++ w) l.
Proof.
  induction w as [|c w IH]; intros v; cbn; [rewrite app_nil_r; auto|].
  rewrite IH, <- app_assoc. auto.
Qed.

(* [f] writes a word so that it is read as its literal characters. *)
Lemma join_split (f : list Z -> list Z) ws :
  (forall w r, In w ws -> lex Plain (f w ++ r) = (map Lit w ++ fst (lex Plain r), snd (lex Plain r))) ->
  Forall (fun w => w <> []) ws ->
  split_words (join_words (map f ws)) = ws /\ split_error (join_words (map f ws)) = None.
Proof.
  unfold split_words, split_error.
  induction ws as [|w ws IH]; intros Hf Hne; [split; auto|].
  inversion Hne as [|? ? Hw Hne']; subst.
  destruct ws as [|w2 ws].
  - cbn [map join_words]. rewrite <- (app_nil_r (f w)), Hf by (left; auto). cbn [lex fst snd].
    rewrite words_lits. cbn. destruct w; tauto.
  - change (map f (w :: w2 :: ws)) with (f w :: map f (w2 :: ws)).
    change (join_words (f w :: map f (w2 :: ws))) with (f w ++ 32 :: join_words (map f (w2 :: ws))).
    rewrite Hf by (left; auto).
    destruct IH as [IH1 IH2]; auto. { intros v r Hv. apply Hf. right; auto. }
    cbn [lex]. change (32 =? 92) with false. change (32 =? 32) with true. cbn iota. cbn [fst snd].
    rewrite words_lits. cbn [words_from]. rewrite IH1. destruct w; [tauto|]. split; auto.
Qed.

Lemma join_nn (f : list Z -> list Z) ws : Forall (fun w => no_nul (f w)) ws -> no_nul (join_words (map f ws)).
Proof.
  induction 1 as [|w ws Hw Hws IH]; [constructor|]. destruct ws as [|w2 ws]; [exact Hw|].
  change (map f (w :: w2 :: ws)) with (f w :: map f (w2 :: ws)).
  change (join_words (f w :: map f (w2 :: ws))) with (f w ++ 32 :: join_words (map f (w2 :: ws))).
  apply Forall_app. split; auto. constructor; [discriminate|auto].
Qed.

Lemma escape_nn w : no_nul w -> no_nul (escape_word w).
Proof. induction 1; cbn; [constructor|]. constructor; [discriminate|]. constructor; auto. Qed.

Lemma quote_nn w : no_nul w -> no_nul (quote_word w).
Proof.
  intros H. constructor; [discriminate|]. apply Forall_app. split; auto. constructor; [discriminate|constructor].
Qed.

Lemma tokenize_join f cap ws x tail :
  (forall w r, In w ws -> lex Plain (f w ++ r) = (map Lit w ++ fst (lex Plain r), snd (lex Plain r))) ->
  Forall (fun w => no_nul (f w)) ws -> Forall (fun w => w <> []) ws -> (length ws < cap)%nat ->
  exists b av, tokenize cap (join_words (map f ws) ++ 0 :: x :: tail) = Ok (b, av, None) /\
    Forall2 (string_at b) av ws.
Proof.
  intros Hf Hnn Hne Hcap. destruct (join_split f ws Hf Hne) as [E1 E2].
  destruct (tokenize_ok cap (join_words (map f ws)) x tail) as (b & av & E & _ & _ & _ & R & _);
    [apply join_nn; auto|rewrite E1; auto|].
  rewrite E2 in *. rewrite E1 in R. eauto.
Qed.

Lemma tokenize_escaped cap ws x tail : Forall (fun w => no_nul w /\ w <> []) ws -> (length ws < cap)%nat ->
  exists b av, tokenize cap (join_words (map escape_word ws) ++ 0 :: x :: tail) = Ok (b, av, None) /\
    Forall2 (string_at b) av ws.
Proof.
  intros H Hc. apply tokenize_join; auto.
  - intros w r _. apply lex_escape.
  - eapply Forall_impl; [|exact H]. cbn. intros w [Hw _]. apply escape_nn. auto.
  - eapply Forall_impl; [|exact H]. cbn. tauto.
Qed.

Lemma tokenize_quoted cap ws x tail : Forall (fun w => no_nul w /\ w <> [] /\ quotable w) ws -> (length ws < cap)%nat ->
  exists b av, tokenize cap (join_words (map quote_word ws) ++ 0 :: x :: tail) = Ok (b, av, None) /\
    Forall2 (string_at b) av ws.
Proof.
  intros H Hc. apply tokenize_join; auto.
  - intros w r Hw. unfold quote_word. rewrite Forall_forall in H. destruct (H w Hw) as (_ & _ & Hq).
    cbn [app lex]. change (39 =? 92) with false. change (39 =? 32) with false. change (39 =? 39) with true. cbn iota.
    rewrite <- app_assoc. cbn [app]. apply lex_quoted. auto.
  - eapply Forall_impl; [|exact H]. cbn. intros w [Hw _]. apply quote_nn. auto.
  - eapply Forall_impl; [|exact H]. cbn. tauto.
Qed.

(* --- C14 --- *)

Lemma shell_short s x tail : no_nul s -> (length s <= 81)%nat ->
  exists b av, tokenize shell_argv_slots (s ++ 0 :: x :: tail) = Ok (b, av, split_error s).
Proof.
  intros Hs Hl. pose proof (split_count s).
  destruct (tokenize_ok shell_argv_slots s x tail Hs) as (b & av & E & _); [unfold shell_argv_slots; lia|eauto].
Qed.

Definition many_words : list Z := flat_map (fun _ => [97; 32]) (seq 0 43).

Lemma shell_overflow : exists s, no_nul s /\ (length s < 127)%nat /\
  forall x tail, tokenize shell_argv_slots (s ++ 0 :: x :: tail) = Ub.
Proof.
  exists many_words.
  split; [repeat constructor; discriminate|]. split; [vm_compute; lia|].
  intros x tail. unfold tokenize.
  assert (E : exists k, length (many_words ++ 0 :: x :: tail) = (100 - 14 + k)%nat).
  { exists (length (0 :: x :: tail)). rewrite app_length. reflexivity. }
  destruct E as [k ->]. change (100 - 14 + k)%nat with (86 + k)%nat.
  reflexivity.
Qed.

(* --- C12 --- *)

Lemma tokenize_past_end : exists s, no_nul s /\ forall cap, tokenize cap (s ++ [0]) = Ub.
Proof.
  exists [97; 98]. split; [repeat constructor; discriminate|]. intros cap. destruct cap; reflexivity.
Qed.
