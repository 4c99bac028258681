(* Lemmas: damage, building and storing a set of entries. *)
From Verif Require Import Base Arr ArrLemmas LfnSpec FutfModel FutfSpec XdirModel XdirSpec XdirProof.
Open Scope Z_scope.

Lemma damage h s names h' s' names' p v :
  entry_ok h -> entry_ok s -> Forall entry_ok names -> entry_ok h' -> entry_ok s' -> Forall entry_ok names' -> length names' = length names ->
  good h s names -> byte_ok v -> p <> 1%nat -> (p < length (concat (h :: s :: names)))%nat -> v <> at_ (concat (h :: s :: names)) p ->
  concat (h' :: s' :: names') = set_at (concat (h :: s :: names)) p v -> ~ good h' s' names' /\ at_ h' 1 = at_ h 1.
Proof.
  intros (Lh & Bh) (Ls & Bs) F (Lh' & Bh') (Ls' & Bs') F' Ln G V P1 P N E.
  assert (X : forall i, (i < 32)%nat -> at_ h' i = at_ (set_at (concat (h :: s :: names)) p v) i).
  { intros i I. rewrite <- E. cbn [concat]. rewrite at_app; auto. clear - I Lh Lh'. lia. }
  assert (Y : forall i, (i < 32)%nat -> at_ h i = at_ (concat (h :: s :: names)) i).
  { intros i I. cbn [concat]. rewrite at_app; auto. clear - I Lh Lh'. lia. }
  assert (Lc : (64 <= length (concat (h :: s :: names)))%nat) by (cbn [concat]; rewrite !app_length; lia).
  assert (Fc : Forall byte_ok (concat (h :: s :: names))).
  { apply Forall_concat. repeat constructor; auto. eapply Forall_impl; [|exact F]. intros ? (_ & ?); auto. }
  pose proof (g_sum _ _ _ G) as S.
  set (blk := concat (h :: s :: names)) in *. clearbody blk.
  assert (Zo : forall i, i <> p -> at_ (set_at blk p v) i = at_ blk i).
  { intros i I. unfold at_. destruct (Nat.lt_ge_cases i (length blk)).
    - apply nth_error_nth. rewrite nth_error_set_other by auto. apply nth_error_nth'. auto.
    - rewrite !nth_overflow; auto. rewrite set_at_length. auto. }
  split; [|rewrite X, Y, Zo by (clear - P1; lia); auto].
  intros G'. pose proof (g_sum _ _ _ G') as S'. rewrite E in S'.
  rewrite !X in S' by lia. rewrite !Y in S by lia.
  assert (U : forall i, (i < 32)%nat -> byte_ok (at_ blk i)) by (intros; rewrite Forall_forall in Fc; apply Fc, nth_In; lia).
  destruct (Nat.eq_dec p 2) as [-> | N2]; [|destruct (Nat.eq_dec p 3) as [-> | N3]].
  - rewrite (Zo 3%nat) in S' by lia. assert (at_ (set_at blk 2 v) 2 = v) by (apply nth_error_nth, nth_error_set_same; lia).
    assert (checksum (set_at blk 2 v) = checksum blk); [|lia]. unfold checksum. rewrite skipn_set_at, firstn_set_at by lia. auto.
  - rewrite (Zo 2%nat) in S' by lia. assert (at_ (set_at blk 3 v) 3 = v) by (apply nth_error_nth, nth_error_set_same; lia).
    assert (checksum (set_at blk 3 v) = checksum blk); [|lia]. unfold checksum. rewrite skipn_set_at, firstn_set_at by lia. auto.
  - rewrite !Zo in S' by (clear - N2 N3; lia). apply (changed blk p v); auto; [lia|]. rewrite S, S'. auto.
Qed.

(* --- the name entries ------------------------------------------------------------- *)
Fixpoint padn (m : nat) (ws : list Z) : list Z := match m with O => [] | S m => match ws with [] => 0 :: padn m [] | w :: r => w :: padn m r end end.
Definition wbytes (l : list Z) : list Z := flat_map (fun w => [w mod 256; w / 256 mod 256]) l.
Definition nament (ws : list Z) : list Z := 193 :: 0 :: wbytes (padn 15 ws).
Fixpoint naments (k : nat) (ws : list Z) : list (list Z) :=
  match k with O => [] | S k => nament ws :: match skipn 15 ws with [] => [] | r => naments k r end end.

Lemma padn_length m : forall ws, length (padn m ws) = m.
Proof. induction m as [|m IH]; intros [|w ws]; cbn; auto. Qed.
Lemma wbytes_length l : length (wbytes l) = (2 * length l)%nat.
Proof. induction l as [|w l IH]; cbn [wbytes flat_map length app] in *; auto. fold (wbytes l). rewrite IH. lia. Qed.
Lemma nament_length ws : length (nament ws) = 32%nat.
Proof. unfold nament. cbn [length]. rewrite wbytes_length, padn_length. auto. Qed.
Lemma wbytes_byte l : Forall byte_ok (wbytes l).
Proof.
  induction l as [|w l IH]; cbn; auto. fold (wbytes l).
  constructor; [apply Z.mod_pos_bound; lia|]. constructor; [apply Z.mod_pos_bound; lia|auto].
Qed.
Lemma nament_ok ws : entry_ok (nament ws).
Proof. split; [apply nament_length|]. unfold nament. constructor; [unfold byte_ok; lia|]. constructor; [unfold byte_ok; lia|apply wbytes_byte]. Qed.
Lemma naments_ok k : forall ws, Forall entry_ok (naments k ws).
Proof. induction k as [|k IH]; intros ws; cbn [naments]; auto. constructor; [apply nament_ok|]. destruct (skipn 15 ws); auto. Qed.
Lemma naments_type k : forall ws, Forall (fun e => at_ e 0 = 193) (naments k ws).
Proof. induction k as [|k IH]; intros ws; cbn [naments]; auto. constructor; [reflexivity|]. destruct (skipn 15 ws); auto. Qed.
Lemma naments_length k : forall ws, (1 <= length ws <= 15 * k)%nat -> Z.of_nat (length (naments k ws)) = (Z.of_nat (length ws) + 14) / 15.
Proof.
  induction k as [|k IH]; intros ws H; [lia|]. cbn [naments length]. destruct (skipn 15 ws) as [|z r] eqn:E.
  - assert (length (skipn 15 ws) = 0%nat) by now rewrite E. rewrite skipn_length in *. cbn [length]. Z.to_euclidean_division_equations. lia.
  - assert (L : length (skipn 15 ws) = length (z :: r)) by now rewrite E. rewrite skipn_length in L.
    pose proof (IH (z :: r) ltac:(cbn [length] in *; lia)) as I. rewrite Nat2Z.inj_succ, I.
    replace (Z.of_nat (length ws) + 14) with (Z.of_nat (length (z :: r)) + 14 + 1 * 15) by (cbn [length] in *; lia). rewrite Z.div_add by lia. lia.
Qed.

Lemma st_word_app done x y rest i v : i = length done -> st_word (done ++ x :: y :: rest) i v = Ok (done ++ v mod 256 :: v / 256 mod 256 :: rest).
Proof.
  intros ->. unfold st_word. rewrite wr_app. cbn [bind].
  pose proof (wr_app (done ++ [v mod 256]) y rest (v / 256 mod 256)) as W. rewrite <- !app_assoc in W. cbn [app] in W. rewrite app_length in W. cbn [length] in W.
  replace (S (length done)) with (length done + 1)%nat by lia. exact W.
Qed.

Lemma fill_run m : forall fuel done rest lpre ws wc, (S m <= fuel)%nat -> (m < 15)%nat -> (2 * S m <= length rest)%nat ->
  ((length done + 2 * S m) mod 32 = 0)%nat -> Forall unit_ok' ws -> (length lpre + length ws <= 255)%nat -> (wc = 0 -> ws = []) ->
  exists wc', fill_name fuel (done ++ rest) (lpre ++ ws ++ [0]) (length done) (length lpre) wc =
    Ok (done ++ wbytes (padn (S m) ws) ++ skipn (2 * S m) rest, (length done + 2 * S m)%nat, (length lpre + (Nat.min (S m) (length ws)))%nat, wc') /\ (wc' = 0 -> skipn (S m) ws = []).
Proof.
  induction m as [|m IH]; intros fuel done rest lpre ws wc Fu M R D U N W; destruct fuel as [|fuel]; try lia;
    destruct rest as [|x [|y rest]]; cbn [length] in R; try lia; cbn [fill_name].
  - (* the last one *)
    assert (Hs : (if wc =? 0 then Ok (wc, length lpre) else c <- rd (lpre ++ ws ++ [0]) (length lpre) ;; Ok (c, if c =? 0 then length lpre else (S (length lpre) mod 256)%nat)) =
      Ok (hd 0 ws, (length lpre + Nat.min 1 (length ws))%nat)).
    { destruct ws as [|w ws].
      - destruct (Z.eqb_spec wc 0) as [-> | ]; cbn [hd length Nat.min]; [rewrite Nat.add_0_r; reflexivity|]. cbn [app]. rewrite rd_app. cbn [bind]. rewrite Z.eqb_refl, Nat.add_0_r. reflexivity.
      - destruct (Z.eqb_spec wc 0) as [-> | ]; [discriminate (W eq_refl)|]. cbn [app]. rewrite rd_app. cbn [bind hd length Nat.min].
        inversion U as [|? ? Uw]; subst. unfold unit_ok' in Uw. replace (w =? 0) with false by lia. rewrite (Nat.mod_small (S (length lpre)) 256) by (cbn [length] in N; lia). rewrite Nat.add_1_r. reflexivity. }
    rewrite Hs. cbn [bind]. rewrite st_word_app by auto. cbn [bind].
    replace (S (S (length done))) with (length done + 2 * 1)%nat by lia. rewrite D. cbn [Nat.eqb].
    exists (hd 0 ws). split.
    + destruct ws as [|w ws]; reflexivity.
    + destruct ws as [|w ws]; auto. cbn. inversion U as [|? ? Uw]; subst. unfold unit_ok' in Uw. lia.
  - assert (Nz : ((S (S (length done))) mod 32 =? 0)%nat = false).
    { apply Nat.eqb_neq. intros Q.
      apply Nat.mod_divides in Q; [|lia]. apply Nat.mod_divides in D; [|lia]. destruct Q as (q & Q), D as (d & D). lia. }
    pose proof (IH fuel (done ++ [hd 0 ws mod 256; hd 0 ws / 256 mod 256]) rest) as I. clear IH.
    destruct ws as [|w ws].
    + specialize (I lpre [] 0). destruct I as (wc' & I1 & I2); auto; try lia.
      { rewrite app_length. cbn [length]. etransitivity; [|exact D]. apply (f_equal (fun x => (x mod 32)%nat)). lia. }
      exists wc'. split; [|intros; reflexivity].
      assert (Hs : (if wc =? 0 then Ok (wc, length lpre) else c <- rd (lpre ++ [] ++ [0]) (length lpre) ;; Ok (c, if c =? 0 then length lpre else (S (length lpre) mod 256)%nat)) = Ok (0, length lpre)).
      { destruct (Z.eqb_spec wc 0) as [-> | ]; auto. cbn [app]. rewrite rd_app. reflexivity. }
      rewrite Hs. cbn [bind]. rewrite st_word_app by auto. cbn [bind]. rewrite Nz.
      cbn [hd] in I1. rewrite <- !app_assoc in I1. rewrite app_length in I1. cbn [length app] in I1.
      replace (S (S (length done))) with (length done + 2)%nat by lia. cbn [app]. rewrite I1. cbn [length Nat.min]. f_equal. f_equal. f_equal. f_equal.
      { f_equal. replace (2 * S (S m))%nat with (S (S (2 * S m))) by lia. reflexivity. }
      lia.
    + inversion U as [|? ? Uw U']; subst. unfold unit_ok' in Uw. specialize (I (lpre ++ [w]) ws w).
      destruct I as (wc' & I1 & I2); auto; try lia.
      { rewrite app_length. cbn [length]. etransitivity; [|exact D]. apply (f_equal (fun x => (x mod 32)%nat)). lia. } { rewrite app_length. cbn [length] in *. lia. }
      exists wc'. split; [|exact I2].
      destruct (Z.eqb_spec wc 0) as [-> | ]; [discriminate (W eq_refl)|]. cbn [app]. rewrite rd_app. cbn [bind].
      replace (w =? 0) with false by lia. rewrite (Nat.mod_small (S (length lpre)) 256) by (cbn [length] in N; lia). rewrite st_word_app by auto. cbn [bind]. rewrite Nz.
      cbn [hd] in I1. rewrite <- !app_assoc in I1. rewrite !app_length in I1. cbn [length app] in I1.
      replace (S (S (length done))) with (length done + 2)%nat by lia. replace (S (length lpre)) with (length lpre + 1)%nat by lia. rewrite I1.
      f_equal. f_equal. f_equal; [|cbn [length]; lia]. f_equal; [|lia]. f_equal. replace (2 * S (S m))%nat with (S (S (2 * S m))) by lia. reflexivity.
Qed.

Lemma entries_run k : forall done rest lpre ws wc nc, (length ws <= 15 * k)%nat -> (0 < k)%nat -> (32 * length (naments k ws) <= length rest)%nat ->
  (length done mod 32 = 0)%nat -> Forall unit_ok' ws -> (length lpre + length ws <= 255)%nat -> wc <> 0 ->
  fill_entries k (done ++ rest) (lpre ++ ws ++ [0]) (length done) (length lpre) nc wc =
    Ok (done ++ concat (naments k ws) ++ skipn (32 * length (naments k ws)) rest, (length lpre + length ws)%nat, (nc + length (naments k ws))%nat).
Proof.
  induction k as [|k IH]; intros done rest lpre ws wc nc H K R D U N W; [lia|]. cbn [fill_entries].
  cbn [naments length] in R. destruct rest as [|x [|y rest]]; cbn [length] in R; try lia.
  rewrite wr_app. cbn [bind]. pose proof (wr_app (done ++ [193]) y rest 0) as W1. rewrite <- !app_assoc in W1. cbn [app] in W1. rewrite app_length in W1. cbn [length] in W1.
  replace (S (length done)) with (length done + 1)%nat by lia. rewrite W1. cbn [bind].
  destruct (fill_run 14 16 (done ++ [193; 0]) rest lpre ws wc) as (wc' & F1 & F2); auto; try lia.
  { rewrite app_length. cbn [length]. replace (length done + 2 + 2 * 15)%nat with (length done + 1 * 32)%nat by lia. rewrite Nat.mod_add by lia. auto. }
  rewrite <- !app_assoc in F1. rewrite app_length in F1. cbn [length app] in F1. replace (S (length done + 1)) with (length done + 2)%nat by lia. rewrite F1. cbn [bind].
  cbn [naments]. destruct (skipn 15 ws) as [|z r] eqn:E.
  - assert (L : length (skipn 15 ws) = 0%nat) by now rewrite E. rewrite skipn_length in L.
    replace (Nat.min 15 (length ws)) with (length ws) by lia.
    replace (lpre ++ ws ++ [0]) with ((lpre ++ ws) ++ [0]) by now rewrite <- app_assoc. rewrite rd_app_at by now rewrite app_length. cbn [bind Z.eqb].
    rewrite Z.eqb_refl. cbn [concat length]. rewrite app_nil_r. f_equal. apply (f_equal2 pair); [|lia]. reflexivity.
  - assert (L : length (skipn 15 ws) = length (z :: r)) by now rewrite E. rewrite skipn_length in L. cbn [length] in L.
    assert (Ew : ws = firstn 15 ws ++ z :: r) by (rewrite <- E; symmetry; apply firstn_skipn).
    assert (Lf : length (firstn 15 ws) = 15%nat) by (rewrite firstn_length; lia).
    assert (Uz : Forall unit_ok' (z :: r)) by (rewrite Ew in U; apply Forall_app in U; tauto).
    replace (Nat.min 15 (length ws)) with 15%nat by lia.
    replace (lpre ++ ws ++ [0]) with ((lpre ++ firstn 15 ws) ++ (z :: r) ++ [0]).
    2:{ rewrite Ew at 2. now rewrite <- !app_assoc. }
    cbn [app]. rewrite rd_app_at by (rewrite app_length; lia). cbn [bind].
    assert (z =? 0 = false) as -> by (inversion Uz as [|? ? Q]; unfold unit_ok' in Q; lia).
    change (2 * 15)%nat with 30%nat.
    replace (length done + 2 + 30)%nat with (length (done ++ nament ws)) by (rewrite app_length, nament_length; lia).
    replace (length lpre + 15)%nat with (length (lpre ++ firstn 15 ws)) by (rewrite app_length; lia).
    replace (done ++ 193 :: 0 :: wbytes (padn 15 ws) ++ skipn 30 rest) with ((done ++ nament ws) ++ skipn 30 rest) by (unfold nament; rewrite <- app_assoc; reflexivity).
    change (z :: r ++ [0]) with ((z :: r) ++ [0]). rewrite IH; auto.
    + cbn [concat length]. f_equal. apply (f_equal2 pair); [|lia]. apply (f_equal2 pair); [|rewrite app_length; cbn [length]; lia].
      rewrite <- !app_assoc. rewrite skipn_add. replace (32 * S (length (naments k (z :: r))))%nat with (S (S (30 + 32 * length (naments k (z :: r))))) by lia. reflexivity.
    + cbn [length]. lia.
    + destruct k; [cbn [length] in *; lia|lia].
    + rewrite skipn_length. lia.
    + rewrite app_length, nament_length. replace (length done + 32)%nat with (length done + 1 * 32)%nat by lia. rewrite Nat.mod_add by lia. auto.
    + rewrite app_length. cbn [length]. lia.
    + intros Q. specialize (F2 Q). congruence.
Qed.
