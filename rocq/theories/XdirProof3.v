(* Lemmas: a new file's entries, stored and loaded again, and their name. *)
From Verif Require Import Base Arr ArrLemmas LfnSpec FutfModel FutfSpec FutfProof LfnProof XdirModel XdirSpec XdirProof XdirProof2.
Open Scope Z_scope.

Definition le4 (x : Z) : list Z := [x mod 256; x / 256 mod 256; x / 256 / 256 mod 256; x / 256 / 256 / 256 mod 256].
Definition le8 (x : Z) : list Z := le4 x ++ le4 (x / 256 / 256 / 256 / 256).
Definition z4 : list Z := [0; 0; 0; 0].
Definition fent (cnt lo hi a : Z) (t : list Z) : list Z := [133; cnt; lo; hi; a; 0; 0; 0] ++ z4 ++ t ++ z4 ++ z4 ++ z4 ++ z4.
Definition sent (f l h0 h1 : Z) (n c : list Z) : list Z := [192; f; 0; l; h0; h1; 0; 0] ++ n ++ z4 ++ c ++ n.

Lemma wr_left (l T : list Z) i v : (i < length l)%nat -> wr (l ++ T) i v = Ok (set_at l i v ++ T).
Proof.
  intros H. unfold wr. replace (i <? length (l ++ T))%nat with true by (rewrite app_length; lia). f_equal.
  revert i H. induction l as [|x l IH]; intros [|i] H; cbn in *; try lia; auto. f_equal. apply IH. lia.
Qed.
Ltac w1 := rewrite wr_left by (cbn; lia); cbn [bind].

Definition nhash (ws : list Z) : Z := fold_left (fun s u => step (step s (upper u mod 256)) (upper u / 256)) ws 0.
Lemma hash_run ws : forall s, Forall unit_ok' ws -> name_sum (ws ++ [0]) s = Ok (fold_left (fun s u => step (step s (upper u mod 256)) (upper u / 256)) ws s).
Proof.
  induction ws as [|w ws IH]; intros s U; [reflexivity|]. inversion U as [|? ? Uw U']; subst. unfold unit_ok' in Uw. cbn [app name_sum fold_left].
  replace (w =? 0) with false by lia. destruct (upper_ok w ltac:(lia)) as (-> & _). cbn [bind]. rewrite !add_step. auto.
Qed.
Lemma hash_ok ws : Forall unit_ok' ws -> name_sum (ws ++ [0]) 0 = Ok (nhash ws).
Proof. apply hash_run. Qed.
Lemma hash_range ws : 0 <= nhash ws < 65536.
Proof.
  assert (A : forall s, 0 <= s < 65536 -> 0 <= fold_left (fun s u => step (step s (upper u mod 256)) (upper u / 256)) ws s < 65536); [|apply A; lia].
  induction ws as [|w ws IH]; intros s H; cbn [fold_left]; [exact H|]. apply IH, step_range.
Qed.
Lemma hash_same ws zs : same_name ws zs -> nhash ws = nhash zs.
Proof.
  unfold same_name, nhash. generalize 0. revert zs. induction ws as [|w ws IH]; intros [|z zs] s E; cbn in *; try discriminate; auto.
  injection E as -> E. auto.
Qed.

Definition N20 (ws : list Z) : list (list Z) := naments 20 ws.
Definition cnt (ws : list Z) : Z := Z.of_nat (length (N20 ws)) + 1.
Lemma N20_length ws : (1 <= length ws <= 255)%nat -> (1 <= length (N20 ws) <= 17)%nat /\ Z.of_nat (length (N20 ws)) = (Z.of_nat (length ws) + 14) / 15.
Proof. intros H. unfold N20. pose proof (naments_length 20 ws ltac:(lia)) as E. split; auto. rewrite <- (Nat2Z.id (length (naments 20 ws))), E. Z.to_euclidean_division_equations. lia. Qed.
Lemma N20_concat ws : length (concat (N20 ws)) = (32 * length (N20 ws))%nat.
Proof. apply concat32. eapply Forall_impl; [|apply naments_ok]. intros ? (? & _); auto. Qed.

Lemma create_ok b ws : length b = 608%nat -> Forall unit_ok' ws -> (1 <= length ws <= 255)%nat ->
  create_xdir b (ws ++ [0]) = Ok (fent (cnt ws) 0 0 0 z4 ++ sent 0 (Z.of_nat (length ws)) (nhash ws mod 256) (nhash ws / 256 mod 256) (z4 ++ z4) z4 ++
    concat (N20 ws) ++ skipn (64 + 32 * length (N20 ws)) b).
Proof.
  intros L U R. destruct (N20_length ws R) as (Nl & _). unfold create_xdir. replace (length b <? 64)%nat with false by lia.
  w1. w1. cbn [set_at repeat].
  match goal with |- context [fill_entries 20 (?d ++ ?r) _ _ _ _ _] => pose proof (entries_run 20 d r [] ws 1 0) as E end.
  assert (Lr : length (skipn 64 b) = 544%nat) by (rewrite skipn_length; lia).
  rewrite Lr in E. cbn [app length Nat.add] in E. specialize (E ltac:(lia) ltac:(lia) ltac:(unfold N20 in Nl; lia) eq_refl U ltac:(lia) ltac:(lia)).
  rewrite <- !app_comm_cons, app_nil_l. rewrite E. cbn [bind]. fold (N20 ws).
  match goal with |- context [wr ?l 35 _] => let d := constr:(firstn 64 l) in let d' := eval cbn [firstn] in d in
    replace l with (d' ++ concat (N20 ws) ++ skipn (32 * length (N20 ws)) (skipn 64 b)) by reflexivity end.
  w1. w1. rewrite hash_ok by auto. cbn [bind]. unfold st_word. w1. w1.
  rewrite Z.mod_small by lia. cbn [set_at]. rewrite skipn_add. unfold cnt. rewrite Nat2Z.inj_succ. reflexivity.
Qed.

Lemma st4_left x i : forall (l T : list Z), (i + 4 <= length l)%nat -> st_le 4 (l ++ T) i x = Ok (set_at (set_at (set_at (set_at l i (x mod 256)) (S i) (x / 256 mod 256)) (S (S i)) (x / 256 / 256 mod 256)) (S (S (S i))) (x / 256 / 256 / 256 mod 256) ++ T).
Proof. intros l T H. cbn [st_le]. do 4 (rewrite wr_left by (rewrite ?set_at_length; lia); cbn [bind]). reflexivity. Qed.

Lemma meta_ok c l h0 h1 m T :
  put_meta (fent c 0 0 0 z4 ++ sent 0 l h0 h1 (z4 ++ z4) z4 ++ T) m = Ok (fent c 0 0 (m_attr m) (le4 (m_time m)) ++ sent (m_flags m) l h0 h1 (le8 (m_size m)) (le4 (m_clust m)) ++ T).
Proof.
  rewrite app_assoc. unfold put_meta, fent, sent, z4. cbn [app]. cbn [st_le].
  match goal with |- context [wr ?l 4 _] => let d := constr:(firstn 64 l) in let d' := eval cbn [firstn] in d in
    replace l with (d' ++ T) by reflexivity end.
  repeat (w1; cbn [set_at]). rewrite Z.mod_0_l by lia. change (0 / 256) with 0. rewrite ?Z.mod_0_l by lia. change (0 / 256) with 0. change (0 mod 256) with 0. reflexivity.
Qed.
Lemma fent_length c lo hi a t : length t = 4%nat -> length (fent c lo hi a t) = 32%nat.
Proof. intros. unfold fent. rewrite !app_length, H. reflexivity. Qed.
Lemma sent_length f l h0 h1 n c : length n = 8%nat -> length c = 4%nat -> length (sent f l h0 h1 n c) = 32%nat.
Proof. intros E F. unfold sent. rewrite !app_length, E, F. reflexivity. Qed.

Lemma le_4 x : 0 <= x < 2 ^ 32 -> x mod 256 + 256 * (x / 256 mod 256 + 256 * (x / 256 / 256 mod 256 + 256 * (x / 256 / 256 / 256 mod 256 + 256 * 0))) = x.
Proof. intros. change (2 ^ 32) with 4294967296 in *. Z.to_euclidean_division_equations. lia. Qed.
Lemma le_n (x : Z) : x mod 256 + 256 * (x / 256) = x.
Proof. rewrite Z.add_comm. symmetry. apply Z.div_mod. lia. Qed.

Lemma store_run es : forall pre old post rest, Forall (fun e => length e = 32%nat) es -> length old = length es ->
  store_loop (length es) (pre ++ old ++ post) (length pre) (concat es ++ rest) = Ok (pre ++ es ++ post, true).
Proof.
  induction es as [|e es IH]; intros pre old post rest F L; destruct old as [|o old]; try discriminate; cbn [length store_loop]; auto.
  inversion F as [|? ? E F']; subst. cbn [concat]. rewrite <- app_assoc.
  replace (length (e ++ concat es ++ rest) <? 32)%nat with false by (rewrite app_length; lia).
  replace (length pre <? length (pre ++ (o :: old) ++ post))%nat with true by (rewrite !app_length; cbn [length]; lia).
  cbn [app]. rewrite set_at_app. rewrite firstn_app, E, Nat.sub_diag, firstn_O, app_nil_r, (firstn_all2 e) by lia. rewrite skipn_app_eq by auto.
  specialize (IH (pre ++ [e]) old post rest F'). rewrite <- !app_assoc in IH. cbn [app] in IH. rewrite app_length in IH. cbn [length] in *.
  replace (S (length pre)) with (length pre + 1)%nat by lia. apply IH. lia.
Qed.

(* --- the name ------------------------------------------------------------------------ *)
Lemma wbytes_nth l : forall j, (j < length l)%nat -> nth (2 * j) (wbytes l) 0 = nth j l 0 mod 256 /\ nth (S (2 * j)) (wbytes l) 0 = nth j l 0 / 256 mod 256.
Proof.
  induction l as [|w l IH]; intros [|j] H; cbn [length] in H; try lia; [split; reflexivity|].
  replace (2 * S j)%nat with (S (S (2 * j))) by lia. apply IH. lia.
Qed.
Lemma padn_nth m : forall ws j, (j < m)%nat -> nth j (padn m ws) 0 = nth j ws 0.
Proof. induction m as [|m IH]; intros [|w ws] [|j] H; cbn; try lia; auto. - rewrite IH by lia. now destruct j. - apply IH. lia. Qed.
Definition pos (j : nat) : nat := (32 * (j / 15) + 2 + 2 * (j mod 15))%nat.
Lemma unit_nth k : forall pre ws rest j, (length ws <= 15 * k)%nat -> (j < length ws)%nat -> Forall unit_ok' ws ->
  ld_word (pre ++ concat (naments k ws) ++ rest) (length pre + pos j) = Ok (nth j ws 0).
Proof.
  induction k as [|k IH]; intros pre ws rest j L J U; [lia|]. cbn [naments concat].
  destruct (Nat.lt_ge_cases j 15) as [H|H].
  - unfold pos. rewrite Nat.div_small, Nat.mod_small by lia.
    assert (Lx : length (pre ++ nament ws) = (length pre + 32)%nat) by (rewrite app_length, nament_length; auto).
    assert (A : forall X i, (i < 32)%nat -> rd (pre ++ (nament ws ++ X) ++ rest) (length pre + i) = Ok (at_ (nament ws) i)).
    { intros X i I. rewrite rd_at by (rewrite !app_length, nament_length; lia). f_equal. unfold at_.
      rewrite app_nth2 by lia. rewrite <- app_assoc, app_nth1 by (rewrite nament_length; lia). f_equal. lia. }
    unfold ld_word. replace (length pre + (32 * 0 + 2 + 2 * j))%nat with (length pre + S (S (2 * j)))%nat by lia.
    rewrite A by lia. cbn [bind]. replace (S (length pre + S (S (2 * j)))) with (length pre + S (S (S (2 * j))))%nat by lia. rewrite A by lia. cbn [bind].
    unfold at_, nament. cbn [nth]. destruct (wbytes_nth (padn 15 ws) j) as (-> & ->); [rewrite padn_length; lia|]. rewrite padn_nth by lia.
    assert (Un : unit_ok' (nth j ws 0)) by (rewrite Forall_forall in U; apply U, nth_In; auto). unfold unit_ok' in Un. f_equal.
    rewrite (Z.mod_small (nth j ws 0 / 256)) by (clear - Un; Z.to_euclidean_division_equations; lia). apply le_n.
  - destruct (skipn 15 ws) as [|z r] eqn:E.
    { assert (X : length (skipn 15 ws) = 0%nat) by now rewrite E. rewrite skipn_length in X. lia. }
    assert (X : length (skipn 15 ws) = length (z :: r)) by now rewrite E. rewrite skipn_length in X.
    specialize (IH (pre ++ nament ws) (z :: r) rest (j - 15)%nat).
    assert (Ew : ws = firstn 15 ws ++ z :: r) by (rewrite <- E; symmetry; apply firstn_skipn).
    rewrite <- !app_assoc in *. rewrite app_length, nament_length in IH.
    replace (length pre + pos j)%nat with (length pre + 32 + pos (j - 15))%nat.
    2:{ unfold pos. replace j with (j - 15 + 1 * 15)%nat at 3 4 by lia. rewrite Nat.div_add, Nat.mod_add by lia. lia. }
    rewrite IH; [|cbn [length] in *; lia|cbn [length] in *; lia|rewrite Ew in U; apply Forall_app in U; tauto].
    f_equal. rewrite Ew at 1. rewrite app_nth2; rewrite firstn_length; [f_equal; lia|lia].
Qed.

Lemma pos_next j di : (if di mod 32 =? 0 then S (S di) else di)%nat = (64 + pos j)%nat ->
  (if S (S (64 + pos j)) mod 32 =? 0 then S (S (S (S (64 + pos j)))) else S (S (64 + pos j)))%nat = (64 + pos (S j))%nat.
Proof.
  intros _. unfold pos. pose proof (Nat.div_mod j 15 ltac:(lia)) as D. pose proof (Nat.mod_upper_bound j 15 ltac:(lia)) as M.
  set (q := (j / 15)%nat) in *. set (r := (j mod 15)%nat) in *. clearbody q r.
  destruct (Nat.eq_dec r 14) as [-> | N].
  - replace (S (S (64 + (32 * q + 2 + 2 * 14))))%nat with (0 + (q + 3) * 32)%nat by lia. rewrite Nat.mod_add by lia. change (0 mod 32 =? 0)%nat with true. cbv iota.
    replace (S j) with (0 + (S q) * 15)%nat by lia. rewrite Nat.div_add, Nat.mod_add by lia. change (0 / 15)%nat with 0%nat. change (0 mod 15)%nat with 0%nat. lia.
  - replace (S (S (64 + (32 * q + 2 + 2 * r))))%nat with (4 + 2 * r + (q + 2) * 32)%nat by lia. rewrite Nat.mod_add by lia. rewrite Nat.mod_small by lia.
    replace (4 + 2 * r =? 0)%nat with false by lia.
    replace (S j) with (S r + q * 15)%nat by lia. rewrite Nat.div_add, Nat.mod_add by lia. rewrite Nat.div_small, Nat.mod_small by lia. lia.
Qed.

Lemma upper_pos c : unit_ok' c -> upper c <> 0.
Proof. unfold unit_ok'. intros H E. apply upper_zero in E; lia. Qed.
Lemma same_run b ws : (forall j, (j < length ws)%nat -> ld_word b (64 + pos j) = Ok (nth j ws 0)) -> Forall unit_ok' ws ->
  forall nc j di zs, (j + nc = length ws)%nat -> (if di mod 32 =? 0 then S (S di) else di)%nat = (64 + pos j)%nat -> Forall unit_ok' zs ->
  exists r, same_loop nc b di (zs ++ [0]) = Ok r /\ (r = true <-> same_name (skipn j ws) zs).
Proof.
  intros W U. induction nc as [|nc IH]; intros j di zs J D Uz; cbn [same_loop].
  - rewrite skipn_all2 by lia. destruct zs as [|z zs]; cbn [app].
    + eexists; split; [reflexivity|]. split; auto. reflexivity.
    + inversion Uz as [|? ? Q]; subst. unfold unit_ok' in Q. eexists; split; [reflexivity|]. unfold same_name. cbn. split; intros X; [lia|discriminate].
  - assert (Hj : (j < length ws)%nat) by lia. rewrite D.
    assert (Un : unit_ok' (nth j ws 0)) by (rewrite Forall_forall in U; apply U, nth_In; auto).
    assert (Sk : skipn j ws = nth j ws 0 :: skipn (S j) ws).
    { clear - Hj. revert j Hj. induction ws as [|w ws IH]; intros [|j] H; cbn in *; try lia; auto. apply IH. lia. }
    rewrite Sk. rewrite W by auto. cbn [bind]. destruct (upper_ok (nth j ws 0)) as (E1 & _); [unfold unit_ok' in Un; lia|].
    destruct zs as [|z zs]; cbn [app].
    + cbn [bind]. rewrite E1. cbn [bind]. destruct (upper_ok 0 ltac:(lia)) as (E2 & _). rewrite E2, upper_0. cbn [bind].
      destruct (Z.eqb_spec (upper (nth j ws 0)) 0) as [Q|Q]; [now apply upper_pos in Q|]. eexists; split; [reflexivity|]. unfold same_name. cbn. split; discriminate.
    + inversion Uz as [|? ? Q Uz']; subst. rewrite E1. cbn [bind]. destruct (upper_ok z) as (E2 & _); [unfold unit_ok' in Q; lia|]. rewrite E2. cbn [bind].
      destruct (Z.eqb_spec (upper (nth j ws 0)) (upper z)) as [X|X].
      * destruct (IH (S j) (S (S (64 + pos j))) zs) as (r & R1 & R2); auto; [lia|apply (pos_next j di); auto|].
        exists r. split; auto. rewrite R2. unfold same_name. cbn [map]. rewrite X. split; [intros ->; auto|congruence].
      * eexists; split; [reflexivity|]. unfold same_name. cbn [map]. split; [discriminate|congruence].
Qed.
