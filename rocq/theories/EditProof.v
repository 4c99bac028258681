(* The line editor refines the abstract editor. *)
From Verif Require Import Base Arr ArrLemmas Utf8Model Utf8Spec Utf8Proof EditModel EditSpec EditKeys.
Open Scope Z_scope.

(* The step by action. *)
Definition astep (bl : Z) (prompt : list Z) (s : ed) (a : action) : res (ed * list Z * bool) :=
  let '(Ed buf pos nxt on prev) := s in
  match a with
  | Enter =>
    '(o, j) <- print_rest (S (length buf)) buf pos ;;
    Ok (Ed buf j nxt on prev, o, true)
  | DelLeft =>
    match pos with
    | O => Ok (s, [], false)
    | S p =>
        len <- strwlen buf ;;
        let o := if (pos <? len)%nat then bs ++ delete_character else [8; 32; 8] in
        buf' <- memmove buf p (S p) (udiff len p) ;;
        Ok (Ed buf' p nxt on prev, o, false)
    end
  | DelRight =>
    len <- strwlen buf ;;
    if (pos <? len)%nat then
      buf' <- memmove buf pos (S pos) (udiff len pos) ;;
      Ok (Ed buf' pos nxt on prev, delete_character, false)
    else Ok (s, [], false)
  | GoLeft =>
    match pos with
    | O => Ok (s, [], false)
    | S p => Ok (Ed buf p nxt on prev, bs, false)
    end
  | GoRight =>
    len <- strwlen buf ;;
    if (pos <? len)%nat then
      c <- rd buf pos ;; Ok (Ed buf (S pos) nxt on prev, putwch c, false)
    else Ok (s, [], false)
  | GoHome => Ok (Ed buf 0 nxt on prev, times pos bs, false)
  | GoEnd =>
    len <- strwlen buf ;;
    o <- print_to (len - pos) buf pos ;;
    Ok (Ed buf (Nat.max pos len) nxt on prev, o, false)
  | Kill =>
    '(buf', o) <- erase_line buf pos ;;
    Ok (Ed buf' 0 nxt on prev, o, false)
  | Redraw =>
    p <- puts prompt ;;
    t <- wputs buf ;;
    len <- strwlen buf ;;
    Ok (s, [13; 10] ++ p ++ t ++ times (len - pos) bs, false)
  | Older =>
    match on, prev with
    | false, Some pl =>
        '(nxt', _) <- strlcpy nxt buf CMDLINE ;;
        '(buf1, o) <- erase_line buf pos ;;
        '(buf2, _) <- strlcpy buf1 pl CMDLINE ;;
        t <- wputs buf2 ;;
        len <- strwlen buf2 ;;
        Ok (Ed buf2 len nxt' true prev, o ++ t, false)
    | _, _ => Ok (s, [], false)
    end
  | Newer =>
    match on, prev with
    | true, Some pl =>
        '(pl', _) <- strlcpy pl buf CMDLINE ;;
        '(buf1, o) <- erase_line buf pos ;;
        '(buf2, _) <- strlcpy buf1 nxt CMDLINE ;;
        t <- wputs buf2 ;;
        len <- strwlen buf2 ;;
        Ok (Ed buf2 len nxt false (Some pl'), o ++ t, false)
    | _, _ => Ok (s, [], false)
    end
  | Insert key =>
    len <- strwlen buf ;;
    if Z.of_nat len <? (bl - 1) mod 2 ^ 32 then
      let o := (if (pos <? len)%nat then insert_character else []) ++ putwch key in
      buf' <- memmove buf (S pos) pos (udiff (S len) pos) ;;
      buf'' <- wr buf' pos key ;;
      Ok (Ed buf'' (S pos) nxt on prev, o, false)
    else Ok (s, [], false)
  | Nothing => Ok (s, [], false)
  end.

Lemma step_action bl prompt s key : step bl prompt s key = astep bl prompt s (key_action key).
Proof.
  destruct s as [buf pos nxt on prev].
  destruct (in_dec Z.eq_dec key (map fst bindings)) as [Hin | Hn].
  - cbn in Hin. repeat (destruct Hin as [<- | Hin]; [reflexivity|]). destruct Hin.
  - cbn in Hn. unfold key_action, bindings. cbn [find fst].
    rewrite !(eqbF _ key) by tauto. unfold step.
    unfold K_LEFT, K_UP, K_RIGHT, K_DOWN, K_HOME, K_END, K_DEL.
    rewrite !(eqbF key) by (intros ->; apply Hn; tauto). cbn [orb].
    destruct (Z.ltb_spec key 32), (Z.leb_spec 32 key); auto; lia.
Qed.

(* --- arrays --- *)

Lemma memmove_delete b c r rest : forall n, n = S (length r) ->
  memmove (b ++ c :: r ++ 0 :: rest) (length b) (S (length b)) n = Ok (b ++ r ++ 0 :: 0 :: rest).
Proof.
  intros n ->. unfold memmove.
  replace ((length b + S (length r) <=? length (b ++ c :: r ++ 0%Z :: rest)) &&
           (S (length b) + S (length r) <=? length (b ++ c :: r ++ 0%Z :: rest)))%nat%bool with true
    by (symmetry; apply andb_true_iff; split; apply Nat.leb_le; len).
  f_equal. rewrite firstn_app, Nat.sub_diag, firstn_all, firstn_O, app_nil_r. f_equal.
  replace (b ++ c :: r ++ 0 :: rest) with ((b ++ [c]) ++ r ++ 0 :: rest) by (rewrite <- app_assoc; auto).
  rewrite skipn_app_eq by len.
  rewrite firstn_app, firstn_all2 by lia. replace (S (length r) - length r)%nat with 1%nat by lia. cbn [firstn].
  rewrite <- app_assoc. cbn [app]. f_equal. f_equal.
  replace ((b ++ [c]) ++ r ++ 0 :: rest) with ((b ++ c :: r) ++ 0 :: rest) by (rewrite <- !app_assoc; auto).
  apply skipn_app_eq. len.
Qed.

Lemma memmove_insert b r x rest : forall n, n = S (length r) ->
  exists y, memmove (b ++ r ++ 0 :: x :: rest) (S (length b)) (length b) n = Ok (b ++ y :: r ++ 0 :: rest).
Proof.
  intros n ->. unfold memmove.
  replace ((S (length b) + S (length r) <=? length (b ++ r ++ 0%Z :: x :: rest)) &&
           (length b + S (length r) <=? length (b ++ r ++ 0%Z :: x :: rest)))%nat%bool with true
    by (symmetry; apply andb_true_iff; split; apply Nat.leb_le; len).
  assert (exists y r', r ++ 0 :: x :: rest = y :: r') as (y & r' & E) by (destruct r; cbn; eauto).
  exists y. f_equal.
  assert (E1 : firstn (S (length b)) (b ++ r ++ 0 :: x :: rest) = b ++ [y]).
  { rewrite E, firstn_app, firstn_all2 by lia. replace (S (length b) - length b)%nat with 1%nat by lia. auto. }
  rewrite E1, <- app_assoc. cbn [app]. do 2 f_equal.
  rewrite skipn_app_eq by auto.
  rewrite firstn_app, firstn_all2 by lia. replace (S (length r) - length r)%nat with 1%nat by lia. cbn [firstn].
  rewrite <- app_assoc. cbn [app]. do 2 f_equal.
  replace (b ++ r ++ 0 :: x :: rest) with ((b ++ r ++ [0; x]) ++ rest) by (rewrite <- !app_assoc; auto).
  apply skipn_app_eq. len.
Qed.

Lemma udiff_ok a b : (b <= a)%nat -> Z.of_nat a < 2 ^ 32 -> udiff a b = (a - b)%nat.
Proof. intros H1 H2. unfold udiff. rewrite Z.mod_small by lia. lia. Qed.

Lemma times_bs n : times n bs = utf8 (repeat 8 n).
Proof. induction n as [|n IH]; auto. cbn [times repeat]. change (utf8 (8 :: repeat 8 n)) with (8 :: utf8 (repeat 8 n)). rewrite <- IH. auto. Qed.

Lemma print_rest_ok r tail : Forall wide r -> forall fuel b, (length r < fuel)%nat ->
  print_rest fuel (b ++ r ++ 0 :: tail) (length b) = Ok (utf8 r, (length b + length r)%nat).
Proof.
  induction 1 as [|c r Hc Hr IH]; intros fuel b Hf; (destruct fuel as [|fuel]; [cbn in Hf; lia|]); cbn [print_rest app].
  - rewrite rd_app. cbn [bind]. rewrite Z.eqb_refl. do 2 f_equal. cbn. lia.
  - rewrite rd_app. cbn [bind]. rewrite eqbF by (unfold wide in Hc; lia).
    specialize (IH fuel (b ++ [c])). rewrite <- app_assoc in IH. cbn [app length] in *.
    replace (S (length b)) with (length (b ++ [c])) by len. rewrite IH by lia. cbn [bind].
    destruct (wide_facts c Hc) as [-> _]. change (utf8 (c :: r)) with (utf8_char c ++ utf8 r). do 2 f_equal. len.
Qed.

Lemma print_to_ok r tail : Forall wide r -> forall b,
  print_to (length r) (b ++ r ++ 0 :: tail) (length b) = Ok (utf8 r).
Proof.
  induction 1 as [|c r Hc Hr IH]; intros b; cbn [print_to length app]; auto.
  rewrite rd_app. cbn [bind].
  specialize (IH (b ++ [c])). rewrite <- app_assoc in IH. cbn [app length] in *.
  replace (S (length b)) with (length (b ++ [c])) by len. rewrite IH. cbn [bind].
  destruct (wide_facts c Hc) as [-> _]. auto.
Qed.

(* --- the refinement --- *)

Definition R (n : nat) (s : ed) (z : zip) : Prop :=
  holds (e_buf s) (text z) /\ length (e_buf s) = n /\ e_pos s = length (before z) /\ e_on s = older z /\
  length (e_next s) = 128%nat /\ (older z = true -> holds (e_next s) (saved z)) /\
  Forall wide (before z) /\ Forall wide (after z) /\ Forall wide (saved z) /\ (length (saved z) <= 127)%nat /\
  hist_rel (e_prev s) (history z) n.

(* Characters sent to the console. *)
Definition zout (cap : nat) (prompt : list Z) (z : zip) (a : action) : list Z :=
  let '(Zip b r s o h) := z in
  let erase := repeat 8 (length b) ++ (match b ++ r with [] => [] | _ => [27; 91; 75] end) in
  match a with
  | Insert c => if (length b + length r <? cap)%nat then (match r with [] => [] | _ => [27; 91; 64] end) ++ [c] else []
  | Enter | GoEnd => r
  | DelLeft => match b with [] => [] | _ => match r with [] => [8; 32; 8] | _ => [8; 27; 91; 80] end end
  | DelRight => match r with [] => [] | _ => [27; 91; 80] end
  | GoLeft => match b with [] => [] | _ => [8] end
  | GoRight => match r with [] => [] | c :: _ => [c] end
  | GoHome => repeat 8 (length b)
  | Kill => erase
  | Redraw => [13; 10] ++ prompt ++ (b ++ r) ++ repeat 8 (length r)
  | Older => match o, h with false, Some t => erase ++ cut t | _, _ => [] end
  | Newer => match o, h with true, Some _ => erase ++ s | _, _ => [] end
  | Nothing => []
  end.

Definition is_enter (a : action) : bool := match a with Enter => true | _ => false end.

Lemma len_text b r rest : Forall wide b -> Forall wide r -> strwlen (b ++ r ++ 0 :: rest) = Ok (length b + length r)%nat.
Proof.
  intros Hb Hr. rewrite app_assoc, strwlen_text; [f_equal; len|]. apply wide_nz. apply Forall_app. auto.
Qed.

Lemma erase_ok b r rest : Forall wide b -> Forall wide r ->
  exists rest', erase_line (b ++ r ++ 0 :: rest) (length b) =
    Ok (0 :: rest', utf8 (repeat 8 (length b) ++ (match b ++ r with [] => [] | _ => [27; 91; 75] end))) /\
    length (0 :: rest') = length (b ++ r ++ 0 :: rest).
Proof.
  intros Hb Hr. unfold erase_line. rewrite times_bs. rewrite app_assoc.
  destruct (b ++ r) as [|c t] eqn:E; cbn [app].
  - exists rest. split; auto. unfold rd. cbn [nth_error bind]. rewrite Z.eqb_refl. rewrite app_nil_r. auto.
  - exists (t ++ 0 :: rest). split; [|cbn; auto]. unfold rd. cbn [nth_error bind].
    assert (H : Forall wide (c :: t)) by (rewrite <- E; apply Forall_app; auto). inversion H; subst.
    rewrite eqbF by (unfold wide in *; lia). unfold wr. cbn [length Nat.ltb Nat.leb set_at bind].
    rewrite utf8_app. auto.
Qed.

Lemma cut_min t : firstn (Nat.min (length t) 127) t = cut t.
Proof.
  unfold cut. destruct (le_lt_dec (length t) 127).
  - rewrite Nat.min_l by lia. rewrite !firstn_all2 by lia. auto.
  - rewrite Nat.min_r by lia. auto.
Qed.

Lemma cut_len t : length (cut t) = Nat.min (length t) 127.
Proof. unfold cut. rewrite firstn_length. lia. Qed.

(* strlcpy with the fixed count of the history copies. *)
Lemma strlcpy_cut dst t tail : Forall wide t -> (128 <= length dst)%nat ->
  exists rest, strlcpy dst (t ++ 0 :: tail) CMDLINE = Ok (cut t ++ 0 :: rest, length t) /\ length (cut t ++ 0 :: rest) = length dst.
Proof.
  intros Ht Hd. unfold CMDLINE. rewrite strlcpy_ok by (auto; apply wide_nz; auto).
  change ((128 =? 0)%nat) with false. change (pred 128) with 127%nat. cbv zeta iota. rewrite cut_min.
  eexists. split; [reflexivity|]. rewrite app_length. cbn [length]. rewrite skipn_length, cut_len. lia.
Qed.

Lemma wputs_len t tail : Forall wide t ->
  wputs (t ++ 0 :: tail) = Ok (utf8 t) /\ strwlen (t ++ 0 :: tail) = Ok (length t).
Proof. intros H. split; [apply wputs_text; auto | apply strwlen_text, wide_nz; auto]. Qed.

Lemma cut_wide t : Forall wide t -> Forall wide (cut t).
Proof. apply Forall_firstn. Qed.

Lemma drop_last_app b c : drop_last (b ++ [c]) = b.
Proof. unfold drop_last. rewrite rev_app_distr. cbn [app rev tl]. apply rev_involutive. Qed.

Lemma pos_lt (b r : list Z) : (length b <? length b + length r)%nat = match r with [] => false | _ => true end.
Proof. destruct (Nat.ltb_spec (length b) (length b + length r)); destruct r; cbn [length] in *; auto; lia. Qed.

Lemma exists_last_or_nil (b : list Z) : b = [] \/ exists b' c, b = b' ++ [c].
Proof. destruct (rev b) as [|c b'] eqn:E.
  - left. apply (f_equal (@rev Z)) in E. rewrite rev_involutive in E. auto.
  - right. exists (rev b'), c. apply (f_equal (@rev Z)) in E. rewrite rev_involutive in E. auto.
Qed.

Ltac wides := repeat (rewrite Forall_app in * || rewrite Forall_cons_iff in * ); intuition auto.

Lemma R_intro n buf pos nxt on prev b r sv o h :
  holds buf (b ++ r) -> length buf = n -> pos = length b -> on = o ->
  length nxt = 128%nat -> (o = true -> holds nxt sv) ->
  Forall wide b -> Forall wide r -> Forall wide sv -> (length sv <= 127)%nat -> hist_rel prev h n ->
  R n (Ed buf pos nxt on prev) (Zip b r sv o h).
Proof. unfold R, text. cbn [e_buf e_pos e_next e_on e_prev before after saved older history]. intuition. Qed.

Lemma out_eq (s : ed) (o o' : list Z) (f : bool) : o = o' -> Ok (s, o, f) = Ok (s, o', f).
Proof. intros ->. auto. Qed.

Lemma astep_ok n cap pw ptail s z a :
  R n s z -> Forall wide pw -> (S cap <= n)%nat -> Z.of_nat n < 2 ^ 32 ->
  (match a with Insert c => wide c | _ => True end) ->
  exists s', astep (Z.of_nat (S cap)) (utf8 pw ++ 0 :: ptail) s a = Ok (s', utf8 (zout cap pw z a), is_enter a) /\
    R n s' (zstep cap z a).
Proof.
  destruct s as [buf pos nxt on prev], z as [b r sv o h].
  intros (HB & Hn & Hp & Ho & Hnx & Hsv & Wb & Wr & Ws & Ls & Hh) Hpw Hcap H32 Ha. unfold text in HB.
  cbn [e_buf e_pos e_next e_on e_prev before after saved older history] in *.
  destruct HB as [rest HB]. rewrite <- app_assoc in HB.
  assert (Hlt : strwlen buf = Ok (length b + length r)%nat) by (rewrite HB; apply len_text; auto).
  assert (Hln : (length b + length r < n)%nat) by (rewrite <- Hn, HB; len).
  assert (Same : R n (Ed buf pos nxt on prev) (Zip b r sv o h)).
  { apply R_intro; auto. exists rest. rewrite <- app_assoc. auto. }
  destruct a as [c| | | | | | | | | | | | ]; cbn [astep zstep zout is_enter].
  - (* Insert *)
    rewrite Hlt. cbn [bind]. rewrite Z.mod_small by lia.
    destruct (Nat.ltb_spec (length b + length r) cap) as [Hc | Hc];
      destruct (Z.ltb_spec (Z.of_nat (length b + length r)) (Z.of_nat (S cap) - 1)); try lia; [|eauto].
    destruct rest as [|x rest]; [exfalso; rewrite HB in Hn; len|].
    rewrite udiff_ok by (subst; lia). rewrite HB, Hp.
    destruct (memmove_insert b r x rest (S (length b + length r) - length b)%nat) as [y Ey]; [lia|].
    rewrite Ey. cbn [bind]. rewrite wr_app. cbn [bind]. rewrite pos_lt.
    eexists. split; [apply out_eq|].
    + rewrite utf8_app. destruct (wide_facts c Ha) as [-> _]. unfold utf8. cbn [flat_map]. rewrite app_nil_r. destruct r; auto.
    + apply R_intro; auto.
      * exists rest. rewrite <- !app_assoc. auto.
      * rewrite <- Hn, HB. len.
      * len.
      * wides.
  - (* Enter *)
    rewrite HB, Hp. rewrite print_rest_ok by (auto; len). cbn [bind]. eexists. split; [reflexivity|].
    apply R_intro; auto.
    + exists rest. rewrite app_nil_r, <- app_assoc. auto.
    + rewrite <- HB. auto.
    + len.
    + wides.
  - (* DelLeft *)
    destruct (exists_last_or_nil b) as [-> | [b' [c ->]]].
    + cbn [length] in Hp. subst pos. cbn [drop_last rev tl]. eauto.
    + rewrite drop_last_app. destruct pos as [|p]; [len|]. assert (p = length b') by len. subst p.
      rewrite Hlt. cbn [bind]. rewrite udiff_ok by (subst; len).
      rewrite HB, <- app_assoc. cbn [app]. rewrite memmove_delete by len. cbn [bind].
      eexists. split; [apply out_eq|apply R_intro; auto].
      * rewrite Hp, pos_lt. destruct (b' ++ [c]) eqn:E; [apply (f_equal (@length Z)) in E; len|].
        destruct r; auto.
      * exists (0 :: rest). rewrite <- app_assoc. auto.
      * rewrite <- Hn, HB. len.
      * wides.
  - (* DelRight *)
    rewrite Hlt. cbn [bind]. rewrite Hp, pos_lt. destruct r as [|c r].
    + eexists. split; [reflexivity|]. apply R_intro; auto. exists rest. rewrite <- app_assoc. auto.
    + rewrite udiff_ok by (subst; len). rewrite HB. cbn [app]. rewrite memmove_delete by len. cbn [bind tl].
      eexists. split; [reflexivity|]. apply R_intro; auto.
      * exists (0 :: rest). rewrite <- app_assoc. auto.
      * rewrite <- Hn, HB. len.
      * wides.
  - (* GoLeft *)
    destruct (exists_last_or_nil b) as [-> | [b' [c ->]]].
    + cbn [length] in Hp. subst pos. cbn [rev]. eauto.
    + rewrite drop_last_app, rev_app_distr. cbn [rev app]. destruct pos as [|p]; [len|]. assert (p = length b') by len. subst p.
      eexists. split; [apply out_eq|apply R_intro; auto].
      * destruct (b' ++ [c]) eqn:E; [apply (f_equal (@length Z)) in E; len|]. auto.
      * exists rest. rewrite HB, <- !app_assoc. auto.
      * wides.
      * wides.
  - (* GoRight *)
    rewrite Hlt. cbn [bind]. rewrite Hp, pos_lt. destruct r as [|c r].
    + eexists. split; [reflexivity|]. apply R_intro; auto. exists rest. rewrite <- app_assoc. auto.
    + rewrite HB. cbn [app]. rewrite rd_app. cbn [bind]. inversion Wr; subst.
      eexists. split; [apply out_eq|apply R_intro; auto].
      * destruct (wide_facts c) as [-> _]; auto. unfold utf8. cbn [flat_map]. rewrite app_nil_r. auto.
      * exists rest. rewrite <- !app_assoc. auto.
      * len.
      * wides.
  - (* GoHome *)
    rewrite times_bs, Hp. eexists. split; [reflexivity|]. apply R_intro; auto.
    + exists rest. cbn [app]. rewrite HB, <- app_assoc. auto.
    + wides.
  - (* GoEnd *)
    rewrite Hlt. cbn [bind]. rewrite HB, Hp. replace (length b + length r - length b)%nat with (length r) by lia.
    rewrite print_to_ok by auto. cbn [bind]. eexists. split; [reflexivity|]. apply R_intro; auto.
    + exists rest. rewrite app_nil_r, <- app_assoc. auto.
    + rewrite <- HB. auto.
    + len.
    + wides.
  - (* Kill *)
    rewrite HB, Hp. destruct (erase_ok b r rest) as (rest' & E & El); auto. rewrite E. cbn [bind].
    eexists. split; [reflexivity|]. apply R_intro; auto.
    + exists rest'. auto.
    + rewrite El, <- HB. auto.
  - (* Redraw *)
    rewrite puts_text by auto. cbn [bind]. rewrite Hlt, HB, Hp, app_assoc, wputs_text by wides. cbn [bind].
    replace (length b + length r - length b)%nat with (length r) by lia. rewrite times_bs.
    eexists. split; [apply out_eq|apply R_intro; auto].
    + rewrite !utf8_app. auto.
    + exists rest. auto.
    + rewrite <- Hn, HB. len.
  - (* Older *)
    rewrite Ho. destruct o; [rewrite Ho in Same; eauto|]. destruct prev as [pl|], h as [t|]; cbn [hist_rel] in Hh; try tauto;
      [|rewrite Ho in Same; eauto].
    destruct Hh as ((ptl & Hpl) & Wt & Lp & Ln).
    rewrite HB, app_assoc. destruct (strlcpy_cut nxt (b ++ r) rest) as (nr & En & El); [wides|lia|]. rewrite En. cbn [bind].
    rewrite <- app_assoc, Hp. destruct (erase_ok b r rest) as (rest' & E & El'); auto. rewrite E. cbn [bind].
    rewrite Hpl. destruct (strlcpy_cut (0 :: rest') t ptl) as (br & Eb & Elb); [auto|rewrite El', <- HB; lia|]. rewrite Eb. cbn [bind].
    destruct (wputs_len (cut t) br (cut_wide t Wt)) as [-> ->]. cbn [bind].
    eexists. split; [apply out_eq|apply R_intro; auto].
    + rewrite !utf8_app. auto.
    + exists br. rewrite app_nil_r. auto.
    + rewrite Elb, El', <- HB. auto.
    + rewrite El. auto.
    + intros _. exists nr. auto.
    + apply cut_wide. auto.
    + apply cut_wide. wides.
    + rewrite cut_len. lia.
    + cbn [hist_rel]. split; [exists ptl; auto|]. split; [auto|]. split; [rewrite <- Hpl; auto|auto].
  - (* Newer *)
    rewrite Ho. destruct o; [|rewrite Ho in Same; eauto]. destruct prev as [pl|], h as [t|]; cbn [hist_rel] in Hh; try tauto;
      [|rewrite Ho in Same; eauto].
    destruct Hh as ((ptl & Hpl) & Wt & Lp & Ln). destruct (Hsv eq_refl) as [ntl Hnt].
    rewrite HB, app_assoc. destruct (strlcpy_cut pl (b ++ r) rest) as (nr & En & El); [wides|lia|]. rewrite En. cbn [bind].
    rewrite <- app_assoc, Hp. destruct (erase_ok b r rest) as (rest' & E & El'); auto. rewrite E. cbn [bind].
    rewrite Hnt. destruct (strlcpy_cut (0 :: rest') sv ntl) as (br & Eb & Elb); [auto|rewrite El', <- HB; lia|]. rewrite Eb. cbn [bind].
    assert (Ecut : cut sv = sv) by (unfold cut; apply firstn_all2; lia). rewrite Ecut in *.
    destruct (wputs_len sv br Ws) as [-> ->]. cbn [bind].
    eexists. split; [apply out_eq|apply R_intro; auto].
    + rewrite !utf8_app. auto.
    + exists br. rewrite app_nil_r. auto.
    + rewrite Elb, El', <- HB. auto.
    + rewrite <- Hnt. auto.
    + discriminate.
    + cbn [hist_rel]. split; [exists nr; auto|]. split; [apply cut_wide; wides|]. split; [rewrite El; auto|auto].
  - (* Nothing *) eauto.
Qed.

Fixpoint zouts (cap : nat) (pw : list Z) (z : zip) (keys : list Z) : list Z :=
  match keys with
  | [] => []
  | k :: ks =>
      let a := key_action k in
      if is_enter a then zout cap pw z a else zout cap pw z a ++ zouts cap pw (zstep cap z a) ks
  end.

Lemma zrun_cons cap z k ks : zrun cap z (k :: ks) =
  let a := key_action k in if is_enter a then (zstep cap z a, true) else zrun cap (zstep cap z a) ks.
Proof. cbn [zrun]. destruct (key_action k); reflexivity. Qed.

Lemma key_action_insert k c : key_action k = Insert c -> c = k /\ 32 <= k.
Proof.
  unfold key_action. destruct (find _ bindings) as [[x a]|] eqn:E.
  - apply find_some in E. destruct E as [E1 E2]. cbn in E1. intros ->.
    repeat (destruct E1 as [E1 | E1]; [discriminate|]). destruct E1.
  - destruct (Z.ltb_spec k 32); [discriminate|]. intros [= ->]. auto.
Qed.

Lemma keys_ok cap n pw ptail : Forall wide pw -> (S cap <= n)%nat -> Z.of_nat n < 2 ^ 32 ->
  forall keys s z, Forall (fun k => 0 <= k < 65536) keys -> R n s z ->
  exists s' fin, keys_loop (Z.of_nat (S cap)) (utf8 pw ++ 0 :: ptail) s keys = Ok (s', utf8 (zouts cap pw z keys), fin) /\
    snd (zrun cap z keys) = fin /\ R n s' (fst (zrun cap z keys)).
Proof.
  intros Hpw Hc H32. induction keys as [|k ks IH]; intros s z Hk HR.
  - exists s, false. cbn. auto.
  - inversion Hk as [|? ? Hk1 Hk2]; subst. rewrite zrun_cons. cbn [keys_loop zouts]. rewrite step_action.
    destruct (astep_ok n cap pw ptail s z (key_action k)) as (s' & E & HR'); auto.
    { destruct (key_action k) eqn:E; auto. apply key_action_insert in E. unfold wide. lia. }
    rewrite E. cbn [bind]. destruct (is_enter (key_action k)).
    + exists s', true. auto.
    + destruct (IH s' (zstep cap z (key_action k)) Hk2 HR') as (s'' & fin & E' & H1 & H2). rewrite E'. cbn [bind].
      exists s'', fin. rewrite utf8_app. auto.
Qed.

Lemma start_ok n buf clear pw ptail junk prev h t0 : Forall wide pw -> Forall wide t0 ->
  (if clear : bool then t0 = [] /\ buf <> [] else holds buf t0) -> length buf = n -> length junk = 128%nat ->
  hist_rel prev h n ->
  exists s, start buf clear (utf8 pw ++ 0 :: ptail) junk prev = Ok (s, utf8 (pw ++ t0)) /\ R n s (zstart t0 h).
Proof.
  intros Hpw Ht Hb Hn Hj Hh. unfold start. rewrite puts_text by auto. cbn [bind]. destruct clear.
  - destruct Hb as [-> Hb]. destruct buf as [|x buf]; [tauto|]. unfold wr. cbn [length Nat.ltb Nat.leb set_at bind].
    exists (Ed (0 :: buf) 0 junk false prev). split; [|apply R_intro; auto].
    + cbn [strwlen]. rewrite Z.eqb_refl. cbn [bind]. rewrite !app_nil_r. auto.
    + exists buf. auto.
    + discriminate.
    + cbn. lia.
  - destruct Hb as [rest ->]. cbn [bind]. destruct (wputs_len t0 rest Ht) as [-> ->]. cbn [bind].
    eexists. split; [rewrite <- utf8_app; reflexivity|]. apply R_intro; auto.
    + exists rest. rewrite app_nil_r. auto.
    + discriminate.
    + cbn. lia.
Qed.

Lemma editline_ok n cap buf clear pw ptail junk prev h t0 keys : Forall wide pw -> Forall wide t0 ->
  (if clear : bool then t0 = [] /\ buf <> [] else holds buf t0) -> length buf = n -> length junk = 128%nat ->
  hist_rel prev h n -> (S cap <= n)%nat -> Z.of_nat n < 2 ^ 32 -> Forall (fun k => 0 <= k < 65536) keys ->
  exists s, editline buf (Z.of_nat (S cap)) clear (utf8 pw ++ 0 :: ptail) junk prev keys =
      Ok (s, utf8 (pw ++ t0 ++ zouts cap pw (zstart t0 h) keys), snd (zrun cap (zstart t0 h) keys)) /\
    R n s (fst (zrun cap (zstart t0 h) keys)).
Proof.
  intros Hpw Ht Hb Hn Hj Hh Hc H32 Hk. unfold editline.
  destruct (start_ok n buf clear pw ptail junk prev h t0) as (s & E & HR); auto. rewrite E. cbn [bind].
  destruct (keys_ok cap n pw ptail Hpw Hc H32 keys s _ Hk HR) as (s' & fin & E' & Hf & HR'). rewrite E'. cbn [bind].
  exists s'. split; auto. rewrite Hf. do 3 f_equal. rewrite !utf8_app, <- app_assoc. auto.
Qed.

(* --- the terminal --- *)

Lemma trun_app t a b : trun t (a ++ b) = trun (trun t a) b.
Proof. apply fold_left_app. Qed.

Lemma put_app l : forall r c, put (l ++ r) (length l) c = l ++ c :: tl r.
Proof. induction l as [|x l IH]; intros r c; cbn; [destruct r; auto|]. f_equal. apply IH. Qed.

Lemma trun_text w : Forall printable w -> forall l r,
  trun (Term (l ++ r) (length l) Ground) w = Term (l ++ w ++ skipn (length w) r) (length l + length w) Ground.
Proof.
  induction 1 as [|c w Hc Hw IH]; intros l r.
  - cbn. f_equal. lia.
  - unfold printable in Hc. cbn [trun fold_left tstep]. rewrite !eqbF by lia. destruct (Z.ltb_spec c 32); [lia|].
    rewrite put_app. specialize (IH (l ++ [c]) (tl r)). rewrite <- app_assoc in IH. cbn [app] in IH.
    replace (S (length l)) with (length (l ++ [c])) by len. unfold trun in IH. rewrite IH. f_equal.
    + rewrite <- app_assoc. cbn [app]. do 3 f_equal. destruct r; cbn [tl length skipn]; auto. destruct (length w); auto.
    + len.
Qed.

Lemma trun_back k : forall l n, trun (Term l n Ground) (repeat 8 k) = Term l (n - k) Ground.
Proof.
  induction k as [|k IH]; intros l n; cbn [repeat].
  - cbn. f_equal. lia.
  - change (trun (Term l n Ground) (8 :: repeat 8 k)) with (trun (Term l (pred n) Ground) (repeat 8 k)). rewrite IH. f_equal. lia.
Qed.

Lemma trun_insert l r : trun (Term (l ++ r) (length l) Ground) [27; 91; 64] = Term (l ++ 32 :: r) (length l) Ground.
Proof.
  change (Term (firstn (length l) (l ++ r) ++ 32 :: skipn (length l) (l ++ r)) (length l) Ground = Term (l ++ 32 :: r) (length l) Ground).
  rewrite skipn_app_eq by auto. rewrite firstn_app, firstn_all, Nat.sub_diag, firstn_O, app_nil_r. auto.
Qed.

Lemma trun_delete l c r : trun (Term (l ++ c :: r) (length l) Ground) [27; 91; 80] = Term (l ++ r) (length l) Ground.
Proof.
  change (Term (firstn (length l) (l ++ c :: r) ++ skipn (S (length l)) (l ++ c :: r)) (length l) Ground = Term (l ++ r) (length l) Ground).
  rewrite firstn_app, firstn_all, Nat.sub_diag, firstn_O, app_nil_r. f_equal. f_equal.
  replace (l ++ c :: r) with ((l ++ [c]) ++ r) by (rewrite <- app_assoc; auto). apply skipn_app_eq. len.
Qed.

Lemma trun_erase l r : trun (Term (l ++ r) (length l) Ground) [27; 91; 75] = Term l (length l) Ground.
Proof.
  change (Term (firstn (length l) (l ++ r)) (length l) Ground = Term l (length l) Ground).
  rewrite firstn_app, firstn_all, Nat.sub_diag, firstn_O, app_nil_r. auto.
Qed.

Definition zprint (z : zip) : Prop :=
  Forall printable (before z) /\ Forall printable (after z) /\ Forall printable (saved z) /\
  (forall h, history z = Some h -> Forall printable h).

Definition T (pw : list Z) (z : zip) (tm : term) : Prop :=
  exists n, tm = Term (pw ++ before z ++ after z ++ repeat 32 n) (length pw + length (before z)) Ground.

Lemma skipn_blanks k n : exists m, skipn k (repeat 32 n) = repeat 32 m.
Proof. exists (n - k)%nat. revert k. induction n as [|n IH]; intros [|k]; cbn; auto. Qed.

Lemma drop_last_sub (Q : Z -> Prop) b : Forall Q b -> Forall Q (drop_last b).
Proof. destruct (exists_last_or_nil b) as [-> | (b' & c & ->)]; auto. rewrite drop_last_app. rewrite Forall_app. tauto. Qed.

Lemma zprint_step cap z a : zprint z -> (match a with Insert c => printable c | _ => True end) -> zprint (zstep cap z a).
Proof.
  destruct z as [b r s o h]. intros (H1 & H2 & H3 & H4) Ha. unfold zprint in *. cbn [before after saved history] in *.
  destruct a; cbn [zstep]; try (cbn [before after saved history]; rewrite ?Forall_app; intuition auto; fail).
  - destruct (_ <? _)%nat; cbn [before after saved history]; rewrite ?Forall_app; auto.
  - cbn [before after saved history]. pose proof (drop_last_sub _ _ H1). auto.
  - cbn [before after saved history]. destruct r; inversion H2; auto.
  - destruct (exists_last_or_nil b) as [-> | (b' & c & ->)]; [cbn; auto|]. rewrite rev_app_distr, drop_last_app. cbn [rev app before after saved history].
    rewrite Forall_app in H1. destruct H1 as [H1 H1']. inversion H1'. auto.
  - destruct r; [cbn; auto|]. cbn [before after saved history]. inversion H2. rewrite Forall_app. auto.
  - destruct o; [cbn; auto|]. destruct h as [t|]; [|cbn; auto]. cbn [before after saved history].
    repeat split; auto; apply Forall_firstn; auto. apply Forall_app. auto.
  - destruct o; [|cbn; auto]. destruct h as [t|]; [|cbn; auto]. cbn [before after saved history].
    repeat split; auto. intros h [= <-]. apply Forall_firstn. apply Forall_app. auto.
Qed.

(* From the cursor back to the prompt, erase, and print [t]. *)
Lemma erase_print pw b r t n : Forall printable t ->
  exists m, trun (Term (pw ++ b ++ r ++ repeat 32 n) (length pw + length b) Ground)
    ((repeat 8 (length b) ++ (match b ++ r with [] => [] | _ => [27; 91; 75] end)) ++ t) =
    Term (pw ++ t ++ repeat 32 m) (length pw + length t) Ground.
Proof.
  intros Ht. rewrite !trun_app, trun_back. replace (length pw + length b - length b)%nat with (length pw) by lia.
  destruct (b ++ r) as [|x y] eqn:E.
  - apply app_eq_nil in E. destruct E as [-> ->]. cbn [app]. cbn [trun fold_left]. fold (trun (Term (pw ++ repeat 32 n) (length pw) Ground) t).
    rewrite trun_text by auto. destruct (skipn_blanks (length t) n) as [m ->]. eauto.
  - rewrite trun_erase. pose proof (trun_text t Ht pw []) as E2. rewrite app_nil_r in E2. rewrite E2. exists O. rewrite skipn_nil. auto.
Qed.

Lemma T_step cap pw z a tm : Forall printable pw -> zprint z -> (match a with Insert c => printable c | _ => True end) ->
  T pw z tm -> T pw (zstep cap z a) (trun tm (zout cap pw z a)).
Proof.
  destruct z as [b r s o h]. intros Hpw (H1 & H2 & H3 & H4) Ha [n ->]. unfold T in *. cbn [before after saved history] in *.
  assert (Same : exists n0, Term (pw ++ b ++ r ++ repeat 32 n) (length pw + length b) Ground =
            Term (pw ++ b ++ r ++ repeat 32 n0) (length pw + length b) Ground) by eauto.
  assert (Ecol : (length pw + length b)%nat = length (pw ++ b)) by len.
  destruct a as [c| | | | | | | | | | | | ]; cbn [zstep zout].
  - (* Insert *)
    destruct (_ <? _)%nat; cbn [before after]; [|exact Same].
    rewrite trun_app. rewrite Ecol. rewrite app_assoc.
    destruct r as [|x r].
    + cbn [app]. match goal with |- context [trun ?x []] => change (trun x []) with x end.
      rewrite trun_text by auto. destruct (skipn_blanks (length [c]) n) as [m ->]. exists m. rewrite <- !app_assoc. f_equal. len.
    + rewrite trun_insert. rewrite trun_text by auto. exists n. cbn [length skipn]. rewrite <- !app_assoc. f_equal. len.
  - (* Enter *)
    cbn [before after]. rewrite Ecol, app_assoc. rewrite trun_text by auto. exists n. rewrite skipn_app_eq by auto.
    rewrite <- !app_assoc. cbn [app]. f_equal. len.
  - (* DelLeft *)
    cbn [before after]. destruct (exists_last_or_nil b) as [-> | (b' & c & ->)]; [exact Same|].
    rewrite drop_last_app. destruct (b' ++ [c]) eqn:E; [apply (f_equal (@length Z)) in E; len|]. rewrite <- E in *. clear E.
    replace (length pw + length (b' ++ [c]))%nat with (S (length (pw ++ b'))) by len.
    replace (pw ++ (b' ++ [c]) ++ r ++ repeat 32 n) with ((pw ++ b') ++ c :: r ++ repeat 32 n) by (rewrite <- !app_assoc; auto).
    destruct r as [|x r].
    + exists (S n). 
      change (trun (Term ((pw ++ b') ++ c :: [] ++ repeat 32 n) (S (length (pw ++ b'))) Ground) [8; 32; 8])
        with (trun (trun (Term ((pw ++ b') ++ c :: repeat 32 n) (length (pw ++ b')) Ground) [32]) [8]).
      rewrite trun_text by (constructor; [unfold printable; lia | constructor]). cbn [length skipn]. change [8] with (repeat 8 1). rewrite trun_back.
      rewrite <- !app_assoc. cbn [app repeat]. f_equal. len.
    + change (trun (Term ((pw ++ b') ++ c :: (x :: r) ++ repeat 32 n) (S (length (pw ++ b'))) Ground) [8; 27; 91; 80])
        with (trun (Term ((pw ++ b') ++ c :: (x :: r) ++ repeat 32 n) (length (pw ++ b')) Ground) [27; 91; 80]).
      rewrite trun_delete. exists n. rewrite <- !app_assoc. f_equal. len.
  - (* DelRight *)
    cbn [before after]. destruct r as [|x r]; [exact Same|]. cbn [tl]. rewrite Ecol, app_assoc. cbn [app]. rewrite trun_delete.
    exists n. rewrite <- !app_assoc. auto.
  - (* GoLeft *)
    destruct (exists_last_or_nil b) as [-> | (b' & c & ->)]; [exact Same|].
    rewrite rev_app_distr, drop_last_app. cbn [rev app before after].
    destruct (b' ++ [c]) eqn:E; [apply (f_equal (@length Z)) in E; len|]. rewrite <- E in *. clear E.
    change [8] with (repeat 8 1). rewrite trun_back. exists n. rewrite <- !app_assoc. f_equal. len.
  - (* GoRight *)
    destruct r as [|c r]; [exact Same|]. cbn [before after]. inversion H2; subst.
    rewrite Ecol, app_assoc. rewrite trun_text by auto. exists n. cbn [length skipn app]. rewrite <- !app_assoc. f_equal. len.
  - (* GoHome *)
    cbn [before after]. rewrite trun_back. exists n. rewrite <- !app_assoc. cbn [length app]. f_equal. lia.
  - (* GoEnd *)
    cbn [before after]. rewrite Ecol, app_assoc. rewrite trun_text by auto. exists n. rewrite skipn_app_eq by auto.
    rewrite <- !app_assoc. cbn [app]. f_equal. len.
  - (* Kill *)
    cbn [before after]. destruct (erase_print pw b r [] n) as [m E]; [constructor|]. rewrite app_nil_r in E. rewrite E. exists m. auto.
  - (* Redraw *)
    cbn [before after].
    change (trun (Term (pw ++ b ++ r ++ repeat 32 n) (length pw + length b) Ground) ([13; 10] ++ pw ++ (b ++ r) ++ repeat 8 (length r)))
      with (trun (Term ([] ++ []) (length (@nil Z)) Ground) (pw ++ (b ++ r) ++ repeat 8 (length r))).
    rewrite (app_assoc pw), trun_app. rewrite trun_text by (repeat rewrite Forall_app; auto).
    rewrite trun_back. exists O. rewrite skipn_nil. cbn [repeat app]. rewrite <- !app_assoc. f_equal. len.
  - (* Older *)
    destruct o; [exact Same|]. destruct h as [t|]; [|exact Same]. cbn [before after].
    destruct (erase_print pw b r (cut t) n) as [m E]; [apply Forall_firstn; auto|]. rewrite E. exists m. auto.
  - (* Newer *)
    destruct o; [|exact Same]. destruct h as [t|]; [|exact Same]. cbn [before after].
    destruct (erase_print pw b r s n) as [m E]; [auto|]. rewrite E. exists m. auto.
  - exact Same.
Qed.

Lemma T_run cap pw keys : Forall printable pw -> forall z tm, Forall (fun k => 0 <= k < 65536) keys -> zprint z -> T pw z tm ->
  T pw (fst (zrun cap z keys)) (trun tm (zouts cap pw z keys)) /\ zprint (fst (zrun cap z keys)).
Proof.
  intros Hpw. induction keys as [|k ks IH]; intros z tm Hk Hz HT.
  - cbn. auto.
  - inversion Hk as [|? ? Hk1 Hk2]; subst. rewrite zrun_cons. cbn [zouts].
    assert (Ha : match key_action k with Insert c => printable c | _ => True end).
    { destruct (key_action k) eqn:E; auto. apply key_action_insert in E. unfold printable. lia. }
    pose proof (T_step cap pw z _ tm Hpw Hz Ha HT). pose proof (zprint_step cap z _ Hz Ha).
    cbv zeta. destruct (is_enter (key_action k)); cbn [fst]; auto. rewrite trun_app. apply IH; auto.
Qed.

Lemma printable_wide w : Forall printable w -> Forall wide w.
Proof. apply Forall_impl. intros c H. unfold printable, wide in *. lia. Qed.

Lemma editline_screen n cap buf clear pw ptail junk prev h t0 keys : Forall printable pw -> Forall printable t0 ->
  (if clear : bool then t0 = [] /\ buf <> [] else holds buf t0) -> length buf = n -> length junk = 128%nat ->
  hist_rel prev h n -> (forall t, h = Some t -> Forall printable t) ->
  (S cap <= n)%nat -> Z.of_nat n < 2 ^ 32 -> Forall (fun k => 0 <= k < 65536) keys ->
  exists s out fin z, editline buf (Z.of_nat (S cap)) clear (utf8 pw ++ 0 :: ptail) junk prev keys = Ok (s, utf8 out, fin) /\
    zrun cap (zstart t0 h) keys = (z, fin) /\ holds (e_buf s) (text z) /\
    shows (trun fresh out) (pw ++ text z) (length pw + length (before z)).
Proof.
  intros Hpw Ht Hb Hn Hj Hh Hhp Hc H32 Hk.
  destruct (editline_ok n cap buf clear pw ptail junk prev h t0 keys) as (s & E & HR); auto using printable_wide.
  destruct (zrun cap (zstart t0 h) keys) as [z fin] eqn:Ez. cbn [fst snd] in *.
  exists s, (pw ++ t0 ++ zouts cap pw (zstart t0 h) keys), fin, z. split; [auto|]. split; [auto|].
  split; [apply HR|].
  rewrite app_assoc, trun_app. change fresh with (Term ([] ++ []) (length (@nil Z)) Ground). rewrite trun_text by (apply Forall_app; auto).
  rewrite skipn_nil, app_nil_r. cbn [app length].
  destruct (T_run cap pw keys Hpw (zstart t0 h) (Term (pw ++ t0) (0 + length (pw ++ t0)) Ground)) as [[m HT] _]; auto.
  - unfold zprint, zstart. cbn. auto.
  - exists O. unfold zstart. cbn [before after repeat app]. rewrite !app_nil_r. f_equal. len.
  - rewrite Ez in HT. cbn [fst] in HT. rewrite HT. unfold shows, text. cbn [cells col md].
    split; [|auto]. exists m. rewrite <- !app_assoc. auto.
Qed.
