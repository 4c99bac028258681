From Coq Require Import String.
From Verif Require Import Base Arr ArrLemmas TokModel TokSpec TokProof2 Utf8Model Utf8Spec Utf8Proof EditModel EditSpec EditProof EditProof2
  LoadModel LoadProof LoadProof2 ExecModel ExecProof ShellModel ShellSpec.
Open Scope Z_scope.

(* --- the editor with a limit that is too large --- *)

Lemma insert_same n cap bl pw ptail s z c : R n s z -> Forall wide pw -> (S cap <= n)%nat -> Z.of_nat n < 2 ^ 32 ->
  (length (text z) < cap)%nat -> Z.of_nat n <= bl < 2 ^ 32 ->
  astep bl (utf8 pw ++ 0 :: ptail) s (Insert c) = astep (Z.of_nat (S cap)) (utf8 pw ++ 0 :: ptail) s (Insert c).
Proof.
  destruct s as [buf pos nxt on prev], z as [b r sv o h].
  intros (HB & Hn & Hp & Ho & Hnx & Hsv & Wb & Wr & Ws & Ls & Hh) Hpw Hcap H32 HL Hbl. unfold text in *. cbn in HB, HL, Wb, Wr, Hn.
  destruct HB as (rest & ->). unfold astep. rewrite <- app_assoc, len_text by auto. cbn [bind]. rewrite app_length in HL.
  rewrite !Z.mod_small by lia.
  replace (Z.of_nat (length b + length r) <? bl - 1) with true by lia.
  replace (Z.of_nat (length b + length r) <? Z.of_nat (S cap) - 1) with true by lia. reflexivity.
Qed.

Lemma other_same bl bl' p s a : (forall c, a <> Insert c) -> astep bl p s a = astep bl' p s a.
Proof. intros H. destruct s, a; try reflexivity. destruct (H c). reflexivity. Qed.

Lemma keys_same cap n bl pw ptail : Forall wide pw -> (S cap <= n)%nat -> Z.of_nat n < 2 ^ 32 -> Z.of_nat n <= bl < 2 ^ 32 ->
  forall keys s z, Forall (fun k => 0 <= k < 65536) keys -> R n s z -> fits cap z keys ->
  keys_loop bl (utf8 pw ++ 0 :: ptail) s keys = keys_loop (Z.of_nat (S cap)) (utf8 pw ++ 0 :: ptail) s keys.
Proof.
  intros Hpw Hc H32 Hbl. induction keys as [|k ks IH]; intros s z Hk HR HF; [reflexivity|].
  inversion Hk as [|? ? Hk1 Hk2]; subst. cbn [keys_loop]. rewrite !step_action.
  assert (E : astep bl (utf8 pw ++ 0 :: ptail) s (key_action k) = astep (Z.of_nat (S cap)) (utf8 pw ++ 0 :: ptail) s (key_action k)).
  { cbn [fits] in HF. destruct (key_action k) eqn:A; try (apply other_same; discriminate).
    destruct HF as (HF & _). eapply insert_same; eauto. }
  rewrite E. clear E.
  destruct (astep_ok n cap pw ptail s z (key_action k)) as (s' & E & R'); auto.
  { destruct (key_action k) eqn:A; auto. apply key_action_insert in A as (-> & ?). unfold wide. lia. }
  rewrite E. cbn [bind]. destruct (is_enter (key_action k)) eqn:I; [reflexivity|].
  rewrite (IH s' (zstep cap z (key_action k))); auto.
  cbn [fits] in HF. destruct (key_action k); try exact HF; [apply HF | discriminate].
Qed.

Lemma editline_big n cap bl buf pw ptail junk prev h keys : Forall wide pw -> buf <> [] -> length buf = n -> length junk = 128%nat ->
  hist_rel prev h n -> (S cap <= n)%nat -> Z.of_nat n < 2 ^ 32 -> Z.of_nat n <= bl < 2 ^ 32 -> Forall (fun k => 0 <= k < 65536) keys ->
  fits cap (zstart [] h) keys ->
  exists s out, editline buf bl true (utf8 pw ++ 0 :: ptail) junk prev keys = Ok (s, out, snd (zrun cap (zstart [] h) keys)) /\
    R n s (fst (zrun cap (zstart [] h) keys)).
Proof.
  intros Hpw Hb Hn Hj Hh Hc H32 Hbl Hk HF.
  destruct (editline_ok n cap buf true pw ptail junk prev h [] keys) as (s & E & HR); auto.
  exists s. eexists. split; [|exact HR]. rewrite <- E. unfold editline.
  destruct (start_ok n buf true pw ptail junk prev h []) as (s0 & E0 & R0); auto.
  rewrite E0. cbn [bind]. rewrite (keys_same cap n bl pw ptail Hpw Hc H32 Hbl keys s0 (zstart [] h)); auto.
Qed.

(* --- one line --- *)

Lemma strings_ok b av ws : Forall2 (TokSpec.string_at b) av ws -> strings b av = Ok ws.
Proof.
  induction 1 as [|p w av ws (N & l & r & E & L) H IH]; [reflexivity|]. cbn [strings].
  assert (S : string_from b (Z.of_nat p) = Ok w).
  { unfold string_from. replace (0 <=? Z.of_nat p) with true by lia. rewrite Nat2Z.id, E, <- L, skipn_app, skipn_all, Nat.sub_diag. cbn [skipn app].
    apply cstr_iff. split; [|eauto]. intros I. unfold no_nul in N. rewrite Forall_forall in N. now apply (N 0). }
  rewrite S. cbn [bind]. rewrite IH. reflexivity.
Qed.

Lemma Zs_eqb_exit w : Zs_eqb w (str "exit") = is_exit w.
Proof.
  unfold is_exit. destruct (list_eq_dec Z.eq_dec w (str "exit")) as [->|N]; [reflexivity|].
  destruct (Zs_eqb w (str "exit")) eqn:E; [|reflexivity]. destruct N. now apply Zs_eqb_iff.
Qed.

Lemma hist_copy hl t tail : Forall wide t -> (length t <= 127)%nat -> (128 <= length hl)%nat ->
  exists h n, strlcpy hl (t ++ 0 :: tail) 128 = Ok (h, n) /\ holds h t /\ length h = length hl.
Proof.
  intros W L H. destruct (strlcpy_cut hl t tail W H) as (rest & E & E2). unfold CMDLINE in E.
  assert (C : cut t = t) by (unfold cut; apply firstn_all2; exact L). rewrite C in *.
  do 2 eexists. split; [exact E|]. split; [now exists rest | exact E2].
Qed.

Theorem turn_ok pw ptail hl h l keys t h' : Forall wide pw -> hist_rel (Some hl) (Some h) 128 -> locals_ok l ->
  Forall (fun k => 0 <= k < 65536) keys -> entered h keys t h' -> (length (split_words (utf8 t)) < 42)%nat ->
  exists hl', turn (utf8 pw ++ 0 :: ptail) hl l keys = Ok (Some (meaning (utf8 t), hl')) /\
    hist_rel (Some hl') (Some (next_history (utf8 t) t h')) 128.
Proof.
  intros Hpw Hh (L1 & L2 & L3) Hk (z & Z1 & F & T & Hz) HW.
  destruct (editline_big 128 127 256 (l_buf l) pw ptail (l_next l) (Some hl) (Some h) keys) as (s & out & E & HR); auto; try lia.
  { intros X. rewrite X in L1. discriminate. }
  rewrite Z1 in E, HR. cbn [fst snd] in E, HR. unfold turn. rewrite E. cbn [bind negb].
  assert (TL : (length t <= 127)%nat).
  { rewrite <- T. change z with (fst (z, true)). rewrite <- Z1. apply zrun_len; cbn; lia. }
  destruct s as [buf pos nxt on prev], z as [b r sv o hz]. cbn in Hz. subst hz.
  destruct HR as (HB & Hn & Hp & Ho & Hnx & Hsv & Wb & Wr & Ws & Ls & Hh'). cbn in *. rewrite T in HB.
  destruct HB as (rest & ->).
  assert (Wt : Forall wide t) by (rewrite <- T; apply Forall_app; auto).
  destruct prev as [pl|]; [|destruct Hh']. cbn [bind]. rewrite to_utf8_shell by auto. cbn [bind].
  assert (N : no_nul (utf8 t)) by (apply utf8_nz; auto).
  pose proof (utf8_len t Wt) as UL.
  destruct (skipn (S (length (utf8 t))) (l_cmd l)) as [|x tail] eqn:SK.
  { apply (f_equal (@length Z)) in SK. rewrite skipn_length in SK. cbn in SK. lia. }
  destruct (tokenize_ok shell_argv_slots (utf8 t) x tail N HW) as (bb & av & TK & _ & _ & AL & AV & _). rewrite TK. cbn [bind].
  destruct Hh' as (PH & PW & PL & _).
  destruct (hist_copy pl t rest Wt TL PL) as (hh & nn & C & HC & HL).
  assert (G : hist_rel (Some hh) (Some t) 128) by (repeat split; auto; lia).
  unfold next_history, meaning. destruct (split_error (utf8 t)) as [e|].
  { rewrite C. cbn [bind]. eexists. split; [reflexivity | exact G]. }
  specialize (AV eq_refl). destruct (split_words (utf8 t)) as [|w ws] eqn:SW.
  { destruct av; [|discriminate]. eexists. split; [reflexivity|]. repeat split; auto. }
  destruct av as [|p av]; [discriminate|]. rewrite C. cbn [bind]. rewrite (strings_ok _ _ _ AV). cbn [bind hd length].
  rewrite Zs_eqb_exit. destruct (is_exit w); [|eexists; split; [reflexivity | exact G]].
  destruct ws; (eexists; split; [reflexivity | exact G]).
Qed.

Theorem dialog_ok pw ptail h lines s : Forall wide pw -> talk h (map snd lines) s -> forall hl, hist_rel (Some hl) (Some h) 128 ->
  Forall (fun x => locals_ok (fst x) /\ Forall (fun k => 0 <= k < 65536) (snd x)) lines ->
  dialog (utf8 pw ++ 0 :: ptail) hl lines = Ok s.
Proof.
  intros Hpw H. remember (map snd lines) as kl eqn:E. revert lines E.
  induction H as [h | h keys r t h' EN W M | h keys r t h' s EN W M H IH]; intros [|(l & ks) lines] E hl Hh HL; try discriminate; [reflexivity| |].
  - cbn [map snd] in E. injection E as <- ->. inversion HL as [|? ? (A & B) HL']; subst. cbn [fst snd] in *. cbn [dialog].
    destruct (turn_ok pw ptail hl h l keys t h') as (hl' & TE & HT); auto. rewrite TE, M. reflexivity.
  - cbn [map snd] in E. injection E as <- ->. inversion HL as [|? ? (A & B) HL']; subst. cbn [fst snd] in *. cbn [dialog].
    destruct (turn_ok pw ptail hl h l keys t h') as (hl' & TE & HT); auto. rewrite TE. cbn [bind].
    rewrite (IH lines eq_refl hl' HT HL'). cbn [bind]. destruct (meaning (utf8 t)); congruence.
Qed.

(* --- the prompt --- *)

Lemma strrchr_none s c : ~ In c s -> strrchr s c = None.
Proof. induction s as [|x s IH]; intros H; [reflexivity|]. cbn [strrchr]. rewrite IH by (intro; apply H; now right). destruct (Z.eqb_spec x c); [|reflexivity]. destruct H. now left. Qed.

Lemma strrchr_ok p b c : ~ In c b -> strrchr (p ++ c :: b) c = Some (length p).
Proof.
  intros H. induction p as [|x p IH]; cbn [app strrchr length]; [rewrite strrchr_none by exact H; now rewrite Z.eqb_refl|]. now rewrite IH.
Qed.

Fixpoint cats (b : list Z) (ss : list (list Z)) : res (list Z) :=
  match ss with [] => Ok b | s :: ss' => b <- strcat b s ;; cats b ss' end.

Lemma cats_ok ss : Forall (fun s => ~ In 0 s) ss -> forall d r, ~ In 0 d -> (length (concat ss) <= length r)%nat ->
  exists r', cats (d ++ 0 :: r) ss = Ok (d ++ concat ss ++ 0 :: r').
Proof.
  induction 1 as [|s ss N H IH]; intros d r D L; cbn [cats concat app]; [eexists; reflexivity|].
  cbn [concat] in L. rewrite app_length in L. rewrite strcat_ok by (auto; lia). cbn [bind].
  destruct (IH (d ++ s) (skipn (length s) r)) as (r' & E); [now apply no_nul_app | rewrite skipn_length; lia |].
  rewrite <- !app_assoc in E. rewrite E. exists r'. now rewrite <- ?app_assoc.
Qed.

Lemma cats_bad ss : Forall (fun s => ~ In 0 s) ss -> forall d r, ~ In 0 d -> (length r < length (concat ss))%nat ->
  cats (d ++ 0 :: r) ss = Ub.
Proof.
  induction 1 as [|s ss N H IH]; intros d r D L; cbn [cats concat] in *; [cbn in L; lia|].
  rewrite app_length in L. destruct (le_lt_dec (length s) (length r)) as [Hl|Hl].
  - rewrite strcat_ok by auto. cbn [bind]. rewrite app_assoc. apply IH; [now apply no_nul_app | rewrite skipn_length; lia].
  - unfold strcat. rewrite cstr_app by exact D. cbn [bind]. rewrite skipn_app, skipn_all, Nat.sub_diag, skipn_O. cbn [app].
    unfold strcpy. cbn [length]. destruct (Nat.ltb_spec (length s) (S (length r))); [lia|reflexivity].
Qed.

Definition pieces (disk where_ : list Z) : list (list Z) :=
  [esc ++ str "[0;31m"; disk; str ":"; where_; esc ++ str "[1;32m"; str " >"; esc ++ str "[m"; str " "].

Lemma pieces_text disk x : concat (pieces disk x) = prompt_text disk (58 :: x).
Proof. unfold pieces, prompt_text. cbn. rewrite ?app_nil_r. rewrite <- ?app_assoc. reflexivity. Qed.

Lemma prompt_cats x buf disk p b : ~ In 47 b -> p <> [] ->
  build_prompt (x :: buf) disk (Some (p ++ 47 :: b)) = cats ([] ++ 0 :: buf) (pieces disk (shown p b)).
Proof.
  intros S47 P. unfold build_prompt, wr. cbn [length Nat.ltb Nat.leb set_at bind]. rewrite strrchr_ok by exact S47.
  destruct (exists_last P) as (q & c & ->). replace (length (q ++ [c])) with (S (length q)) by (rewrite app_length; cbn; lia).
  assert (R : rd ((q ++ [c]) ++ 47 :: b) (length q) = Ok c) by (rewrite <- app_assoc; apply rd_app). rewrite R. cbn [bind].
  replace (skipn (S (S (length q))) ((q ++ [c]) ++ 47 :: b)) with b.
  2:{ rewrite <- app_assoc. rewrite skipn_app. rewrite skipn_all2 by lia. replace (_ - length q)%nat with 2%nat by lia. reflexivity. }
  replace (skipn (S (length q)) ((q ++ [c]) ++ 47 :: b)) with (47 :: b).
  2:{ rewrite <- app_assoc. rewrite skipn_app. rewrite skipn_all2 by lia. replace (_ - length q)%nat with 1%nat by lia. reflexivity. }
  unfold pieces, shown. rewrite last_last. cbn [cats app].
  generalize (esc ++ str "[0;31m") (esc ++ str "[1;32m") (esc ++ str "[m") (str " >") (str ":") (str " "). intros s1 s2 s3 s4 s5 s6.
  destruct (strcat (0 :: buf) s1) as [b1| |]; cbn [bind]; try reflexivity.
  destruct (strcat b1 disk) as [b2| |]; cbn [bind]; try reflexivity.
  destruct (strcat b2 s5) as [b3| |]; cbn [bind]; try reflexivity.
  destruct (c =? 58); cbn [negb];
    match goal with |- bind (strcat b3 ?s) _ = _ => destruct (strcat b3 s) as [b4| |]; cbn [bind]; try reflexivity end;
    (destruct (strcat b4 s2) as [b5| |]; cbn [bind]; try reflexivity);
    (destruct (strcat b5 s4) as [b6| |]; cbn [bind]; try reflexivity);
    (destruct (strcat b6 s3) as [b7| |]; cbn [bind]; try reflexivity);
    destruct (strcat b7 s6); reflexivity.
Qed.

Lemma pieces_nn disk x : ~ In 0 disk -> ~ In 0 x -> Forall (fun s => ~ In 0 s) (pieces disk x).
Proof. intros D X. unfold pieces. repeat (apply Forall_cons; [try assumption; cbn; intuition discriminate|]). constructor. Qed.

Lemma shown_nn p b : ~ In 0 b -> ~ In 0 (shown p b).
Proof. unfold shown. destruct (last p 0 =? 58); cbn; intuition discriminate. Qed.

(* The prompt is right exactly if it fits. *)
Theorem prompt_iff buf disk p b : buf <> [] -> ~ In 0 disk -> ~ In 0 b -> ~ In 47 b -> p <> [] ->
  let t := prompt_text disk (58%Z :: shown p b) in
  if (length t <? length buf)%nat then exists r, build_prompt buf disk (Some (p ++ 47 :: b)) = Ok (t ++ 0 :: r)
  else build_prompt buf disk (Some (p ++ 47 :: b)) = Ub.
Proof.
  intros BN D B S47 P t. destruct buf as [|x buf]; [congruence|]. rewrite prompt_cats by auto.
  pose proof (pieces_nn disk (shown p b) D (shown_nn p b B)) as F. unfold t. rewrite <- pieces_text.
  cbn [length]. destruct (Nat.ltb_spec (length (concat (pieces disk (shown p b)))) (S (length buf))).
  - apply cats_ok; [exact F | exact (fun x => x) | lia].
  - apply cats_bad; [exact F | exact (fun x => x) | lia].
Qed.

Lemma prompt_len disk x : length (prompt_text disk (58 :: x)) = (length disk + length x + 21)%nat.
Proof. unfold prompt_text. cbn. rewrite !app_length. cbn. rewrite !app_length. cbn. lia. Qed.

(* A directory name of 102 letters on the drive flash. *)
Theorem prompt_overflow : exists name, (length name <= 255)%nat /\ ~ In 0 name /\ ~ In 47 name /\
  forall buf, length buf = 128%nat -> build_prompt buf (str "flash") (Some (str "flash:/" ++ name)) = Ub.
Proof.
  exists (repeat 97 102).
  assert (N : forall c, c <> 97 -> ~ In c (repeat 97 102)) by (intros c C H; apply repeat_spec in H; congruence).
  split; [rewrite repeat_length; apply Nat.leb_le; reflexivity|]. split; [now apply N|]. split; [now apply N|].
  intros buf L. pose proof (prompt_iff buf (str "flash") (str "flash:") (repeat 97 102)) as H. cbv zeta in H.
  rewrite L in H. change (length (prompt_text (str "flash") (58%Z :: shown (str "flash:") (repeat 97%Z 102))) <? 128)%nat with false in H.
  apply H; [intros -> ; discriminate | cbn; intuition discriminate | now apply N | now apply N | discriminate].
Qed.

(* For examples. *)
Fixpoint fitsb (cap : nat) (z : zip) (keys : list Z) : bool :=
  match keys with
  | [] => true
  | k :: ks =>
      match key_action k with
      | Enter => true
      | Insert c => (length (text z) <? cap)%nat && fitsb cap (zstep cap z (Insert c)) ks
      | a => fitsb cap (zstep cap z a) ks
      end
  end.
Lemma fitsb_ok cap keys : forall z, fitsb cap z keys = true -> fits cap z keys.
Proof.
  induction keys as [|k ks IH]; intros z H; [exact I|]. cbn [fitsb fits] in *.
  destruct (key_action k); auto. apply andb_true_iff in H as (H1 & H2). apply Nat.ltb_lt in H1. auto.
Qed.

Lemma entered_b h keys t h' :
  (let '(z, f) := zrun 127 (zstart [] (Some h)) keys in
   f && fitsb 127 (zstart [] (Some h)) keys && Zs_eqb (text z) t && match history z with Some x => Zs_eqb x h' | None => false end) = true ->
  entered h keys t h'.
Proof.
  unfold entered. destruct (zrun 127 (zstart [] (Some h)) keys) as [z f]. intros H.
  apply andb_true_iff in H as (H & H4). apply andb_true_iff in H as (H & H3). apply andb_true_iff in H as (H1 & H2).
  exists z. subst f. split; [reflexivity|]. split; [now apply fitsb_ok|]. split; [now apply Zs_eqb_iff|].
  destruct (history z); [|discriminate]. f_equal. now apply Zs_eqb_iff.
Qed.
