From Verif Require Import Base Arr ArrLemmas TokModel TokSpec.
Open Scope Z_scope.

Definition enc (ws : list (list Z)) : list Z := flat_map (fun w => w ++ [0]) ws.

Fixpoint starts (p : nat) (ws : list (list Z)) : list nat :=
  match ws with
  | [] => []
  | w :: ws' => p :: starts (p + S (length w)) ws'
  end.

Definition isnil {A} (l : list A) : bool := match l with [] => true | _ => false end.

Lemma enc_app a b : enc (a ++ b) = enc a ++ enc b.
Proof. apply flat_map_app. Qed.

Lemma starts_app a : forall p b, starts p (a ++ b) = starts p a ++ starts (p + length (enc a)) b.
Proof.
  induction a as [|w a IH]; intros p b; cbn; [f_equal; lia|].
  rewrite IH. do 3 f_equal. unfold enc. rewrite !app_length. cbn. lia.
Qed.

Lemma starts_length ws : forall p, length (starts p ws) = length ws.
Proof. induction ws; intros p; cbn; auto. Qed.

Definition is_apos m := match m with InApos => true | _ => false end.
Definition is_quote m := match m with InQuote => true | _ => false end.

Definition args (ws : list (list Z)) (cur : list Z) : list nat :=
  starts 0 (ws ++ if isnil cur then [] else [cur]).

Lemma args_ext ws cur c : cur <> [] -> args ws (cur ++ [c]) = args ws cur.
Proof.
  intros H. unfold args. destruct cur; [tauto|]. cbn [isnil app]. rewrite !starts_app. f_equal.
Qed.

Definition state ws cur gap r tail m : tk :=
  Tk (enc ws ++ cur ++ gap ++ r ++ 0 :: tail) (length (enc ws ++ cur ++ gap)) (length (enc ws ++ cur))
     (isnil cur) (is_apos m) (is_quote m) (args ws cur).

(* Write at dest while at least one character has been passed. *)
Lemma write_dest (pre : list Z) g gap x :
  exists gap', wr (pre ++ (g :: gap) ++ x) (length pre) 0 = Ok (pre ++ 0 :: gap' ++ x) /\ length gap' = length gap.
Proof. exists gap. cbn [app]. rewrite wr_app. auto. Qed.

Lemma words_app_len w l : (length (words_from w l) >= if isnil w then 0 else 1)%nat.
Proof.
  revert w. induction l as [|[|c] l IH]; intros w; cbn.
  - destruct w; cbn; lia.
  - destruct w; cbn; lia.
  - specialize (IH (w ++ [c])). destruct w; cbn in *; lia.
Qed.

Lemma consume_ok cap ws cur g gap r tail m ch :
  (length ws < cap)%nat \/ cur <> [] ->
  exists gap', length gap' = length gap /\
  consume cap (Tk (enc ws ++ cur ++ (g :: gap) ++ r ++ 0 :: tail) (length (enc ws ++ cur ++ gap)) (length (enc ws ++ cur))
     (isnil cur) (is_apos m) (is_quote m) (args ws cur)) ch
  = Ok (Next (state ws (cur ++ [ch]) gap' r tail m)).
Proof.
  intros H. exists gap. split; auto. unfold consume. cbn [seen_space argv buf dest src seen_apostrophe seen_quote].
  assert (E : (if isnil cur then if (length (args ws cur) <? cap)%nat then Ok (args ws cur ++ [length (enc ws ++ cur)]) else Ub
               else Ok (args ws cur)) = Ok (args ws (cur ++ [ch]))).
  { destruct cur as [|c0 cur].
    - cbn [isnil]. assert (Hl : length (args ws []) = length ws).
      { unfold args. cbn [isnil]. rewrite app_nil_r. apply starts_length. }
      rewrite Hl. destruct (Nat.ltb_spec (length ws) cap); [|destruct H; [lia|tauto]].
      unfold args. cbn [isnil app]. rewrite !app_nil_r, starts_app. cbn. auto.
    - cbn [isnil]. rewrite args_ext; [auto|discriminate]. }
  rewrite E. cbn [bind].
  replace (enc ws ++ cur ++ (g :: gap) ++ r ++ 0 :: tail) with ((enc ws ++ cur) ++ g :: (gap ++ r ++ 0 :: tail))
    by (rewrite <- app_assoc; auto).
  rewrite wr_app. cbn [bind]. unfold state. do 2 f_equal. f_equal.
  - rewrite <- !app_assoc. cbn. auto.
  - rewrite !app_length. cbn. lia.
  - rewrite !app_length. cbn. lia.
  - destruct cur; auto.
Qed.

Lemma read_src ws cur gap r tail : rd (enc ws ++ cur ++ gap ++ r ++ 0 :: tail) (length (enc ws ++ cur ++ gap))
  = Ok (match r with [] => 0 | c :: _ => c end).
Proof.
  replace (enc ws ++ cur ++ gap ++ r ++ 0 :: tail) with ((enc ws ++ cur ++ gap) ++ r ++ 0 :: tail)
    by (rewrite <- !app_assoc; auto).
  destruct r; cbn [app]; apply rd_app.
Qed.

(* What the loop leaves behind: [b] is the buffer it started with and [n] the
   length of the line with its terminator. *)
Definition result ws (b : list Z) (n : nat) (wds : list (list Z)) (e : option tok_error) (t : tk) : Prop :=
  argv t = starts 0 (ws ++ wds) /\
  length (buf t) = length b /\ skipn (S n) (buf t) = skipn (S n) b /\
  (e <> None -> skipn n (buf t) = skipn n b) /\
  (e = None -> exists Y, buf t = enc (ws ++ wds) ++ 0 :: Y).

Lemma result_ext ws b b' n wds e t : result ws b' n wds e t ->
  length b' = length b -> skipn n b' = skipn n b -> result ws b n wds e t.
Proof.
  intros (R1 & R2 & R3 & R4 & R5) H1 H2. split; auto. split; [congruence|]. split; [|split; auto].
  - rewrite R3. replace (S n) with (n + 1)%nat by lia. rewrite <- !skipn_add, H2. auto.
  - intros He. rewrite R4; auto.
Qed.

Lemma result_ws ws w b n wds e t : result (ws ++ [w]) b n wds e t -> result ws b n (w :: wds) e t.
Proof. unfold result. rewrite <- app_assoc. auto. Qed.

Lemma args_words ws cur l : (length (args ws cur) <= length ws + length (words_from cur l))%nat.
Proof.
  unfold args. rewrite starts_length, app_length. pose proof (words_app_len cur l).
  destruct cur; cbn [isnil length] in *; lia.
Qed.

Lemma skipn_pre ws cur gap r tail ws' cur' gap' r' :
  length (enc ws ++ cur ++ gap ++ r) = length (enc ws' ++ cur' ++ gap' ++ r') ->
  skipn (length (enc ws ++ cur ++ gap ++ r ++ [0])) (enc ws' ++ cur' ++ gap' ++ r' ++ 0 :: tail) =
  skipn (length (enc ws ++ cur ++ gap ++ r ++ [0])) (enc ws ++ cur ++ gap ++ r ++ 0 :: tail).
Proof.
  intros H.
  assert (E : forall a b c d : list Z, a ++ b ++ c ++ d ++ 0 :: tail = (a ++ b ++ c ++ d ++ [0]) ++ tail).
  { intros. rewrite <- !app_assoc. auto. }
  rewrite !E. rewrite !skipn_app_eq; auto. rewrite !app_length in *. cbn in *. lia.
Qed.

(* Reuse a run from a later state. *)
Lemma follow cap tail fuel r ws cur gap m r' ws' cur' gap' m' wds e :
  (exists t, tok_loop cap fuel (state ws' cur' gap' r' tail m') = Ok (t, e) /\
     result ws' (buf (state ws' cur' gap' r' tail m')) (length (enc ws' ++ cur' ++ gap' ++ r' ++ [0])) wds e t) ->
  length (enc ws' ++ cur' ++ gap' ++ r') = length (enc ws ++ cur ++ gap ++ r) ->
  exists t, tok_loop cap fuel (state ws' cur' gap' r' tail m') = Ok (t, e) /\
     result ws' (buf (state ws cur gap r tail m)) (length (enc ws ++ cur ++ gap ++ r ++ [0])) wds e t.
Proof.
  intros (t & E & R) H. exists t. split; auto.
  assert (Hn : length (enc ws' ++ cur' ++ gap' ++ r' ++ [0]) = length (enc ws ++ cur ++ gap ++ r ++ [0])).
  { rewrite !app_length in *. cbn. lia. }
  rewrite Hn in R. apply (result_ext _ _ _ _ _ _ _ R).
  - cbn [buf state]. rewrite !app_length in *. cbn. lia.
  - cbn [buf state]. apply skipn_pre. auto.
Qed.

Lemma loop_ok cap tail : tail <> [] -> forall fuel r ws cur gap m,
  (length r < fuel)%nat -> no_nul r ->
  (length ws + length (words_from cur (fst (lex m r))) < cap)%nat ->
  exists t, tok_loop cap fuel (state ws cur gap r tail m) = Ok (t, snd (lex m r)) /\
    result ws (buf (state ws cur gap r tail m)) (length (enc ws ++ cur ++ gap ++ r ++ [0]))
      (words_from cur (fst (lex m r))) (snd (lex m r)) t.
Proof.
  intros Htail.
  induction fuel as [|fuel IH]; intros r ws cur gap m Hf Hnn Hcap; [lia|].
  assert (Hstep : forall ws' cur' gap' r' m' l e,
    (length r' < fuel)%nat -> no_nul r' -> lex m' r' = (l, e) ->
    (length ws' + length (words_from cur' l) < cap)%nat ->
    length (enc ws' ++ cur' ++ gap' ++ r') = length (enc ws ++ cur ++ gap ++ r) ->
    exists t, tok_loop cap fuel (state ws' cur' gap' r' tail m') = Ok (t, e) /\
     result ws' (buf (state ws cur gap r tail m)) (length (enc ws ++ cur ++ gap ++ r ++ [0])) (words_from cur' l) e t).
  { intros ws' cur' gap' r' m' l e H1 H2 H3 H4 H5. apply follow; auto.
    specialize (IH r' ws' cur' gap' m' H1 H2). rewrite H3 in IH. apply IH; auto. }
  assert (Hcons : forall ch g gp r' l e s1 b1 a1, 
    (length r' < fuel)%nat -> no_nul r' -> lex m r' = (l, e) ->
    (length ws + length (words_from (cur ++ [ch]) l) < cap)%nat ->
    length ((g :: gp) ++ r') = length (gap ++ r) ->
    s1 = length (enc ws ++ cur ++ gp) -> b1 = enc ws ++ cur ++ (g :: gp) ++ r' ++ 0 :: tail -> a1 = args ws cur ->
    exists t, (o <- consume cap (Tk b1 s1 (length (enc ws ++ cur)) (isnil cur) (is_apos m) (is_quote m) a1) ch ;;
               match o with Next t' => tok_loop cap fuel t' | Done t' e => Ok (t', e) end) = Ok (t, e) /\
     result ws (buf (state ws cur gap r tail m)) (length (enc ws ++ cur ++ gap ++ r ++ [0])) (words_from (cur ++ [ch]) l) e t).
  { intros ch g gp r' l e s1 b1 a1 H1 H2 H3 H4 H5 -> -> ->.
    destruct (consume_ok cap ws cur g gp r' tail m ch) as (gap' & Hg & E).
    { destruct cur; [left|right; discriminate]. pose proof (words_app_len ([] ++ [ch]) l). cbn in *. lia. }
    rewrite E. cbn [bind]. apply Hstep with (m' := m); auto.
    len. }
  cbn [tok_loop]. unfold tok_step. 
  change (buf (state ws cur gap r tail m)) with (enc ws ++ cur ++ gap ++ r ++ 0 :: tail) at 1.
  change (src (state ws cur gap r tail m)) with (length (enc ws ++ cur ++ gap)) at 1.
  rewrite read_src. cbn [bind].
  destruct r as [|c r].
  - (* end of line *)
    clear Hstep Hcons.
    rewrite Z.eqb_refl. cbn [lex fst snd] in *.
    pose proof (args_words ws cur []) as Ha.
    assert (Hal : (length (args ws cur) <? cap)%nat = true) by (apply Nat.ltb_lt; lia).
    assert (Hargs : args ws cur = starts 0 (ws ++ words_from cur [])).
    { unfold args. destruct cur; auto. }
    assert (Herr : forall e, result ws (buf (state ws cur gap [] tail m)) (length (enc ws ++ cur ++ gap ++ [] ++ [0]))
               (words_from cur []) (Some e) (state ws cur gap [] tail m)).
    { intros e. split; [exact Hargs|]. split; [reflexivity|]. split; [reflexivity|]. split; [intros _; reflexivity|discriminate]. }
    destruct m; cbn [is_apos is_quote state seen_apostrophe seen_quote seen_space buf dest argv];
      [|eexists; split; [reflexivity|apply Herr]..].
    destruct cur as [|c0 cur].
    + cbn [isnil bind app]. rewrite app_nil_r.
      destruct (gap ++ 0 :: tail) as [|g0 rest] eqn:Eg; [destruct gap; discriminate|].
      rewrite wr_app. cbn [bind]. rewrite Hal.
      eexists. split; [reflexivity|]. split; [exact Hargs|]. cbn [buf argv words_from].
      rewrite app_nil_r.
      split; [rewrite !app_length; auto|]. split; [|split; [congruence|eauto]].
      rewrite <- (set_at_app _ g0 rest 0). apply skipn_set_at.
      len.
    + cbn [isnil]. 
      assert (Eg : exists g0 g1 rest, gap ++ 0 :: tail = g0 :: g1 :: rest).
      { destruct tail as [|t0 tail]; [tauto|]. destruct gap as [|g0 [|g1 gap]]; cbn; eauto. }
      destruct Eg as (g0 & g1 & rest & Eg). cbn [app]. 
      change ([] ++ 0 :: tail) with (0 :: tail). rewrite Eg.
      replace (enc ws ++ c0 :: cur ++ g0 :: g1 :: rest) with ((enc ws ++ c0 :: cur) ++ g0 :: g1 :: rest)
        by (rewrite <- app_assoc; auto).
      rewrite wr_app. cbn [bind].
      replace ((enc ws ++ c0 :: cur) ++ 0 :: g1 :: rest) with (((enc ws ++ c0 :: cur) ++ [0]) ++ g1 :: rest)
        by (rewrite <- app_assoc; auto).
      rewrite (wr_app_at _ g1 rest); [|len]. cbn [bind]. rewrite Hal.
      eexists. split; [reflexivity|]. split; [exact Hargs|]. cbn [buf argv words_from].
      split; [len|]. split; [|split; [congruence|]].
      * rewrite <- (set_at_app _ g1 rest 0). rewrite skipn_set_at by (len).
        rewrite <- app_assoc. cbn [app]. rewrite <- (set_at_app _ g0 (g1 :: rest) 0).
        rewrite skipn_set_at by (len). auto.
      * intros _. exists rest. rewrite enc_app. change (enc [c0 :: cur]) with (((c0 :: cur) ++ [0]) ++ []).
        rewrite app_nil_r, <- !app_assoc. cbn [app]. rewrite <- ?app_assoc. reflexivity.
  - inversion Hnn as [|? ? Hc Hr]; subst. 
    destruct (Z.eqb_spec c 0) as [?|_]; [tauto|]. cbn [length] in Hf.
    cbn [lex] in Hcap |- *.
    destruct (Z.eqb_spec c 32) as [-> | N32].
    { (* space *)
      change (32 =? 92) with false in *. cbn iota in *.
      destruct (gap_shift gap 32) as (g & gp & Hgp & Eg).
      destruct (lex m r) as [l e] eqn:El.
      destruct m; cbn [state is_apos is_quote seen_apostrophe seen_quote orb seen_space buf src dest argv] in *.
      - change (32 =? 32) with true in *. cbn iota in *. cbn [fst snd words_from] in *.
        destruct cur as [|c0 cur]; cbn [isnil] in *.
        + cbn [bind].
          destruct (Hstep ws [] (gap ++ [32]) r Plain l e) as (t & E & R); auto; [lia|len|].
          exists t. split; [|exact R]. rewrite <- E. f_equal. unfold state. f_equal.
          * rewrite <- !app_assoc. auto.
          * len.
        + assert (Hw : wr (enc ws ++ (c0 :: cur) ++ gap ++ (32 :: r) ++ 0 :: tail) (length (enc ws ++ c0 :: cur)) 0 =
                       Ok ((enc ws ++ c0 :: cur) ++ 0 :: gp ++ r ++ 0 :: tail)).
          { cbn [app]. rewrite Eg, (app_comm_cons cur), (app_assoc (enc ws)). apply wr_app. }
          rewrite Hw. cbn [bind].
          destruct (Hstep (ws ++ [c0 :: cur]) [] gp r Plain l e) as (t & E & R); auto; [lia|len| |].
          { rewrite enc_app. cbn. len. }
          exists t. split; [|apply result_ws; exact R]. rewrite <- E. f_equal. unfold state. f_equal.
          -- rewrite enc_app. cbn. rewrite <- !app_assoc. cbn. rewrite <- ?app_assoc. auto.
          -- rewrite enc_app. cbn. len.
          -- rewrite enc_app. cbn. len.
          -- unfold args. cbn. rewrite app_nil_r. auto.
      - change (32 =? 39) with false in *. cbn [fst snd words_from] in *.
        apply (Hcons 32 g gp r l e); auto; [lia|len|len|]. cbn [app]. rewrite Eg. auto.
      - change (32 =? 34) with false in *. cbn [fst snd words_from] in *.
        apply (Hcons 32 g gp r l e); auto; [lia|len|len|]. cbn [app]. rewrite Eg. auto. }
    destruct (Z.eqb_spec c 92) as [-> | N92].
    { (* backslash *)
      destruct r as [|d r].
      - cbn [state buf src]. clear Hcons Hstep.
        rewrite (app_assoc cur), (app_assoc (enc ws)).
        replace (((enc ws ++ cur ++ gap) ++ [92] ++ 0 :: tail)) with (((enc ws ++ cur ++ gap) ++ [92]) ++ 0 :: tail)
          by (rewrite <- app_assoc; auto).
        rewrite (rd_app_at _ 0 tail) by (rewrite (app_length _ [92]); cbn; lia). cbn [bind]. rewrite Z.eqb_refl.
        eexists. split; [reflexivity|]. cbn [fst snd words_from dest seen_space seen_apostrophe seen_quote argv].
        split; [cbn [argv]; unfold args; destruct cur; auto|]. cbn [buf].
        rewrite <- !app_assoc. split; [reflexivity|]. split; [reflexivity|]. split; [intros _; reflexivity|discriminate].
      - inversion Hr as [|? ? Hd Hr']; subst.
        destruct (lex m r) as [l e] eqn:El. cbn [fst snd words_from] in *.
        destruct (gap_shift gap 92) as (g & gp & Hgp & Eg).
        assert (Hrd : rd (buf (state ws cur gap (92 :: d :: r) tail m)) (S (src (state ws cur gap (92 :: d :: r) tail m))) = Ok d).
        { cbn [state buf src]. rewrite (app_assoc cur), (app_assoc (enc ws)).
          replace (((enc ws ++ cur ++ gap) ++ (92 :: d :: r) ++ 0 :: tail))
            with (((enc ws ++ cur ++ gap) ++ [92]) ++ d :: r ++ 0 :: tail) by (rewrite <- app_assoc; auto).
          apply rd_app_at. rewrite (app_length _ [92]). cbn. lia. }
        rewrite Hrd. cbn [bind]. destruct (Z.eqb_spec d 0); [tauto|].
        cbn [state buf src dest seen_space seen_apostrophe seen_quote argv].
        apply (Hcons d g (gp ++ [d]) r l e); auto; cbn [length] in *; [lia| | |].
        + cbn. len.
        + len.
        + cbn. rewrite Eg. rewrite <- app_assoc. auto. }
    assert (Hord : forall l e, lex m r = (l, e) ->
       (length ws + length (words_from (cur ++ [c]) l) < cap)%nat ->
       exists t, (o <- consume cap (state ws cur gap (c :: r) tail m) c ;;
               match o with Next t' => tok_loop cap fuel t' | Done t' e => Ok (t', e) end) = Ok (t, e) /\
       result ws (buf (state ws cur gap (c :: r) tail m)) (length (enc ws ++ cur ++ gap ++ (c :: r) ++ [0])) (words_from (cur ++ [c]) l) e t).
    { intros l e El Hcl. destruct (gap_shift gap c) as (g & gp & Hgp & Eg).
      unfold state at 1. apply (Hcons c g gp r l e); auto; [lia| | |].
      - cbn. len.
      - len.
      - cbn. rewrite Eg. auto. }
    assert (Htog : forall m' l e, lex m' r = (l, e) -> (length ws + length (words_from cur l) < cap)%nat ->
       exists t, tok_loop cap fuel (Tk (buf (state ws cur gap (c :: r) tail m)) (S (src (state ws cur gap (c :: r) tail m)))
           (dest (state ws cur gap (c :: r) tail m)) (isnil cur) (is_apos m') (is_quote m') (args ws cur)) = Ok (t, e) /\
       result ws (buf (state ws cur gap (c :: r) tail m)) (length (enc ws ++ cur ++ gap ++ (c :: r) ++ [0])) (words_from cur l) e t).
    { intros m' l e El Hcl. destruct (Hstep ws cur (gap ++ [c]) r m' l e) as (t & E & R); auto; [lia|len|].
      exists t. split; [|exact R]. rewrite <- E. f_equal. unfold state. f_equal; cbn [buf src dest].
      - rewrite <- !app_assoc. auto.
      - len. }
    destruct (Z.eqb_spec c 39) as [-> | N39].
    { (* apostrophe *)
      destruct m; cbn [seen_quote seen_apostrophe seen_space argv state is_quote is_apos negb bind] in *;
        change (39 =? 34) with false in *; cbn iota in *.
      - destruct (lex InApos r) as [l e] eqn:El. apply (Htog InApos l e El Hcap).
      - destruct (lex Plain r) as [l e] eqn:El. apply (Htog Plain l e El Hcap).
      - destruct (lex InQuote r) as [l e] eqn:El. apply (Hord l e eq_refl Hcap). }
    destruct (Z.eqb_spec c 34) as [-> | N34].
    { (* double quote *)
      destruct m; cbn [seen_quote seen_apostrophe seen_space argv state is_quote is_apos negb bind] in *.
      - destruct (lex InQuote r) as [l e] eqn:El. apply (Htog InQuote l e El Hcap).
      - destruct (lex InApos r) as [l e] eqn:El. apply (Hord l e eq_refl Hcap).
      - destruct (lex Plain r) as [l e] eqn:El. apply (Htog Plain l e El Hcap). }
    destruct (lex m r) as [l e] eqn:El.
    destruct m; apply (Hord l e eq_refl Hcap).
Qed.
