From Verif Require Import Base PrintfModel PrintfSpec PrintfProof PrintfProof2.
Open Scope Z_scope.

Section Loop.
Variable strtol : strtol_t.
Lemma integer_vals c : integer c -> c = 100 \/ c = 105 \/ c = 111 \/ c = 117 \/ c = 120.
Proof. unfold integer. cbn. lia. Qed.
Lemma floating_vals c : floating c -> c = 101 \/ c = 69 \/ c = 102 \/ c = 103 \/ c = 71.
Proof. unfold floating. cbn. lia. Qed.
Definition cv (c : Z) : Prop := c = 99 \/ c = 115 \/ integer c \/ floating c.
Lemma cv_plain c : cv c -> ~ isflag c /\ c <> 42 /\ c <> 46 /\ ~ isdigit c /\ c <> 0 /\ c <> 37.
Proof.
  intros H. assert (V : 69 <= c <= 120) by (destruct H as [->|[->|[H|H]]]; [lia|lia|apply integer_vals in H; lia|apply floating_vals in H; lia]). split; [intros Q; apply isflag_vals in Q; lia|]. unfold isdigit. lia.
Qed.
Lemma conversion_ok t fl w p c args a1 a2 a3 wv pv v : Forall (fun b => b <> 37) t -> good (Cv fl w p c) -> (integer c -> (length t + length (show (Cv fl w p c)) <= 62)%nat) ->
  sized strtol w args wv a1 -> sized strtol p a1 pv a2 -> valued strtol c a2 v a3 ->
  conversion strtol (t ++ show (Cv fl w p c)) c (code w wv) (code p pv) a2 = Ok (map Byte t ++ [Conv fl wv pv c v], Some a3).
Proof.
  intros Ft (Ff & Hw & Hp & Hc) Fi Sw Sp V. assert (Sn : sane p) by exact Hp. cbn [show]. fold (text_p p).
  assert (K : forall x y v', ~ isflag x -> x <> 42 -> x <> 46 -> ~ isdigit x -> convert (x :: y) v' = Ok c -> pf (t ++ 37 :: fl ++ text_of w ++ text_p p ++ x :: y) (code w wv) (code p pv) v' = Ok (map Byte t ++ [Conv fl wv pv c v'])) by (intros; eapply call_ok; eauto).
  destruct (cv_plain c Hc) as (P1 & P2 & P3 & P4 & _). unfold conversion.
  inversion V as [|a r|  |a r|c' args' n r I T|c' Fc|c' a r Fc Q|c' a n r Fc Na Nn M]; subst.
  - change (99 =? 99) with true. cbv iota. cbn [getchr]. rewrite K by auto. reflexivity.
  - change (99 =? 99) with true. cbv iota. cbn [getchr]. unfold first. rewrite K by auto. reflexivity.
  - change (115 =? 99) with false. change (115 =? 115) with true. cbv iota. cbn [getstr]. rewrite K by auto. reflexivity.
  - change (115 =? 99) with false. change (115 =? 115) with true. cbv iota. cbn [getstr]. rewrite K by auto. reflexivity.
  - specialize (Fi I). assert (Ic : (c =? 99) = false /\ (c =? 115) = false /\ is_int c = true /\ (c =? 88) = false) by (apply integer_vals in I as [->|[->|[->|[->| ->]]]]; auto). destruct Ic as (-> & -> & -> & X). unfold mklong. replace (64 <? _) with false by (rewrite app_length; cbn [show] in Fi; fold (text_p p) in Fi; lia). rewrite X. cbn [bind]. rewrite (getlong_ok strtol _ _ _ T).
    replace (removelast (t ++ 37 :: fl ++ text_of w ++ text_p p ++ [c]) ++ [108; c]) with (t ++ 37 :: fl ++ text_of w ++ text_p p ++ [108; c]).
    + rewrite K; [reflexivity|intros Q; apply isflag_vals in Q; lia|lia|lia|unfold isdigit; lia|]. apply integer_vals in I as [->|[->|[->|[->| ->]]]]; reflexivity.
    + replace (t ++ 37 :: fl ++ text_of w ++ text_p p ++ [c]) with ((t ++ 37 :: fl ++ text_of w ++ text_p p) ++ [c]) by (rewrite <- !app_assoc; cbn [app]; now rewrite <- !app_assoc). rewrite removelast_last. rewrite <- !app_assoc. cbn [app]. now rewrite <- !app_assoc.
  - assert (Ic : (c =? 99) = false /\ (c =? 115) = false /\ is_int c = false /\ is_double c = true /\ convert [c] (VCode 0) = Ok c) by (apply floating_vals in Fc as [->|[->|[->|[->| ->]]]]; auto). destruct Ic as (-> & -> & -> & -> & Ec). cbn [getdouble]. rewrite K by auto. reflexivity.
  - assert (Ic : (c =? 99) = false /\ (c =? 115) = false /\ is_int c = false /\ is_double c = true /\ convert [c] (VText a) = Ok c) by (apply floating_vals in Fc as [->|[->|[->|[->| ->]]]]; auto). destruct Ic as (-> & -> & -> & -> & Ec). cbn [getdouble]. replace (numeric (first a)) with true by (symmetry; apply numeric_iff; destruct Q as [->|Q]; auto). rewrite K by auto. reflexivity.
  - assert (Ic : (c =? 99) = false /\ (c =? 115) = false /\ is_int c = false /\ is_double c = true /\ convert [c] (VCode n) = Ok c) by (apply floating_vals in Fc as [->|[->|[->|[->| ->]]]]; auto). destruct Ic as (-> & -> & -> & -> & Ec). cbn [getdouble]. destruct (means_value strtol a n M) as [[E _]|[-> ->]]; [|rewrite K by auto; reflexivity]. exfalso. apply numeric_iff in E as [E|E]; [|contradiction].
    inversion M as [a' n' H' _|q b r' Q|q Q|x r' C0 C1 C2 C3]; subst; cbn in *; try lia. tauto.
Qed.

(* --- the loop ------------------------------------------------------------------------------ *)
Definition evals (m : list Z) (fmt : nat) (e : bool) (args : list (list Z)) (r : list atom * Z) : Prop := exists n0, forall n, (n0 <= n)%nat -> loop n strtol m fmt e args = Ok r.
Lemma in_skip1 b : In b skip1 <-> isflag b \/ b = 0.
Proof. unfold skip1, isflag. cbn. lia. Qed.
Lemma in_skip2 b : In b skip2 <-> b = 42 \/ isdigit b \/ b = 0.
Proof. unfold skip2, isdigit. cbn. lia. Qed.
Lemma text_skip2 s : sane s -> Forall (fun x => In x skip2) (text_of s).
Proof.
  intros H. destruct s as [|ds|]; cbn; [constructor| |].
  - specialize (H ds eq_refl). revert H. apply Forall_impl. intros a Q. apply in_skip2. auto.
  - constructor; [|constructor]. apply in_skip2. auto.
Qed.
Lemma show_nz fl w p c : good (Cv fl w p c) -> Forall (fun b => b <> 0) (show (Cv fl w p c)).
Proof.
  intros (Ff & Hw & Hp & Hc). cbn [show]. constructor; [discriminate|]. apply Forall_app. split; [revert Ff; apply Forall_impl; intros a Q; apply isflag_vals in Q; lia|].
  assert (T : forall s, sane s -> Forall (fun b => b <> 0) (text_of s)) by (intros s Q; destruct s as [|ds|]; cbn; [constructor| |repeat constructor; lia]; specialize (Q ds eq_refl); revert Q; apply Forall_impl; unfold isdigit; intros; lia).
  apply Forall_app. split; [apply T; intros ds Q; now apply Hw|]. apply Forall_app. split; [destruct p; [constructor|constructor; [discriminate|now apply T]..]|]. constructor; [|constructor]. now apply cv_plain in Hc.
Qed.
Definition has_cv (ps : list piece) : Prop := exists fl w p c, In (Cv fl w p c) ps.
Lemma lits ps : exists t ps2, ps = map Lit t ++ ps2 /\ (ps2 = [] \/ (exists q, ps2 = Pct :: q) \/ exists fl w p c q, ps2 = Cv fl w p c :: q).
Proof.
  induction ps as [|x ps (t & ps2 & -> & H)]; [exists [], []; auto|]. destruct x as [b| |fl w p c].
  - exists (b :: t), ps2. auto.
  - exists [], (Pct :: map Lit t ++ ps2). eauto.
  - exists [], (Cv fl w p c :: map Lit t ++ ps2). split; [auto|]. right. right. do 5 eexists. reflexivity.
Qed.
Lemma format_lits t ps : format (map Lit t ++ ps) = t ++ format ps.
Proof. induction t as [|b t IH]; [auto|]. cbn. now rewrite <- IH. Qed.
Lemma prints_lits t ps args o r : prints strtol (map Lit t ++ ps) args o r -> exists o', o = map Byte t ++ o' /\ prints strtol ps args o' r.
Proof.
  revert o. induction t as [|b t IH]; intros o P; [exists o; auto|]. cbn in P. inversion P; subst. destruct (IH _ ltac:(eassumption)) as (o' & -> & P'). exists o'. auto.
Qed.
Lemma fits_lits t ps n : fits n (map Lit t ++ ps) -> fits (n + length t) ps.
Proof. revert n. induction t as [|b t IH]; intros n F; cbn in *; [now rewrite Nat.add_0_r|]. apply IH in F. now rewrite Nat.add_succ_r. Qed.
Lemma scan_stop t pre x rest : Forall (fun b => b <> 0 /\ b <> 37) t -> (x = 0 \/ x = 37) ->
  scan (S (length (pre ++ t ++ x :: rest))) (pre ++ t ++ x :: rest) (length pre) =
  if x =? 0 then Ok (End (length pre + length t)) else b <- rd (pre ++ t ++ x :: rest) (S (length pre + length t)) ;; if b =? 37 then Ok (Percent (S (length pre + length t))) else Ok (Spec (S (length pre + length t))).
Proof.
  intros F X. rewrite scan_ok; [|auto|auto|rewrite !app_length; cbn; lia]. match goal with |- scan ?n _ _ = _ => replace n with (S (length pre + S (length rest)))%nat by (rewrite !app_length; cbn [length]; lia) end. cbn [scan]. rewrite app_assoc, rd_at' by (now rewrite app_length). cbn [bind]. destruct X as [->| ->]; [reflexivity|]. change (37 =? 0) with false. change (37 =? 37) with true. reflexivity.
Qed.
Lemma pass k : forall ps, (length ps <= k)%nat -> Forall good ps -> forall pre tail args o r e, fits 0 ps -> prints strtol ps args o r -> (e = true -> has_cv ps) ->
  exists m', (~ In Pct ps -> m' = pre ++ format ps ++ 0 :: tail) /\
    forall R, (r = [] -> R = (o, 0)) -> (r <> [] -> exists o2 rc, R = (o ++ o2, rc) /\ evals m' 0 true r (o2, rc)) -> evals (pre ++ format ps ++ 0 :: tail) (length pre) e args R.
Proof.
  induction k as [|k IH]; intros ps Lk G pre tail args o r e Ft P He;
  destruct (lits ps) as (t & ps2 & -> & H); apply prints_lits in P as (o' & -> & P); apply fits_lits in Ft; cbn [Nat.add] in Ft; apply Forall_app in G as [Gt G]; rewrite format_lits;
  assert (Tt : Forall (fun b => b <> 0 /\ b <> 37) t) by (rewrite Forall_map in Gt; exact Gt); assert (Tz : Forall (fun b => b <> 0) t) by (revert Tt; apply Forall_impl; tauto).
  all: destruct H as [->|[(q & ->)|(fl & w & p & c & q & ->)]]; [|try (rewrite app_length in Lk; cbn in Lk; exfalso; lia)..].
  1,2: cbn [format flat_map app]; inversion P; subst; rewrite !app_nil_r; (exists (pre ++ t ++ 0 :: tail)); (split; [rewrite ?app_nil_r; auto|]); intros R R1 R2;
    (assert (e = false) by (destruct e; auto; destruct (He eq_refl) as (fl & w & p & c & I); rewrite app_nil_r in I; apply in_map_iff in I as (? & ? & _); discriminate)); subst e;
    (assert (Es : (if (length pre <? length pre + length t)%nat then string_at (pre ++ t ++ 0 :: tail) (length pre) else Ok []) = Ok t) by (rewrite string_ok by auto; destruct t; [destruct (_ <? _)%nat; auto|replace (_ <? _)%nat with true; [auto|symmetry; apply Nat.ltb_lt; cbn; lia]]));
    (destruct r as [|a r]; [exists 1%nat; intros n Ln; destruct n as [|n]; [lia|]; cbn [loop]; rewrite scan_stop by auto; change (0 =? 0) with true; cbn [bind]; rewrite Es; cbn [bind]; now rewrite R1|]);
    destruct (R2 ltac:(discriminate)) as (o2 & rc & -> & n0 & E); (exists (S n0)); intros n Ln; (destruct n as [|n]; [lia|]); cbn [loop]; rewrite scan_stop by auto; change (0 =? 0) with true; cbn [bind]; rewrite Es; cbn [bind]; rewrite E by lia; reflexivity.
  - (* %% *)
    inversion P as [| |ps' args' o1 r' P'|]; subst. inversion G as [|? ? _ G']; subst. cbn in Ft. rewrite app_length in Lk. cbn in Lk.
    assert (He' : e = true -> has_cv q) by (intros Q; destruct (He Q) as (fl & w & p & c & I); apply in_app_or in I as [I|[I|I]]; [apply in_map_iff in I as (? & ? & _); discriminate|discriminate|exists fl, w, p, c; auto]).
    destruct (IH q ltac:(lia) G' (pre ++ t ++ [37; 0]) tail args o1 r e Ft P' He') as (m' & _ & Hm). exists m'. split; [intros N; exfalso; apply N; apply in_or_app; right; left; auto|]. intros R R1 R2.
    assert (Y : exists o2 rc, R = (o1 ++ o2, rc) /\ False \/ True) by (exists [], 0; auto). clear Y.
    assert (Hm' : exists R', evals ((pre ++ t ++ [37; 0]) ++ format q ++ 0 :: tail) (length (pre ++ t ++ [37; 0])) e args R' /\ R = (map Byte t ++ Byte 37 :: fst R', snd R')).
    { destruct r as [|a r].
      - exists (o1, 0). split; [apply Hm; [auto|congruence]|]. now rewrite R1.
      - destruct (R2 ltac:(discriminate)) as (o2 & rc & -> & Ev). exists (o1 ++ o2, rc). split; [apply Hm; [discriminate|]; eauto|]. cbn. now rewrite <- app_assoc. }
    destruct Hm' as ([oo rr] & (n0 & Ev) & ->). cbn [fst snd]. exists (S n0). intros n Ln. destruct n as [|n]; [lia|]. rewrite <- (app_assoc t). replace (t ++ format (Pct :: q) ++ 0 :: tail) with (t ++ 37 :: 37 :: format q ++ 0 :: tail) by reflexivity. cbn [loop]. rewrite scan_stop by auto. change (37 =? 0) with false. cbv iota.
    assert (Er : rd (pre ++ t ++ 37 :: 37 :: format q ++ 0 :: tail) (S (length pre + length t)) = Ok 37) by (replace (pre ++ t ++ 37 :: 37 :: format q ++ 0 :: tail) with ((pre ++ t ++ [37]) ++ 37 :: format q ++ 0 :: tail) by (now rewrite <- !app_assoc); apply rd_at'; rewrite !app_length; cbn; lia). rewrite Er. cbn [bind]. change (37 =? 37) with true. cbv iota. cbn [bind].
    assert (Ew : wr (pre ++ t ++ 37 :: 37 :: format q ++ 0 :: tail) (S (length pre + length t)) 0 = Ok (pre ++ (t ++ [37]) ++ 0 :: format q ++ 0 :: tail)) by (replace (pre ++ t ++ 37 :: 37 :: format q ++ 0 :: tail) with ((pre ++ t ++ [37]) ++ 37 :: format q ++ 0 :: tail) by (now rewrite <- !app_assoc); rewrite wr_at' by (rewrite !app_length; cbn; lia); now rewrite <- !app_assoc). rewrite Ew. cbn [bind]. rewrite string_ok by (apply Forall_app; split; [auto|repeat constructor; lia]). cbn [bind].
    replace (pre ++ (t ++ [37]) ++ 0 :: format q ++ 0 :: tail) with ((pre ++ t ++ [37; 0]) ++ format q ++ 0 :: tail) by (now rewrite <- !app_assoc). replace (S (S (length pre + length t))) with (length (pre ++ t ++ [37; 0])) by (rewrite !app_length; cbn; lia). rewrite Ev by lia. cbn [bind]. now rewrite map_app, <- app_assoc.
  - (* a conversion *)
    inversion P as [| | |fl' w' p' c' ps' args' a1 a2 a3 wv pv v o1 r' Sw Sp V P']; subst. inversion G as [|? ? Gc G']; subst. destruct Ft as [Fi Ft]. rewrite app_length in Lk. cbn in Lk.
    destruct (IH q ltac:(lia) G' (pre ++ t ++ show (Cv fl w p c)) tail a3 o1 r false Ft P' ltac:(discriminate)) as (m' & Hm0 & Hm). exists m'. split; [intros N; rewrite Hm0; [cbn [format flat_map]; now rewrite <- !app_assoc|intros Q; apply N; apply in_or_app; right; right; auto]|]. intros R R1 R2.
    assert (Hm' : exists R', evals ((pre ++ t ++ show (Cv fl w p c)) ++ format q ++ 0 :: tail) (length (pre ++ t ++ show (Cv fl w p c))) false a3 R' /\ R = (map Byte t ++ Conv fl wv pv c v :: fst R', snd R')).
    { destruct r as [|a r].
      - exists (o1, 0). split; [apply Hm; [auto|congruence]|]. now rewrite R1.
      - destruct (R2 ltac:(discriminate)) as (o2 & rc & -> & Ev). exists (o1 ++ o2, rc). split; [apply Hm; [discriminate|]; eauto|]. cbn. now rewrite <- app_assoc. }
    clear Hm Hm0 R1 R2. destruct Hm' as ([oo rr] & (n0 & Ev) & ->). cbn [fst snd]. exists (S n0). intros n Ln. destruct n as [|n]; [lia|]. pose proof Gc as (Ff & Hw & Hp & Hc). destruct (cv_plain c Hc) as (P1 & P2 & P3 & P4 & P5 & P6).
    assert (Sw' : sane w) by (intros ds Q; now apply Hw).
    set (y := format q ++ 0 :: tail) in *. assert (Ey : exists y0 y1, y = y0 :: y1) by (unfold y; destruct (format q); cbn; eauto). destruct Ey as (y0 & y1 & Ey).
    rewrite <- (app_assoc t). cbn [format flat_map]. fold (format q). rewrite <- (app_assoc (show _)). fold y. cbn [show]. fold (text_p p). set (sp := fl ++ text_of w ++ text_p p ++ [c]) in *.
    assert (Em : pre ++ t ++ (37 :: sp) ++ y = (pre ++ t ++ [37]) ++ fl ++ text_of w ++ text_p p ++ c :: y) by (unfold sp; rewrite <- !app_assoc; cbn [app]; rewrite <- !app_assoc; reflexivity).
    set (m := pre ++ t ++ (37 :: sp) ++ y) in *. set (i := S (length pre + length t)). assert (Li : i = length (pre ++ t ++ [37])) by (unfold i; rewrite !app_length; cbn; lia).
    assert (Ec : exists x z, fl ++ text_of w ++ text_p p ++ c :: y = x :: z /\ x <> 37).
    { destruct fl as [|f fl]; [|inversion Ff as [|? ? Q]; subst; do 2 eexists; split; [reflexivity|]; apply isflag_vals in Q; lia]. destruct w as [|ds|]; [destruct p; cbn; do 2 eexists; (split; [reflexivity|]); lia| |cbn; do 2 eexists; split; [reflexivity|lia]]. destruct (Hw ds eq_refl) as (F & d & r0 & -> & _). inversion F; subst. cbn. do 2 eexists. split; [reflexivity|]. unfold isdigit in *. lia. }
    destruct Ec as (x & z & Ex & Nx).
    assert (Es : scan (S (length m)) m (length pre) = Ok (Spec i)).
    { unfold m at 1 2. cbn [app]. change (length m) with (length (pre ++ t ++ 37 :: sp ++ y)). rewrite scan_stop by auto. change (37 =? 0) with false. cbv iota. change (pre ++ t ++ 37 :: sp ++ y) with m. rewrite Em, Ex. rewrite rd_at' by (rewrite !app_length; cbn; lia). cbn [bind]. now replace (x =? 37) with false by lia. }
    assert (Lm : length m = (i + (length fl + (length (text_of w) + (length (text_p p) + S (length y)))))%nat) by (rewrite Em, !app_length, Li, !app_length; cbn; lia).
    cbn [loop]. cbv zeta. change (length (pre ++ t ++ (37 :: sp) ++ y)) with (length m). rewrite Es. cbn [bind].
    destruct (after_flags w p c y Hw P1) as (x1 & z1 & E1 & N1).
    assert (K1 : skip (S (length m)) skip1 m i = Ok (i + length fl)%nat).
    { rewrite Em at 2. rewrite E1. apply skip_ok; [revert Ff; apply Forall_impl; intros; apply in_skip1; auto| |auto|lia]. rewrite in_skip1. intros [Q|Q]; [auto|]. subst x1. destruct w as [|ds|]; [destruct p; cbn in E1; congruence| |cbn in E1; congruence]. destruct (Hw ds eq_refl) as (F & d & r0 & -> & _). cbn in E1. inversion F; subst. unfold isdigit in *. injection E1 as -> _. lia. }
    rewrite K1. cbn [bind].
    assert (K2 : star strtol m (i + length fl) args = Ok (Value (code w wv) a1)).
    { apply (star_ok strtol w args wv a1 m _ x1); [auto| |].
      - rewrite Em, E1, app_assoc. apply rd_at'. rewrite app_length. lia.
      - destruct w as [|ds|]; [destruct p; cbn in E1; injection E1 as <- _; split; intros; try discriminate; lia| |cbn in E1; injection E1 as <- _; tauto]. destruct (Hw ds eq_refl) as (F & d & r0 & -> & _). inversion F; subst. cbn in E1. injection E1 as <- _. unfold isdigit in *. split; [lia|discriminate]. }
    rewrite K2. cbn [bind].
    assert (E2 : exists x2 z2, text_p p ++ c :: y = x2 :: z2 /\ ~ In x2 skip2 /\ (x2 = 46 <-> p <> None_)).
    { destruct p; cbn [text_p text_of app]; do 2 eexists; (split; [reflexivity|]); rewrite in_skip2; unfold isdigit in *; (split; [lia|]); split; intros; try discriminate; try congruence; lia. }
    destruct E2 as (x2 & z2 & E2 & N2 & D2).
    assert (K3 : skip (S (length m)) skip2 m (i + length fl) = Ok (i + length fl + length (text_of w))%nat).
    { rewrite Em at 2. rewrite E2, (app_assoc _ fl). apply skip_ok; [now apply text_skip2|auto|rewrite app_length; lia|lia]. }
    rewrite K3. cbn [bind]. set (j := (i + length fl + length (text_of w))%nat) in *.
    assert (K4 : rd m j = Ok x2) by (rewrite Em, E2, (app_assoc _ fl), (app_assoc _ (text_of w)); apply rd_at'; unfold j; rewrite Li, !app_length; lia). rewrite K4. cbn [bind].
    set (j2 := if x2 =? 46 then S j else j).
    assert (Lj : (j2 + length (text_of p) = j + length (text_p p))%nat) by (unfold j2; destruct p as [|ds|]; cbn [text_p text_of length]; [replace (x2 =? 46) with false; [lia|symmetry; apply Z.eqb_neq; intros Q; apply D2 in Q; congruence]|replace (x2 =? 46) with true; [lia|symmetry; apply Z.eqb_eq; apply D2; discriminate]..]).
    assert (E3 : exists h, m = h ++ text_of p ++ c :: y /\ length h = j2).
    { destruct p as [|ds|].
      - exists ((pre ++ t ++ [37]) ++ fl ++ text_of w). split; [rewrite Em; cbn [text_p text_of app]; now rewrite <- !app_assoc|]. cbn in Lj. rewrite !app_length. rewrite !app_length in Li. unfold j in Lj. lia.
      - exists ((pre ++ t ++ [37]) ++ fl ++ text_of w ++ [46]). split; [rewrite Em; cbn [text_p text_of app]; now rewrite <- !app_assoc|]. cbn in Lj. rewrite !app_length. rewrite !app_length in Li. unfold j in Lj. cbn. lia.
      - exists ((pre ++ t ++ [37]) ++ fl ++ text_of w ++ [46]). split; [rewrite Em; cbn [text_p text_of app]; now rewrite <- !app_assoc|]. cbn in Lj. rewrite !app_length. rewrite !app_length in Li. unfold j in Lj. cbn. lia. }
    destruct E3 as (h & Eh & Lh).
    assert (K5 : star strtol m j2 a1 = Ok (Value (code p pv) a2)).
    { destruct p as [|ds|].
      - apply (star_ok strtol None_ a1 pv a2 m _ c); [auto|rewrite Eh; apply rd_at'; auto|split; [lia|discriminate]].
      - destruct ds as [|d ds]; [apply (star_ok strtol (Num []) a1 pv a2 m _ c); [auto|rewrite Eh; apply rd_at'; auto|split; [lia|discriminate]]|]. apply (star_ok strtol (Num (d :: ds)) a1 pv a2 m _ d); [auto|rewrite Eh; apply rd_at'; auto|]. specialize (Hp _ eq_refl). inversion Hp; subst. unfold isdigit in *. split; [lia|discriminate].
      - apply (star_ok strtol Star a1 pv a2 m _ 42); [auto|rewrite Eh; apply rd_at'; auto|tauto]. }
    rewrite K5. cbn [bind].
    assert (K6 : skip (S (length m)) skip2 m j2 = Ok (j2 + length (text_of p))%nat).
    { rewrite Eh at 2. apply skip_ok; [now apply text_skip2|rewrite in_skip2; unfold isdigit in *; lia|auto|lia]. }
    rewrite K6. cbn [bind]. set (e0 := (j2 + length (text_of p))%nat) in *.
    assert (Em2 : m = (h ++ text_of p) ++ c :: y) by (rewrite Eh; now rewrite <- app_assoc).
    assert (K7 : rd m e0 = Ok c) by (rewrite Em2; apply rd_at'; rewrite app_length; unfold e0; lia). rewrite K7. cbn [bind]. replace (c =? 0) with false by lia.
    assert (Em3 : m = (h ++ text_of p ++ [c]) ++ y0 :: y1) by (rewrite Eh, Ey; now rewrite <- !app_assoc). assert (Le : S e0 = length (h ++ text_of p ++ [c])) by (rewrite !app_length; cbn; unfold e0; lia).
    assert (K8 : rd m (S e0) = Ok y0) by (rewrite Em3; now apply rd_at'). rewrite K8. cbn [bind].
    assert (Eq : h ++ text_of p ++ [c] = pre ++ t ++ 37 :: sp).
    { apply app_inv_tail with y. rewrite <- !app_assoc. cbn [app]. rewrite <- Eh. unfold m. reflexivity. }
    assert (K9 : wr m (S e0) 0 = Ok (pre ++ (t ++ 37 :: sp) ++ 0 :: y1)) by (rewrite Em3, wr_at' by auto; rewrite Eq; now rewrite <- !app_assoc). rewrite K9. cbn [bind].
    rewrite string_ok by (apply Forall_app; split; [auto|apply (show_nz fl w p c Gc)]). cbn [bind].
    pose proof (conversion_ok t fl w p c args a1 a2 a3 wv pv v ltac:(revert Tt; apply Forall_impl; tauto) Gc Fi Sw Sp V) as Ecv. cbn [show] in Ecv. fold (text_p p) in Ecv. fold sp in Ecv. rewrite Ecv. cbn [bind].
    assert (K10 : wr (pre ++ (t ++ 37 :: sp) ++ 0 :: y1) (S e0) y0 = Ok ((pre ++ t ++ 37 :: sp) ++ y)) by (replace (pre ++ (t ++ 37 :: sp) ++ 0 :: y1) with ((pre ++ t ++ 37 :: sp) ++ 0 :: y1) by (now rewrite <- !app_assoc); rewrite wr_at' by (rewrite <- Eq; exact Le); now rewrite Ey). rewrite K10. cbn [bind].
    cbn [show] in Ev. fold (text_p p) in Ev. fold sp in Ev. replace (length (pre ++ t ++ 37 :: sp)) with (S e0) in Ev by (now rewrite <- Eq). rewrite Ev by lia. cbn [bind]. now rewrite <- app_assoc.
Qed.
End Loop.
