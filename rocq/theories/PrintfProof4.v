From Verif Require Import Base PrintfModel PrintfSpec PrintfProof PrintfProof2 PrintfProof3.
Open Scope Z_scope.

Lemma escapes s : Forall (fun b => b <> 0) s -> (exists t, escaped s t) /\
  forall t, escaped s t -> exists rest, escape (S (S (length s))) (s ++ [0]) 0 0 = Ok (t ++ 0 :: rest) /\ (length t + length rest = length s)%nat.
Proof. intros F. split; [apply (escaped_all (length s)); auto|]. intros t E. now apply escape_ok. Qed.
Section Main.
Variable strtol : strtol_t.
Lemma main_evals s ps args r : Forall (fun b => b <> 0) s -> escaped s (format ps) -> (forall tail, evals strtol (format ps ++ 0 :: tail) 0 false args r) -> exists n0, forall n, (n0 <= n)%nat -> printf_main n strtol (s :: args) = Ok r.
Proof.
  intros F E H. destruct (escape_ok s (format ps) F E) as (rest & Q & _). destruct (H rest) as (n0 & Hn). exists n0. intros n L. cbn [printf_main]. rewrite Q. cbn [bind]. auto.
Qed.
Lemma once s ps args o : Forall (fun b => b <> 0) s -> escaped s (format ps) -> Forall good ps -> fits 0 ps -> prints strtol ps args o [] -> exists n0, forall n, (n0 <= n)%nat -> printf_main n strtol (s :: args) = Ok (o, 0).
Proof.
  intros F E G Ft P. apply (main_evals s ps); auto. intros tail. destruct (pass strtol (length ps) ps ltac:(lia) G [] tail args o [] false Ft P ltac:(discriminate)) as (m' & _ & H). apply H; [auto|congruence].
Qed.
Lemma again ps tail : Forall good ps -> fits 0 ps -> ~ In Pct ps -> forall args o, repeats strtol ps args o -> forall e, (e = true -> has_cv ps) -> evals strtol (format ps ++ 0 :: tail) 0 e args (o, 0).
Proof.
  intros G Ft N args o R. induction R as [args o P|args o r o2 P Nr C R IH]; intros e He.
  - destruct (pass strtol (length ps) ps ltac:(lia) G [] tail args o [] e Ft P He) as (m' & _ & H). apply H; [auto|congruence].
  - destruct (pass strtol (length ps) ps ltac:(lia) G [] tail args o r e Ft P He) as (m' & M & H). specialize (M N). subst m'. apply H; [congruence|]. intros _. exists o2, 0. split; [auto|]. apply IH. auto.
Qed.
Lemma many s ps args o : Forall (fun b => b <> 0) s -> escaped s (format ps) -> Forall good ps -> fits 0 ps -> ~ In Pct ps -> repeats strtol ps args o -> exists n0, forall n, (n0 <= n)%nat -> printf_main n strtol (s :: args) = Ok (o, 0).
Proof.
  intros F E G Ft N R. apply (main_evals s ps); auto. intros tail. apply again; auto. discriminate.
Qed.
(* plain text and arguments *)
Lemma plain s t args : Forall (fun b => b <> 0) s -> escaped s t -> Forall (fun b => b <> 0 /\ b <> 37) t -> args <> [] -> exists n0, forall n, (n0 <= n)%nat -> printf_main n strtol (s :: args) = Ok (map Byte t ++ [Msg Missing []], 1).
Proof.
  intros F E G Na. assert (Ef : format (map Lit t) = t) by (rewrite <- (app_nil_r (map Lit t)), format_lits; cbn; apply app_nil_r).
  assert (Gl : Forall good (map Lit t)) by (rewrite Forall_map; exact G). assert (Fl : forall n, fits n (map Lit t)) by (clear; induction t; intros n; cbn; auto).
  assert (P : prints strtol (map Lit t) args (map Byte t) args) by (clear; induction t; cbn; constructor; auto).
  apply (main_evals s (map Lit t)); auto; [now rewrite Ef|]. intros tail. destruct (pass strtol (length (map Lit t)) (map Lit t) ltac:(lia) Gl [] tail args _ args false (Fl _) P ltac:(discriminate)) as (m' & M & H). apply H; [congruence|]. intros _. exists [Msg Missing []], 1. split; [auto|]. rewrite M by (intros Q; apply in_map_iff in Q as (? & ? & _); discriminate). rewrite Ef. exists 1%nat. intros n L. destruct n; [lia|]. cbn [loop app]. pose proof (scan_stop t [] 0 tail G ltac:(auto)) as Es. cbn [app length Nat.add] in Es. rewrite Es. reflexivity.
Qed.

(* --- what goes wrong ----------------------------------------------------------------------- *)
Lemma escape_plain s : Forall (fun b => b <> 0 /\ b <> 92) s -> escape (S (S (length s))) (s ++ [0]) 0 0 = Ok (s ++ [0]).
Proof.
  intros F. assert (E : escaped s s) by (clear - F; induction F as [|b s [_ H] F IH]; constructor; auto). destruct (escape_ok s s ltac:(revert F; apply Forall_impl; tauto) E) as (rest & Q & L). rewrite Q. replace rest with (@nil Z); auto. destruct rest; auto. cbn in L. lia.
Qed.
Lemma skip_off set l : In 0 set -> Forall (fun x => In x set) l -> forall a n fuel, n = length a -> (S (length l) < fuel)%nat -> skip fuel set (a ++ l ++ [0]) n = Ub.
Proof.
  intros Z F. induction F as [|x l H F IH]; intros a n fuel -> L; (destruct fuel as [|fuel]; [cbn in L; lia|]).
  - cbn [skip app]. rewrite rd_at. cbn [bind]. replace (existsb (Z.eqb 0) set) with true by (symmetry; apply existsb_exists; exists 0; split; [auto|reflexivity]). destruct fuel as [|fuel]; [cbn in L; lia|].
    cbn [skip]. unfold rd. replace (nth_error _ _) with (@None BinNums.Z); [reflexivity|]. symmetry. apply nth_error_None. rewrite app_length. cbn. lia.
  - cbn [skip app]. rewrite rd_at. cbn [bind]. replace (existsb (Z.eqb x) set) with true by (symmetry; apply existsb_exists; exists x; split; [auto|apply Z.eqb_refl]). replace (a ++ x :: l ++ [0]) with ((a ++ [x]) ++ l ++ [0]) by (now rewrite <- app_assoc). apply IH; [rewrite app_length; cbn; lia|cbn in L; lia].
Qed.
(* a percent sign and flags at the end *)
Lemma percent_end t fl args : Forall (fun b => b <> 0 /\ b <> 37 /\ b <> 92) t -> Forall isflag fl -> forall n, printf_main (S n) strtol ((t ++ 37 :: fl) :: args) = Ub.
Proof.
  intros Ft Ff n. cbn [printf_main]. rewrite escape_plain. 2: { apply Forall_app. split; [revert Ft; apply Forall_impl; tauto|]. constructor; [split; discriminate|]. revert Ff. apply Forall_impl. intros a Q. apply isflag_vals in Q. lia. }
  cbn [bind loop]. cbv zeta. rewrite <- app_assoc. cbn [app]. pose proof (scan_stop t [] 37 (fl ++ [0]) ltac:(revert Ft; apply Forall_impl; tauto) ltac:(auto)) as Es. cbn [app length Nat.add] in Es. rewrite Es. change (37 =? 0) with false. cbv iota.
  replace (t ++ 37 :: fl ++ [0]) with ((t ++ [37]) ++ fl ++ [0]) by (now rewrite <- app_assoc).
  assert (Er : exists b, rd ((t ++ [37]) ++ fl ++ [0]) (S (length t)) = Ok b /\ b <> 37).
  { destruct fl as [|f fl]; [exists 0|exists f]; (split; [apply rd_at'; rewrite app_length; cbn; lia|]); [lia|]. inversion Ff as [|? ? Q]; subst. apply isflag_vals in Q. lia. }
  destruct Er as (b & Er & Nb). rewrite Er. cbn [bind]. replace (b =? 37) with false by lia. cbn [bind]. rewrite skip_off; [reflexivity|cbn; tauto| |rewrite app_length; cbn; lia|rewrite !app_length; cbn; lia]. revert Ff. apply Forall_impl. intros a Q. apply in_skip1. auto.
Qed.
(* much text before an integer *)
Lemma long_text t args : Forall (fun b => b <> 0 /\ b <> 37 /\ b <> 92) t -> (61 <= length t)%nat -> forall n, printf_main (S n) strtol ((t ++ [37; 100]) :: args) = Ub.
Proof.
  intros Ft L n. cbn [printf_main]. rewrite escape_plain. 2: { apply Forall_app. split; [revert Ft; apply Forall_impl; tauto|repeat constructor; discriminate]. }
  cbn [bind loop]. cbv zeta. rewrite <- app_assoc. cbn [app]. pose proof (scan_stop t [] 37 [100; 0] ltac:(revert Ft; apply Forall_impl; tauto) ltac:(auto)) as Es. cbn [app length Nat.add] in Es. rewrite Es. change (37 =? 0) with false. cbv iota.
  set (m := t ++ [37; 100; 0]). set (i := S (length t)). assert (Em : m = (t ++ [37]) ++ [] ++ 100 :: [0]) by (unfold m; now rewrite <- app_assoc). assert (Li : i = length (t ++ [37])) by (unfold i; rewrite app_length; cbn; lia).
  assert (K0 : rd m i = Ok 100) by (rewrite Em; apply rd_at'; auto). rewrite K0. cbn [bind]. change (100 =? 37) with false. cbv iota. cbn [bind].
  assert (Ks : forall set, ~ In 100 set -> skip (S (length m)) set m i = Ok i) by (intros set Q; rewrite Em at 2; rewrite (skip_ok set []); [cbn; now rewrite Nat.add_0_r|constructor|auto|auto|cbn; lia]).
  rewrite Ks by (cbn; lia). cbn [bind]. assert (Kt : star strtol m i args = Ok (Value 0 args)) by (unfold star; rewrite K0; reflexivity). rewrite Kt. cbn [bind]. rewrite Ks by (cbn; lia). cbn [bind]. rewrite K0. cbn [bind]. change (100 =? 46) with false. cbv iota. rewrite Kt. cbn [bind]. rewrite Ks by (cbn; lia). cbn [bind]. rewrite K0. cbn [bind]. change (100 =? 0) with false. cbv iota.
  assert (K1 : rd m (S i) = Ok 0) by (replace m with ((t ++ [37; 100]) ++ [0]) by (unfold m; now rewrite <- app_assoc); apply rd_at'; unfold i; rewrite app_length; cbn; lia). rewrite K1. cbn [bind].
  assert (K2 : wr m (S i) 0 = Ok ([] ++ (t ++ [37; 100]) ++ 0 :: [])) by (replace m with ((t ++ [37; 100]) ++ [0]) by (unfold m; now rewrite <- app_assoc); apply wr_at'; unfold i; rewrite app_length; cbn; lia). rewrite K2. cbn [bind].
  assert (K3 : string_at ([] ++ (t ++ [37; 100]) ++ [0]) 0 = Ok (t ++ [37; 100])) by (apply (string_ok []); apply Forall_app; split; [revert Ft; apply Forall_impl; tauto|repeat constructor; discriminate]).
  rewrite K3. cbn [bind]. unfold conversion. change (100 =? 99) with false. change (100 =? 115) with false. change (is_int 100) with true. cbv iota. unfold mklong. replace (64 <? _) with true by (rewrite app_length; cbn [length]; lia). reflexivity.
Qed.
End Main.

(* --- only what strtol says of the arguments matters ---------------------------------------- *)
Section Ext.
Variable f g : strtol_t.
Definition same (args : list (list Z)) : Prop := Forall (fun a => f a = g a) args.
Lemma getlong_ext args : same args -> getlong f args = getlong g args /\ forall n r, getlong g args = Value n r -> same r.
Proof.
  intros H. inversion H as [|a r E F]; subst; cbn [getlong]; [split; [auto|]; intros n r Q; inversion Q; subst; clear Q; constructor|]. rewrite E. split; [auto|]. intros n r' Q. destruct (numeric (first a)); [|inversion Q; subst; clear Q; auto]. destruct (g a) as [[val k] err]. destruct (negb _); [discriminate|]. destruct err; [discriminate|]. inversion Q; subst; clear Q. auto.
Qed.
Lemma star_ext m i args : same args -> star f m i args = star g m i args /\ forall n r, star g m i args = Ok (Value n r) -> same r.
Proof.
  intros H. unfold star. destruct (rd m i) as [b| |]; cbn; [|split; [auto|discriminate]..]. destruct (b =? 42); [|split; [auto|]; intros n r Q; inversion Q; subst; clear Q; auto]. unfold getint. destruct (getlong_ext args H) as [-> K]. split; [auto|]. intros n r. destruct (getlong g args) as [v r'|]; [|discriminate]. destruct (65535 <? v); [destruct r'; discriminate|]. intros Q. inversion Q; subst; clear Q. eauto.
Qed.
Lemma conversion_ext str c a b args : same args -> conversion f str c a b args = conversion g str c a b args /\ forall o r, conversion g str c a b args = Ok (o, Some r) -> same r.
Proof.
  intros H. unfold conversion. destruct (c =? 99); [|destruct (c =? 115); [|destruct (is_int c); [|destruct (is_double c)]]].
  - split; [auto|]. intros o r. destruct H; cbn; (destruct (pf _ _ _ _); cbn; try discriminate; intros Q; inversion Q; subst; clear Q; [constructor || auto]).
  - split; [auto|]. intros o r. destruct H; cbn; (destruct (pf _ _ _ _); cbn; try discriminate; intros Q; inversion Q; subst; clear Q; [constructor || auto]).
  - destruct (mklong str c) as [buf| |]; cbn; [|split; [auto|discriminate]..]. destruct (getlong_ext args H) as [-> K]. split; [auto|]. intros o r. destruct (getlong g args) as [v r'|]; [|discriminate]. destruct (pf _ _ _ _); cbn; try discriminate. intros Q. inversion Q; subst; clear Q. eauto.
  - split; [auto|]. intros o r. destruct H; cbn; (destruct (pf _ _ _ _); cbn; try discriminate; intros Q; inversion Q; subst; clear Q; [constructor || auto]).
  - split; [auto|discriminate].
Qed.
Lemma loop_ext n : forall m fmt e args, same args -> loop n f m fmt e args = loop n g m fmt e args.
Proof.
  induction n as [|n IH]; intros m fmt e args H; [auto|]. cbn [loop]. cbv zeta. destruct (scan _ m fmt) as [[i|i|i]| |]; cbn [bind]; auto.
  - destruct e; auto. destruct (if (fmt <? i)%nat then _ else _); cbn [bind]; auto. destruct args; auto. rewrite IH by auto. auto.
  - destruct (wr m i 0); cbn [bind]; auto. destruct (string_at _ _); cbn [bind]; auto. rewrite IH by auto. auto.
  - destruct (skip _ skip1 m i) as [i1| |]; cbn [bind]; auto. destruct (star_ext m i1 args H) as [-> K]. destruct (star g m i1 args) as [[fw r1|]| |]; cbn [bind]; auto. specialize (K _ _ eq_refl).
    destruct (skip _ skip2 m i1) as [i2| |]; cbn [bind]; auto. destruct (rd m i2) as [b| |]; cbn [bind]; auto. set (i3 := if b =? 46 then S i2 else i2). destruct (star_ext m i3 r1 K) as [-> K2]. destruct (star g m i3 r1) as [[pw r2|]| |]; cbn [bind]; auto. specialize (K2 _ _ eq_refl).
    destruct (skip _ skip2 m i3) as [i4| |]; cbn [bind]; auto. destruct (rd m i4) as [c| |]; cbn [bind]; auto. destruct (c =? 0); auto. destruct (rd m (S i4)); cbn [bind]; auto. destruct (wr m (S i4) 0); cbn [bind]; auto. destruct (string_at _ fmt) as [str| |]; cbn [bind]; auto.
    destruct (conversion_ext str c fw pw r2 K2) as [-> K3]. destruct (conversion g str c fw pw r2) as [[o [r3|]]| |]; cbn [bind]; auto. destruct (wr _ _ _); cbn [bind]; auto. rewrite IH; eauto.
Qed.
Lemma main_ext n args : same (tl args) -> printf_main n f args = printf_main n g args.
Proof. intros H. destruct args as [|s args]; [auto|]. cbn [printf_main tl] in *. destruct (escape _ _ _ _); cbn [bind]; auto. now apply loop_ext. Qed.
End Ext.
