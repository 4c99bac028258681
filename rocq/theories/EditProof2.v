(* Statements in the form used by EditProps.v. *)
From Verif Require Import Base Arr ArrLemmas Utf8Model Utf8Spec Utf8Proof EditModel EditSpec EditKeys EditProof.
Open Scope Z_scope.

Definition hist_cap (h : option (list Z)) : nat := match h with Some _ => 127 | None => 0 end.

Lemma drop_last_len b : (length (drop_last b) <= length b)%nat.
Proof. destruct (exists_last_or_nil b) as [-> | (b' & c & ->)]; [auto|]. rewrite drop_last_app. len. Qed.

Lemma zstep_len cap z a m : (length (text z) <= m)%nat -> (cap <= m)%nat -> (hist_cap (history z) <= m)%nat ->
  (length (saved z) <= 127)%nat ->
  (length (text (zstep cap z a)) <= m)%nat /\ (hist_cap (history (zstep cap z a)) <= m)%nat /\
  (length (saved (zstep cap z a)) <= 127)%nat.
Proof.
  destruct z as [b r s o h]. unfold text. cbn [before after saved history]. rewrite app_length. intros H1 H2 H3 H4.
  destruct a; cbn [zstep].
  - destruct (Nat.ltb_spec (length b + length r) cap); cbn [before after saved history]; len.
  - cbn [before after saved history]. len.
  - cbn [before after saved history]. pose proof (drop_last_len b). len.
  - cbn [before after saved history]. destruct r; cbn [tl]; len.
  - destruct (exists_last_or_nil b) as [-> | (b' & c & ->)]; [cbn; lia|].
    rewrite rev_app_distr, drop_last_app. cbn [rev app before after saved history]. len.
  - destruct r; cbn [before after saved history]; len.
  - cbn [before after saved history]. len.
  - cbn [before after saved history]. len.
  - cbn [before after saved history length app]. lia.
  - cbn [before after saved history]. len.
  - destruct o; [cbn [before after saved history]; len|]. destruct h as [t|]; [|cbn [before after saved history]; len].
    cbn [before after saved history hist_cap] in *. rewrite app_length, !cut_len. cbn [length]. lia.
  - destruct o; [|cbn [before after saved history]; len]. destruct h as [t|]; [|cbn [before after saved history]; len].
    cbn [before after saved history hist_cap] in *. rewrite app_length. cbn [length]. lia.
  - cbn [before after saved history]. len.
Qed.

Lemma zrun_len cap m keys : (cap <= m)%nat -> forall z, (length (text z) <= m)%nat -> (hist_cap (history z) <= m)%nat ->
  (length (saved z) <= 127)%nat -> (length (text (fst (zrun cap z keys))) <= m)%nat.
Proof.
  intros Hc. induction keys as [|k ks IH]; intros z H1 H2 H3; [auto|]. rewrite zrun_cons. cbv zeta.
  destruct (zstep_len cap z (key_action k) m) as (G1 & G2 & G3); auto.
  destruct (is_enter _); cbn [fst]; auto.
Qed.

Lemma editline_wf n cap buf clear pw ptail junk prev h t0 keys : Forall wide pw -> Forall wide t0 ->
  (if clear : bool then t0 = [] /\ buf <> [] else holds buf t0) -> length buf = n -> length junk = 128%nat ->
  hist_rel prev h n -> (S cap <= n)%nat -> Z.of_nat n < 2 ^ 32 -> Forall (fun k => 0 <= k < 65536) keys ->
  exists s out fin t, editline buf (Z.of_nat (S cap)) clear (utf8 pw ++ 0 :: ptail) junk prev keys = Ok (s, out, fin) /\
    holds (e_buf s) t /\ Forall wide t /\ length (e_buf s) = n /\ (e_pos s <= length t)%nat /\
    (length t <= Nat.max cap (Nat.max (length t0) (match h with Some _ => 127 | None => 0 end)))%nat.
Proof.
  intros Hpw Ht Hb Hn Hj Hh Hc H32 Hk.
  destruct (editline_ok n cap buf clear pw ptail junk prev h t0 keys) as (s & E & HR); auto.
  assert (Hl : (length (text (fst (zrun cap (zstart t0 h) keys))) <= Nat.max cap (Nat.max (length t0) (hist_cap h)))%nat).
  { apply zrun_len; unfold zstart, text; cbn [before after saved history]; rewrite ?app_nil_r; cbn [length]; lia. }
  destruct (zrun cap (zstart t0 h) keys) as [z fin] eqn:Ez. cbn [fst snd] in *.
  exists s. eexists. exists fin, (text z). split; [exact E|].
  destruct HR as (G1 & G2 & G3 & _ & _ & _ & G4 & G5 & _). split; [auto|].
  split; [unfold text; apply Forall_app; auto|]. split; [auto|]. split; [rewrite G3; unfold text; len|]. exact Hl.
Qed.

Lemma editline_text n cap buf clear pw ptail junk prev h t0 keys : Forall wide pw -> Forall wide t0 ->
  (if clear : bool then t0 = [] /\ buf <> [] else holds buf t0) -> length buf = n -> length junk = 128%nat ->
  hist_rel prev h n -> (S cap <= n)%nat -> Z.of_nat n < 2 ^ 32 -> Forall (fun k => 0 <= k < 65536) keys ->
  exists s out fin z, editline buf (Z.of_nat (S cap)) clear (utf8 pw ++ 0 :: ptail) junk prev keys = Ok (s, out, fin) /\
    zrun cap (zstart t0 h) keys = (z, fin) /\
    holds (e_buf s) (text z) /\ e_pos s = length (before z) /\ hist_rel (e_prev s) (history z) n.
Proof.
  intros Hpw Ht Hb Hn Hj Hh Hc H32 Hk.
  destruct (editline_ok n cap buf clear pw ptail junk prev h t0 keys) as (s & E & HR); auto.
  destruct (zrun cap (zstart t0 h) keys) as [z fin] eqn:Ez. cbn [fst snd] in *.
  exists s. eexists. exists fin, z. split; [exact E|].
  destruct HR as (G1 & G2 & G3 & _ & _ & _ & G4 & G5 & _ & _ & G6). auto.
Qed.

(* fpm_shell passes an array of 128 characters as 256; cmd_remove.c and others
   pass 32 characters as 64. *)
Lemma shell_buffer_overflow : exists keys, Forall (fun k => 0 <= k < 65536) keys /\
  forall buf junk prev, length buf = 128%nat -> length junk = 128%nat -> hist_rel prev (Some []) 128 ->
  editline buf 256 true [0] junk prev keys = Ub.
Proof.
  exists (repeat 97 127 ++ [97]). split.
  { apply Forall_app. split; [|constructor; [lia|constructor]]. apply Forall_forall. intros k Hk. apply repeat_spec in Hk. lia. }
  intros buf junk prev Hb Hj Hh.
  (* The limit 255 gives the same run as 127 while the line has fewer than 127 characters. *)
  assert (S : forall ks st z, R 128 st z -> (length (text z) + ks <= 127)%nat ->
    exists st' o z', keys_loop 256 [0] st (repeat 97 ks ++ [97]) = (x <- step 256 [0] st' 97 ;; let '(a, b, f) := x in
       if f : bool then Ok (a, o ++ b, true) else Ok (a, o ++ b, false)) /\ R 128 st' z' /\ (length (text z') = length (text z) + ks)%nat).
  { induction ks as [|ks IH]; intros st z HRz Hl.
    - exists st, [], z. split; [|split; [auto|lia]]. cbn [repeat app keys_loop].
      destruct (step 256 [0] st 97) as [[[a b] []]| |]; cbn [bind]; auto. rewrite app_nil_r. auto.
    - cbn [repeat app keys_loop].
      destruct (astep_ok 128 127 [] [] st z (Insert 97)) as (st1 & E1 & HR1); auto; try lia; try (unfold wide; lia).
      cbn [is_enter] in E1.
      assert (E2 : step 256 [0] st 97 = Ok (st1, utf8 (zout 127 [] z (Insert 97)), false)).
      { rewrite step_action. change (key_action 97) with (Insert 97). rewrite <- E1. destruct st as [b p nx on pr]. cbn [astep].
        change (utf8 [] ++ 0 :: []) with [0].
        destruct HRz as ((rest & HB) & Hn & Hp & _ & _ & _ & Wb & Wr & _). cbn [e_buf] in *. rewrite HB.
        unfold text in *. rewrite <- app_assoc. rewrite len_text by auto. cbn [bind].
        rewrite !Z.mod_small by lia. rewrite app_length in Hl.
        destruct (Z.ltb_spec (Z.of_nat (length (before z) + length (after z))) (256 - 1)); [|lia].
        destruct (Z.ltb_spec (Z.of_nat (length (before z) + length (after z))) (Z.of_nat 128 - 1)); [|lia]. auto. }
      rewrite E2. cbn [bind].
      assert (Hl1 : length (text (zstep 127 z (Insert 97))) = S (length (text z))).
      { destruct z as [b r sv o h]. unfold text in *. cbn [before after] in *. cbn [zstep].
        destruct (Nat.ltb_spec (length b + length r) 127); [|len]. cbn [before after]. len. }
      destruct (IH st1 _ HR1) as (st' & o & z' & E3 & HR3 & Hl3); [lia|].
      rewrite E3. exists st', (utf8 (zout 127 [] z (Insert 97)) ++ o), z'. split; [|split; [auto|lia]].
      destruct (step 256 [0] st' 97) as [[[a b] []]| |]; cbn [bind]; auto; rewrite app_assoc; auto. }
  unfold editline. destruct (start_ok 128 buf true [] [] junk prev (Some []) []) as (s0 & E0 & HR0);
    try (constructor; fail); auto.
  { split; auto. intros ->. discriminate. }
  change (utf8 [] ++ 0 :: []) with [0] in E0. rewrite E0. cbn [bind].
  destruct (S 127%nat s0 _ HR0) as (st' & o & z' & E3 & HR3 & Hl3); [cbn; lia|]. rewrite E3. clear E3 S.
  assert (EU : step 256 [0] st' 97 = Ub).
  { rewrite step_action. change (key_action 97) with (Insert 97). destruct st' as [b p nx on pr]. cbn [astep].
    destruct HR3 as ((rest & HB) & Hn & Hp & _ & _ & _ & Wb & Wr & _). cbn [e_buf e_pos] in *. rewrite HB in *.
    unfold text in *. rewrite <- app_assoc in *. rewrite len_text by auto. cbn [bind].
    assert (length (before z') + length (after z') = 127)%nat by (rewrite app_length in Hl3; exact Hl3).
    rewrite Z.mod_small by lia.
    destruct (Z.ltb_spec (Z.of_nat (length (before z') + length (after z'))) (256 - 1)); [|lia].
    rewrite udiff_ok by lia. unfold memmove.
    rewrite Hn. destruct (Nat.leb_spec (S p + (S (length (before z') + length (after z')) - p)) 128); [lia|]. auto. }
  rewrite EU. auto.
Qed.
