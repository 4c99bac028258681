From Verif Require Import Base CrcSpec FutfModel FutfSpec FutfProof LfnModel LfnSpec LfnProof FdirModel FdirSpec FdirProof FdirProof2 FdirProof3 FnameModel FnameSpec FnameProof FnameProof2 FnameProof3 FnameProof4 FnameProof5 FnameProof6 FpathModel FpathSpec FpathProof FpathProof2 FpathProof3 FpathProof4 FpathProof5 FpathProof6 FpathProof7 FpathProof14.
Open Scope Z_scope.

(* --- listings ------------------------------------------------------------------------------ *)
Lemma list_tree v A total c bufs : holds_tree v A total -> In c (nodes A) -> exists out, list_dir (table v c) bufs = Ok out /\ Forall2 (lists (table v c)) out (ents A c).
Proof. intros [L V] I. destruct (vo_tabs _ _ _ _ V c I) as [[D _] R]. rewrite <- (rd_ents _ _ _ R). now apply list_ok. Qed.
Lemma listed_name d i blk buf f cs : lists d (i, blk, buf) f -> good_name cs -> named cs f -> zlen (utf8 cs) <= 255 -> exists alt, file_names (tab d i) blk buf = Ok (utf8 cs, alt).
Proof.
  intros [T B] G (last & fn & Fo & W & E12 & Sh) Le. destruct (good_clean cs G) as [Cl [_ Nl]]. rewrite T. apply (listed cs last fn); auto; [apply G|]. rewrite W in B. destruct (has (fn 11) 2); [|exact B]. destruct (utf16 cs) as [|u x] eqn:E; [cbn in Nl; lia|exact B].
Qed.
Lemma named_called cs f : good_name cs -> named cs f -> called cs f.
Proof.
  intros G (last & fn & Fo & W & E12 & Sh). apply (hit_called cs last fn f Fo). destruct f as [w e]. cbn [fst snd] in *. subst w. apply (found_again (utf16 cs) last last fn fn); auto. intros E. apply utf16_nil in E. destruct G as (_ & Q & _). auto.
Qed.
Theorem files_listed v A total c bufs : holds_tree v A total -> In c (nodes A) -> exists out, list_dir (table v c) bufs = Ok out /\
  Forall2 (fun r f => let '(i, blk, buf) := r in tab (table v c) i = snd f /\ exists cs, good_name cs /\ named cs f /\ called cs f /\ (zlen (utf8 cs) <= 255 -> exists alt, file_names (tab (table v c) i) blk buf = Ok (utf8 cs, alt))) out (ents A c).
Proof.
  intros H I. destruct (list_tree v A total c bufs H I) as (out & E & F). exists out. split; [auto|]. destruct H as [L V]. destruct (vo_tabs _ _ _ _ V c I) as [_ R]. pose proof (rd_made _ _ _ R) as M. clear E R.
  induction F as [|[[i blk] buf] f out fs Ls F IH]; [constructor|]. inversion M as [|? ? (cs & G & N) M']; subst. constructor; [|auto]. split; [apply Ls|]. exists cs. split; [auto|]. split; [auto|]. split; [now apply named_called|]. intros Le. eapply listed_name; eauto.
Qed.

(* --- f_stat -------------------------------------------------------------------------------- *)
Lemma typed_name e blk buf cs : good_name cs -> holds buf (utf16 cs) -> blk <> NONE -> zlen (utf8 cs) <= 255 -> exists alt, file_names e blk buf = Ok (utf8 cs, alt).
Proof.
  intros G H Bn L8. destruct (good_clean cs G) as [_ [_ Nl]]. assert (Sc : Forall (fun c => scalar c /\ c <> 0) cs) by (destruct G as [N _]; revert N; apply Forall_impl; intros c (S & _ & K & _); split; [auto|lia]).
  assert (Ne : utf8 cs <> []) by (intros E; pose proof (utf8_len cs ltac:(apply G)) as Q; rewrite E in Q; cbn in Q; lia).
  unfold file_names. replace (blk =? NONE) with false by lia. cbn [negb]. change 0 with (zlen []) at 1. rewrite (lfn_run buf (utf16 cs)) with (cs := cs); auto; try lia; [|unfold zlen; cbn; lia|unfold LFNBUF; lia].
  change (zlen []) with 0. replace (0 + zlen (utf8 cs) <=? 255) with true by lia. cbn [app bind]. destruct (utf8 cs); [congruence|eauto].
Qed.
Theorem stat_ok v A total path buf : holds_tree v A total -> spelled path -> units buf -> exists t r x, f_stat v path buf = Ok (r, x) /\ resolves A (cdir v) path t /\ stat_does A t r x.
Proof.
  intros [L V] Sp U. destruct (at_path _ _ _ _ V path buf Sp U) as (t & r & j & buf' & E & Re & [U' En]). unfold f_stat. rewrite E. cbn [bind]. destruct t as [c|c d|c f cs|c cs| |].
  - destruct En as (-> & _ & _ & ->). change (has 128 128) with true. cbv iota. exists (At c), R_INVALID_NAME, None. cbn. auto.
  - destruct En as (-> & Ec & I & C & Id & F & Ix & H16 & Hd & Hb). rewrite F. change (has 36 128) with false. cbv iota zeta. rewrite Ec.
    assert (B : bytes (entry v c (idx j))) by (apply (entry_bytes v A L total V c (idx j) I); destruct (vo_tabs _ _ _ _ V c I) as [[D _] R]; pose proof (dk_room _ _ D) as Rm; pose proof (rd_dots _ _ _ R) as Dt; unfold dots in Dt; replace (c =? 0) with false in Dt by lia; destruct Dt as (e1 & e2 & rr & p & El & _); rewrite El, !sizes_cons in Rm; cbn [size] in Rm; change (parts []) with 0 in Rm; pose proof (sizes_nonneg rr); unfold table in Rm; cbn [cap] in Rm; lia).
    destruct (names_safe (entry v c (idx j)) (blk j) buf' B U') as (fname & alt & En & Q1 & Q2); [easy|]. rewrite En. cbn [bind]. exists (Dot c d), R_OK, (Some (entry v c (idx j), fname, alt)). split; [auto|]. split; [auto|]. split; [auto|]. eauto 6.
  - destruct En as (-> & Ec & I & G & Fo & H & (l1 & w & e & l2 & -> & El & Ei & Eb & Ee) & J & Ca). rewrite (proj1 (proj2 (has_form _ _ _ Fo))). cbv zeta. rewrite Ec, Ei in *. rewrite Ee, Eb. destruct (file_entry _ _ _ _ V c l1 w e l2 I El) as [_ (B & _)].
    destruct (ents_made v A L total V c (w, e) I J) as (cs' & G' & N').
    assert (Sz : 0 <= sizes l1 < NONE) by (destruct (vo_tabs _ _ _ _ V c I) as [[D _] _]; pose proof (dk_cap _ _ D) as Cp; pose proof (dk_room _ _ D) as Rm; rewrite El, sizes_app, sizes_cons in Rm; cbn [size] in Rm; pose proof (sizes_nonneg l1); pose proof (sizes_nonneg l2); pose proof (parts_nonneg w); unfold MAXENT, NONE in *; lia).
    destruct (names_safe e (read_blk w (sizes l1)) buf' B U') as (fname & alt & En & _).
    { intros _. destruct (good_clean cs G) as [_ [_ Nl]]. exists (zlen (utf16 cs)). unfold zlen. split; [lia|apply H]. }
    rewrite En. cbn [bind]. exists (Found c (w, e) cs), R_OK, (Some (e, fname, alt)). split; [auto|]. split; [auto|]. split; [auto|]. exists fname, alt. split; [auto|]. cbn [fst]. split.
    + intros ->. exists cs'. split; [auto|]. split; [auto|]. intros Le. destruct N' as (last & fn & Fo' & W & E12 & Sh). cbn [fst snd read_blk] in *. destruct (good_clean cs' G') as [Cl [_ Nl]]. destruct (listed cs' last fn e NONE buf') as (alt' & En'); auto; [apply G'| |congruence].
      destruct (has (fn 11) 2); [|auto]. exfalso. rewrite <- W in Nl. cbn in Nl. lia.
    + intros Nw Le. destruct (typed_name e (read_blk w (sizes l1)) buf' cs G H) as (alt' & En'); [destruct w; [easy|]; cbn [read_blk]; lia|auto|congruence].
  - destruct En as (-> & _). exists (Free c cs), R_NO_FILE, None. cbn. auto.
  - subst r. exists NoPath, R_NO_PATH, None. cbn. auto.
  - subst r. exists Invalid, R_INVALID_NAME, None. cbn. auto.
Qed.
