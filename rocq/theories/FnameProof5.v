From Verif Require Import Base CrcSpec FutfModel FutfSpec FutfProof LfnModel LfnSpec LfnProof FdirModel FdirSpec FdirProof FdirProof2 FnameModel FnameSpec FnameProof FnameProof2 FnameProof3 FnameProof4.
Open Scope Z_scope.

(* --- listing long names ------------------------------------------------------------------ *)
Lemma put_len u n : 0 <= u < 4294967296 -> 0 <= n -> zlen (put_utf u n) <= n.
Proof.
  intros U N. destruct (encode_any u n U N) as [(c & Sc & _ & ->)|[_ ->]]; [|unfold zlen; cbn; lia].
  destruct (Z.ltb_spec n (utf8_count c)); [unfold zlen; cbn; lia|]. unfold zlen. destruct (utf8_len' c) as [-> _]; [unfold scalar in Sc; lia|lia].
Qed.
Lemma surr_hi c : 55296 <= c < 57344 -> is_surrogate c = true.
Proof. unfold is_surrogate. lia. Qed.
Lemma utf8_zlen c : scalar c -> zlen (utf8_of c) = utf8_count c /\ 1 <= utf8_count c <= 4.
Proof. intros S. apply utf8_len'. unfold scalar in S. lia. Qed.

Lemma lfn_char fuel lfn x a b c out : holds lfn x -> (length x <= 255)%nat -> x = a ++ units_of c ++ b -> scalar c -> c <> 0 -> zlen out <= 255 ->
  lfn_loop (length (units_of c) + fuel) lfn (zlen a) 0 out = if zlen out + utf8_count c <=? 255 then lfn_loop fuel lfn (zlen a + zlen (units_of c)) 0 (out ++ utf8_of c) else Ok [].
Proof.
  intros H L E Sc C0 Lo. pose proof (zlen_nonneg a). pose proof (zlen_nonneg b). pose proof (zlen_nonneg out). pose proof (zlen_units c).
  assert (Zx : zlen x = zlen a + zlen (units_of c) + zlen b) by (rewrite E, !zlen_app; lia).
  assert (Put : put_utf (utf16_of c) (LFN_BUF - len out) = if zlen out + utf8_count c <=? 255 then utf8_of c else []).
  { unfold LFN_BUF. fold (zlen out). rewrite encode_ok by (auto; unfold len; unfold zlen in *; lia). unfold len. fold (zlen out). destruct (Z.ltb_spec (255 - zlen out) (utf8_count c)); [now replace (zlen out + utf8_count c <=? 255) with false by lia|now replace (zlen out + utf8_count c <=? 255) with true by lia]. }
  destruct (utf8_zlen c Sc) as [Zc Zc2].
  assert (Fin : match (if zlen out + utf8_count c <=? 255 then utf8_of c else []) with [] => Ok [] | bs => lfn_loop fuel lfn (zlen a + zlen (units_of c)) 0 (out ++ bs) end = if zlen out + utf8_count c <=? 255 then lfn_loop fuel lfn (zlen a + zlen (units_of c)) 0 (out ++ utf8_of c) else Ok []).
  { destruct (_ <=? _); [|auto]. destruct (utf8_of c); [unfold zlen in Zc; cbn in Zc; lia|auto]. }
  unfold scalar in Sc. destruct (Z.ltb_spec c 65536) as [Lc|Hc].
  - assert (Eu : units_of c = [c]) by (unfold units_of; now replace (c <? 65536) with true by lia). assert (E16 : utf16_of c = c) by (unfold utf16_of; now replace (c <? 65536) with true by lia).
    rewrite Eu in *. change (zlen [c]) with 1 in *. cbn [length Nat.add lfn_loop]. rewrite (rd_x lfn x) by (auto; lia). rewrite E. cbn [app]. rewrite xat_app0. cbn [bind].
    replace (c =? 0) with false by lia. replace (is_surrogate c) with false by (unfold is_surrogate; lia). cbn [andb Z.eqb]. rewrite Z.mul_0_l, Z.add_0_l. rewrite E16 in Put. rewrite Put. exact Fin.
  - destruct (pair_split c ltac:(lia)) as (Eu & _ & _ & _ & Hh & Hl). set (h := 55296 + _) in *. set (l := 56320 + _) in *. assert (E16 : utf16_of c = h * 65536 + l) by (unfold utf16_of; now replace (c <? 65536) with false by lia). clearbody h l.
    rewrite Eu in *. change (zlen [h; l]) with 2 in *. cbn [length Nat.add lfn_loop]. rewrite (rd_x lfn x) by (auto; lia). rewrite E at 1. cbn [app]. rewrite xat_app0. cbn [bind].
    replace (h =? 0) with false by lia. rewrite surr_hi by lia. cbn [andb Z.eqb]. rewrite (rd_x lfn x) by (auto; lia). rewrite E at 1. cbn [app]. rewrite xat_app by (rewrite !zlen_cons; lia). change (xat (h :: l :: b) 1) with l. cbn [bind].
    replace (l =? 0) with false by lia. replace (h =? 0) with false by lia. cbn [andb]. rewrite <- E16, Put. rewrite <- Fin. replace (zlen a + 1 + 1) with (zlen a + 2) by lia. reflexivity.
Qed.
Lemma lfn_run lfn x : holds lfn x -> (length x <= 255)%nat -> forall cs a fuel out, x = a ++ utf16 cs -> Forall (fun c => scalar c /\ c <> 0) cs -> zlen out <= 255 -> (length (utf16 cs) < fuel)%nat ->
  lfn_loop fuel lfn (zlen a) 0 out = Ok (if zlen out + zlen (utf8 cs) <=? 255 then out ++ utf8 cs else []).
Proof.
  intros H L. induction cs as [|c cs IH]; intros a fuel out E F Lo Fu.
  - unfold utf8, utf16 in *. cbn [flat_map] in *. change (zlen []) with 0. replace (zlen out + 0 <=? 255) with true by lia. rewrite app_nil_r in *. subst a. destruct fuel as [|fuel]; [lia|]. cbn [lfn_loop]. rewrite (rd_x lfn x) by (auto; pose proof (zlen_nonneg x); lia). rewrite xat_end. reflexivity.
  - apply Forall_cons_iff in F as [[Sc C0] F']. unfold utf8, utf16 in *. cbn [flat_map] in *. rewrite app_length in Fu.
    replace fuel with (length (units_of c) + (fuel - length (units_of c)))%nat by lia. rewrite (lfn_char _ lfn x a (flat_map units_of cs) c) by auto. destruct (utf8_zlen c Sc) as [Zc Zc2]. rewrite zlen_app, Zc. pose proof (zlen_nonneg (flat_map utf8_of cs)).
    destruct (Z.leb_spec (zlen out + utf8_count c) 255); [|now replace (zlen out + (utf8_count c + zlen (flat_map utf8_of cs)) <=? 255) with false by lia].
    replace (zlen a + zlen (units_of c)) with (zlen (a ++ units_of c)) by (rewrite zlen_app; auto). rewrite IH; [|now rewrite <- app_assoc|auto|rewrite zlen_app; lia|lia].
    rewrite zlen_app, Zc, Z.add_assoc, <- app_assoc. reflexivity.
Qed.

(* --- short names -------------------------------------------------------------------------- *)
Lemma oem_ascii c : 0 <= c < 128 -> ff_oem2uni c = c.
Proof. reflexivity. Qed.
Lemma put_ascii c n : 0 <= c < 128 -> 1 <= n -> put_utf c n = [c].
Proof.
  intros C N. assert (E : utf16_of c = c) by (unfold utf16_of; now replace (c <? 65536) with true by lia). rewrite <- E at 1. rewrite encode_ok by (unfold scalar; lia).
  unfold utf8_count. replace (c <? 128) with true by lia. replace (n <? 1) with false by lia. now apply ascii_utf8.
Qed.
Lemma alt_one n e si out c : e si = c -> 33 <= c <= 126 -> zlen out + (if si =? 8 then 2 else 1) <= 12 -> alt_loop (S n) e si out = alt_loop n e (si + 1) ((if si =? 8 then out ++ [46] else out) ++ [c]).
Proof.
  intros E C L. cbn [alt_loop]. rewrite E. replace (c =? 32) with false by lia. replace (c =? 5) with false by lia. unfold SFN_BUF, len. fold (zlen out). rewrite oem_ascii by lia. replace (c =? 0) with false by lia.
  destruct (Z.eqb_spec si 8) as [->|Ns].
  - replace (8 + 1 =? 9) with true by lia. replace (zlen out <? 12) with true by lia. cbn [andb]. rewrite app_length. cbn [length]. rewrite put_ascii; [auto|lia|unfold zlen in *; lia].
  - replace (si + 1 =? 9) with false by lia. cbn [andb]. fold (zlen out). rewrite put_ascii; [auto|lia|lia].
Qed.
Lemma alt_chars e : forall l n si out, (forall j, 0 <= j < zlen l -> e (si + j) = nth (Z.to_nat j) l 0) -> Forall (fun c => 33 <= c <= 126) l -> zlen out + zlen l <= 12 -> si + zlen l <= 8 \/ 9 <= si ->
  alt_loop (length l + n) e si out = alt_loop n e (si + zlen l) (out ++ l).
Proof.
  induction l as [|c l IH]; intros n si out E F L Si; [cbn [length Nat.add]; rewrite app_nil_r; f_equal; unfold zlen; cbn; lia|].
  inversion F as [|? ? Hc F']; subst. rewrite zlen_cons in *. pose proof (zlen_nonneg l). cbn [length Nat.add]. assert (E0 : e si = c) by (specialize (E 0 ltac:(lia)); now rewrite Z.add_0_r in E).
  rewrite (alt_one _ e si out c) by (auto; replace (si =? 8) with false by lia; lia). replace (si =? 8) with false by lia. rewrite IH; auto.
  - rewrite <- app_assoc. cbn [app]. f_equal. lia.
  - intros j J. replace (si + 1 + j) with (si + (j + 1)) by lia. rewrite E by lia. replace (Z.to_nat (j + 1)) with (S (Z.to_nat j)) by lia. reflexivity.
  - rewrite zlen_app. change (zlen [c]) with 1. lia.
  - lia.
Qed.
Lemma alt_spaces e : forall k n si out, (forall j, 0 <= j < Z.of_nat k -> e (si + j) = 32) -> alt_loop (k + n) e si out = alt_loop n e (si + Z.of_nat k) out.
Proof.
  induction k as [|k IH]; intros n si out E; [cbn [Nat.add]; f_equal; lia|]. cbn [Nat.add alt_loop]. specialize (E 0 ltac:(lia)) as E0. rewrite Z.add_0_r in E0. rewrite E0. cbn [Z.eqb Pos.eqb]. rewrite IH; [now replace (si + 1 + Z.of_nat k) with (si + Z.of_nat (S k)) by lia|].
  intros j J. replace (si + 1 + j) with (si + (j + 1)) by lia. apply E. lia.
Qed.
Lemma up_range l : Forall sfn_char l -> Forall (fun c => 33 <= c <= 126) (map up l).
Proof. intros F. rewrite Forall_map. revert F. apply Forall_impl. intros c C. apply up_sfn in C. apply C. Qed.
Lemma alt_ok e body ext : fits body ext -> (forall k, 0 <= k < 11 -> e k = pad body ext k) -> alt_loop 11 e 0 [] = map up body ++ match ext with [] => [] | _ => 46 :: map up ext end.
Proof.
  intros (F1 & F2 & F3 & F4) E. replace 11%nat with (length (map up body) + (8 - length body + 3))%nat by (rewrite map_length; lia).
  rewrite alt_chars; [|intros j J; rewrite zlen_map in J; unfold zlen in J; rewrite E by lia; unfold pad; replace (0 + j <? 8) with true by lia; rewrite Z.add_0_l; apply nth_indep; rewrite map_length; lia|now apply up_range|rewrite zlen_map; unfold zlen; cbn [length]; lia|left; rewrite zlen_map; unfold zlen; lia].
  cbn [app]. rewrite zlen_map. rewrite alt_spaces.
  2: { intros j J. unfold zlen. rewrite E by lia. unfold pad. replace (0 + Z.of_nat (length body) + j <? 8) with true by lia. apply nth_overflow. rewrite map_length. lia. }
  replace (0 + zlen body + Z.of_nat (8 - length body)) with 8 by (unfold zlen; lia).
  assert (E2 : forall j, 0 <= j < 3 -> e (8 + j) = nth (Z.to_nat j) (map up ext) 32) by (intros j J; rewrite E by lia; unfold pad; replace (8 + j <? 8) with false by lia; f_equal; f_equal; lia).
  destruct ext as [|c ext].
  - replace 3%nat with (3 + 0)%nat by lia. rewrite alt_spaces by (intros j J; rewrite E2 by lia; now destruct (Z.to_nat j)). cbn [alt_loop]. now rewrite app_nil_r.
  - cbn [length] in F2. pose proof (up_range _ F4) as U. cbn [map] in U. inversion U as [|? ? U1 U2]; subst.
    rewrite (alt_one _ e 8 _ (up c)); [|apply (E2 0); lia|auto|rewrite zlen_map; change (if 8 =? 8 then 2 else 1) with 2; unfold zlen; lia]. change (8 =? 8) with true. cbn iota.
    replace 2%nat with (length (map up ext) + (2 - length ext))%nat by (rewrite map_length; lia).
    rewrite alt_chars; [|intros j J; rewrite zlen_map in J; unfold zlen in J; replace (8 + 1 + j) with (8 + (j + 1)) by lia; rewrite E2 by lia; replace (Z.to_nat (j + 1)) with (S (Z.to_nat j)) by lia; cbn [map nth]; apply nth_indep; rewrite map_length; lia|auto|rewrite !zlen_app, !zlen_map; unfold zlen; cbn [length]; lia|right; lia].
    replace (2 - length ext)%nat with (2 - length ext + 0)%nat by lia. rewrite alt_spaces.
    + cbn [alt_loop map]. now rewrite <- !app_assoc.
    + intros j J. rewrite zlen_map. unfold zlen. replace (8 + 1 + Z.of_nat (length ext) + j) with (8 + (1 + Z.of_nat (length ext) + j)) by lia. rewrite E2 by lia. apply nth_overflow. cbn [map length]. rewrite map_length. lia.
Qed.

(* Case *)
Lemma case_body nt : forall l rest lcf, Forall sfn_char l -> mixed l = false -> has nt lcf = existsb is_low l -> case_loop (map up l ++ rest) nt lcf = l ++ case_loop rest nt lcf.
Proof.
  assert (G : forall l rest lcf, Forall sfn_char l -> (has nt lcf = true -> existsb is_up l = false) -> (has nt lcf = false -> existsb is_low l = false) -> case_loop (map up l ++ rest) nt lcf = l ++ case_loop rest nt lcf).
  { induction l as [|c l IH]; intros rest lcf F A B; [auto|]. inversion F as [|? ? Hc F']; subst. cbn [map app case_loop existsb] in *. destruct Hc as [Hc Nc]. cbn [In] in Nc.
    replace (up c =? 46) with false by (unfold up; destruct ((97 <=? c) && (c <=? 122)) eqn:Q; lia).
    rewrite IH; auto.
    - f_equal. unfold up, is_up, is_low in *. destruct (has nt lcf).
      + specialize (A eq_refl). apply orb_false_iff in A as [A _]. destruct ((97 <=? c) && (c <=? 122)) eqn:Q; [replace ((65 <=? c - 32) && (c - 32 <=? 90)) with true by lia; cbn [andb]; lia|]. now rewrite A.
      + specialize (B eq_refl). apply orb_false_iff in B as [B _]. rewrite B. now rewrite andb_false_r.
    - intros Q. specialize (A Q). now apply orb_false_iff in A.
    - intros Q. specialize (B Q). now apply orb_false_iff in B. }
  intros l rest lcf F M H. apply G; auto; rewrite H; intros Q; unfold mixed in M; rewrite Q in M; [now rewrite andb_true_r in M|auto].
Qed.
Definition nt_same (v : Z) : bool := Bool.eqb (has (Z.land v 24) 8) (has v 8) && Bool.eqb (has (Z.land v 24) 16) (has v 16).
Lemma nt_ok v : 0 <= v < 32 -> has (Z.land v 24) 8 = has v 8 /\ has (Z.land v 24) 16 = has v 16.
Proof.
  intros R. assert (F : forallb nt_same (map Z.of_nat (seq 0 32)) = true) by reflexivity. rewrite forallb_forall in F. specialize (F v). rewrite in_map_iff in F.
  assert (Q : nt_same v = true) by (apply F; exists (Z.to_nat v); split; [lia|apply in_seq; lia]). unfold nt_same in Q. apply andb_true_iff in Q as [Q1 Q2]. apply eqb_prop in Q1. apply eqb_prop in Q2. auto.
Qed.
Lemma case_ok x last fn body ext : form x last fn -> clean x -> split_name x body ext -> fits body ext -> has (fn 11) 2 = false ->
  case_loop (map up body ++ match ext with [] => [] | _ => 46 :: map up ext end) (Z.land (fn 11) 24) 8 = x.
Proof.
  intros F C Sp Ft N. destruct (nt_ok (fn 11) (fm_range _ _ _ F)) as [N1 N2]. destruct (fm_case _ _ _ F body ext Sp Ft N) as [B1 B2]. pose proof (fm_lfn _ _ _ F body ext Sp Ft) as Mx. rewrite N in Mx. symmetry in Mx. apply orb_false_iff in Mx as [M1 M2].
  destruct Ft as (F1 & F2 & F3 & F4). rewrite case_body; [|auto|auto|congruence].
  destruct ext as [|c ext].
  - cbn [case_loop]. rewrite app_nil_r. destruct Sp as [(-> & _)|(E & _)]; [auto|]. exfalso. destruct C as [_ C]. apply (C body 46 E). right. auto.
  - destruct Sp as [(_ & Q & _)|(-> & _)]; [discriminate|]. f_equal. cbn [case_loop]. change (46 =? 46) with true. change ((65 <=? 46) && (46 <=? 90)) with false. cbn [andb]. cbn iota. f_equal.
    rewrite <- (app_nil_r (map up (c :: ext))). rewrite case_body by (auto; congruence). apply app_nil_r.
Qed.

Lemma ascii_chars cs : Forall (fun c => 0 <= c < 128) (utf16 cs) -> Forall scalar cs -> utf16 cs = cs /\ utf8 cs = cs.
Proof.
  induction cs as [|c cs IH]; intros A S; [auto|]. unfold utf16, utf8 in *. cbn [flat_map] in *. inversion S as [|? ? S1 S2]; subst. apply Forall_app in A as [A1 A2]. destruct (IH A2 S2) as [E1 E2]. rewrite E1, E2.
  assert (L : 0 <= c < 128).
  { unfold units_of in A1. destruct (c <? 65536); [now inversion A1|]. unfold scalar in S1. inversion A1 as [|? ? Q _]; subst. Z.to_euclidean_division_equations; lia. }
  unfold units_of. replace (c <? 65536) with true by lia. rewrite ascii_utf8 by lia. auto.
Qed.

(* A file made under a name is listed under it. *)
Theorem listed cs last fn e blk buf : Forall name_char cs -> (1 <= length (utf16 cs) <= 255)%nat -> clean (utf16 cs) -> form (utf16 cs) last fn ->
  e 12 = Z.land (fn 11) 24 -> (has (fn 11) 1 = false -> short_same e fn) ->
  (if has (fn 11) 2 then blk <> NONE /\ holds buf (utf16 cs) else blk = NONE) -> zlen (utf8 cs) <= 255 ->
  exists alt, file_names e blk buf = Ok (utf8 cs, alt).
Proof.
  intros N L C F Nt Sh Bl L8. assert (Sc : Forall (fun c => scalar c /\ c <> 0) cs) by (revert N; apply Forall_impl; intros c (S & _ & G & _); split; [auto|lia]).
  assert (Ne : utf8 cs <> []).
  { destruct cs as [|c cs]; [cbn in L; lia|]. inversion Sc as [|? ? [S _] _]; subst. destruct (utf8_zlen c S) as [Z _]. unfold utf8. cbn [flat_map]. destruct (utf8_of c) eqn:Q; [unfold zlen in Z; cbn in Z; destruct (utf8_zlen c S); lia|discriminate]. }
  unfold file_names. destruct (has (fn 11) 2) eqn:Lf.
  - destruct Bl as [Bn H]. replace (blk =? NONE) with false by lia. cbn [negb]. change 0 with (zlen []) at 1. rewrite (lfn_run buf (utf16 cs)) with (cs := cs); auto; try lia; [|unfold zlen; cbn; lia|unfold LFNBUF; lia].
    change (zlen []) with 0. replace (0 + zlen (utf8 cs) <=? 255) with true by lia. cbn [app bind]. destruct (utf8 cs); [congruence|eauto].
  - subst blk. rewrite Z.eqb_refl. cbn [negb bind]. assert (Lo : has (fn 11) 1 = false).
    { destruct (has (fn 11) 1) eqn:Lo; [|auto]. pose proof (fm_long _ _ _ F (some_loss _ _ _ F Lo)). congruence. }
    destruct (no_loss _ _ _ F Lo) as (body & ext & Sp & Ft). rewrite (alt_ok e body ext Ft).
    2: { intros k K. rewrite (Sh Lo) by auto. now apply (fm_short _ _ _ F). }
    destruct (map up body ++ match ext with [] => [] | _ => 46 :: map up ext end) as [|a0 al] eqn:Q.
    + exfalso. apply app_eq_nil in Q as [Q _]. apply map_eq_nil in Q. subst. destruct Ft as (Ft & _). cbn in Ft. lia.
    + rewrite <- Q, Nt, (case_ok _ _ _ body ext F C Sp Ft Lf). rewrite Forall_forall in N.
      destruct (ascii_chars cs) as [E1 E2]; [eapply split_ascii; eauto|apply Forall_forall; intros c I; apply (N c I)|]. rewrite E1, E2. eauto.
Qed.

(* --- any table ------------------------------------------------------------------------------ *)
Lemma alt_short n : forall e si out, bytes e -> zlen out <= 12 -> zlen (alt_loop n e si out) <= 12.
Proof.
  induction n as [|n IH]; intros e si out B L; cbn [alt_loop]; [auto|]. destruct (e si =? 32); [auto|].
  set (wc := ff_oem2uni _). set (o := if _ && _ then _ else _). assert (Lo : zlen o <= 12).
  { unfold o, len, SFN_BUF. fold (zlen out). destruct (_ =? 9); cbn [andb]; [|auto]. destruct (Z.ltb_spec (zlen out) 12); [rewrite zlen_app; change (zlen [46]) with 1; lia|auto]. }
  destruct (wc =? 0); [unfold zlen; cbn; lia|]. assert (W : 0 <= wc < 4294967296).
  { unfold wc. assert (Bs : 0 <= (if e si =? 5 then DDEM else e si) < 256) by (destruct (e si =? 5); [unfold DDEM; lia|apply B]).
    set (v := if e si =? 5 then DDEM else e si) in *. clearbody v. pose proof (byte_all (fun v => (0 <=? ff_oem2uni v) && (ff_oem2uni v <? 65536)) ltac:(vm_compute; reflexivity) v Bs). lia. }
  pose proof (put_len wc (SFN_BUF - len o) W) as P. unfold SFN_BUF, len in *. fold (zlen o) in *. specialize (P ltac:(lia)).
  destruct (put_utf wc (12 - zlen o)) as [|b bs]; [unfold zlen; cbn; lia|]. apply IH; [auto|]. rewrite zlen_app. lia.
Qed.
Lemma lfn_safe lfn j : units lfn -> 0 <= j < 256 -> lfn j = 0 -> forall fuel si hs out, 0 <= si <= j -> (Z.to_nat (j - si) < fuel)%nat -> 0 <= hs < 65536 -> zlen out <= 255 -> exists r, lfn_loop fuel lfn si hs out = Ok r /\ zlen r <= 255.
Proof.
  intros U J E. induction fuel as [|fuel IH]; intros si hs out S F H L; [lia|]. cbn [lfn_loop]. unfold rd, LFNBUF. replace ((0 <=? si) && (si <? 256)) with true by lia. cbn [bind].
  destruct (Z.eqb_spec (lfn si) 0) as [Z0|Z0]; [destruct (hs =? 0); eexists; (split; [reflexivity|]); [auto|unfold zlen; cbn; lia]|]. assert (si <> j) by congruence. pose proof (U si).
  destruct (_ && _); [apply IH; auto; lia|]. pose proof (put_len (hs * 65536 + lfn si) (LFN_BUF - len out) ltac:(lia)) as P. unfold LFN_BUF, len in *. fold (zlen out) in *. specialize (P ltac:(lia)).
  destruct (put_utf _ _) as [|b bs]; [eexists; split; [reflexivity|unfold zlen; cbn; lia]|]. apply IH; [lia|lia|lia|]. rewrite zlen_app. lia.
Qed.
Lemma case_len nt : forall l lcf, zlen (case_loop l nt lcf) = zlen l.
Proof. induction l as [|c l IH]; intros lcf; cbn [case_loop]; [auto|]. rewrite !zlen_cons, IH. auto. Qed.
Theorem names_safe e blk buf : bytes e -> units buf -> (blk <> NONE -> exists j, 0 <= j < 256 /\ buf j = 0) ->
  exists fname alt, file_names e blk buf = Ok (fname, alt) /\ 1 <= zlen fname <= 255 /\ zlen alt <= 12.
Proof.
  intros B U N. unfold file_names.
  assert (A : zlen (alt_loop 11 e 0 []) <= 12) by (apply alt_short; [auto|unfold zlen; cbn; lia]).
  assert (R : exists r, (if negb (blk =? NONE) then lfn_loop (Z.to_nat LFNBUF) buf 0 0 [] else Ok []) = Ok r /\ zlen r <= 255).
  { destruct (Z.eqb_spec blk NONE) as [|Nb]; cbn [negb]; [exists []; split; [auto|unfold zlen; cbn; lia]|]. destruct (N Nb) as (j & J & E). apply (lfn_safe buf j); auto; try lia; [unfold LFNBUF; lia|unfold zlen; cbn; lia]. }
  destruct R as (r & R & Lr). rewrite R. cbn [bind]. destruct r as [|b r].
  - cbv zeta. do 2 eexists. split; [reflexivity|]. split; [|destruct (e 12 =? 0); [unfold zlen; cbn; lia|auto]].
    destruct (alt_loop 11 e 0 []) as [|c l] eqn:Q; [unfold zlen; cbn; lia|]. rewrite case_len. rewrite zlen_cons in *. pose proof (zlen_nonneg l). lia.
  - do 2 eexists. split; [reflexivity|]. rewrite zlen_cons in *. pose proof (zlen_nonneg r). split; [lia|auto].
Qed.

(* A name too long for the buffer is listed by the alias. *)
Theorem listed_alias cs e blk buf : Forall (fun c => scalar c /\ c <> 0) cs -> (length (utf16 cs) <= 255)%nat -> holds buf (utf16 cs) -> blk <> NONE -> bytes e -> 255 < zlen (utf8 cs) ->
  exists fname alt, file_names e blk buf = Ok (fname, alt) /\ fname <> utf8 cs /\ zlen fname <= 12.
Proof.
  intros F L H Nb B L8. unfold file_names. replace (blk =? NONE) with false by lia. cbn [negb]. change 0 with (zlen []) at 1. rewrite (lfn_run buf (utf16 cs)) with (cs := cs); auto; try lia; [|unfold zlen; cbn; lia|unfold LFNBUF; lia].
  change (zlen []) with 0. replace (0 + zlen (utf8 cs) <=? 255) with false by lia. cbn [bind]. cbv zeta. do 2 eexists. split; [reflexivity|].
  assert (A : zlen (alt_loop 11 e 0 []) <= 12) by (apply alt_short; [auto|unfold zlen; cbn; lia]).
  match goal with |- ?x <> _ /\ _ => assert (Q : zlen x <= 12) end.
  { destruct (alt_loop 11 e 0 []) as [|c l] eqn:Q; [unfold zlen; cbn; lia|]. now rewrite case_len. }
  split; [|auto]. intros E. rewrite E in Q. lia.
Qed.

Lemma pick_loop_any ofs : forall e buf i wc buf' i' wc', 0 <= i -> pick_loop ofs e buf i wc = Ok (buf', Some (i', wc')) ->
  (forall k, k < i \/ i + zlen ofs <= k -> buf' k = buf k) /\ i <= i' <= i + zlen ofs /\ (wc <> 0 -> wc' = 0 -> exists j, i <= j < i' /\ j < 256 /\ buf' j = 0) /\ (wc = 0 -> buf' = buf /\ i' = i /\ wc' = 0).
Proof.
  induction ofs as [|o ofs IH]; intros e buf i wc buf' i' wc' I E; cbn [pick_loop] in E.
  - injection E as <- <- <-. unfold zlen. cbn [length]. split; [auto|]. split; [lia|]. split; [lia|auto].
  - rewrite zlen_cons. pose proof (zlen_nonneg ofs). destruct (Z.eqb_spec wc 0) as [W|W]; cbn [negb] in E.
    + destruct (ld_word e o =? 65535); cbn [negb] in E; [|discriminate]. destruct (IH _ _ _ _ _ _ _ I E) as (A1 & A2 & A3 & A4). destruct (A4 W) as (-> & -> & ->). split; [auto|]. split; [lia|]. split; [lia|auto].
    + unfold LFNBUF in E. destruct (Z.leb_spec 256 i); [discriminate|]. unfold wr, LFNBUF in E. replace ((0 <=? i) && (i <? 256)) with true in E by lia. cbn [bind] in E.
      assert (I1 : 0 <= i + 1) by lia. destruct (IH _ _ _ _ _ _ _ I1 E) as (A1 & A2 & A3 & A4). split; [|split; [lia|split; [|lia]]].
      * intros k K. rewrite A1 by lia. apply upd_other. lia.
      * intros _ W'. destruct (Z.eq_dec (ld_word e o) 0) as [L0|L0].
        -- destruct (A4 L0) as (-> & -> & _). exists i. split; [lia|]. split; [lia|]. rewrite upd_same. auto.
        -- destruct (A3 L0 W') as (j & J1 & J2 & J3). exists j. split; [lia|auto].
Qed.
Lemma pick_any buf e buf' : bytes e -> pick_lfn buf e = Ok (buf', true) -> let b := Z.land (e 0) 191 in 1 <= b <= 20 /\
  (forall k, 13 * b <= k -> has (e 0) 64 = false -> buf' k = buf k) /\ (has (e 0) 64 = true -> exists j, 13 * (b - 1) <= j < 256 /\ buf' j = 0).
Proof.
  intros B E b. unfold pick_lfn in E. destruct (negb (ld_word e 26 =? 0)); [discriminate|]. fold b in E.
  assert (Rb : 0 <= b < 256) by (unfold b; pose proof (byte_all (fun v => (0 <=? Z.land v 191) && (Z.land v 191 <? 256)) ltac:(vm_compute; reflexivity) (e 0) (B 0)); lia).
  assert (I0 : 0 <= u32 ((b - 1) * 13)) by (apply Z.mod_pos_bound; lia).
  destruct (pick_loop LfnOfs e buf (u32 ((b - 1) * 13)) 1) as [[buf1 r]| |] eqn:P; cbn [bind] in E; try discriminate. destruct r as [[i' wc']|]; [|discriminate].
  assert (R256 : u32 ((b - 1) * 13) < 256).
  { cbn [LfnOfs pick_loop] in P. change (negb (1 =? 0)) with true in P. cbn iota in P. unfold LFNBUF in P. destruct (Z.leb_spec 256 (u32 ((b - 1) * 13))); [discriminate|auto]. }
  destruct (pick_loop_any _ _ _ _ _ _ _ _ I0 P) as (A1 & A2 & A3 & _). change (zlen LfnOfs) with 13 in *.
  assert (Hb : 1 <= b <= 20).
  { unfold u32 in R256. destruct (Z.eq_dec b 0) as [Eb|]; [rewrite Eb in R256; vm_compute in R256; discriminate|]. rewrite Z.mod_small in R256 by lia. lia. }
  assert (Es : u32 ((b - 1) * 13) = (b - 1) * 13) by (apply Z.mod_small; lia). rewrite Es in *. split; [auto|]. unfold has. destruct (negb (Z.land (e 0) 64 =? 0)) eqn:H64; cbn [andb] in E.
  - split; [discriminate|]. intros _. destruct (Z.eqb_spec wc' 0) as [W|W]; cbn [negb] in E.
    + injection E as <-. destruct (A3 ltac:(lia) W) as (j & J1 & J2 & J3). exists j. split; [lia|auto].
    + unfold LFNBUF in E. destruct (Z.leb_spec 256 i'); [discriminate|]. unfold wr, LFNBUF in E. replace ((0 <=? i') && (i' <? 256)) with true in E by lia. cbn [bind] in E. injection E as <-. exists i'. split; [lia|apply upd_same].
  - injection E as <-. split; [|discriminate]. intros k K _. apply A1. lia.
Qed.

Theorem read_nul d buf i blk : 1 <= cap d <= MAXENT -> (forall i, 0 <= i < cap d -> bytes (tab d i)) -> units buf -> 0 <= i < cap d ->
  exists r j b buf', dir_read d buf i blk = Ok (r, j, b, buf') /\ 0 <= j < cap d /\ units buf' /\ (r = D_OK -> b <> NONE -> exists k, 0 <= k < 256 /\ buf' k = 0).
Proof.
  intros C B U I0. destruct (read_safe d buf i blk C B U I0) as (r & j & b & buf' & E & Hr & Hj & Hu). exists r, j, b, buf'. split; [auto|]. split; [lia|]. split; [auto|].
  rewrite dir_read_at in E by lia. revert E.
  assert (X : forall n buf i ord sum blk, Z.to_nat (cap d - i) = n -> 0 <= i <= cap d -> (ord = 255 \/ 0 <= ord < 20 /\ exists k, 13 * ord <= k < 256 /\ buf k = 0) -> read_at d buf i ord sum blk = Ok (r, j, b, buf') -> r = D_OK -> b <> NONE -> exists k, 0 <= k < 256 /\ buf' k = 0).
  { clear - B C. induction n as [|n IH]; intros buf i ord sum blk N I O E R Nb.
    - unfold read_at in E. replace (i <? cap d) with false in E by lia. injection E as <- _ _ _. discriminate.
    - rewrite read_step in E by lia. cbv zeta in E. destruct (tab d i 0 =? 0); [injection E as <- _ _ _; discriminate|].
      destruct ((tab d i 0 =? DDEM) || (tab d i 0 =? 46) || (Z.land (Z.land (tab d i 11) 63) 223 =? 8)); [eapply IH; [..|exact E|auto|auto]; auto; lia|].
      destruct (Z.land (tab d i 11) 63 =? 15).
      + pose proof (B i ltac:(lia)) as Bi.
        destruct (has (tab d i 0) 64) eqn:H64.
        * rewrite !Z.eqb_refl in E. cbn [andb] in E. destruct (pick_lfn buf (tab d i)) as [[buf1 m]| |] eqn:P; cbn [bind] in E; try discriminate. destruct m.
          -- destruct (pick_any _ _ _ Bi P) as (Hb & _ & H). destruct (H H64) as (k & K1 & K2). set (v := Z.land (tab d i 0) 191) in *. clearbody v. eapply IH; [..|exact E|auto|auto]; auto; try lia. right. rewrite Z.mod_small by lia. split; [lia|]. exists k. auto.
          -- eapply IH; [..|exact E|auto|auto]; auto; lia.
        * destruct ((tab d i 0 =? ord) && (sum =? tab d i 13)) eqn:Q; [|cbn [bind] in E; eapply IH; [..|exact E|auto|auto]; auto; lia].
          destruct (pick_lfn buf (tab d i)) as [[buf1 m]| |] eqn:P; cbn [bind] in E; try discriminate. destruct m; [|eapply IH; [..|exact E|auto|auto]; auto; lia].
          destruct (pick_any _ _ _ Bi P) as (Hb & H & _). assert (Ed : tab d i 0 = ord) by lia.
          assert (Em : Z.land (tab d i 0) 191 = tab d i 0).
          { pose proof (byte_all (fun v => implb (negb (has v 64)) (Z.land v 191 =? v)) ltac:(vm_compute; reflexivity) (tab d i 0) (Bi 0)) as Z1. cbv beta in Z1. rewrite H64 in Z1. cbn [negb implb] in Z1. lia. }
          rewrite Em in *. destruct O as [->|(O1 & k & K1 & K2)]; [lia|]. eapply IH; [..|exact E|auto|auto]; auto; try lia. right. rewrite Z.mod_small by lia. split; [lia|]. exists k. split; [lia|]. rewrite H by (auto; lia). auto.
      + injection E as _ _ Eb <-. destruct (Z.eqb_spec ord 0) as [->|]; cbn [negb orb] in Eb; [|congruence]. destruct O as [|(_ & k & K1 & K2)]; [lia|]. exists k. split; [lia|auto]. }
  intros E. exact (X _ buf i 255 255 blk eq_refl ltac:(lia) (or_introl eq_refl) E).
Qed.
