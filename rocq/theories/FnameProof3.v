From Verif Require Import Base CrcSpec FutfModel FutfSpec FutfProof LfnModel LfnSpec LfnProof FdirModel FdirSpec FdirProof FnameModel FnameSpec FnameProof FnameProof2.
Open Scope Z_scope.

Lemma snipped_in x y : snipped x y -> exists t, x = y ++ t.
Proof. intros (t & E & _). eauto. Qed.
Lemma zlen_nil x : zlen x = 0 -> x = [].
Proof. unfold zlen. destruct x; [auto|cbn [length]; lia]. Qed.

Lemma dir_form_ok buf xs cf : starts buf xs -> (length xs <= 255)%nat -> xunits xs -> cf = 0 \/ cf = 4 ->
  exists y, snipped xs y /\ (y = [] -> dir_form buf (zlen xs) cf = Ok None) /\
    (y <> [] -> exists fn lfn, dir_form buf (zlen xs) cf = Ok (Some (fn, lfn)) /\ holds lfn y /\ form y (cf =? 4) fn /\ (units buf -> units lfn)).
Proof.
  intros S L U C. destruct (snip_ok buf xs S L) as (y & Sn & R). exists y. split; [auto|].
  destruct Sn as (t & E & T & Last).
  assert (Ly : (length y <= 255)%nat) by (rewrite E, app_length in L; lia).
  assert (Uy : xunits y) by (unfold xunits in *; rewrite E, Forall_app in U; tauto).
  assert (Sy : starts buf y) by (rewrite E in S; eapply starts_app; eauto).
  unfold dir_form. replace (Z.to_nat (zlen xs)) with (length xs) by (unfold zlen; lia). rewrite R. cbn [bind].
  unfold wr at 1 2. pose proof (zlen_nonneg y). replace ((0 <=? zlen y) && (zlen y <? LFNBUF)) with true by (unfold zlen, LFNBUF in *; lia). cbn [bind].
  split.
  - intros ->. reflexivity.
  - intros Ne. replace (zlen y =? 0) with false by (destruct y; [congruence|rewrite zlen_cons; pose proof (zlen_nonneg y); lia]).
    assert (H1 : holds (upd buf (zlen y) 0) y).
    { split; [|fold (zlen y); now rewrite upd_same]. intros j J. fold (zlen y) in J. rewrite upd_other by lia. now apply Sy. }
    destruct (form_ok _ y cf H1 Ly Uy Ne Last C) as (k & c1 & di & ni & b & cf' & fn & E1 & E2 & E3 & E4 & F).
    rewrite E1. cbn [bind]. rewrite E2. cbn [bind]. cbv zeta. rewrite E3. cbn [bind]. rewrite E4. cbn [bind]. do 2 eexists. split; [reflexivity|]. split; [auto|]. split; [exact F|].
    intros Un j. unfold upd. destruct (j =? zlen y); [lia|apply Un].
Qed.

(* --- decoding a name --------------------------------------------------------------------- *)
Lemma pair_split c : 65536 <= c < 1114112 -> let h := 55296 + (c - 65536) / 1024 in let l := 56320 + (c - 65536) mod 1024 in
  units_of c = [h; l] /\ (65536 <=? utf16_of c) = true /\ utf16_of c / 65536 mod 65536 = h /\ utf16_of c mod 65536 = l /\ 55296 <= h < 56320 /\ 56320 <= l < 57344.
Proof.
  intros R h l. unfold units_of, utf16_of. replace (c <? 65536) with false by lia. fold h l.
  assert (B : 55296 <= h < 56320 /\ 56320 <= l < 57344) by (unfold h, l; pose proof (Z.mod_pos_bound (c - 65536) 1024); Z.to_euclidean_division_equations; lia).
  clearbody h l. split; [auto|]. split; [lia|]. split; [|split; [|lia]].
  - replace (h * 65536 + l) with (l + h * 65536) by lia. rewrite Z.div_add by lia. rewrite (Z.div_small l) by lia. rewrite Z.mod_small; lia.
  - replace (h * 65536 + l) with (l + h * 65536) by lia. rewrite Z.mod_add by lia. apply Z.mod_small. lia.
Qed.
Lemma is_sep_ok c : is_sep c = true <-> sep c.
Proof. unfold is_sep, sep. lia. Qed.
Lemma is_sep_no c : ~ sep c -> is_sep c = false.
Proof. unfold is_sep, sep. lia. Qed.

(* One character of a name *)
Lemma seg_step fuel c r buf di : name_char c -> 0 <= di <= 255 ->
  seg_loop (S fuel) (utf8_of c ++ r) buf di = if di + zlen (units_of c) <=? 255 then seg_loop fuel r (put_at buf di (units_of c)) (di + zlen (units_of c)) else Ok None.
Proof.
  intros (Sc & _ & C32 & Nin) D. cbn [seg_loop]. rewrite decode_ok by auto. cbn [bind]. unfold MAX_LFN.
  assert (Ctop : c < 1114112) by (unfold scalar in Sc; lia).
  destruct (Z.ltb_spec c 65536) as [Lo|Hi].
  - unfold utf16_of, units_of. replace (c <? 65536) with true by lia. replace (65536 <=? c) with false by lia. cbn [bind]. rewrite (Z.mod_small c) by lia.
    replace ((c <? 32) || is_sep c) with false by (cbn [In] in Nin; unfold is_sep; lia).
    replace ((c <? 128) && one_of c BAD_LFN) with false by (cbn [In] in Nin; unfold one_of, BAD_LFN; cbn [existsb]; lia).
    unfold zlen. cbn [length put_at]. change (Z.of_nat 1) with 1. destruct (Z.leb_spec 255 di); [now replace (di + 1 <=? 255) with false by lia|]. replace (di + 1 <=? 255) with true by lia.
    unfold wr, LFNBUF. now replace ((0 <=? di) && (di <? 256)) with true by lia.
  - destruct (pair_split c ltac:(lia)) as (E1 & E2 & E3 & E4 & E5 & E6). rewrite E1, E2, E3. unfold wr at 1. unfold LFNBUF. replace ((0 <=? di) && (di <? 256)) with true by lia. cbn [bind]. rewrite E4.
    set (h := 55296 + _) in *. set (l := 56320 + _) in *. clearbody h l.
    replace ((l <? 32) || is_sep l) with false by (unfold is_sep; lia). replace (l <? 128) with false by lia. cbn [andb].
    unfold zlen. cbn [length put_at]. change (Z.of_nat 2) with 2. destruct (Z.leb_spec 255 (di + 1)); [now replace (di + 2 <=? 255) with false by lia|]. replace (di + 2 <=? 255) with true by lia.
    unfold wr, LFNBUF. replace ((0 <=? di + 1) && (di + 1 <? 256)) with true by lia. cbn [bind]. f_equal. lia.
Qed.

Lemma put_at_app a : forall b fn i, put_at fn i (a ++ b) = put_at (put_at fn i a) (i + zlen a) b.
Proof.
  induction a as [|u a IH]; intros b fn i; cbn [app put_at]; [f_equal; unfold zlen; cbn [length]; lia|]. rewrite IH, zlen_cons. f_equal. lia.
Qed.
Lemma zlen_units c : 1 <= zlen (units_of c) <= 2.
Proof. unfold units_of, zlen. destruct (c <? 65536); cbn [length]; lia. Qed.
Lemma utf16_len cs : zlen cs <= zlen (utf16 cs).
Proof. induction cs as [|c cs IH]; [unfold zlen; cbn; lia|]. unfold utf16 in *. cbn [flat_map]. rewrite zlen_app, zlen_cons. pose proof (zlen_units c). lia. Qed.

Lemma seg_run cs : Forall name_char cs -> forall fuel r buf di, 0 <= di -> di + zlen (utf16 cs) <= 255 ->
  seg_loop (length cs + fuel) (utf8 cs ++ r) buf di = seg_loop fuel r (put_at buf di (utf16 cs)) (di + zlen (utf16 cs)).
Proof.
  induction 1 as [|c cs Hc _ IH]; intros fuel r buf di D L.
  - unfold utf8, utf16, zlen. cbn [flat_map length app put_at Nat.add]. f_equal. lia.
  - unfold utf8, utf16 in *. cbn [flat_map] in *. rewrite zlen_app in *. pose proof (zlen_units c). pose proof (zlen_nonneg (flat_map units_of cs)). cbn [length Nat.add]. rewrite <- app_assoc, seg_step by (auto; lia).
    replace (di + zlen (units_of c) <=? 255) with true by lia. rewrite IH by lia. rewrite put_at_app. f_equal. lia.
Qed.
Lemma seg_long cs : Forall name_char cs -> forall fuel r buf di, 0 <= di <= 255 -> 255 < di + zlen (utf16 cs) -> (length cs <= fuel)%nat -> seg_loop fuel (utf8 cs ++ r) buf di = Ok None.
Proof.
  induction 1 as [|c cs Hc _ IH]; intros fuel r buf di D L F.
  - unfold utf16, zlen in L. cbn in L. lia.
  - unfold utf8, utf16 in *. cbn [flat_map length] in *. rewrite zlen_app in *. pose proof (zlen_units c). destruct fuel as [|fuel]; [lia|]. rewrite <- app_assoc, seg_step by auto.
    destruct (Z.leb_spec (di + zlen (units_of c)) 255); [|auto]. apply IH; lia.
Qed.
Lemma seg_more cs : Forall name_char cs -> forall r buf, 255 < zlen (utf16 cs) -> seg_loop 300 (utf8 cs ++ r) buf 0 = Ok None.
Proof.
  intros F r buf L. assert (Cut : exists a b, cs = a ++ b /\ 255 < zlen (utf16 a) /\ (length a <= 300)%nat).
  { exists (firstn 256 cs), (skipn 256 cs). split; [now rewrite firstn_skipn|]. split; [|rewrite firstn_length; lia].
    destruct (Nat.le_gt_cases 256 (length cs)) as [G|G]; [|now rewrite firstn_all2 by lia].
    pose proof (utf16_len (firstn 256 cs)) as Q. unfold zlen at 1 in Q. rewrite firstn_length, Nat.min_l in Q by lia. lia. }
  destruct Cut as (a & b & -> & La & Lb). apply Forall_app in F as [Fa _]. unfold utf8. rewrite flat_map_app. fold (utf8 a). rewrite <- app_assoc. apply seg_long; auto. lia.
Qed.

Lemma ascii_utf8 t : 0 <= t < 128 -> utf8_of t = [t].
Proof. intros. unfold utf8_of, utf8_count. now replace (t <? 128) with true by lia. Qed.
Lemma seg_stop t p fuel buf di : 0 <= t < 32 \/ sep t -> seg_loop (S fuel) (t :: p) buf di = Ok (Some (p, buf, di, t)).
Proof.
  intros T. assert (R : 0 <= t < 128) by (unfold sep in T; lia). assert (E : t :: p = utf8_of t ++ p) by now rewrite ascii_utf8. rewrite E. cbn [seg_loop]. rewrite decode_ok by (unfold scalar; lia). cbn [bind].
  unfold utf16_of. replace (t <? 65536) with true by lia. replace (65536 <=? t) with false by lia. cbn [bind]. rewrite Z.mod_small by lia. now replace ((t <? 32) || is_sep t) with true by (unfold is_sep, sep in *; lia).
Qed.
Lemma seg_reject t p fuel buf di : In t BAD_LFN -> seg_loop (S fuel) (t :: p) buf di = Ok None.
Proof.
  intros T. assert (R : 34 <= t < 128 /\ t <> 47 /\ t <> 92) by (cbn in T; lia). assert (E : t :: p = utf8_of t ++ p) by (rewrite ascii_utf8; [auto|lia]). rewrite E. cbn [seg_loop]. rewrite decode_ok by (unfold scalar; lia). cbn [bind].
  unfold utf16_of. replace (t <? 65536) with true by lia. replace (65536 <=? t) with false by lia. cbn [bind]. rewrite Z.mod_small by lia. replace ((t <? 32) || is_sep t) with false by (unfold is_sep; lia).
  replace (one_of t BAD_LFN) with true; [now replace (t <? 128) with true by lia|]. symmetry. unfold one_of. apply existsb_exists. exists t. split; [auto|]. now rewrite Z.eqb_refl.
Qed.

Lemma skip_ok seps c p : Forall sep seps -> ~ sep c -> skip_seps (seps ++ c :: p) = Ok (c :: p).
Proof.
  induction 1 as [|s seps S _ IH]; intros N; cbn [app skip_seps]; [now rewrite is_sep_no|]. rewrite (proj2 (is_sep_ok s)) by auto. auto.
Qed.

Lemma utf16_units cs : Forall name_char cs -> xunits (utf16 cs).
Proof.
  induction 1 as [|c cs (Sc & _ & C32 & _) _ IH]; [constructor|]. unfold xunits, utf16 in *. cbn [flat_map]. apply Forall_app. split; [|auto].
  unfold units_of. destruct (Z.ltb_spec c 65536); [repeat constructor; lia|]. unfold scalar in Sc. destruct (pair_split c ltac:(lia)) as (_ & _ & _ & _ & A & B). repeat constructor; lia.
Qed.
Lemma starts_put buf x : starts (put_at buf 0 x) x.
Proof. intros j J. rewrite put_at_ok. replace ((0 <=? j) && (j <? 0 + zlen x)) with true by lia. now rewrite Z.sub_0_r. Qed.
Lemma units_put x : xunits x -> forall buf i, units buf -> units (put_at buf i x).
Proof. induction 1 as [|u x Hu _ IH]; intros buf i B; cbn [put_at]; [auto|]. apply IH. intros j. unfold upd. destruct (j =? i); [lia|apply B]. Qed.

Lemma utf16_dots cs : Forall name_char cs -> forall n, utf16 cs = repeat 46 n -> cs = repeat 46 n.
Proof.
  induction 1 as [|c cs (Sc & _ & C32 & _) _ IH]; intros n E; [destruct n; [auto|discriminate]|].
  unfold utf16 in *. cbn [flat_map] in E. unfold units_of in E at 1. destruct (Z.ltb_spec c 65536).
  - cbn [app] in E. destruct n as [|n]; [discriminate|]. cbn [repeat] in *. injection E as -> E. f_equal. auto.
  - cbn [app] in E. destruct n as [|n]; [discriminate|]. cbn [repeat] in E. injection E as E _. unfold scalar in Sc. destruct (pair_split c ltac:(lia)) as (_ & _ & _ & _ & A & _). lia.
Qed.

(* The end of create_name, for a buffer holding units xs *)
Definition create_end (p : list Z) (lfn : Z -> Z) (di cf : Z) : res (option (list Z * (Z -> Z) * (Z -> Z))) :=
      dot1 <- (if di =? 1 then a <- rd lfn 0 ;; Ok (a =? 46) else Ok false) ;;
      dot2 <- (if di =? 2 then a <- rd lfn 1 ;; b <- rd lfn 0 ;; Ok ((a =? 46) && (b =? 46)) else Ok false) ;;
      if dot1 || dot2 then
        lfn <- wr lfn di 0 ;;
        Ok (Some (p, fun k => if k <? 11 then if k <? di then 46 else 32 else Z.lor cf 32, lfn))
      else
        r <- dir_form lfn di cf ;;
        match r with None => Ok None | Some (fn, lfn) => Ok (Some (p, fn, lfn)) end.
Lemma end_ok p buf xs (last : bool) : starts buf xs -> (length xs <= 255)%nat -> xunits xs -> answer xs p last buf (create_end p buf (zlen xs) (if last then 4 else 0)).
Proof.
  intros S L U. unfold create_end. set (cf := if last then 4 else 0). assert (C : cf = 0 \/ cf = 4) by (unfold cf; destruct last; auto). assert (Cl : (cf =? 4) = last) by (unfold cf; destruct last; auto).
  assert (D : (exists n, (n = 1 \/ n = 2)%nat /\ xs = repeat 46 n) \/ (xs <> [46] /\ xs <> [46; 46])).
  { destruct (list_eq_dec Z.eq_dec xs [46]) as [->|]; [left; exists 1%nat; auto|]. destruct (list_eq_dec Z.eq_dec xs [46; 46]) as [->|]; [left; exists 2%nat; auto|]. right. auto. }
  destruct D as [(n & N & ->)|[N1 N2]].
  - left. assert (E : exists lfn, wr buf (zlen (repeat 46 n)) 0 = Ok lfn /\ holds lfn (repeat 46 n) /\ (units buf -> units lfn)).
    { unfold wr, LFNBUF. assert (0 <= zlen (repeat 46 n) < 256) by (unfold zlen in *; lia). replace ((0 <=? zlen (repeat 46 n)) && (zlen (repeat 46 n) <? 256)) with true by lia. eexists. split; [reflexivity|]. split.
      - split; [|fold (zlen (repeat 46 n)); now rewrite upd_same]. intros j J. fold (zlen (repeat 46 n)) in J. rewrite upd_other by lia. now apply S.
      - intros Un j. unfold upd. destruct (j =? _); [lia|apply Un]. }
    destruct E as (lfn & E & H & Un). exists (fun k => if k <? 11 then if k <? zlen (repeat 46 n) then 46 else 32 else Z.lor cf 32), lfn.
    assert (Z0 : rd buf 0 = Ok 46) by (rewrite (rd_pre buf (repeat 46 n)); auto; [destruct N as [-> | ->]; reflexivity|destruct N as [-> | ->]; unfold zlen; cbn; lia]).
    split; [destruct N as [-> | ->]; auto|]. split; [|split; [|auto]].
    + destruct N as [-> | ->].
      * change (zlen (repeat 46 1)) with 1 in *. cbn [Z.eqb Pos.eqb]. rewrite Z0. cbn [bind Z.eqb Pos.eqb orb]. rewrite E. reflexivity.
      * assert (Z1 : rd buf 1 = Ok 46) by (rewrite (rd_pre buf (repeat 46 2)); auto; unfold zlen; cbn; lia).
        change (zlen (repeat 46 2)) with 2 in *. cbn [Z.eqb Pos.eqb bind]. rewrite Z1. cbn [bind]. rewrite Z0. cbn [bind andb orb Z.eqb Pos.eqb]. rewrite E. reflexivity.
    + split; [intros k K; now replace (k <? 11) with true by lia|]. unfold cf. destruct last; reflexivity.
  - right. split; [auto|]. split; [auto|]. destruct (dir_form_ok buf xs cf S L U C) as (y & Sn & A & B). exists y. split; [auto|].
    assert (Go : forall r, dir_form buf (zlen xs) cf = Ok r -> create_end p buf (zlen xs) cf = match r with None => Ok None | Some (fn, lfn) => Ok (Some (p, fn, lfn)) end).
    { intros r Er. unfold create_end. 
      assert (D1 : (if zlen xs =? 1 then a <- rd buf 0 ;; Ok (a =? 46) else Ok false) = Ok false).
      { destruct (Z.eqb_spec (zlen xs) 1) as [Z1|]; [|auto]. rewrite (rd_pre buf xs) by (auto; lia). cbn [bind]. f_equal. destruct xs as [|u [|v xs]]; unfold zlen in Z1; cbn [length] in Z1; try lia. change (xat [u] 0) with u. destruct (Z.eqb_spec u 46); [congruence|auto]. }
      assert (D2 : (if zlen xs =? 2 then a <- rd buf 1 ;; b <- rd buf 0 ;; Ok ((a =? 46) && (b =? 46)) else Ok false) = Ok false).
      { destruct (Z.eqb_spec (zlen xs) 2) as [Z2|]; [|auto]. rewrite !(rd_pre buf xs) by (auto; lia). cbn [bind]. f_equal. destruct xs as [|u [|v [|? xs]]]; unfold zlen in Z2; cbn [length] in Z2; try lia. change (xat [u; v] 0) with u. change (xat [u; v] 1) with v.
        destruct (Z.eqb_spec u 46), (Z.eqb_spec v 46); try congruence; auto. }
      rewrite D1. cbn [bind]. rewrite D2. cbn [bind orb]. rewrite Er. reflexivity. }
    fold (create_end p buf (zlen xs) cf). split.
    + intros Ey. now rewrite (Go None) by auto.
    + intros Ny. destruct (B Ny) as (fn & lfn & E1 & E2 & E3 & E4). exists fn, lfn. rewrite (Go _ E1). rewrite Cl in E3. auto.
Qed.

Theorem create_ok cs rest p last buf : Forall name_char cs -> zlen (utf16 cs) <= 255 -> ends rest p last -> answer (utf16 cs) p last buf (create_name (utf8 cs ++ rest) buf).
Proof.
  intros F L E. pose proof (utf16_len cs) as L2. assert (N3 : exists m, 300%nat = (length cs + S m)%nat) by (exists (299 - length cs)%nat; unfold zlen in *; lia). destruct N3 as [m N3].
  assert (U : xunits (utf16 cs)) by now apply utf16_units. 
  assert (R : exists t r, rest = t :: r /\ (0 <= t < 32 \/ sep t) /\ seg_loop 300 (utf8 cs ++ rest) buf 0 = Ok (Some (r, put_at buf 0 (utf16 cs), zlen (utf16 cs), t)) /\
            (if t <? 32 then Ok (r, 4) else p <- skip_seps r ;; '(c, _) <- next p ;; Ok (p, if c <? 32 then 4 else 0)) = Ok (p, if last then 4 else 0)).
  { destruct E as [t p T|s seps c p S1 S2 N].
    - exists t, p. split; [auto|]. split; [auto|]. split; [rewrite N3, seg_run by (auto; lia); now rewrite seg_stop by auto|]. now replace (t <? 32) with true by lia.
    - exists s, (seps ++ c :: p). split; [auto|]. split; [auto|]. split; [rewrite N3, seg_run by (auto; lia); now rewrite seg_stop by auto|].
      replace (s <? 32) with false by (unfold sep in S1; lia). rewrite skip_ok by auto. cbn [bind next]. now destruct (c <? 32). }
  destruct R as (t & r & -> & T & R1 & R2). unfold create_name. rewrite R1. cbn [bind]. rewrite R2. cbn [bind].
  pose proof (end_ok p (put_at buf 0 (utf16 cs)) (utf16 cs) last (starts_put buf (utf16 cs)) ltac:(unfold zlen in L; lia) U) as A.
  fold (create_end p (put_at buf 0 (utf16 cs)) (zlen (utf16 cs)) (if last then 4 else 0)). pose proof (units_put (utf16 cs) U buf 0) as UP.
  destruct A as [(fn & lfn & A1 & A2 & A3 & A4 & A5)|(A1 & A2 & y & A3 & A4 & A5)]; [left|right].
  - exists fn, lfn. split; [auto|]. split; [auto|]. split; [auto|]. split; [auto|]. auto.
  - split; [auto|]. split; [auto|]. exists y. split; [auto|]. split; [auto|]. intros Ny. destruct (A5 Ny) as (fn & lfn & B1 & B2 & B3 & B4). exists fn, lfn. split; [auto|]. split; [auto|]. split; [auto|]. auto.
Qed.

Theorem create_reject cs t rest buf : Forall name_char cs -> 255 < zlen (utf16 cs) \/ In t BAD_LFN -> create_name (utf8 cs ++ t :: rest) buf = Ok None.
Proof.
  intros F R. unfold create_name. assert (E : seg_loop 300 (utf8 cs ++ t :: rest) buf 0 = Ok None); [|now rewrite E].
  destruct (Z.ltb_spec 255 (zlen (utf16 cs))) as [L|L]; [now apply seg_more|]. destruct R as [R|R]; [lia|].
  pose proof (utf16_len cs) as L2. assert (N3 : exists m, 300%nat = (length cs + S m)%nat) by (exists (299 - length cs)%nat; unfold zlen in *; lia). destruct N3 as [m ->]. rewrite seg_run by (auto; lia). now apply seg_reject.
Qed.

(* Any bytes *)
Lemma seg_any : forall fuel p buf xs, Forall byte p -> In 0 p -> starts buf xs -> xunits xs -> zlen xs <= 255 -> (Z.to_nat (255 - zlen xs) < fuel)%nat ->
  exists r, seg_loop fuel p buf (zlen xs) = Ok r /\ match r with None => True | Some (p', buf', di, wc) =>
    exists ys, starts buf' ys /\ xunits ys /\ zlen ys <= 255 /\ di = zlen ys /\ (0 <= wc < 32 \/ sep wc /\ In 0 p') /\ Forall byte p' /\ (exists q, p = q ++ p') /\ (units buf -> units buf') end.
Proof.
  induction fuel as [|fuel IH]; intros p buf xs B N S U L F; [lia|]. cbn [seg_loop]. destruct (decode_any p B N) as (o & r & E & O). rewrite E. cbn [bind].
  destruct o as [uc|]; [|eexists; split; [reflexivity|exact I]]. destruct O as (c & f & Sc & Eu & Ep & Hf).
  assert (Bf : Forall byte r) by (rewrite Ep, Forall_app in B; tauto).
  assert (Nz : c <> 0 -> In 0 r).
  { intros C0. rewrite Ep, in_app_iff in N. destruct N as [N|N]; [|auto]. exfalso. destruct Hf as [->|(n & Hn & Hc & ->)].
    - pose proof (utf8_of_nz c Sc C0) as Q. rewrite Forall_forall in Q. now apply (Q 0 N).
    - unfold utf8_form in N. assert (c < 1114112) by (unfold scalar in Sc; lia). unfold utf8_count in Hn.
      assert (0 <= c / 262144 /\ 0 <= c / 4096 /\ 0 <= c / 64 /\ 0 <= c / 4096 mod 64 /\ 0 <= c / 64 mod 64 /\ 0 <= c mod 64) by (repeat split; try (apply Z.div_pos; lia); apply Z.mod_pos_bound; lia).
      destruct (n =? 1), (n =? 2), (n =? 3); cbn [In] in N; lia. }
  pose proof (zlen_nonneg xs) as Z0. subst uc. unfold MAX_LFN.
  destruct (Z.ltb_spec c 65536) as [Lo|Hi].
  - unfold utf16_of. replace (c <? 65536) with true by lia. replace (65536 <=? c) with false by lia. cbn [bind]. assert (C0 : 0 <= c) by (unfold scalar in Sc; lia). rewrite (Z.mod_small c) by lia.
    destruct ((c <? 32) || is_sep c) eqn:Q.
    + eexists. split; [reflexivity|]. exists xs. split; [auto|]. split; [auto|]. split; [auto|]. split; [auto|]. split; [|split; [auto|split; [eauto|auto]]]. destruct (Z.ltb_spec c 32); [left; lia|right]. cbn [orb] in Q. split; [now apply is_sep_ok|]. apply Nz. lia.
    + destruct (_ && _); [eexists; split; [reflexivity|exact I]|]. destruct (Z.leb_spec 255 (zlen xs)); [eexists; split; [reflexivity|exact I]|].
      unfold wr, LFNBUF. replace ((0 <=? zlen xs) && (zlen xs <? 256)) with true by lia. cbn [bind].
      assert (Zx : zlen (xs ++ [c]) = zlen xs + 1) by (rewrite zlen_app; reflexivity).
      rewrite <- Zx. destruct (IH r (upd buf (zlen xs) c) (xs ++ [c])) as (res & R1 & R2); auto.
      * apply Nz. lia.
      * intros j J. rewrite Zx in J. unfold upd. destruct (Z.eqb_spec j (zlen xs)) as [->|]; [now rewrite xat_last|]. rewrite S by lia. unfold xat, zlen in *. now rewrite app_nth1 by lia.
      * apply Forall_app. split; [auto|]. repeat constructor; lia.
      * lia.
      * lia.
      * exists res. split; [auto|]. destruct res as [[[[p' buf'] di] wc]|]; [|auto]. destruct R2 as (ys & Y1 & Y2 & Y3 & Y4 & Y5 & Y6 & (q & Y7) & Y8). exists ys.
        split; [auto|]. split; [auto|]. split; [auto|]. split; [auto|]. split; [auto|]. split; [auto|]. split; [exists (f ++ q); rewrite <- app_assoc, <- Y7; auto|].
        intros Un. apply Y8. intros j. unfold upd. destruct (j =? _); [lia|apply Un].
  - assert (Top : c < 1114112) by (unfold scalar in Sc; lia). destruct (pair_split c ltac:(lia)) as (E1 & E2 & E3 & E4 & E5 & E6). rewrite E2, E3. unfold wr at 1. unfold LFNBUF. replace ((0 <=? zlen xs) && (zlen xs <? 256)) with true by lia. cbn [bind]. rewrite E4.
    set (h := 55296 + _) in *. set (l := 56320 + _) in *. clearbody h l.
    replace ((l <? 32) || is_sep l) with false by (unfold is_sep; lia). replace (l <? 128) with false by lia. cbn [andb].
    destruct (Z.leb_spec 255 (zlen xs + 1)); [eexists; split; [reflexivity|exact I]|]. unfold wr, LFNBUF. replace ((0 <=? zlen xs + 1) && (zlen xs + 1 <? 256)) with true by lia. cbn [bind].
    assert (Zx : zlen (xs ++ [h; l]) = zlen xs + 1 + 1) by (rewrite zlen_app; unfold zlen; cbn [length]; lia).
    rewrite <- Zx. destruct (IH r (upd (upd buf (zlen xs) h) (zlen xs + 1) l) (xs ++ [h; l])) as (res & R1 & R2); auto.
    + apply Nz. lia.
    + intros j J. rewrite Zx in J. unfold upd. destruct (Z.eqb_spec j (zlen xs + 1)) as [->|].
      * rewrite xat_app; [reflexivity|unfold zlen; cbn [length]; lia].
      * destruct (Z.eqb_spec j (zlen xs)) as [->|]; [now rewrite xat_app0|]. rewrite S by lia. unfold xat, zlen in *. now rewrite app_nth1 by lia.
    + apply Forall_app. split; [auto|]. repeat constructor; lia.
    + lia.
    + lia.
    + exists res. split; [auto|]. destruct res as [[[[p' buf'] di] wc]|]; [|auto]. destruct R2 as (ys & Y1 & Y2 & Y3 & Y4 & Y5 & Y6 & (q & Y7) & Y8). exists ys.
      split; [auto|]. split; [auto|]. split; [auto|]. split; [auto|]. split; [auto|]. split; [auto|]. split; [exists (f ++ q); rewrite <- app_assoc, <- Y7; auto|].
      intros Un. apply Y8. intros j. unfold upd. destruct (j =? _); [lia|]. destruct (j =? _); [lia|apply Un].
Qed.

Lemma skip_any p : Forall byte p -> In 0 p -> exists q, skip_seps p = Ok q /\ (exists s, p = s ++ q) /\ Forall byte q /\ In 0 q.
Proof.
  induction 1 as [|c p B F IH]; intros N; [destruct N|]. cbn [skip_seps]. destruct (is_sep c) eqn:Q.
  - destruct IH as (q & E1 & (s & E2) & E3 & E4); [destruct N as [->|N]; [discriminate|auto]|]. exists q. split; [auto|]. split; [exists (c :: s); now rewrite E2|auto].
  - exists (c :: p). split; [auto|]. split; [exists []; auto|auto].
Qed.
Theorem create_any path buf : Forall byte path -> In 0 path -> create_name path buf = Ok None \/
  exists p xs last, (exists q, path = q ++ p) /\ Forall byte p /\ (last = false -> In 0 p) /\ xunits xs /\ zlen xs <= 255 /\ answer xs p last buf (create_name path buf).
Proof.
  intros B N. unfold create_name. destruct (seg_any 300 path buf [] B N) as (r & R1 & R2).
  - intros j J. unfold zlen in J. cbn in J. lia.
  - constructor.
  - unfold zlen. cbn. lia.
  - unfold zlen. cbn [length]. lia.
  - change (zlen []) with 0 in R1. rewrite R1. cbn [bind]. destruct r as [[[[p buf'] di] wc]|]; [|auto]. right. destruct R2 as (ys & Y1 & Y2 & Y3 & -> & Y5 & Y6 & (q & Y7) & Y8).
    assert (Fin : forall p last, answer ys p last buf (create_end p buf' (zlen ys) (if (last : bool) then 4 else 0))).
    { intros p1 last. destruct (end_ok p1 buf' ys last Y1 ltac:(unfold zlen in Y3; lia) Y2) as [(fn & lfn & A1 & A2 & A3 & A4 & A5)|(A1 & A2 & y & A3 & A4 & A5)]; [left|right].
      - exists fn, lfn. split; [auto|]. split; [auto|]. split; [auto|]. split; [auto|]. auto.
      - split; [auto|]. split; [auto|]. exists y. split; [auto|]. split; [auto|]. intros Ny. destruct (A5 Ny) as (fn & lfn & B1 & B2 & B3 & B4). exists fn, lfn. split; [auto|]. split; [auto|]. split; [auto|]. auto. }
    destruct (Z.ltb_spec wc 32).
    + cbn [bind]. exists p, ys, true. split; [eauto|]. split; [auto|]. split; [discriminate|]. split; [auto|]. split; [auto|]. apply (Fin p true).
    + destruct Y5 as [Y5|[Y5 Y9]]; [lia|]. destruct (skip_any p Y6 Y9) as (p2 & E1 & (s & E2) & E3 & E4). rewrite E1. cbn [bind]. destruct p2 as [|c p2]; [destruct E4|]. cbn [next bind].
      exists (c :: p2), ys, (c <? 32). split; [exists (q ++ s); rewrite <- app_assoc, <- E2; auto|]. split; [auto|]. split; [auto|]. split; [auto|]. split; [auto|].
      pose proof (Fin (c :: p2) (c <? 32)) as Fi. destruct (c <? 32); exact Fi.
Qed.
