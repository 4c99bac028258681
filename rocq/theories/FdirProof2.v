From Verif Require Import Base FutfModel FutfSpec FutfProof LfnModel LfnSpec LfnProof FdirModel FdirSpec FdirProof.
Open Scope Z_scope.

(* --- dir_read ---------------------------------------------------------------------------- *)

Definition read_at (d : dirt) (buf : Z -> Z) (i ord sum blk : Z) : res (drc * Z * Z * (Z -> Z)) :=
  if i <? cap d then read_loop (Z.to_nat (cap d - i)) d buf i ord sum blk else Ok (D_NO_FILE, i - 1, blk, buf).

Lemma read_next d buf i ord sum blk : cap d <= MAXENT -> 0 <= i < cap d ->
  match dir_next d i false with
  | (_, D_OK) => read_loop (Z.to_nat (cap d - (i + 1))) d buf (i + 1) ord sum blk
  | (_, r) => Ok (r, i, blk, buf)
  end = read_at d buf (i + 1) ord sum blk.
Proof.
  intros M I. unfold dir_next, read_at. unfold MAXENT in *. destruct (Z.ltb_spec (i + 1) (cap d)).
  - replace (65536 <=? i + 1) with false by lia. reflexivity.
  - destruct (65536 <=? i + 1); cbn; now replace (i + 1 - 1) with i by lia.
Qed.
Lemma read_step d buf i ord sum blk : cap d <= MAXENT -> 0 <= i < cap d ->
  read_at d buf i ord sum blk =
      let next buf := read_at d buf (i + 1) in
      let e := tab d i in
      let b := e 0 in
      if b =? 0 then Ok (D_NO_FILE, i, blk, buf)
      else
        let a := Z.land (e 11) 63 in
        if (b =? DDEM) || (b =? 46) || (Z.land a 223 =? 8) then next buf 255 sum blk
        else if a =? 15 then
          let '(b, ord, sum, blk) := if has b 64 then (Z.land b 191, Z.land b 191, e 13, i) else (b, ord, sum, blk) in
          '(buf, m) <- (if (b =? ord) && (sum =? e 13) then pick_lfn buf e else Ok (buf, false)) ;;
          next buf (if m then (ord - 1) mod 256 else 255) sum blk
        else Ok (D_OK, i, if negb (ord =? 0) || negb (sum =? sum_sfn e) then NONE else blk, buf).
Proof.
  intros M I. unfold read_at at 1. replace (i <? cap d) with true by lia.
  replace (Z.to_nat (cap d - i)) with (S (Z.to_nat (cap d - (i + 1)))) by lia. cbn [read_loop].
  cbv zeta. rewrite !(read_next d buf i) by auto.
  destruct (tab d i 0 =? 0); [reflexivity|].
  destruct ((tab d i 0 =? DDEM) || (tab d i 0 =? 46) || (Z.land (Z.land (tab d i 11) 63) 223 =? 8)); [reflexivity|].
  destruct (Z.land (tab d i 11) 63 =? 15); [|reflexivity].
  destruct (has (tab d i 0) 64).
  - destruct (if (Z.land (tab d i 0) 191 =? Z.land (tab d i 0) 191) && (tab d i 13 =? tab d i 13) then pick_lfn buf (tab d i) else Ok (buf, false)) as [[buf' m]| |]; cbn [bind]; try reflexivity. apply read_next; auto.
  - destruct (if (tab d i 0 =? ord) && (sum =? tab d i 13) then pick_lfn buf (tab d i) else Ok (buf, false)) as [[buf' m]| |]; cbn [bind]; try reflexivity. apply read_next; auto.
Qed.

Section Read.
Variable d : dirt.
Hypothesis Cap : 1 <= cap d <= MAXENT.

Lemma read_parts w e p : w <> [] -> stored (tab d) p (File w e) -> 0 <= p -> p + parts w < cap d -> forall n k buf ord sum blk,
  Z.of_nat n = parts w - k -> 0 <= k <= parts w ->
  (0 < k -> sum = sum_sfn e /\ blk = p /\ ord = parts w - k /\ forall j, (parts w - k) * 13 <= j <= Z.of_nat (length w) -> buf j = unit_at w j) ->
  (0 < k \/ (0 < n)%nat) -> exists buf', read_at d buf (p + k) ord sum blk = read_at d buf' (p + parts w) 0 (sum_sfn e) p /\ holds buf' w.
Proof.
  intros W (T & Sh & Hw) P Pc. destruct (Hw W) as (Wn & _ & Hp). pose proof (parts_range w Wn) as R.
  induction n as [|n IH]; intros k buf ord sum blk Hn K I Kn.
  - assert (k = parts w) by lia. subst k. destruct (I ltac:(lia)) as (-> & -> & -> & H). rewrite Z.sub_diag. exists buf. split; [auto|]. split.
    + intros j J. rewrite H by lia. unfold unit_at. now replace (j <? Z.of_nat (length w)) with true by lia.
    + rewrite H by lia. unfold unit_at. rewrite Z.ltb_irrefl, Z.eqb_refl. auto.
  - destruct (Hp k ltac:(lia)) as [Pk Bk]. destruct (part_attr w (parts w - k) _ _ Wn ltac:(lia) Pk) as (A1 & A2 & A3 & A4 & A5 & A6 & A7).
    rewrite read_step by lia. cbv zeta. rewrite A2, A3, A4, A1. change (Z.land 15 223 =? 8) with false. change (15 =? 15) with true. cbn [orb].
    destruct (pick_ok w (parts w - k) _ _ buf Wn ltac:(lia) Pk) as (buf1 & E1 & H1).
    assert (X : (let '(b, ord, sum, blk) := if has (tab d (p + k) 0) 64 then (Z.land (tab d (p + k) 0) 191, Z.land (tab d (p + k) 0) 191, tab d (p + k) 13, p + k) else (tab d (p + k) 0, ord, sum, blk) in
       '(buf, m) <- (if (b =? ord) && (sum =? tab d (p + k) 13) then pick_lfn buf (tab d (p + k)) else Ok (buf, false)) ;;
       read_at d buf (p + k + 1) (if m : bool then (ord - 1) mod 256 else 255) sum blk) = read_at d buf1 (p + (k + 1)) (parts w - (k + 1)) (sum_sfn e) p).
    { rewrite A5, A6, (po_sum _ _ _ _ Pk). replace (p + (k + 1)) with (p + k + 1) by lia. destruct (Z.eqb_spec (parts w - k) (parts w)) as [Q|Q].
      - assert (k = 0) by lia. subst k. rewrite !Z.eqb_refl. cbn [andb]. rewrite E1. cbn [bind]. f_equal; [rewrite Z.mod_small; lia|lia].
      - destruct (I ltac:(lia)) as (-> & -> & -> & _). rewrite A7, !Z.eqb_refl by auto. cbn [andb]. rewrite E1. cbn [bind]. f_equal. rewrite Z.mod_small; lia. }
    rewrite X. apply (IH (k + 1)); [lia|lia| |lia]. intros _. split; [auto|]. split; [auto|]. split; [auto|]. intros j J. rewrite H1.
    destruct (Z.eq_dec k 0) as [->|Kz].
    + rewrite Z.sub_0_r, Z.eqb_refl in *. unfold parts in *. replace (_ || _) with true by lia. auto.
    + destruct (I ltac:(lia)) as (_ & _ & _ & H). destruct (_ || _) eqn:Q; [auto|]. apply H. unfold parts in *. lia.
Qed.

Lemma read_file w e p buf sum blk : stored (tab d) p (File w e) -> 0 <= p -> p + parts w < cap d ->
  if shown (w, e) then exists buf', read_at d buf p 255 sum blk = Ok (D_OK, p + parts w, read_blk w p, buf') /\ (w <> [] -> holds buf' w)
  else read_at d buf p 255 sum blk = read_at d buf (p + 1) 255 sum blk /\ w = [].
Proof.
  intros St P Pc. pose proof (parts_nonneg w). pose proof St as (T & Sh & Hw). pose proof (short_attr e Sh) as A. cbv zeta in A. destruct A as (A1 & A2 & A3 & A4 & A5).
  unfold shown. cbn [snd]. destruct (Z.eqb_spec (e 0) 46) as [D|D]; cbn [negb].
  - assert (W : w = []) by (destruct w; [auto|]; destruct Hw as (_ & Hw & _); [discriminate|easy]). subst w. split; [|auto]. rewrite parts_nil, Z.add_0_r in T.
    rewrite read_step by lia. cbv zeta. rewrite T, D. reflexivity.
  - assert (X : exists buf' ord sum' blk', read_at d buf p 255 sum blk = read_at d buf' (p + parts w) ord sum' blk' /\ (w <> [] -> holds buf' w) /\
      (if negb (ord =? 0) || negb (sum' =? sum_sfn e) then NONE else blk') = read_blk w p).
    { destruct w as [|u w].
      - exists buf, 255, sum, blk. rewrite parts_nil, Z.add_0_r. split; [auto|]. split; [easy|auto].
      - assert (W : u :: w <> []) by discriminate. revert St W. set (v := u :: w) in *. intros St W. pose proof (parts_pos v W).
        destruct (read_parts v e p W St P Pc (Z.to_nat (parts v)) 0 buf 255 sum blk ltac:(lia) ltac:(lia) ltac:(lia) ltac:(lia)) as (buf' & E & H1). rewrite Z.add_0_r in E.
        exists buf', 0, (sum_sfn e), p. split; [auto|]. split; [auto|]. now rewrite !Z.eqb_refl. }
    destruct X as (buf' & ord & sum' & blk' & -> & X1 & X2). exists buf'. split; [|auto].
    rewrite read_step by lia. cbv zeta. rewrite T, A4, A5, A3, A2. replace (e 0 =? 46) with false by lia. cbn [orb]. now rewrite X2.
Qed.

Lemma read_items l : forall p buf sum blk, laid (tab d) p l -> 0 <= p -> p + sizes l <= cap d -> (p + sizes l < cap d -> tab d (p + sizes l) 0 = 0) ->
  (exists i b buf', read_at d buf p 255 sum blk = Ok (D_NO_FILE, i, b, buf') /\ filter shown (files l) = []) \/
  (exists l1 w e l2 buf', l = l1 ++ File w e :: l2 /\ filter shown (files l1) = [] /\ shown (w, e) = true /\
     read_at d buf p 255 sum blk = Ok (D_OK, p + sizes l1 + parts w, read_blk w (p + sizes l1), buf') /\ (w <> [] -> holds buf' w)).
Proof.
  induction l as [|y l IH]; intros p buf sum blk L P Pc T.
  - left. cbn in T, Pc. rewrite Z.add_0_r in T. destruct (Z.ltb_spec p (cap d)) as [Q|Q].
    + rewrite read_step by lia. cbv zeta. rewrite T by lia. change (0 =? 0) with true. cbv iota. do 3 eexists. split; reflexivity.
    + unfold read_at. replace (p <? cap d) with false by lia. do 3 eexists. split; reflexivity.
  - cbn [laid] in L. destruct L as [L1 L2]. rewrite sizes_cons in *. pose proof (size_pos y). pose proof (sizes_nonneg l).
    rewrite Z.add_assoc in T, Pc. assert (Step : read_at d buf p 255 sum blk = read_at d buf (p + size y) 255 sum blk -> filter shown (files [y]) = [] ->
      (exists i b buf', read_at d buf p 255 sum blk = Ok (D_NO_FILE, i, b, buf') /\ filter shown (files (y :: l)) = []) \/
      (exists l1 w e l2 buf', y :: l = l1 ++ File w e :: l2 /\ filter shown (files l1) = [] /\ shown (w, e) = true /\
        read_at d buf p 255 sum blk = Ok (D_OK, p + sizes l1 + parts w, read_blk w (p + sizes l1), buf') /\ (w <> [] -> holds buf' w))).
    { intros -> F. destruct (IH (p + size y) buf sum blk L2 ltac:(lia) Pc T) as [(i & b & buf' & E & H1)|(l1 & w & e & l2 & buf' & -> & H1 & H2 & E & H3)].
      - left. exists i, b, buf'. split; [auto|]. change (y :: l) with ([y] ++ l). now rewrite files_app, filter_app, F, H1.
      - right. exists (y :: l1), w, e, l2, buf'. split; [auto|]. split; [change (y :: l1) with ([y] ++ l1); now rewrite files_app, filter_app, F, H1|]. split; [auto|]. split; [|auto]. rewrite E, sizes_cons. now rewrite Z.add_assoc. }
    destruct y as [|e|w e]; cbn [size] in *.
    + apply Step; [|reflexivity]. rewrite read_step by lia. cbv zeta. destruct L1 as [_ ->]. reflexivity.
    + apply Step; [|reflexivity]. rewrite read_step by lia. cbv zeta. destruct L1 as [-> L1]. pose proof (label_attr e L1) as A. cbv zeta in A. destruct A as (_ & _ & -> & -> & ->). now rewrite orb_true_r.
    + pose proof (read_file w e p buf sum blk L1 P ltac:(lia)) as F. destruct (shown (w, e)) eqn:Sn.
      * destruct F as (buf' & F1 & F2). right. exists [], w, e, l, buf'. split; [auto|]. split; [auto|]. split; [auto|]. split; [|auto]. cbn [sizes fold_right]. now rewrite Z.add_0_r.
      * destruct F as [F ->]. apply Step; [rewrite F; f_equal|]. cbn [files filter]. now rewrite Sn.
Qed.
End Read.

Lemma dir_read_at d buf i blk : 0 <= i < cap d -> dir_read d buf i blk = read_at d buf i 255 255 blk.
Proof. intros. unfold dir_read, read_at. now replace (i <? cap d) with true by lia. Qed.

Lemma list_items d l0 : dir_ok d l0 -> forall n l bufs p blk, laid (tab d) p l -> 0 <= p -> p < cap d -> p + sizes l = sizes l0 -> (Z.to_nat (cap d - p) <= n)%nat ->
  exists out, list_loop n d bufs p blk = Ok out /\ Forall2 (lists d) out (filter shown (files l)).
Proof.
  intros D. pose proof (dk_cap _ _ D) as C. pose proof (dk_room _ _ D) as Rm. induction n as [|n IH]; intros l bufs p blk L P Pc E N; [lia|].
  cbn [list_loop]. rewrite dir_read_at by lia.
  destruct (read_items d C l p (bufs p) 255 blk L P ltac:(lia)) as [(i & b & buf' & -> & H)|(l1 & w & e & l2 & buf' & -> & H1 & H2 & -> & H3)].
  - intros Q. apply (dk_tail _ _ D). pose proof (sizes_nonneg l). lia.
  - cbn [bind]. exists []. split; [auto|]. rewrite H. constructor.
  - cbn [bind]. apply laid_app in L. destruct L as [_ [L1 L2]]. cbn [size] in L2. rewrite sizes_app, sizes_cons in E. cbn [size] in E.
    pose proof (sizes_nonneg l1). pose proof (sizes_nonneg l2). pose proof (parts_nonneg w).
    assert (Ls : lists d (p + sizes l1 + parts w, read_blk w (p + sizes l1), buf') (w, e)).
    { split; [apply L1|]. cbn [fst]. unfold read_blk. destruct w as [|u w]; [auto|]. split; [unfold NONE, MAXENT in *; lia|apply H3; discriminate]. }
    rewrite files_app, filter_app, H1. cbn [app files filter]. rewrite H2.
    unfold dir_next. unfold MAXENT in *. destruct (Z.ltb_spec (p + sizes l1 + parts w + 1) (cap d)) as [Q|Q].
    + replace (65536 <=? p + sizes l1 + parts w + 1) with false by lia.
      destruct (IH l2 bufs (p + sizes l1 + parts w + 1) (read_blk w (p + sizes l1))) as (out & -> & F); [now rewrite Z.add_assoc in L2|lia..|].
      cbn [bind]. eexists. split; [reflexivity|]. now constructor.
    + assert (S0 : sizes l2 = 0) by lia. assert (l2 = []) by (destruct l2 as [|y l2]; [auto|]; rewrite sizes_cons in S0; pose proof (size_pos y); pose proof (sizes_nonneg l2); lia). subst l2.
      exists [(p + sizes l1 + parts w, read_blk w (p + sizes l1), buf')]. split; [destruct (65536 <=? p + sizes l1 + parts w + 1); reflexivity|]. cbn. now constructor.
Qed.
Theorem list_ok d l bufs : dir_ok d l -> exists out, list_dir d bufs = Ok out /\ Forall2 (lists d) out (filter shown (files l)).
Proof. intros D. pose proof (dk_cap _ _ D). apply (list_items d l D); [apply D|lia..]. Qed.

(* --- any table at all ------------------------------------------------------------------ *)

Lemma find_safe d fn buf : 1 <= cap d <= MAXENT -> (forall i, 0 <= i < cap d -> bytes (tab d i)) -> units buf -> exists r i b, dir_find d fn buf = Ok (r, i, b) /\ (r = D_OK \/ r = D_NO_FILE) /\ 0 <= i < cap d.
Proof.
  intros C B U. assert (X : forall n i ord sum blk, 0 <= i <= cap d -> (0 < i \/ i < cap d) -> Z.to_nat (cap d - i) = n -> exists r j b, find_at d fn buf i ord sum blk = Ok (r, j, b) /\ (r = D_OK \/ r = D_NO_FILE) /\ 0 <= j < cap d).
  { induction n as [|n IH]; intros i ord sum blk I I2 N.
    - unfold find_at. replace (i <? cap d) with false by lia. do 3 eexists. split; [reflexivity|]. split; [auto|lia].
    - rewrite find_step by lia. cbv zeta.
      destruct (tab d i 0 =? 0); [do 3 eexists; split; [reflexivity|]; split; [auto|lia]|].
      destruct ((tab d i 0 =? DDEM) || has (Z.land (tab d i 11) 63) 8 && negb (Z.land (tab d i 11) 63 =? 15)); [apply IH; lia|].
      destruct (Z.land (tab d i 11) 63 =? 15).
      + destruct (has (fn 11) 64); [apply IH; lia|]. destruct (cmp_safe buf (tab d i) (B i ltac:(lia)) U) as (m & Em).
        destruct (has (tab d i 0) 64); destruct (_ && _); rewrite ?Em; cbn [bind]; apply IH; lia.
      + destruct (_ && _); [do 3 eexists; split; [reflexivity|]; split; [auto|lia]|]. destruct (_ && _); [do 3 eexists; split; [reflexivity|]; split; [auto|lia]|]. apply IH; lia. }
  destruct (X _ 0 255 255 NONE ltac:(lia) ltac:(lia) eq_refl) as (r & j & b & E & H). exists r, j, b. split; [|auto].
  unfold find_at in E. replace (0 <? cap d) with true in E by lia. now rewrite Z.sub_0_r in E.
Qed.
Lemma read_safe d buf i blk : 1 <= cap d <= MAXENT -> (forall i, 0 <= i < cap d -> bytes (tab d i)) -> units buf -> 0 <= i < cap d ->
  exists r j b buf', dir_read d buf i blk = Ok (r, j, b, buf') /\ (r = D_OK \/ r = D_NO_FILE) /\ i <= j < cap d /\ units buf'.
Proof.
  intros C B U I0. assert (X : forall n buf i ord sum blk, units buf -> 0 <= i <= cap d -> 0 < cap d -> Z.to_nat (cap d - i) = n -> exists r j b buf', read_at d buf i ord sum blk = Ok (r, j, b, buf') /\ (r = D_OK \/ r = D_NO_FILE) /\ i - 1 <= j < cap d /\ (i < cap d -> i <= j) /\ units buf').
  { clear - B C. induction n as [|n IH]; intros buf i ord sum blk U I I2 N.
    - unfold read_at. replace (i <? cap d) with false by lia. do 4 eexists. split; [reflexivity|]. split; [auto|]. split; [lia|]. split; [lia|auto].
    - assert (Nx : forall buf ord sum blk, units buf -> exists r j b buf', read_at d buf (i + 1) ord sum blk = Ok (r, j, b, buf') /\ (r = D_OK \/ r = D_NO_FILE) /\ i - 1 <= j < cap d /\ (i < cap d -> i <= j) /\ units buf').
      { intros buf1 o1 s1 b1 U1. destruct (IH buf1 (i + 1) o1 s1 b1 U1 ltac:(lia) ltac:(lia) ltac:(lia)) as (r & j & b & buf' & E & H1 & H2 & H3 & H4). exists r, j, b, buf'. split; [auto|]. split; [auto|]. split; [lia|]. split; [lia|auto]. }
      assert (Don : forall r b, r = D_OK \/ r = D_NO_FILE -> exists r1 j b1 buf', @Ok (drc * Z * Z * (Z -> Z)) (r, i, b, buf) = Ok (r1, j, b1, buf') /\ (r1 = D_OK \/ r1 = D_NO_FILE) /\ i - 1 <= j < cap d /\ (i < cap d -> i <= j) /\ units buf').
      { intros r b H. do 4 eexists. split; [reflexivity|]. split; [auto|]. split; [lia|]. split; [lia|auto]. }
      rewrite read_step by lia. cbv zeta.
      destruct (tab d i 0 =? 0); [apply Don; auto|].
      destruct ((tab d i 0 =? DDEM) || (tab d i 0 =? 46) || (Z.land (Z.land (tab d i 11) 63) 223 =? 8)); [apply Nx; auto|].
      destruct (Z.land (tab d i 11) 63 =? 15).
      + destruct (pick_safe buf (tab d i) (B i ltac:(lia))) as (buf1 & m & Em & U1).
        destruct (has (tab d i 0) 64); destruct (_ && _); rewrite ?Em; cbn [bind]; apply Nx; auto.
      + apply Don. auto. }
  rewrite dir_read_at by lia. destruct (X _ buf i 255 255 blk U ltac:(lia) ltac:(lia) eq_refl) as (r & j & b & buf' & E & H1 & H2 & H3 & H4). exists r, j, b, buf'. split; [auto|]. split; [auto|]. split; [lia|auto].
Qed.
