From Verif Require Import Base FutfModel FutfSpec FutfProof LfnModel LfnSpec LfnProof FdirModel FdirSpec.
Open Scope Z_scope.

(* --- the layout --------------------------------------------------------------------- *)

Lemma parts_nil : parts [] = 0.
Proof. reflexivity. Qed.
Lemma parts_nonneg w : 0 <= parts w.
Proof. unfold parts. lia. Qed.
Lemma parts_pos w : w <> [] -> 1 <= parts w.
Proof. destruct w; [easy|]. intros _. unfold parts. cbn [length]. lia. Qed.
Lemma size_pos x : 1 <= size x.
Proof. destruct x; cbn; try lia. pose proof (parts_nonneg w). lia. Qed.
Lemma sizes_nonneg l : 0 <= sizes l.
Proof. induction l as [|x l IH]; cbn; [lia|]. pose proof (size_pos x). fold (sizes l). lia. Qed.
Lemma sizes_cons x l : sizes (x :: l) = size x + sizes l.
Proof. reflexivity. Qed.
Lemma sizes_app a b : sizes (a ++ b) = sizes a + sizes b.
Proof. induction a as [|x a IH]; cbn [app]; [cbn; lia|]. rewrite !sizes_cons, IH. lia. Qed.
Lemma files_app a b : files (a ++ b) = files a ++ files b.
Proof. induction a as [|[|e|w e] a IH]; cbn; auto. now rewrite IH. Qed.
Lemma laid_app t a : forall p b, laid t p (a ++ b) <-> laid t p a /\ laid t (p + sizes a) b.
Proof.
  induction a as [|x a IH]; intros p b; cbn [app laid].
  - cbn. rewrite Z.add_0_r. tauto.
  - rewrite IH, sizes_cons, Z.add_assoc. tauto.
Qed.
Lemma stored_ext t t' p x : (forall j, p <= j < p + size x -> t' j = t j) -> stored t p x -> stored t' p x.
Proof.
  destruct x as [|e|w e]; cbn [size stored]; intros H.
  - rewrite (H p) by lia. auto.
  - rewrite (H p) by lia. auto.
  - pose proof (parts_nonneg w). rewrite (H (p + parts w)) by lia. intros (H1 & H2 & H3). split; [auto|]. split; [auto|].
    intros W. destruct (H3 W) as (A & B & C). split; [auto|]. split; [auto|]. intros k K. rewrite H by lia. auto.
Qed.
Lemma laid_ext t t' l : forall p, (forall j, p <= j < p + sizes l -> t' j = t j) -> laid t p l -> laid t' p l.
Proof.
  induction l as [|x l IH]; intros p H; cbn [laid]; [auto|]. rewrite sizes_cons in H. pose proof (size_pos x). pose proof (sizes_nonneg l). intros [L1 L2]. split.
  - apply (stored_ext t); [|auto]. intros. apply H. lia.
  - apply IH; [|auto]. intros. apply H. lia.
Qed.

Lemma eq11_ok a b : eq11 a b = true <-> short_same a b.
Proof.
  unfold eq11, short_same. rewrite forallb_forall. split.
  - intros H k K. apply Z.eqb_eq, H. cbn. lia.
  - intros H k K. apply Z.eqb_eq, H. cbn in K. lia.
Qed.

(* --- attributes ------------------------------------------------------------------------ *)

Lemma byte_all (P : Z -> bool) : forallb P (map Z.of_nat (seq 0 256)) = true -> forall x, 0 <= x < 256 -> P x = true.
Proof. rewrite forallb_forall. intros H x X. apply H, in_map_iff. exists (Z.to_nat x). split; [lia|]. apply in_seq. lia. Qed.
Definition attr_bits (x : Z) : bool :=
  let a := Z.land x 63 in
  (if Z.land x 8 =? 0 then negb (has a 8) && negb (a =? 15) && negb (Z.land a 223 =? 8) else true) &&
  (if Z.land x 31 =? 8 then has a 8 && negb (a =? 15) && (Z.land a 223 =? 8) else true).
Lemma attr_all x : 0 <= x < 256 -> attr_bits x = true.
Proof. apply byte_all. reflexivity. Qed.
Lemma short_attr e : short_ok e -> let a := Z.land (e 11) 63 in has a 8 = false /\ (a =? 15) = false /\ (Z.land a 223 =? 8) = false /\ (e 0 =? 0) = false /\ (e 0 =? DDEM) = false.
Proof.
  intros (B & H1 & H2 & H3) a. pose proof (attr_all (e 11) (B 11)) as A. unfold attr_bits in A. fold a in A. rewrite H3 in A. cbn in A.
  apply andb_true_iff in A. destruct A as [A _]. destruct (has a 8), (a =? 15), (Z.land a 223 =? 8); try discriminate. repeat split; lia.
Qed.
Lemma label_attr e : label_ok e -> let a := Z.land (e 11) 63 in has a 8 = true /\ (a =? 15) = false /\ (Z.land a 223 =? 8) = true /\ (e 0 =? 0) = false /\ (e 0 =? DDEM) = false.
Proof.
  intros (B & H1 & H2 & H3) a. pose proof (attr_all (e 11) (B 11)) as A. unfold attr_bits in A. fold a in A. rewrite H3 in A. cbn in A.
  apply andb_true_iff in A. destruct A as [_ A]. destruct (has a 8), (a =? 15), (Z.land a 223 =? 8); try discriminate. repeat split; lia.
Qed.
Lemma part_attr w ord sum e : name_ok w -> 1 <= ord <= parts w -> part_of w ord sum e ->
  Z.land (e 11) 63 = 15 /\ (e 0 =? 0) = false /\ (e 0 =? DDEM) = false /\ (e 0 =? 46) = false /\ has (e 0) 64 = (ord =? parts w) /\ Z.land (e 0) 191 = ord /\ (ord <> parts w -> e 0 = ord).
Proof.
  intros W O P. pose proof (parts_range w W). destruct (ord_bits w ord sum e W O P) as (O1 & O2 & O3). rewrite (po_attr _ _ _ _ P). split; [reflexivity|].
  unfold has. rewrite O3, O2. pose proof (po_ord _ _ _ _ P) as E. unfold DDEM. destruct (Z.eqb_spec ord (parts w)); rewrite E; repeat split; lia.
Qed.

(* --- dir_find ---------------------------------------------------------------------------- *)

Definition find_at (d : dirt) (fn buf : Z -> Z) (i ord sum blk : Z) : res (drc * Z * Z) :=
  if i <? cap d then find_loop (Z.to_nat (cap d - i)) d fn buf i ord sum blk else Ok (D_NO_FILE, i - 1, blk).

Lemma find_next d fn buf i ord sum blk : cap d <= MAXENT -> 0 <= i < cap d ->
  match dir_next d i false with
  | (_, D_OK) => find_loop (Z.to_nat (cap d - (i + 1))) d fn buf (i + 1) ord sum blk
  | (_, r) => Ok (r, i, blk)
  end = find_at d fn buf (i + 1) ord sum blk.
Proof.
  intros M I. unfold dir_next, find_at. unfold MAXENT in *. destruct (Z.ltb_spec (i + 1) (cap d)).
  - replace (65536 <=? i + 1) with false by lia. reflexivity.
  - destruct (65536 <=? i + 1); cbn; now replace (i + 1 - 1) with i by lia.
Qed.
Lemma find_step d fn buf i ord sum blk : cap d <= MAXENT -> 0 <= i < cap d ->
  find_at d fn buf i ord sum blk =
      let next := find_at d fn buf (i + 1) in
      let e := tab d i in
      let c := e 0 in
      if c =? 0 then Ok (D_NO_FILE, i, blk)
      else
        let a := Z.land (e 11) 63 in
        if (c =? DDEM) || has a 8 && negb (a =? 15) then next 255 sum NONE
        else if a =? 15 then
          if has (fn 11) 64 then next ord sum blk
          else
            let '(c, ord, sum, blk) := if has c 64 then (Z.land c 191, Z.land c 191, e 13, i) else (c, ord, sum, blk) in
            m <- (if (c =? ord) && (sum =? e 13) then cmp_lfn buf e else Ok false) ;;
            next (if m then (ord - 1) mod 256 else 255) sum blk
        else if (ord =? 0) && (sum =? sum_sfn e) then Ok (D_OK, i, blk)
        else if negb (has (fn 11) 1) && eq11 e fn then Ok (D_OK, i, blk)
        else next 255 sum NONE.
Proof.
  intros M I. unfold find_at at 1. replace (i <? cap d) with true by lia.
  replace (Z.to_nat (cap d - i)) with (S (Z.to_nat (cap d - (i + 1)))) by lia. cbn [find_loop].
  cbv zeta. rewrite !(find_next d fn buf i) by auto.
  destruct (tab d i 0 =? 0); [reflexivity|].
  destruct ((tab d i 0 =? DDEM) || has (Z.land (tab d i 11) 63) 8 && negb (Z.land (tab d i 11) 63 =? 15)); [reflexivity|].
  destruct (Z.land (tab d i 11) 63 =? 15); [|reflexivity]. destruct (has (fn 11) 64); [reflexivity|].
  destruct (has (tab d i 0) 64).
  - destruct (if (Z.land (tab d i 0) 191 =? Z.land (tab d i 0) 191) && (tab d i 13 =? tab d i 13) then cmp_lfn buf (tab d i) else Ok false); cbn [bind]; try reflexivity. apply find_next; auto.
  - destruct (if (tab d i 0 =? ord) && (sum =? tab d i 13) then cmp_lfn buf (tab d i) else Ok false); cbn [bind]; try reflexivity. apply find_next; auto.
Qed.

Section Find.
Variables (d : dirt) (fn buf : Z -> Z) (x : list Z).
Hypothesis Cap : 1 <= cap d <= MAXENT.
Hypothesis Ub : units buf.
Hypothesis Xu : Forall (fun u => 0 < u < 65536) x.
Hypothesis Hx : holds buf x.

(* The long name entries of a file, when long names count. *)
Lemma find_parts w e p : has (fn 11) 64 = false -> w <> [] -> stored (tab d) p (File w e) -> 0 <= p -> p + parts w < cap d -> forall n k ord sum blk,
  Z.of_nat n = parts w - k -> 0 <= k <= parts w ->
  (0 < k -> sum = sum_sfn e /\ blk = p /\ ((ord = parts w - k /\ forall o, parts w - k < o <= parts w -> agrees w buf o) \/ (ord = 255 /\ exists o, parts w - k < o <= parts w /\ ~ agrees w buf o))) ->
  exists ord', find_at d fn buf (p + k) ord sum blk = find_at d fn buf (p + parts w) ord' (if n then sum else sum_sfn e) (if n then blk else p) /\
    (((n = 0%nat /\ ord' = ord) \/ (n <> 0%nat /\ (ord' = 0 /\ same_name w x \/ ord' = 255 /\ ~ same_name w x)))).
Proof.
  intros N W (T & Sh & Hw) P Pc. destruct (Hw W) as (Wn & _ & Hp). pose proof (parts_range w Wn) as R. pose proof (agrees_same w x buf Wn Xu Hx) as AS.
  induction n as [|n IH]; intros k ord sum blk Hn K I.
  - exists ord. replace (p + k) with (p + parts w) by lia. auto.
  - destruct (Hp k ltac:(lia)) as [Pk Bk]. destruct (part_attr w (parts w - k) _ _ Wn ltac:(lia) Pk) as (A1 & A2 & A3 & _ & A5 & A6 & A7).
    rewrite find_step by lia. cbv zeta. rewrite A2, A3, A1, N. change (has 15 8) with true. change (15 =? 15) with true. cbn [andb negb orb].
    destruct (cmp_ok w (parts w - k) _ _ buf Wn ltac:(lia) Pk Bk Ub) as (b & Eb & Hb).
    assert (X : exists ord1, (let '(c, ord, sum, blk) := if has (tab d (p + k) 0) 64 then (Z.land (tab d (p + k) 0) 191, Z.land (tab d (p + k) 0) 191, tab d (p + k) 13, p + k) else (tab d (p + k) 0, ord, sum, blk) in
       m <- (if (c =? ord) && (sum =? tab d (p + k) 13) then cmp_lfn buf (tab d (p + k)) else Ok false) ;;
       find_at d fn buf (p + k + 1) (if m then (ord - 1) mod 256 else 255) sum blk) = find_at d fn buf (p + (k + 1)) ord1 (sum_sfn e) p /\
       ((ord1 = parts w - (k + 1) /\ forall o, parts w - (k + 1) < o <= parts w -> agrees w buf o) \/ (ord1 = 255 /\ exists o, parts w - (k + 1) < o <= parts w /\ ~ agrees w buf o))).
    { rewrite A5, A6, (po_sum _ _ _ _ Pk). replace (p + (k + 1)) with (p + k + 1) by lia. destruct (Z.eqb_spec (parts w - k) (parts w)) as [Q|Q].
      - assert (k = 0) by lia. subst k. rewrite !Z.eqb_refl. cbn [andb]. rewrite Eb. cbn [bind]. rewrite Z.add_0_r. eexists. split; [reflexivity|]. destruct b.
        + left. split; [rewrite Z.mod_small; lia|]. intros o O. replace o with (parts w - 0) by lia. now apply Hb.
        + right. split; [auto|]. exists (parts w - 0). split; [lia|]. intros H. apply Hb in H. discriminate.
      - destruct (I ltac:(lia)) as (-> & -> & I3). rewrite A7, Z.eqb_refl, andb_true_r by auto. destruct I3 as [[-> I4]|[-> (o & O1 & O2)]].
        + rewrite Z.eqb_refl, Eb. cbn [bind]. eexists. split; [reflexivity|]. destruct b.
          * left. split; [rewrite Z.mod_small; lia|]. intros o O. destruct (Z.eq_dec o (parts w - k)) as [->|]; [now apply Hb|]. apply I4. lia.
          * right. split; [auto|]. exists (parts w - k). split; [lia|]. intros H. apply Hb in H. discriminate.
        + replace (parts w - k =? 255) with false by lia. cbn [bind]. eexists. split; [reflexivity|]. right. split; [auto|]. exists o. split; [lia|auto]. }
    destruct X as (ord1 & -> & X). destruct (IH (k + 1) ord1 (sum_sfn e) p ltac:(lia) ltac:(lia) ltac:(auto)) as (ord2 & -> & Z2). exists ord2. split; [destruct n; auto|].
    right. split; [lia|]. destruct Z2 as [[-> ->]|[_ Z2]]; [|auto]. destruct X as [[-> X]|[-> (o & O1 & O2)]].
    + left. split; [lia|]. apply AS. intros o O. apply X. lia.
    + right. split; [auto|]. intros S1. apply O2, AS; [auto|lia].
Qed.

(* With long names left out they are passed over. *)
Lemma find_parts_no w e p : has (fn 11) 64 = true -> w <> [] -> stored (tab d) p (File w e) -> 0 <= p -> p + parts w < cap d -> forall n k ord sum blk,
  Z.of_nat n = parts w - k -> 0 <= k <= parts w -> find_at d fn buf (p + k) ord sum blk = find_at d fn buf (p + parts w) ord sum blk.
Proof.
  intros N W (T & Sh & Hw) P Pc. destruct (Hw W) as (Wn & _ & Hp). pose proof (parts_range w Wn) as R.
  induction n as [|n IH]; intros k ord sum blk Hn K.
  - now replace (p + k) with (p + parts w) by lia.
  - destruct (Hp k ltac:(lia)) as [Pk Bk]. destruct (part_attr w (parts w - k) _ _ Wn ltac:(lia) Pk) as (A1 & A2 & A3 & _).
    rewrite find_step by lia. cbv zeta. rewrite A2, A3, A1, N. change (has 15 8) with true. change (15 =? 15) with true. cbn [andb negb orb].
    rewrite <- (IH (k + 1)) by lia. now replace (p + k + 1) with (p + (k + 1)) by lia.
Qed.

(* One file: found, or on to the next item. *)
Lemma find_file w e p sum : stored (tab d) p (File w e) -> 0 <= p -> p + parts w < cap d ->
  (hit x fn (w, e) /\ find_at d fn buf p 255 sum NONE = Ok (D_OK, p + parts w, blk_of fn w p)) \/
  (~ hit x fn (w, e) /\ exists sum', find_at d fn buf p 255 sum NONE = find_at d fn buf (p + parts w + 1) 255 sum' NONE).
Proof.
  intros St P Pc. pose proof (parts_nonneg w). pose proof St as (T & Sh & Hw). pose proof (short_attr e Sh) as A. cbv zeta in A. destruct A as (A1 & A2 & A3 & A4 & A5).
  assert (X : exists ord sum', find_at d fn buf p 255 sum NONE = find_at d fn buf (p + parts w) ord sum' (blk_of fn w p) /\
    ((ord = 0 /\ sum' = sum_sfn e /\ has (fn 11) 64 = false /\ w <> [] /\ same_name w x) \/ (ord = 255 /\ ~ (has (fn 11) 64 = false /\ w <> [] /\ same_name w x)))).
  { unfold blk_of. destruct w as [|u w].
    - exists 255, sum. rewrite parts_nil, Z.add_0_r. split; [now destruct (has (fn 11) 64)|]. right. split; [auto|]. now intros (_ & ? & _).
    - assert (W : u :: w <> []) by discriminate. revert St W. set (v := u :: w) in *. intros St W. destruct (has (fn 11) 64) eqn:N.
      + exists 255, sum. split; [|right; split; [auto|]; now intros (? & _)]. pose proof (find_parts_no v e p N W St P Pc (Z.to_nat (parts v)) 0 255 sum NONE ltac:(lia) ltac:(lia)) as E. now rewrite Z.add_0_r in E.
      + pose proof (parts_pos v W). destruct (find_parts v e p N W St P Pc (Z.to_nat (parts v)) 0 255 sum NONE ltac:(lia) ltac:(lia) ltac:(lia)) as (ord & E & H1). rewrite Z.add_0_r in E.
        exists ord, (sum_sfn e). split; [destruct (Z.to_nat (parts v)) eqn:Q; [lia|auto]|]. destruct H1 as [[H1 _]|[_ [[-> H1]|[-> H1]]]]; [lia|left; now repeat split|]. right. split; [auto|]. now intros (_ & _ & ?). }
  destruct X as (ord & sum' & -> & X). rewrite find_step by lia. cbv zeta. rewrite T, A4, A5, A1, A2. cbn [andb orb]. unfold hit. cbn [fst snd].
  destruct X as [(-> & -> & X1 & X2 & X3)|[-> X]].
  - left. split; [auto|]. now rewrite !Z.eqb_refl.
  - change (255 =? 0) with false. cbn [andb]. destruct (has (fn 11) 1) eqn:L; cbn [negb andb].
    + right. split; [|eauto]. intros [Y|[Y _]]; [auto|discriminate].
    + destruct (eq11 e fn) eqn:Q.
      * left. split; [right; split; [auto|now apply eq11_ok]|reflexivity].
      * right. split; [|eauto]. intros [Y|[_ Y]]; [auto|]. apply eq11_ok in Y. congruence.
Qed.

Lemma find_items l : forall p sum, laid (tab d) p l -> 0 <= p -> p + sizes l <= cap d -> (p + sizes l < cap d -> tab d (p + sizes l) 0 = 0) ->
  (exists i b, find_at d fn buf p 255 sum NONE = Ok (D_NO_FILE, i, b) /\ Forall (fun f => ~ hit x fn f) (files l)) \/
  (exists l1 w e l2, l = l1 ++ File w e :: l2 /\ Forall (fun f => ~ hit x fn f) (files l1) /\ hit x fn (w, e) /\
     find_at d fn buf p 255 sum NONE = Ok (D_OK, p + sizes l1 + parts w, blk_of fn w (p + sizes l1))).
Proof.
  induction l as [|y l IH]; intros p sum L P Pc T.
  - left. cbn in T, Pc. rewrite Z.add_0_r in T. destruct (Z.ltb_spec p (cap d)) as [Q|Q].
    + rewrite find_step by lia. cbv zeta. rewrite T by lia. change (0 =? 0) with true. cbv iota. do 2 eexists. split; [reflexivity|constructor].
    + unfold find_at. replace (p <? cap d) with false by lia. do 2 eexists. split; [reflexivity|constructor].
  - cbn [laid] in L. destruct L as [L1 L2]. rewrite sizes_cons in *. pose proof (size_pos y). pose proof (sizes_nonneg l).
    rewrite Z.add_assoc in T, Pc. assert (Step : (exists s, find_at d fn buf p 255 sum NONE = find_at d fn buf (p + size y) 255 s NONE) -> Forall (fun f => ~ hit x fn f) (files [y]) ->
      (exists i b, find_at d fn buf p 255 sum NONE = Ok (D_NO_FILE, i, b) /\ Forall (fun f => ~ hit x fn f) (files (y :: l))) \/
      (exists l1 w e l2, y :: l = l1 ++ File w e :: l2 /\ Forall (fun f => ~ hit x fn f) (files l1) /\ hit x fn (w, e) /\
        find_at d fn buf p 255 sum NONE = Ok (D_OK, p + sizes l1 + parts w, blk_of fn w (p + sizes l1)))).
    { intros [s ->] F. destruct (IH (p + size y) s L2 ltac:(lia) Pc T) as [(i & b & E & H1)|(l1 & w & e & l2 & -> & H1 & H2 & E)].
      - left. exists i, b. split; [auto|]. change (y :: l) with ([y] ++ l). rewrite files_app. apply Forall_app. auto.
      - right. exists (y :: l1), w, e, l2. split; [auto|]. split; [change (y :: l1) with ([y] ++ l1); rewrite files_app; apply Forall_app; auto|]. split; [auto|]. rewrite E, sizes_cons. now rewrite Z.add_assoc. }
    destruct y as [|e|w e]; cbn [size] in *.
    + apply Step; [|constructor]. rewrite find_step by lia. cbv zeta. destruct L1 as [_ ->]. eexists. reflexivity.
    + apply Step; [|constructor]. rewrite find_step by lia. cbv zeta. destruct L1 as [-> L1]. pose proof (label_attr e L1) as A. cbv zeta in A. destruct A as (-> & -> & _ & -> & ->). eexists. reflexivity.
    + destruct (find_file w e p sum L1 P ltac:(lia)) as [[F1 F2]|[F1 (s & F2)]].
      * right. exists [], w, e, l. split; [auto|]. split; [constructor|]. split; [auto|]. cbn. rewrite Z.add_0_r. auto.
      * apply Step; [exists s; rewrite F2; f_equal; lia|]. repeat constructor. auto.
Qed.
End Find.

Theorem find_ok d l fn buf x : dir_ok d l -> units buf -> Forall (fun u => 0 < u < 65536) x -> holds buf x ->
  (exists i b, dir_find d fn buf = Ok (D_NO_FILE, i, b) /\ Forall (fun f => ~ hit x fn f) (files l)) \/
  (exists l1 w e l2, l = l1 ++ File w e :: l2 /\ Forall (fun f => ~ hit x fn f) (files l1) /\ hit x fn (w, e) /\
     dir_find d fn buf = Ok (D_OK, sizes l1 + parts w, blk_of fn w (sizes l1))).
Proof.
  intros D U X H. pose proof (dk_cap _ _ D). pose proof (find_items d fn buf x ltac:(auto) U X H l 0 255 (dk_laid _ _ D) ltac:(lia)) as F.
  rewrite Z.add_0_l in F. specialize (F (dk_room _ _ D)). unfold find_at in F. replace (0 <? cap d) with true in F by lia. rewrite Z.sub_0_r in F. unfold dir_find.
  destruct F as [F|F].
  - intros Q. apply (dk_tail _ _ D). pose proof (sizes_nonneg l). lia.
  - auto.
  - right. destruct F as (l1 & w & e & l2 & F). exists l1, w, e, l2. exact F.
Qed.
