(* Proofs about ZmModel: the receive program. *)
From Verif Require Import Base BaseLemmas Arr ArrLemmas Finite CrcModel CrcSpec CrcProof CrcProof2 ZmModel ZmSpec ZmProof ZmProof2.
Open Scope Z_scope.

Definition act (e : event) : action :=
  match e with Send h => Header h | Open n => OpenFile n | Write d => Put d | Close => CloseFile end.

(* --- any input --- *)

Definition eats (r inp : list Z) : Prop := suffix r inp /\ (length r < length inp)%nat.

Lemma eats_cons b r inp : suffix r inp -> eats r (b :: inp).
Proof. intros H. split; [apply suffix_cons; auto|]. apply suffix_length in H. cbn. lia. Qed.
Lemma eats_suffix a b c : suffix a b -> eats b c -> eats a c.
Proof. intros H [A B]. split; [eapply suffix_trans; eauto|]. apply suffix_length in H. lia. Qed.
Lemma eats_trans a b c : eats a b -> eats b c -> eats a c.
Proof. intros [H _] K. eapply eats_suffix; eauto. Qed.

Lemma await_zdle_eats sg inp : forall e r, await_zdle sg inp = Some (e, r) -> eats r inp.
Proof.
  induction inp as [|b t IH]; intros e r H; [discriminate|]. cbn [await_zdle] in H.
  destruct (is_error (recv sg b)); [inversion H; subst; apply eats_cons, suffix_refl|].
  destruct (recv sg b =? ZDLE); [inversion H; subst; apply eats_cons, suffix_refl|].
  apply IH in H. apply eats_cons. apply H.
Qed.

Lemma hex_suffix sg n : forall inp x r, read_hex_bytes sg n inp = Some (x, r) -> suffix r inp.
Proof.
  induction n as [|n IH]; intros inp x r H; cbn [read_hex_bytes] in H; [inversion H; subst; apply suffix_refl|].
  destruct inp as [|b1 t]; [discriminate|]. apply suffix_cons.
  destruct (is_error (recv sg b1)); [inversion H; subst; apply suffix_refl|].
  destruct (zvalue (recv sg b1) =? ZEOF); [inversion H; subst; apply suffix_refl|].
  destruct t as [|b2 t]; [discriminate|]. apply suffix_cons.
  destruct (is_error (recv sg b2)); [inversion H; subst; apply suffix_refl|].
  destruct (zvalue (recv sg b2) =? ZEOF); [inversion H; subst; apply suffix_refl|].
  destruct (is_error (zm_hex_to_byte (recv sg b1) (recv sg b2))); [inversion H; subst; apply suffix_refl|].
  destruct (read_hex_bytes sg n t) as [[y t']|] eqn:E; [|discriminate]. cbn [obind] in H. inversion H; subst. eapply IH; eauto.
Qed.

Lemma read_suffix sg inp c r : read_escaped sg inp = Some (c, r) -> suffix r inp.
Proof. intros H. apply read_shorter in H. tauto. Qed.

Lemma crlf_suffix sg inp c r : read_crlf sg inp = Some (c, r) -> suffix r inp.
Proof.
  unfold read_crlf. destruct (read_escaped sg inp) as [[x t]|] eqn:E; [|discriminate]. cbn [obind]. apply read_suffix in E.
  destruct (is_error x); [intros H; inversion H; subst; auto|].
  destruct (is_lf x); [intros H; inversion H; subst; auto|].
  destruct (is_cr x); [|intros H; inversion H; subst; auto].
  destruct (read_escaped sg t) as [[y t']|] eqn:E2; [|discriminate]. cbn [obind]. apply read_suffix in E2.
  destruct (is_error y); [intros H; inversion H; subst; eauto using suffix_trans|].
  destruct (is_lf y); intros H; inversion H; subst; eauto using suffix_trans.
Qed.

Lemma await_total sg fuel : forall inp, (length inp < fuel)%nat ->
  exists o, await_header fuel sg inp = Ok o /\ match o with None => True | Some (_, _, _, r) => eats r inp end.
Proof.
  induction fuel as [|fuel IH]; intros inp H; [lia|]. cbn [await_header].
  destruct (await_zdle sg inp) as [[e t]|] eqn:E; [|exists None; auto]. apply await_zdle_eats in E.
  destruct (negb (e =? OK)); [eexists; split; [reflexivity|auto]|].
  destruct (read_escaped sg t) as [[c u]|] eqn:E2; [|exists None; auto].
  apply read_suffix in E2. assert (U : eats u inp) by (eapply eats_suffix; eauto).
  destruct (c =? CANCELLED); [eexists; split; [reflexivity|auto]|].
  destruct (is_error c).
  { destruct (IH u) as (o & Eo & Ho); [destruct U; lia|]. exists o. split; auto. destruct o as [[[[? ?] ?] r]|]; auto. eapply eats_trans; eauto. }
  destruct (zvalue c =? ZHEX).
  { destruct (read_hex_bytes sg 7 u) as [[x v]|] eqn:E3; [|exists None; auto]. apply hex_suffix in E3.
    destruct (check16 x) as [k h]. destruct (k =? OK).
    - destruct (read_crlf sg v) as [[y w]|] eqn:E4; [|exists None; auto]. apply crlf_suffix in E4.
      eexists. split; [reflexivity|]. cbn. apply (eats_suffix w u inp); [eapply suffix_trans; [exact E4|exact E3]|exact U].
    - eexists. split; [reflexivity|]. cbn. eapply eats_suffix; eauto. }
  destruct (zvalue c =? ZBIN16).
  { destruct (read_bytes sg 7 u) as [[x v]|] eqn:E3; [|exists None; auto]. apply read_bytes_suffix in E3.
    destruct (check16 x) as [k h]. eexists. split; [reflexivity|]. cbn. eapply eats_suffix; eauto. }
  destruct (zvalue c =? ZBIN32).
  { destruct (read_bytes sg 9 u) as [[x v]|] eqn:E3; [|exists None; auto]. apply read_bytes_suffix in E3.
    destruct (check32 x) as [k h]. eexists. split; [reflexivity|]. cbn. eapply eats_suffix; eauto. }
  eexists. split; [reflexivity|auto].
Qed.

Lemma cstring_ok b : In 0 b -> exists n, cstring b = Ok n.
Proof.
  induction b as [|c b IH]; [intros []|]. intros H. cbn [cstring]. destruct (c =? 0) eqn:E; [eauto|].
  destruct IH as [n ->]; [destruct H; [lia|auto]|]. cbn. eauto.
Qed.

Lemma firstn_data (data tl : list Z) k : firstn (S (length data) - 1) (data ++ k :: tl) = data.
Proof. replace (S (length data) - 1)%nat with (length data) by lia. rewrite firstn_app, firstn_all, Nat.sub_diag, firstn_O, app_nil_r. reflexivity. Qed.
Lemma firstn_self n (l : list Z) : firstn n l = firstn (length (firstn n l)) l.
Proof.
  rewrite firstn_length. destruct (Nat.le_ge_cases n (length l)); [rewrite Nat.min_l by auto; reflexivity|].
  rewrite Nat.min_r, firstn_all by auto. apply firstn_all2. auto.
Qed.

(* What a run may do: [P] holds of every block written; the trace is orderly. *)
Section Any.
Variables (sg : bool) (open_ok : list Z -> bool) (after : list Z).

Definition fine (inp : list Z) (opened : bool) (evs : list event) : Prop :=
  orderly opened (map act evs) /\ (sg = false -> Forall byte inp -> forall d, In (Write d) evs -> fromblock inp d).

Lemma fromblock_suffix r inp d : suffix r inp -> fromblock r d -> fromblock inp d.
Proof. intros [p ->] (data & k & w & bs & pre & post & -> & B & E). exists data, k, w, bs, (p ++ pre), post. rewrite <- app_assoc. auto. Qed.

Lemma suffix_byte r inp : suffix r inp -> Forall byte inp -> Forall byte r.
Proof. intros [p ->] H. apply Forall_app in H. tauto. Qed.

Lemma fine_suffix r inp o evs : suffix r inp -> fine r o evs -> fine inp o evs.
Proof. intros S [A B]. split; auto. intros E F d D. eapply fromblock_suffix; eauto. apply B; auto. eapply suffix_byte; eauto. Qed.

Lemma fine_nil inp o : fine inp o [].
Proof. split; cbn; auto. intros _ _ d []. Qed.
Lemma fine_send inp o h evs : fine inp o evs -> fine inp o (Send h :: evs).
Proof. intros [A B]. split; cbn; auto. intros E F d [D|D]; [discriminate|auto]. Qed.
Lemma fine_open inp o n evs : fine inp true evs -> fine inp o (Open n :: evs).
Proof. intros [A B]. split; cbn; auto. intros E F d [D|D]; [discriminate|auto]. Qed.
Lemma fine_write inp d evs : (sg = false -> Forall byte inp -> fromblock inp d) -> fine inp true evs -> fine inp true (Write d :: evs).
Proof. intros X [A B]. split; cbn; auto. intros E F d' [D|D]; [inversion D; subst; auto|auto]. Qed.
Lemma fine_cleanup inp s : fine inp (r_open s) (cleanup s).
Proof. unfold cleanup. destruct (r_open s); [|apply fine_nil]. split; cbn; auto. intros _ _ d [D|[]]. discriminate. Qed.

Lemma rz_total fuel : forall indata s inp, (length inp < fuel)%nat -> length (r_buf s) = DATA_BUF_LEN -> In 0 after ->
  exists evs, rz fuel sg open_ok after indata s inp = Ok evs /\ fine inp (r_open s) evs.
Proof.
  induction fuel as [|fuel IH]; intros indata s inp Hf Hb Ha; [lia|]. cbn [rz]. cbv zeta.
  destruct indata.
  - destruct (block_safe sg (r_in32 s) (r_buf s) DATA_BUF_LEN inp ltac:(lia)) as (o & E & Ho). rewrite E. cbn [bind].
    destruct o as [[[[c buf] len] r]|]; [|exists []; split; [auto|apply fine_nil]].
    destruct Ho as (H1 & H2 & H3 & H4 & H5). assert (Hs : (length r < length inp)%nat) by (apply H5; discriminate). clear H5.
    cbn [r_open r_buf r_in32 r_size r_space] in *.
    destruct (r_open s) eqn:Op; cbn [negb]; [|exists []; split; [auto|apply fine_nil]].
    destruct (c =? CANCELLED).
    { eexists. split; [reflexivity|]. apply (fine_cleanup inp (Rz buf (r_in32 s) true (r_size s) (r_space s))). }
    destruct (is_error c) eqn:Ec.
    { destruct (IH false (Rz buf (r_in32 s) true (r_size s) (r_space s)) r ltac:(lia) ltac:(cbn; lia) Ha) as (evs & -> & F).
      unfold rcons. cbn [bind app]. eexists. split; [reflexivity|]. apply fine_send. eapply fine_suffix; eauto. }
    set (data := firstn (len - 1) buf). set (n := Nat.min (length data) (r_space s)).
    assert (W : sg = false -> Forall byte inp -> fromblock inp (firstn n data)).
    { intros -> Fb. destruct (block_sound _ _ _ _ _ _ _ _ Fb ltac:(rewrite Hb; reflexivity) E Ec) as (dt & k & bs & BA & -> & -> & -> & _ & ->).
      exists dt, k, (r_in32 s), bs, [], r. split; [reflexivity|]. split; [auto|].
      assert (Ed : data = dt) by apply firstn_data. rewrite Ed. apply firstn_self. }
    destruct (n <? length data)%nat.
    { eexists. split; [reflexivity|]. apply fine_write; auto. apply (fine_cleanup inp (Rz buf (r_in32 s) true (r_size s) (r_space s))). }
    set (s' := Rz buf (r_in32 s) true _ _).
    assert (L : forall b, exists evs, rz fuel sg open_ok after b s' r = Ok evs /\ fine inp true evs).
    { intros b. destruct (IH b s' r ltac:(lia) ltac:(cbn; lia) Ha) as (evs & E' & F). exists evs. split; auto. eapply fine_suffix; eauto. }
    destruct (L true) as (ev1 & E1 & F1). destruct (L false) as (ev2 & E2 & F2). rewrite E1, E2. unfold rcons. cbn [bind app].
    repeat match goal with |- context [if ?q then _ else _] => destruct q end;
      (eexists; split; [reflexivity|]; apply fine_write; auto; try apply fine_send; auto).
  - destruct (await_total sg (S (length inp)) inp ltac:(lia)) as (o & E & Ho). rewrite E. cbn [bind].
    destruct o as [[[[e h] b32] r]|]; [|exists []; split; [auto|apply fine_nil]]. destruct Ho as [Hs Hl].
    cbn [r_open r_buf r_in32 r_size r_space] in *.
    set (i32 := match b32 with Some b => b | None => r_in32 s end). set (s1 := Rz (r_buf s) i32 (r_open s) (r_size s) (r_space s)).
    assert (L : forall b, exists evs, rz fuel sg open_ok after b s1 r = Ok evs /\ fine inp (r_open s) evs).
    { intros b. destruct (IH b s1 r ltac:(lia) ltac:(cbn; lia) Ha) as (evs & E' & F). exists evs. split; auto. eapply fine_suffix; eauto. }
    destruct (e =? CANCELLED); [eexists; split; [reflexivity|apply (fine_cleanup inp s1)]|].
    destruct (e =? OK).
    2: { destruct (L false) as (ev & E1 & F). rewrite E1. eexists. split; [reflexivity|]. apply fine_send; auto. }
    destruct ((nth 0 h 0 =? ZRQINIT) || (nth 0 h 0 =? ZEOF)).
    { destruct (L false) as (ev & E1 & F). rewrite E1. eexists. split; [reflexivity|]. apply fine_send; auto. }
    destruct (nth 0 h 0 =? ZFIN); [eexists; split; [reflexivity|apply fine_send, (fine_cleanup inp s1)]|].
    destruct (nth 0 h 0 =? ZFILE).
    { destruct (block_safe sg i32 (r_buf s) DATA_BUF_LEN r ltac:(lia)) as (o & E3 & Ho). rewrite E3. cbn [bind].
      destruct o as [[[[c buf] len] r2]|]; [|exists []; split; [auto|apply fine_nil]].
      destruct Ho as (H1 & H2 & H3 & H4 & H5). assert (Hs2 : (length r2 < length r)%nat) by (apply H5; discriminate). clear H5.
      set (s2 := Rz buf i32 (r_open s) (r_size s) (r_space s)).
      destruct (c =? CANCELLED); [eexists; split; [reflexivity|apply (fine_cleanup inp s2)]|].
      destruct (is_error c).
      { destruct (IH false s2 r2 ltac:(lia) ltac:(cbn; lia) Ha) as (evs & E' & F). exists evs. split; auto. eapply fine_suffix; [|exact F]. eauto using suffix_trans. }
      destruct (cstring_ok (buf ++ after)) as [nm ->]; [apply in_or_app; auto|]. cbn [bind].
      destruct (open_ok nm).
      - destruct (IH false (Rz buf i32 true (r_size s) (r_space s)) r2 ltac:(lia) ltac:(cbn; lia) Ha) as (evs & E' & F). rewrite E'.
        eexists. split; [reflexivity|]. apply fine_open, fine_send. eapply fine_suffix; [|exact F]. eauto using suffix_trans.
      - eexists. split; [reflexivity|]. apply fine_open, fine_nil. }
    destruct (nth 0 h 0 =? ZDATA); apply L.
Qed.
End Any.

Lemma rz_any sg open_ok junk after space inp : length junk = DATA_BUF_LEN -> In 0 after ->
  exists evs, rz_main sg open_ok junk after space inp = Ok evs /\ orderly false (map act evs) /\
  (sg = false -> Forall byte inp -> forall d, In (Write d) evs -> fromblock inp d).
Proof. intros H A. unfold rz_main. destruct (rz_total sg open_ok after (S (length inp)) false (Rz junk false false 0 space) inp) as (evs & E & F); auto. exists evs. auto. Qed.

(* --- well-behaved senders --- *)

Lemma le32_mod n : le32 (n mod 4294967296) = le32 n.
Proof. unfold le32. f_equal; [|f_equal; [|f_equal; [|f_equal]]]; lia. Qed.

Lemma pos_le32 t n : pos_hdr t n = t :: le32 n.
Proof.
  unfold pos_hdr, le32. rewrite !Z.shiftr_div_pow2 by lia. change 255 with (Z.ones 8). rewrite !Z.land_ones by lia.
  change (2 ^ 8) with 256. change (2 ^ 16) with 65536. change (2 ^ 24) with 16777216. reflexivity.
Qed.

Lemma cstring_app name info tl : ~ In 0 name -> cstring ((name ++ 0 :: info) ++ tl) = Ok name.
Proof.
  rewrite <- app_assoc. cbn [app]. induction name as [|c name IH]; intros N; [reflexivity|]. cbn [app cstring].
  replace (c =? 0) with false by (assert (c <> 0) by (intros ->; apply N; left; auto); lia).
  rewrite IH; [reflexivity|]. intros H. apply N. right. auto.
Qed.

Lemma header_nonempty h w bs : header h w bs -> (1 <= length bs)%nat.
Proof. intros (cks & _ & _ & _ & _ & _ & skip & t & _ & _ & _ & ->). rewrite app_length. cbn. lia. Qed.
Lemma sym_nonempty v bs : sym v bs -> (1 <= length bs)%nat.
Proof. induction 1; cbn; lia. Qed.
Lemma block_nonempty w d k bs : block w d k bs -> (1 <= length bs)%nat.
Proof. intros (cks & _ & _ & _ & _ & e & m & c & _ & M & _ & ->). apply sym_nonempty in M. rewrite !app_length. lia. Qed.

Section Good.
Variables (open_ok : list Z -> bool) (after : list Z).
Notation run fuel := (rz fuel false open_ok after).

Definition at_total (s : rzst) (total : Z) (space : nat) (opened : bool) : Prop :=
  length (r_buf s) = DATA_BUF_LEN /\ r_open s = opened /\ r_size s = total mod 4294967296 /\ r_space s = space.

(* One data block. *)
Lemma one_block k d w bs r fuel s total space : block w d k bs -> (length d <= 2047)%nat -> (length (bs ++ r) < fuel)%nat ->
  at_total s total space true -> r_in32 s = w -> (length d <= space)%nat ->
  exists fuel' s', (length r < fuel')%nat /\ at_total s' (total + Z.of_nat (length d)) (space - length d) true /\ r_in32 s' = w /\
  run fuel true s (bs ++ r) = rcons (Write d :: if (k =? 106) || (k =? 107) then [Send (3 :: le32 (total + Z.of_nat (length d)))] else [])
    (run fuel' (negb ((k =? 104) || (k =? 107))) s' r).
Proof.
  intros B L F (A1 & A2 & A3 & A4) W Sp. destruct fuel as [|fuel]; [lia|].
  cbn [rz]. cbv zeta. rewrite W.
  rewrite (block_ok d k w bs r (r_buf s) DATA_BUF_LEN B) by (rewrite ?A1; unfold DATA_BUF_LEN; lia). cbn [bind].
  cbn [r_open r_buf r_in32 r_size r_space]. rewrite A2. cbn [negb].
  assert (Hk : k = 104 \/ k = 105 \/ k = 106 \/ k = 107).
  { destruct B as (? & _ & _ & _ & _ & ? & ? & ? & _ & M & _). apply sym_is_ok in M. cbn in M. lia. }
  assert (Hn : (length r < fuel)%nat) by (apply block_nonempty in B; rewrite app_length in F; lia).
  replace (Z.lor FIN k =? CANCELLED) with false by (destruct Hk as [->|[->|[->| ->]]]; reflexivity).
  replace (is_error (Z.lor FIN k)) with false by (destruct Hk as [->|[->|[->| ->]]]; reflexivity).
  rewrite firstn_data. rewrite A4. replace (Nat.min (length d) space) with (length d) by lia. rewrite firstn_all, Nat.ltb_irrefl.
  set (s' := Rz _ w true _ _).
  exists fuel, s'. split; [auto|]. split.
  { split; [|split; [reflexivity|split; [|reflexivity]]].
    - cbn [s' r_buf]. rewrite app_length. cbn [length]. rewrite skipn_length, A1. unfold DATA_BUF_LEN. lia.
    - cbn [s' r_size]. rewrite A3. rewrite Zplus_mod_idemp_l. reflexivity. }
  split; [reflexivity|].
  assert (P : pos_hdr ZACK (r_size s') = 3 :: le32 (total + Z.of_nat (length d))).
  { rewrite pos_le32. cbn [s' r_size]. rewrite A3, Zplus_mod_idemp_l, le32_mod. reflexivity. }
  change (pos_hdr ZACK ((r_size s + Z.of_nat (length d)) mod 4294967296)) with (pos_hdr ZACK (r_size s')). rewrite P.
  destruct Hk as [->|[->|[->| ->]]]; reflexivity.
Qed.

Lemma rcons_app {A} (a b : list A) r : rcons a (rcons b r) = rcons (a ++ b) r.
Proof. unfold rcons. destruct r; cbn; auto. rewrite app_assoc. reflexivity. Qed.

Definition total_len (l : list (list Z * bool)) : nat := length (concat (map fst l)).

Lemma put_blocks_app l m : forall t, put_blocks t (l ++ m) =
  let '(t1, a) := put_blocks t l in let '(t2, b) := put_blocks t1 m in (t2, a ++ b).
Proof.
  induction l as [|[d a] l IH]; intros t; cbn [app put_blocks].
  - destruct (put_blocks t m). reflexivity.
  - rewrite IH. destruct (put_blocks (t + Z.of_nat (length d)) l) as [t1 x]. destruct (put_blocks t1 m) as [t2 y]. cbn [app]. rewrite <- app_assoc. reflexivity.
Qed.

(* The blocks before the last. *)
Lemma many_blocks w l bs : blocks_bytes w l bs -> forall r fuel s total space, (length (bs ++ r) < fuel)%nat ->
  at_total s total space true -> r_in32 s = w -> (total_len l <= space)%nat ->
  exists fuel' s' evs, (length r < fuel')%nat /\ at_total s' (total + Z.of_nat (total_len l)) (space - total_len l) true /\ r_in32 s' = w /\
  put_blocks total l = (total + Z.of_nat (total_len l), map act evs) /\
  run fuel true s (bs ++ r) = rcons evs (run fuel' true s' r).
Proof.
  induction 1 as [|d a l bs cs L B Bs IH]; intros r fuel s total space F A W Sp.
  - exists fuel, s, []. unfold total_len in *. cbn [map concat length] in *. rewrite Nat.sub_0_r.
    replace (total + Z.of_nat 0) with total by lia. repeat split; try apply A; auto.
    unfold rcons. cbn [app]. destruct (run fuel true s r); reflexivity.
  - unfold total_len in Sp |- *. cbn [map fst concat] in Sp |- *. rewrite app_length in Sp |- *. fold (total_len l) in *.
    rewrite <- app_assoc in *.
    destruct (one_block _ d w bs (cs ++ r) fuel s total space B L F A W ltac:(lia)) as (f1 & s1 & F1 & A1 & W1 & E1).
    destruct (IH r f1 s1 _ _ F1 A1 W1 ltac:(lia)) as (f2 & s2 & evs & F2 & A2 & W2 & P2 & E2).
    replace (total + Z.of_nat (length d) + Z.of_nat (total_len l)) with (total + Z.of_nat (length d + total_len l)) in A2, P2 by lia.
    replace (space - length d - total_len l)%nat with (space - (length d + total_len l))%nat in A2 by lia.
    cbn [put_blocks]. cbv zeta. rewrite P2.
    destruct a.
    + change ((106 =? 104) || (106 =? 107)) with false in E1. change ((106 =? 106) || (106 =? 107)) with true in E1. cbn [negb] in E1.
      rewrite E2, rcons_app in E1.
      exists f2, s2, (Write d :: Send (3 :: le32 (total + Z.of_nat (length d))) :: evs). repeat split; auto; try apply A2.
    + change ((105 =? 104) || (105 =? 107)) with false in E1. change ((105 =? 106) || (105 =? 107)) with false in E1. cbn [negb] in E1.
      rewrite E2, rcons_app in E1.
      exists f2, s2, (Write d :: evs). repeat split; auto; try apply A2.
Qed.

Definition content_len (fs : list frame) : nat := length (concat (map block_data fs)).

Lemma one_frame f bs r fuel s total space opened : frame_bytes f bs -> (length (bs ++ r) < fuel)%nat ->
  at_total s total space opened -> (match f with Data _ _ => opened = true | _ => True end) ->
  (forall n, In n (names [f]) -> open_ok n = true) -> (length (block_data f) <= space)%nat ->
  exists fuel' s' evs, (length r < fuel')%nat /\
  at_total s' (total + Z.of_nat (length (block_data f))) (space - length (block_data f)) (match f with File _ _ => true | _ => opened end) /\
  (forall fs, answers total (f :: fs) = map act evs ++ answers (total + Z.of_nat (length (block_data f))) fs) /\
  run fuel false s (bs ++ r) = rcons evs (run fuel' false s' r).
Proof.
  intros FB F A Op Nm Sp. destruct fuel as [|fuel]; [lia|].
  destruct FB as [t p w bs T H|p w bs name info k cs H Hn Nn Hi Ln B|p w bs l d a cs ds H Bs Ld B].
  - cbn [rz]. cbv zeta. rewrite (header_ok _ _ _ r (length (bs ++ r)) H). cbn [bind nth].
    change (OK =? CANCELLED) with false. change (OK =? OK) with true. cbv iota. cbn [nth].
    replace ((t =? ZRQINIT) || (t =? ZEOF)) with true by (destruct T as [-> | ->]; reflexivity).
    eexists fuel, _, [Send (flags_hdr ZRINIT 34 0 0 0)]. split; [apply header_nonempty in H; rewrite app_length in F; lia|].
    split; [|split; [|reflexivity]].
    + destruct A as (A1 & A2 & A3 & A4). cbn [block_data length]. rewrite Nat.sub_0_r. replace (total + Z.of_nat 0) with total by lia. repeat split; auto.
    + intros fs. cbn [answers block_data length map act app]. replace (total + Z.of_nat 0) with total by lia. reflexivity.
  - rewrite <- app_assoc in *. cbn [rz]. cbv zeta. rewrite (header_ok _ _ _ (cs ++ r) (length (bs ++ cs ++ r)) H). cbn [bind].
    change (OK =? CANCELLED) with false. change (OK =? OK) with true. cbv iota. cbn [nth].
    change ((4 =? ZRQINIT) || (4 =? ZEOF)) with false. change (4 =? ZFIN) with false. change (4 =? ZFILE) with true. cbv iota.
    cbn [r_open r_buf r_in32 r_size r_space]. destruct A as (A1 & A2 & A3 & A4).
    rewrite (block_ok _ k w cs r (r_buf s) DATA_BUF_LEN B) by (rewrite ?A1, ?app_length; cbn [length]; unfold DATA_BUF_LEN; lia). cbn [bind].
    assert (Hk : k = 104 \/ k = 105 \/ k = 106 \/ k = 107).
    { destruct B as (? & _ & _ & _ & _ & ? & ? & ? & _ & M & _). apply sym_is_ok in M. cbn in M. lia. }
    replace (Z.lor FIN k =? CANCELLED) with false by (destruct Hk as [->|[->|[->| ->]]]; reflexivity).
    replace (is_error (Z.lor FIN k)) with false by (destruct Hk as [->|[->|[->| ->]]]; reflexivity).
    cbv iota. rewrite <- (app_assoc (name ++ 0 :: info)). rewrite cstring_app by auto. cbn [bind].
    rewrite (Nm name) by (cbn; auto). rewrite pos_le32, A3, le32_mod.
    eexists fuel, _, [Open name; Send (9 :: le32 total)]. split; [apply header_nonempty in H; rewrite !app_length in F; lia|].
    split; [|split; [|reflexivity]].
    + cbn [block_data length]. rewrite Nat.sub_0_r. replace (total + Z.of_nat 0) with total by lia. repeat split; auto.
      cbn [r_buf]. rewrite app_length. cbn [length]. rewrite skipn_length, A1. rewrite !app_length. cbn [length]. unfold DATA_BUF_LEN. lia.
    + intros fs. cbn [answers block_data length map act app]. replace (total + Z.of_nat 0) with total by lia. reflexivity.
  - rewrite <- !app_assoc in *. cbn [rz]. cbv zeta. rewrite (header_ok _ _ _ (cs ++ ds ++ r) (length (bs ++ cs ++ ds ++ r)) H). cbn [bind].
    change (OK =? CANCELLED) with false. change (OK =? OK) with true. cbv iota. cbn [nth].
    change ((10 =? ZRQINIT) || (10 =? ZEOF)) with false. change (10 =? ZFIN) with false. change (10 =? ZFILE) with false. change (10 =? ZDATA) with true. cbv iota.
    set (s1 := Rz (r_buf s) w (r_open s) (r_size s) (r_space s)). subst opened.
    assert (A1 : at_total s1 total space true) by (destruct A as (? & ? & ? & ?); repeat split; auto).
    cbn [block_data] in *. rewrite map_app, concat_app, app_length in *. cbn [map fst concat] in *. rewrite app_nil_r in *. fold (total_len l) in *.
    destruct (many_blocks w l cs Bs (ds ++ r) fuel s1 total space) as (f2 & s2 & ev2 & F2 & A2 & W2 & P2 & E2); auto.
    { apply header_nonempty in H. rewrite !app_length in *. lia. } { lia. }
    destruct (one_block _ d w ds r f2 s2 _ _ B Ld F2 A2 W2 ltac:(lia)) as (f3 & s3 & F3 & A3 & W3 & E3).
    rewrite E2, E3, rcons_app.
    replace (total + Z.of_nat (total_len l) + Z.of_nat (length d)) with (total + Z.of_nat (total_len l + length d)) in * by lia.
    replace (space - total_len l - length d)%nat with (space - (total_len l + length d))%nat in A3 by lia.
    set (ev3 := Write d :: _) in *.
    exists f3, s3, (ev2 ++ ev3). split; [auto|]. split; [auto|]. split.
    + intros fs. cbn [answers]. rewrite put_blocks_app, P2. cbn [put_blocks]. cbv zeta.
      replace (total + Z.of_nat (total_len l) + Z.of_nat (length d)) with (total + Z.of_nat (total_len l + length d)) by lia.
      rewrite map_app. f_equal. f_equal. destruct a; reflexivity.
    + destruct a; reflexivity.
Qed.

Lemma names_cons f fs : names (f :: fs) = names [f] ++ names fs.
Proof. unfold names. cbn [flat_map]. rewrite app_nil_r. reflexivity. Qed.

Lemma frames_run fs bs : frames_bytes fs bs -> forall r fuel s total space opened, (length (bs ++ r) < fuel)%nat ->
  at_total s total space opened -> data_after_file opened fs -> (forall n, In n (names fs) -> open_ok n = true) -> (content_len fs <= space)%nat ->
  exists fuel' s' evs, (length r < fuel')%nat /\
  at_total s' (total + Z.of_nat (content_len fs)) (space - content_len fs) (opened || any_file fs) /\
  answers total fs = map act evs /\ run fuel false s (bs ++ r) = rcons evs (run fuel' false s' r).
Proof.
  induction 1 as [|f fs bs cs FB FS IH]; intros r fuel s total space opened F A D Nm Sp.
  - exists fuel, s, []. unfold content_len in *. cbn [map concat length any_file] in *. rewrite Nat.sub_0_r, orb_false_r.
    replace (total + Z.of_nat 0) with total by lia. repeat split; try apply A; auto.
    unfold rcons. cbn [app]. destruct (run fuel false s r); reflexivity.
  - unfold content_len in Sp |- *. cbn [map concat] in Sp |- *. rewrite app_length in Sp |- *. fold (content_len fs) in *.
    rewrite <- app_assoc in *. rewrite names_cons in Nm.
    destruct (one_frame f bs (cs ++ r) fuel s total space opened FB F A) as (f1 & s1 & ev1 & F1 & A1 & P1 & E1).
    { destruct f; auto. apply D. } { intros n Hn. apply Nm. apply in_or_app. auto. } { lia. }
    destruct (IH r f1 s1 _ _ _ F1 A1) as (f2 & s2 & ev2 & F2 & A2 & P2 & E2).
    { destruct f; cbn in D; auto. apply D. } { intros n Hn. apply Nm. apply in_or_app. auto. } { lia. }
    exists f2, s2, (ev1 ++ ev2). split; [auto|]. split; [|split].
    + replace (total + Z.of_nat (length (block_data f) + content_len fs)) with (total + Z.of_nat (length (block_data f)) + Z.of_nat (content_len fs)) by lia.
      replace (space - (length (block_data f) + content_len fs))%nat with (space - length (block_data f) - content_len fs)%nat by lia.
      destruct f; cbn [any_file]; rewrite ?orb_true_r; auto.
    + rewrite P1, P2, map_app. reflexivity.
    + rewrite E1, E2, rcons_app. reflexivity.
Qed.
End Good.

(* A session up to and including ZFIN. *)
Lemma session open_ok junk after space fs bs p w fin r : frames_bytes fs bs -> header (8 :: p) w fin ->
  length junk = DATA_BUF_LEN -> data_after_file false fs -> (forall n, In n (names fs) -> open_ok n = true) ->
  (length (concat (map block_data fs)) <= space)%nat ->
  exists evs, rz_main false open_ok junk after space (bs ++ fin ++ r) = Ok evs /\
  map act evs = answers 0 fs ++ Header [8; 0; 0; 0; 0] :: (if any_file fs then [CloseFile] else []).
Proof.
  intros FS H J D Nm Sp. unfold rz_main.
  destruct (frames_run open_ok after fs bs FS (fin ++ r) (S (length (bs ++ fin ++ r))) (Rz junk false false 0 space) 0 space false)
    as (f2 & s2 & ev & F2 & A2 & P2 & E2); auto.
  { repeat split; auto. }
  rewrite E2. destruct f2 as [|f2]; [lia|]. cbn [rz]. cbv zeta. rewrite (header_ok _ _ _ r (length (fin ++ r)) H). cbn [bind].
  change (OK =? CANCELLED) with false. change (OK =? OK) with true. cbv iota. cbn [nth].
  change ((8 =? ZRQINIT) || (8 =? ZEOF)) with false. change (8 =? ZFIN) with true. cbv iota.
  unfold rcons. cbn [bind]. eexists. split; [reflexivity|].
  rewrite map_app, P2. f_equal. unfold cleanup. cbn [r_open]. destruct A2 as (_ & -> & _). cbn [orb].
  destruct (any_file fs); reflexivity.
Qed.

Lemma put_blocks_content l : forall t, content (snd (put_blocks t l)) = concat (map fst l).
Proof.
  induction l as [|[d a] l IH]; intros t; cbn [put_blocks]; [reflexivity|]. cbv zeta.
  specialize (IH (t + Z.of_nat (length d))). destruct (put_blocks (t + Z.of_nat (length d)) l) as [t1 x]. cbn [snd] in *.
  destruct a; cbn [app content map fst concat]; rewrite IH; reflexivity.
Qed.

Lemma content_app a b : content (a ++ b) = content a ++ content b.
Proof. induction a as [|x a IH]; [reflexivity|]. destruct x; cbn [app content]; rewrite ?IH, ?app_assoc; reflexivity. Qed.

Lemma answers_content fs : forall t, content (answers t fs) = concat (map block_data fs).
Proof.
  induction fs as [|f fs IH]; intros t; [reflexivity|]. destruct f as [|n i|l d]; cbn [answers map concat block_data content]; rewrite ?IH; auto.
  pose proof (put_blocks_content (l ++ [d]) t) as P. destruct (put_blocks t (l ++ [d])) as [t1 x]. cbn [snd] in P. rewrite content_app, P, IH. reflexivity.
Qed.
