From Verif Require Import Base CrcSpec FutfModel FutfSpec FutfProof FtoaModel PutModel PutSpec.
Open Scope Z_scope.
Ltac Zify.zify_post_hook ::= Z.div_mod_to_equations.

(* --- one character ------------------------------------------------------------------------- *)
Lemma lor_small k a b : 0 <= k -> 0 <= a -> a mod 2 ^ k = 0 -> 0 <= b < 2 ^ k -> Z.lor a b = a + b.
Proof. intros Hk Ha Hm Hb. assert (E : a = a / 2 ^ k * 2 ^ k) by (pose proof (Z.div_mod a (2 ^ k)); lia). rewrite E, lor_lowk; auto. apply Z.div_pos; lia. Qed.
Lemma encode_utf8 c : scalar c -> encode (utf16_of c) = utf8_of c.
Proof.
  intros Hs. assert (Hm : 0 <= c < 1114112) by (unfold scalar in Hs; lia). clear Hs. unfold encode, utf16_of, utf8_of, utf8_count, w16. rewrite !Z.shiftr_div_pow2 by lia. change (2 ^ 16) with 65536.
  destruct (Z.ltb_spec c 65536) as [L|L].
  - replace (c / 65536 mod 65536) with 0 by lia. change (negb (0 =? 0)) with false. cbv iota. rewrite (Z.mod_small c 65536) by lia. change (2 ^ 12) with 4096. change (2 ^ 6) with 64. destruct (Z.ltb_spec c 128) as [L1|L1]; [reflexivity|]. destruct (Z.ltb_spec c 2048) as [L2|L2].
    + change (utf8_form 2 c) with [192 + c / 64; 128 + c mod 64]. rewrite low6. rewrite (lor_small 5 192) by (try reflexivity; change (2 ^ 5) with 32; lia). reflexivity.
    + change (utf8_form 3 c) with [224 + c / 4096; 128 + c / 64 mod 64; 128 + c mod 64]. rewrite !low6. rewrite (lor_small 4 224) by (try reflexivity; change (2 ^ 4) with 16; lia). reflexivity.
  - set (h := 55296 + (c - 65536) / 1024). set (l := 56320 + (c - 65536) mod 1024). assert (Hh : 55296 <= h < 56320) by (subst h; lia). assert (Hl : 56320 <= l < 57344) by (subst l; lia).
    replace ((h * 65536 + l) / 65536 mod 65536) with h by lia. replace ((h * 65536 + l) mod 65536) with l by lia. replace (h =? 0) with false by lia. cbn [negb]. cbv iota.
    replace (c <? 128) with false by lia. replace (c <? 2048) with false by lia. change (utf8_form 4 c) with [240 + c / 262144; 128 + c / 4096 mod 64; 128 + c / 64 mod 64; 128 + c mod 64].
    assert (E : Z.land h 1023 + 64 = c / 1024) by (change 1023 with (Z.ones 10); rewrite Z.land_ones by lia; change (2 ^ 10) with 1024; subst h; lia). rewrite E.
    change (Z.shiftl (Z.land (c / 1024) 3) 4) with (Z.land (c / 1024) (Z.ones 2) * 2 ^ 4) || rewrite (Z.shiftl_mul_pow2 (Z.land (c / 1024) 3)) by lia. change (Z.land (c / 1024) 3) with (Z.land (c / 1024) (Z.ones 2)). rewrite Z.land_ones by lia. change (Z.land (l / 2 ^ 6) 15) with (Z.land (l / 2 ^ 6) (Z.ones 4)). rewrite Z.land_ones by lia. rewrite !low6. change (2 ^ 8) with 256. change (2 ^ 2) with 4. change (2 ^ 6) with 64. change (2 ^ 4) with 16.
    rewrite (lor_small 3 240) by (try reflexivity; change (2 ^ 3) with 8; lia). rewrite (lor_small 6 128) by (try reflexivity; change (2 ^ 6) with 64; lia). rewrite (lor_small 4 (128 + _)) by (change (2 ^ 4) with 16; lia).
    clear E. f_equal; [lia|]. f_equal; [lia|]. f_equal; [subst l; lia|]. f_equal. subst l. lia.
Qed.
Lemma trailing_code t : Forall cont t -> forall x r, 0 <= x -> (x + 1) * 64 ^ Z.of_nat (length t) <= 67108864 -> trailing (length t) x (t ++ r) = Ok (Some (code x t, r)) /\ 0 <= code x t < (x + 1) * 64 ^ Z.of_nat (length t).
Proof.
  induction 1 as [|b t Hb F IH]; intros x r Hx Hm; [cbn [length trailing app code fold_left] in *; split; [reflexivity|]; change (64 ^ Z.of_nat 0) with 1 in *; lia|]. cbn [length app]. rewrite Nat2Z.inj_succ, Z.pow_succ_r in * by lia. cbn [length] in Hm. rewrite ?Nat2Z.inj_succ, ?Z.pow_succ_r in Hm by lia.
  assert (1 <= 64 ^ Z.of_nat (length t)) by (apply (Z.pow_le_mono_r 64 0); lia). unfold cont in Hb. rewrite trailing_step by (unfold tail_byte; nia). destruct (IH (x * 64 + (b - 128)) r) as [E B]; [lia|nia|]. split; [exact E|]. change (code x (b :: t)) with (code (x * 64 + (b - 128)) t). nia.
Qed.
Lemma opens_ok b x n : opens b x n -> byte b /\ (b <? 128) = false /\ first_byte b = n /\ leading b = Some (x, n) /\ (1 <= n <= 3)%nat /\ 0 <= x /\ (x + 1) * 64 ^ Z.of_nat n <= 67108864 /\ (Z.land b 192 =? 128) = false.
Proof.
  intros H. assert (Bb : byte b) by (unfold byte; inversion H; subst; lia). destruct (lead_ok b Bb) as (_ & E & E2 & _). split; [auto|]. split; [inversion H; subst; lia|].
  assert (F : first_byte b = match lead_arith b with Some (_, n) => n | None => 0%nat end).
  { pose proof (byte_all (fun b => Nat.eqb (first_byte b) (match lead_arith b with Some (_, n) => n | None => 0%nat end)) ltac:(vm_compute; reflexivity) b Bb) as Q. now apply Nat.eqb_eq in Q. }
  rewrite F, E, E2. unfold lead_arith. clear F E E2. inversion H; subst.
  - replace ((192 <=? b) && (b <? 224)) with true by lia. change (64 ^ Z.of_nat 1) with 64. repeat split; auto; lia.
  - replace ((192 <=? b) && (b <? 224)) with false by lia. replace ((224 <=? b) && (b <? 240)) with true by lia. change (64 ^ Z.of_nat 2) with 4096. repeat split; auto; lia.
  - replace ((192 <=? b) && (b <? 224)) with false by lia. replace ((224 <=? b) && (b <? 240)) with false by lia. replace ((240 <=? b) && (b <? 248)) with true by lia. change (64 ^ Z.of_nat 3) with 262144. repeat split; auto; lia.
Qed.
Lemma stray_ok b : cont b \/ 248 <= b < 256 -> byte b /\ (b <? 128) = false /\ first_byte b = 0%nat.
Proof.
  intros H. assert (Bb : byte b) by (unfold byte, cont in *; lia). split; [auto|]. split; [unfold cont in H; lia|].
  pose proof (byte_all (fun b => Nat.eqb (first_byte b) (match lead_arith b with Some (_, n) => n | None => 0%nat end)) ltac:(vm_compute; reflexivity) b Bb) as Q. apply Nat.eqb_eq in Q. rewrite Q. unfold lead_arith, cont in *. replace ((192 <=? b) && (b <? 224)) with false by lia. replace ((224 <=? b) && (b <? 240)) with false by lia. now replace ((240 <=? b) && (b <? 248)) with false by lia.
Qed.
Lemma cont_ok b : byte b -> (Z.land b 192 =? 128) = true <-> cont b.
Proof. intros H. destruct (lead_ok b H) as (_ & _ & -> & _). unfold cont. lia. Qed.
(* the whole sequence *)
Lemma whole b x n t r : opens b x n -> length t = n -> Forall cont t ->
  exists q, tchar2uni ((b :: t) ++ r) = Ok (if (code x t <? 128) || is_surrogate (code x t) || (1114112 <=? code x t) then None else Some (utf16_of (code x t)), q) /\ 0 <= code x t.
Proof.
  intros O L F. destruct (opens_ok b x n O) as (Bb & E1 & _ & E2 & _ & Hx & Hm & _). subst n. destruct (trailing_code t F x r Hx Hm) as [T B]. unfold tchar2uni. cbn [app next bind]. destruct (lead_ok b Bb) as (-> & _). rewrite E1, E2, T. cbn [bind].
  destruct (_ || _) eqn:Q; [eexists; split; [reflexivity|lia]|]. rewrite pair_ok by lia. eexists. split; [reflexivity|lia].
Qed.

(* --- the state ----------------------------------------------------------------------------- *)
Definition shape (pb : putbuff) : Prop := length (bs pb) = 4%nat.
Definition moved (pb pb' : putbuff) : Prop := fp pb' = fp pb /\ buf pb' = buf pb /\ nchr pb' = nchr pb /\ shape pb'.
(* what follows starts a new character *)
Definition fresh (pb : putbuff) (s : list Z) : Prop := ct pb = 0%nat \/ forall c r, s = c :: r -> ~ cont c.
Lemma upd_at a x b r : upd (a ++ x :: r) (length a) b = Ok (a ++ b :: r).
Proof. induction a as [|y a IH]; [reflexivity|]. cbn [app length upd]. now rewrite IH. Qed.
Lemma collect_first pb b : byte b -> fresh pb [b] -> shape pb -> exists y z u, bs pb = [y; z; u] ++ skipn 3 (bs pb) /\ collect (bs pb) (wi pb) (ct pb) b = start (bs pb) b.
Proof.
  intros Bb F Sh. unfold shape in Sh. destruct (bs pb) as [|y [|z [|u [|v [|]]]]]; try discriminate. exists y, z, u. split; [reflexivity|]. unfold collect. destruct (ct pb) as [|n] eqn:Ec; [reflexivity|]. destruct F as [F|F]; [lia|]. specialize (F b [] eq_refl). destruct (Z.land b 192 =? 128) eqn:Q; [|reflexivity]. exfalso. apply F. now apply cont_ok.
Qed.
(* a sequence begins *)
Lemma begin pb b x n f : opens b x n -> fresh pb [b] -> shape pb -> buf pb = Some f ->
  exists pb' r, putc_bfd pb b = Ok pb' /\ moved pb pb' /\ bs pb' = [b] ++ r /\ wi pb' = 0%nat /\ ct pb' = n.
Proof.
  intros O F Sh Hb. destruct (opens_ok b x n O) as (Bb & E1 & E2 & _). destruct (collect_first pb b Bb F Sh) as (y & z & u & Eb & Ec). unfold putc_bfd. rewrite Hb, Ec. unfold start. unfold shape in Sh. destruct (bs pb) as [|y' r]; [discriminate|]. cbn [upd bind]. rewrite E1. cbn [bind]. cbn [negb]. eexists. exists r. split; [reflexivity|]. cbn. unfold moved, shape. cbn. cbn in Sh. rewrite Hb, E2. auto 10.
Qed.
Lemma follow t : Forall cont t -> forall pb p r f n, bs pb = p ++ r -> S (wi pb) = length p -> ct pb = n -> (length t < n)%nat -> (length p + n <= 4)%nat -> shape pb -> buf pb = Some f ->
  exists pb' r', putall pb t = Ok pb' /\ moved pb pb' /\ bs pb' = (p ++ t) ++ r' /\ S (wi pb') = length (p ++ t) /\ ct pb' = (n - length t)%nat.
Proof.
  induction 1 as [|b t Hb F IH]; intros pb p r f n Eb Ew Ec L Lp Sh Hf.
  - exists pb, r. cbn. rewrite app_nil_r, Nat.sub_0_r. unfold moved. auto 10.
  - assert (Bb : byte b) by (unfold byte, cont in *; lia). cbn [putall length] in *. unfold putc_bfd. rewrite Hf. unfold collect. destruct (ct pb) as [|k] eqn:Ek; [lia|]. replace (Z.land b 192 =? 128) with true by (symmetry; now apply cont_ok). cbn [negb]. rewrite Eb. destruct r as [|y r]; [unfold shape in Sh; rewrite Eb, app_nil_r in Sh; lia|]. rewrite Ew, upd_at. cbn [bind]. destruct k as [|k]; [lia|]. cbn [Nat.eqb negb bind].
    set (pb1 := Build_putbuff _ _ _ _ _ _).
    destruct (IH pb1 (p ++ [b]) r f (S k)) as (pb' & r' & E & M & E1 & E2 & E3).
    + cbn. now rewrite <- app_assoc.
    + cbn. rewrite app_length. cbn. lia.
    + reflexivity.
    + lia.
    + rewrite app_length. cbn. lia.
    + unfold shape in *. cbn. rewrite Eb in Sh. rewrite !app_length in *. cbn in *. lia.
    + reflexivity.
    + exists pb', r'. split; [exact E|]. rewrite <- !app_assoc in E1. rewrite <- app_assoc in E2. cbn [app] in E1, E2. split; [|split; [rewrite <- app_assoc; exact E1|split; [exact E2|]]].
      * unfold moved in *. cbn in M. rewrite Hf. intuition congruence.
      * rewrite E3. lia.
Qed.
Lemma putall_app pb a b : putall pb (a ++ b) = (pb <- putall pb a ;; putall pb b).
Proof. revert pb. induction a as [|c a IH]; intros pb; [reflexivity|]. cbn [app putall]. destruct (putc_bfd pb c); cbn [bind]; auto. Qed.
(* the part of putc_bfd behind the sequence *)
Definition finish (pb : putbuff) (b bs' : list Z) (wi' ct' : nat) : res putbuff :=
  let pb' b f n := {| fp := f; buf := b; nchr := n; bs := bs'; wi := wi'; ct := ct' |} in
  '(dc, _) <- tchar2uni bs' ;;
  match dc with
  | None => Ok (pb' (Some b) (fp pb) (nchr pb))
  | Some dc =>
      let e := encode dc in
      let b := b ++ e in
      if (size_putc <? length b)%nat then Ub
      else
        let n := nchr pb + Z.of_nat (length e) in
        if 2147483647 <? n then Ub
        else if (size_putc - 4 <=? length b)%nat then
          let '(f, k, _) := f_write (fp pb) b in
          Ok (pb' (if Nat.eqb k (length b) then Some [] else None) f n)
        else Ok (pb' (Some b) (fp pb) n)
  end.
Lemma sequence pb b x n t f : opens b x n -> length t = n -> Forall cont t -> fresh pb [b] -> shape pb -> buf pb = Some f ->
  exists bs' w' r, putall pb (b :: t) = finish pb f bs' w' 0 /\ bs' = (b :: t) ++ r /\ length bs' = 4%nat.
Proof.
  intros O L F Fr Sh Hf. destruct (opens_ok b x n O) as (_ & _ & _ & _ & Hn & _). destruct (begin pb b x n f O Fr Sh Hf) as (p1 & r1 & E1 & (M1 & M2 & M3 & Sh1) & B1 & W1 & C1).
  destruct (exists_last (l := t) ltac:(destruct t; [cbn in L; lia|discriminate])) as (t' & c & ->). apply Forall_app in F as [F Fc]. pose proof (Forall_inv Fc) as Hc. rewrite app_length in L. cbn in L.
  destruct (follow t' F p1 [b] r1 f n B1) as (p2 & r2 & E2 & (N1 & N2 & N3 & Sh2) & B2 & W2 & C2); [rewrite W1; reflexivity|auto|lia|cbn; lia|auto|congruence|].
  cbn [putall]. rewrite E1. cbn [bind]. rewrite putall_app, E2. cbn [bind putall].
  assert (Bc : byte c) by (unfold byte, cont in *; lia). unfold putc_bfd. rewrite N2, M2, Hf. unfold collect. rewrite C2. replace (n - length t')%nat with 1%nat by lia. replace (Z.land c 192 =? 128) with true by (symmetry; now apply cont_ok). cbn [negb]. rewrite B2. destruct r2 as [|y r2]; [exfalso; unfold shape in Sh2; rewrite B2, app_nil_r in Sh2; rewrite app_length in Sh2; cbn in Sh2; lia|]. rewrite W2, upd_at. cbn [bind Nat.eqb negb].
  exists (([b] ++ t') ++ c :: r2). exists (length ([b] ++ t')). exists r2. split; [|split].
  - unfold finish. rewrite N1, M1, N3, M3. destruct (tchar2uni _) as [[[dc|] q]| |]; cbn [bind]; try reflexivity. destruct (_ <? _)%nat; [reflexivity|]. destruct (_ <? _); [reflexivity|]. destruct (_ <=? _)%nat; [|reflexivity]. destruct (f_write _ _) as [[f' k] ok]. reflexivity.
  - cbn [app]. now rewrite <- app_assoc.
  - unfold shape in Sh2. rewrite B2 in Sh2. rewrite !app_length in *. cbn in *. lia.
Qed.

(* --- the file ------------------------------------------------------------------------------ *)
(* [enc] has been put out *)
Definition sink_at (f : sink) (l : list Z) : sink := {| data := data f ++ l; room := room f - length l; mild := mild f |}.
Inductive state (f : sink) (enc : list Z) (pb : putbuff) : Prop :=
| st_ok : forall a b, enc = a ++ b -> buf pb = Some b -> (length b < 60)%nat -> (length a <= room f)%nat -> fp pb = sink_at f a -> nchr pb = Z.of_nat (length enc) -> shape pb -> state f enc pb
| st_err : buf pb = None -> fp pb = {| data := data f ++ firstn (room f) enc; room := 0; mild := mild f |} -> (room f < length enc)%nat -> state f enc pb.
Lemma putall_err pb s : buf pb = None -> putall pb s = Ok pb.
Proof. intros H. induction s as [|c s IH]; [reflexivity|]. cbn [putall]. unfold putc_bfd. rewrite H. exact IH. Qed.
Lemma state_err_more f enc pb e : buf pb = None -> state f enc pb -> state f (enc ++ e) pb.
Proof.
  intros H St. destruct St as [a b _ Hb|_ E L]; [congruence|]. apply st_err; auto; [|rewrite app_length; lia]. rewrite E. f_equal. f_equal. rewrite firstn_app. replace (room f - length enc)%nat with 0%nat by lia. now rewrite app_nil_r.
Qed.
Lemma utf8_len4 c : scalar c -> (1 <= length (utf8_of c) <= 4)%nat.
Proof. intros H. destruct (utf8_len' c) as [E B]; [unfold scalar in H; lia|]. lia. Qed.
Lemma finish_ok f enc pb a b bs' w' c q : enc = a ++ b -> buf pb = Some b -> (length b < 60)%nat -> (length a <= room f)%nat -> fp pb = sink_at f a -> nchr pb = Z.of_nat (length enc) ->
  length bs' = 4%nat -> scalar c -> tchar2uni bs' = Ok (Some (utf16_of c), q) -> Z.of_nat (length (enc ++ utf8_of c)) <= 2147483647 ->
  exists pb', finish pb b bs' w' 0 = Ok pb' /\ state f (enc ++ utf8_of c) pb' /\ ct pb' = 0%nat.
Proof.
  intros -> Hb Lb La Hf Hn Lbs Hc T Lm. pose proof (utf8_len4 c Hc) as L4. unfold finish. rewrite T. cbn [bind]. rewrite encode_utf8 by auto. cbv zeta. rewrite Hn. rewrite !app_length in *.
  replace (size_putc <? length b + length (utf8_of c))%nat with false by (symmetry; apply Nat.ltb_ge; unfold size_putc; lia). replace (2147483647 <? _) with false by lia.
  destruct (Nat.leb_spec (size_putc - 4) (length b + length (utf8_of c))) as [Q|Q].
  - unfold f_write. rewrite Hf. cbn [room sink_at data mild]. rewrite app_length. destruct (Nat.leb_spec (length b + length (utf8_of c)) (room f - length a)) as [R|R].
    + rewrite ?app_length, Nat.eqb_refl. eexists. split; [reflexivity|]. split; [|reflexivity]. apply (st_ok _ _ _ ((a ++ b) ++ utf8_of c) []); cbn [buf fp nchr]; auto.
      * now rewrite app_nil_r.
      * cbn. lia.
      * rewrite !app_length. lia.
      * unfold sink_at. rewrite <- !app_assoc. f_equal. rewrite !app_length. lia.
      * rewrite !app_length. lia.
    + rewrite ?app_length. replace (Nat.eqb _ _) with false by (symmetry; apply Nat.eqb_neq; lia). eexists. split; [reflexivity|]. split; [|reflexivity]. apply st_err; cbn [buf fp nchr]; auto.
      * f_equal. rewrite <- !app_assoc. f_equal. rewrite (firstn_app (room f) a). rewrite (firstn_all2 (n := room f) a) by lia. reflexivity.
      * rewrite !app_length. lia.
  - eexists. split; [reflexivity|]. split; [|reflexivity]. apply (st_ok _ _ _ a (b ++ utf8_of c)); cbn [buf fp nchr]; auto.
    + now rewrite <- app_assoc.
    + rewrite app_length. unfold size_putc in Q. lia.
    + rewrite !app_length. lia.
Qed.
Lemma moved_state f enc pb pb' : moved pb pb' -> state f enc pb -> state f enc pb'.
Proof. intros (M1 & M2 & M3 & Sh) [a b E1 E2 E3 E4 E5 E6 _|E1 E2 E3]; [eapply st_ok; eauto; congruence|apply st_err; congruence]. Qed.
Lemma text_cons c cs : text (c :: cs) = utf8_of c ++ text cs.
Proof. reflexivity. Qed.
Lemma put_reads s cs : reads s cs -> Forall byte s -> forall f enc pb, state f enc pb -> fresh pb s -> Z.of_nat (length (enc ++ text cs)) <= 2147483647 ->
  exists pb', putall pb s = Ok pb' /\ state f (enc ++ text cs) pb'.
Proof.
  intros R. induction R as [|b s cs Hb R IH|b x n t s cs O L F C1 C2 R IH|b x n t s cs O L F C R IH|b x n t s cs O L F N R IH|b s cs Hb R IH]; intros By f enc pb St Fr Lm.
  - exists pb. cbn. now rewrite app_nil_r.
  - rewrite text_cons, app_assoc in *. inversion By as [|? ? Bb By']; subst. cbn [putall].
    assert (Sc : scalar b) by (unfold scalar; lia). assert (Eu : utf8_of b = [b]) by (unfold utf8_of, utf8_count; now replace (b <? 128) with true by lia).
    assert (K : exists pb', putc_bfd pb b = Ok pb' /\ state f (enc ++ utf8_of b) pb' /\ (buf pb' = None \/ ct pb' = 0%nat)).
    { destruct (buf pb) as [bb|] eqn:Hbb; [|exists pb; split; [unfold putc_bfd; now rewrite Hbb|]; split; [now apply state_err_more|auto]].
      inversion St as [a b' E1 E2 E3 E4 E5 E6 Sh|E1]; [|congruence]. assert (bb = b') by congruence. subst b'.
      destruct (collect_first pb b Bb) as (y & z & u & Eb & Ec); auto. { destruct Fr as [Fr|Fr]; [left; auto|right]. intros c r Q. injection Q as <- <-. eapply Fr. reflexivity. }
      unfold putc_bfd. rewrite Hbb, Ec. unfold start. unfold shape in Sh. destruct (bs pb) as [|y' r]; [discriminate|]. cbn [upd bind]. replace (b <? 128) with true by lia. cbn [bind negb].
      destruct (finish_ok f enc pb a bb (b :: r) 0 b r E1 E2 E3 E4 E5 E6 Sh Sc) as (pb' & K1 & K2 & K3).
      - unfold tchar2uni. cbn [next bind]. destruct (lead_ok b Bb) as (-> & _). replace (b <? 128) with true by lia. unfold utf16_of. now replace (b <? 65536) with true by lia.
      - rewrite !app_length in *. lia.
      - exists pb'. split; [|auto]. rewrite <- K1. reflexivity. }
    destruct K as (pb1 & E & St1 & C). rewrite E. cbn [bind]. destruct C as [C|C].
    + rewrite putall_err by auto. exists pb1. split; [auto|]. now apply state_err_more.
    + apply IH; auto. left. auto.
  - rewrite text_cons, app_assoc in *. inversion By as [|? ? Bb By']; subst. apply Forall_app in By' as [_ By'].
    change (b :: t ++ s) with ((b :: t) ++ s). rewrite putall_app.
    assert (K : exists pb', putall pb (b :: t) = Ok pb' /\ state f (enc ++ utf8_of (code x t)) pb' /\ (buf pb' = None \/ ct pb' = 0%nat)).
    { destruct (buf pb) as [bb|] eqn:Hbb; [|exists pb; split; [now apply putall_err|]; split; [now apply state_err_more|auto]].
      inversion St as [a b' E1 E2 E3 E4 E5 E6 Sh|E1]; [|congruence]. assert (bb = b') by congruence. subst b'.
      destruct (sequence pb b x _ t bb O eq_refl F) as (bs' & w' & r & E & Eb & Lb); auto. { destruct Fr as [Fr|Fr]; [left; auto|right]. intros c r Q. injection Q as <- <-. eapply Fr. reflexivity. }
      destruct (whole b x _ t r O eq_refl F) as (q & T & _). rewrite <- Eb in T. replace (_ || _) with false in T by (symmetry; unfold is_surrogate, scalar in *; lia).
      destruct (finish_ok f enc pb a bb bs' w' _ q E1 E2 E3 E4 E5 E6 Lb C2 T) as (pb' & K1 & K2 & K3); [rewrite !app_length in *; lia|]. exists pb'. rewrite E. auto. }
    destruct K as (pb1 & E & St1 & C). rewrite E. cbn [bind]. destruct C as [C|C].
    + rewrite putall_err by auto. exists pb1. split; [auto|]. now apply state_err_more.
    + apply IH; auto. left. auto.
  - inversion By as [|? ? Bb By']; subst. apply Forall_app in By' as [_ By']. change (b :: t ++ s) with ((b :: t) ++ s). rewrite putall_app.
    assert (K : exists pb', putall pb (b :: t) = Ok pb' /\ state f enc pb' /\ (buf pb' = None \/ ct pb' = 0%nat)).
    { destruct (buf pb) as [bb|] eqn:Hbb; [|exists pb; split; [now apply putall_err|]; auto].
      inversion St as [a b' E1 E2 E3 E4 E5 E6 Sh|E1]; [|congruence]. assert (bb = b') by congruence. subst b'.
      destruct (sequence pb b x _ t bb O eq_refl F) as (bs' & w' & r & E & Eb & Lb); auto. { destruct Fr as [Fr|Fr]; [left; auto|right]. intros c r Q. injection Q as <- <-. eapply Fr. reflexivity. }
      destruct (whole b x _ t r O eq_refl F) as (q & T & P). rewrite <- Eb in T. replace (_ || _) with true in T by (symmetry; unfold is_surrogate, scalar in *; lia). rewrite E. unfold finish. rewrite T. cbn [bind]. eexists. split; [reflexivity|]. split; [|auto]. eapply st_ok; cbn; eauto. }
    destruct K as (pb1 & E & St1 & C'). rewrite E. cbn [bind]. destruct C' as [C'|C'].
    + rewrite putall_err by auto. exists pb1. split; [auto|]. now apply state_err_more.
    + apply IH; auto. left. auto.
  - inversion By as [|? ? Bb By']; subst. apply Forall_app in By' as [_ By']. change (b :: t ++ s) with ((b :: t) ++ s). rewrite putall_app.
    assert (K : exists pb', putall pb (b :: t) = Ok pb' /\ state f enc pb').
    { destruct (buf pb) as [bb|] eqn:Hbb; [|exists pb; split; [now apply putall_err|]; auto].
      assert (Sh : shape pb) by (inversion St; auto; congruence).
      destruct (begin pb b x n bb O) as (p1 & r1 & E1 & M1 & B1 & W1 & K1); auto. { destruct Fr as [Fr|Fr]; [left; auto|right]. intros c r Q. injection Q as <- <-. eapply Fr. reflexivity. }
      pose proof M1 as (_ & M2 & _ & Sh1). destruct (opens_ok b x n O) as (_ & _ & _ & _ & Hn & _).
      destruct (follow t F p1 [b] r1 bb n B1) as (p2 & r2 & E2 & M3 & _); [rewrite W1; reflexivity|auto|lia|cbn; lia|auto|congruence|].
      exists p2. cbn [putall]. rewrite E1. cbn [bind]. split; [auto|]. eapply moved_state; eauto. eapply moved_state; eauto. }
    destruct K as (pb1 & E & St1). rewrite E. cbn [bind]. apply IH; auto. right. exact N.
  - inversion By as [|? ? Bb By']; subst. cbn [putall]. destruct (stray_ok b Hb) as (_ & E1 & E2).
    destruct (buf pb) as [bb|] eqn:Hbb. 2: { unfold putc_bfd. rewrite Hbb. cbn [bind]. rewrite putall_err by auto. exists pb. split; [auto|]. now apply state_err_more. }
    assert (Sh : shape pb) by (inversion St; auto; congruence).
    destruct (collect_first pb b Bb) as (y & z & u & Eb & Ec); auto. { destruct Fr as [Fr|Fr]; [left; auto|right]. intros c r Q. injection Q as <- <-. eapply Fr. reflexivity. }
    unfold putc_bfd. rewrite Hbb, Ec. unfold start. pose proof Sh as Sh'. unfold shape in Sh'. destruct (bs pb) as [|y' r]; [discriminate|]. cbn [upd bind]. rewrite E1. cbn [bind negb]. apply IH; auto.
    + eapply moved_state; [|exact St]. unfold moved, shape. cbn. rewrite Hbb. auto.
    + left. cbn. exact E2.
Qed.
Lemma puts_ok f s cs : Forall byte s -> reads s cs -> Z.of_nat (length (text cs)) <= 2147483647 -> f_puts f s = Ok (written f (text cs)).
Proof.
  intros B R L. destruct (put_reads s cs R B f [] (putc_init f)) as (pb & E & St); auto.
  - apply (st_ok _ _ _ [] []); cbn; auto; try lia; [|reflexivity]. unfold sink_at. rewrite app_nil_r, Nat.sub_0_r. now destruct f.
  - left. reflexivity.
  - unfold f_puts. rewrite E. cbn [bind app] in *. f_equal. unfold putc_flush, written. destruct St as [a b E1 E2 E3 E4 E5 E6 Sh|E1 E2 E3].
    + rewrite E2. unfold f_write. rewrite E5. cbn [room sink_at data mild]. rewrite E1, app_length in *. destruct (Nat.leb_spec (length b) (room f - length a)) as [Q|Q].
      * rewrite Nat.eqb_refl. replace (length a + length b <=? room f)%nat with true by (symmetry; apply Nat.leb_le; lia). cbn [andb]. rewrite E6, <- app_assoc. f_equal. f_equal. lia.
      * replace (Nat.eqb _ _) with false by (symmetry; apply Nat.eqb_neq; lia). rewrite andb_false_r. replace (length a + length b <=? room f)%nat with false by (symmetry; apply Nat.leb_gt; lia). rewrite firstn_app, (firstn_all2 (n := room f) a) by lia. now rewrite <- app_assoc.
    + rewrite E1, E2. now replace (length (text cs) <=? room f)%nat with false by (symmetry; apply Nat.leb_gt; lia).
Qed.
Lemma reads_utf8 c s cs : scalar c -> reads s cs -> reads (utf8_of c ++ s) (c :: cs).
Proof.
  intros Hc R. assert (Hm : 0 <= c < 1114112) by (unfold scalar in Hc; lia). unfold utf8_of, utf8_count. destruct (Z.ltb_spec c 128) as [L|L]; [apply rs_ascii; auto; lia|]. destruct (Z.ltb_spec c 2048) as [L1|L1]; [|destruct (Z.ltb_spec c 65536) as [L2|L2]].
  - change (utf8_form 2 c) with [192 + c / 64; 128 + c mod 64]. assert (E : code (192 + c / 64 - 192) [128 + c mod 64] = c) by (cbn [code fold_left]; lia). rewrite <- E at 3. apply (rs_char _ _ 1 [128 + c mod 64]); auto; try (rewrite E; auto); [apply op_two; lia|repeat constructor; lia].
  - change (utf8_form 3 c) with [224 + c / 4096; 128 + c / 64 mod 64; 128 + c mod 64]. assert (E : code (224 + c / 4096 - 224) [128 + c / 64 mod 64; 128 + c mod 64] = c) by (cbn [code fold_left]; lia). rewrite <- E at 4. apply (rs_char _ _ 2 [128 + c / 64 mod 64; 128 + c mod 64]); auto; try (rewrite E; auto); [apply op_three; lia|repeat constructor; lia].
  - change (utf8_form 4 c) with [240 + c / 262144; 128 + c / 4096 mod 64; 128 + c / 64 mod 64; 128 + c mod 64]. assert (E : code (240 + c / 262144 - 240) [128 + c / 4096 mod 64; 128 + c / 64 mod 64; 128 + c mod 64] = c) by (cbn [code fold_left]; lia). rewrite <- E at 5. apply (rs_char _ _ 3 [128 + c / 4096 mod 64; 128 + c / 64 mod 64; 128 + c mod 64]); auto; try (rewrite E; auto); [apply op_four; lia|repeat constructor; lia].
Qed.
Lemma reads_text cs : Forall scalar cs -> reads (text cs) cs.
Proof. induction 1 as [|c cs H F IH]; [constructor|]. rewrite text_cons. now apply reads_utf8. Qed.
Lemma text_bytes cs : Forall scalar cs -> Forall byte (text cs).
Proof. induction 1 as [|c cs H F IH]; [constructor|]. rewrite text_cons. apply Forall_app. split; [now apply utf8_of_bytes|auto]. Qed.
Lemma puts_text f cs : Forall scalar cs -> Z.of_nat (length (text cs)) <= 2147483647 -> f_puts f (text cs) = Ok (written f (text cs)).
Proof. intros H L. apply puts_ok; auto; [now apply text_bytes|now apply reads_text]. Qed.
(* every string can be read, in one way *)
Lemma split_cont n : forall s, Forall byte s -> exists t r, s = t ++ r /\ Forall cont t /\ (length t <= n)%nat /\ (length t = n \/ forall c q, r = c :: q -> ~ cont c).
Proof.
  induction n as [|n IH]; intros s B; [exists [], s; cbn; auto|]. destruct s as [|b s]; [exists [], []; cbn; repeat split; auto; [lia|]; right; discriminate|]. inversion B; subst. destruct ((128 <=? b) && (b <? 192)) eqn:Q.
  - destruct (IH s) as (t & r & -> & F & L & C); auto. exists (b :: t), r. cbn. repeat split; auto; [constructor; auto; unfold cont; lia|lia|]. destruct C; auto.
  - exists [], (b :: s). cbn. repeat split; auto; [lia|]. right. intros c q E. injection E as <- <-. unfold cont. lia.
Qed.
Lemma reads_all n : forall s, (length s <= n)%nat -> Forall byte s -> exists cs, reads s cs /\ Forall scalar cs.
Proof.
  induction n as [|n IH]; intros s L B; [destruct s; [exists []; repeat constructor|cbn in L; lia]|]. destruct s as [|b s]; [exists []; repeat constructor|]. inversion B as [|? ? Bb B']; subst. cbn in L.
  assert (Op : 0 <= b < 128 \/ (cont b \/ 248 <= b < 256) \/ exists x n, opens b x n).
  { unfold byte, cont in *. destruct (Z_lt_le_dec b 128); [lia|]. destruct (Z_lt_le_dec b 192); [lia|]. right. destruct (Z_lt_le_dec b 224); [right; exists (b - 192), 1%nat; constructor; lia|]. destruct (Z_lt_le_dec b 240); [right; exists (b - 224), 2%nat; constructor; lia|]. destruct (Z_lt_le_dec b 248); [right; exists (b - 240), 3%nat; constructor; lia|]. lia. }
  destruct Op as [H|[H|(x & k & O)]].
  - destruct (IH s) as (cs & R & F); auto; [lia|]. exists (b :: cs). split; [now apply rs_ascii|]. constructor; auto. unfold scalar. lia.
  - destruct (IH s) as (cs & R & F); auto; [lia|]. exists cs. split; [now apply rs_stray|auto].
  - destruct (split_cont k s B') as (t & r & -> & F & Lt & C). apply Forall_app in B' as [_ Br]. rewrite app_length in L. destruct (IH r) as (cs & R & Fs); auto; [lia|]. destruct (Nat.eq_dec (length t) k) as [Ek|Nk].
    + destruct (Z_lt_le_dec (code x t) 128); [exists cs; split; [eapply rs_wrong; eauto|auto]|].
      assert (D : scalar (code x t) \/ ~ scalar (code x t)) by (unfold scalar; lia). destruct D as [D|D]; [exists (code x t :: cs); split; [eapply rs_char; eauto|auto]|exists cs; split; [eapply rs_wrong; eauto|auto]].
    + exists cs. split; [eapply rs_cut; eauto; [lia|]|auto]. destruct C as [C|C]; [lia|auto].
Qed.
Lemma put_any f s : Forall byte s -> exists cs, reads s cs /\ Forall scalar cs /\ (Z.of_nat (length (text cs)) <= 2147483647 -> f_puts f s = Ok (written f (text cs))).
Proof. intros B. destruct (reads_all (length s) s) as (cs & R & F); auto. exists cs. split; [auto|]. split; [auto|]. intros L. now apply puts_ok. Qed.
