From Verif Require Import Base Arr ArrLemmas Finite Utf8Model Utf8Spec.
Open Scope Z_scope.

Fixpoint eqzl (a b : list Z) : bool :=
  match a, b with
  | [], [] => true
  | x :: a', y :: b' => (x =? y) && eqzl a' b'
  | _, _ => false
  end.

Lemma eqzl_eq a : forall b, eqzl a b = true -> a = b.
Proof.
  induction a as [|x a IH]; destruct b; cbn; try discriminate; auto.
  rewrite andb_true_iff, Z.eqb_eq. intros [-> H]. f_equal; auto.
Qed.

Definition lead (b : Z) : bool := negb (Z.land b 192 =? 128).
Definition byteb (b : Z) : bool := (0 <=? b) && (b <? 256).

Definition chk (c : Z) : bool :=
  eqzl (putwch c) (utf8_char c) &&
  forallb byteb (utf8_char c) &&
  match utf8_char c with
  | [a] => (c <? 128) && is_ascii a && (a =? c) && lead a
  | [a; b] => negb (c <? 128) && (c <? 2048) && negb (is_ascii a) && is_two a && (dec2 a b =? c) && lead a && negb (lead b) &&
              negb (a =? 0) && negb (b =? 0)
  | [a; b; d] => negb (c <? 128) && negb (c <? 2048) && negb (is_ascii a) && negb (is_two a) && (dec3 a b d =? c) && lead a &&
                 negb (lead b) && negb (lead d) && negb (a =? 0) && negb (b =? 0) && negb (d =? 0)
  | _ => false
  end.

Lemma chk_all : allb 16 chk 0 = true.
Proof. vm_compute. reflexivity. Qed.

(* The shape of one encoded character. *)
Inductive enc_of (c : Z) : list Z -> Prop :=
| enc1 : c < 128 -> is_ascii c = true -> lead c = true -> enc_of c [c]
| enc2 a b : 128 <= c < 2048 -> is_ascii a = false -> is_two a = true -> dec2 a b = c -> lead a = true -> lead b = false ->
    a <> 0 -> b <> 0 -> enc_of c [a; b]
| enc3 a b d : 2048 <= c -> is_ascii a = false -> is_two a = false -> dec3 a b d = c -> lead a = true -> lead b = false ->
    lead d = false -> a <> 0 -> b <> 0 -> d <> 0 -> enc_of c [a; b; d].

Lemma char_facts c : 0 <= c < 65536 -> putwch c = utf8_char c /\ enc_of c (utf8_char c) /\
  Forall (fun b => 0 <= b < 256) (utf8_char c).
Proof.
  intros H. pose proof (allb0 16 chk chk_all c H) as E. unfold chk in E.
  rewrite !andb_true_iff in E. destruct E as [[E1 E2] E3]. split; [apply eqzl_eq; auto|]. split.
  - destruct (utf8_char c) as [|a [|b [|d [|? ?]]]]; try discriminate;
      rewrite ?andb_true_iff, ?negb_true_iff, ?Z.eqb_eq, ?Z.eqb_neq, ?Z.ltb_lt, ?Z.ltb_ge in E3;
      repeat match goal with H : _ /\ _ |- _ => destruct H end; subst.
    + constructor; auto.
    + constructor; auto.
    + constructor; auto.
  - rewrite forallb_forall in E2. apply Forall_forall. intros b Hb. specialize (E2 b Hb). unfold byteb in E2. lia.
Qed.

Lemma wide_facts c : wide c -> putwch c = utf8_char c /\ enc_of c (utf8_char c).
Proof. intros H. unfold wide in H. destruct (char_facts c) as (H1 & H2 & _); [lia|auto]. Qed.

Lemma utf8_char_nz c : wide c -> Forall (fun b => b <> 0) (utf8_char c).
Proof.
  intros H. destruct (wide_facts c H) as [_ E]. unfold wide in H. inversion E; repeat constructor; auto. lia.
Qed.

Lemma utf8_nz w : Forall wide w -> Forall (fun b => b <> 0) (utf8 w).
Proof.
  induction 1; cbn; [constructor|]. apply Forall_app. split; auto. apply utf8_char_nz. auto.
Qed.

Lemma utf8_bytes w : Forall wide w -> Forall (fun b => 0 <= b < 256) (utf8 w).
Proof.
  induction 1 as [|c w Hc Hw IH]; cbn; [constructor|]. apply Forall_app. split; auto. apply char_facts. unfold wide in Hc. lia.
Qed.

Lemma utf8_char_len c : wide c -> (1 <= length (utf8_char c) <= 3)%nat.
Proof. intros H. destruct (wide_facts c H) as [_ E]. inversion E; cbn; lia. Qed.

Lemma utf8_len w : Forall wide w -> (length w <= length (utf8 w) <= 3 * length w)%nat.
Proof.
  induction 1 as [|c w Hc Hw IH]; [cbn; lia|]. pose proof (utf8_char_len c Hc).
  change (utf8 (c :: w)) with (utf8_char c ++ utf8 w). len.
Qed.

(* --- console --- *)

Lemma getwch_char c r : 0 <= c < 65536 -> getwch (putwch c ++ r) = Some (c, r).
Proof.
  intros H. destruct (char_facts c H) as (E1 & E2 & _). rewrite E1.
  inversion E2 as [H1 H2 H3 E | a b H1 H2 H3 H4 H5 H6 H7 H8 E | a b d H1 H2 H3 H4 H5 H6 H7 H8 H9 H10 E]; cbn [app getwch].
  - rewrite H2. auto.
  - rewrite H2, H3, H4. auto.
  - rewrite H2, H3, H4. auto.
Qed.

Lemma getwch_stream w r : Forall (fun c => 0 <= c < 65536) w ->
  getwchs (length w) (flat_map putwch w ++ r) = Some (w, r).
Proof.
  induction 1 as [|c w Hc Hw IH]; cbn; auto.
  rewrite <- app_assoc, getwch_char by auto. rewrite IH. auto.
Qed.

Lemma decode_char c pre r : wide c ->
  exists b bs, utf8_char c = b :: bs /\ b <> 0 /\
  forall i, i = length pre -> decode (pre ++ utf8_char c ++ r) b (S i) = Ok (c, (i + length (utf8_char c))%nat).
Proof.
  intros H. destruct (wide_facts c H) as [_ E2]. unfold wide in H.
  inversion E2 as [H1 H2 H3 E | a b H1 H2 H3 H4 H5 H6 H7 H8 E | a b d H1 H2 H3 H4 H5 H6 H7 H8 H9 H10 E].
  - exists c, []. split; auto. split; [lia|]. intros i ->. unfold decode. rewrite H2. do 2 f_equal. cbn. lia.
  - exists a, [b]. split; auto. split; auto. intros i ->. unfold decode. rewrite H2.
    replace (pre ++ [a; b] ++ r) with ((pre ++ [a]) ++ b :: r) by (rewrite <- app_assoc; auto).
    rewrite (rd_app_at _ b r) by len. cbn [bind]. rewrite H3, H4. do 2 f_equal. cbn. lia.
  - exists a, [b; d]. split; auto. split; auto. intros i ->. unfold decode. rewrite H2.
    replace (pre ++ [a; b; d] ++ r) with ((pre ++ [a]) ++ b :: d :: r) by (rewrite <- app_assoc; auto).
    rewrite (rd_app_at _ b (d :: r)) by len. cbn [bind]. rewrite H3.
    replace ((pre ++ [a]) ++ b :: d :: r) with ((pre ++ [a; b]) ++ d :: r) by (rewrite <- !app_assoc; auto).
    rewrite (rd_app_at _ d r) by len. cbn [bind]. rewrite H4. do 2 f_equal. cbn. lia.
Qed.

Lemma rd_first (pre : list Z) b bs r i : i = length pre -> rd (pre ++ (b :: bs) ++ r) i = Ok b.
Proof. intros ->. cbn [app]. apply rd_app. Qed.

Lemma puts_ok w tail : Forall wide w -> forall fuel pre, (length w < fuel)%nat ->
  puts_from fuel (pre ++ utf8 w ++ 0 :: tail) (length pre) = Ok (utf8 w).
Proof.
  induction 1 as [|c w Hc Hw IH]; intros fuel pre Hf; (destruct fuel as [|fuel]; [cbn in Hf; lia|]); cbn [puts_from].
  - cbn [utf8 flat_map app]. rewrite rd_app. cbn [bind]. rewrite Z.eqb_refl. auto.
  - change (utf8 (c :: w)) with (utf8_char c ++ utf8 w). rewrite <- app_assoc.
    destruct (decode_char c pre (utf8 w ++ 0 :: tail) Hc) as (b & bs & E & Hb & Hd).
    assert (Hrd : rd (pre ++ utf8_char c ++ utf8 w ++ 0 :: tail) (length pre) = Ok b) by (rewrite E; apply rd_first; auto).
    rewrite Hrd. cbn [bind]. destruct (Z.eqb_spec b 0); [tauto|].
    rewrite Hd by auto. cbn [bind].
    specialize (IH fuel (pre ++ utf8_char c)). rewrite <- app_assoc in IH.
    replace (length pre + length (utf8_char c))%nat with (length (pre ++ utf8_char c)) by len.
    rewrite IH by (cbn in Hf; lia). cbn [bind]. destruct (wide_facts c Hc) as [-> _]. auto.
Qed.

Lemma puts_text w tail : Forall wide w -> puts (utf8 w ++ 0 :: tail) = Ok (utf8 w).
Proof.
  intros H. unfold puts. apply (puts_ok w tail H _ []). pose proof (utf8_len w H). len.
Qed.

Lemma wputs_text w tail : Forall wide w -> wputs (w ++ 0 :: tail) = Ok (utf8 w).
Proof.
  induction 1 as [|c w Hc Hw IH]; cbn; [auto|].
  unfold wide in Hc. destruct (Z.eqb_spec c 0); [lia|]. rewrite IH. cbn.
  destruct (wide_facts c Hc) as [-> _]. auto.
Qed.

Lemma strwlen_text w tail : Forall (fun c => c <> 0) w -> strwlen (w ++ 0 :: tail) = Ok (length w).
Proof.
  induction 1 as [|c w Hc Hw IH]; cbn; [auto|].
  destruct (Z.eqb_spec c 0); [tauto|]. rewrite IH. auto.
Qed.

Lemma utf8len_text w tail : Forall wide w -> utf8len (utf8 w ++ 0 :: tail) = Ok (length w).
Proof.
  induction 1 as [|c w Hc Hw IH]; [auto|]. change (utf8 (c :: w)) with (utf8_char c ++ utf8 w).
  destruct (wide_facts c Hc) as [_ E2]. unfold wide in Hc. rewrite <- app_assoc.
  inversion E2 as [H1 H2 H3 E | a b H1 H2 H3 H4 H5 H6 H7 H8 E | a b d H1 H2 H3 H4 H5 H6 H7 H8 H9 H10 E];
    cbn [app utf8len]; unfold lead in *;
    repeat match goal with |- context [?x =? 0] => destruct (Z.eqb_spec x 0); [try lia; tauto|] end;
    rewrite IH; cbn [bind];
    repeat match goal with H : negb ?x = _ |- _ => apply (f_equal negb) in H; rewrite negb_involutive in H; cbn in H; rewrite H; clear H end;
    auto.
Qed.

(* --- copying --- *)

Definition nz (s : list Z) : Prop := Forall (fun c => c <> 0) s.

Lemma scan_ok s : nz s -> forall fuel pre tail, (length s < fuel)%nat ->
  scan fuel (pre ++ s ++ 0 :: tail) (length pre) = Ok (S (length pre + length s)).
Proof.
  induction 1 as [|c s Hc Hs IH]; intros fuel pre tail Hf; (destruct fuel as [|fuel]; [cbn in Hf; lia|]); cbn [scan app].
  - rewrite rd_app. cbn [bind]. rewrite Z.eqb_refl. f_equal. cbn. lia.
  - rewrite rd_app. cbn [bind]. destruct (Z.eqb_spec c 0); [tauto|].
    specialize (IH fuel (pre ++ [c]) tail). rewrite <- app_assoc in IH. cbn [app] in IH.
    replace (S (length pre)) with (length (pre ++ [c])) by len. rewrite IH by (cbn in Hf; lia). f_equal. len.
Qed.

Lemma scan_at src pre s tail i fuel : nz s -> src = pre ++ s ++ 0 :: tail -> i = length pre -> (length s < fuel)%nat ->
  scan fuel src i = Ok (S (length pre + length s)).
Proof. intros H -> -> Hf. apply scan_ok; auto. Qed.

Lemma copy_SS n dst src d s : copy_loop (S (S n)) dst src d s =
  (c <- rd src s ;; dst' <- wr dst d c ;;
   if c =? 0 then Ok (dst', S d, S s, S n) else copy_loop (S n) dst' src (S d) (S s)).
Proof. reflexivity. Qed.

(* The text ends before the room does. *)
Lemma copy_short todo tail : nz todo -> forall n pre done dst,
  (length todo < pred n)%nat -> (length todo < length dst)%nat ->
  exists m, copy_loop n (done ++ dst) (pre ++ todo ++ 0 :: tail) (length done) (length pre) =
    Ok (done ++ todo ++ 0 :: skipn (S (length todo)) dst, S (length done + length todo), S (length pre + length todo), S m).
Proof.
  induction 1 as [|c todo Hc Ht IH]; intros n pre done dst Hn Hd; cbn [length] in *;
    (destruct n as [|[|n]]; cbn in Hn; try lia); rewrite copy_SS; cbn [app]; rewrite rd_app; cbn [bind];
    (destruct dst as [|x dst]; cbn in Hd; [lia|]); rewrite wr_app; cbn [bind].
  - rewrite Z.eqb_refl. exists n. do 2 f_equal. f_equal; [f_equal|]; len.
  - destruct (Z.eqb_spec c 0); [tauto|].
    specialize (IH (S n) (pre ++ [c]) (done ++ [c]) dst). rewrite <- !app_assoc in IH. cbn [app] in IH.
    destruct IH as [m IH]; [cbn; lia|lia|].
    replace (S (length done)) with (length (done ++ [c])) by len.
    replace (S (length pre)) with (length (pre ++ [c])) by len.
    rewrite IH. exists m. do 2 f_equal. f_equal; [f_equal|]; len.
Qed.

(* The room ends first. *)
Lemma copy_long todo tail : nz todo -> forall n pre done dst,
  (pred n <= length todo)%nat -> (pred n <= length dst)%nat ->
  copy_loop n (done ++ dst) (pre ++ todo ++ 0 :: tail) (length done) (length pre) =
    Ok (done ++ firstn (pred n) todo ++ skipn (pred n) dst, (length done + pred n)%nat, (length pre + pred n)%nat, O).
Proof.
  induction 1 as [|c todo Hc Ht IH]; intros n pre done dst Hn Hd.
  - destruct n as [|[|n]]; cbn in *; try lia; do 2 f_equal; repeat f_equal; lia.
  - destruct n as [|[|n]]; [cbn; do 2 f_equal; repeat f_equal; lia..|].
    rewrite copy_SS. cbn [app]. rewrite rd_app. cbn [bind]. cbn [pred] in *.
    destruct dst as [|x dst]; cbn [length] in *; [lia|]. rewrite wr_app. cbn [bind].
    destruct (Z.eqb_spec c 0); [tauto|].
    specialize (IH (S n) (pre ++ [c]) (done ++ [c]) dst). rewrite <- !app_assoc in IH. cbn [app pred] in IH.
    replace (S (length done)) with (length (done ++ [c])) by len.
    replace (S (length pre)) with (length (pre ++ [c])) by len.
    rewrite IH by lia. do 2 f_equal. f_equal; [f_equal|]; len.
Qed.

Lemma strlcpy_ok dst src tail n : nz src -> (n <= length dst)%nat ->
  strlcpy dst (src ++ 0 :: tail) n =
    Ok (if (n =? 0)%nat then dst
        else let k := Nat.min (length src) (pred n) in firstn k src ++ 0 :: skipn (S k) dst, length src).
Proof.
  intros Hs Hd. unfold strlcpy.
  destruct (le_lt_dec (pred n) (length src)) as [Hl | Hl].
  - pose proof (copy_long src tail Hs n [] [] dst) as E. cbn [app length] in E. rewrite E by lia. cbn [bind finish].
    clear E. rewrite !Nat.add_0_l.
    rewrite (scan_at _ (firstn (pred n) src) (skipn (pred n) src) tail).
    + destruct n as [|n]; cbn [pred Nat.eqb].
      * cbn [firstn skipn app bind length]. do 2 f_equal.
      * cbn [pred] in Hl.
        destruct (skipn n dst) as [|x rest] eqn:Ex; [apply (f_equal (@length Z)) in Ex; len|].
        rewrite (wr_app_at _ x rest) by len. cbn [bind]. rewrite Nat.min_r by lia. f_equal. f_equal.
        { f_equal. f_equal. replace (S n) with (n + 1)%nat by lia. rewrite <- skipn_add, Ex. auto. }
        { len. }
    + rewrite <- (firstn_skipn (pred n) src) in Hs. apply Forall_app in Hs. tauto.
    + rewrite app_assoc, firstn_skipn. auto.
    + len.
    + len.
  - destruct (copy_short src tail Hs n [] [] dst) as [m E]; [lia|lia|]. cbn [app length] in E. rewrite E. cbn [bind finish].
    destruct n as [|n]; [cbn in Hl; lia|]. cbn [Nat.eqb pred] in *. rewrite Nat.min_l by lia.
    rewrite firstn_all. auto.
Qed.

(* --- from UTF-8 --- *)

Lemma from_SS n dst src d s : from_loop (S (S n)) dst src d s =
  (c1 <- rd src s ;;
   if c1 =? 0 then dst' <- wr dst d 0 ;; Ok (dst', S d, S s, S n)
   else '(ch, s') <- decode src c1 (S s) ;; dst' <- wr dst d ch ;; from_loop (S n) dst' src (S d) s').
Proof. reflexivity. Qed.

Lemma from_short todo tail : Forall wide todo -> forall n pre done dst,
  (length todo < pred n)%nat -> (length todo < length dst)%nat ->
  exists m, from_loop n (done ++ dst) (pre ++ utf8 todo ++ 0 :: tail) (length done) (length pre) =
    Ok (done ++ todo ++ 0 :: skipn (S (length todo)) dst, S (length done + length todo),
        S (length pre + length (utf8 todo)), S m).
Proof.
  induction 1 as [|c todo Hc Ht IH]; intros n pre done dst Hn Hd; cbn [length] in *;
    (destruct n as [|[|n]]; cbn in Hn; try lia); rewrite from_SS;
    (destruct dst as [|x dst]; cbn in Hd; [lia|]).
  - cbn [app utf8 flat_map]. rewrite rd_app. cbn [bind]. rewrite Z.eqb_refl. rewrite wr_app. cbn [bind].
    exists n. do 2 f_equal. f_equal; [f_equal|]; len.
  - change (utf8 (c :: todo)) with (utf8_char c ++ utf8 todo). rewrite <- app_assoc.
    destruct (decode_char c pre (utf8 todo ++ 0 :: tail) Hc) as (b & bs & E & Hb & Hde).
    assert (Hrd : rd (pre ++ utf8_char c ++ utf8 todo ++ 0 :: tail) (length pre) = Ok b) by (rewrite E; apply rd_first; auto).
    rewrite Hrd. cbn [bind]. destruct (Z.eqb_spec b 0); [tauto|].
    rewrite Hde by auto. cbn [bind]. rewrite wr_app. cbn [bind].
    specialize (IH (S n) (pre ++ utf8_char c) (done ++ [c]) dst). rewrite <- !app_assoc in IH. cbn [app] in IH.
    destruct IH as [m IH]; [cbn; lia|lia|].
    replace (S (length done)) with (length (done ++ [c])) by len.
    replace (length pre + length (utf8_char c))%nat with (length (pre ++ utf8_char c)) by len.
    rewrite IH. exists m. do 2 f_equal. f_equal; [f_equal|]; len.
Qed.

Lemma from_long todo tail : Forall wide todo -> forall n pre done dst,
  (pred n <= length todo)%nat -> (pred n <= length dst)%nat ->
  from_loop n (done ++ dst) (pre ++ utf8 todo ++ 0 :: tail) (length done) (length pre) =
    Ok (done ++ firstn (pred n) todo ++ skipn (pred n) dst, (length done + pred n)%nat,
        (length pre + length (utf8 (firstn (pred n) todo)))%nat, O).
Proof.
  induction 1 as [|c todo Hc Ht IH]; intros n pre done dst Hn Hd.
  - destruct n as [|[|n]]; cbn in *; try lia; do 2 f_equal; repeat f_equal; lia.
  - destruct n as [|[|n]]; [cbn; do 2 f_equal; repeat f_equal; lia..|].
    rewrite from_SS. cbn [pred] in *.
    destruct dst as [|x dst]; cbn [length] in *; [lia|].
    change (utf8 (c :: todo)) with (utf8_char c ++ utf8 todo). rewrite <- app_assoc.
    destruct (decode_char c pre (utf8 todo ++ 0 :: tail) Hc) as (b & bs & E & Hb & Hde).
    assert (Hrd : rd (pre ++ utf8_char c ++ utf8 todo ++ 0 :: tail) (length pre) = Ok b) by (rewrite E; apply rd_first; auto).
    rewrite Hrd. cbn [bind]. destruct (Z.eqb_spec b 0); [tauto|].
    rewrite Hde by auto. cbn [bind]. rewrite wr_app. cbn [bind].
    specialize (IH (S n) (pre ++ utf8_char c) (done ++ [c]) dst). rewrite <- !app_assoc in IH. cbn [app pred] in IH.
    replace (S (length done)) with (length (done ++ [c])) by len.
    replace (length pre + length (utf8_char c))%nat with (length (pre ++ utf8_char c)) by len.
    rewrite IH by lia. cbn [firstn skipn].
    change (utf8 (c :: firstn n todo)) with (utf8_char c ++ utf8 (firstn n todo)).
    do 2 f_equal. f_equal; [f_equal|]; len.
Qed.

Lemma utf8_app a b : utf8 (a ++ b) = utf8 a ++ utf8 b.
Proof. apply flat_map_app. Qed.

Lemma Forall_skipn {A} (Q : A -> Prop) n l : Forall Q l -> Forall Q (skipn n l).
Proof. intros H. rewrite <- (firstn_skipn n l) in H. apply Forall_app in H. tauto. Qed.

Lemma Forall_firstn {A} (Q : A -> Prop) n l : Forall Q l -> Forall Q (firstn n l).
Proof. intros H. rewrite <- (firstn_skipn n l) in H. apply Forall_app in H. tauto. Qed.

Lemma from_utf8_ok dst w tail n : Forall wide w -> (n <= length dst)%nat ->
  strlcpy_from_utf8 dst (utf8 w ++ 0 :: tail) n =
    Ok (if (n =? 0)%nat then dst
        else let k := Nat.min (length w) (pred n) in firstn k w ++ 0 :: skipn (S k) dst, length (utf8 w)).
Proof.
  intros Hs Hd. unfold strlcpy_from_utf8.
  destruct (le_lt_dec (pred n) (length w)) as [Hl | Hl].
  - pose proof (from_long w tail Hs n [] [] dst) as E. cbn [app length] in E. rewrite E by lia. cbn [bind finish].
    clear E. rewrite !Nat.add_0_l.
    assert (Hu : utf8 w = utf8 (firstn (pred n) w) ++ utf8 (skipn (pred n) w)) by (rewrite <- utf8_app, firstn_skipn; auto).
    rewrite (scan_at _ (utf8 (firstn (pred n) w)) (utf8 (skipn (pred n) w)) tail).
    + rewrite <- app_length, <- Hu. destruct n as [|n]; cbn [pred Nat.eqb].
      * cbn [firstn skipn app bind length]. do 2 f_equal.
      * cbn [pred] in Hl.
        destruct (skipn n dst) as [|x rest] eqn:Ex; [apply (f_equal (@length Z)) in Ex; len|].
        rewrite (wr_app_at _ x rest) by len. cbn [bind]. rewrite Nat.min_r by lia. f_equal. f_equal.
        f_equal. f_equal. replace (S n) with (n + 1)%nat by lia. rewrite <- skipn_add, Ex. auto.
    + apply utf8_nz. apply Forall_skipn. auto.
    + rewrite Hu, <- app_assoc. auto.
    + auto.
    + rewrite Hu. len.
  - destruct (from_short w tail Hs n [] [] dst) as [m E]; [lia|lia|]. cbn [app length] in E. rewrite E. cbn [bind finish].
    destruct n as [|n]; [cbn in Hl; lia|]. cbn [Nat.eqb pred] in *. rewrite Nat.min_l by lia.
    rewrite firstn_all. auto.
Qed.

(* --- to UTF-8 --- *)

Definition need (ch : Z) : nat := if ch <? 128 then 1 else if ch <? 2048 then 2 else 3.

Lemma to_SS n dst src d s : to_loop (S (S n)) dst src d s =
  (ch <- rd src s ;;
   if ch =? 0 then dst' <- wr dst d 0 ;; Ok (dst', S d, S s, S n)
   else if (S n <? need ch)%nat then dst' <- wr dst d 0 ;; Ok (dst', S d, S s, S n)
   else '(dst', d') <- wr_all dst d (putwch ch) ;; to_loop (S n) dst' src d' (S s)).
Proof. reflexivity. Qed.

Lemma wr_all_app l : forall done dst, (length l <= length dst)%nat ->
  wr_all (done ++ dst) (length done) l = Ok (done ++ l ++ skipn (length l) dst, (length done + length l)%nat).
Proof.
  induction l as [|b l IH]; intros done dst H; cbn [wr_all].
  - cbn. do 2 f_equal. lia.
  - destruct dst as [|x dst]; cbn [length] in H; [lia|]. rewrite wr_app. cbn [bind].
    specialize (IH (done ++ [b]) dst). rewrite <- app_assoc in IH. cbn [app] in IH.
    replace (S (length done)) with (length (done ++ [b])) by len. rewrite IH by lia.
    rewrite <- app_assoc. cbn. do 2 f_equal. len.
Qed.

(* How many characters fpm_strlcpy_to_utf8 converts with nitems = n. *)
Fixpoint taken (n : nat) (w : list Z) {struct w} : nat :=
  match w with
  | [] => 0
  | c :: w' =>
      match n with
      | S (S _ as n') => if (n' <? need c)%nat then 0 else S (taken n' w')
      | _ => 0
      end
  end.

Lemma taken_le n w : (taken n w <= length w)%nat /\ (taken n w <= pred n)%nat.
Proof.
  revert n. induction w as [|c w IH]; intros n; cbn [taken length]; [lia|].
  destruct n as [|[|n]]; try (cbn; lia). destruct (S n <? need c)%nat; [lia|].
  destruct (IH (S n)). cbn [pred] in *. lia.
Qed.

Lemma need_len c : wide c -> need c = length (utf8_char c).
Proof. intros H. unfold need, utf8_char. destruct (c <? 128); auto. destruct (c <? 2048); auto. Qed.

(* The loop leaves the encoded prefix, and a terminator if the room did not
   run out. *)
Lemma to_ok todo tail : Forall wide todo -> forall n pre done dst,
  let k := taken n todo in
  (length (utf8 (firstn k todo)) < length dst)%nat ->
  exists d s m, to_loop n (done ++ dst) (pre ++ todo ++ 0 :: tail) (length done) (length pre) =
    Ok (done ++ utf8 (firstn k todo) ++ (match m with O => skipn (length (utf8 (firstn k todo))) dst
                                         | _ => 0 :: skipn (S (length (utf8 (firstn k todo)))) dst end), d, s, m) /\
    (m = O -> d = length (done ++ utf8 (firstn k todo)) /\ s = (length pre + k)%nat /\ k = pred n) /\
    (m <> O -> n <> O /\ s = S (length pre + k) /\ ((k < length todo)%nat \/ k = length todo)).
Proof.
  induction 1 as [|c todo Hc Ht IH]; intros n pre done dst k Hd; unfold k in *; clear k.
  - destruct n as [|[|n]].
    + exists (length done), (length pre), O. cbn [taken firstn utf8 flat_map app skipn length pred]. rewrite app_nil_r.
      split; [auto|]. split; [intros _; lia|]. intros Hm; destruct Hm; auto.
    + exists (length done), (length pre), O. cbn [taken firstn utf8 flat_map app skipn length pred]. rewrite app_nil_r.
      split; [auto|]. split; [intros _; lia|]. intros Hm; destruct Hm; auto.
    + rewrite to_SS. cbn [app]. rewrite rd_app. cbn [bind]. rewrite Z.eqb_refl.
      destruct dst as [|x dst]; cbn in Hd; [lia|]. rewrite wr_app. cbn [bind].
      eexists _, _, (S n). split; [reflexivity|]. split; [discriminate|]. intros _. cbn. split; [discriminate|]. split; [lia|]. auto.
  - destruct n as [|[|n]].
    + exists (length done), (length pre), O. cbn [taken firstn utf8 flat_map app skipn length pred]. rewrite app_nil_r.
      split; [auto|]. split; [intros _; lia|]. intros Hm; destruct Hm; auto.
    + exists (length done), (length pre), O. cbn [taken firstn utf8 flat_map app skipn length pred]. rewrite app_nil_r.
      split; [auto|]. split; [intros _; lia|]. intros Hm; destruct Hm; auto.
    + rewrite to_SS. cbn [app]. rewrite rd_app. cbn [bind]. 
      assert (Hcz : c <> 0) by (unfold wide in Hc; lia). destruct (Z.eqb_spec c 0); [tauto|].
      cbn [taken] in *. destruct (S n <? need c)%nat eqn:En.
      * destruct dst as [|x dst]; cbn in Hd; [lia|]. rewrite wr_app. cbn [bind].
        eexists _, _, (S n). split; [reflexivity|]. split; [discriminate|]. intros _. cbn. split; [discriminate|]. split; [lia|]. left; lia.
      * cbn [firstn] in Hd |- *.
        change (utf8 (c :: firstn (taken (S n) todo) todo)) with (utf8_char c ++ utf8 (firstn (taken (S n) todo) todo)) in *.
        destruct (wide_facts c Hc) as [Ep _]. rewrite Ep. rewrite wr_all_app by len. cbn [bind].
        specialize (IH (S n) (pre ++ [c]) (done ++ utf8_char c) (skipn (length (utf8_char c)) dst)).
        rewrite <- !app_assoc in IH. cbn [app] in IH. 
        destruct IH as (d & s & m & IH & H0 & H1); [len|].
        replace (S (length pre)) with (length (pre ++ [c])) by len.
        replace (length done + length (utf8_char c))%nat with (length (done ++ utf8_char c)) by len.
        rewrite IH. exists d, s, m. split; [|split].
        -- rewrite <- !app_assoc. do 2 f_equal. f_equal. f_equal. f_equal. f_equal. f_equal.
           destruct m; rewrite skipn_add; [f_equal|do 2 f_equal]; len.
        -- intros Hm. destruct (H0 Hm) as (G1 & G2 & G3). split; [rewrite G1; len|]. split; [rewrite G2; len|]. cbn [pred] in *. lia.
        -- intros Hm. destruct (H1 Hm) as (G1 & G2 & G3). split; [discriminate|]. split; [rewrite G2; len|].
           cbn [length]. lia.
Qed.

Lemma wide_nz w : Forall wide w -> nz w.
Proof. apply Forall_impl. intros c H. unfold wide in H. lia. Qed.

Lemma to_utf8_ok dst w tail n : Forall wide w ->
  let k := taken n w in
  (length (utf8 (firstn k w)) < length dst)%nat ->
  exists r, strlcpy_to_utf8 dst (w ++ 0 :: tail) n =
    Ok (if (n =? 0)%nat then dst else utf8 (firstn k w) ++ 0 :: skipn (S (length (utf8 (firstn k w)))) dst, r) /\
    (k = length w -> r = length w) /\ (k <= r <= length w)%nat /\ (k = pred n -> r = length w \/ (taken n w < length w)%nat).
Proof.
  intros Hw k Hd. unfold strlcpy_to_utf8.
  destruct (to_ok w tail Hw n [] [] dst Hd) as (d & s & m & E & H0 & H1). fold k in E, H0, H1.
  cbn [app length] in E. rewrite E. cbn [bind].
  pose proof (taken_le n w) as [Hk1 Hk2]. fold k in Hk1, Hk2.
  destruct m as [|m]; cbn [finish].
  - destruct (H0 eq_refl) as (Ed & Es & Ek). cbn [app length] in Ed, Es. rewrite Nat.add_0_l in Es.
    rewrite (scan_at _ (firstn k w) (skipn k w) tail).
    + exists (length w). destruct n as [|n]; cbn [Nat.eqb].
      * cbn [pred] in Ek. cbn [bind]. rewrite Ek. cbn [firstn utf8 flat_map app length skipn Nat.add pred]. split; [auto|]. lia.
      * destruct (skipn (length (utf8 (firstn k w))) dst) as [|x rest] eqn:Ex; [apply (f_equal (@length Z)) in Ex; len|].
        rewrite (wr_app_at _ x rest) by auto. cbn [bind]. split; [|lia]. f_equal. f_equal.
        { f_equal. f_equal. replace (S (length (utf8 (firstn k w)))) with (length (utf8 (firstn k w)) + 1)%nat by lia.
          rewrite <- skipn_add, Ex. auto. }
        { len. }
    + apply Forall_skipn. apply wide_nz. auto.
    + rewrite app_assoc, firstn_skipn. auto.
    + len.
    + len.
  - destruct H1 as (En & Es & Hk); [discriminate|]. cbn [length] in Es.
    destruct n as [|n]; [tauto|]. exists k. cbn [Nat.eqb]. split; [do 2 f_equal; lia|]. fold k. lia.
Qed.

Lemma taken_all w : forall n, (length w + 3 <= n)%nat -> taken n w = length w.
Proof.
  induction w as [|c w IH]; intros n H; cbn [taken length] in *; auto.
  destruct n as [|[|n]]; try lia.
  assert (need c <= 3)%nat by (unfold need; destruct (c <? 128); [lia|]; destruct (c <? 2048); lia).
  destruct (Nat.ltb_spec (S n) (need c)); [lia|]. rewrite IH; lia.
Qed.

Lemma taken_ascii w : Forall (fun c => 0 < c < 128) w -> forall n, taken n w = Nat.min (length w) (pred n).
Proof.
  induction 1 as [|c w Hc Hw IH]; intros n; cbn [taken length]; auto.
  destruct n as [|[|n]]; auto. unfold need. destruct (Z.ltb_spec c 128); [|lia].
  destruct (Nat.ltb_spec (S n) 1); [lia|]. rewrite IH. cbn [pred]. lia.
Qed.

Lemma utf8_ascii w : Forall (fun c => 0 < c < 128) w -> utf8 w = w.
Proof.
  induction 1 as [|c w Hc Hw IH]; auto. change (utf8 (c :: w)) with (utf8_char c ++ utf8 w).
  unfold utf8_char. destruct (Z.ltb_spec c 128); [|lia]. rewrite IH. auto.
Qed.

Lemma ascii_wide w : Forall (fun c => 0 < c < 128) w -> Forall wide w.
Proof. apply Forall_impl. intros c H. unfold wide. lia. Qed.

Lemma to_utf8_all dst w tail n : Forall wide w -> (length w + 3 <= n)%nat -> (length (utf8 w) < length dst)%nat ->
  strlcpy_to_utf8 dst (w ++ 0 :: tail) n = Ok (utf8 w ++ 0 :: skipn (S (length (utf8 w))) dst, length w).
Proof.
  intros Hw Hn Hd. destruct (to_utf8_ok dst w tail n Hw) as (r & E & Hr & _).
  - rewrite taken_all, firstn_all by auto. auto.
  - rewrite taken_all, firstn_all in * by auto. rewrite Hr in E by auto.
    destruct n; [lia|]. cbn [Nat.eqb] in E. auto.
Qed.

Lemma to_utf8_ascii dst w tail n : Forall (fun c => 0 < c < 128) w -> (n <= length dst)%nat ->
  exists r, strlcpy_to_utf8 dst (w ++ 0 :: tail) n =
    Ok (if (n =? 0)%nat then dst
        else let k := Nat.min (length w) (pred n) in firstn k w ++ 0 :: skipn (S k) dst, r).
Proof.
  intros Hw Hd. destruct n as [|n].
  - unfold strlcpy_to_utf8. cbn [to_loop bind finish Nat.eqb].
    rewrite (scan_at _ [] w tail); cbn [app length]; [|apply wide_nz, ascii_wide; auto | auto | auto | len].
    cbn [bind]. eexists. reflexivity.
  - destruct (to_utf8_ok dst w tail (S n) (ascii_wide w Hw)) as (r & E & _).
    + rewrite taken_ascii, utf8_ascii by (auto; apply Forall_firstn; auto). cbn [pred]. len.
    + rewrite taken_ascii, utf8_ascii in E by (auto; apply Forall_firstn; auto).
      exists r. rewrite E. cbn [Nat.eqb pred]. do 2 f_equal. cbv zeta. do 3 f_equal. len.
Qed.

Lemma to_utf8_bound dst w tail n : Forall wide w -> (3 * n <= length dst)%nat ->
  exists k r, (k <= length w)%nat /\ (k <= pred n)%nat /\ strlcpy_to_utf8 dst (w ++ 0 :: tail) n =
    Ok (if (n =? 0)%nat then dst else utf8 (firstn k w) ++ 0 :: skipn (S (length (utf8 (firstn k w)))) dst, r).
Proof.
  intros Hw Hd. destruct n as [|n].
  - unfold strlcpy_to_utf8. cbn [to_loop bind finish Nat.eqb].
    rewrite (scan_at _ [] w tail); cbn [app length]; [|apply wide_nz; auto | auto | auto | len].
    cbn [bind]. exists O. eexists. split; [lia|]. split; [lia|]. reflexivity.
  - pose proof (taken_le (S n) w) as [H1 H2]. cbn [pred] in H2.
    pose proof (utf8_len (firstn (taken (S n) w) w) (Forall_firstn _ _ _ Hw)) as H3.
    destruct (to_utf8_ok dst w tail (S n) Hw) as (r & E & _); [len|].
    exists (taken (S n) w), r. split; auto.
Qed.

Lemma round_trip w n1 n2 d1 d2 tail : Forall wide w ->
  (length w + 3 <= n1)%nat -> (length (utf8 w) < length d1)%nat -> (length w < n2)%nat -> (n2 <= length d2)%nat ->
  exists d1' d2' r1 r2,
    strlcpy_to_utf8 d1 (w ++ 0 :: tail) n1 = Ok (d1', r1) /\
    strlcpy_from_utf8 d2 d1' n2 = Ok (d2', r2) /\
    firstn (S (length w)) d2' = w ++ [0].
Proof.
  intros Hw H1 H2 H3 H4. do 4 eexists. split; [apply to_utf8_all; auto|].
  split; [apply from_utf8_ok; auto|].
  destruct n2; [lia|]. cbn [Nat.eqb pred]. cbv zeta. rewrite Nat.min_l by lia. rewrite firstn_all.
  rewrite firstn_app, firstn_all2 by lia. replace (S (length w) - length w)%nat with 1%nat by lia. auto.
Qed.

Lemma to_utf8_overflow : exists w d n, Forall wide w /\ (n <= length d)%nat /\ strlcpy_to_utf8 d (w ++ [0]) n = Ub.
Proof.
  exists [2048; 2048; 2048], [1; 1; 1; 1; 1; 1], 6%nat. split; [repeat constructor|]. split; [cbn; lia|]. vm_compute. auto.
Qed.

Lemma from_utf8_overread : exists b d n, Forall (fun c => 0 < c < 256) b /\ (length b < n)%nat /\ (n <= length d)%nat /\
  strlcpy_from_utf8 d (b ++ [0]) n = Ub /\ puts (b ++ [0]) = Ub.
Proof.
  exists [195], [1; 1; 1; 1], 4%nat. split; [repeat constructor|]. split; [cbn; lia|]. split; [cbn; lia|]. vm_compute. auto.
Qed.

Lemma to_utf8_shell w d tail : Forall wide w -> (length w <= 127)%nat -> length d = 384%nat ->
  strlcpy_to_utf8 d (w ++ 0 :: tail) 384 = Ok (utf8 w ++ 0 :: skipn (S (length (utf8 w))) d, length w).
Proof.
  intros Hw Hl Hd. pose proof (utf8_len w Hw). apply to_utf8_all; auto; lia.
Qed.

Lemma lens w t1 t2 : Forall wide w -> utf8len (utf8 w ++ 0 :: t1) = Ok (length w) /\ strwlen (w ++ 0 :: t2) = Ok (length w).
Proof. intros H. split; [apply utf8len_text; auto | apply strwlen_text; apply wide_nz; auto]. Qed.
