From Verif Require Import Base FutfModel FutfSpec LfnModel LfnSpec LfnProof FdirModel FdirSpec FdirProof FdirProof2.
Open Scope Z_scope.

(* --- numbered names ------------------------------------------------------------------- *)

Lemma land_bit16 x : Z.land x 65536 = if Z.testbit x 16 then 65536 else 0.
Proof.
  change 65536 with (2 ^ 16). apply Z.bits_inj'. intros k K. rewrite Z.land_spec, Z.pow2_bits_eqb by lia. destruct (Z.eqb_spec 16 k) as [<-|N].
  - rewrite andb_true_r. destruct (Z.testbit x 16); [rewrite Z.pow2_bits_true by lia; auto|now rewrite Z.bits_0].
  - rewrite andb_false_r. destruct (Z.testbit x 16); [rewrite Z.pow2_bits_false by lia; auto|now rewrite Z.bits_0].
Qed.
Lemma has_bit16 x : 0 <= x < 131072 -> has x 65536 = (65536 <=? x).
Proof.
  intros H. unfold has. rewrite land_bit16. assert (T : Z.testbit x 16 = (65536 <=? x)).
  { rewrite Z.testbit_odd, Z.shiftr_div_pow2 by lia. change (2 ^ 16) with 65536. destruct (Z.leb_spec 65536 x).
    - replace (x / 65536) with 1 by lia. auto.
    - replace (x / 65536) with 0 by lia. auto. }
  rewrite T. destruct (65536 <=? x); auto.
Qed.
Lemma xor_range y : 65536 <= y < 131072 -> 0 <= Z.lxor y 69665 < 65536.
Proof.
  intros H. assert (P : 0 <= Z.lxor y 69665) by (apply Z.lxor_nonneg; lia). split; [auto|].
  assert (Q : Z.shiftr (Z.lxor y 69665) 16 = 0).
  { rewrite Z.shiftr_lxor, (Z.shiftr_div_pow2 y) by lia. change (2 ^ 16) with 65536. replace (y / 65536) with 1 by lia. reflexivity. }
  rewrite Z.shiftr_div_pow2 in Q by lia. change (2 ^ 16) with 65536 in Q. lia.
Qed.
Lemma hash_bits_range n : forall sreg wc, 0 <= sreg < 65536 -> 0 <= hash_bits n sreg wc < 65536.
Proof.
  induction n as [|n IH]; intros sreg wc H; cbn [hash_bits]; [auto|]. apply IH. unfold u32. rewrite Z.mod_small by lia.
  assert (B : 0 <= Z.land wc 1 < 2) by (change 1 with (Z.ones 1); rewrite Z.land_ones by lia; apply Z.mod_pos_bound; lia).
  rewrite has_bit16 by lia. destruct (Z.leb_spec 65536 (sreg * 2 + Z.land wc 1)); [apply xor_range; lia|lia].
Qed.
Lemma hash_ok x lfn : Forall (fun u => 0 < u < 65536) x -> (length x <= 255)%nat -> holds lfn x -> forall n i sreg, 0 <= i <= Z.of_nat (length x) -> (Z.to_nat (Z.of_nat (length x) - i) < n)%nat -> 0 <= sreg < 65536 ->
  exists s, hash_loop n lfn i sreg = Ok s /\ 0 <= s < 65536.
Proof.
  intros X L [H1 H2]. induction n as [|n IH]; intros i sreg I N R; [lia|]. cbn [hash_loop]. unfold rd, LFNBUF. replace ((0 <=? i) && (i <? 256)) with true by lia. cbn [bind].
  destruct (Z.eqb_spec (lfn i) 0) as [E|E]; [eauto|]. assert (i <> Z.of_nat (length x)) by congruence. apply IH; [lia|lia|]. now apply hash_bits_range.
Qed.

Definition hex (v : Z) : Z := if 57 <? v mod 16 + 48 then v mod 16 + 55 else v mod 16 + 48.
Lemma hex_ok v : hex_digit (hex v).
Proof. unfold hex, hex_digit. destruct (Z.ltb_spec 57 (v mod 16 + 48)); lia. Qed.
Lemma hex_c v : (let c := v mod 16 + 48 in if 57 <? c then c + 7 else c) = hex v.
Proof. unfold hex. cbv zeta. destruct (57 <? v mod 16 + 48); lia. Qed.

Lemma suffix_ok s : 0 <= s < 65536 -> exists i ds ns, suffix_loop 7 s (fun _ => 0) = (i, ns) /\ i + 1 + Z.of_nat (length ds) = 8 /\ 1 <= Z.of_nat (length ds) <= 4 /\ Forall hex_digit ds /\ (s <= 5 -> ds = [48 + s]) /\
  ns i = 126 /\ forall j, 0 <= j < Z.of_nat (length ds) -> ns (i + 1 + j) = nth (Z.to_nat j) ds 0.
Proof.
  intros H. pose proof (hex_ok s) as X0. pose proof (hex_ok (s / 16)) as X1. pose proof (hex_ok (s / 16 / 16)) as X2. pose proof (hex_ok (s / 16 / 16 / 16)) as X3.
  assert (Q : s / 16 / 16 / 16 / 16 = 0) by lia. change 7%nat with (S 6). cbn [suffix_loop].
  change (Z.of_nat 6) with 6. change (Z.of_nat 5) with 5. change (Z.of_nat 4) with 4. change (Z.of_nat 3) with 3. change (Z.of_nat 7) with 7.
  fold (hex s). rewrite ?hex_c. destruct (Z.eqb_spec (s / 16) 0) as [E1|E1].
  - exists 6, [hex s], (upd (upd (fun _ => 0) 7 (hex s)) 6 126). split; [reflexivity|]. split; [reflexivity|]. split; [cbn; lia|]. split; [auto|].
    split; [intros; unfold hex; rewrite Z.mod_small by lia; replace (57 <? s + 48) with false by lia; f_equal; lia|]. split; [reflexivity|]. intros j J. cbn [length] in J. assert (j = 0) by lia. subst. reflexivity.
  - change 6%nat with (S 5). cbn [suffix_loop]. rewrite ?hex_c. destruct (Z.eqb_spec (s / 16 / 16) 0) as [E2|E2].
    + eexists 5, [hex (s / 16); hex s], _. split; [reflexivity|]. split; [reflexivity|]. split; [cbn; lia|]. split; [auto|]. split; [lia|]. split; [reflexivity|].
      intros j J. cbn [length] in J. assert (j = 0 \/ j = 1) as [-> | ->] by lia; reflexivity.
    + destruct (Z.eqb_spec (s / 16 / 16 / 16) 0) as [E3|E3].
      * eexists 4, [hex (s / 16 / 16); hex (s / 16); hex s], _. split; [reflexivity|]. split; [reflexivity|]. split; [cbn; lia|]. split; [auto|]. split; [lia|]. split; [reflexivity|].
        intros j J. cbn [length] in J. assert (j = 0 \/ j = 1 \/ j = 2) as [-> | [-> | ->]] by lia; reflexivity.
      * rewrite Q. cbn [Z.eqb]. eexists 3, [hex (s / 16 / 16 / 16); hex (s / 16 / 16); hex (s / 16); hex s], _. split; [reflexivity|]. split; [reflexivity|]. split; [cbn; lia|]. split; [auto|]. split; [lia|]. split; [reflexivity|].
        intros j J. cbn [length] in J. assert (j = 0 \/ j = 1 \/ j = 2 \/ j = 3) as [-> | [-> | [-> | ->]]] by lia; reflexivity.
Qed.

Lemma space_ok dst i : forall n j, 0 <= j <= i -> i <= j + Z.of_nat n -> let r := space_at n dst j i in j <= r <= i /\ (forall k, j <= k < r -> dst k <> 32) /\ (r = i \/ dst r = 32).
Proof.
  induction n as [|n IH]; intros j J N; cbn [space_at].
  - cbv zeta. split; [lia|]. split; [lia|lia].
  - destruct (Z.ltb_spec j i); cbn [andb]; [|split; [lia|]; split; [lia|lia]]. destruct (Z.eqb_spec (dst j) 32) as [E|E]; cbn [negb]; [split; [lia|]; split; [lia|auto]|].
    destruct (IH (j + 1) ltac:(lia) ltac:(lia)) as (H1 & H2 & H3). cbv zeta. split; [lia|]. split; [|auto]. intros k K. destruct (Z.eq_dec k j) as [->|]; [auto|]. apply H2. lia.
Qed.
Lemma append_ok ns : forall n dst j i, 0 <= j < 8 -> 8 <= j + Z.of_nat n -> 0 <= i -> forall k,
  append n dst ns j i k = if (j <=? k) && (k <? 8) then if i + (k - j) <? 8 then ns (i + (k - j)) else 32 else dst k.
Proof.
  induction n as [|n IH]; intros dst j i J N I k; [lia|]. cbn [append].
  set (v := if i <? 8 then ns i else 32). set (i' := if i <? 8 then i + 1 else i).
  assert (V : v = if i + (j - j) <? 8 then ns (i + (j - j)) else 32) by (unfold v; now replace (i + (j - j)) with i by lia).
  destruct (Z.ltb_spec (j + 1) 8) as [L|L].
  - assert (I' : 0 <= i') by (unfold i'; destruct (i <? 8); lia). rewrite IH by lia. unfold upd. destruct (Z.eqb_spec k j) as [->|Kj].
    + replace ((j + 1 <=? j) && (j <? 8)) with false by lia. replace ((j <=? j) && (j <? 8)) with true by lia. auto.
    + destruct ((j + 1 <=? k) && (k <? 8)) eqn:Q; [|now replace ((j <=? k) && (k <? 8)) with false by lia].
      replace ((j <=? k) && (k <? 8)) with true by lia. unfold i'. destruct (Z.ltb_spec i 8); [now replace (i + 1 + (k - (j + 1))) with (i + (k - j)) by lia|].
      replace (i + (k - (j + 1)) <? 8) with false by lia. now replace (i + (k - j) <? 8) with false by lia.
  - unfold upd. destruct (Z.eqb_spec k j) as [->|Kj]; [now replace ((j <=? j) && (j <? 8)) with true by lia|]. now replace ((j <=? k) && (k <? 8)) with false by lia.
Qed.

Lemma gen_ok dst fn x lfn n : Forall (fun u => 0 < u < 65536) x -> (length x <= 255)%nat -> holds lfn x -> bytes fn -> bytes dst -> 1 <= n < 100 ->
  exists f, gen_numname dst fn lfn n = Ok f /\ numbered fn n f /\ bytes f /\ (forall k, 11 <= k -> f k = dst k).
Proof.
  intros X L H B Bd N. unfold gen_numname. set (d0 := fun k => if (0 <=? k) && (k <? 11) then fn k else dst k).
  assert (Sq : exists s, (if 5 <? n then hash_loop (Z.to_nat LFNBUF) lfn 0 n else Ok n) = Ok s /\ 0 <= s < 65536 /\ (n <= 5 -> s = n)).
  { destruct (Z.ltb_spec 5 n).
    - destruct (hash_ok x lfn X L H (Z.to_nat LFNBUF) 0 n) as (s & E & S1); [lia|unfold LFNBUF; lia|lia|]. exists s. split; [auto|]. split; [auto|lia].
    - exists n. split; [auto|]. split; [lia|auto]. }
  destruct Sq as (s & -> & S1 & S2). cbn [bind]. destruct (suffix_ok s S1) as (i & ds & ns & -> & Li & Ld & Hd & D5 & Ni & Nd).
  assert (D0 : forall k, 0 <= k < 11 -> d0 k = fn k) by (intros; unfold d0; now replace ((0 <=? k) && (k <? 11)) with true by lia).
  destruct (space_ok d0 i 8 0 ltac:(lia) ltac:(lia)) as (J1 & J2 & J3). set (j := space_at 8 d0 0 i) in *.
  pose proof (append_ok ns 8 d0 j i ltac:(lia) ltac:(lia) ltac:(lia)) as A. eexists. split; [reflexivity|]. set (f := append 8 d0 ns j i) in *. clearbody f.
  split; [|split].
  - exists j, ds. cbv zeta. split; [auto|]. split; [auto|]. split; [intros Q; rewrite (S2 Q) in D5; auto|]. split; [lia|]. split; [lia|].
    split; [destruct J3 as [->|J3]; [left; lia|right; rewrite D0 in J3 by lia; auto]|].
    split; [intros k K; rewrite A; replace ((j <=? k) && (k <? 8)) with false by lia; rewrite D0 by lia; split; [auto|]; rewrite <- D0 by lia; apply J2; lia|].
    split; [rewrite A; replace ((j <=? j) && (j <? 8)) with true by lia; rewrite Z.sub_diag, Z.add_0_r; now replace (i <? 8) with true by lia|].
    split; [intros k K; rewrite A; replace ((j <=? j + 1 + k) && (j + 1 + k <? 8)) with true by lia; replace (i + (j + 1 + k - j)) with (i + 1 + k) by lia; replace (i + 1 + k <? 8) with true by lia; auto|].
    split; [intros k K; rewrite A; replace ((j <=? k) && (k <? 8)) with true by lia; now replace (i + (k - j) <? 8) with false by lia|].
    intros k K. rewrite A. replace ((j <=? k) && (k <? 8)) with false by lia. apply D0. lia.
  - intros k. rewrite A. destruct ((j <=? k) && (k <? 8)) eqn:Q.
    + destruct (Z.ltb_spec (i + (k - j)) 8); [|lia]. destruct (Z.eq_dec k j) as [->|]; [rewrite Z.sub_diag, Z.add_0_r, Ni; lia|].
      replace (i + (k - j)) with (i + 1 + (k - j - 1)) by lia. rewrite Nd by lia. rewrite Forall_forall in Hd. assert (Y : hex_digit (nth (Z.to_nat (k - j - 1)) ds 0)) by (apply Hd, nth_In; lia). unfold hex_digit in Y. lia.
    + unfold d0. destruct ((0 <=? k) && (k <? 11)); [apply B|apply Bd].
  - intros k K. rewrite A. replace ((j <=? k) && (k <? 8)) with false by lia. unfold d0. now replace ((0 <=? k) && (k <? 11)) with false by lia.
Qed.

Lemma numbered_first fn n f : numbered fn n f -> f 0 = fn 0 \/ f 0 = 126.
Proof.
  intros (m & ds & H). cbv zeta in H. destruct H as (_ & _ & _ & M & _ & _ & H1 & H2 & _). destruct (Z.eq_dec m 0) as [->|]; [auto|]. left. apply H1. lia.
Qed.

(* --- the search for a free number ------------------------------------------------------ *)

Lemma number_ok d l fn buf x : dir_ok d l -> units buf -> Forall (fun u => 0 < u < 65536) x -> (length x <= 255)%nat -> holds buf x -> bytes fn -> forall fuel n g, bytes g -> g 11 = 64 -> 1 <= n -> n + Z.of_nat fuel = 100 ->
  (exists f m, number_loop fuel d g fn buf n = Ok (inl f) /\ n <= m < 100 /\ numbered fn m f /\ bytes f /\ Forall (fun h => ~ short_same (snd h) f) (files l)) \/
  (number_loop fuel d g fn buf n = Ok (inr D_DENIED) /\ forall m, n <= m < 100 -> exists f, numbered fn m f /\ Exists (fun h => short_same (snd h) f) (files l)).
Proof.
  intros D U X L H B. induction fuel as [|fuel IH]; intros n g Bg G N F; cbn [number_loop].
  - right. split; [auto|]. lia.
  - destruct (gen_ok g fn x buf n X L H B Bg ltac:(lia)) as (f & -> & F1 & F2 & F3). cbn [bind].
    assert (F11 : f 11 = 64) by (rewrite F3 by lia; auto).
    assert (Hit : forall h, hit x f h <-> short_same (snd h) f).
    { intros h. unfold hit. rewrite F11. change (has 64 64) with true. change (has 64 1) with false. split; [intros [[? _]|[_ ?]]; [discriminate|auto]|auto]. }
    destruct (find_ok d l f buf x D U X H) as [(i & b & E & Nf)|(l1 & w & e & l2 & El & _ & Hh & E)]; rewrite E; cbn [bind].
    + left. exists f, n. split; [auto|]. split; [lia|]. split; [auto|]. split; [auto|]. eapply Forall_impl; [|exact Nf]. intros h K1 K2. apply K1, Hit, K2.
    + assert (Ex : Exists (fun h => short_same (snd h) f) (files l)) by (rewrite El, files_app; apply Exists_app; right; cbn [files]; constructor; now apply Hit in Hh).
      destruct (IH (n + 1) f F2 F11 ltac:(lia) ltac:(lia)) as [(f2 & m & E2 & M & R)|[E2 R]].
      * left. exists f2, m. split; [auto|]. split; [lia|auto].
      * right. split; [auto|]. intros m M. destruct (Z.eq_dec m n) as [->|]; [eauto|]. apply R. lia.
Qed.

(* --- free entries ------------------------------------------------------------------------ *)

Lemma free_dec t j : free t j \/ ~ free t j.
Proof. unfold free. destruct (Z.eq_dec (t j 0) 0), (Z.eq_dec (t j 0) DDEM); tauto. Qed.
Lemma short_used e : short_ok e -> e 0 <> 0 /\ e 0 <> DDEM.
Proof. intros (_ & ? & ? & _). auto. Qed.

(* The entries of a file are in use. *)
Lemma file_used t p w e j : stored t p (File w e) -> p <= j <= p + parts w -> ~ free t j.
Proof.
  intros (T & Sh & Hw) J. destruct (Z.eq_dec j (p + parts w)) as [->|N].
  - unfold free. rewrite T. apply short_used in Sh. tauto.
  - assert (W : w <> []) by (intros ->; rewrite parts_nil in *; lia). destruct (Hw W) as (Wn & _ & Hp). destruct (Hp (j - p) ltac:(lia)) as [P _]. replace (p + (j - p)) with j in P by lia.
    destruct (part_attr w (parts w - (j - p)) _ _ Wn ltac:(lia) P) as (_ & A2 & A3 & _). unfold free. lia.
Qed.
Lemma laid_bytes t l : forall p, laid t p l -> forall j, p <= j < p + sizes l -> bytes (t j).
Proof.
  induction l as [|x l IH]; intros p L j J; [cbn in J; lia|]. rewrite sizes_cons in J. destruct L as [L1 L2]. destruct (Z.lt_ge_cases j (p + size x)) as [Q|Q].
  - destruct x as [|e|w e]; cbn [size stored] in *.
    + replace j with p by lia. apply L1.
    + replace j with p by lia. destruct L1 as [-> L1]. apply L1.
    + destruct L1 as (T & Sh & Hw). destruct (Z.eq_dec j (p + parts w)) as [->|N]; [rewrite T; apply Sh|].
      assert (W : w <> []) by (intros ->; rewrite parts_nil in *; lia). destruct (Hw W) as (Wn & _ & Hp). destruct (Hp (j - p) ltac:(lia)) as [_ P]. now replace (p + (j - p)) with j in P by lia.
  - apply (IH (p + size x)); [auto|lia].
Qed.
Lemma all_bytes d l : dir_ok d l -> forall j, 0 <= j < cap d -> bytes (tab d j).
Proof.
  intros D j J. destruct (Z.lt_ge_cases j (sizes l)); [apply (laid_bytes (tab d) l 0); [apply D|lia]|]. apply (dk_tail _ _ D). lia.
Qed.

Lemma sizes_holes n : sizes (repeat Hole n) = Z.of_nat n.
Proof. induction n as [|n IH]; cbn [repeat]; [auto|]. rewrite sizes_cons, IH. cbn [size]. lia. Qed.
Lemma files_holes n : files (repeat Hole n) = [].
Proof. induction n; cbn; auto. Qed.

(* Free entries in a row are holes. *)
Lemma free_run t : forall l p s n, laid t p l -> p <= s <= p + sizes l -> s = p \/ (0 < n)%nat -> (forall j, s <= j < s + Z.of_nat n -> free t j) ->
  exists l1 h l2, l = l1 ++ repeat Hole h ++ l2 /\ p + sizes l1 = s /\ (h = n \/ ((h < n)%nat /\ l2 = [])).
Proof.
  induction l as [|x l IH]; intros p s n L Hs Ns F.
  - cbn in Hs. exists [], 0%nat, []. split; [auto|]. split; [cbn; lia|]. destruct n; [auto|]. right. split; [lia|auto].
  - destruct L as [L1 L2]. rewrite sizes_cons in Hs. destruct n as [|n].
    + destruct Ns as [->|Ns]; [|lia]. exists [], 0%nat, (x :: l). split; [auto|]. split; [cbn; lia|auto].
    + destruct (Z.lt_ge_cases s (p + size x)) as [Q|Q].
      * destruct x as [|e|w e]; cbn [size stored] in *.
        -- assert (s = p) by lia. subst s. destruct (IH (p + 1) (p + 1) n L2 ltac:(pose proof (sizes_nonneg l); lia) ltac:(auto)) as (l1 & h & l2 & -> & E & R).
           { intros j J. apply F. lia. }
           assert (l1 = []) by (destruct l1 as [|y l1]; [auto|]; rewrite sizes_cons in E; pose proof (size_pos y); pose proof (sizes_nonneg l1); lia). subst l1.
           exists [], (S h), l2. split; [auto|]. split; [cbn; lia|]. destruct R as [->|[R ->]]; [auto|right; split; [lia|auto]].
        -- exfalso. destruct (F s ltac:(lia)) as [E|E]; assert (s = p) by lia; subst s; destruct L1 as [<- (_ & ? & ? & _)]; auto.
        -- exfalso. apply (file_used t p w e s L1 ltac:(lia)). apply F. lia.
      * destruct (IH (p + size x) s (S n) L2 ltac:(lia) ltac:(right; lia) F) as (l1 & h & l2 & -> & E & R). exists (x :: l1), h, l2. split; [auto|]. split; [rewrite sizes_cons; lia|auto].
Qed.

(* --- dir_alloc -------------------------------------------------------------------------- *)

Lemma div_gap c a m : (c | a) -> (c | m) -> 1 <= c -> a < m -> a + c <= m.
Proof. intros [x ->] [y ->] C L. assert (x < y) by nia. nia. Qed.

Lemma stretch_ok d l i : dir_ok d l -> 0 <= i < cap d -> exists d' r, dir_next d i true = (d', r) /\ dir_ok d' l /\ cap d <= cap d' /\ (forall j, j < cap d -> tab d' j = tab d j) /\
  ((r = D_OK /\ i + 1 < cap d') \/ ((r = D_DENIED \/ r = D_NO_FILE) /\ d' = d /\ i + 1 = cap d /\ (spare d = 0 \/ cap d = MAXENT))).
Proof.
  intros D I. pose proof (dk_cap _ _ D) as C. unfold dir_next. destruct (Z.leb_spec MAXENT (i + 1)) as [M|M].
  - exists d, D_NO_FILE. split; [auto|]. split; [auto|]. split; [lia|]. split; [auto|]. right. split; [auto|]. split; [auto|]. split; [|right]; lia.
  - destruct (Z.ltb_spec (i + 1) (cap d)) as [Q|Q].
    + exists d, D_OK. split; [auto|]. split; [auto|]. split; [lia|]. split; [auto|]. left. auto.
    + cbn [negb]. destruct (Z.leb_spec (spare d) 0) as [S1|S1].
      * exists d, D_DENIED. split; [auto|]. split; [auto|]. split; [lia|]. split; [auto|]. right. split; [auto|]. split; [auto|]. split; [lia|]. left. pose proof (dk_spare _ _ D). lia.
      * pose proof (dk_chunk _ _ D) as Ck. destruct (dk_div _ _ D) as [V1 V2]. pose proof (div_gap _ _ _ V1 V2 Ck ltac:(lia)) as G. pose proof (dk_room _ _ D) as Rm.
        do 2 eexists. split; [reflexivity|]. split; [|cbn [cap tab]; split; [lia|]; split; [|left; split; [auto|lia]]].
        -- constructor; cbn [tab cap chunk spare].
           ++ apply (laid_ext (tab d)); [|apply D]. intros j J. now replace ((cap d <=? j) && (j <? cap d + chunk d)) with false by lia.
           ++ lia.
           ++ lia.
           ++ auto.
           ++ split; [|auto]. apply Z.divide_add_r; [auto|apply Z.divide_refl].
           ++ lia.
           ++ intros j J. destruct ((cap d <=? j) && (j <? cap d + chunk d)) eqn:Q2; [split; [auto|intros o; lia]|]. apply (dk_tail _ _ D). lia.
        -- intros j J. now replace ((cap d <=? j) && (j <? cap d + chunk d)) with false by lia.
Qed.

Lemma alloc_loop_ok l n : 1 <= n -> forall fuel d i cnt, dir_ok d l -> 0 <= i < cap d -> (Z.to_nat (MAXENT - i) <= fuel)%nat -> 0 <= cnt < n -> cnt <= i -> i - cnt <= sizes l ->
  (forall j, i - cnt <= j < i -> free (tab d) j) -> (cnt = i \/ ~ free (tab d) (i - cnt - 1)) -> (forall p, 0 <= p -> p + n <= i -> exists j, p <= j < p + n /\ ~ free (tab d) j) ->
  exists d' r k, alloc_loop fuel d i n cnt = Ok (d', r, k) /\ dir_ok d' l /\ cap d <= cap d' /\ (forall j, j < cap d -> tab d' j = tab d j) /\
    ((r = D_OK /\ n - 1 <= k < cap d' /\ k - n + 1 <= sizes l /\ forall j, k - n < j <= k -> free (tab d') j) \/ (r = D_DENIED /\ no_room d' n)).
Proof.
  intros N. induction fuel as [|fuel IH]; intros d i cnt D I Fu Cn Ci Sl Fr Mx No; [pose proof (dk_cap _ _ D); lia|].
  cbn [alloc_loop]. assert (Fb : ((tab d i 0 =? DDEM) || (tab d i 0 =? 0)) = true <-> free (tab d) i) by (unfold free; lia).
  destruct ((tab d i 0 =? DDEM) || (tab d i 0 =? 0)) eqn:Q; cbn [andb].
  - assert (Fi : free (tab d) i) by now apply Fb. destruct (Z.eqb_spec (cnt + 1) n) as [E|E].
    + exists d, D_OK, i. split; [auto|]. split; [auto|]. split; [lia|]. split; [auto|]. left. split; [auto|]. split; [lia|]. split; [lia|].
      intros j J. destruct (Z.eq_dec j i) as [->|]; [auto|]. apply Fr. lia.
    + assert (No1 : forall p, 0 <= p -> p + n <= i + 1 -> exists j, p <= j < p + n /\ ~ free (tab d) j).
      { intros p P P1. destruct (Z.eq_dec (p + n) (i + 1)) as [Pe|]; [|apply No; lia]. destruct Mx as [Mx|Mx]; [lia|]. exists (i - cnt - 1). split; [lia|auto]. }
      destruct (stretch_ok d l i D I) as (d' & r & -> & D' & C' & T' & [[-> L]|(R & -> & Ce & Sp)]).
      * destruct (IH d' (i + 1) (cnt + 1) D' ltac:(lia) ltac:(lia) ltac:(lia) ltac:(lia) ltac:(lia)) as (d2 & r & k & E2 & D2 & C2 & T2 & R2).
        -- intros j J. unfold free. rewrite T' by lia. destruct (Z.eq_dec j i) as [->|]; [auto|]. apply Fr. lia.
        -- replace (i + 1 - (cnt + 1) - 1) with (i - cnt - 1) by lia. destruct Mx as [Mx|Mx]; [left; lia|right]. unfold free in *. now rewrite T' by lia.
        -- intros p P P1. destruct (No1 p P P1) as (j & J & Nj). exists j. split; [auto|]. unfold free in *. now rewrite T' by lia.
        -- exists d2, r, k. split; [auto|]. split; [auto|]. split; [lia|]. split; [|auto]. intros j J. rewrite T2 by lia. apply T'. lia.
      * exists d, D_DENIED, i. split; [destruct R as [-> | ->]; auto|]. split; [auto|]. split; [lia|]. split; [auto|]. right. split; [auto|]. split; [auto|]. rewrite <- Ce. auto.
  - assert (Fi : ~ free (tab d) i) by (rewrite <- Fb; discriminate).
    assert (Si : i < sizes l) by (destruct (Z.lt_ge_cases i (sizes l)) as [|G]; [auto|]; exfalso; apply Fi; left; apply (dk_tail _ _ D); lia).
    assert (No1 : forall p, 0 <= p -> p + n <= i + 1 -> exists j, p <= j < p + n /\ ~ free (tab d) j).
    { intros p P P1. destruct (Z.eq_dec (p + n) (i + 1)) as [Pe|]; [|apply No; lia]. exists i. split; [lia|auto]. }
    destruct (stretch_ok d l i D I) as (d' & r & -> & D' & C' & T' & [[-> L]|(R & -> & Ce & Sp)]).
    + destruct (IH d' (i + 1) 0 D' ltac:(lia) ltac:(lia) ltac:(lia) ltac:(lia) ltac:(lia)) as (d2 & r & k & E2 & D2 & C2 & T2 & R2).
      * intros j J. lia.
      * right. replace (i + 1 - 0 - 1) with i by lia. unfold free in *. now rewrite T' by lia.
      * intros p P P1. destruct (No1 p P P1) as (j & J & Nj). exists j. split; [auto|]. unfold free in *. now rewrite T' by lia.
      * exists d2, r, k. split; [auto|]. split; [auto|]. split; [lia|]. split; [|auto]. intros j J. rewrite T2 by lia. apply T'. lia.
    + exists d, D_DENIED, i. split; [destruct R as [-> | ->]; auto|]. split; [auto|]. split; [lia|]. split; [auto|]. right. split; [auto|]. split; [auto|]. rewrite <- Ce. auto.
Qed.
Lemma alloc_ok d l n : dir_ok d l -> 1 <= n -> exists d' r k, dir_alloc d n = Ok (d', r, k) /\ dir_ok d' l /\ cap d <= cap d' /\ (forall j, j < cap d -> tab d' j = tab d j) /\
    ((r = D_OK /\ n - 1 <= k < cap d' /\ k - n + 1 <= sizes l /\ forall j, k - n < j <= k -> free (tab d') j) \/ (r = D_DENIED /\ no_room d' n)).
Proof.
  intros D N. pose proof (dk_cap _ _ D). pose proof (sizes_nonneg l). apply alloc_loop_ok; auto; try lia.
Qed.

(* --- storing the entries ----------------------------------------------------------------- *)

Lemma sum_ext n : forall a b o s, (forall k, o <= k < o + Z.of_nat n -> a k = b k) -> sum_loop n a o s = sum_loop n b o s.
Proof. induction n as [|n IH]; intros a b o s H; cbn [sum_loop]; [auto|]. rewrite (H o) by lia. apply IH. intros. apply H. lia. Qed.
Lemma sum_same a b : short_same a b -> sum_sfn a = sum_sfn b.
Proof. intros H. apply sum_ext. intros. apply H. lia. Qed.
Lemma sum_loop_range n : forall e o s, 0 <= s < 256 -> 0 <= sum_loop n e o s < 256.
Proof. induction n as [|n IH]; intros e o s H; cbn [sum_loop]; [auto|]. apply IH. apply Z.mod_pos_bound. lia. Qed.
Lemma sum_range e : 0 <= sum_sfn e < 256.
Proof. apply sum_loop_range. lia. Qed.

Lemma put_parts_ok w buf sum : name_ok w -> holds buf w -> 0 <= sum < 256 -> forall m d p, Z.of_nat m <= parts w -> 0 <= p -> p + Z.of_nat m < cap d -> cap d <= MAXENT -> (forall j, p <= j < p + Z.of_nat m -> bytes (tab d j)) ->
  exists t, put_parts m d buf p sum = Ok (set_tab d t, D_OK, p + Z.of_nat m) /\ (forall k, 0 <= k < Z.of_nat m -> part_of w (Z.of_nat m - k) sum (t (p + k)) /\ bytes (t (p + k))) /\
    forall j, ~ (p <= j < p + Z.of_nat m) -> t j = tab d j.
Proof.
  intros W H S1. induction m as [|m IH]; intros d p M P C Cm B.
  - cbn [put_parts]. exists (tab d). split; [destruct d; cbn; now rewrite Z.add_0_r|]. split; [lia|auto].
  - cbn [put_parts]. destruct (put_ok w buf (tab d p) (Z.of_nat (S m)) sum W H ltac:(lia) (B p ltac:(lia)) S1) as (e & -> & Pe & Be). cbn [bind].
    set (d1 := set_tab d (set_ent (tab d) p e)). assert (Nx : dir_next d1 p false = (d1, D_OK)).
    { unfold dir_next, d1, MAXENT in *. cbn [cap set_tab]. replace (65536 <=? p + 1) with false by lia. now replace (p + 1 <? cap d) with true by lia. }
    rewrite Nx. destruct (IH d1 (p + 1)) as (t & -> & T1 & T2); [lia|lia|unfold d1; cbn [cap set_tab]; lia|auto| |].
    { intros j J. unfold d1, set_tab, set_ent. cbn [tab]. replace (j =? p) with false by lia. apply B. lia. }
    exists t. split; [replace (p + Z.of_nat (S m)) with (p + 1 + Z.of_nat m) by lia; reflexivity|]. split.
    + intros k K. destruct (Z.eq_dec k 0) as [->|].
      * rewrite Z.add_0_r, Z.sub_0_r, T2 by lia. unfold d1, set_tab, set_ent. cbn [tab]. rewrite Z.eqb_refl. auto.
      * specialize (T1 (k - 1) ltac:(lia)). replace (p + 1 + (k - 1)) with (p + k) in T1 by lia. now replace (Z.of_nat (S m) - k) with (Z.of_nat m - (k - 1)) by lia.
    + intros j J. rewrite T2 by lia. unfold d1, set_tab, set_ent. cbn [tab]. now replace (j =? p) with false by lia.
Qed.

Lemma len_ok x buf : Forall (fun u => 0 < u < 65536) x -> (length x <= 255)%nat -> holds buf x -> name_len (Z.to_nat LFNBUF) buf 0 = Ok (Z.of_nat (length x)).
Proof.
  intros X L [H1 H2]. assert (G : forall n i, 0 <= i <= Z.of_nat (length x) -> (Z.to_nat (Z.of_nat (length x) - i) < n)%nat -> name_len n buf i = Ok (Z.of_nat (length x))).
  { induction n as [|n IH]; intros i I N; [lia|]. cbn [name_len]. unfold rd, LFNBUF. replace ((0 <=? i) && (i <? 256)) with true by lia. cbn [bind].
    destruct (Z.eq_dec i (Z.of_nat (length x))) as [->|E]; [now rewrite H2|]. rewrite H1 by lia. rewrite Forall_forall in X. assert (Y : 0 < nth (Z.to_nat i) x 0 < 65536) by (apply X, nth_In; lia).
    replace (nth (Z.to_nat i) x 0 =? 0) with false by lia. apply IH; lia. }
  apply G; [lia|unfold LFNBUF; lia].
Qed.

(* The layout with a file stored over free entries. *)
Lemma insert_ok d l l1 h l2 w e t : dir_ok d l -> l = l1 ++ repeat Hole h ++ l2 -> Z.of_nat h = parts w + 1 \/ Z.of_nat h < parts w + 1 /\ l2 = [] -> sizes l1 + parts w + 1 <= cap d ->
  stored t (sizes l1) (File w e) -> (forall j, ~ (sizes l1 <= j < sizes l1 + parts w + 1) -> t j = tab d j) -> dir_ok (set_tab d t) (l1 ++ File w e :: l2).
Proof.
  intros D -> Hh Rm St T. pose proof (sizes_nonneg l1). pose proof (sizes_nonneg l2). pose proof (parts_nonneg w). pose proof (dk_room _ _ D) as Rd. pose proof (dk_laid _ _ D) as L. rewrite !sizes_app, sizes_holes in Rd.
  apply laid_app in L. destruct L as [L1 L]. apply laid_app in L. destruct L as [_ L2]. rewrite sizes_holes, Z.add_0_l in L2.
  assert (Tz : l2 = [] -> sizes l2 = 0) by now intros ->.
  constructor; cbn [set_tab tab cap chunk spare]; try apply D.
  - apply laid_app. split; [apply (laid_ext (tab d)); [intros; apply T; lia|auto]|]. cbn [laid size]. rewrite Z.add_0_l. split; [auto|].
    destruct Hh as [Hh|[_ ->]]; [|exact I]. rewrite Z.add_assoc. replace (sizes l1 + Z.of_nat h) with (sizes l1 + parts w + 1) in L2 by lia. apply (laid_ext (tab d)); [intros; apply T; lia|auto].
  - rewrite sizes_app, sizes_cons. cbn [size]. destruct Hh as [Hh|[_ E]]; [|apply Tz in E]; lia.
  - intros j J. rewrite sizes_app, sizes_cons in J. cbn [size] in J. rewrite T by lia. apply (dk_tail _ _ D). rewrite !sizes_app, sizes_holes. destruct Hh as [Hh|[Hh E]]; [|apply Tz in E]; lia.
Qed.

(* --- dir_register ------------------------------------------------------------------------- *)

Theorem register_ok d l fn buf x : dir_ok d l -> fn_ok fn -> name_ok x -> holds buf x -> units buf ->
  let w := if has (fn 11) 2 then x else [] in
  (exists d' i l1 l2 h f e, dir_register d fn buf = Ok (d', D_OK, i) /\ l = l1 ++ repeat Hole h ++ l2 /\ (Z.of_nat h = parts w + 1 \/ l2 = []) /\ dir_ok d' (l1 ++ File w e :: l2) /\ i = sizes l1 + parts w /\ tab d' i = e /\
     new_entry f (fn 11) e /\ (if has (fn 11) 1 then (exists n, 1 <= n < 100 /\ numbered fn n f) /\ Forall (fun g => ~ short_same (snd g) f) (files l) else short_same f fn)) \/
  (exists d' i, dir_register d fn buf = Ok (d', D_DENIED, i) /\ dir_ok d' l /\ (forall j, j < cap d -> tab d' j = tab d j) /\
     ((has (fn 11) 1 = true /\ forall n, 1 <= n < 100 -> exists f, numbered fn n f /\ Exists (fun g => short_same (snd g) f) (files l)) \/ no_room d' (parts w + 1))).
Proof.
  intros D (Bf & F0 & F1 & F2 & F3) X H U w. pose proof X as [Xu Xl]. assert (Xu' : Forall (fun u => 0 < u < 65536) x) by (eapply Forall_impl; [|exact Xu]; unfold unit_ok; intros; lia).
  unfold dir_register. rewrite F3, (len_ok x) by (auto; lia). cbn [bind].
  assert (Wn : w <> [] -> name_ok w /\ holds buf w) by (unfold w; destruct (has (fn 11) 2); [auto|easy]).
  assert (Nm : (if has (fn 11) 2 then (Z.of_nat (length x) + 12) / 13 + 1 else 1) = parts w + 1) by (unfold w; destruct (has (fn 11) 2); auto).
  (* the short name *)
  assert (Sn : (exists f, (if has (fn 11) 1 then number_loop 99 d (upd fn 11 64) fn buf 1 else Ok (inl fn)) = Ok (inl f) /\ bytes f /\ f 0 <> 0 /\ f 0 <> DDEM /\ f 0 <> 46 /\
        (if has (fn 11) 1 then (exists n, 1 <= n < 100 /\ numbered fn n f) /\ Forall (fun g => ~ short_same (snd g) f) (files l) else short_same f fn)) \/
      ((if has (fn 11) 1 then number_loop 99 d (upd fn 11 64) fn buf 1 else Ok (inl fn)) = Ok (inr D_DENIED) /\ has (fn 11) 1 = true /\ forall n, 1 <= n < 100 -> exists f, numbered fn n f /\ Exists (fun g => short_same (snd g) f) (files l))).
  { destruct (has (fn 11) 1).
    - destruct (number_ok d l fn buf x D U Xu' ltac:(lia) H Bf 99 1 (upd fn 11 64)) as [(f & m & E & M & N1 & N2 & N3)|[E N]]; [apply upd_bytes; [auto|lia]|apply upd_same|lia|lia| |].
      + left. exists f. split; [auto|]. split; [auto|]. pose proof (numbered_first _ _ _ N1) as Nf. unfold DDEM in *. split; [lia|]. split; [lia|]. split; [lia|]. split; [|auto]. exists m. auto.
      + right. auto.
    - left. exists fn. repeat (split; [auto|]). intros k K. auto. }
  destruct Sn as [(f & -> & B & G0 & G1 & G2 & Sn)|(-> & Sn1 & Sn2)]; cbn [bind]; [|right; exists d, 0; split; [auto|]; split; [auto|]; split; [auto|left; auto]].
  set (g := upd f 11 (fn 11)). rewrite Nm. pose proof (parts_nonneg w) as Pw.
  destruct (alloc_ok d l (parts w + 1) D ltac:(lia)) as (d1 & r & k & -> & D1 & C1 & T1 & [(-> & K & Ks & Fr)|[-> R]]); cbn [bind]; [|right; exists d1, k; auto 6].
  set (s := k - parts w) in *. pose proof (dk_cap _ _ D1) as Cp.
  destruct (free_run (tab d1) l 0 s (Z.to_nat (parts w + 1)) (dk_laid _ _ D1) ltac:(lia) ltac:(right; lia)) as (l1 & h & l2 & El & Es & Hh); [intros j J; apply Fr; lia|]. rewrite Z.add_0_l in Es.
  pose proof (all_bytes d1 l D1) as Ab.
  assert (Bg : bytes g) by (apply upd_bytes; [auto|apply Bf]).
  assert (Pp : exists t, (if parts w + 1 =? 1 then Ok (d1, D_OK, k) else if k - (parts w + 1 - 1) <? 0 then Ok (d1, D_INT_ERR, k) else put_parts (Z.to_nat (parts w + 1 - 1)) d1 buf (k - (parts w + 1 - 1)) (sum_sfn g)) = Ok (set_tab d1 t, D_OK, k) /\
      (forall j, 0 <= j < parts w -> part_of w (parts w - j) (sum_sfn g) (t (s + j)) /\ bytes (t (s + j))) /\ forall j, ~ (s <= j < s + parts w) -> t j = tab d1 j).
  { destruct (Z.eqb_spec (parts w + 1) 1) as [Q|Q]; [exists (tab d1); split; [now destruct d1|]; split; [lia|auto]|].
    destruct Wn as [Wn Wh]; [intros ->; rewrite parts_nil in *; lia|].
    replace (k - (parts w + 1 - 1)) with s by lia. replace (s <? 0) with false by lia. replace (parts w + 1 - 1) with (parts w) by lia.
    destruct (put_parts_ok w buf (sum_sfn g) Wn Wh (sum_range g) (Z.to_nat (parts w)) d1 s) as (t & E & P1 & P2); [lia|lia|lia|lia|intros j J; apply Ab; lia|].
    rewrite Z2Nat.id in * by lia. exists t. split; [rewrite E; repeat f_equal; lia|]. auto. }
  destruct Pp as (t & -> & P1 & P2). cbn [bind]. left.
  set (e := fun j => if (0 <=? j) && (j <? 11) then g j else if j =? 12 then Z.land (g 11) 24 else if (0 <=? j) && (j <? 32) then 0 else tab (set_tab d1 t) k j).
  assert (Eg : short_same e g) by (intros j J; unfold e; now replace ((0 <=? j) && (j <? 11)) with true by lia).
  assert (Gf : short_same g f) by (intros j J; unfold g; apply upd_other; lia).
  assert (Ge : g 11 = fn 11) by apply upd_same.
  assert (Be : bytes e).
  { intros j. unfold e. destruct (_ && _); [apply Bg|]. destruct (j =? 12).
    - pose proof (byte_all (fun x => (0 <=? Z.land x 24) && (Z.land x 24 <? 256)) eq_refl (g 11) (Bg 11)). cbv beta in *. lia.
    - destruct (_ && _); [lia|]. cbn [tab set_tab]. rewrite P2 by lia. apply Ab. lia. }
  assert (E0 : e 0 = f 0) by (rewrite Eg by lia; apply Gf; lia).
  do 2 eexists. exists l1, l2, h, f, e. split; [reflexivity|]. split; [auto|]. split; [destruct Hh as [Hh|[_ Hh]]; [left; lia|right; exact Hh]|]. cbn [tab set_tab].
  split; [|split; [lia|split; [unfold set_ent; now rewrite Z.eqb_refl|split; [|auto]]]].
  - change (dir_ok (set_tab d1 (set_ent t k e)) (l1 ++ File w e :: l2)). apply (insert_ok d1 l l1 h); [auto|auto|destruct Hh as [Hh|[Hh Hl]]; [left; lia|right; split; [lia|exact Hl]]|lia| |].
    + cbn [stored]. rewrite Es. replace (s + parts w) with k by lia. unfold set_ent at 1. rewrite Z.eqb_refl. split; [auto|].
      split; [split; [auto|]; rewrite E0; split; [auto|]; split; [auto|]; unfold e; reflexivity|].
      intros W. destruct (Wn W) as [Wn1 _]. split; [auto|]. split; [rewrite E0; auto|]. intros j J. unfold set_ent. replace (s + j =? k) with false by lia. rewrite (sum_same e g Eg). auto.
    + intros j J. unfold set_ent. destruct (Z.eqb_spec j k); [lia|]. apply P2. lia.
  - split; [intros j J; rewrite Eg by auto; auto|]. split; [reflexivity|]. split; [unfold e; now rewrite <- Ge|]. intros j J. unfold e. replace ((0 <=? j) && (j <? 11)) with false by lia. replace (j =? 12) with false by lia. now replace ((0 <=? j) && (j <? 32)) with true by lia.
Qed.

(* --- dir_remove --------------------------------------------------------------------------- *)

Lemma remove_loop_ok last : forall n d j, 0 <= j <= last -> last < cap d -> cap d <= MAXENT -> (Z.to_nat (last - j) < n)%nat ->
  exists t, remove_loop n d j last = Ok (set_tab d t, D_OK) /\ (forall i, j <= i <= last -> t i = upd (tab d i) 0 DDEM) /\ forall i, ~ (j <= i <= last) -> t i = tab d i.
Proof.
  induction n as [|n IH]; intros d j J L C N; [lia|]. cbn [remove_loop]. set (d1 := set_tab d (set_ent (tab d) j (upd (tab d j) 0 DDEM))).
  destruct (Z.leb_spec last j) as [Q|Q].
  - exists (set_ent (tab d) j (upd (tab d j) 0 DDEM)). split; [auto|]. split; intros i I; unfold set_ent.
    + replace i with j by lia. now rewrite Z.eqb_refl.
    + now replace (i =? j) with false by lia.
  - assert (Nx : dir_next d1 j false = (d1, D_OK)).
    { unfold dir_next, d1, MAXENT in *. cbn [cap set_tab]. replace (65536 <=? j + 1) with false by lia. now replace (j + 1 <? cap d) with true by lia. }
    rewrite Nx. destruct (IH d1 (j + 1)) as (t & -> & T1 & T2); [lia|unfold d1; cbn; lia|auto|lia|]. exists t. split; [auto|]. split.
    + intros i I. destruct (Z.eq_dec i j) as [->|].
      * rewrite T2 by lia. unfold d1, set_tab, set_ent. cbn [tab]. now rewrite Z.eqb_refl.
      * rewrite T1 by lia. unfold d1, set_tab, set_ent. cbn [tab]. now replace (i =? j) with false by lia.
    + intros i I. rewrite T2 by lia. unfold d1, set_tab, set_ent. cbn [tab]. now replace (i =? j) with false by lia.
Qed.

Lemma holes_laid t n : forall p, (forall j, p <= j < p + Z.of_nat n -> bytes (t j) /\ t j 0 = DDEM) -> laid t p (repeat Hole n).
Proof.
  induction n as [|n IH]; intros p H; cbn [repeat laid]; [auto|]. split; [apply H; lia|]. cbn [size]. apply IH. intros. apply H. lia.
Qed.

Theorem remove_ok d l1 w e l2 : dir_ok d (l1 ++ File w e :: l2) -> exists d', dir_remove d (sizes l1 + parts w) (read_blk w (sizes l1)) = Ok (d', D_OK) /\ dir_ok d' (l1 ++ repeat Hole (Z.to_nat (parts w + 1)) ++ l2).
Proof.
  intros D. pose proof (parts_nonneg w) as Pw. pose proof (sizes_nonneg l1) as S1. pose proof (sizes_nonneg l2) as S2. pose proof (dk_cap _ _ D) as C. pose proof (dk_room _ _ D) as Rm. rewrite sizes_app, sizes_cons in Rm. cbn [size] in Rm.
  unfold dir_remove. assert (St : (if read_blk w (sizes l1) =? NONE then sizes l1 + parts w else read_blk w (sizes l1)) = sizes l1).
  { unfold read_blk, NONE, MAXENT in *. destruct w as [|u w]; [rewrite parts_nil; change (4294967295 =? 4294967295) with true; cbv iota; lia|]. now replace (sizes l1 =? 4294967295) with false by lia. }
  rewrite St. destruct (remove_loop_ok (sizes l1 + parts w) (Z.to_nat (cap d)) d (sizes l1)) as (t & -> & T1 & T2); [lia|lia|lia|lia|].
  eexists. split; [reflexivity|]. pose proof (all_bytes _ _ D) as Ab. pose proof (dk_laid _ _ D) as L. apply laid_app in L. destruct L as [L1 [_ L2]]. cbn [size] in L2. rewrite Z.add_0_l in L2.
  assert (Sz : sizes (l1 ++ repeat Hole (Z.to_nat (parts w + 1)) ++ l2) = sizes (l1 ++ File w e :: l2)) by (rewrite !sizes_app, sizes_cons, sizes_holes; cbn [size]; lia).
  constructor; cbn [set_tab tab cap chunk spare]; rewrite ?Sz; try apply D.
  - apply laid_app. split; [apply (laid_ext (tab d)); [intros; apply T2; lia|auto]|]. rewrite Z.add_0_l. apply laid_app. split.
    + apply holes_laid. intros j J. rewrite T1 by lia. split; [apply upd_bytes; [apply Ab; lia|unfold DDEM; lia]|apply upd_same].
    + rewrite sizes_holes. replace (sizes l1 + Z.of_nat (Z.to_nat (parts w + 1))) with (sizes l1 + (parts w + 1)) by lia. apply (laid_ext (tab d)); [intros; apply T2; lia|auto].
  - intros j J. pose proof J as J'. rewrite sizes_app, sizes_cons in J'. cbn [size] in J'. rewrite T2 by lia. now apply (dk_tail _ _ D).
Qed.
