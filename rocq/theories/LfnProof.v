(* Long name entries: storing, recovering and matching. *)
From Coq Require Import ZifyClasses ZifyInst ZifyBool.
From Verif Require Import Base FutfModel FutfSpec FutfProof LfnModel LfnSpec.
Open Scope Z_scope.
Ltac Zify.zify_post_hook ::= Z.div_mod_to_equations.

Lemma upper_zero c : 0 <= c < 65536 -> upper c = 0 -> c = 0.
Proof.
  intros H E. destruct (upper_ok c H) as (_ & _ & _ & H1 & H2 & _). destruct (Z.ltb_spec c 128); [rewrite H2 in E by lia|lia].
  destruct ((97 <=? c) && (c <=? 122)) eqn:Q; lia.
Qed.
Lemma upper_0 : upper 0 = 0.
Proof. reflexivity. Qed.

Lemma upd_same f a v : upd f a v a = v.
Proof. unfold upd. now rewrite Z.eqb_refl. Qed.
Lemma upd_other f a v x : x <> a -> upd f a v x = f x.
Proof. unfold upd. intros. now replace (x =? a) with false by lia. Qed.
Lemma st_other e o x p : p <> o -> p <> o + 1 -> st_word e o x p = e p.
Proof. intros. unfold st_word. now rewrite !upd_other by lia. Qed.
Lemma st_ld e o x : 0 <= x < 65536 -> ld_word (st_word e o x) o = x.
Proof. intros. unfold ld_word, st_word. rewrite upd_same, upd_other, upd_same by lia. lia. Qed.
Lemma st_ld_other e o x p : p + 1 < o \/ o + 1 < p -> ld_word (st_word e o x) p = ld_word e p.
Proof. intros. unfold ld_word. now rewrite !st_other by lia. Qed.
Lemma st_bytes e o x : bytes e -> bytes (st_word e o x).
Proof. intros B p. unfold st_word, upd. destruct (p =? o + 1), (p =? o); try lia; apply B. Qed.
Lemma ld_range e o : bytes e -> 0 <= ld_word e o < 65536.
Proof. intros B. unfold ld_word. pose proof (B o). pose proof (B (o + 1)). lia. Qed.
Lemma upd_bytes e o x : bytes e -> 0 <= x < 256 -> bytes (upd e o x).
Proof. intros B X p. unfold upd. destruct (p =? o); [lia|apply B]. Qed.

(* --- any entry: no access outside the buffer ------------------------------------- *)

Lemma cmp_loop_safe ofs : forall e buf i wc, bytes e -> units buf -> 0 <= i ->
  exists r, cmp_loop ofs e buf i wc = Ok r /\ forall i' wc', r = Some (i', wc') -> 0 <= i' <= i + Z.of_nat (length ofs) /\ (wc' <> 0 -> i' = i + Z.of_nat (length ofs) /\ (ofs = [] \/ i' <= 256)).
Proof.
  induction ofs as [|o ofs IH]; intros e buf i wc B U I; cbn [cmp_loop].
  - eexists. split; [reflexivity|]. intros i' wc' [= <- <-]. cbn [length]. split; [lia|]. intros _. split; [lia|auto].
  - destruct (Z.eqb_spec wc 0) as [->|W]; cbn [negb].
    + destruct (ld_word e o =? 65535); cbn [negb]; [|eexists; split; [reflexivity|discriminate]].
      destruct (IH e buf i 0 B U I) as (r & E & H). exists r. split; [auto|]. intros i' wc' X. destruct (H i' wc' X) as [H1 H2]. cbn [length]. split; [lia|].
      intros W. exfalso. clear - X E W. revert X. revert E. revert i r. induction ofs as [|o' ofs IH]; intros i r E X; cbn in E.
      * inversion E; subst. inversion H0; subst. auto.
      * change (0 =? 0) with true in E. cbn [negb] in E. destruct (ld_word e o' =? 65535); cbn [negb] in E; [eauto|]. inversion E; subst. discriminate.
    + unfold LFNBUF. destruct (Z.leb_spec 256 i) as [L|L]; [eexists; split; [reflexivity|discriminate]|].
      unfold rd, LFNBUF. replace ((0 <=? i) && (i <? 256)) with true by lia. cbn [bind].
      destruct (upper_ok _ (ld_range e o B)) as (E1 & _). destruct (upper_ok _ (U i)) as (E2 & _). rewrite E1, E2. cbn [bind].
      destruct (upper (ld_word e o) =? upper (buf i)); cbn [negb]; [|eexists; split; [reflexivity|discriminate]].
      destruct (IH e buf (i + 1) (ld_word e o) B U ltac:(lia)) as (r & E & H). exists r. split; [auto|]. intros i' wc' X. destruct (H i' wc' X) as [H1 H2]. cbn [length]. split; [lia|].
      intros W'. destruct (H2 W') as [H3 H4]. split; [lia|]. right. destruct H4 as [->|H4]; [cbn in H3; lia|lia].
Qed.

Lemma cmp_safe buf e : bytes e -> units buf -> exists b, cmp_lfn buf e = Ok b.
Proof.
  intros B U. unfold cmp_lfn. destruct (negb (ld_word e 26 =? 0)); [eauto|].
  set (a := Z.land (e 0) 63). assert (A : 0 <= a < 64) by (unfold a; change 63 with (Z.ones 6); rewrite Z.land_ones by lia; apply Z.mod_pos_bound; lia).
  assert (I : 0 <= u32 ((a - 1) * 13)) by (apply Z.mod_pos_bound; lia).
  destruct (cmp_loop_safe LfnOfs e buf _ 1 B U I) as (r & E & H). rewrite E. cbn [bind]. destruct r as [[i wc]|]; [|eauto].
  destruct (Z.eqb_spec wc 0) as [->|W]; [rewrite andb_false_r; eauto|]. destruct (H i wc eq_refl) as [_ H2]. destruct (H2 W) as [H3 [H4|H4]]; [discriminate|].
  assert (Hi : 0 <= i < 256).
  { clear - A H3 H4. change (Z.of_nat (length LfnOfs)) with 13 in H3. unfold u32 in *. clearbody a. destruct (Z.eq_dec a 0) as [->|].
    - change ((0 - 1) * 13 mod 4294967296) with 4294967283 in H3. lia.
    - rewrite Z.mod_small in H3 by lia. lia. }
  unfold rd, LFNBUF. replace ((0 <=? i) && (i <? 256)) with true by lia. cbn [bind]. destruct (negb (Z.land (e 0) 64 =? 0) && negb false); eauto.
Qed.

Lemma pick_loop_safe ofs : forall e buf i wc, bytes e -> 0 <= i -> exists buf' r, pick_loop ofs e buf i wc = Ok (buf', r) /\
  (forall i' wc', r = Some (i', wc') -> 0 <= i') /\ (units buf -> units buf').
Proof.
  induction ofs as [|o ofs IH]; intros e buf i wc B I; cbn [pick_loop].
  - exists buf, (Some (i, wc)). split; [auto|]. split; [|auto]. intros i' wc' [= <- <-]. auto.
  - destruct (negb (wc =? 0)).
    + unfold LFNBUF. destruct (Z.leb_spec 256 i) as [L|L]; [exists buf, None; split; [auto|]; split; [discriminate|auto]|].
      unfold wr, LFNBUF. replace ((0 <=? i) && (i <? 256)) with true by lia. cbn [bind].
      destruct (IH e (upd buf i (ld_word e o)) (i + 1) (ld_word e o) B ltac:(lia)) as (buf' & r & E & H1 & H2). exists buf', r. split; [auto|]. split; [auto|].
      intros U. apply H2. intros j. unfold upd. destruct (j =? i); [now apply ld_range|apply U].
    + destruct (ld_word e o =? 65535); cbn [negb]; [apply IH; auto|]. exists buf, None. split; [auto|]. split; [discriminate|auto].
Qed.
Lemma pick_safe buf e : bytes e -> exists buf' b, pick_lfn buf e = Ok (buf', b) /\ (units buf -> units buf').
Proof.
  intros B. unfold pick_lfn. destruct (negb (ld_word e 26 =? 0)); [eauto|].
  assert (I : 0 <= u32 ((Z.land (e 0) 191 - 1) * 13)) by (apply Z.mod_pos_bound; lia).
  destruct (pick_loop_safe LfnOfs e buf _ 1 B I) as (buf' & r & E & H1 & H2). rewrite E. cbn [bind]. destruct r as [[i wc]|]; [|eauto].
  destruct (negb (Z.land (e 0) 64 =? 0) && negb (wc =? 0)); [|eauto]. unfold LFNBUF. destruct (Z.leb_spec 256 i); [eauto|].
  unfold wr, LFNBUF. pose proof (H1 i wc eq_refl). replace ((0 <=? i) && (i <? 256)) with true by lia. cbn [bind].
  exists (upd buf' i 0), true. split; [auto|]. intros U j. unfold upd. destruct (j =? i); [lia|now apply H2].
Qed.

(* --- storing ------------------------------------------------------------------------ *)

Fixpoint spread (ofs : list Z) : Prop :=
  match ofs with
  | [] => True
  | o :: t => Forall (fun p => o + 1 < p) t /\ spread t
  end.
Lemma ofs_spread : spread LfnOfs.
Proof. cbn. repeat split; repeat constructor; lia. Qed.

Lemma unit_range w j : Forall unit_ok w -> 0 <= j -> 0 <= unit_at w j < 65536 /\ (j < Z.of_nat (length w) -> unit_ok (unit_at w j)).
Proof.
  intros F J. unfold unit_at. destruct (Z.ltb_spec j (Z.of_nat (length w))) as [L|L].
  - rewrite Forall_forall in F. assert (U : unit_ok (nth (Z.to_nat j) w 0)) by (apply F, nth_In; lia). unfold unit_ok in *. lia.
  - destruct (j =? Z.of_nat (length w)); lia.
Qed.
Lemma holds_unit buf w j : holds buf w -> 0 <= j <= Z.of_nat (length w) -> buf j = unit_at w j.
Proof.
  intros [H1 H2] J. unfold unit_at. destruct (Z.ltb_spec j (Z.of_nat (length w))); [apply H1; lia|].
  replace j with (Z.of_nat (length w)) by lia. now rewrite Z.eqb_refl.
Qed.

(* In the loop: k units have been stored; i and wc follow. *)
Definition put_i (w : list Z) (k : Z) : Z := Z.min k (Z.of_nat (length w) + 1).
Definition put_wc (w : list Z) (start k : Z) : Z := if k =? start then 0 else if Z.of_nat (length w) <? k then 65535 else unit_at w (k - 1).

Lemma put_loop_ok w lfn start : name_ok w -> holds lfn w -> 0 <= start < Z.of_nat (length w) -> forall ofs e k, spread ofs -> start <= k ->
  exists e', put_loop ofs lfn e (put_i w k) (put_wc w start k) = Ok (e', put_i w (k + Z.of_nat (length ofs)), put_wc w start (k + Z.of_nat (length ofs))) /\
    (forall s, 0 <= s < Z.of_nat (length ofs) -> ld_word e' (nth (Z.to_nat s) ofs 0) = unit_at w (k + s)) /\
    (forall p, Forall (fun o => p <> o /\ p <> o + 1) ofs -> e' p = e p) /\ (bytes e -> bytes e').
Proof.
  intros [Wf Wl] H St. induction ofs as [|o ofs IH]; intros e k Sp K; cbn [put_loop].
  - exists e. cbn [length]. rewrite !Z.add_0_r. split; [auto|]. split; [cbn; lia|]. auto.
  - destruct Sp as [S1 S2].
    assert (E : (if negb (put_wc w start k =? 65535) then x <- rd lfn (put_i w k) ;; Ok (x, put_i w k + 1) else Ok (put_wc w start k, put_i w k)) = Ok (unit_at w k, put_i w (k + 1))).
    { unfold put_wc, put_i. destruct (Z.ltb_spec (Z.of_nat (length w)) k) as [L|L].
      - replace (k =? start) with false by lia. change (negb (65535 =? 65535)) with false. cbv iota. unfold unit_at. replace (k <? Z.of_nat (length w)) with false by lia. replace (k =? Z.of_nat (length w)) with false by lia. do 2 f_equal. lia.
      - replace (negb ((if k =? start then 0 else unit_at w (k - 1)) =? 65535)) with true.
        2: { destruct (k =? start) eqn:Q; [auto|]. assert (U : unit_ok (unit_at w (k - 1))) by (apply unit_range; auto; lia). unfold unit_ok in U. lia. }
        unfold rd, LFNBUF. replace ((0 <=? Z.min k (Z.of_nat (length w) + 1)) && (Z.min k (Z.of_nat (length w) + 1) <? 256)) with true by lia. cbn [bind].
        replace (Z.min k (Z.of_nat (length w) + 1)) with k by lia. rewrite (holds_unit lfn w k H) by lia. do 2 f_equal. lia. }
    rewrite E. cbn [bind]. clear E.
    replace (if unit_at w k =? 0 then 65535 else unit_at w k) with (put_wc w start (k + 1)).
    2: { unfold put_wc. replace (k + 1 =? start) with false by lia. replace (k + 1 - 1) with k by lia. destruct (Z.ltb_spec (Z.of_nat (length w)) (k + 1)) as [L|L].
         - unfold unit_at. replace (k <? Z.of_nat (length w)) with false by lia. destruct (k =? Z.of_nat (length w)); auto.
         - assert (U : unit_ok (unit_at w k)) by (apply unit_range; auto; lia). unfold unit_ok in U. replace (unit_at w k =? 0) with false by lia. auto. }
    destruct (IH (st_word e o (unit_at w k)) (k + 1) S2 ltac:(lia)) as (e' & E & U & N & B). exists e'.
    replace (k + Z.of_nat (length (o :: ofs))) with (k + 1 + Z.of_nat (length ofs)) by (cbn [length]; lia). split; [auto|].
    rewrite Forall_forall in S1. split; [|split].
    + intros s Hs. destruct (Z.eq_dec s 0) as [->|Ns].
      * change (nth (Z.to_nat 0) (o :: ofs) 0) with o. unfold ld_word. rewrite !N; try (apply Forall_forall; intros p Hp; apply S1 in Hp; lia).
        change (ld_word (st_word e o (unit_at w k)) o = unit_at w (k + 0)). rewrite Z.add_0_r. apply st_ld. apply unit_range; auto; lia.
      * replace (Z.to_nat s) with (S (Z.to_nat (s - 1))) by lia. cbn [nth]. rewrite U by (cbn [length] in Hs; lia). f_equal. lia.
    + intros p Fp. inversion Fp as [|? ? F1 F2]; subst. rewrite N by auto. apply st_other; lia.
    + intros Be. apply B. now apply st_bytes.
Qed.

Lemma lor_64 n : 0 <= n < 64 -> Z.lor n 64 = n + 64.
Proof.
  intros H. assert (E : forallb (fun n => Z.lor n 64 =? n + 64) (map Z.of_nat (seq 0 64)) = true) by reflexivity.
  rewrite forallb_forall in E. apply Z.eqb_eq, E, in_map_iff. exists (Z.to_nat n). split; [lia|]. apply in_seq. lia.
Qed.

Lemma parts_range w : name_ok w -> 1 <= parts w <= 20.
Proof. intros [_ L]. unfold parts. lia. Qed.

Lemma put_ok w lfn e ord sum : name_ok w -> holds lfn w -> 1 <= ord <= parts w -> bytes e -> 0 <= sum < 256 ->
  exists e', put_lfn lfn e ord sum = Ok e' /\ part_of w ord sum e' /\ bytes e'.
Proof.
  intros W H O B S1. pose proof (parts_range w W) as P. pose proof W as [Wf Wl].
  assert (St : 0 <= (ord - 1) * 13 < Z.of_nat (length w)) by (unfold parts in O; lia).
  unfold put_lfn. set (e1 := st_word (upd (upd (upd e 13 sum) 11 15) 12 0) 26 0).
  destruct (put_loop_ok w lfn ((ord - 1) * 13) W H St LfnOfs e1 ((ord - 1) * 13) ofs_spread ltac:(lia)) as (e2 & E & U & N & B2).
  assert (B1 : bytes e1) by (apply st_bytes; repeat apply upd_bytes; auto; lia).
  replace (put_i w ((ord - 1) * 13)) with (u32 ((ord - 1) * 13)) in E by (unfold put_i, u32; rewrite Z.mod_small by lia; lia).
  replace (put_wc w ((ord - 1) * 13) ((ord - 1) * 13)) with 0 in E by (unfold put_wc; now rewrite Z.eqb_refl). rewrite E. cbn [bind]. clear E.
  change (Z.of_nat (length LfnOfs)) with 13 in *. replace ((ord - 1) * 13 + 13) with (ord * 13) by lia.
  assert (Ls : (if put_wc w ((ord - 1) * 13) (ord * 13) =? 65535 then Ok true else x <- rd lfn (put_i w (ord * 13)) ;; Ok (x =? 0)) = Ok (ord =? parts w)).
  { unfold put_wc, put_i. replace (ord * 13 =? (ord - 1) * 13) with false by lia. destruct (Z.ltb_spec (Z.of_nat (length w)) (ord * 13)) as [L|L].
    - change (65535 =? 65535) with true. cbv iota. f_equal. unfold parts in *. lia.
    - assert (U' : unit_ok (unit_at w (ord * 13 - 1))) by (apply unit_range; auto; lia). unfold unit_ok in U'. replace (unit_at w (ord * 13 - 1) =? 65535) with false by lia.
      replace (Z.min (ord * 13) (Z.of_nat (length w) + 1)) with (ord * 13) by lia. unfold rd, LFNBUF. replace ((0 <=? ord * 13) && (ord * 13 <? 256)) with true by lia. cbn [bind].
      f_equal. rewrite (holds_unit lfn w _ H) by lia. destruct (Z.eq_dec (ord * 13) (Z.of_nat (length w))) as [Q|Q].
      + unfold unit_at. rewrite Q, Z.ltb_irrefl, Z.eqb_refl. unfold parts. lia.
      + assert (U2 : unit_ok (unit_at w (ord * 13))) by (apply unit_range; auto; lia). unfold unit_ok in U2. unfold parts. lia. }
  rewrite Ls. cbn [bind]. eexists. split; [reflexivity|].
  assert (K : forall p, In p [11; 12; 13; 26; 27] -> e2 p = e1 p) by (intros p Hp; apply N; unfold LfnOfs; repeat constructor; cbn in Hp; lia).
  split; [|destruct (ord =? parts w); [rewrite lor_64 by lia|]; apply upd_bytes; auto; lia].
  constructor.
  - rewrite upd_same. destruct (ord =? parts w); [apply lor_64; lia|auto].
  - rewrite upd_other, K by (cbn; lia). unfold e1. rewrite st_other by lia. rewrite upd_other, upd_same by lia. auto.
  - rewrite upd_other, K by (cbn; lia). unfold e1. rewrite st_other by lia. now rewrite upd_same.
  - rewrite upd_other, K by (cbn; lia). unfold e1. rewrite st_other by lia. rewrite !upd_other, upd_same by lia. auto.
  - unfold ld_word. rewrite !upd_other by lia. rewrite !K by (cbn; lia). unfold e1. change (ld_word (st_word (upd (upd (upd e 13 sum) 11 15) 12 0) 26 0) 26 = 0). apply st_ld. lia.
  - intros s Hs. rewrite <- U by auto. unfold ld_word.
    assert (X : 0 < nth (Z.to_nat s) LfnOfs 0). { assert (F : Forall (fun o => 0 < o) LfnOfs) by (repeat constructor; lia). rewrite Forall_forall in F. apply F, nth_In. change (length LfnOfs) with 13%nat. lia. }
    rewrite !upd_other by lia. auto.
Qed.

Lemma if_same {A} (a b : bool) (x y : A) : a = b -> (if a then x else y) = (if b then x else y).
Proof. now intros ->. Qed.

(* --- picking -------------------------------------------------------------------------- *)

Lemma pick_loop_ok w start n e : name_ok w -> 0 <= start < Z.of_nat (length w) -> forall ofs buf k wc, start <= k ->
  (forall s, 0 <= s < Z.of_nat (length ofs) -> ld_word e (nth (Z.to_nat s) ofs 0) = unit_at w (k + s)) -> (wc = 0 <-> Z.of_nat (length w) < k) -> n = k + Z.of_nat (length ofs) ->
  exists buf' wc', pick_loop ofs e buf (put_i w k) wc = Ok (buf', Some (put_i w n, wc')) /\ (wc' = 0 <-> Z.of_nat (length w) < n) /\
    (forall j, buf' j = if (k <=? j) && (j <? n) && (j <=? Z.of_nat (length w)) then unit_at w j else buf j).
Proof.
  intros [Wf Wl] St. induction ofs as [|o ofs IH]; intros buf k wc K U Hw Hn; cbn [pick_loop length] in *.
  - exists buf, wc. replace n with k by lia. split; [auto|]. split; [auto|]. intros j. now replace ((k <=? j) && (j <? k) && (j <=? Z.of_nat (length w))) with false by lia.
  - pose proof (U 0 ltac:(lia)) as U0. change (nth (Z.to_nat 0) (o :: ofs) 0) with o in U0. rewrite Z.add_0_r in U0. rewrite U0.
    assert (U' : forall s, 0 <= s < Z.of_nat (length ofs) -> ld_word e (nth (Z.to_nat s) ofs 0) = unit_at w (k + 1 + s)).
    { intros s Hs. specialize (U (s + 1) ltac:(lia)). replace (Z.to_nat (s + 1)) with (S (Z.to_nat s)) in U by lia. cbn [nth] in U. rewrite U. f_equal. lia. }
    destruct (Z.eqb_spec wc 0) as [->|W0]; cbn [negb].
    + assert (L : Z.of_nat (length w) < k) by tauto. unfold unit_at. replace (k <? Z.of_nat (length w)) with false by lia. replace (k =? Z.of_nat (length w)) with false by lia.
      change (negb (65535 =? 65535)) with false. cbv iota. destruct (IH buf (k + 1) 0 ltac:(lia) U' ltac:(lia) ltac:(lia)) as (buf' & wc' & E & H1 & H2).
      replace (put_i w (k + 1)) with (put_i w k) in E by (unfold put_i; lia). exists buf', wc'. split; [auto|]. split; [auto|]. intros j. rewrite H2.
      now replace ((k + 1 <=? j) && (j <? n) && (j <=? Z.of_nat (length w))) with false by lia; replace ((k <=? j) && (j <? n) && (j <=? Z.of_nat (length w))) with false by lia.
    + assert (L : k <= Z.of_nat (length w)) by lia. unfold wr, LFNBUF. replace (put_i w k) with k by (unfold put_i; lia). replace (256 <=? k) with false by lia. replace ((0 <=? k) && (k <? 256)) with true by lia. cbn [bind].
      assert (Uz : unit_at w k = 0 <-> Z.of_nat (length w) < k + 1).
      { destruct (Z.eq_dec k (Z.of_nat (length w))) as [Q|Q]; [unfold unit_at; rewrite Q, Z.ltb_irrefl, Z.eqb_refl; lia|].
        assert (Ux : unit_ok (unit_at w k)) by (apply unit_range; auto; lia). unfold unit_ok in Ux. lia. }
      destruct (IH (upd buf k (unit_at w k)) (k + 1) (unit_at w k) ltac:(lia) U' Uz ltac:(lia)) as (buf' & wc' & E & H1 & H2).
      replace (put_i w (k + 1)) with (k + 1) in E by (unfold put_i; lia). exists buf', wc'. split; [auto|]. split; [auto|]. intros j. rewrite H2.
      unfold upd. destruct (Z.eqb_spec j k) as [->|Q].
      * now replace ((k + 1 <=? k) && (k <? n) && (k <=? Z.of_nat (length w))) with false by lia; replace ((k <=? k) && (k <? n) && (k <=? Z.of_nat (length w))) with true by lia.
      * now replace ((k + 1 <=? j) && (j <? n) && (j <=? Z.of_nat (length w))) with ((k <=? j) && (j <? n) && (j <=? Z.of_nat (length w))) by lia.
Qed.

Lemma ord_bits w ord sum e : name_ok w -> 1 <= ord <= parts w -> part_of w ord sum e ->
  Z.land (e 0) 63 = ord /\ Z.land (e 0) 191 = ord /\ negb (Z.land (e 0) 64 =? 0) = (ord =? parts w).
Proof.
  intros W O P. pose proof (parts_range w W) as R. rewrite (po_ord _ _ _ _ P).
  assert (F : forallb (fun n => (Z.land n 63 =? n) && (Z.land n 191 =? n) && (Z.land n 64 =? 0) && (Z.land (n + 64) 63 =? n) && (Z.land (n + 64) 191 =? n) && negb (Z.land (n + 64) 64 =? 0)) (map Z.of_nat (seq 0 64)) = true) by reflexivity.
  rewrite forallb_forall in F. specialize (F ord). rewrite in_map_iff in F.
  assert (X : exists x, Z.of_nat x = ord /\ In x (seq 0 64)) by (exists (Z.to_nat ord); split; [lia|apply in_seq; lia]). apply F in X.
  rewrite !andb_true_iff in X. destruct X as [[[[[X1 X2] X3] X4] X5] X6]. destruct (ord =? parts w); repeat split; try lia; auto.
Qed.

Lemma pick_ok w ord sum e buf : name_ok w -> 1 <= ord <= parts w -> part_of w ord sum e ->
  exists buf', pick_lfn buf e = Ok (buf', true) /\
    forall j, buf' j = if (((ord - 1) * 13 <=? j) && (j <? ord * 13) && (j <? Z.of_nat (length w))) || ((ord =? parts w) && (j =? Z.of_nat (length w))) then unit_at w j else buf j.
Proof.
  intros W O P. pose proof (parts_range w W) as R. pose proof W as [Wf Wl]. destruct (ord_bits w ord sum e W O P) as (O1 & O2 & O3).
  unfold pick_lfn. rewrite (po_zero _ _ _ _ P). change (negb (0 =? 0)) with false. cbv iota. rewrite O2, O3.
  assert (St : 0 <= (ord - 1) * 13 < Z.of_nat (length w)) by (unfold parts in O; lia).
  destruct (pick_loop_ok w ((ord - 1) * 13) (ord * 13) e W St LfnOfs buf ((ord - 1) * 13) 1 ltac:(lia)) as (buf' & wc & E & H1 & H2).
  - intros s Hs. apply (po_unit _ _ _ _ P). exact Hs.
  - lia.
  - change (Z.of_nat (length LfnOfs)) with 13. lia.
  - replace (put_i w ((ord - 1) * 13)) with (u32 ((ord - 1) * 13)) in E by (unfold put_i, u32; rewrite Z.mod_small by lia; lia). rewrite E. cbn [bind].
    destruct (Z.eqb_spec ord (parts w)) as [Q|Q]; cbn [andb].
    + destruct (Z.eqb_spec wc 0) as [->|Wc]; cbn [negb].
      * exists buf'. split; [auto|]. intros j. rewrite H2. assert (Z.of_nat (length w) < ord * 13) by tauto. apply if_same. unfold parts in *. lia.
      * assert (L : ord * 13 <= Z.of_nat (length w)) by lia. assert (L2 : ord * 13 = Z.of_nat (length w)) by (unfold parts in *; lia).
        replace (put_i w (ord * 13)) with (ord * 13) by (unfold put_i; lia). unfold LFNBUF, wr, LFNBUF. replace (256 <=? ord * 13) with false by lia. replace ((0 <=? ord * 13) && (ord * 13 <? 256)) with true by lia.
        cbn [bind]. eexists. split; [reflexivity|]. intros j. unfold upd. rewrite H2. destruct (Z.eqb_spec j (ord * 13)) as [->|J].
        -- replace (ord * 13 =? Z.of_nat (length w)) with true by lia. rewrite orb_true_r. unfold unit_at. now rewrite L2, Z.ltb_irrefl, Z.eqb_refl.
        -- apply if_same. lia.
    + exists buf'. split; [auto|]. intros j. rewrite H2. apply if_same. unfold parts in *. lia.
Qed.

Lemma nth_lst {A} (l : list A) n d : (n < length l)%nat -> In (nth n l d) l.
Proof. apply nth_In. Qed.

(* Entries n, n-1, ..., 1 of a name. *)
Definition parts_of (w : list Z) (n sum : Z) (es : list (Z -> Z)) : Prop :=
  Z.of_nat (length es) = n /\ forall k e, nth_error es k = Some e -> part_of w (n - Z.of_nat k) sum e.

Lemma parts_cons w n sum e es : parts_of w n sum (e :: es) -> part_of w n sum e /\ parts_of w (n - 1) sum es.
Proof.
  intros [L H]. split; [|split].
  - specialize (H 0%nat e eq_refl). change (Z.of_nat 0) with 0 in H. now rewrite Z.sub_0_r in H.
  - cbn [length] in L. lia.
  - intros k x Hk. specialize (H (S k) x Hk). now replace (n - 1 - Z.of_nat k) with (n - Z.of_nat (S k)) by lia.
Qed.

Lemma store_ok w lfn sum : name_ok w -> holds lfn w -> 0 <= sum < 256 -> forall n es, length es = n -> Z.of_nat n <= parts w -> Forall bytes es ->
  exists es', store n lfn es sum = Ok es' /\ parts_of w (Z.of_nat n) sum es' /\ Forall bytes es'.
Proof.
  intros W H S1. induction n as [|n IH]; intros es L P B; cbn [store].
  - exists []. split; [auto|]. split; [|auto]. split; [auto|]. intros [|k] e; discriminate.
  - destruct es as [|e es]; [discriminate|]. inversion B as [|? ? B1 B2]; subst.
    destruct (put_ok w lfn e (Z.of_nat (S n)) sum W H ltac:(lia) B1 S1) as (e' & E1 & P1 & Q1). rewrite E1. cbn [bind].
    destruct (IH es ltac:(cbn in L; lia) ltac:(lia) B2) as (es' & E2 & [P2 P2'] & Q2). rewrite E2. cbn [bind]. exists (e' :: es'). split; [auto|]. split; [|auto].
    split; [cbn [length]; lia|]. intros [|k] x; cbn [nth_error].
    + intros [= <-]. change (Z.of_nat 0) with 0. now rewrite Z.sub_0_r.
    + intros X. specialize (P2' k x X). now replace (Z.of_nat (S n) - Z.of_nat (S k)) with (Z.of_nat n - Z.of_nat k) by lia.
Qed.

Lemma recover_ok w sum : name_ok w -> forall es buf n, parts_of w n sum es -> 0 <= n <= parts w ->
  exists buf', recover buf es = Ok (buf', true) /\
    forall j, buf' j = if (0 <=? j) && (j <? n * 13) && (j <? Z.of_nat (length w)) || (n =? parts w) && (j =? Z.of_nat (length w)) then unit_at w j else buf j.
Proof.
  intros W. induction es as [|e es IH]; intros buf n P N; cbn [recover].
  - destruct P as [P _]. cbn in P. exists buf. split; [auto|]. intros j. pose proof (parts_range w W). now replace ((0 <=? j) && (j <? n * 13) && (j <? Z.of_nat (length w)) || (n =? parts w) && (j =? Z.of_nat (length w))) with false by lia.
  - assert (N1 : 1 <= n) by (destruct P as [P _]; cbn [length] in P; lia). apply parts_cons in P. destruct P as [P1 P2].
    destruct (pick_ok w n sum e buf W ltac:(lia) P1) as (b1 & E1 & H1). rewrite E1. cbn [bind].
    destruct (IH b1 (n - 1) P2 ltac:(lia)) as (b2 & E2 & H2). rewrite E2. exists b2. split; [auto|]. intros j. rewrite H2, H1.
    replace (n - 1 =? parts w) with false by lia. cbn [andb]. rewrite orb_false_r.
    destruct ((0 <=? j) && (j <? (n - 1) * 13) && (j <? Z.of_nat (length w))) eqn:Q.
    + now replace ((0 <=? j) && (j <? n * 13) && (j <? Z.of_nat (length w))) with true by lia.
    + apply if_same. lia.
Qed.

Lemma recovered w buf buf' : name_ok w ->
  (forall j, buf' j = if (0 <=? j) && (j <? parts w * 13) && (j <? Z.of_nat (length w)) || (parts w =? parts w) && (j =? Z.of_nat (length w)) then unit_at w j else buf j) ->
  holds buf' w /\ (forall j, ~ (0 <= j <= Z.of_nat (length w)) -> buf' j = buf j).
Proof.
  intros W H. rewrite Z.eqb_refl in H. cbn [andb] in H. split; [split|].
  - intros j Hj. rewrite H. replace ((0 <=? j) && (j <? parts w * 13) && (j <? Z.of_nat (length w)) || (j =? Z.of_nat (length w))) with true by (unfold parts; lia).
    unfold unit_at. now replace (j <? Z.of_nat (length w)) with true by lia.
  - rewrite H, Z.eqb_refl, orb_true_r. unfold unit_at. now rewrite Z.ltb_irrefl, Z.eqb_refl.
  - intros j Hj. rewrite H. now replace ((0 <=? j) && (j <? parts w * 13) && (j <? Z.of_nat (length w)) || (j =? Z.of_nat (length w))) with false by lia.
Qed.

(* --- comparing ------------------------------------------------------------------------- *)

Lemma cmp_loop_ok w start n e buf : name_ok w -> bytes e -> units buf -> 0 <= start < Z.of_nat (length w) -> forall ofs k wc, start <= k ->
  (forall s, 0 <= s < Z.of_nat (length ofs) -> ld_word e (nth (Z.to_nat s) ofs 0) = unit_at w (k + s)) -> (wc = 0 <-> Z.of_nat (length w) < k) -> n = k + Z.of_nat (length ofs) ->
  exists r, cmp_loop ofs e buf (put_i w k) wc = Ok r /\
    (r = None -> exists j, k <= j < n /\ j <= Z.of_nat (length w) /\ upper (unit_at w j) <> upper (buf j)) /\
    (forall i' wc', r = Some (i', wc') -> i' = put_i w n /\ (wc' = 0 <-> Z.of_nat (length w) < n) /\ forall j, k <= j < n -> j <= Z.of_nat (length w) -> upper (unit_at w j) = upper (buf j)).
Proof.
  intros [Wf Wl] B Ub St. induction ofs as [|o ofs IH]; intros k wc K U Hw Hn; cbn [cmp_loop length] in *.
  - eexists. split; [reflexivity|]. split; [discriminate|]. intros i' wc' [= <- <-]. replace n with k by lia. split; [auto|]. split; [auto|]. lia.
  - pose proof (U 0 ltac:(lia)) as U0. change (nth (Z.to_nat 0) (o :: ofs) 0) with o in U0. rewrite Z.add_0_r in U0. rewrite U0.
    assert (U' : forall s, 0 <= s < Z.of_nat (length ofs) -> ld_word e (nth (Z.to_nat s) ofs 0) = unit_at w (k + 1 + s)).
    { intros s Hs. specialize (U (s + 1) ltac:(lia)). replace (Z.to_nat (s + 1)) with (S (Z.to_nat s)) in U by lia. cbn [nth] in U. rewrite U. f_equal. lia. }
    destruct (Z.eqb_spec wc 0) as [->|W0]; cbn [negb].
    + assert (L : Z.of_nat (length w) < k) by tauto. unfold unit_at at 1. replace (k <? Z.of_nat (length w)) with false by lia. replace (k =? Z.of_nat (length w)) with false by lia.
      change (negb (65535 =? 65535)) with false. cbv iota. destruct (IH (k + 1) 0 ltac:(lia) U' ltac:(lia) ltac:(lia)) as (r & E & H1 & H2).
      replace (put_i w (k + 1)) with (put_i w k) in E by (unfold put_i; lia). exists r. split; [auto|]. split.
      * intros X. destruct (H1 X) as (j & J1 & J2 & J3). exists j. split; [lia|]. auto.
      * intros i' wc' X. destruct (H2 i' wc' X) as (J1 & J2 & J3). split; [auto|]. split; [auto|]. intros j Hj Hl. apply J3; lia.
    + assert (L : k <= Z.of_nat (length w)) by lia. unfold rd, LFNBUF. replace (put_i w k) with k by (unfold put_i; lia). replace (256 <=? k) with false by lia. replace ((0 <=? k) && (k <? 256)) with true by lia. cbn [bind].
      destruct (upper_ok (unit_at w k)) as (E1 & _); [apply unit_range; auto; lia|]. destruct (upper_ok (buf k) (Ub k)) as (E2 & _). rewrite E1, E2. cbn [bind].
      destruct (Z.eqb_spec (upper (unit_at w k)) (upper (buf k))) as [Q|Q]; cbn [negb].
      2: { eexists. split; [reflexivity|]. split; [|discriminate]. intros _. exists k. split; [lia|]. auto. }
      assert (Uz : unit_at w k = 0 <-> Z.of_nat (length w) < k + 1).
      { destruct (Z.eq_dec k (Z.of_nat (length w))) as [Q'|Q']; [unfold unit_at; rewrite Q', Z.ltb_irrefl, Z.eqb_refl; lia|].
        assert (Ux : unit_ok (unit_at w k)) by (apply unit_range; auto; lia). unfold unit_ok in Ux. lia. }
      destruct (IH (k + 1) (unit_at w k) ltac:(lia) U' Uz ltac:(lia)) as (r & E & H1 & H2).
      replace (put_i w (k + 1)) with (k + 1) in E by (unfold put_i; lia). exists r. split; [auto|]. split.
      * intros X. destruct (H1 X) as (j & J1 & J2 & J3). exists j. split; [lia|]. auto.
      * intros i' wc' X. destruct (H2 i' wc' X) as (J1 & J2 & J3). split; [auto|]. split; [auto|]. intros j Hj Hl.
        destruct (Z.eq_dec j k) as [->|J]; [auto|]. apply J3; lia.
Qed.

(* Part ord agrees with the buffer. *)
Definition agrees (w : list Z) (buf : Z -> Z) (ord : Z) : Prop :=
  (forall j, (ord - 1) * 13 <= j < ord * 13 -> j < Z.of_nat (length w) -> upper (unit_at w j) = upper (buf j)) /\
  (ord = parts w -> buf (Z.of_nat (length w)) = 0).

Lemma cmp_ok w ord sum e buf : name_ok w -> 1 <= ord <= parts w -> part_of w ord sum e -> bytes e -> units buf ->
  exists b, cmp_lfn buf e = Ok b /\ (b = true <-> agrees w buf ord).
Proof.
  intros W O P B Ub. pose proof (parts_range w W) as R. pose proof W as [Wf Wl]. destruct (ord_bits w ord sum e W O P) as (O1 & O2 & O3).
  unfold cmp_lfn. rewrite (po_zero _ _ _ _ P). change (negb (0 =? 0)) with false. cbv iota. rewrite O1, O3.
  assert (St : 0 <= (ord - 1) * 13 < Z.of_nat (length w)) by (unfold parts in O; lia).
  destruct (cmp_loop_ok w ((ord - 1) * 13) (ord * 13) e buf W B Ub St LfnOfs ((ord - 1) * 13) 1 ltac:(lia)) as (r & E & H1 & H2).
  { intros s Hs. apply (po_unit _ _ _ _ P). exact Hs. } { lia. } { change (Z.of_nat (length LfnOfs)) with 13. lia. }
  replace (put_i w ((ord - 1) * 13)) with (u32 ((ord - 1) * 13)) in E by (unfold put_i, u32; rewrite Z.mod_small by lia; lia). rewrite E. cbn [bind].
  assert (Ue : unit_at w (Z.of_nat (length w)) = 0) by (unfold unit_at; now rewrite Z.ltb_irrefl, Z.eqb_refl).
  assert (Bz : forall j, upper 0 = upper (buf j) <-> buf j = 0).
  { intros j. rewrite upper_0. split; [intros X; symmetry in X; now apply upper_zero in X|intros ->; auto]. }
  destruct r as [[i wc]|].
  - destruct (H2 i wc eq_refl) as (-> & Hw & Hj). 
    assert (A1 : forall j, (ord - 1) * 13 <= j < ord * 13 -> j < Z.of_nat (length w) -> upper (unit_at w j) = upper (buf j)) by (intros; apply Hj; lia).
    destruct (Z.eqb_spec ord (parts w)) as [Q|Q]; cbn [andb].
    + destruct (Z.eqb_spec wc 0) as [->|Wc]; cbn [negb].
      * exists true. split; [auto|]. split; [|auto]. intros _. split; [auto|]. intros _. apply Bz. rewrite <- Ue. assert (Z.of_nat (length w) < ord * 13) by tauto. apply Hj; [|lia]. unfold parts in *. lia.
      * assert (L2 : ord * 13 = Z.of_nat (length w)) by (unfold parts in *; lia). replace (put_i w (ord * 13)) with (Z.of_nat (length w)) by (unfold put_i; lia).
        unfold rd, LFNBUF. replace ((0 <=? Z.of_nat (length w)) && (Z.of_nat (length w) <? 256)) with true by lia. cbn [bind]. eexists. split; [reflexivity|]. split.
        -- intros X. split; [auto|]. intros _. lia.
        -- intros [_ X]. rewrite X by auto. auto.
    + exists true. split; [auto|]. split; [|auto]. intros _. split; [auto|]. intros X. lia.
  - exists false. split; [auto|]. split; [discriminate|]. intros [A1 A2]. destruct (H1 eq_refl) as (j & J1 & J2 & J3).
    destruct (Z.eq_dec j (Z.of_nat (length w))) as [->|J]; [|exfalso; apply J3, A1; lia]. exfalso. apply J3. rewrite Ue. apply Bz. apply A2. unfold parts in *. lia.
Qed.

Lemma matches_ok w sum buf : name_ok w -> units buf -> forall es n, parts_of w n sum es -> Forall bytes es -> 0 <= n <= parts w ->
  exists b, matches buf es = Ok b /\ (b = true <-> forall ord, 1 <= ord <= n -> agrees w buf ord).
Proof.
  intros W Ub. induction es as [|e es IH]; intros n P B N; cbn [matches].
  - destruct P as [P _]. cbn in P. exists true. split; [auto|]. split; [|auto]. intros. lia.
  - assert (N1 : 1 <= n) by (destruct P as [P _]; cbn [length] in P; lia). apply parts_cons in P. destruct P as [P1 P2]. inversion B as [|? ? B1 B2]; subst.
    destruct (cmp_ok w n sum e buf W ltac:(lia) P1 B1 Ub) as (b & E & H). rewrite E. cbn [bind]. destruct b.
    + destruct (IH (n - 1) P2 B2 ltac:(lia)) as (b & E2 & H2). exists b. split; [auto|]. rewrite H2. split.
      * intros X ord Ho. destruct (Z.eq_dec ord n) as [->|]; [now apply H|]. apply X. lia.
      * intros X ord Ho. apply X. lia.
    + exists false. split; [auto|]. split; [discriminate|]. intros X. apply H. apply X. lia.
Qed.

Lemma agrees_same w x buf : name_ok w -> Forall (fun u => 0 < u < 65536) x -> holds buf x -> (forall ord, 1 <= ord <= parts w -> agrees w buf ord) <-> same_name w x.
Proof.
  intros W X H. pose proof (parts_range w W) as R. pose proof W as [Wf Wl]. split.
  - intros A. assert (A1 : forall j, 0 <= j < Z.of_nat (length w) -> upper (unit_at w j) = upper (buf j)).
    { intros j J. apply (A (j / 13 + 1)); unfold parts in *; lia. }
    assert (A2 : buf (Z.of_nat (length w)) = 0) by (apply (A (parts w)); lia).
    destruct H as [H1 H2]. rewrite Forall_forall in X, Wf.
    assert (L : length w = length x).
    { destruct (Nat.lt_trichotomy (length w) (length x)) as [L|[L|L]]; [|auto|]; exfalso.
      - rewrite H1 in A2 by lia. rewrite Nat2Z.id in A2. pose proof (X _ (nth_In x 0 L)). lia.
      - specialize (A1 (Z.of_nat (length x)) ltac:(lia)). rewrite H2, upper_0 in A1.
        assert (U : unit_ok (unit_at w (Z.of_nat (length x)))) by (apply unit_range; [now apply Forall_forall|lia|lia]). unfold unit_ok in U. apply upper_zero in A1; lia. }
    unfold same_name. apply (nth_ext _ _ (upper 0) (upper 0)); [now rewrite !map_length|]. intros k Hk. rewrite map_length in Hk. rewrite !map_nth.
    specialize (A1 (Z.of_nat k) ltac:(lia)). rewrite H1 in A1 by lia. unfold unit_at in A1. replace (Z.of_nat k <? Z.of_nat (length w)) with true in A1 by lia. now rewrite !Nat2Z.id in A1.
  - intros S1 ord Ho. assert (L : length w = length x) by (apply (f_equal (@length Z)) in S1; now rewrite !map_length in S1). destruct H as [H1 H2]. split.
    + intros j J1 J2. rewrite H1 by lia. unfold unit_at. replace (j <? Z.of_nat (length w)) with true by lia.
      rewrite <- !(map_nth upper), upper_0. now rewrite S1.
    + intros _. now rewrite L.
Qed.

(* The whole. *)
Lemma store_parts w lfn es sum : name_ok w -> holds lfn w -> 0 <= sum < 256 -> Forall bytes es -> Z.of_nat (length es) = parts w ->
  exists es', store (length es) lfn es sum = Ok es' /\ parts_of w (parts w) sum es' /\ Forall bytes es' /\
    (forall buf, exists buf', recover buf es' = Ok (buf', true) /\ holds buf' w /\ forall j, ~ (0 <= j <= Z.of_nat (length w)) -> buf' j = buf j) /\
    (forall buf x, units buf -> Forall (fun u => 0 < u < 65536) x -> holds buf x -> exists b, matches buf es' = Ok b /\ (b = true <-> same_name w x)).
Proof.
  intros W H S1 B L. pose proof (parts_range w W) as R. destruct (store_ok w lfn sum W H S1 (length es) es eq_refl ltac:(lia) B) as (es' & E & P & B'). rewrite L in P.
  exists es'. split; [auto|]. split; [auto|]. split; [auto|]. split.
  - intros buf. destruct (recover_ok w sum W es' buf (parts w) P ltac:(lia)) as (buf' & E' & H'). exists buf'. split; [auto|]. now apply (recovered w buf).
  - intros buf x Ub X Hx. destruct (matches_ok w sum buf W Ub es' (parts w) P B' ltac:(lia)) as (b & E' & H'). exists b. split; [auto|]. rewrite H'. now apply agrees_same.
Qed.
