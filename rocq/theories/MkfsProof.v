(* Choosing the layout of a volume: what is chosen is sound. *)
From Verif Require Import Base FatModel MkfsModel.
Open Scope Z_scope.

Definition pows := [1; 2; 4; 8; 16; 32; 64; 128].
Definition sizes (s : Z) : Prop := s = 512 \/ s = 1024 \/ s = 2048 \/ s = 4096.

Lemma w32_id x : 0 <= x < 4294967296 -> w32 x = x.
Proof. intro H. unfold w32. now apply Z.mod_small. Qed.
Lemma w32_range x : 0 <= w32 x < 4294967296.
Proof. unfold w32. now apply Z.mod_pos_bound. Qed.

Fixpoint below (n : nat) : list Z := match n with O => [] | S k => below k ++ [Z.of_nat k] end.
Lemma below_in n x : 0 <= x < Z.of_nat n -> In x (below n).
Proof.
  induction n as [|n IH]; intro H; [lia|]. cbn [below]. apply in_or_app.
  destruct (Z.eq_dec x (Z.of_nat n)) as [->|N]; [right; now left|left; apply IH; lia].
Qed.

(* A number without a common bit with its predecessor is a power of two. *)
Lemma pow2 k : forall x, 0 < x < 2 ^ Z.of_nat k -> Z.land x (x - 1) = 0 -> exists i, 0 <= i < Z.of_nat k /\ x = 2 ^ i.
Proof.
  induction k as [|k IH]; intros x H L.
  - change (2 ^ Z.of_nat 0) with 1 in H. lia.
  - rewrite Nat2Z.inj_succ, Z.pow_succ_r in H by lia.
    destruct (Z.Even_or_Odd x) as [[y E]|[y E]].
    + destruct (IH y) as [i [I J]]; [lia| |].
      * assert (B : forall n, 0 <= n -> Z.testbit (Z.land y (y - 1)) n = false).
        { intros n N. assert (X : Z.testbit (Z.land x (x - 1)) (n + 1) = false) by (rewrite L; apply Z.bits_0).
          rewrite Z.land_spec in *. subst x.
          replace (2 * y - 1) with (2 * (y - 1) + 1) in X by lia.
          replace (n + 1) with (Z.succ n) in X by lia.
          rewrite Z.testbit_even_succ, Z.testbit_odd_succ in X by lia. exact X. }
        apply Z.bits_inj'. intros n N. rewrite B by lia. now rewrite Z.bits_0.
      * exists (i + 1). split; [lia|]. rewrite Z.pow_add_r by lia. lia.
    + destruct (Z.eq_dec y 0) as [->|N].
      * exists 0. split; [lia|]. subst x. reflexivity.
      * exfalso. assert (D : Z.land x (x - 1) = x - 1).
        { subst x. replace (2 * y + 1 - 1) with (2 * y) by lia. apply Z.bits_inj'. intros n Hn.
          rewrite Z.land_spec. destruct (Z.eq_dec n 0) as [->|M].
          - rewrite Z.testbit_even_0. apply andb_false_r.
          - replace n with (Z.succ (n - 1)) by lia. rewrite Z.testbit_even_succ, Z.testbit_odd_succ by lia. apply andb_diag. }
        lia.
Qed.

Lemma align x i : 0 <= i <= 15 -> 0 <= x -> x + 2 ^ i < 4294967296 ->
  0 <= w32 (Z.ldiff (w32 (x + 2 ^ i - 1)) (2 ^ i - 1) - x) < 2 ^ i.
Proof.
  intros I X B. assert (P : 0 < 2 ^ i) by (apply Z.pow_pos_nonneg; lia).
  rewrite (w32_id (x + 2 ^ i - 1)) by lia.
  replace (2 ^ i - 1) with (Z.ones i) by (rewrite Z.ones_equiv; lia).
  rewrite Z.ldiff_ones_r, Z.shiftl_mul_pow2, Z.shiftr_div_pow2 by lia.
  pose proof (Z.div_mod (x + 2 ^ i - 1) (2 ^ i)) as E.
  pose proof (Z.mod_pos_bound (x + 2 ^ i - 1) (2 ^ i) P) as M.
  set (q := (x + 2 ^ i - 1) / 2 ^ i) in *. set (r := (x + 2 ^ i - 1) mod 2 ^ i) in *.
  rewrite w32_id; lia.
Qed.

Lemma auto_in cs : forall n p, In p [1; 2; 4; 8; 16; 32; 64] -> (length cs <= 6)%nat -> p * 2 ^ Z.of_nat (length cs) <= 64 ->
  In (auto cs n p) [1; 2; 4; 8; 16; 32; 64].
Proof.
  induction cs as [|c cs IH]; intros n p P L B; cbn [auto]; [exact P|].
  destruct (c <=? n); [|exact P].
  assert (Q : 0 < 2 ^ Z.of_nat (length cs)) by (apply Z.pow_pos_nonneg; lia).
  cbn [length] in L, B. rewrite Nat2Z.inj_succ, Z.pow_succ_r in B by lia.
  apply IH; [|lia|].
  - cbn [In] in P. rewrite w32_id by lia. cbn [In]. nia.
  - cbn [In] in P. rewrite w32_id by lia. lia.
Qed.
Lemma auto_cst n : In (auto cst n 1) [1; 2; 4; 8; 16; 32; 64].
Proof. apply auto_in; [now left|cbn; lia|cbn; lia]. Qed.
Lemma auto_cst32 n : In (auto cst32 n 1) [1; 2; 4; 8; 16; 32; 64].
Proof. apply auto_in; [now left|cbn; lia|cbn; lia]. Qed.

(* Bytes needed for the entries of [n] clusters. *)
Definition need (t : fat) (n : Z) : Z :=
  match t with FAT12 => (3 * (n + 2) + 1) / 2 | FAT16 => 2 * (n + 2) | FAT32 => 4 * (n + 2) end.
Definition most (t : fat) : Z := match t with FAT12 => MAX_FAT12 | FAT16 => MAX_FAT16 | FAT32 => MAX_FAT32 end.
Definition least (t : fat) : Z := match t with FAT12 => 0 | FAT16 => MAX_FAT12 + 1 | FAT32 => MAX_FAT16 + 1 end.

(* The places of a layout. *)
Record places (D : drive) (b_vol sz_vol : Z) (l : layout) : Prop := {
  pl_pau : In (l_pau l) pows;
  pl_rsv : (match l_type l with FAT32 => 32 | _ => 1 end) <= l_rsv l < 32800;
  pl_base : l_base l = b_vol + l_rsv l;
  pl_dir : l_dir l = match l_type l with FAT32 => 0 | _ => 16384 / d_ss D end;
  pl_fat : 1 <= l_fat l <= (match l_type l with FAT32 => 33554432 | _ => 65535 end) }.

(* The whole of a layout which has been chosen. *)
Record sound (D : drive) (b_vol sz_vol : Z) (l : layout) : Prop := {
  so_places : places D b_vol sz_vol l;
  so_fit : l_rsv l + l_fat l + l_dir l <= sz_vol;
  so_ncl : l_ncl l = (sz_vol - l_rsv l - l_fat l - l_dir l) / l_pau l;
  so_type : least (l_type l) <= l_ncl l <= most (l_type l);
  so_room : need (l_type l) (l_ncl l) <= l_fat l * d_ss D;
  so_some : d_blk D <= 16 -> 1 <= l_ncl l }.

Definition block (D : drive) : Prop := exists i, 0 <= i <= 15 /\ d_blk D = 2 ^ i.

Lemma block_range D : block D -> 1 <= d_blk D <= 32768.
Proof.
  intros [i [I ->]]. split; [pose proof (Z.pow_pos_nonneg 2 i); lia|].
  change 32768 with (2 ^ 15). apply Z.pow_le_mono_r; lia.
Qed.

Section one.
Variable D : drive.
Variable b_vol sz_vol : Z.
Hypothesis Ss : sizes (d_ss D).
Hypothesis Bl : block D.
Hypothesis Bv : b_vol = 0 \/ b_vol = 63.
Hypothesis Sv : 128 <= sz_vol.
Hypothesis Sm : b_vol + sz_vol < 4294967296.

Lemma pau_in (ty : fat) au : au = 0 \/ In au pows ->
  In (if au =? 0 then auto (match ty with FAT32 => cst32 | _ => cst end)
                        (sz_vol / match ty with FAT32 => 131072 | _ => 4096 end) 1 else au) pows.
Proof.
  intros [->|H].
  - change (0 =? 0) with true. cbv iota.
    assert (X : forall x, In x [1; 2; 4; 8; 16; 32; 64] -> In x pows) by (unfold pows; cbn [In]; tauto).
    apply X. destruct ty; [apply auto_cst|apply auto_cst|apply auto_cst32].
  - destruct (Z.eqb_spec au 0) as [E|E]; [|exact H]. subst au. unfold pows in H. cbn [In] in H. lia.
Qed.

Definition pau_of (ty : fat) (au : Z) : Z :=
  if au =? 0 then auto (match ty with FAT32 => cst32 | _ => cst end)
                    (sz_vol / match ty with FAT32 => 131072 | _ => 4096 end) 1 else au.

Lemma auto_fits ty : sz_vol <= pau_of ty 0 * 67108864.
Proof.
  unfold pau_of. change (0 =? 0) with true. cbv iota. clear - Bv Sm.
  assert (A : forall a b c d e f n, auto [a; b; c; d; e; f] n 1 =
    if a <=? n then if b <=? n then if c <=? n then if d <=? n then if e <=? n then if f <=? n then 64 else 32 else 16 else 8 else 4 else 2 else 1)
    by reflexivity.
  unfold cst, cst32.
  destruct ty; rewrite A; repeat (match goal with |- context [?a <=? ?b] => destruct (Z.leb_spec a b) end); lia.
Qed.

Definition dirs : Z := 512 * 32 / d_ss D.
Definition fat0 (t : fat) (c : Z) : Z :=
  (match t with FAT12 => (3 * c + 1) / 2 + 3 | FAT16 => 2 * c + 4 | FAT32 => 4 * c + 8 end + d_ss D - 1) / d_ss D.
Definition rsv0 (t : fat) : Z := match t with FAT32 => 32 | _ => 1 end.
Definition dir0 (t : fat) : Z := match t with FAT32 => 0 | _ => dirs end.

(* What a pass of the loop computes. *)
Definition made (t : fat) (pau n : Z) : layout :=
  let f := fat0 t (sz_vol / pau) in
  let r := rsv0 t in
  match t with
  | FAT32 => mkLay t pau (r + n) f 0 (b_vol + r + n) (w32 (sz_vol - (r + n) - f - 0) / pau)
  | _ => mkLay t pau r (f + n) dirs (b_vol + r) (w32 (sz_vol - r - (f + n) - dirs) / pau)
  end.

Definition first_type (ty : fat) (c : Z) : fat :=
  match ty with FAT32 => FAT32 | _ => if MAX_FAT12 <? c then ty else FAT12 end.

Lemma try_shape ty au : ty <> FAT12 -> (au = 0 \/ In au pows) -> sz_vol <= pau_of ty au * 134217728 ->
  let pau := pau_of ty au in
  let c := sz_vol / pau in
  let t := first_type ty c in
  exists n, 0 <= n < d_blk D /\ (d_blk D = 1 -> n = 0) /\
    try D b_vol sz_vol ty au =
      (pau, if match ty with FAT32 => (c <=? MAX_FAT16) || (MAX_FAT32 <? c) | _ => false end then None
            else if sz_vol <? rsv0 t + fat0 t c + dir0 t + pau * 16 then None
            else Some (made t pau n)).
Proof.
  intros Ty Au Fi pau c t. pose proof (pau_in ty au Au) as P. fold (pau_of ty au) in P, Fi. fold pau in P, Fi.
  assert (C : 0 <= c <= 134217728).
  { subst c. clear - P Fi Sv. unfold pows in P. cbn [In] in P.
    repeat (destruct P as [P|P]; [rewrite <- P in *; clear P; split; [apply Z.div_pos; lia|apply Z.div_le_upper_bound; lia]|]). tauto. }
  assert (F : 0 <= fat0 t c <= 1048577).
  { clear - C Ss. unfold fat0. destruct Ss as [E|[E|[E|E]]]; rewrite E; destruct t; lia. }
  assert (Di : 4 <= dirs <= 32) by (clear - Ss; unfold dirs; destruct Ss as [E|[E|[E|E]]]; rewrite E; lia).
  assert (R : 1 <= rsv0 t <= 32) by (clear; destruct t; cbn; lia).
  assert (Dt : 0 <= dir0 t <= 32) by (clear - Di; destruct t; cbn; lia).
  pose proof (block_range D Bl) as BR.
  set (bd := b_vol + rsv0 t + fat0 t c + dir0 t).
  assert (Bd : 0 <= bd < 2000000) by (subst bd; clear - F R Dt Bv; lia).
  exists (w32 (Z.ldiff (w32 (bd + d_blk D - 1)) (d_blk D - 1) - bd)).
  assert (N : 0 <= w32 (Z.ldiff (w32 (bd + d_blk D - 1)) (d_blk D - 1) - bd) < d_blk D).
  { destruct Bl as [i [I E]]. rewrite E in *. apply align; clear - I Bd BR; lia. }
  split; [exact N|].
  split. { intro E. clear - N E. lia. }
  unfold try. cbv zeta.
  assert (E1 : (match ty with
     | FAT32 => (if au =? 0 then auto cst32 (sz_vol / 131072) 1 else au, FAT32,
         w32 (w32 (sz_vol / (if au =? 0 then auto cst32 (sz_vol / 131072) 1 else au) * 4) + 8 + d_ss D - 1) / d_ss D, 32, 0,
         (sz_vol / (if au =? 0 then auto cst32 (sz_vol / 131072) 1 else au) <=? MAX_FAT16) ||
         (MAX_FAT32 <? sz_vol / (if au =? 0 then auto cst32 (sz_vol / 131072) 1 else au)))
     | _ => let '(ty0, n) :=
            if MAX_FAT12 <? sz_vol / (if au =? 0 then auto cst (sz_vol / 4096) 1 else au)
            then (ty, w32 (sz_vol / (if au =? 0 then auto cst (sz_vol / 4096) 1 else au) * 2 + 4))
            else (FAT12, w32 (w32 (sz_vol / (if au =? 0 then auto cst (sz_vol / 4096) 1 else au) * 3 + 1) / 2 + 3)) in
            (if au =? 0 then auto cst (sz_vol / 4096) 1 else au, ty0, w32 (n + d_ss D - 1) / d_ss D, 1, 512 * 32 / d_ss D, false)
     end) = (pau, t, fat0 t c, rsv0 t, dir0 t, match ty with FAT32 => (c <=? MAX_FAT16) || (MAX_FAT32 <? c) | _ => false end)).
  { assert (S4 : 512 <= d_ss D <= 4096) by (clear - Ss; destruct Ss as [E|[E|[E|E]]]; lia).
    destruct ty; [now elim Ty| |].
    - fold (pau_of FAT16 au). change (if au =? 0 then auto cst (sz_vol / 4096) 1 else au) with (pau_of FAT16 au).
      fold pau. fold c. unfold t, first_type.
      destruct (MAX_FAT12 <? c).
      + cbn [fat0 rsv0 dir0]. f_equal. f_equal. f_equal. f_equal. unfold fat0.
        rewrite (w32_id (c * 2 + 4)) by (clear - C; lia). rewrite w32_id by (clear - C S4; lia).
        f_equal. clear. lia.
      + cbn [fat0 rsv0 dir0]. f_equal. f_equal. f_equal. f_equal. unfold fat0.
        rewrite (w32_id (c * 3 + 1)) by (clear - C; lia).
        rewrite (w32_id ((c * 3 + 1) / 2 + 3)) by (clear - C; lia). rewrite w32_id by (clear - C S4; lia).
        f_equal. replace (c * 3) with (3 * c) by (clear; lia). clear. lia.
    - change (if au =? 0 then auto cst32 (sz_vol / 131072) 1 else au) with (pau_of FAT32 au).
      fold pau. fold c. unfold t, first_type. cbn [rsv0 dir0]. f_equal. f_equal. f_equal. f_equal. unfold fat0.
      rewrite (w32_id (c * 4)) by (clear - C; lia). rewrite w32_id by (clear - C S4; lia). f_equal. clear. lia. }
  unfold try in E1 |- *. rewrite E1. clear E1. cbv iota beta.
  destruct (match ty with FAT32 => _ | _ => _ end); [reflexivity|].
  assert (PB : 1 <= pau <= 128) by (clear - P; unfold pows in P; cbn [In] in P; lia).
  rewrite (w32_id (b_vol + rsv0 t)) by (clear - R Bv; lia).
  rewrite (w32_id (b_vol + rsv0 t + fat0 t c + dir0 t)) by (fold bd; clear - Bd; lia). fold bd.
  rewrite (w32_id (bd + pau * 16 - b_vol)) by (clear - Bd PB R F Dt; subst bd; lia).
  replace (bd + pau * 16 - b_vol) with (rsv0 t + fat0 t c + dir0 t + pau * 16) by (subst bd; clear; lia).
  set (n := w32 (Z.ldiff (w32 (bd + d_blk D - 1)) (d_blk D - 1) - bd)) in *.
  assert (TT : t = FAT12 \/ t = FAT16 \/ t = FAT32) by (clear; destruct t; auto).
  unfold made. fold c.
  destruct t; cbv iota beta; destruct (sz_vol <? _); try reflexivity; cbn [rsv0 dir0] in *.
  - rewrite (w32_id (fat0 FAT12 c + n)) by (clear - F N BR; lia). reflexivity.
  - rewrite (w32_id (fat0 FAT16 c + n)) by (clear - F N BR; lia). reflexivity.
  - rewrite (w32_id (32 + n)), (w32_id (b_vol + 32 + n)) by (clear - R N BR Bv; lia). reflexivity.
Qed.

Lemma qr a b : 0 < b -> exists q r, a / b = q /\ a = b * q + r /\ 0 <= r < b.
Proof. intro H. exists (a / b), (a mod b). pose proof (Z.div_mod a b) as X. pose proof (Z.mod_pos_bound a b H) as Y. split; [reflexivity|]. split; [lia|exact Y]. Qed.

Lemma w32_neg x : -4294967296 <= x < 0 -> w32 x = x + 4294967296.
Proof. intro H. unfold w32. symmetry. apply (Zmod_unique _ _ (-1)); lia. Qed.

Definition accepted (t : fat) (pau n : Z) : Prop :=
  let c := sz_vol / pau in
  let m := l_ncl (made t pau n) in
  rsv0 t + fat0 t c + dir0 t + pau * 16 <= sz_vol /\
  match t with
  | FAT12 => c <= MAX_FAT12 /\ m <= MAX_FAT12
  | FAT16 => MAX_FAT12 < c /\ MAX_FAT12 < m <= MAX_FAT16
  | FAT32 => MAX_FAT16 < c <= MAX_FAT32 /\ MAX_FAT16 < m
  end.

Lemma made_sound t pau n : In pau pows -> 0 <= n < d_blk D -> accepted t pau n -> sz_vol <= pau * 134217728 ->
  sound D b_vol sz_vol (made t pau n).
Proof.
  intros P N A Fi. pose proof (block_range D Bl) as BR.
  unfold accepted in A. cbv zeta in A. destruct A as [A0 A1].
  assert (PB : 1 <= pau <= 128) by (clear - P; unfold pows in P; cbn [In] in P; lia).
  destruct (qr sz_vol pau) as (c & r & Ec & Sc & Rc); [clear - PB; lia|]. rewrite Ec in *.
  assert (C : 0 <= c <= 134217728) by (clear - Sc Rc Fi PB Sv; nia).
  assert (S4 : 512 <= d_ss D <= 4096) by (clear - Ss; destruct Ss as [E|[E|[E|E]]]; lia).
  assert (Di : 4 <= dirs <= 32) by (clear - Ss; unfold dirs; destruct Ss as [E|[E|[E|E]]]; rewrite E; lia).
  assert (F : exists f, fat0 t c = f /\ 1 <= f /\
      512 * (f - 2) <= (match t with FAT12 => 2 * c | FAT16 => 2 * c | FAT32 => 4 * c end) /\
      (match t with FAT12 => (3 * c + 7) / 2 | FAT16 => 2 * c + 4 | FAT32 => 4 * c + 8 end) <= f * d_ss D).
  { exists (fat0 t c). split; [reflexivity|]. clear - C Ss. unfold fat0.
    destruct Ss as [E|[E|[E|E]]]; rewrite E; destruct t; lia. }
  destruct F as (f & Ef & F1 & F2 & F3).
  unfold made in *. cbv zeta in *. rewrite Ec, Ef in *.
  destruct t; cbn [l_ncl l_type rsv0 dir0] in *; unfold MAX_FAT12, MAX_FAT16, MAX_FAT32 in *.
  - assert (B : sz_vol - 1 - (f + n) - dirs < 0 -> False).
    { intro X. rewrite w32_neg in A1 by (clear - X Di F2 C N BR Sv; lia).
      destruct A1 as [_ A1]. clear - A1 X PB F2 C N BR Sv Di. apply Z.lt_irrefl with 4085.
      eapply Z.lt_le_trans; [|exact A1]. apply Z.lt_le_trans with (33000000); [lia|].
      apply Z.div_le_lower_bound; [lia|]. nia. }
    assert (B' : 0 <= sz_vol - 1 - (f + n) - dirs) by (clear - B; lia). clear B.
    rewrite w32_id in A1 |- * by (clear - B' Sm F1 N Di Bv; lia).
    destruct (qr (sz_vol - 1 - (f + n) - dirs) pau) as (m & r' & Em & Sm' & Rm); [clear - PB; lia|].
    rewrite Em in *.
    constructor; cbn [l_ncl l_type l_pau l_rsv l_fat l_dir l_base].
    + constructor; cbn [l_ncl l_type l_pau l_rsv l_fat l_dir l_base]; [exact P|lia|lia|unfold dirs; f_equal; lia|].
      clear - F1 F2 A1 N BR. lia.
    + clear - B'. lia.
    + now symmetry.
    + cbn [least most]. unfold MAX_FAT12. split; [|clear - A1; lia]. clear - B' Sm' Rm PB. nia.
    + cbn [need]. assert (m <= c) by (clear - Sm' Sc Rm Rc F1 N Di PB; nia).
      clear - H F3 N F1 S4. assert (f * d_ss D <= (f + n) * d_ss D) by nia. lia.
    + intro B16. clear - A0 B16 N Sm' Rm PB. nia.
  - assert (B : sz_vol - 1 - (f + n) - dirs < 0 -> False).
    { intro X. rewrite w32_neg in A1 by (clear - X Di F2 C N BR Sv; lia).
      destruct A1 as [_ [_ A1]]. clear - A1 X PB F2 C N BR Sv Di. apply Z.lt_irrefl with 65525.
      eapply Z.lt_le_trans; [|exact A1]. apply Z.lt_le_trans with (32000000); [lia|].
      apply Z.div_le_lower_bound; [lia|]. nia. }
    assert (B' : 0 <= sz_vol - 1 - (f + n) - dirs) by (clear - B; lia). clear B.
    rewrite w32_id in A1 |- * by (clear - B' Sm F1 N Di Bv; lia).
    destruct (qr (sz_vol - 1 - (f + n) - dirs) pau) as (m & r' & Em & Sm' & Rm); [clear - PB; lia|].
    rewrite Em in *.
    constructor; cbn [l_ncl l_type l_pau l_rsv l_fat l_dir l_base].
    + constructor; cbn [l_ncl l_type l_pau l_rsv l_fat l_dir l_base]; [exact P|lia|lia|unfold dirs; f_equal; lia|].
      clear - F1 F2 A1 N BR Sm' Rm Sc Rc PB Di.
      assert (c <= 65526 + (1 + f + n + dirs)) by nia. lia.
    + clear - B'. lia.
    + now symmetry.
    + cbn [least most]. unfold MAX_FAT12, MAX_FAT16. clear - A1. lia.
    + cbn [need]. assert (m <= c) by (clear - Sm' Sc Rm Rc F1 N Di PB; nia).
      clear - H F3 N F1 S4. assert (f * d_ss D <= (f + n) * d_ss D) by nia. lia.
    + intro B16. clear - A1. lia.
  - assert (B' : 0 <= sz_vol - (32 + n) - f - 0).
    { destruct A1 as [[A1 A2] _]. clear - A1 F2 Sc Rc PB N BR.
      assert (c <= sz_vol) by nia. lia. }
    rewrite w32_id in A1 |- * by (clear - B' Sm F1 N Di Bv; lia).
    destruct (qr (sz_vol - (32 + n) - f - 0) pau) as (m & r' & Em & Sm' & Rm); [clear - PB; lia|].
    rewrite Em in *.
    constructor; cbn [l_ncl l_type l_pau l_rsv l_fat l_dir l_base].
    + constructor; cbn [l_ncl l_type l_pau l_rsv l_fat l_dir l_base]; [exact P|clear - N BR; lia|clear; lia|reflexivity|].
      clear - F1 F2 C. lia.
    + clear - B'. lia.
    + now symmetry.
    + assert (m <= c) by (clear - Sm' Sc Rm Rc F1 N Di PB; nia).
      cbn [least most]. unfold MAX_FAT16, MAX_FAT32. clear - A1 H. lia.
    + cbn [need]. assert (m <= c) by (clear - Sm' Sc Rm Rc F1 N Di PB; nia).
      clear - H F3. lia.
    + intro B16. clear - A1. lia.
Qed.
End one.
