(* What f_mkfs writes. *)
From Verif Require Import Base FatModel MkfsModel MkfsProof.
Open Scope Z_scope.

Definition tame (b : Z -> Z) : Prop := forall o, 0 <= b o < 256.
Definition tame2 (d : store) : Prop := forall s o, 0 <= d s o < 256.

Lemma w8_range x : 0 <= w8 x < 256.
Proof. unfold w8. now apply Z.mod_pos_bound. Qed.

Lemma poke_out l : forall b o i, i < o \/ o + Z.of_nat (length l) <= i -> poke b o l i = b i.
Proof.
  induction l as [|x l IH]; intros b o i H; cbn [poke]; [reflexivity|]. cbn [length] in H.
  rewrite IH by lia. unfold upd. destruct (Z.eqb_spec i o); [lia|reflexivity].
Qed.
Lemma poke_in l : forall b o i, o <= i < o + Z.of_nat (length l) -> poke b o l i = nth (Z.to_nat (i - o)) l 0.
Proof.
  induction l as [|x l IH]; intros b o i H; cbn [length] in H; [lia|]. cbn [poke].
  destruct (Z.eq_dec i o) as [->|N].
  - rewrite poke_out by lia. unfold upd. rewrite Z.eqb_refl, Z.sub_diag. reflexivity.
  - rewrite IH by lia. replace (Z.to_nat (i - o)) with (S (Z.to_nat (i - (o + 1)))) by lia. reflexivity.
Qed.
Lemma poke_ext l : forall b b' o i, b i = b' i -> poke b o l i = poke b' o l i.
Proof.
  intros b b' o i H. destruct (Z_lt_dec i o); [now rewrite !poke_out by lia|].
  destruct (Z_lt_dec i (o + Z.of_nat (length l))); [now rewrite !poke_in by lia|now rewrite !poke_out by lia].
Qed.
Lemma poke_tame l : forall b o, tame b -> Forall (fun x => 0 <= x < 256) l -> tame (poke b o l).
Proof.
  induction l as [|x l IH]; intros b o T F; cbn [poke]; [exact T|]. inversion F; subst. apply IH; [|assumption].
  intro i. unfold upd. destruct (i =? o); auto.
Qed.

Lemma le2_bytes x : Forall (fun x => 0 <= x < 256) (le2 x).
Proof. unfold le2. repeat (constructor; [apply w8_range|]). constructor. Qed.
Lemma le4_bytes x : Forall (fun x => 0 <= x < 256) (le4 x).
Proof. unfold le4. repeat (constructor; [apply w8_range|]). constructor. Qed.
Lemma one_byte x : 0 <= x < 256 -> Forall (fun x => 0 <= x < 256) [x].
Proof. intro H. constructor; [exact H|constructor]. Qed.

Ltac byte_list := first [apply le2_bytes | apply le4_bytes | apply one_byte; first [apply w8_range | lia]
  | unfold no_name, fat_, fat32_, msdos; cbn [app]; repeat (apply Forall_cons; [lia|]); apply Forall_nil].

Lemma vbr_tame D bv sv vsn l b : tame b -> tame (vbr D bv sv vsn l b).
Proof.
  intro T. unfold vbr. cbv zeta.
  apply poke_tame; [|byte_list].
  assert (X : tame (poke (poke (poke (poke (if sv <? 65536
        then poke (poke (poke (poke (poke (poke (poke b 0 msdos) 11 (le2 (d_ss D))) 13 [w8 (l_pau l)]) 14 (le2 (l_rsv l))) 16 [1]) 17
                     (le2 match l_type l with FAT32 => 0 | _ => 512 end)) 19 (le2 sv)
        else poke (poke (poke (poke (poke (poke (poke b 0 msdos) 11 (le2 (d_ss D))) 13 [w8 (l_pau l)]) 14 (le2 (l_rsv l))) 16 [1]) 17
                     (le2 match l_type l with FAT32 => 0 | _ => 512 end)) 32 (le4 sv)) 21 [248]) 24 (le2 63)) 26 (le2 255)) 28 (le4 bv))).
  { repeat (apply poke_tame; [|byte_list]).
    destruct (sv <? 65536); repeat (apply poke_tame; [|byte_list]); exact T. }
  destruct (l_type l); do 5 (apply poke_tame; [|byte_list]); try exact X; do 3 (apply poke_tame; [|byte_list]); exact X.
Qed.
Lemma fsinfo_tame n b : tame b -> tame (fsinfo n b).
Proof. intro T. unfold fsinfo. cbv zeta. repeat (apply poke_tame; [|byte_list]). exact T. Qed.
Lemma head_tame t b : tame b -> tame (fat_head t b).
Proof. intro T. unfold fat_head. destruct t; repeat (apply poke_tame; [|byte_list]); exact T. Qed.

Lemma vbr_ext D bv sv vsn l b b' i : b i = b' i -> vbr D bv sv vsn l b i = vbr D bv sv vsn l b' i.
Proof.
  intro E. unfold vbr. cbv zeta. apply poke_ext.
  destruct (l_type l); repeat apply poke_ext; destruct (sv <? 65536); repeat apply poke_ext; exact E.
Qed.
Lemma fsinfo_ext n b b' i : b i = b' i -> fsinfo n b i = fsinfo n b' i.
Proof. intro E. unfold fsinfo. cbv zeta. repeat apply poke_ext. exact E. Qed.
Lemma head_ext t b b' i : b i = b' i -> fat_head t b i = fat_head t b' i.
Proof. intro E. unfold fat_head. destruct t; repeat apply poke_ext; exact E. Qed.

Lemma clear_ok b len n : n <= len -> exists b', clear b len n = Ok b' /\ (forall o, 0 <= o < n -> b' o = 0) /\
  (forall o, n <= o -> b' o = b o) /\ (tame b -> tame b').
Proof.
  intro H. unfold clear. destruct (Z.ltb_spec len n); [lia|]. eexists. split; [reflexivity|]. split; [|split].
  - intros o O. destruct (Z.leb_spec 0 o), (Z.ltb_spec o n); cbn; lia.
  - intros o O. destruct (Z.ltb_spec o n); [lia|]. now rewrite andb_false_r.
  - intros T o. destruct ((0 <=? o) && (o <? n)); [lia|apply T].
Qed.

Lemma sectors_in s n x : In x (sectors s n) <-> s <= x < s + n.
Proof.
  unfold sectors. rewrite in_map_iff. split.
  - intros (i & <- & I). apply in_seq in I. lia.
  - intro H. exists (Z.to_nat (x - s)). split; [lia|]. apply in_seq. lia.
Qed.

Lemma put_ok D d b len s n : n * d_ss D <= len -> 0 <= n ->
  exists ok d', put D d b len s n = Ok (ok, d') /\
    (forall t, ~ s <= t < s + n -> d' t = d t) /\
    (tame b -> tame2 d -> tame2 d') /\
    (ok = false -> d' = d) /\
    (ok = true -> 0 < n /\ s + n <= d_size D /\ forall t o, s <= t < s + n -> d' t o = b ((t - s) * d_ss D + o)) /\
    (0 < n -> s + n <= d_size D -> (forall t, s <= t < s + n -> d_wr D t = true) -> ok = true) /\
    ((exists t, s <= t < s + n /\ d_wr D t = false) -> ok = false).
Proof.
  intros L N. unfold put. destruct (Z.ltb_spec len (n * d_ss D)); [lia|].
  destruct ((n =? 0) || (d_size D <? s + n) || negb (forallb (d_wr D) (sectors s n))) eqn:E.
  - exists false, d. split; [reflexivity|]. split; [auto|]. split; [auto|]. split; [auto|]. split; [discriminate|].
    split; [|auto]. intros A B C. exfalso.
    apply orb_prop in E. destruct E as [E|E]; [lia|].
    assert (X : forallb (d_wr D) (sectors s n) = true).
    { apply forallb_forall. intros x Hx. apply sectors_in in Hx. now apply C. }
    rewrite X in E. discriminate E.
  - apply orb_false_elim in E. destruct E as [E1 E3]. apply orb_false_elim in E1. destruct E1 as [E1 E2].
    apply negb_false_iff in E3.
    eexists true, _. split; [reflexivity|]. split; [|split; [|split; [discriminate|split; [|split; [auto|]]]]].
    + intros t T. destruct (Z.leb_spec s t), (Z.ltb_spec t (s + n)); cbn; try reflexivity. lia.
    + intros T T2 t o. destruct ((s <=? t) && (t <? s + n)); [apply T|apply T2].
    + intros _. split; [lia|]. split; [lia|]. intros t o T.
      destruct (Z.leb_spec s t), (Z.ltb_spec t (s + n)); cbn; try reflexivity; lia.
    + intros (t & T & W). rewrite forallb_forall in E3. rewrite E3 in W; [discriminate W|]. now apply sectors_in.
Qed.

Lemma cell k n m o z : 0 <= k < n -> n <= m -> 0 <= o < z -> 0 <= k * z + o < m * z.
Proof. intros A B C. assert (k * z + z <= m * z) by (replace (k * z + z) with ((k + 1) * z) by lia; apply Z.mul_le_mono_nonneg_r; lia). assert (X : 0 <= k * z) by (apply Z.mul_nonneg_nonneg; lia). lia. Qed.
Lemma cell_later k o z : 1 <= k -> 0 <= o < z -> z <= k * z + o.
Proof. intros A C. assert (1 * z <= k * z) by (apply Z.mul_le_mono_nonneg_r; lia). lia. Qed.
Lemma fits n m z l : n <= m -> 0 <= z -> m * z <= l -> n * z <= l.
Proof. intros A B C. assert (n * z <= m * z) by (apply Z.mul_le_mono_nonneg_r; lia). lia. Qed.

Definition zeros (b : Z -> Z) (n : Z) : Prop := forall o, 0 <= o < n -> b o = 0.

(* Filling sectors with zeros. *)
Lemma fill_zero D len szb wipe : 512 <= d_ss D -> 1 <= szb -> szb * d_ss D <= len ->
  forall k d b sect nsect, tame b -> tame2 d -> zeros b (szb * d_ss D) -> 0 <= sect -> 1 <= nsect -> (Z.to_nat nsect <= k)%nat ->
  sect + nsect < 4294967296 ->
  exists ok d' b' sect', fill k D d b len szb wipe sect nsect = Ok (ok, d', b', sect') /\
    (forall t, ~ sect <= t < sect + nsect -> d' t = d t) /\ tame b' /\ tame2 d' /\
    (ok = true -> zeros b' (szb * d_ss D) /\ sect' = sect + nsect /\ sect + nsect <= d_size D /\
                  forall t o, sect <= t < sect + nsect -> 0 <= o < d_ss D -> d' t o = 0) /\
    (sect + nsect <= d_size D -> (forall t, sect <= t < sect + nsect -> d_wr D t = true) -> ok = true).
Proof.
  intros S1 B1 B2. induction k as [|k IH]; intros d b sect nsect Tb Td Z0 S0 N1 K Lt; [lia|].
  cbn [fill]. set (n := if szb <? nsect then szb else nsect).
  assert (N : 1 <= n <= szb /\ n <= nsect) by (subst n; destruct (Z.ltb_spec szb nsect); lia).
  destruct (put_ok D d b len sect n) as (ok & d1 & E & P1 & P2 & P3 & P4 & P5 & P6); [apply (fits n szb); lia|lia|].
  rewrite E. cbn [bind]. destruct ok.
  - destruct P4 as (_ & Q1 & Q2); [reflexivity|].
    assert (Q3 : forall t o, sect <= t < sect + n -> 0 <= o < d_ss D -> d1 t o = 0).
    { intros t o T O. rewrite Q2 by exact T. apply Z0. apply (cell _ n); lia. }
    assert (C : exists b1, (if wipe then clear b len (d_ss D) else Ok b) = Ok b1 /\ zeros b1 (szb * d_ss D) /\ tame b1).
    { destruct wipe.
      - destruct (clear_ok b len (d_ss D)) as (b1 & E1 & C1 & C2 & C3); [rewrite <- (Z.mul_1_l (d_ss D)); apply (fits 1 szb); lia|]. exists b1. split; [exact E1|].
        split; [|auto]. intros o O. destruct (Z_lt_dec o (d_ss D)); [apply C1; lia|]. rewrite C2 by lia. apply Z0; lia.
      - exists b. auto. }
    destruct C as (b1 & -> & Z1 & T1). cbn [bind].
    rewrite (w32_id (sect + n)), (w32_id (nsect - n)) by lia.
    destruct (Z.eqb_spec (nsect - n) 0) as [E0|E0].
    + exists true, d1, b1, (sect + n). split; [reflexivity|].
      assert (En : n = nsect) by lia. rewrite En in *.
      split; [exact P1|]. split; [exact T1|]. split; [auto|]. split; [auto|]. auto.
    + destruct (IH d1 b1 (sect + n) (nsect - n)) as (ok & d2 & b2 & s2 & F & R1 & R2 & R3 & R4 & R5); auto; try lia.
      exists ok, d2, b2, s2. split; [exact F|].
      split. { intros t T. rewrite R1 by lia. apply P1. lia. }
      split; [exact R2|]. split; [exact R3|]. split.
      * intro O. destruct (R4 O) as (X1 & X2 & X3 & X4). split; [exact X1|]. split; [lia|]. split; [lia|].
        intros t o T Ho. destruct (Z_lt_dec t (sect + n)).
        -- rewrite R1 by lia. apply Q3; lia.
        -- apply X4; lia.
      * intros X W. apply R5; [lia|]. intros t T. apply W. lia.
  - exists false, d1, b, sect. split; [reflexivity|]. split; [intros t T; apply P1; lia|]. split; [exact Tb|]. split; [auto|].
    split; [discriminate|]. intros X W. apply P5; [lia|lia|]. intros t T. apply W. lia.
Qed.

(* Filling sectors from a buffer which is clear after its first sector. *)
Lemma fill_head D len szb : 512 <= d_ss D -> 1 <= szb -> szb * d_ss D <= len ->
  forall d b sect nsect, tame b -> tame2 d -> (forall o, d_ss D <= o < szb * d_ss D -> b o = 0) -> 0 <= sect -> 1 <= nsect ->
  sect + nsect < 4294967296 ->
  exists ok d' b' sect', fill (Z.to_nat nsect) D d b len szb true sect nsect = Ok (ok, d', b', sect') /\
    (forall t, ~ sect <= t < sect + nsect -> d' t = d t) /\ tame b' /\ tame2 d' /\
    (ok = true -> zeros b' (szb * d_ss D) /\ sect' = sect + nsect /\ sect + nsect <= d_size D /\
                  (forall o, 0 <= o < d_ss D -> d' sect o = b o) /\
                  forall t o, sect < t < sect + nsect -> 0 <= o < d_ss D -> d' t o = 0) /\
    (sect + nsect <= d_size D -> (forall t, sect <= t < sect + nsect -> d_wr D t = true) -> ok = true).
Proof.
  intros S1 B1 B2 d b sect nsect Tb Td Z0 S0 N1 Lt.
  destruct (Z.to_nat nsect) as [|k] eqn:K; [lia|].
  cbn [fill]. set (n := if szb <? nsect then szb else nsect).
  assert (N : 1 <= n <= szb /\ n <= nsect) by (subst n; destruct (Z.ltb_spec szb nsect); lia).
  destruct (put_ok D d b len sect n) as (ok & d1 & E & P1 & P2 & P3 & P4 & P5 & P6); [apply (fits n szb); lia|lia|].
  rewrite E. cbn [bind]. destruct ok.
  - destruct P4 as (_ & Q1 & Q2); [reflexivity|].
    assert (Q3 : forall o, 0 <= o < d_ss D -> d1 sect o = b o).
    { intros o O. rewrite Q2 by lia. f_equal. lia. }
    assert (Q4 : forall t o, sect < t < sect + n -> 0 <= o < d_ss D -> d1 t o = 0).
    { intros t o T O. rewrite Q2 by lia. apply Z0. split; [apply cell_later; lia|apply (cell _ n); lia]. }
    destruct (clear_ok b len (d_ss D)) as (b1 & E1 & C1 & C2 & C3); [rewrite <- (Z.mul_1_l (d_ss D)); apply (fits 1 szb); lia|]. rewrite E1. cbn [bind].
    assert (Z1 : zeros b1 (szb * d_ss D)).
    { intros o O. destruct (Z_lt_dec o (d_ss D)); [apply C1; lia|]. rewrite C2 by lia. apply Z0; lia. }
    rewrite (w32_id (sect + n)), (w32_id (nsect - n)) by lia.
    destruct (Z.eqb_spec (nsect - n) 0) as [E0|E0].
    + exists true, d1, b1, (sect + n). split; [reflexivity|].
      assert (En : n = nsect) by lia. rewrite En in *.
      split; [exact P1|]. split; [auto|]. split; [auto|]. split; [auto|]. auto.
    + destruct (fill_zero D len szb true S1 B1 B2 k d1 b1 (sect + n) (nsect - n)) as (ok & d2 & b2 & s2 & F & R1 & R2 & R3 & R4 & R5); auto; try lia.
      exists ok, d2, b2, s2. split; [exact F|].
      split. { intros t T. rewrite R1 by lia. apply P1. lia. }
      split; [exact R2|]. split; [exact R3|]. split.
      * intro O. destruct (R4 O) as (X1 & X2 & X3 & X4). split; [exact X1|]. split; [lia|]. split; [lia|]. split.
        -- intros o Ho. rewrite R1 by lia. now apply Q3.
        -- intros t o T Ho. destruct (Z_lt_dec t (sect + n)).
           ++ rewrite R1 by lia. apply Q4; lia.
           ++ apply X4; lia.
      * intros X W. apply R5; [lia|]. intros t T. apply W. lia.
  - exists false, d1, b, sect. split; [reflexivity|]. split; [intros t T; apply P1; lia|]. split; [exact Tb|]. split; [auto|].
    split; [discriminate|]. intros X W. apply P5; [lia|lia|]. intros t T. apply W. lia.
Qed.
