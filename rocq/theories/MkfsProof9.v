(* f_statfs counts the free clusters. *)
From Verif Require Import Base FatModel FatSpec MkfsModel MountModel MkfsSpec FatProof FatProof2.
Open Scope Z_scope.

Fixpoint zeros_from (E : Z -> Z) (c : Z) (n : nat) : Z :=
  match n with O => 0 | S k => (if E c =? 0 then 1 else 0) + zeros_from E (c + 1) k end.

Lemma zeros_range E n : forall c, 0 <= zeros_from E c n <= Z.of_nat n.
Proof. induction n as [|n IH]; intro c; cbn [zeros_from]; [lia|]. specialize (IH (c + 1)). destruct (E c =? 0); lia. Qed.

Lemma zeros_filter E n : forall s, Z.of_nat (length (filter (free_in E) (map (fun i => 2 + Z.of_nat i) (seq s n)))) = zeros_from E (2 + Z.of_nat s) n.
Proof.
  induction n as [|n IH]; intro s; cbn [seq map filter zeros_from]; [reflexivity|].
  unfold free_in at 1. specialize (IH (S s)). replace (2 + Z.of_nat (S s)) with (2 + Z.of_nat s + 1) in IH by lia. rewrite <- IH.
  destruct (E (2 + Z.of_nat s) =? 0); cbn [length]; lia.
Qed.
Lemma count_zeros g E : count_free g E = zeros_from E 2 (Z.to_nat (n_fatent g - 2)).
Proof. unfold count_free, clusters. rewrite zeros_filter. reflexivity. Qed.

Lemma step_entry g v v' c : geo_ok g -> step g v v' (fat_byte g v) -> 0 <= c < n_fatent g -> entry g v' c = entry g v c.
Proof.
  intros G S C. unfold entry. apply (entry_ext _ _ _ _ (fsize g * ss g)); [now apply room|lia|]. apply S.
Qed.

Lemma scan12_ok g v0 : geo_ok g -> vol_ok g v0 -> forall n fuel c v nf, (1 <= n <= fuel)%nat -> 2 <= c -> c + Z.of_nat n = n_fatent g ->
  step g v0 v (fat_byte g v0) -> 0 <= nf < 4000000000 - Z.of_nat n -> n_fatent g < 100000000 ->
  (forall k, c <= k < n_fatent g -> entry g v0 k <> 1 /\ entry g v0 k <> ERR) ->
  exists v', scan12 fuel g v c nf = Ok (v', FR_OK, nf + zeros_from (entry g v0) c n) /\ step g v0 v' (fat_byte g v0).
Proof.
  intros G V0. induction n as [|n IH]; intros [|fuel] c v nf F C N St Nf Big Ok1; [lia|lia|lia|].
  cbn [scan12]. destruct (get_ok g v c G (st_ok _ _ _ _ St)) as (v1 & E1 & S1); [lia|]. rewrite E1. cbn [bind].
  rewrite (step_entry g v0 v c G St) by lia.
  assert (St1 : step g v0 v1 (fat_byte g v0)).
  { eapply step_ext; [eapply step_trans; eauto|]. apply St. }
  destruct (Ok1 c) as [O1 O2]; [lia|].
  destruct (Z.eqb_spec (entry g v0 c) ERR) as [X|_]; [now elim O2|]. destruct (Z.eqb_spec (entry g v0 c) 1) as [X|_]; [now elim O1|].
  rewrite (w32_id (c + 1)) by lia. cbn [zeros_from]. rewrite (w32_id (nf + 1)) by lia.
  destruct (Z.ltb_spec (c + 1) (n_fatent g)) as [L|L].
  - destruct (IH fuel (c + 1) v1 (if entry g v0 c =? 0 then nf + 1 else nf)) as (v' & E' & S');
      [lia|lia|lia|exact St1|destruct (entry g v0 c =? 0); lia|exact Big|intros k K; apply Ok1; lia|].
    exists v'. split; [|exact S']. rewrite E'. do 2 f_equal. destruct (entry g v0 c =? 0); lia.
  - assert (n = 0)%nat as -> by lia. cbn [zeros_from]. exists v1. split; [|exact St1]. do 2 f_equal. destruct (entry g v0 c =? 0); lia.
Qed.

(* The sector which holds the entry, in the window. *)
Lemma in_window g v i k : geo_ok g -> winsect v = fatbase g + i / ss g -> 0 <= i -> 0 <= k -> i mod ss g + k < ss g ->
  win v (i mod ss g + k) = fat_byte g v (i + k).
Proof.
  intros G W I K B. destruct (near g i k G I K B) as [N1 N2]. unfold fat_byte, view. rewrite N1, N2, W, Z.eqb_refl. reflexivity.
Qed.

Definition width (t : fat) : Z := match t with FAT16 => 2 | _ => 4 end.

Lemma width_ss g : geo_ok g -> exists q, ss g = width (ftype g) * q /\ 128 <= q.
Proof.
  intro G. unfold width. destruct (ok_ss g G) as [E|[E|[E|E]]]; rewrite E; destruct (ftype g);
    first [exists 128; lia|exists 256; lia|exists 512; lia|exists 1024; lia|exists 2048; lia].
Qed.

Lemma next_place g c w q : 0 <= c -> (w = 2 \/ w = 4) -> ss g = w * q -> 128 <= q ->
  let i := (w * c) mod ss g in
  0 <= i /\ i + w <= ss g /\ (i + w) mod ss g = (w * (c + 1)) mod ss g /\
  (if (w * (c + 1)) mod ss g =? 0 then w * (c + 1) / ss g = w * c / ss g + 1 else w * (c + 1) / ss g = w * c / ss g).
Proof.
  intros C W E Q i. unfold i. rewrite E. rewrite !Zmult_mod_distr_l. rewrite !Zdiv_mult_cancel_l by lia.
  pose proof (Z.mod_pos_bound c q) as M. pose proof (Z.div_mod c q) as D.
  assert (X : 0 <= w * (c mod q) /\ w * (c mod q) + w <= w * q) by nia. split; [apply X|]. split; [apply X|].
  assert (Y : (c + 1) mod q = if c mod q + 1 =? q then 0 else c mod q + 1).
  { destruct (Z.eqb_spec (c mod q + 1) q) as [H|H].
    - symmetry. apply (Z.mod_unique (c + 1) q (c / q + 1) 0); lia.
    - symmetry. apply (Z.mod_unique (c + 1) q (c / q) (c mod q + 1)); lia. }
  assert (Y' : (c + 1) / q = if c mod q + 1 =? q then c / q + 1 else c / q).
  { destruct (Z.eqb_spec (c mod q + 1) q) as [H|H].
    - symmetry. apply (Z.div_unique (c + 1) q (c / q + 1) 0); lia.
    - symmetry. apply (Z.div_unique (c + 1) q (c / q) (c mod q + 1)); lia. }
  split.
  - replace (w * (c mod q) + w) with (w * (c mod q + 1)) by lia. rewrite Zmult_mod_distr_l. f_equal. rewrite Y.
    destruct (Z.eqb_spec (c mod q + 1) q) as [H|H]; [rewrite H; apply Z.mod_same; lia|apply Z.mod_small; lia].
  - rewrite Y, Y'. destruct (Z.eqb_spec (c mod q + 1) q) as [H|H].
    + rewrite Z.mul_0_r. reflexivity.
    + destruct (Z.eqb_spec (w * (c mod q + 1)) 0) as [K|K]; [nia|reflexivity].
Qed.

Lemma scan_ok g v0 : geo_ok g -> vol_ok g v0 -> ftype g <> FAT12 -> forall n fuel c v nf, (1 <= n <= fuel)%nat -> 0 <= c -> c + Z.of_nat n = n_fatent g ->
  step g v0 v (fat_byte g v0) -> 0 <= nf < 4000000000 - Z.of_nat n ->
  let i := (width (ftype g) * c) mod ss g in
  (i <> 0 -> winsect v = fatbase g + width (ftype g) * c / ss g) ->
  exists v', scan fuel g v (Z.of_nat n) (fatbase g + width (ftype g) * c / ss g + (if i =? 0 then 0 else 1)) i nf =
               Ok (v', FR_OK, nf + zeros_from (entry g v0) c n) /\ step g v0 v' (fat_byte g v0).
Proof.
  intros G V0 T. assert (W24 : width (ftype g) = 2 \/ width (ftype g) = 4) by (unfold width; destruct (ftype g); auto).
  destruct (width_ss g G) as (q & Q1 & Q2).
  pose proof (ss_pos g G) as SS. pose proof (ok_type g G) as OT. pose proof (ok_disk g G) as OD. pose proof (ok_dsize g G) as OS. pose proof (ok_base g G) as OB.
  assert (Big : n_fatent g <= 268435447) by (clear - OT; destruct (ftype g); lia).
  assert (RoomC : forall c, 0 <= c < n_fatent g -> width (ftype g) * c + (width (ftype g) - 1) < fsize g * ss g).
  { intros c C. pose proof (room g c G C) as R. unfold width. clear - R T. destruct (ftype g); [now elim T|lia|lia]. }
  clear OT OD OS.
  induction n as [|n IH]; intros [|fuel] c v nf F C N St Nf; cbv zeta; intro Wn; [lia|lia|lia|].
  destruct (next_place g c (width (ftype g)) q C W24 Q1 Q2) as (I0 & I1 & I2 & I3).
  assert (RC : 0 <= width (ftype g) * c < fsize g * ss g) by (specialize (RoomC c); clear - RoomC C N W24; lia).
  set (w := width (ftype g)) in *. set (i := (w * c) mod ss g) in *.
  cbn [scan].
  assert (Mv : exists v1, (if i =? 0 then let '(v', r) := move_window g v (fatbase g + w * c / ss g + (if i =? 0 then 0 else 1)) in
                             (v', w32 (fatbase g + w * c / ss g + (if i =? 0 then 0 else 1) + 1), r)
                           else (v, fatbase g + w * c / ss g + (if i =? 0 then 0 else 1), FR_OK)) = (v1, fatbase g + w * c / ss g + 1, FR_OK) /\
                 step g v0 v1 (fat_byte g v0) /\ winsect v1 = fatbase g + w * c / ss g).
  { destruct (Z.eqb_spec i 0) as [Z|Z].
    - destruct (at_byte g v (w * c) G (st_ok _ _ _ _ St) RC) as (v1 & E1 & S1 & W1 & _).
      assert (Small : 0 <= fatbase g + w * c / ss g < 4294967295).
      { pose proof (byte_sector g (w * c) G RC) as Y. pose proof (in_fat_mine g _ G Y) as [[Y1 Y2] _]. pose proof (ok_dsize g G). lia. }
      rewrite Z.add_0_r. rewrite w32_id in E1 by lia. rewrite E1. exists v1. rewrite w32_id by lia. split; [reflexivity|]. split; [|exact W1].
      eapply step_ext; [eapply step_trans; eauto|]. apply St.
    - exists v. split; [reflexivity|]. split; [exact St|]. apply Wn. exact Z. }
  destruct Mv as (v1 & Em & S1 & W1). rewrite Em. clear Em. cbv iota.
  assert (Rd : (match ftype g with
                | FAT16 => x <- ld_word (win v1) i ;; Ok (if x =? 0 then w32 (nf + 1) else nf, i + 2)
                | _ => x <- ld_dword (win v1) i ;; Ok (if Z.land x 268435455 =? 0 then w32 (nf + 1) else nf, i + 4)
                end) = Ok (nf + (if entry g v0 c =? 0 then 1 else 0), i + w)).
  { assert (Eb : forall k, 0 <= k < w -> win v1 (i + k) = fat_byte g v0 (w * c + k)).
    { intros k K. unfold i. rewrite (in_window g v1 (w * c) k G W1); [|clear - RC; lia|clear - K; lia|fold i; clear - I1 K; lia].
      apply S1. pose proof (RoomC c) as X. fold w in X. clear - X RC K C N. lia. }
    pose proof (ok_wbyte _ _ (st_ok _ _ _ _ S1)) as Bw. rewrite (w32_id (nf + 1)) by (clear - Nf; lia).
    unfold entry, entry_of. assert (Hw : w = width (ftype g)) by reflexivity. unfold width in Hw.
    destruct (ftype g) eqn:Tg; [now elim T| |].
    - rewrite ld_word_ok; [|exact Bw|exact I0|clear - I1 SS Hw; lia]. cbn [bind]. rewrite Hw in Eb |- *.
      rewrite (Eb 1) by lia. specialize (Eb 0). rewrite !Z.add_0_r in Eb. rewrite Eb by lia. match goal with |- context [if ?b then _ else _] => destruct b end; do 2 f_equal; lia.
    - rewrite ld_dword_ok; [|exact Bw|exact I0|clear - I1 SS Hw; lia]. cbn [bind]. rewrite Hw in Eb |- *.
      rewrite (Eb 1), (Eb 2), (Eb 3) by lia. specialize (Eb 0). rewrite !Z.add_0_r in Eb. rewrite Eb by lia.
      change 268435455 with (Z.ones 28). rewrite Z.land_ones by lia. change (2 ^ 28) with 268435456.
      pose proof (FatProof2.fat_byte_ok g v0 (4 * c) V0) as P0. pose proof (FatProof2.fat_byte_ok g v0 (4 * c + 1) V0) as P1.
      pose proof (FatProof2.fat_byte_ok g v0 (4 * c + 2) V0) as P2. pose proof (FatProof2.fat_byte_ok g v0 (4 * c + 3) V0) as P3. unfold vbyte in P0, P1, P2, P3.
      set (x0 := fat_byte g v0 (4 * c)) in *. set (x1 := fat_byte g v0 (4 * c + 1)) in *. set (x2 := fat_byte g v0 (4 * c + 2)) in *. set (x3 := fat_byte g v0 (4 * c + 3)) in *.
      replace ((x0 + 256 * x1 + 65536 * x2 + 16777216 * x3) mod 268435456) with (x0 + 256 * x1 + 65536 * x2 + 16777216 * (x3 mod 16)) by (clear - P0 P1 P2 P3; lia).
      match goal with |- context [if ?b then _ else _] => destruct b end; do 2 f_equal; lia. }
  rewrite Rd. cbn [bind]. clear Rd. cbv zeta. rewrite I2.
  replace (w32 (Z.of_nat (S n) - 1)) with (Z.of_nat n) by (rewrite w32_id by (clear - N C Big; lia); lia).
  cbn [zeros_from]. destruct (Z.eqb_spec (Z.of_nat n) 0) as [Z|Z].
  - assert (n = 0)%nat as -> by lia. cbn [zeros_from]. exists v1. split; [|exact S1]. do 2 f_equal. lia.
  - destruct (IH fuel (c + 1) v1 (nf + (if entry g v0 c =? 0 then 1 else 0))) as (v' & E' & S').
    + clear - F Z. lia.
    + clear - C. lia.
    + clear - N. lia.
    + exact S1.
    + clear - Nf. destruct (_ =? 0); lia.
    + fold w. intro X. destruct (Z.eqb_spec ((w * (c + 1)) mod ss g) 0) as [Y|_]; [now elim X|]. rewrite I3. exact W1.
    + exists v'. split; [|exact S']. fold w in E'.
      replace (fatbase g + w * c / ss g + 1) with (fatbase g + w * (c + 1) / ss g + (if (w * (c + 1)) mod ss g =? 0 then 0 else 1)).
      * rewrite E'. do 2 f_equal. lia.
      * destruct (Z.eqb_spec ((w * (c + 1)) mod ss g) 0) as [Y|Y]; rewrite I3; lia.
Qed.
