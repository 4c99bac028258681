(* Entries of the FAT. *)
From Coq Require Import ZifyClasses ZifyInst ZifyBool.
From Verif Require Import Base FatModel FatSpec Finite FutfProof FatProof.
Open Scope Z_scope.
Ltac Zify.zify_post_hook ::= Z.div_mod_to_equations.

Lemma fat_byte_ok g v i : vol_ok g v -> vbyte (fat_byte g v i).
Proof. intros V. unfold fat_byte, view. destruct (_ =? _); apply V. Qed.

Lemma room12 g c : geo_ok g -> ftype g = FAT12 -> 0 <= c < n_fatent g ->
  0 <= 3 * c / 2 /\ 3 * c / 2 + 1 < fsize g * ss g /\ w32 (c + c / 2) = 3 * c / 2 /\ w32 (3 * c / 2 + 1) = 3 * c / 2 + 1.
Proof.
  intros G T H. pose proof (ok_room g G) as R. pose proof (ok_type g G) as B. rewrite T in R, B.
  unfold w32. split; [lia|]. split; [lia|]. split; lia.
Qed.
Lemma room16 g c : geo_ok g -> ftype g = FAT16 -> 0 <= c < n_fatent g ->
  0 <= 2 * c /\ 2 * c + 1 < fsize g * ss g /\ c / (ss g / 2) = 2 * c / ss g /\ w32 (c * 2) = 2 * c /\ (2 * c) mod ss g + 1 < ss g.
Proof.
  intros G T H. pose proof (ok_room g G) as R. pose proof (ok_type g G) as B. rewrite T in R, B.
  split; [lia|]. split; [lia|]. split; [|split; [unfold w32; lia|]];
  destruct (ok_ss g G) as [E|[E|[E|E]]]; rewrite E;
  change (512 / 2) with 256; change (1024 / 2) with 512; change (2048 / 2) with 1024; change (4096 / 2) with 2048; lia.
Qed.
Lemma room32 g c : geo_ok g -> ftype g = FAT32 -> 0 <= c < n_fatent g ->
  0 <= 4 * c /\ 4 * c + 3 < fsize g * ss g /\ c / (ss g / 4) = 4 * c / ss g /\ w32 (c * 4) = 4 * c /\ (4 * c) mod ss g + 3 < ss g.
Proof.
  intros G T H. pose proof (ok_room g G) as R. pose proof (ok_type g G) as B. rewrite T in R, B.
  split; [lia|]. split; [lia|]. split; [|split; [unfold w32; lia|]];
  destruct (ok_ss g G) as [E|[E|[E|E]]]; rewrite E;
  change (512 / 4) with 128; change (1024 / 4) with 256; change (2048 / 4) with 512; change (4096 / 4) with 1024; lia.
Qed.

Lemma odd_test c : (Z.land c 1 =? 0) = Z.even c.
Proof.
  change 1 with (Z.ones 1). rewrite Z.land_ones by lia. change (2 ^ 1) with 2. rewrite Zmod_even.
  now destruct (Z.even c).
Qed.

Lemma off_lt g i : geo_ok g -> 0 <= i mod ss g < 4096.
Proof. intros G. pose proof (ss_pos g G). pose proof (Z.mod_pos_bound i (ss g) ltac:(lia)). lia. Qed.

Lemma get_ok g v c : geo_ok g -> vol_ok g v -> 2 <= c < n_fatent g ->
  exists v', get_fat g v c = Ok (v', entry g v c) /\ step g v v' (fat_byte g v).
Proof.
  intros G V C. unfold get_fat. replace ((c <? 2) || (n_fatent g <=? c)) with false by lia.
  assert (C0 : 0 <= c < n_fatent g) by lia. unfold entry, entry_of.
  assert (LO : forall i, 0 <= i mod ss g < 4096) by (intros; now apply off_lt).
  destruct (ftype g) eqn:T.
  - destruct (room12 g c G T C0) as (R1 & R2 & R3 & R4). cbv zeta. rewrite R3.
    destruct (at_byte g v (3 * c / 2) G V ltac:(lia)) as (v1 & E1 & S1 & W1 & B1). rewrite E1.
    rewrite rd_ok by auto. cbn [bind]. rewrite R4.
    destruct (at_byte g v1 (3 * c / 2 + 1) G (st_ok _ _ _ _ S1) ltac:(lia)) as (v2 & E2 & S2 & W2 & B2). rewrite E2.
    rewrite rd_ok by auto. cbn [bind]. exists v2. split.
    + pose proof (ss_pos g G).
      specialize (B1 0 ltac:(lia) ltac:(rewrite Z.add_0_r; apply Z.mod_pos_bound; lia)). rewrite !Z.add_0_r in B1. rewrite B1.
      specialize (B2 0 ltac:(lia) ltac:(rewrite Z.add_0_r; apply Z.mod_pos_bound; lia)). rewrite !Z.add_0_r in B2. rewrite B2.
      rewrite (st_fat _ _ _ _ S1) by lia.
      pose proof (fat_byte_ok g v (3 * c / 2) V) as P. pose proof (fat_byte_ok g v (3 * c / 2 + 1) V) as Q. unfold vbyte in P, Q.
      rewrite Z.lor_comm, lor8 by (unfold vbyte; lia). rewrite odd_test.
      destruct (Z.even c).
      * change 4095 with (Z.ones 12). rewrite Z.land_ones by lia. change (2 ^ 12) with 4096. do 2 f_equal. lia.
      * rewrite Z.shiftr_div_pow2 by lia. change (2 ^ 4) with 16. do 2 f_equal. lia.
    + eapply step_ext; [eapply step_trans; eauto|]. intros i Hi. now apply (st_fat _ _ _ _ S1).
  - destruct (room16 g c G T C0) as (R1 & R2 & R3 & R4 & R5). rewrite R3, R4.
    destruct (at_byte g v (2 * c) G V ltac:(lia)) as (v1 & E1 & S1 & W1 & B1). rewrite E1.
    pose proof (LO (2 * c)). pose proof (ss_pos g G).
    rewrite ld_word_ok; [|apply (st_ok _ _ _ _ S1)|lia|lia]. cbn [bind]. exists v1. split; [|auto].
    rewrite (B1 1) by lia. specialize (B1 0). rewrite !Z.add_0_r in B1. rewrite B1 by lia. auto.
  - destruct (room32 g c G T C0) as (R1 & R2 & R3 & R4 & R5). rewrite R3, R4.
    destruct (at_byte g v (4 * c) G V ltac:(lia)) as (v1 & E1 & S1 & W1 & B1). rewrite E1.
    pose proof (LO (4 * c)). pose proof (ss_pos g G).
    rewrite ld_dword_ok; [|apply (st_ok _ _ _ _ S1)|lia|lia]. cbn [bind]. exists v1. split; [|auto].
    rewrite (B1 1), (B1 2), (B1 3) by lia. specialize (B1 0). rewrite !Z.add_0_r in B1. rewrite B1 by lia.
    change 268435455 with (Z.ones 28). rewrite Z.land_ones by lia. change (2 ^ 28) with 268435456. do 2 f_equal.
    pose proof (fat_byte_ok g v (4 * c) V) as P0. pose proof (fat_byte_ok g v (4 * c + 1) V) as P1.
    pose proof (fat_byte_ok g v (4 * c + 2) V) as P2. pose proof (fat_byte_ok g v (4 * c + 3) V) as P3. unfold vbyte in *. lia.
Qed.

(* The bytes after an entry has been changed. *)
Definition put_of (t : fat) (b : Z -> Z) (c x : Z) : Z -> Z :=
  match t with
  | FAT12 => let i := 3 * c / 2 in
             if Z.even c then upd (upd b i (x mod 256)) (i + 1) (b (i + 1) / 16 * 16 + x / 256 mod 16)
             else upd (upd b i (b i mod 16 + 16 * (x mod 16))) (i + 1) (x / 16 mod 256)
  | FAT16 => upd (upd b (2 * c) (x mod 256)) (2 * c + 1) (x / 256 mod 256)
  | FAT32 => upd (upd (upd (upd b (4 * c) (x mod 256)) (4 * c + 1) (x / 256 mod 256)) (4 * c + 2) (x / 65536 mod 256))
                 (4 * c + 3) (x / 16777216 mod 16 + 16 * (b (4 * c + 3) / 16))
  end.

Lemma upd_step g v v1 F i b : geo_ok g -> step g v v1 F -> 0 <= i < fsize g * ss g -> winsect v1 = fatbase g + i / ss g ->
  step g v (dirty v1 (upd (win v1) (i mod ss g) (w8 b))) (upd F i (w8 b)).
Proof.
  intros G S1 Hi W. eapply step_ext; [eapply step_trans; [exact S1|]; apply fat_upd1; auto; apply S1|].
  intros j Hj. unfold upd. destruct (j =? i); [auto|]. now apply (st_fat _ _ _ _ S1).
Qed.

Lemma hi_nibble p : vbyte p -> Z.land p 240 = p / 16 * 16.
Proof.
  intros H. pose proof (allb0 8 (fun p => Z.land p 240 =? p / 16 * 16) ltac:(vm_cast_no_check (eq_refl true)) p H) as Q.
  cbv beta in Q. lia.
Qed.
Lemma low4 p : Z.land p 15 = p mod 16.
Proof. change 15 with (Z.ones 4). rewrite Z.land_ones by lia. reflexivity. Qed.

Lemma mix12_even p x : vbyte p -> 0 <= x -> w8 (Z.lor (Z.land p 240) (Z.land (w8 (Z.shiftr x 8)) 15)) = p / 16 * 16 + x / 256 mod 16.
Proof.
  intros P X. rewrite hi_nibble by auto. rewrite low4. change 16 with (2 ^ 4) at 2. unfold vbyte in P.
  rewrite Z.shiftr_div_pow2 by lia. change (2 ^ 8) with 256.
  rewrite lor_lowk; [|lia|lia|change (2 ^ 4) with 16; apply Z.mod_pos_bound; lia].
  change (2 ^ 4) with 16. unfold w8. lia.
Qed.
Lemma mix12_odd p x : vbyte p -> 0 <= x -> w8 (Z.lor (Z.land p 15) (Z.shiftl (w8 x) 4)) = p mod 16 + 16 * (x mod 16).
Proof.
  intros P X. rewrite low4, Z.lor_comm, Z.shiftl_mul_pow2 by lia. unfold vbyte in P.
  rewrite lor_lowk; [|lia|unfold w8; lia|change (2 ^ 4) with 16; apply Z.mod_pos_bound; lia].
  change (2 ^ 4) with 16. unfold w8. lia.
Qed.

Lemma bytes32 h x y : 0 <= h < 256 -> 0 <= x -> y = h / 16 * 268435456 + x mod 268435456 ->
  y mod 256 = x mod 256 /\ y / 256 mod 256 = x / 256 mod 256 /\ y / 65536 mod 256 = x / 65536 mod 256 /\
  y / 16777216 mod 256 = x / 16777216 mod 16 + 16 * (h / 16).
Proof.
  intros H X ->. set (k := h / 16). assert (K : 0 <= k < 16) by lia. clearbody k. clear H.
  pose proof (Z.div_mod x 268435456 ltac:(lia)) as E. pose proof (Z.mod_pos_bound x 268435456 ltac:(lia)) as R.
  set (q := x / 268435456) in *. set (m := x mod 268435456) in *. clearbody q m.
  assert (A1 : x / 256 = q * 1048576 + m / 256) by lia. assert (A2 : x / 65536 = q * 4096 + m / 65536) by lia.
  assert (A3 : x / 16777216 = q * 16 + m / 16777216) by lia.
  assert (B1 : (k * 268435456 + m) / 256 = k * 1048576 + m / 256) by lia.
  assert (B2 : (k * 268435456 + m) / 65536 = k * 4096 + m / 65536) by lia.
  assert (B3 : (k * 268435456 + m) / 16777216 = k * 16 + m / 16777216) by lia.
  rewrite A1, A2, A3, B1, B2, B3. rewrite E. assert (M : 0 <= m / 16777216 < 16) by lia. clear - K M.
  replace (k * 268435456 + m) with (m + k * 1048576 * 256) by lia. replace (268435456 * q + m) with (m + q * 1048576 * 256) by lia.
  replace (k * 1048576 + m / 256) with (m / 256 + k * 4096 * 256) by lia. replace (q * 1048576 + m / 256) with (m / 256 + q * 4096 * 256) by lia.
  replace (k * 4096 + m / 65536) with (m / 65536 + k * 16 * 256) by lia. replace (q * 4096 + m / 65536) with (m / 65536 + q * 16 * 256) by lia.
  rewrite !Z.mod_add by lia. split; [auto|]. split; [auto|]. split; [auto|]. clear - K M. set (n := m / 16777216) in *. clearbody n. lia.
Qed.

Lemma put_ok g v c x : geo_ok g -> vol_ok g v -> 2 <= c < n_fatent g -> 0 <= x < 4294967296 ->
  exists v', put_fat g v c x = Ok (v', FR_OK) /\ step g v v' (put_of (ftype g) (fat_byte g v) c x).
Proof.
  intros G V C X. unfold put_fat. replace ((2 <=? c) && (c <? n_fatent g)) with true by lia.
  assert (C0 : 0 <= c < n_fatent g) by lia. unfold put_of.
  assert (LO : forall i, 0 <= i mod ss g < 4096) by (intros; now apply off_lt).
  destruct (ftype g) eqn:T.
  - destruct (room12 g c G T C0) as (R1 & R2 & R3 & R4). cbv zeta. rewrite R3.
    destruct (at_byte g v (3 * c / 2) G V ltac:(lia)) as (v1 & E1 & S1 & W1 & B1). rewrite E1.
    rewrite rd_ok by auto. cbn [bind]. rewrite wr_ok by auto. cbn [bind]. rewrite R4. rewrite !odd_test.
    set (a := if Z.even c then _ else _) in |- * at 1.
    pose proof (upd_step g v v1 _ (3 * c / 2) a G S1 ltac:(lia) W1) as S1'.
    set (v1' := dirty v1 _) in *.
    destruct (at_byte g v1' (3 * c / 2 + 1) G (st_ok _ _ _ _ S1') ltac:(lia)) as (v2 & E2 & S2 & W2 & B2). rewrite E2.
    rewrite rd_ok by auto. cbn [bind]. rewrite wr_ok by auto. cbn [bind].
    eexists. split; [reflexivity|].
    assert (S3 : step g v v2 (upd (fat_byte g v) (3 * c / 2) (w8 a))).
    { eapply step_ext; [eapply step_trans; [exact S1'|exact S2]|]. intros i Hi. now apply (st_fat _ _ _ _ S1'). }
    pose proof (ss_pos g G).
    specialize (B1 0 ltac:(lia) ltac:(rewrite Z.add_0_r; apply Z.mod_pos_bound; lia)). rewrite !Z.add_0_r in B1.
    specialize (B2 0 ltac:(lia) ltac:(rewrite Z.add_0_r; apply Z.mod_pos_bound; lia)). rewrite !Z.add_0_r in B2.
    rewrite (st_fat _ _ _ _ S1') in B2 by lia. rewrite upd_ne in B2 by lia.
    eapply step_ext; [apply (upd_step g v v2 _ (3 * c / 2 + 1) _ G S3 ltac:(lia) W2)|].
    pose proof (fat_byte_ok g v (3 * c / 2) V) as P. pose proof (fat_byte_ok g v (3 * c / 2 + 1) V) as Q.
    intros j Hj. rewrite B2. unfold a. rewrite B1. destruct (Z.even c).
    + rewrite mix12_even by (auto; lia). unfold w8. now rewrite Z.mod_mod by lia.
    + rewrite mix12_odd by (auto; lia). unfold w8. rewrite Z.shiftr_div_pow2 by lia. change (2 ^ 4) with 16. now rewrite Z.mod_mod by lia.
  - destruct (room16 g c G T C0) as (R1 & R2 & R3 & R4 & R5). rewrite R3, R4.
    destruct (at_byte g v (2 * c) G V ltac:(lia)) as (v1 & E1 & S1 & W1 & B1). rewrite E1.
    pose proof (LO (2 * c)). pose proof (ss_pos g G).
    destruct (near g (2 * c) 1 G ltac:(lia) ltac:(lia) R5) as [N1 N2].
    unfold st_word. rewrite wr_ok by lia. cbn [bind]. rewrite wr_ok by lia. cbn [bind].
    eexists. split; [reflexivity|]. rewrite <- N2.
    pose proof (upd_step g v v1 _ (2 * c) (x mod 65536) G S1 ltac:(lia) W1) as S2.
    pose proof (upd_step g v _ _ (2 * c + 1) (Z.shiftr (x mod 65536) 8) G S2 ltac:(lia) ltac:(cbn; rewrite N1; exact W1)) as S3.
    eapply step_ext; [exact S3|]. intros j Hj. rewrite Z.shiftr_div_pow2 by lia. change (2 ^ 8) with 256. unfold w8, upd.
    destruct (j =? 2 * c + 1); [lia|]. destruct (j =? 2 * c); [lia|auto].
  - destruct (room32 g c G T C0) as (R1 & R2 & R3 & R4 & R5). rewrite R3, R4.
    destruct (at_byte g v (4 * c) G V ltac:(lia)) as (v1 & E1 & S1 & W1 & B1). rewrite E1.
    pose proof (LO (4 * c)). pose proof (ss_pos g G).
    destruct (near g (4 * c) 1 G ltac:(lia) ltac:(lia) ltac:(lia)) as [N1 N1'].
    destruct (near g (4 * c) 2 G ltac:(lia) ltac:(lia) ltac:(lia)) as [N2 N2'].
    destruct (near g (4 * c) 3 G ltac:(lia) ltac:(lia) ltac:(lia)) as [N3 N3'].
    rewrite ld_dword_ok; [|apply (st_ok _ _ _ _ S1)|lia|lia]. cbn [bind].
    rewrite (B1 1), (B1 2), (B1 3) by lia. specialize (B1 0). rewrite !Z.add_0_r in B1. rewrite B1 by lia. clear B1.
    set (old := fat_byte g v (4 * c) + _ + _ + _). set (y := Z.lor _ _).
    unfold st_dword. rewrite wr_ok by lia. cbn [bind]. rewrite wr_ok by lia. cbn [bind]. rewrite wr_ok by lia. cbn [bind].
    rewrite wr_ok by lia. cbn [bind].
    eexists. split; [reflexivity|]. rewrite <- N1', <- N2', <- N3'.
    pose proof (upd_step g v v1 _ (4 * c) y G S1 ltac:(lia) W1) as S2.
    pose proof (upd_step g v _ _ (4 * c + 1) (Z.shiftr y 8) G S2 ltac:(lia) ltac:(cbn; rewrite N1; exact W1)) as S3.
    pose proof (upd_step g v _ _ (4 * c + 2) (Z.shiftr y 16) G S3 ltac:(lia) ltac:(cbn; rewrite N2; exact W1)) as S4.
    pose proof (upd_step g v _ _ (4 * c + 3) (Z.shiftr y 24) G S4 ltac:(lia) ltac:(cbn; rewrite N3; exact W1)) as S5.
    eapply step_ext; [exact S5|]. intros j Hj.
    assert (Y : y = fat_byte g v (4 * c + 3) / 16 * 268435456 + x mod 268435456).
    { unfold y. change 268435455 with (Z.ones 28). rewrite Z.land_ones by lia. change (2 ^ 28) with 268435456.
      change 4026531840 with (Z.shiftl (Z.ones 4) 28).
      assert (L : Z.land old (Z.shiftl (Z.ones 4) 28) = Z.shiftl (Z.land (Z.shiftr old 28) (Z.ones 4)) 28).
      { rewrite Z.shiftl_land. rewrite <- (Z.ldiff_ones_r old 28) by lia. apply Z.bits_inj'. intros n Hn.
        rewrite !Z.land_spec, Z.ldiff_spec. destruct (Z_lt_le_dec n 28).
        - rewrite Z.shiftl_spec_low by lia. now rewrite !Bool.andb_false_r.
        - rewrite (Z.ones_spec_high 28) by lia. cbn [negb]. now rewrite Bool.andb_true_r. }
      rewrite L, Z.land_ones, Z.shiftr_div_pow2, Z.shiftl_mul_pow2 by lia. rewrite Z.lor_comm.
      change (2 ^ 4) with 16.
      pose proof (fat_byte_ok g v (4 * c) V) as P0. pose proof (fat_byte_ok g v (4 * c + 1) V) as P1.
      pose proof (fat_byte_ok g v (4 * c + 2) V) as P2. pose proof (fat_byte_ok g v (4 * c + 3) V) as P3. unfold vbyte in *.
      rewrite lor_lowk; [|lia|lia|change (2 ^ 28) with 268435456; lia]. change (2 ^ 28) with 268435456.
      assert (O : old / 268435456 = fat_byte g v (4 * c + 3) / 16) by (unfold old; lia). rewrite O. lia. }
    rewrite !Z.shiftr_div_pow2 by lia. change (2 ^ 8) with 256. change (2 ^ 16) with 65536. change (2 ^ 24) with 16777216.
    pose proof (fat_byte_ok g v (4 * c + 3) V) as P3. unfold vbyte in P3.
    destruct (bytes32 _ _ _ P3 (proj1 X) Y) as (Y0 & Y1 & Y2 & Y3). unfold w8. rewrite Y0, Y1, Y2, Y3. auto.
Qed.

Lemma even_mod c : Z.even c = (c mod 2 =? 0).
Proof. rewrite Zmod_even. now destruct (Z.even c). Qed.

(* Changing an entry changes that entry and no other. *)
Lemma entry_put t b c x c' : (forall i, vbyte (b i)) -> 0 <= c -> 0 <= c' -> 0 <= x ->
  entry_of t (put_of t b c x) c' = if c' =? c then x mod modulus t else entry_of t b c'.
Proof.
  intros B C C' X. assert (EC : Z.even c = (c mod 2 =? 0)) by apply even_mod.
  assert (EC' : Z.even c' = (c' mod 2 =? 0)) by apply even_mod.
  destruct t; unfold entry_of, put_of, modulus; cbv zeta.
  - rewrite EC, EC'. pose proof (B (3 * c / 2)) as P0. pose proof (B (3 * c / 2 + 1)) as P1. unfold vbyte in *.
    destruct (Z.eqb_spec c' c) as [->|D].
    + destruct (Z.eqb_spec (c mod 2) 0) as [Q|Q].
      * rewrite upd_eq. rewrite upd_ne by lia. rewrite upd_eq. lia.
      * rewrite upd_eq. rewrite upd_ne by lia. rewrite upd_eq. lia.
    + destruct (Z.eqb_spec (c mod 2) 0) as [Q|Q]; destruct (Z.eqb_spec (c' mod 2) 0) as [Q'|Q'].
      * rewrite !upd_ne by lia. auto.
      * destruct (Z.eq_dec c' (c + 1)) as [E|E].
        -- replace (3 * c' / 2) with (3 * c / 2 + 1) by lia. rewrite upd_eq. rewrite !upd_ne by lia. lia.
        -- rewrite !upd_ne by lia. auto.
      * destruct (Z.eq_dec c (c' + 1)) as [E|E].
        -- replace (3 * c' / 2 + 1) with (3 * c / 2) by lia.
           rewrite (upd_ne _ _ _ (3 * c / 2)) by lia. rewrite upd_eq. rewrite !upd_ne by lia. lia.
        -- rewrite !upd_ne by lia. auto.
      * rewrite !upd_ne by lia. auto.
  - destruct (Z.eqb_spec c' c) as [->|D].
    + rewrite upd_eq. rewrite upd_ne by lia. rewrite upd_eq. lia.
    + rewrite !upd_ne by lia. auto.
  - pose proof (B (4 * c + 3)) as P3. unfold vbyte in P3. destruct (Z.eqb_spec c' c) as [->|D].
    + rewrite upd_eq. rewrite (upd_ne _ _ _ (4 * c)) by lia. rewrite (upd_ne _ _ _ (4 * c)) by lia. rewrite (upd_ne _ _ _ (4 * c)) by lia. rewrite upd_eq.
      rewrite (upd_ne _ _ _ (4 * c + 1)) by lia. rewrite (upd_ne _ _ _ (4 * c + 1)) by lia. rewrite upd_eq.
      rewrite (upd_ne _ _ _ (4 * c + 2)) by lia. rewrite upd_eq. lia.
    + rewrite !upd_ne by lia. auto.
Qed.

Lemma entry_ext t (b b' : Z -> Z) c N : (match t with FAT12 => 3 * c / 2 + 1 | FAT16 => 2 * c + 1 | FAT32 => 4 * c + 3 end < N) -> 0 <= c ->
  (forall i, 0 <= i < N -> b i = b' i) -> entry_of t b c = entry_of t b' c.
Proof. intros H C E. destruct t; unfold entry_of; rewrite !E by lia; auto. Qed.

Lemma room g c : geo_ok g -> 0 <= c < n_fatent g ->
  match ftype g with FAT12 => 3 * c / 2 + 1 | FAT16 => 2 * c + 1 | FAT32 => 4 * c + 3 end < fsize g * ss g.
Proof.
  intros G C. destruct (ftype g) eqn:T.
  - now apply (room12 g c).
  - now apply (room16 g c).
  - now apply (room32 g c).
Qed.
