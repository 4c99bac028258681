(* When a layout is found, if erase blocks do not matter. *)
From Verif Require Import Base FatModel MkfsModel MkfsSpec MkfsProof MkfsProof2.
Open Scope Z_scope.

Section twelve.
Variable D : drive.
Variable b_vol sz_vol : Z.
Hypothesis Ss : sizes (d_ss D).
Hypothesis B1 : d_blk D = 1.
Hypothesis Bv : b_vol = 0 \/ b_vol = 63.
Hypothesis Sv : 128 <= sz_vol.
Hypothesis Sm : b_vol + sz_vol < 4294967296.
Variable f32 : bool.

Definition used (t : fat) (p : Z) : Z := rsv0 t + fat0 D t (sz_vol / p) + dir0 D t.
Definition ncl (t : fat) (p : Z) : Z := (sz_vol - used t p) / p.
Definition bad (ty : fat) (p : Z) : bool :=
  match ty with FAT32 => (sz_vol / p <=? MAX_FAT16) || (MAX_FAT32 <? sz_vol / p) | _ => false end.

Lemma block1 : block D.
Proof. exists 0. rewrite B1. split; [lia|reflexivity]. Qed.

Lemma pass k ty au : fitting sz_vol ty au ->
  choose (S k) D b_vol sz_vol f32 ty au =
    let p := pau_of sz_vol ty au in
    let t := first_type ty (sz_vol / p) in
    if bad ty p then Ok None
    else if sz_vol <? used t p + p * 16 then Ok None
    else match t with
         | FAT32 =>
             if ncl t p <=? MAX_FAT16 then
               if (au =? 0) && negb (p / 2 =? 0) then choose k D b_vol sz_vol f32 FAT32 (p / 2) else Ok None
             else Ok (Some (made D b_vol sz_vol t p 0))
         | FAT16 =>
             if MAX_FAT16 <? ncl t p then
               if (au =? 0) && (p * 2 <=? 64) then choose k D b_vol sz_vol f32 FAT16 (p * 2)
               else if f32 then choose k D b_vol sz_vol f32 FAT32 au
               else if (au =? 0) && (p * 2 <=? 128) then choose k D b_vol sz_vol f32 FAT16 (p * 2)
               else Ok None
             else if ncl t p <=? MAX_FAT12 then
               if (au =? 0) && (p * 2 <=? 128) then choose k D b_vol sz_vol f32 FAT16 (p * 2) else Ok None
             else Ok (Some (made D b_vol sz_vol t p 0))
         | FAT12 => if MAX_FAT12 <? ncl t p then Ok None else Ok (Some (made D b_vol sz_vol t p 0))
         end.
Proof.
  intros [Ty Au].
  assert (Fi : (au = 0 \/ In au pows) /\ sz_vol <= pau_of sz_vol ty au * 134217728).
  { destruct Au as [->|[A B]].
    - split; [now left|]. pose proof (auto_fits b_vol sz_vol Bv Sm ty) as X. clear - X Sv. lia.
    - split; [now right|]. rewrite pau_au; [exact B|]. unfold pows in A. cbn [In] in A. clear - A. lia. }
  destruct Fi as [Fa Fi].
  destruct (try_shape D b_vol sz_vol Ss block1 Bv Sv ty au Ty Fa Fi) as (n & N & N0 & T). cbv zeta in T. rewrite (N0 B1) in T. clear N N0.
  cbn [choose]. rewrite T. cbv zeta. fold (bad ty (pau_of sz_vol ty au)).
  assert (P : In (pau_of sz_vol ty au) pows) by (unfold pau_of; eapply pau_in; eassumption).
  set (p := pau_of sz_vol ty au) in *. clearbody p. clear T. set (t := first_type ty (sz_vol / p)). clearbody t.
  fold (used t p).
  destruct (bad ty p); [reflexivity|].
  destruct (Z.ltb_spec sz_vol (used t p + p * 16)) as [_|L]; [reflexivity|].
  assert (Pp : 1 <= p) by (clear - P; unfold pows in P; cbn [In] in P; lia).
  assert (U : 0 <= used t p).
  { clear - Ss Pp Sv. unfold used, fat0, dir0, dirs, rsv0. pose proof (Z.div_pos sz_vol p).
    destruct Ss as [E|[E|[E|E]]]; rewrite E; destruct t; lia. }
  assert (Lt : l_type (made D b_vol sz_vol t p 0) = t) by (unfold made; destruct t; reflexivity).
  assert (Ln : l_ncl (made D b_vol sz_vol t p 0) = ncl t p).
  { unfold ncl. assert (W : w32 (sz_vol - used t p) = sz_vol - used t p) by (apply w32_id; clear - L U Sm Bv Pp; lia).
    rewrite <- W. unfold made, used. destruct t; cbn [l_ncl rsv0 dir0]; f_equal; f_equal; clear; lia. }
  rewrite Lt, Ln. destruct t; reflexivity.
Qed.


Lemma auto_val a b c d e f n : auto [a; b; c; d; e; f] n 1 =
  if a <=? n then if b <=? n then if c <=? n then if d <=? n then if e <=? n then if f <=? n then 64 else 32 else 16 else 8 else 4 else 2 else 1.
Proof. reflexivity. Qed.

(* The first cluster size and the volumes it is for. *)
Lemma first16 : exists p, pau_of sz_vol FAT16 0 = p /\
  (p = 1 /\ 128 <= sz_vol < 4096 \/ p = 2 /\ 4096 <= sz_vol < 16384 \/ p = 4 /\ 16384 <= sz_vol < 65536 \/
   p = 8 /\ 65536 <= sz_vol < 262144 \/ p = 16 /\ 262144 <= sz_vol < 1048576 \/ p = 32 /\ 1048576 <= sz_vol < 2097152 \/
   p = 64 /\ 2097152 <= sz_vol < 4294967296).
Proof.
  eexists. split; [reflexivity|]. unfold pau_of. change (0 =? 0) with true. cbv iota. unfold cst. rewrite auto_val. clear - Sv Sm Bv.
  repeat match goal with |- context [?a <=? ?b] => destruct (Z.leb_spec a b) end; lia.
Qed.
Lemma first32 : exists p, pau_of sz_vol FAT32 0 = p /\
  (p = 1 /\ 128 <= sz_vol < 131072 \/ p = 2 /\ 131072 <= sz_vol < 262144 \/ p = 4 /\ 262144 <= sz_vol < 524288 \/
   p = 8 /\ 524288 <= sz_vol < 1048576 \/ p = 16 /\ 1048576 <= sz_vol < 2097152 \/ p = 32 /\ 2097152 <= sz_vol < 4194304 \/
   p = 64 /\ 4194304 <= sz_vol < 4294967296).
Proof.
  eexists. split; [reflexivity|]. unfold pau_of. change (0 =? 0) with true. cbv iota. unfold cst32. rewrite auto_val. clear - Sv Sm Bv.
  repeat match goal with |- context [?a <=? ?b] => destruct (Z.leb_spec a b) end; lia.
Qed.

Lemma fitting0 ty : ty <> FAT12 -> fitting sz_vol ty 0.
Proof. intro H. split; [exact H|now left]. Qed.
Lemma fitting_in ty p : ty <> FAT12 -> In p pows -> sz_vol <= p * 134217728 -> fitting sz_vol ty p.
Proof. intros H P L. split; [exact H|]. right. now split. Qed.

Definition found (r : res (option layout)) : bool := match r with Ok (Some _) => true | _ => false end.

(* all sizes of a sector *)
Ltac all_ss := destruct Ss as [Es|[Es|[Es|Es]]]; unfold used, fat0, dir0, dirs, rsv0 in *; rewrite Es in *; clear Es.
Ltac cmp := repeat match goal with |- context [?a <? ?b] => destruct (Z.ltb_spec a b) | |- context [?a <=? ?b] => destruct (Z.leb_spec a b) end.


(* The volume is large enough for clusters of this size. *)
Lemma spare t p : In p pows -> 64 * p <= sz_vol -> 128 <= sz_vol -> (t = FAT32 -> 65526 * p <= sz_vol) -> (sz_vol <? used t p + p * 16) = false.
Proof.
  intros P L _ L32. apply Z.ltb_ge. unfold pows in P. cbn [In] in P.
  assert (X : 64 * p <= sz_vol -> (t = FAT32 -> 65526 * p <= sz_vol) -> rsv0 t + fat0 D t (sz_vol / p) + dir0 D t + p * 16 <= sz_vol); [|apply X; assumption].
  unfold fat0, dir0, dirs, rsv0. clear - Ss P Sv. intros L L32.
  destruct t; [clear L32|clear L32|specialize (L32 eq_refl)];
  (destruct Ss as [Es|[Es|[Es|Es]]]; rewrite Es; clear Es; repeat (destruct P as [<-|P]; [lia|]); tauto).
Qed.

Lemma good32 p : In p pows -> 65536 * p <= sz_vol -> sz_vol <= p * 134217728 -> bad FAT32 p = false.
Proof.
  intros P L U. unfold bad, MAX_FAT16, MAX_FAT32. assert (X : 65536 <= sz_vol / p <= 134217728); [|lia].
  assert (1 <= p) by (clear - P; unfold pows in P; cbn [In] in P; lia).
  split; [apply Z.div_le_lower_bound; lia|apply Z.div_le_upper_bound; lia].
Qed.

(* Twice as many clusters are enough. *)
Lemma many32 p : In p pows -> 131072 * p <= sz_vol < 268435456 * p -> (ncl FAT32 p <=? MAX_FAT16) = false.
Proof.
  intros P L. apply Z.leb_gt. unfold ncl, used, MAX_FAT16, fat0, dir0, dirs, rsv0. unfold pows in P. cbn [In] in P. clear - Ss P L.
  destruct Ss as [Es|[Es|[Es|Es]]]; rewrite Es; clear Es; repeat (destruct P as [<-|P]; [lia|]); tauto.
Qed.

Lemma fl512 : fat32_least 512 = 66075. Proof. reflexivity. Qed.
Lemma fl1024 : fat32_least 1024 = 65816. Proof. reflexivity. Qed.
Lemma fl2048 : fat32_least 2048 = 65687. Proof. reflexivity. Qed.
Lemma fl4096 : fat32_least 4096 = 65623. Proof. reflexivity. Qed.

Lemma fat32_try k : found (choose (S (S k)) D b_vol sz_vol f32 FAT32 0) = (fat32_least (d_ss D) <=? sz_vol).
Proof.
  rewrite pass by (apply fitting0; discriminate).
  destruct first32 as (p & E & C). cbv zeta. rewrite E. clear E. unfold first_type.
  change (0 =? 0) with true. cbn [andb].
  destruct (Z.eqb_spec p 1) as [->|N].
  - assert (Sz : 128 <= sz_vol < 131072) by (clear - C; lia). clear C. change (negb (1 / 2 =? 0)) with false. cbv iota.
    unfold bad, ncl, used, fat0, dir0, dirs, rsv0, MAX_FAT16, MAX_FAT32. rewrite !Z.div_1_r.
    destruct (Z.leb_spec sz_vol 65525) as [L|L]; cbn [orb found].
    { clear - L Ss. destruct Ss as [Es|[Es|[Es|Es]]]; rewrite Es; symmetry; apply Z.leb_gt; rewrite ?fl512, ?fl1024, ?fl2048, ?fl4096; lia. }
    destruct (Z.ltb_spec 268435445 sz_vol) as [L2|_]; [clear - L2 Sz; lia|].
    destruct Ss as [Es|[Es|[Es|Es]]]; rewrite Es; clear Es; rewrite ?fl512, ?fl1024, ?fl2048, ?fl4096; clear - Sz L; cmp; cbn [found]; lia.
  - assert (Sz : 131072 <= sz_vol) by (clear - C N; lia).
    assert (Y : In p pows /\ In (p / 2) pows /\ p / 2 <> 0 /\ 65536 * p <= sz_vol /\ sz_vol <= p * 67108864 /\ p = 2 * (p / 2)).
    { clear - C N. unfold pows. cbn [In]. repeat (destruct C as [[-> C]|C]); try destruct C as [-> C]; cbn; lia. }
    destruct Y as (Y1 & Y2 & Y3 & Y4 & Y5 & Y6).
    assert (Yp : 1 <= p) by (clear - Y1; unfold pows in Y1; cbn [In] in Y1; lia).
    transitivity true.
    2:{ symmetry. apply Z.leb_le. clear - Sz Ss. destruct Ss as [Es|[Es|[Es|Es]]]; rewrite Es; rewrite ?fl512, ?fl1024, ?fl2048, ?fl4096; lia. }
    rewrite good32, spare; try assumption; try (clear - Y4 Y5 Yp; lia).
    destruct (ncl FAT32 p <=? MAX_FAT16); [|reflexivity].
    rewrite (proj2 (Z.eqb_neq (p / 2) 0) Y3). cbn [negb].
    rewrite pass by (apply fitting_in; [discriminate|exact Y2|clear - Y5 Y6; lia]). cbv zeta.
    rewrite !pau_au by exact Y3. unfold first_type.
    rewrite good32, spare, many32; try assumption; try (clear - Y4 Y5 Yp Y6; lia). reflexivity.
Qed.

Lemma ncl_least t p : 1 <= p -> 0 <= used t p -> ncl t p <= sz_vol / p.
Proof. intros P U. unfold ncl. apply Z.div_le_mono; lia. Qed.
Lemma used_pos t p : 1 <= p -> 0 <= used t p.
Proof.
  intro P. clear - Ss P Sv. unfold used, fat0, dir0, dirs, rsv0. pose proof (Z.div_pos sz_vol p).
  destruct Ss as [E|[E|[E|E]]]; rewrite E; destruct t; lia.
Qed.

(* A pass which finds a FAT12 volume; a FAT16 volume. *)
Lemma found12 k au p : fitting sz_vol FAT16 au -> pau_of sz_vol FAT16 au = p -> In p pows -> 64 * p <= sz_vol ->
  sz_vol / p <= 4085 -> found (choose (S k) D b_vol sz_vol f32 FAT16 au) = true.
Proof.
  intros F E P L C. rewrite pass by exact F. cbv zeta. rewrite E. unfold bad, first_type, MAX_FAT12.
  assert (Pp : 1 <= p) by (clear - P; unfold pows in P; cbn [In] in P; lia).
  rewrite (proj2 (Z.ltb_ge 4085 (sz_vol / p)) C).
  rewrite spare; try assumption; [|discriminate].
  pose proof (ncl_least FAT12 p Pp (used_pos FAT12 p Pp)) as N.
  destruct (Z.ltb_spec 4085 (ncl FAT12 p)) as [X|_]; [clear - X N C; lia|reflexivity].
Qed.
Lemma found16 k au p : fitting sz_vol FAT16 au -> pau_of sz_vol FAT16 au = p -> In p pows -> 64 * p <= sz_vol ->
  4085 < sz_vol / p -> 4085 < ncl FAT16 p <= 65525 -> found (choose (S k) D b_vol sz_vol f32 FAT16 au) = true.
Proof.
  intros F E P L C N. rewrite pass by exact F. cbv zeta. rewrite E. unfold bad, first_type, MAX_FAT12, MAX_FAT16.
  rewrite (proj2 (Z.ltb_lt 4085 (sz_vol / p)) C).
  rewrite spare; try assumption; [|discriminate].
  rewrite (proj2 (Z.ltb_ge _ _) (proj2 N)), (proj2 (Z.leb_gt _ _) (proj1 N)). reflexivity.
Qed.

(* Too few clusters for FAT16: FAT12 with clusters of twice the size. *)
Lemma fewer p : In p [1; 2; 4; 8; 16; 32; 64] -> ncl FAT16 p <= 4085 -> sz_vol < 1048576 -> sz_vol / (p * 2) <= 4085.
Proof.
  intros P N U. unfold ncl, used, fat0, dir0, dirs, rsv0 in N. cbn [In] in P. clear - Ss P N U.
  destruct Ss as [Es|[Es|[Es|Es]]]; rewrite Es in N; clear Es; repeat (destruct P as [<-|P]; [lia|]); tauto.
Qed.
(* Too many: half of them. *)
Lemma halved p : (p = 16 /\ sz_vol < 1048576 \/ p = 32 /\ sz_vol < 2097152) -> 65525 < ncl FAT16 p ->
  4085 < sz_vol / (p * 2) /\ 4085 < ncl FAT16 (p * 2) <= 65525.
Proof.
  intros P N. unfold ncl, used, fat0, dir0, dirs, rsv0 in *. clear - Ss P N.
  destruct Ss as [Es|[Es|[Es|Es]]]; rewrite Es in *; clear Es; destruct P as [[-> U]|[-> U]]; lia.
Qed.
Lemma few p : p = 1 /\ 128 <= sz_vol < 4096 \/ p = 2 /\ 4096 <= sz_vol < 16384 \/ p = 4 /\ 16384 <= sz_vol < 65536 \/
   p = 8 /\ 65536 <= sz_vol < 262144 -> ncl FAT16 p <= 65525.
Proof.
  intro P. assert (Pp : 1 <= p) by lia. pose proof (ncl_least FAT16 p Pp (used_pos FAT16 p Pp)) as N. clear - P N.
  repeat (destruct P as [[-> P]|P]); try destruct P as [-> P]; lia.
Qed.
Lemma large p : (p = 16 /\ 262144 <= sz_vol \/ p = 32 /\ 1048576 <= sz_vol \/ p = 64 /\ 2097152 <= sz_vol \/ p = 128 /\ 2097152 <= sz_vol) ->
  sz_vol < 4294967296 -> 4085 < ncl FAT16 p.
Proof.
  intros P U. unfold ncl, used, fat0, dir0, dirs, rsv0 in *. clear - Ss P U.
  destruct Ss as [Es|[Es|[Es|Es]]]; rewrite Es in *; clear Es; repeat (destruct P as [[-> P]|P]); try destruct P as [-> P]; lia.
Qed.
Lemma largest : 2097152 <= sz_vol < 4294967296 -> ncl FAT16 128 <= 65525 <-> sz_vol <= fat_limit (d_ss D).
Proof.
  intros U. unfold ncl, used, fat0, dir0, dirs, rsv0, fat_limit in *. clear - Ss U.
  destruct Ss as [Es|[Es|[Es|Es]]]; rewrite Es in *; clear Es; lia.
Qed.
Lemma limit64 : 2097152 <= sz_vol < 4294967296 -> ncl FAT16 64 <= 65525 -> sz_vol <= fat_limit (d_ss D).
Proof.
  intros U. unfold ncl, used, fat0, dir0, dirs, rsv0, fat_limit in *. clear - Ss U.
  destruct Ss as [Es|[Es|[Es|Es]]]; rewrite Es in *; clear Es; lia.
Qed.
Lemma limit_big : 8387328 <= fat_limit (d_ss D).
Proof. unfold fat_limit. clear - Ss. destruct Ss as [Es|[Es|[Es|Es]]]; rewrite Es in *; clear Es; lia. Qed.

Lemma fat_try k : found (choose (S (S (S k))) D b_vol sz_vol f32 FAT16 0) = if f32 then true else sz_vol <=? fat_limit (d_ss D).
Proof.
  pose proof limit_big as Lb.
  destruct first16 as (p & E & C).
  assert (P : In p [1; 2; 4; 8; 16; 32; 64]) by (clear - C; cbn [In]; lia).
  assert (P1 : In p pows) by (clear - P; unfold pows; cbn [In] in *; lia).
  assert (P2 : In (p * 2) pows) by (apply pows_double; exact P).
  assert (Pp : 1 <= p) by (clear - C; lia).
  assert (L : 64 * p <= sz_vol /\ (4085 < sz_vol / p -> 64 * (p * 2) <= sz_vol)).
  { split; [clear - C; lia|]. intro X. pose proof (Z.mul_div_le sz_vol p). clear - X H C. nia. }
  destruct L as [L L2].
  destruct (Z.leb_spec (sz_vol / p) 4085) as [C1|C1].
  { rewrite (found12 _ 0 p); auto using fitting0; [|apply fitting0; discriminate].
    destruct f32; [reflexivity|]. symmetry. apply Z.leb_le. pose proof (Z.mul_succ_div_gt sz_vol p). clear - C C1 Lb H. nia. }
  specialize (L2 C1).
  assert (Fp : sz_vol <= p * 67108864) by (clear - C; lia).
  assert (F2 : fitting sz_vol FAT16 (p * 2)) by (apply fitting_in; [discriminate|exact P2|clear - Fp Pp; lia]).
  assert (E2 : pau_of sz_vol FAT16 (p * 2) = p * 2) by (apply pau_au; clear - Pp; lia).
  rewrite pass by (apply fitting0; discriminate). cbv zeta. rewrite E. unfold bad, first_type, MAX_FAT12, MAX_FAT16.
  rewrite (proj2 (Z.ltb_lt _ _) C1). rewrite spare; try assumption; [|discriminate].
  change (0 =? 0) with true. cbn [andb].
  destruct (Z.ltb_spec 65525 (ncl FAT16 p)) as [N|N].
  - destruct (Z.leb_spec (p * 2) 64) as [A|A].
    + assert (H : p = 16 /\ sz_vol < 1048576 \/ p = 32 /\ sz_vol < 2097152).
      { pose proof (few p) as X. clear - X C N A. lia. }
      destruct (halved p H N) as [H1 H2]. rewrite (found16 _ (p * 2) (p * 2)); auto.
      destruct f32; [reflexivity|]. symmetry. apply Z.leb_le. clear - H Lb. lia.
    + assert (p = 64 /\ 2097152 <= sz_vol < 4294967296) as [-> U] by (clear - C A; lia).
      destruct f32 eqn:Ef.
      * pose proof (fat32_try k) as Y. rewrite Ef in Y. rewrite Y. apply Z.leb_le.
        clear - U Ss. destruct Ss as [Es|[Es|[Es|Es]]]; rewrite Es; rewrite ?fl512, ?fl1024, ?fl2048, ?fl4096; lia.
      * change (64 * 2 <=? 128) with true. cbv iota. change (64 * 2) with 128 in *.
        assert (Big : 4085 < sz_vol / 128) by (clear - U; lia).
        pose proof (large 128) as Lg. pose proof (largest U) as Lm.
        assert (X1 : 4085 < ncl FAT16 128) by (apply Lg; [clear - U; lia|apply U]).
        destruct (Z.leb_spec sz_vol (fat_limit (d_ss D))) as [Q|Q].
        { pose proof (found16 (S k) 128 128) as Y. rewrite Ef in Y. apply Y; auto. split; [exact X1|now apply Lm]. }
        pose proof (pass (S k) FAT16 128 F2) as Y. rewrite Ef in Y. rewrite Y. clear Y. cbv zeta. rewrite E2. unfold bad, first_type, MAX_FAT12, MAX_FAT16.
        rewrite (proj2 (Z.ltb_lt _ _) Big). rewrite spare; try assumption; [|discriminate].
        destruct (Z.ltb_spec 65525 (ncl FAT16 128)) as [X|X]; [reflexivity|]. apply Lm in X. clear - X Q. lia.
  - destruct (Z.leb_spec (ncl FAT16 p) 4085) as [M|M].
    + assert (U : sz_vol < 1048576 /\ p <= 64).
      { pose proof (large p) as Lg. clear - Lg C M. lia. }
      destruct U as [U Up]. rewrite (proj2 (Z.leb_le (p * 2) 128)) by (clear - Up; lia).
      rewrite (found12 _ (p * 2) (p * 2)); auto; [|now apply fewer].
      destruct f32; [reflexivity|]. symmetry. apply Z.leb_le. clear - U Lb. lia.
    + cbn [found]. destruct f32; [reflexivity|]. symmetry. apply Z.leb_le.
      destruct (Z.eqb_spec p 64) as [->|Np]; [apply limit64; [clear - C; lia|exact N]|clear - C Np Lb; lia].
Qed.
End twelve.
