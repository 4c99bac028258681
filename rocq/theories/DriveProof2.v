(* Proofs about the tables and sizes shown, and the speed test. *)
From Coq Require Import String Ascii Lia.
From Verif Require Import Base ExecModel DirModel DirProof2 DriveModel DriveSpec.
Open Scope Z_scope.

Lemma mbytes_ok n : 0 <= n < 2 ^ 52 -> exists a b, mbytes n = digits a ++ [46] ++ digits b /\ 0 <= a /\ 0 <= b <= 9 /\
  (10 * a + b) * 1048576 <= 10 * n < (10 * a + b + 1) * 1048576.
Proof.
  intros N. exists (n / 1048576), (n * 10 / 1048576 mod 10). unfold mbytes. rewrite !Z.div_div by lia. change (1024 * 1024) with 1048576.
  rewrite (Z.mod_small (n * 10)) by lia.
  assert (A : 0 <= n / 1048576 < 2 ^ 32) by (split; [apply Z.div_pos; lia|apply Z.div_lt_upper_bound; lia]). rewrite (Z.mod_small (n / 1048576)) by exact A.
  split; [reflexivity|]. split; [lia|]. split; [pose proof (Z.mod_pos_bound (n * 10 / 1048576) 10); lia|].
  pose proof (Z.div_mod n 1048576 ltac:(lia)). pose proof (Z.mod_pos_bound n 1048576 ltac:(lia)).
  pose proof (Z.div_mod (n * 10) 1048576 ltac:(lia)). pose proof (Z.mod_pos_bound (n * 10) 1048576 ltac:(lia)).
  set (q := n / 1048576) in *. set (w := n * 10 / 1048576) in *.
  assert (W : w / 10 = q). { symmetry. apply Z.div_unique with (w - 10 * q); lia. }
  pose proof (Z.div_mod w 10 ltac:(lia)). lia.
Qed.

Lemma kb_ok n b : (b = 512 \/ exists k, 0 <= k /\ b = 1024 * 2 ^ k) -> 0 <= n -> n * b < 2 ^ 42 -> blk_to_kbytes n b = kbytes n b.
Proof.
  intros B N L. unfold blk_to_kbytes, kbytes. destruct B as [->|(k & K & ->)].
  - cbn [Z.eqb]. change (512 <? 1024) with true. cbv iota. change (1024 / 512) with 2. replace (n * 512) with (n * 512) by lia.
    change 1024 with (2 * 512). rewrite Z.div_mul_cancel_r by lia. reflexivity.
  - assert (P : 1 <= 2 ^ k) by (pose proof (Z.pow_pos_nonneg 2 k); lia). rewrite (proj2 (Z.eqb_neq _ 0)), (proj2 (Z.ltb_ge _ 1024)) by lia.
    replace (1024 * 2 ^ k) with (2 ^ k * 1024) by lia. rewrite Z.div_mul by lia. rewrite Z.mul_assoc, Z.div_mul by lia. apply Z.mod_small. split; [apply Z.mul_nonneg_nonneg; lia|].
    replace (n * (1024 * 2 ^ k)) with (n * 2 ^ k * 1024) in L by lia. change (2 ^ 42) with (2 ^ 32 * 1024) in L. lia.
Qed.
Lemma kind_ok t : 0 < t -> type_name t = kind_of_fs t.
Proof.
  intros T. unfold kind_of_fs. destruct (Z.lt_ge_cases t 5) as [L|L].
  - assert (C : t = 1 \/ t = 2 \/ t = 3 \/ t = 4) by lia. destruct C as [->|[->|[->| ->]]]; reflexivity.
  - rewrite nth_overflow by (change (List.length (map str ["Unknwn"; "FAT-12"; "FAT-16"; "FAT-32"; " exFAT"]%string)) with 5%nat; lia).
    destruct t as [|p|p]; try lia. do 3 (destruct p as [p|p|]; try reflexivity; try lia).
Qed.
Lemma row_ok d f : 0 <= d <= 1 -> fs_ok f -> exists p, show d (Some f) =
    row d f (kbytes (f_blocks f) (f_bsize f)) (kbytes (f_blocks f - f_bfree f) (f_bsize f)) (kbytes (f_bfree f) (f_bsize f)) p /\
  2 * p * f_blocks f <= 200 * (f_blocks f - f_bfree f) + f_blocks f < 2 * (p + 1) * f_blocks f /\ 0 <= p <= 100.
Proof.
  intros D (B & F & A & L & S & T). destruct f as [t b n fr av]. cbn [f_type f_bsize f_blocks f_bfree f_bavail] in *. subst av.
  assert (Bp : 0 < b) by (destruct B as [->|(k & K & ->)]; [lia|pose proof (Z.pow_pos_nonneg 2 k); lia]).
  set (p := (200 * (n - fr) + n) / (2 * n)). assert (P : 2 * n * p <= 200 * (n - fr) + n < 2 * n * p + 2 * n).
  { unfold p. pose proof (Z.div_mod (200 * (n - fr) + n) (2 * n) ltac:(lia)). pose proof (Z.mod_pos_bound (200 * (n - fr) + n) (2 * n) ltac:(lia)). lia. }
  assert (P2 : 0 <= p <= 100). { split; [unfold p; apply Z.div_pos; lia|]. apply Z.lt_succ_r. unfold p. apply Z.div_lt_upper_bound; lia. }
  exists p. split; [|split; [nia|exact P2]]. unfold show, row. cbn [f_type f_bsize f_blocks f_bfree f_bavail].
  rewrite (Z.mod_small (n - fr)) by lia. replace (fr + (n - fr)) with n by lia. rewrite (Z.mod_small n) by lia. rewrite (proj2 (Z.eqb_neq n 0)) by lia.
  rewrite (Z.mod_small ((n - fr) * 200 + n)) by lia. rewrite Z.div_div by lia. replace ((n - fr) * 200 + n) with (200 * (n - fr) + n) by lia. replace (n * 2) with (2 * n) by lia. fold p.
  rewrite (Z.mod_small p) by lia. rewrite kind_ok by exact T. rewrite !kb_ok by (try exact B; try lia; nia).
  assert (C : d = 0 \/ d = 1) by lia. destruct C as [-> | ->]; rewrite <- ?app_assoc; reflexivity.
Qed.
Lemma row_none d : 0 <= d <= 1 -> show d None = str (if d =? 0 then "flash:     ---" else "   sd:     ---") ++ [13; 10].
Proof. intros D. assert (C : d = 0 \/ d = 1) by lia. destruct C as [-> | ->]; reflexivity. Qed.

(* --- free --- *)

Lemma three r : 0 <= r < 1000 -> pad_left 48 3 (digits r) = [48 + r / 100; 48 + r / 10 mod 10; 48 + r mod 10].
Proof.
  intros H. assert (A : forallb (fun k => let r := Z.of_nat k in if list_eq_dec Z.eq_dec (pad_left 48 3 (digits r)) [48 + r / 100; 48 + r / 10 mod 10; 48 + r mod 10] then true else false) (seq 0 1000) = true) by (vm_compute; reflexivity).
  rewrite forallb_forall in A. specialize (A (Z.to_nat r)). rewrite in_seq, Z2Nat.id in A by lia. specialize (A ltac:(lia)). cbv zeta in A.
  match type of A with context[list_eq_dec ?d ?x ?y] => destruct (list_eq_dec d x y) as [E|] end; [exact E|discriminate A].
Qed.
Lemma group n : 1000 <= n < 1000000 -> digits n = digits (n / 1000) ++ pad_left 48 3 (digits (n mod 1000)).
Proof.
  intros H. pose proof (Z.div_mod n 1000 ltac:(lia)). pose proof (Z.mod_pos_bound n 1000 ltac:(lia)) as R. rewrite three by exact R. set (q := n / 1000) in *. set (r := n mod 1000) in *.
  assert (Q : 1 <= q < 1000) by lia.
  pose proof (Z.div_mod r 10 ltac:(lia)). pose proof (Z.mod_pos_bound r 10 ltac:(lia)). set (r1 := r / 10) in *. set (c := r mod 10) in *.
  pose proof (Z.div_mod r1 10 ltac:(lia)). pose proof (Z.mod_pos_bound r1 10 ltac:(lia)). assert (E : r / 100 = r1 / 10) by (unfold r1; rewrite Z.div_div by lia; reflexivity). rewrite E.
  set (a := r1 / 10) in *. set (b := r1 mod 10) in *.
  replace n with (10 * (10 * (10 * q + a) + b) + c) by lia. rewrite !digits_step by lia. rewrite <- !app_assoc. reflexivity.
Qed.
Lemma free_ok name size : 0 <= size < 1000000 -> exists a b, print_value name size = name ++ str ": " ++ a ++ b ++ str " bytes" ++ [13; 10] /\
  if size <? 1000 then a = digits size /\ b = [] else exists c, b = 44 :: c /\ length c = 3%nat /\ a ++ c = digits size.
Proof.
  intros S. unfold print_value. destruct (Z.ltb_spec size 1000) as [L|L].
  - exists (digits size), []. auto.
  - exists (digits (size / 1000)), (44 :: pad_left 48 3 (digits (size mod 1000))). rewrite <- !app_assoc. split; [reflexivity|]. eexists. split; [reflexivity|]. split.
    + rewrite three by (apply Z.mod_pos_bound; lia). reflexivity.
    + symmetry. apply group. lia.
Qed.

(* --- the speed test --- *)

Lemma blocks_ok bad c : (forall k, bad k = false) -> forall n i k, blocks bad c n i k = (repeat c n, None, (k + n)%nat).
Proof.
  intros H. induction n as [|n IH]; intros i k; [now rewrite Nat.add_0_r|]. cbn [blocks]. rewrite H, IH. cbn [repeat]. now rewrite Nat.add_succ_r.
Qed.
Lemma speed_ok bad f : (forall k, bad k = false) -> 0 <= f_bavail f < 2 ^ 32 -> 0 <= f_bsize f < 2 ^ 20 -> 1048576 <= f_bavail f * f_bsize f ->
  exists mb, 1 <= mb <= 8 /\ mb * 1048576 <= f_bavail f * f_bsize f /\ (mb = 8 \/ f_bavail f * f_bsize f < (mb + 1) * 1048576) /\
  let n := Z.to_nat (256 * mb) in
  test_speed bad f = (COpen :: repeat CWrite n ++ CRewind :: repeat CRead n ++ [CClose; CUnlink], Tested mb).
Proof.
  intros H A B L. unfold test_speed. rewrite Z.div_div by lia. change (1024 * 1024) with 1048576. set (x := f_bavail f * f_bsize f) in *.
  assert (U : x < 2 ^ 52) by (unfold x; change (2 ^ 52) with (2 ^ 32 * 2 ^ 20); nia).
  assert (Q : 1 <= x / 1048576 < 2 ^ 32) by (split; [apply Z.div_le_lower_bound; lia|apply Z.div_lt_upper_bound; lia]). rewrite (Z.mod_small (x / 1048576)) by lia.
  pose proof (Z.div_mod x 1048576 ltac:(lia)) as DM. pose proof (Z.mod_pos_bound x 1048576 ltac:(lia)) as MB. set (q := x / 1048576) in *. rewrite (proj2 (Z.ltb_ge q 1)) by lia. rewrite H.
  set (mb := if q <? 8 then q else 8). exists mb. assert (M : 1 <= mb <= 8 /\ mb <= q /\ (mb = 8 \/ mb = q)) by (unfold mb; destruct (Z.ltb_spec q 8); lia).
  split; [lia|]. split; [lia|]. split; [lia|]. cbv zeta. replace (mb * 1024 / 4) with (256 * mb) by (replace (mb * 1024) with (256 * mb * 4) by lia; now rewrite Z.div_mul by lia).
  rewrite !blocks_ok by exact H. rewrite !H. reflexivity.
Qed.
(* closed and removed if it was made *)
Definition tidy (l : list call) : Prop := In COpen l -> In CClose l /\ In CUnlink l.
Lemma speed_refuted : ~ forall bad f cs r, test_speed bad f = (cs, r) -> r <> Cannot -> tidy cs.
Proof.
  intros H. set (bad := fun k : nat => (k =? 1)%nat). set (f := Info 2 4096 1000 1000 1000).
  specialize (H bad f (fst (test_speed bad f)) (snd (test_speed bad f))). vm_compute in H. destruct (H eq_refl ltac:(discriminate) (or_introl eq_refl)) as [[E|[E|[]]] _]; discriminate.
Qed.
