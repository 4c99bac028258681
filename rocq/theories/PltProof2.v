From Verif Require Import Base BaseLemmas PltModel PltSpec PltProof.
Open Scope Z_scope.

Fixpoint pick (k : Z) (l : list (option Z)) : list (Z * Z) :=
  match l with [] => [] | None :: l => pick (k + 1) l | Some v :: l => (k, v) :: pick (k + 1) l end.
Lemma pick_iff m a l : forall k, bytes_at m (a + k) l <-> Forall (fun p => m (a + fst p) = snd p) (pick k l).
Proof.
  induction l as [|[v|] l IH]; intros k; cbn [pick].
  - rewrite bytes_at_nil. split; auto.
  - rewrite bytes_at_cons. replace (a + k + 1) with (a + (k + 1)) by lia. rewrite IH. split; [intros [? ?]; constructor; auto|intros H; inversion H; subst; auto].
  - rewrite bytes_at_cons. replace (a + k + 1) with (a + (k + 1)) by lia. rewrite IH. tauto.
Qed.
Lemma tests_at fsz m a l : 0 <= a -> a + Z.of_nat (length l) <= fsz -> exists b, tests8 fsz m a (pick 0 l) = Ok b /\ (b = true <-> bytes_at m a l).
Proof.
  intros A F. destruct (tests8_ok fsz m a (pick 0 l)) as (b & E & B).
  - assert (G : forall k, 0 <= k -> a + k + Z.of_nat (length l) <= fsz -> Forall (fun p => inside fsz (a + fst p) 1 = true) (pick k l)); [|apply G; lia].
    clear F. induction l as [|[v|] l IH]; intros k K L; cbn [pick length] in *; [constructor| |apply IH; lia].
    constructor; [cbn; unfold inside; lia|apply IH; lia].
  - exists b. split; [auto|]. rewrite B, <- pick_iff. now rewrite Z.add_0_r.
Qed.

(* amd64 *)
Definition P1 := [Some 0xf3; Some 0x0f; Some 0x1e; Some 0xfa; Some 0xff; Some 0x25; None; None; None; None; Some 0x66; Some 0x0f; Some 0x1f; Some 0x44].
Lemma entry_at fsz m a : 0 <= a -> a + 16 <= fsz -> exists b, is_amd64_entry fsz m a = Ok b /\ (b = true <-> bytes_at m a P1).
Proof. intros A F. apply (tests_at fsz m a P1 A). cbn. lia. Qed.
Lemma entry2_at fsz m a : 0 <= a -> a + 16 <= fsz -> exists b, is_amd64_entry2 fsz m a = Ok b /\ (b = true <-> bytes_at m a [Some 0xff; Some 0x25]).
Proof. intros A F. apply (tests_at fsz m a [Some 0xff; Some 0x25] A). cbn. lia. Qed.
Lemma first_at fsz m a : 0 <= a -> a + 16 <= fsz -> exists b, is_amd64_preamble fsz m a = Ok b /\ (b = true <-> amd64_first m a).
Proof. intros A F. apply (tests_at fsz m a [Some 0xff; Some 0x35; None; None; None; None; Some 0xff; Some 0x25; None; None; None; None; Some 0x0f; Some 0x1f; Some 0x40; Some 0] A). cbn. lia. Qed.

Lemma imm_bytes m b i8 l : 0 <= i8 < 4294967296 ->
  bytes_at m b (map (fun v => Some (v mod 256)) ([101; 255; 36; 37] ++ [i8; Z.shiftr i8 8; Z.shiftr i8 16; Z.shiftr i8 24] ++ l)) ->
  bytes_at m b [Some 0x65; Some 0xff; Some 0x24; Some 0x25] /\ w32 m (b + 4) = i8.
Proof.
  intros I H. cbn [map app] in H. repeat (rewrite bytes_at_cons in H; let X := fresh "X" in destruct H as [X H]).
  split; [repeat (rewrite bytes_at_cons; split; [assumption|]); now rewrite bytes_at_nil|].
  unfold w32. cbn [load_le]. replace (b + 4) with (b + 1 + 1 + 1 + 1) by lia. rewrite X3, X4, X5, X6. rewrite !Z.shiftr_div_pow2 by lia. change (2 ^ 8) with 256. change (2 ^ 16) with 65536. change (2 ^ 24) with 16777216.
  Z.to_euclidean_division_equations; lia.
Qed.

Lemma first_ext m m' a : (forall x, a <= x < a + 16 -> m' x = m x) -> amd64_first m a -> amd64_first m' a.
Proof. intros E. apply bytes_at_ext; intros; apply E; cbn in *; lia. Qed.
Lemma stub_ext m m' a : (forall x, a <= x < a + 16 -> m' x = m x) -> amd64_stub m a -> amd64_stub m' a.
Proof. intros E [Q|Q]; [left|right]; (eapply bytes_at_ext; [|exact Q]); intros; apply E; cbn in *; lia. Qed.
Lemma jumps_ext m m' a d : (forall x, a <= x < a + 16 -> m' x = m x) -> amd64_jumps m a d -> amd64_jumps m' a d.
Proof.
  intros E (c & C & B & W). exists c. split; [destruct C as [-> |[-> C]]; [auto|right; split; [auto|]]; eapply bytes_at_ext; [|exact C]; intros; apply E; cbn in *; lia|].
  assert (a <= c <= a + 4) by (destruct C as [-> |[-> _]]; lia). split; [eapply bytes_at_ext; [|exact B]; intros; apply E; cbn in *; lia|]. rewrite <- W. unfold w32. apply load_le_ext. intros. apply E. lia.
Qed.
Lemma amd64_other fsz m a n : 0 <= a -> a + 16 <= fsz -> amd64_first m a -> amd64_step fsz m a n = Ok (Some (m, n)).
Proof. intros B0 B1 Q. unfold amd64_step. destruct (first_at fsz m a B0 B1) as (r & E & R). rewrite E. cbn [bind]. now rewrite (proj2 R Q). Qed.
Lemma amd64_one fsz m b n : 0 <= b -> b + 16 <= fsz -> amd64_stub m b -> 0 <= n < 536870912 ->
  exists m', amd64_step fsz m b n = Ok (Some (m', n + 1)) /\ (forall x, x < b \/ b + 16 <= x -> m' x = m x) /\ amd64_jumps m' b (8 * n).
Proof.
  intros B0 B1 Q N. unfold amd64_step. destruct (first_at fsz m b B0 B1) as (r & E & R). rewrite E. cbn [bind].
  assert (r = false) as ->.
  { destruct r; [|auto]. exfalso. pose proof (proj1 R eq_refl 1%nat _ eq_refl) as X1. pose proof (proj1 R eq_refl 0%nat _ eq_refl) as X0.
    destruct Q as [Q|Q]; pose proof (Q 0%nat _ eq_refl); pose proof (Q 1%nat _ eq_refl); lia. }
  assert (Wn : word (n * 8) = 8 * n) by (unfold word; rewrite Z.mod_small; lia). assert (W1 : word (n + 1) = n + 1) by (unfold word; rewrite Z.mod_small; lia). rewrite Wn, W1. cbv zeta.
  destruct (entry_at fsz m b B0 B1) as (r1 & E1 & R1). rewrite E1. cbn [bind]. destruct r1.
  - set (l := ([101; 255; 36; 37] ++ _)%list). destruct (puts8_ok fsz l m (b + 4)) as (m2 & E2 & O2 & B2); [lia|unfold l; cbn; lia|]. rewrite E2. cbn [bind]. exists m2. split; [auto|].
    change (Z.of_nat (length l)) with 12 in O2. split; [intros x X; apply O2; lia|]. unfold l in B2. apply imm_bytes in B2 as [B2 W2]; [|lia].
    exists (b + 4). split; [|split; auto]. right. split; [auto|]. pose proof (proj1 R1 eq_refl) as X. clear - X O2. intros k v K.
    assert (k < 4)%nat by (destruct k as [|[|[|[|k]]]]; try lia; destruct k; discriminate). rewrite O2 by lia.
    apply X. destruct k as [|[|[|[|k]]]]; try exact K. lia.
  - destruct (entry2_at fsz m b B0 B1) as (r2 & E3 & R2). rewrite E3. cbn [bind]. assert (r2 = true) as -> by (apply R2; destruct Q as [Q|Q]; [exfalso; apply R1 in Q; discriminate|auto]).
    set (l := ([101; 255; 36; 37] ++ _)%list). destruct (puts8_ok fsz l m b) as (m2 & E2 & O2 & B2); [lia|unfold l; cbn; lia|]. rewrite E2. cbn [bind]. exists m2. split; [auto|].
    change (Z.of_nat (length l)) with 16 in O2. split; [intros x X; apply O2; lia|]. unfold l in B2. apply imm_bytes in B2 as [B2 W2]; [|lia]. exists b. auto.
Qed.
Lemma amd64_none fsz m a n : 0 <= a -> a + 16 <= fsz -> ~ amd64_first m a -> ~ amd64_stub m a -> amd64_step fsz m a n = Ok None.
Proof.
  intros B0 B1 NF NS. unfold amd64_step. destruct (first_at fsz m a B0 B1) as (r & E & R). rewrite E. cbn [bind]. destruct r; [exfalso; tauto|]. cbv zeta.
  destruct (entry_at fsz m a B0 B1) as (r1 & E1 & R1). rewrite E1. cbn [bind]. destruct r1; [exfalso; apply NS; left; tauto|].
  destruct (entry2_at fsz m a B0 B1) as (r2 & E3 & R2). rewrite E3. cbn [bind]. destruct r2; [exfalso; apply NS; right; tauto|]. auto.
Qed.

Lemma amd64_ok fsz m a ks : 0 <= a -> a + 16 * Z.of_nat (length ks) <= fsz -> before ks (length ks) <= 536870912 ->
  (forall i k, nth_error ks i = Some k -> if k then amd64_stub m (a + 16 * Z.of_nat i) else amd64_first m (a + 16 * Z.of_nat i)) ->
  exists m', process_amd64_plt fsz m a (16 * Z.of_nat (length ks)) = Ok (Done m' (before ks (length ks))) /\
    (forall x, x < a \/ a + 16 * Z.of_nat (length ks) <= x -> m' x = m x) /\
    (forall i, nth_error ks i = Some true -> amd64_jumps m' (a + 16 * Z.of_nat i) (8 * before ks i)) /\
    (forall i x, nth_error ks i = Some false -> a + 16 * Z.of_nat i <= x < a + 16 * Z.of_nat i + 16 -> m' x = m x).
Proof.
  intros A F L H. unfold process_amd64_plt.
  destruct (scan_ok fsz 16 536870912 (amd64_step fsz) amd64_first amd64_stub (fun m a n => amd64_jumps m a (8 * n)) ltac:(lia) first_ext stub_ext (fun m m' a n => jumps_ext m m' a (8 * n)) (amd64_other fsz) (amd64_one fsz) (amd64_none fsz)
    ks (Z.to_nat (16 * Z.of_nat (length ks)) + 1)%nat m a 0) as (m' & E & O & J & U); [lia|auto|auto|lia|lia|auto|]. exists m'. rewrite E. split; [do 2 f_equal; lia|]. split; [auto|]. split; [|auto].
  intros i I. specialize (J i I). now rewrite Z.add_0_l in J.
Qed.
Lemma amd64_bad fsz m a ks size : 0 <= a -> a + size <= fsz -> 16 * Z.of_nat (S (length ks)) <= size -> before ks (length ks) <= 536870912 ->
  (forall i k, nth_error ks i = Some k -> if k then amd64_stub m (a + 16 * Z.of_nat i) else amd64_first m (a + 16 * Z.of_nat i)) ->
  ~ amd64_stub m (a + 16 * Z.of_nat (length ks)) -> ~ amd64_first m (a + 16 * Z.of_nat (length ks)) ->
  exists m', process_amd64_plt fsz m a size = Ok (Exit m' (before ks (length ks))).
Proof.
  intros A F S L H NS NF. unfold process_amd64_plt.
  destruct (scan_bad fsz 16 536870912 (amd64_step fsz) amd64_first amd64_stub (fun m a n => amd64_jumps m a (8 * n)) ltac:(lia) first_ext stub_ext (fun m m' a n => jumps_ext m m' a (8 * n)) (amd64_other fsz) (amd64_one fsz) (amd64_none fsz)
    ks (Z.to_nat size + 1)%nat m a 0 (a + size)) as (m' & E); auto; try lia. exists m'. rewrite E. do 2 f_equal; lia.
Qed.

(* arm64 *)
Lemma w32_ext m m' a sz b : (forall x, a <= x < a + sz -> m' x = m x) -> a <= b -> b + 4 <= a + sz -> w32 m' b = w32 m b.
Proof. intros E B C. apply load_le_ext. intros x X. apply E. lia. Qed.
Lemma w32_range m a : 0 <= w32 m a < 4294967296.
Proof. apply (load_le_range 4). Qed.
Lemma stub64_ext m m' a : (forall x, a <= x < a + 16 -> m' x = m x) -> arm64_stub m a -> arm64_stub m' a.
Proof. intros E. unfold arm64_stub. now rewrite !(w32_ext m m' a 16) by (auto; lia). Qed.
Lemma jumps64_ext m m' a d : (forall x, a <= x < a + 16 -> m' x = m x) -> arm64_jumps m a d -> arm64_jumps m' a d.
Proof. intros E. unfold arm64_jumps. now rewrite !(w32_ext m m' a 16) by (auto; lia). Qed.
Lemma entry64_at fsz m a : 0 <= a -> a + 16 <= fsz -> exists b, is_arm64_entry fsz m a = Ok b /\ (b = true <-> arm64_stub m a).
Proof.
  intros A F. destruct (tests32_ok fsz m a [(0, 0x9f000000, 0x90000000); (1, 0xffc003ff, 0xf9400211); (2, 0xff800000, 0x91000000); (3, 0xffffffff, 0xd61f0220)]) as (b & E & B).
  - repeat constructor; cbn; unfold inside; lia.
  - exists b. split; [exact E|]. rewrite B. unfold arm64_stub. rewrite !Forall_cons_iff, Forall_nil_iff. cbn [fst snd]. change (4 * 0) with 0. change (4 * 1) with 4. change (4 * 2) with 8. change (4 * 3) with 12. rewrite Z.add_0_r.
    change 0xffffffff with (Z.ones 32). rewrite (Z.land_ones (w32 m (a + 12))) by lia. pose proof (w32_range m (a + 12)). rewrite (Z.mod_small (w32 m (a + 12))) by (change (2 ^ 32) with 4294967296; lia). tauto.
Qed.
(* The offset in the stub for import n. *)
Definition off64 (n : Z) : Z := if n <? 512 then 8 * n else 32768 * (n - 512).
Lemma lor64 n : 0 <= n < 1024 -> Z.lor 0x91000210 (word (Z.shiftl n 13)) = 0x91000210 + 0x2000 * n.
Proof.
  intros N. assert (Q : forallb (fun k => Z.lor 0x91000210 (word (Z.shiftl (Z.of_nat k) 13)) =? 0x91000210 + 0x2000 * Z.of_nat k) (seq 0 1024) = true) by (vm_compute; reflexivity).
  rewrite forallb_forall in Q. specialize (Q (Z.to_nat n) ltac:(apply in_seq; lia)). rewrite Z2Nat.id in Q by lia. lia.
Qed.
Lemma arm64_one fsz m b n : 0 <= b -> b + 16 <= fsz -> arm64_stub m b -> 0 <= n < 1024 ->
  exists m', arm64_step fsz m b n = Ok (Some (m', n + 1)) /\ (forall x, x < b \/ b + 16 <= x -> m' x = m x) /\ arm64_jumps m' b (off64 n).
Proof.
  intros B0 B1 Q N. unfold arm64_step. destruct (entry64_at fsz m b B0 B1) as (r & E & R). rewrite E. cbn [bind]. rewrite (proj2 R Q). rewrite lor64 by lia.
  assert (W1 : word (n + 1) = n + 1) by (unfold word; rewrite Z.mod_small; lia). rewrite W1.
  destruct (puts32_ok fsz [0xd53bd050; 0x91000210 + 0x2000 * n; 0xf9400211; 0xd61f0220] m b) as (m' & E' & O & W); [lia|cbn; lia|repeat constructor; lia|]. rewrite E'. cbn [bind]. exists m'. split; [auto|]. split; [exact O|].
  cbn [words_at] in W. replace (b + 4 + 4) with (b + 8) in W by lia. replace (b + 8 + 4) with (b + 12) in W by lia. destruct W as (Wa & Wb & Wc & Wd & _). split; [auto|].
  unfold off64. destruct (Z.ltb_spec n 512).
  - exists 0, (8 * n), 0. change (0 =? 1) with false. cbn iota. repeat split; auto; lia.
  - exists 1, (8 * (n - 512)), 0. change (1 =? 1) with true. cbn iota. repeat split; auto; lia.
Qed.
Lemma arm64_none fsz m a n : 0 <= a -> a + 16 <= fsz -> ~ False -> ~ arm64_stub m a -> arm64_step fsz m a n = Ok None.
Proof. intros B0 B1 _ NS. unfold arm64_step. destruct (entry64_at fsz m a B0 B1) as (r & E & R). rewrite E. cbn [bind]. destruct r; [tauto|auto]. Qed.

Lemma before_all K : forall i, (i <= K)%nat -> before (repeat true K) i = Z.of_nat i.
Proof.
  unfold before. induction K as [|K IH]; intros [|i] I; cbn [repeat firstn count_occ]; auto; try lia. destruct bool_dec; [|congruence]. rewrite Nat2Z.inj_succ, IH by lia. lia.
Qed.
Lemma all_true K i k : nth_error (repeat true K) i = Some k -> k = true /\ (i < K)%nat.
Proof. intros H. split; [eapply repeat_spec, nth_error_In; eauto|]. assert (i < length (repeat true K))%nat by (apply nth_error_Some; congruence). now rewrite repeat_length in *. Qed.
Lemma nth_true K i : (i < K)%nat -> nth_error (repeat true K) i = Some true.
Proof. intros H. destruct (nth_error (repeat true K) i) eqn:E; [f_equal; now apply all_true in E|]. apply nth_error_None in E. rewrite repeat_length in E. lia. Qed.

Lemma arm64_all fsz m a K : 0 <= a -> a + 32 + 16 * Z.of_nat K <= fsz -> (K <= 1024)%nat -> (forall i, (i < K)%nat -> arm64_stub m (a + 32 + 16 * Z.of_nat i)) ->
  exists m', process_arm64_plt fsz m a (32 + 16 * Z.of_nat K) = Ok (Done m' (Z.of_nat K)) /\
    (forall x, x < a + 32 \/ a + 32 + 16 * Z.of_nat K <= x -> m' x = m x) /\
    (forall i, (i < K)%nat -> arm64_jumps m' (a + 32 + 16 * Z.of_nat i) (off64 (Z.of_nat i))).
Proof.
  intros A F L H. unfold process_arm64_plt.
  destruct (scan_ok fsz 16 1024 (arm64_step fsz) (fun _ _ => False) arm64_stub (fun m a n => arm64_jumps m a (off64 n)) ltac:(lia) ltac:(auto) stub64_ext (fun m m' a n => jumps64_ext m m' a (off64 n)) ltac:(intros; contradiction) (arm64_one fsz) (arm64_none fsz)
    (repeat true K) (Z.to_nat (32 + 16 * Z.of_nat K) + 1)%nat m (a + 32) 0) as (m' & E & O & J & U); rewrite ?repeat_length, ?before_all in *; try lia.
  - intros i k I. apply all_true in I as [-> I]. auto.
  - rewrite ?before_all in E by lia. replace (a + (32 + 16 * Z.of_nat K)) with (a + 32 + 16 * Z.of_nat K) by lia. exists m'. rewrite E. split; [do 2 f_equal; lia|]. split; [auto|].
    intros i I. specialize (J i (nth_true K i I)). rewrite before_all in J by lia. now rewrite Z.add_0_l in J.
Qed.
Lemma arm64_ok fsz m a K : 0 <= a -> a + 32 + 16 * Z.of_nat K <= fsz -> (K <= 512)%nat -> (forall i, (i < K)%nat -> arm64_stub m (a + 32 + 16 * Z.of_nat i)) ->
  exists m', process_arm64_plt fsz m a (32 + 16 * Z.of_nat K) = Ok (Done m' (Z.of_nat K)) /\
    (forall x, x < a + 32 \/ a + 32 + 16 * Z.of_nat K <= x -> m' x = m x) /\
    (forall i, (i < K)%nat -> arm64_jumps m' (a + 32 + 16 * Z.of_nat i) (8 * Z.of_nat i)).
Proof.
  intros A F L H. destruct (arm64_all fsz m a K A F ltac:(lia) H) as (m' & E & O & J). exists m'. split; [auto|]. split; [auto|]. intros i I. specialize (J i I). unfold off64 in J. replace (Z.of_nat i <? 512) with true in J by lia. auto.
Qed.
Lemma arm64_wrong fsz m a K : 0 <= a -> a + 32 + 16 * Z.of_nat K <= fsz -> (512 < K <= 1024)%nat -> (forall i, (i < K)%nat -> arm64_stub m (a + 32 + 16 * Z.of_nat i)) ->
  exists m', process_arm64_plt fsz m a (32 + 16 * Z.of_nat K) = Ok (Done m' (Z.of_nat K)) /\ arm64_jumps m' (a + 32 + 16 * 512) 0.
Proof.
  intros A F L H. destruct (arm64_all fsz m a K A F ltac:(lia) H) as (m' & E & O & J). exists m'. split; [auto|]. assert (I : (Z.to_nat 512 < K)%nat) by lia. specialize (J _ I). rewrite Z2Nat.id in J by lia. exact J.
Qed.
Lemma arm64_bad fsz m a K size : 0 <= a -> a + size <= fsz -> 32 + 16 * Z.of_nat (S K) <= size -> (K <= 1024)%nat -> (forall i, (i < K)%nat -> arm64_stub m (a + 32 + 16 * Z.of_nat i)) -> ~ arm64_stub m (a + 32 + 16 * Z.of_nat K) ->
  exists m', process_arm64_plt fsz m a size = Ok (Exit m' (Z.of_nat K)).
Proof.
  intros A F L1 L H NS. unfold process_arm64_plt.
  destruct (scan_bad fsz 16 1024 (arm64_step fsz) (fun _ _ => False) arm64_stub (fun m a n => arm64_jumps m a (off64 n)) ltac:(lia) ltac:(auto) stub64_ext (fun m m' a n => jumps64_ext m m' a (off64 n)) ltac:(intros; contradiction) (arm64_one fsz) (arm64_none fsz)
    (repeat true K) (Z.to_nat size + 1)%nat m (a + 32) 0 (a + size)) as (m' & E); rewrite ?repeat_length, ?before_all in *; try lia; auto.
  - intros i k I. apply all_true in I as [-> I]. auto.
  - rewrite ?before_all in E by lia. exists m'. rewrite E. do 2 f_equal; lia.
Qed.

(* arm32 *)
Lemma stub32_ext m m' a : (forall x, a <= x < a + 12 -> m' x = m x) -> arm32_stub m a -> arm32_stub m' a.
Proof. intros E. unfold arm32_stub. now rewrite !(w32_ext m m' a 12) by (auto; lia). Qed.
Lemma jumps32_ext m m' a d : (forall x, a <= x < a + 12 -> m' x = m x) -> arm32_jumps m a d -> arm32_jumps m' a d.
Proof. intros E. unfold arm32_jumps. now rewrite !(w32_ext m m' a 12) by (auto; lia). Qed.
Lemma entry32_at fsz m a : 0 <= a -> a + 12 <= fsz -> exists b, is_arm32_entry fsz m a = Ok b /\ (b = true <-> arm32_stub m a).
Proof.
  intros A F. destruct (tests32_ok fsz m a [(0, 0xfffff000, 0xe28fc000); (1, 0xfffff000, 0xe28cc000); (2, 0xffff0000, 0xe5bc0000)]) as (b & E & B).
  - repeat constructor; cbn; unfold inside; lia.
  - exists b. split; [exact E|]. rewrite B. unfold arm32_stub. rewrite !Forall_cons_iff, Forall_nil_iff. cbn [fst snd]. change (4 * 0) with 0. change (4 * 1) with 4. change (4 * 2) with 8. rewrite Z.add_0_r. tauto.
Qed.
Lemma lor32 n : 0 <= n < 4096 -> Z.lor 0xe59cf000 n = 0xe59cf000 + n.
Proof.
  intros N. assert (Q : forallb (fun k => Z.lor 0xe59cf000 (Z.of_nat k) =? 0xe59cf000 + Z.of_nat k) (seq 0 4096) = true) by (vm_compute; reflexivity).
  rewrite forallb_forall in Q. specialize (Q (Z.to_nat n) ltac:(apply in_seq; lia)). rewrite Z2Nat.id in Q by lia. lia.
Qed.
Lemma arm32_one fsz m b n : 0 <= b -> b + 12 <= fsz -> arm32_stub m b -> 0 <= n < 4096 ->
  exists m', arm32_step fsz m b n = Ok (Some (m', n + 1)) /\ (forall x, x < b \/ b + 12 <= x -> m' x = m x) /\ arm32_jumps m' b n.
Proof.
  intros B0 B1 Q N. unfold arm32_step. destruct (entry32_at fsz m b B0 B1) as (r & E & R). rewrite E. cbn [bind]. rewrite (proj2 R Q). rewrite lor32 by lia.
  assert (W1 : word (n + 1) = n + 1) by (unfold word; rewrite Z.mod_small; lia). rewrite W1.
  destruct (puts32_ok fsz [0xee1dcf50; 0xe59cf000 + n; 0xe320f000] m b) as (m' & E' & O & W); [lia|cbn; lia|repeat constructor; lia|]. rewrite E'. cbn [bind]. exists m'. split; [auto|]. split; [exact O|].
  cbn [words_at] in W. destruct W as (Wa & Wb & Wc & _). repeat split; auto; lia.
Qed.
Lemma arm32_none fsz m a n : 0 <= a -> a + 12 <= fsz -> ~ False -> ~ arm32_stub m a -> arm32_step fsz m a n = Ok None.
Proof. intros B0 B1 _ NS. unfold arm32_step. destruct (entry32_at fsz m a B0 B1) as (r & E & R). rewrite E. cbn [bind]. destruct r; [tauto|auto]. Qed.
Lemma skip_ok fsz m stop o : stop <= fsz -> o + 12 <= stop -> arm32_stub m o -> forall k fuel a, (k < fuel)%nat -> o = a + 4 * Z.of_nat k -> 0 <= a -> (forall j, (j < k)%nat -> ~ arm32_stub m (a + 4 * Z.of_nat j)) -> skip fuel fsz m a stop = Ok o.
Proof.
  intros S1 S2 T. induction k as [|k IH]; intros [|fuel] a F E A N; try lia; cbn [skip]; replace (a <? stop) with true by lia; destruct (entry32_at fsz m a ltac:(lia) ltac:(lia)) as (r & Er & R); rewrite Er; cbn [bind].
  - replace (a + 4 * Z.of_nat 0) with a in E by lia. subst o. rewrite (proj2 R T). auto.
  - destruct r; [exfalso; apply (N 0%nat); [lia|]; rewrite Z.mul_0_r, Z.add_0_r; tauto|]. apply IH; try lia. intros j J. replace (a + 4 + 4 * Z.of_nat j) with (a + 4 * Z.of_nat (S j)) by lia. apply N. lia.
Qed.
Lemma arm32_real fsz m a p K : 0 <= a -> a + 4 * Z.of_nat p + 12 * Z.of_nat K <= fsz -> (1 <= K <= 4096)%nat -> (forall j, (j < p)%nat -> ~ arm32_stub m (a + 4 * Z.of_nat j)) ->
  (forall i, (i < K)%nat -> arm32_stub m (a + 4 * Z.of_nat p + 12 * Z.of_nat i)) ->
  exists m', process_arm32_plt fsz m a (4 * Z.of_nat p + 12 * Z.of_nat K) = Ok (Done m' (Z.of_nat K)) /\
    (forall x, x < a + 4 * Z.of_nat p \/ a + 4 * Z.of_nat p + 12 * Z.of_nat K <= x -> m' x = m x) /\
    (forall i, (i < K)%nat -> arm32_jumps m' (a + 4 * Z.of_nat p + 12 * Z.of_nat i) (Z.of_nat i)).
Proof.
  intros A F L N H. unfold process_arm32_plt. set (o := a + 4 * Z.of_nat p). pose proof (H 0%nat ltac:(lia)) as H0. rewrite Z.mul_0_r, Z.add_0_r in H0. fold o in H0.
  rewrite (skip_ok fsz m (a + (4 * Z.of_nat p + 12 * Z.of_nat K)) o ltac:(lia) ltac:(unfold o; lia) H0 p) by (auto; unfold o; lia). cbn [bind].
  destruct (scan_ok fsz 12 4096 (arm32_step fsz) (fun _ _ => False) arm32_stub arm32_jumps ltac:(lia) ltac:(auto) stub32_ext jumps32_ext ltac:(intros; contradiction) (arm32_one fsz) (arm32_none fsz)
    (repeat true K) (Z.to_nat (4 * Z.of_nat p + 12 * Z.of_nat K) + 1)%nat m o 0) as (m' & E & O & J & U); rewrite ?repeat_length, ?before_all in *; try (unfold o; lia).
  - intros i k I. apply all_true in I as [-> I]. auto.
  - rewrite ?before_all in E by lia. replace (a + (4 * Z.of_nat p + 12 * Z.of_nat K)) with (o + 12 * Z.of_nat K) by (unfold o; lia). exists m'. rewrite E. split; [do 2 f_equal; lia|]. split; [auto|].
    intros i I. specialize (J i (nth_true K i I)). rewrite before_all in J by lia. now rewrite Z.add_0_l in J.
Qed.
(* Import 1 is not taken from the second word of the table. *)
Lemma arm32_wrong fsz m a p K : 0 <= a -> a + 4 * Z.of_nat p + 12 * Z.of_nat K <= fsz -> (2 <= K <= 4096)%nat -> (forall j, (j < p)%nat -> ~ arm32_stub m (a + 4 * Z.of_nat j)) ->
  (forall i, (i < K)%nat -> arm32_stub m (a + 4 * Z.of_nat p + 12 * Z.of_nat i)) ->
  exists m', process_arm32_plt fsz m a (4 * Z.of_nat p + 12 * Z.of_nat K) = Ok (Done m' (Z.of_nat K)) /\
    (forall i, (1 <= i < K)%nat -> ~ arm32_jumps m' (a + 4 * Z.of_nat p + 12 * Z.of_nat i) (4 * Z.of_nat i)).
Proof.
  intros A F L N H. destruct (arm32_real fsz m a p K A F ltac:(lia) N H) as (m' & E & _ & J). exists m'. split; [auto|]. intros i I (_ & _ & Q). destruct (J i ltac:(lia)) as (_ & _ & Q'). lia.
Qed.
