(* Import stubs of executables. *)
From Verif Require Import Base PltModel PltSpec PltProof PltProof2.
Open Scope Z_scope.

(* A section of first entries and stubs in any order: the n-th stub jumps through word n of
   the table at %gs, and nothing else changes. *)
Theorem C55_amd64 : forall fsz m a ks, 0 <= a -> a + 16 * Z.of_nat (length ks) <= fsz -> before ks (length ks) <= 536870912 ->
  (forall i k, nth_error ks i = Some k -> if k then amd64_stub m (a + 16 * Z.of_nat i) else amd64_first m (a + 16 * Z.of_nat i)) ->
  exists m', process_amd64_plt fsz m a (16 * Z.of_nat (length ks)) = Ok (Done m' (before ks (length ks))) /\
    (forall x, x < a \/ a + 16 * Z.of_nat (length ks) <= x -> m' x = m x) /\
    (forall i, nth_error ks i = Some true -> amd64_jumps m' (a + 16 * Z.of_nat i) (8 * before ks i)) /\
    (forall i x, nth_error ks i = Some false -> a + 16 * Z.of_nat i <= x < a + 16 * Z.of_nat i + 16 -> m' x = m x).
Proof. exact amd64_ok. Qed.
Print Assumptions C55_amd64.
(* Anything else in the section is an error. *)
Theorem C55_amd64_bad : forall fsz m a ks size, 0 <= a -> a + size <= fsz -> 16 * Z.of_nat (S (length ks)) <= size -> before ks (length ks) <= 536870912 ->
  (forall i k, nth_error ks i = Some k -> if k then amd64_stub m (a + 16 * Z.of_nat i) else amd64_first m (a + 16 * Z.of_nat i)) ->
  ~ amd64_stub m (a + 16 * Z.of_nat (length ks)) -> ~ amd64_first m (a + 16 * Z.of_nat (length ks)) ->
  exists m', process_amd64_plt fsz m a size = Ok (Exit m' (before ks (length ks))).
Proof. exact amd64_bad. Qed.
Print Assumptions C55_amd64_bad.
(* On arm64 it is so for up to 512 imports, *)
Theorem C55_arm64 : forall fsz m a K, 0 <= a -> a + 32 + 16 * Z.of_nat K <= fsz -> (K <= 512)%nat -> (forall i, (i < K)%nat -> arm64_stub m (a + 32 + 16 * Z.of_nat i)) ->
  exists m', process_arm64_plt fsz m a (32 + 16 * Z.of_nat K) = Ok (Done m' (Z.of_nat K)) /\
    (forall x, x < a + 32 \/ a + 32 + 16 * Z.of_nat K <= x -> m' x = m x) /\
    (forall i, (i < K)%nat -> arm64_jumps m' (a + 32 + 16 * Z.of_nat i) (8 * Z.of_nat i)).
Proof. exact arm64_ok. Qed.
Print Assumptions C55_arm64.
Theorem C55_arm64_bad : forall fsz m a K size, 0 <= a -> a + size <= fsz -> 32 + 16 * Z.of_nat (S K) <= size -> (K <= 1024)%nat -> (forall i, (i < K)%nat -> arm64_stub m (a + 32 + 16 * Z.of_nat i)) -> ~ arm64_stub m (a + 32 + 16 * Z.of_nat K) ->
  exists m', process_arm64_plt fsz m a size = Ok (Exit m' (Z.of_nat K)).
Proof. exact arm64_bad. Qed.
Print Assumptions C55_arm64_bad.
(* but with more the stub of import 512 calls import 0. *)
Theorem C55_arm64_refuted : forall fsz m a K, 0 <= a -> a + 32 + 16 * Z.of_nat K <= fsz -> (512 < K <= 1024)%nat -> (forall i, (i < K)%nat -> arm64_stub m (a + 32 + 16 * Z.of_nat i)) ->
  exists m', process_arm64_plt fsz m a (32 + 16 * Z.of_nat K) = Ok (Done m' (Z.of_nat K)) /\ arm64_jumps m' (a + 32 + 16 * 512) 0.
Proof. exact arm64_wrong. Qed.
Print Assumptions C55_arm64_refuted.
(* On arm32 the stub of import n takes the word at byte n of the table, *)
Theorem C55_arm32 : forall fsz m a p K, 0 <= a -> a + 4 * Z.of_nat p + 12 * Z.of_nat K <= fsz -> (1 <= K <= 4096)%nat -> (forall j, (j < p)%nat -> ~ arm32_stub m (a + 4 * Z.of_nat j)) ->
  (forall i, (i < K)%nat -> arm32_stub m (a + 4 * Z.of_nat p + 12 * Z.of_nat i)) ->
  exists m', process_arm32_plt fsz m a (4 * Z.of_nat p + 12 * Z.of_nat K) = Ok (Done m' (Z.of_nat K)) /\
    (forall x, x < a + 4 * Z.of_nat p \/ a + 4 * Z.of_nat p + 12 * Z.of_nat K <= x -> m' x = m x) /\
    (forall i, (i < K)%nat -> arm32_jumps m' (a + 4 * Z.of_nat p + 12 * Z.of_nat i) (Z.of_nat i)).
Proof. exact arm32_real. Qed.
Print Assumptions C55_arm32.
(* so that all imports but the first go wrong. *)
Theorem C55_arm32_refuted : forall fsz m a p K, 0 <= a -> a + 4 * Z.of_nat p + 12 * Z.of_nat K <= fsz -> (2 <= K <= 4096)%nat -> (forall j, (j < p)%nat -> ~ arm32_stub m (a + 4 * Z.of_nat j)) ->
  (forall i, (i < K)%nat -> arm32_stub m (a + 4 * Z.of_nat p + 12 * Z.of_nat i)) ->
  exists m', process_arm32_plt fsz m a (4 * Z.of_nat p + 12 * Z.of_nat K) = Ok (Done m' (Z.of_nat K)) /\
    (forall i, (1 <= i < K)%nat -> ~ arm32_jumps m' (a + 4 * Z.of_nat p + 12 * Z.of_nat i) (4 * Z.of_nat i)).
Proof. exact arm32_wrong. Qed.
Print Assumptions C55_arm32_refuted.

(* The sections shown in elfexe.c. *)
Definition file8 (l : list Z) : Z -> Z := fun x => nth (Z.to_nat x) l 0.
Definition plt_amd64 : list Z :=
  [0xff; 0x35; 0xea; 0x2f; 0; 0; 0xff; 0x25; 0xec; 0x2f; 0; 0; 0x0f; 0x1f; 0x40; 0;
   0xff; 0x25; 0xaa; 0x11; 0; 0; 0x68; 0; 0; 0; 0; 0xe9; 0xe0; 0xff; 0xff; 0xff;
   0xf3; 0x0f; 0x1e; 0xfa; 0xff; 0x25; 0xd6; 0x2f; 0; 0; 0x66; 0x0f; 0x1f; 0x44; 0; 0].
Example C55_amd64_example : forall i k, nth_error [false; true; true] i = Some k -> if k then amd64_stub (file8 plt_amd64) (0 + 16 * Z.of_nat i) else amd64_first (file8 plt_amd64) (0 + 16 * Z.of_nat i).
Proof.
  intros [|[|[|[|i]]]] k E; cbn in E; try discriminate; injection E as <-; [|right|left]; intros j v J; do 16 (destruct j as [|j]; [cbn in J; try discriminate J; injection J as <-; vm_compute; reflexivity|]); destruct j; discriminate.
Qed.
Definition words_le (l : list Z) : list Z := flat_map (fun w => [w mod 256; w / 256 mod 256; w / 65536 mod 256; w / 16777216]) l.
Definition stub64 : Z -> Z := fun x => file8 (words_le [0x90000110; 0xf9400211; 0x91000210; 0xd61f0220]) (x mod 16).
Example C55_arm64_example : forall i, (i < 600)%nat -> arm64_stub stub64 (0 + 32 + 16 * Z.of_nat i).
Proof.
  intros i _. assert (P : forall k, 0 <= k -> w32 stub64 (0 + 32 + 16 * Z.of_nat i + k) = w32 stub64 k).
  { intros k K. unfold w32. cbn [load_le]. unfold stub64. replace (0 + 32 + 16 * Z.of_nat i + k) with (k + (2 + Z.of_nat i) * 16) by lia.
    replace (k + (2 + Z.of_nat i) * 16 + 1) with (k + 1 + (2 + Z.of_nat i) * 16) by lia. replace (k + 1 + (2 + Z.of_nat i) * 16 + 1) with (k + 1 + 1 + (2 + Z.of_nat i) * 16) by lia.
    replace (k + 1 + 1 + (2 + Z.of_nat i) * 16 + 1) with (k + 1 + 1 + 1 + (2 + Z.of_nat i) * 16) by lia. now rewrite !Z.mod_add by lia. }
  unfold arm64_stub. rewrite <- (Z.add_0_r (0 + 32 + 16 * Z.of_nat i)) at 1. rewrite !P by lia. vm_compute. auto.
Qed.
Definition plt_arm32 : list Z := words_le [0xe52de004; 0xe59fe004; 0xe08fe00e; 0xe5bef008; 0x00001e90; 0xe28fc600; 0xe28cca01; 0xe5bcfe90; 0xe28fc600; 0xe28cca01; 0xe5bcfe94].
Example C55_arm32_example : (forall j, (j < 5)%nat -> ~ arm32_stub (file8 plt_arm32) (0 + 4 * Z.of_nat j)) /\ (forall i, (i < 2)%nat -> arm32_stub (file8 plt_arm32) (0 + 4 * Z.of_nat 5 + 12 * Z.of_nat i)).
Proof.
  split; [|intros [|[|i]] I; [vm_compute; auto|vm_compute; auto|lia]].
  intros j J (A & _ & _). do 5 (destruct j as [|j]; [vm_compute in A; discriminate|]). lia.
Qed.
