(* C01-C10: the heap allocator.  P is the size of a pointer in bytes. *)
From Verif Require Import Base AllocModel AllocSpec AllocExec AllocProof3 AllocProof4 AllocRefute.
From Coq Require Import Sorted.
Open Scope Z_scope.

(* The hypotheses are met by real histories: after [ex_hist] (splits, merges,
   a moving realloc, a truncate) three blocks are live. *)
Example heap_ok_example : heap_ok 4 ex_mem 64 4096.
Proof. repeat split; auto; vm_compute; congruence. Qed.

Example reachable_example : exists s g, reachable 4 ex_mem 64 4096 ex_hist s g /\
  live g = [84; 156; 144] /\ heap_available (sctx s) = 3668.
Proof. exact reachable_example_proof. Qed.

(* The allocator never gets stuck: no out-of-bounds or misaligned access, no
   endless walk, for any correct client. *)
Theorem C01_calls_total : forall P m start size, heap_ok P m start size ->
  (exists s, heap_init P m start size = Ok s) /\
  forall h s g o, reachable P m start size h s g -> valid P s g o ->
  exists s' r, step P s o = Ok (s', r).
Proof. exact calls_total. Qed.
Print Assumptions C01_calls_total.

Theorem C01_blocks_in_heap : forall P m start size h s g p,
  heap_ok P m start size -> reachable P m start size h s g -> owned g p ->
  p mod P = 0 /\ exists n, usable P (sm s) p n /\ P <= n /\ start + P <= p /\ p + n <= start + size.
Proof. exact (fun P m start size h s g p HO => owned_in_heap P m start size HO h s g p). Qed.
Print Assumptions C01_blocks_in_heap.

(* Not even the header word before a block is shared. *)
Theorem C01_blocks_disjoint : forall P m start size h s g p q n k,
  heap_ok P m start size -> reachable P m start size h s g ->
  owned g p -> owned g q -> p <> q -> usable P (sm s) p n -> usable P (sm s) q k ->
  p + n <= q - P \/ q + k <= p - P.
Proof. exact (fun P m start size h s g p q n k HO => owned_disjoint P m start size HO h s g p q n k). Qed.
Print Assumptions C01_blocks_disjoint.

Theorem C01_result_is_fresh : forall P m start size h s g,
  heap_ok P m start size -> reachable P m start size h s g -> NoDup (live g).
Proof. exact (fun P m start size h s g HO => live_NoDup P m start size HO h s g). Qed.
Print Assumptions C01_result_is_fresh.

Theorem C01_live_free_disjoint : forall P m start size h s g fl p n a k,
  heap_ok P m start size -> reachable P m start size h s g -> In p (live g) ->
  usable P (sm s) p n -> free_blocks P s fl -> In (a, k) fl -> p + n <= a \/ a + k <= p - P.
Proof. exact (fun P m start size h s g fl p n a k HO => live_free_disjoint P m start size HO h s g fl p n a k). Qed.
Print Assumptions C01_live_free_disjoint.

Theorem C01_result_big_enough : forall P m start size h s g o s' r n,
  heap_ok P m start size -> reachable P m start size h s g -> valid P s g o ->
  request o = Some n -> step P s o = Ok (s', r) -> r <> 0 ->
  In r (live (after g o r)) /\ exists k, usable P (sm s') r k /\ n <= k.
Proof. exact (fun P m start size h s g o s' r n HO => result_big P m start size HO h s g o s' r n). Qed.
Print Assumptions C01_result_big_enough.

Theorem C02_other_blocks_untouched : forall P m start size h s g o s' r p n,
  heap_ok P m start size -> reachable P m start size h s g -> valid P s g o ->
  step P s o = Ok (s', r) -> owned g p -> ~ arg_of o p -> usable P (sm s) p n ->
  usable P (sm s') p n /\
  forall z, p <= z < p + n -> (forall v, o <> OPoke z v) -> bytes (sm s') z = bytes (sm s) z.
Proof. exact (fun P m start size h s g o s' r p n HO => others_unchanged P m start size HO h s g o s' r p n). Qed.
Print Assumptions C02_other_blocks_untouched.

Theorem C02_outside_untouched : forall P m start size h s g o s' r z,
  heap_ok P m start size -> reachable P m start size h s g -> valid P s g o ->
  step P s o = Ok (s', r) -> ~ (start <= z < start + size) -> bytes (sm s') z = bytes (sm s) z.
Proof. exact (fun P m start size h s g o s' r z HO => outside_unchanged P m start size HO h s g o s' r z). Qed.
Print Assumptions C02_outside_untouched.

Theorem C03_available_exact : forall P m start size h s g,
  heap_ok P m start size -> reachable P m start size h s g ->
  exists fl, free_blocks P s fl /\ heap_available (sctx s) = sum (map snd fl) /\
  forall f, (forall p, In p (live g) -> usable P (sm s) p (f p)) ->
    heap_available (sctx s) = heap_size (sctx s) - sum (map (fun p => f p + P) (live g)).
Proof. exact (fun P m start size h s g HO => available_exact P m start size HO h s g). Qed.
Print Assumptions C03_available_exact.

Theorem C03_outermost_heap : forall P m start size h s g,
  heap_ok P m start size -> reachable P m start size h s g -> outer g = [] ->
  heap_start (sctx s) = start /\ heap_size (sctx s) = size.
Proof. exact (fun P m start size h s g HO => depth0_heap P m start size HO h s g). Qed.
Print Assumptions C03_outermost_heap.

Theorem C03_alloc_accounting : forall P m start size h s g o n s' r k,
  heap_ok P m start size -> reachable P m start size h s g -> is_alloc o n -> req_ok P n ->
  step P s o = Ok (s', r) -> r <> 0 -> usable P (sm s') r k ->
  heap_available (sctx s') = heap_available (sctx s) - (k + P).
Proof. exact (fun P m start size h s g o n s' r k HO => alloc_available P m start size HO h s g o n s' r k). Qed.
Print Assumptions C03_alloc_accounting.

Theorem C03_free_accounting : forall P m start size h s g p k s' r,
  heap_ok P m start size -> reachable P m start size h s g -> In p (live g) -> usable P (sm s) p k ->
  step P s (OFree p) = Ok (s', r) ->
  heap_available (sctx s') = heap_available (sctx s) + (k + P).
Proof. exact (fun P m start size h s g p k s' r HO => free_result P m start size HO h s g p k s' r). Qed.
Print Assumptions C03_free_accounting.

(* The free list is in address order and consecutive blocks are separated by
   at least one live block. *)
Theorem C04_free_list_coalesced : forall P m start size h s g fl,
  heap_ok P m start size -> reachable P m start size h s g -> free_blocks P s fl ->
  StronglySorted (fun x y => fst x + snd x < fst y) fl.
Proof. exact (fun P m start size h s g fl HO => coalesced P m start size HO h s g fl). Qed.
Print Assumptions C04_free_list_coalesced.

Theorem C04_all_freed_is_one_block : forall P m start size h s g fl,
  heap_ok P m start size -> reachable P m start size h s g -> live g = [] -> free_blocks P s fl ->
  fl = [(heap_start (sctx s), heap_size (sctx s))].
Proof. exact all_freed_one. Qed.
Print Assumptions C04_all_freed_is_one_block.

Theorem C04_all_freed_big_request : forall P m start size h s g o n s' r,
  heap_ok P m start size -> reachable P m start size h s g -> live g = [] ->
  is_alloc o n -> req_ok P n -> chunk_size P n <= heap_size (sctx s) ->
  step P s o = Ok (s', r) -> r = heap_start (sctx s) + P.
Proof. exact all_freed_alloc. Qed.
Print Assumptions C04_all_freed_big_request.

Theorem C05_first_fit : forall P m start size h s g o n s' r fl,
  heap_ok P m start size -> reachable P m start size h s g -> is_alloc o n -> req_ok P n ->
  step P s o = Ok (s', r) -> free_blocks P s fl ->
  (r = 0 /\ s' = s /\ Forall (fun x => snd x < chunk_size P n) fl) \/
  (r <> 0 /\ exists l1 a k l2, fl = l1 ++ (a, k) :: l2 /\
     Forall (fun x => snd x < chunk_size P n) l1 /\ chunk_size P n <= k /\ r = a + P).
Proof. exact (fun P m start size h s g o n s' r fl HO => first_fit P m start size HO h s g o n s' r fl). Qed.
Print Assumptions C05_first_fit.

Theorem C06_alloc_zeroed : forall P m start size h s g n s' r,
  heap_ok P m start size -> reachable P m start size h s g -> req_ok P n ->
  step P s (OAlloc n) = Ok (s', r) -> r <> 0 ->
  forall z, r <= z < r + n -> bytes (sm s') z = 0.
Proof. exact (fun P m start size h s g n s' r HO => zeroed P m start size HO h s g n s' r). Qed.
Print Assumptions C06_alloc_zeroed.

Theorem C07_realloc : forall P m start size h s g p n k s' r fl,
  heap_ok P m start size -> reachable P m start size h s g -> In p (live g) -> req_ok P n ->
  usable P (sm s) p k -> step P s (ORealloc p n) = Ok (s', r) -> free_blocks P s fl ->
  (n <= k /\ r = p /\ s' = s) \/
  (k < n /\ r = 0 /\ Forall (fun x => snd x < chunk_size P n) fl /\
   heap_available (sctx s') = heap_available (sctx s) + (k + P)) \/
  (k < n /\ r <> 0 /\ r <> p /\ ~ In r (live g) /\
   (forall i, 0 <= i < k -> bytes (sm s') (r + i) = bytes (sm s) (p + i)) /\
   exists k', usable P (sm s') r k' /\ n <= k' /\
     heap_available (sctx s') = heap_available (sctx s) - (k' + P) + (k + P)).
Proof. exact (fun P m start size h s g p n k s' r fl HO => realloc_result P m start size HO h s g p n k s' r fl). Qed.
Print Assumptions C07_realloc.

Theorem C08_truncate : forall P m start size h s g p n k s' r,
  heap_ok P m start size -> reachable P m start size h s g -> In p (live g) -> req_ok P n ->
  usable P (sm s) p k -> step P s (OTruncate p n) = Ok (s', r) ->
  let k' := if chunk_size P n + 3 * P <=? k + P then chunk_size P n - P else k in
  usable P (sm s') p k' /\ Z.min n k <= k' <= k /\
  (forall z, p <= z < p + k' -> bytes (sm s') z = bytes (sm s) z) /\
  heap_available (sctx s') = heap_available (sctx s) + (k - k') /\
  (k' = k -> s' = s).
Proof. exact (fun P m start size h s g p n k s' r HO => truncate_result P m start size HO h s g p n k s' r). Qed.
Print Assumptions C08_truncate.

(* C09 fails for requests above the limit [req_ok]: on a 32-bit machine
   fpm_alloc_dirty(2^32 - 1), on a 64-bit machine fpm_alloc_dirty(2^32)
   returns a block without a single usable byte. *)
Theorem C09_huge_request_refuted :
  (exists s g s1 r, reachable 4 ex_mem 64 4096 [] s g /\
     step 4 s (ODirty (2 ^ 32 - 1)) = Ok (s1, r) /\ usable 4 (sm s1) r 0) /\
  (exists s g s1 r, reachable 8 ex_mem 64 4096 [] s g /\
     step 8 s (ODirty (2 ^ 32)) = Ok (s1, r) /\ usable 8 (sm s1) r 0).
Proof. exact huge_request. Qed.
Print Assumptions C09_huge_request_refuted.

(* fpm_alloc of such a size then clears memory outside the heap. *)
Theorem C09_huge_zeroing_refuted :
  exists s g, reachable 4 ex_mem 64 4096 [] s g /\ step 4 s (OAlloc (2 ^ 32 - 1)) = Ub.
Proof. exact huge_zeroing. Qed.
Print Assumptions C09_huge_zeroing_refuted.

(* fpm_truncate has the same defect: asked to keep 2^32 bytes of a 200-byte
   block it keeps none. *)
Theorem C09_truncate_refuted :
  exists s g s1 r, reachable 8 ex_mem 64 4096 [OAlloc 200] s g /\
    In 72 (live g) /\ usable 8 (sm s) 72 200 /\
    step 8 s (OTruncate 72 (2 ^ 32)) = Ok (s1, r) /\ usable 8 (sm s1) 72 0.
Proof. exact huge_truncate. Qed.
Print Assumptions C09_truncate_refuted.

(* What does hold for every request within the limit is
   C01_result_big_enough; [req_ok] is its only restriction. *)

Theorem C10_nested_context : forall P m start size h s g s1 h2 s2 g2 s3 r,
  heap_ok P m start size -> reachable P m start size h s g ->
  step P s OPush = Ok (s1, 1) ->
  run P (S (length (outer g))) s1 (after g OPush 1) h2 s2 g2 ->
  length (outer g2) = S (length (outer g)) ->
  step P s2 OPop = Ok (s3, r) ->
  sctx s3 = sctx s /\ sparents s3 = sparents s /\ after g2 OPop r = g /\
  (forall fl, free_blocks P s fl -> free_blocks P s3 fl /\
     exists a k, In (a, k) fl /\ forall z, ~ (a + 2 * P <= z < a + k) -> (forall v, ~ In (OPoke z v) h2) ->
       bytes (sm s3) z = bytes (sm s) z) /\
  forall p n, owned g p -> usable P (sm s) p n ->
    usable P (sm s3) p n /\
    forall z, p <= z < p + n -> (forall v, ~ In (OPoke z v) h2) -> bytes (sm s3) z = bytes (sm s) z.
Proof. exact (fun P m start size h s g s1 h2 s2 g2 s3 r HO => context_restored P m start size HO h s g s1 h2 s2 g2 s3 r). Qed.
Print Assumptions C10_nested_context.

(* A nested history meeting the hypotheses of C10, two levels deep. *)
Example C10_example : exists s g s1 s2 g2 s3,
  reachable 4 ex_mem 64 4096 ex_hist s g /\
  step 4 s OPush = Ok (s1, 1) /\
  run 4 (S (length (outer g))) s1 (after g OPush 1)
    [OAlloc 50; OPush; OAlloc 70; OPoke 636 9; OPop; OAlloc 60] s2 g2 /\
  length (outer g2) = S (length (outer g)) /\ step 4 s2 OPop = Ok (s3, 0).
Proof. exact nested_example. Qed.
