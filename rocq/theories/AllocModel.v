(* Model of kernel/fpm_alloc.c (the heap allocator).

   Memory is byte addressed.  Headers and free-list links are words of [P]
   bytes stored in that memory, exactly where the C code keeps them; the
   context structure (free_list, free_size, ...) lives outside the heap, as
   the C code keeps it in static or stack storage.  MEM_DEBUG is 0
   (kernel/fpm_alloc.c:15-23), so headers hold only the size. *)
From Verif Require Import Base.
Open Scope Z_scope.

(* Byte memory with the bounds inside which the allocator may access it.  An
   access outside [mlo, mhi) or a misaligned word access is undefined
   behaviour. *)
Record mem := Mem { bytes : Z -> Z; mlo : Z; mhi : Z }.

(* include/fpm/context.h: the allocator's part of fpm_context_t. *)
Record ctx := Ctx {
  free_list : Z;   (* 0 = NULL *)
  free_size : Z;
  heap_start : Z;
  heap_size : Z
}.

(* The global pointer fpm_context and its chain of parents, innermost first. *)
Record st := St { sm : mem; sctx : ctx; sparents : list ctx }.

Section Alloc.

(* Size of a pointer, of size_t and of heap_header_t: 4 or 8.
   kernel/fpm_alloc.c:29-36, 55. *)
Variable P : Z.

(* size_t arithmetic is modulo this. *)
Definition W : Z := 2 ^ (8 * P).

Definition wrap (x : Z) : Z := x mod W.

Definition word_ok (m : mem) (a : Z) : bool :=
  (mlo m <=? a) && (a + P <=? mhi m) && (a mod P =? 0).

Definition load (m : mem) (a : Z) : res Z :=
  if word_ok m a then Ok (load_le (bytes m) a (Z.to_nat P)) else Ub.

Definition store (m : mem) (a v : Z) : res mem :=
  if word_ok m a
  then Ok (Mem (store_le (bytes m) a (Z.to_nat P) v) (mlo m) (mhi m))
  else Ub.

(* memset(p, 0, n). *)
Definition memzero (m : mem) (a n : Z) : res mem :=
  if (mlo m <=? a) && (a + n <=? mhi m)
  then Ok (Mem (fun x => if (a <=? x) && (x <? a + n) then 0 else bytes m x)
               (mlo m) (mhi m))
  else Ub.

(* memcpy(d, s, n); overlapping areas are undefined behaviour. *)
Definition memcpy (m : mem) (d s n : Z) : res mem :=
  if (mlo m <=? d) && (d + n <=? mhi m) && (mlo m <=? s) && (s + n <=? mhi m)
     && ((d + n <=? s) || (s + n <=? d))
  then Ok (Mem (fun x => if (d <=? x) && (x <? d + n) then bytes m (s + (x - d))
                         else bytes m x)
               (mlo m) (mhi m))
  else Ub.

(* NEXT(h), kernel/fpm_alloc.c:42. *)
Definition next_at (h : Z) : Z := h + P.

(* size_align, kernel/fpm_alloc.c:66-69.  SIZEOF_POINTER is a 32-bit
   unsigned, so the mask -SIZEOF_POINTER is 2^32 - P even when size_t has 64
   bits. *)
Definition size_align (n : Z) : Z := Z.land (wrap (n + P - 1)) (2 ^ 32 - P).

(* kernel/fpm_alloc.c:97-100 and 270-273: header added, rounded. *)
Definition round_request (n : Z) : Z :=
  size_align (wrap ((if n <? P then P else n) + P)).

(* Loop bound for walks of the free list: one more than the number of words
   in the heap.  Exhaustion is the outcome NoFuel. *)
Definition walk_fuel (c : ctx) : nat := S (Z.to_nat (heap_size c / P)).

(* hprev: None is &fpm_context->free_list, Some h is &NEXT(h). *)
Definition set_link (m : mem) (c : ctx) (hprev : option Z) (v : Z) : res (mem * ctx) :=
  match hprev with
  | None => Ok (m, Ctx v (free_size c) (heap_start c) (heap_size c))
  | Some h => m' <- store m (next_at h) v ;; Ok (m', c)
  end.

(* kernel/fpm_alloc.c:104-119: first block with h->size >= nbytes. *)
Fixpoint find_fit (fuel : nat) (m : mem) (hprev : option Z) (h n : Z)
  : res (option Z * Z) :=
  if h =? 0 then Ok (hprev, 0) else
  match fuel with
  | O => NoFuel
  | S k =>
      sz <- load m h ;;
      if n <=? sz then Ok (hprev, h)
      else nx <- load m (next_at h) ;; find_fit k m (Some h) nx n
  end.

Definition sub_free (c : ctx) (n : Z) : ctx :=
  Ctx (free_list c) (wrap (free_size c - n)) (heap_start c) (heap_size c).

Definition add_free (c : ctx) (n : Z) : ctx :=
  Ctx (free_list c) (wrap (free_size c + n)) (heap_start c) (heap_size c).

(* fpm_alloc_dirty, kernel/fpm_alloc.c:88-149.  Result 0 is NULL. *)
Definition alloc_dirty (m : mem) (c : ctx) (nbytes : Z) : res (mem * ctx * Z) :=
  let n := round_request nbytes in
  '(hprev, h) <- find_fit (walk_fuel c) m None (free_list c) n ;;
  if h =? 0 then Ok (m, c, 0) else
  hs <- load m h ;;
  if wrap (n + P + 2 * P) <=? hs
  then
    let newh := wrap (h + n) in
    m1 <- store m newh (wrap (hs - n)) ;;
    m2 <- store m1 h n ;;
    nx <- load m2 (next_at h) ;;
    m3 <- store m2 (next_at newh) nx ;;
    '(m4, c4) <- set_link m3 c hprev newh ;;
    fs <- load m4 h ;;
    Ok (m4, sub_free c4 fs, h + P)
  else
    nx <- load m (next_at h) ;;
    '(m4, c4) <- set_link m c hprev nx ;;
    fs <- load m4 h ;;
    Ok (m4, sub_free c4 fs, h + P).

(* fpm_alloc, kernel/fpm_alloc.c:75-82. *)
Definition alloc (m : mem) (c : ctx) (nbytes : Z) : res (mem * ctx * Z) :=
  '(m1, c1, p) <- alloc_dirty m c nbytes ;;
  if negb (p =? 0) && (0 <? nbytes)
  then m2 <- memzero m1 p nbytes ;; Ok (m2, c1, p)
  else Ok (m1, c1, p).

(* The loop of make_free_block, kernel/fpm_alloc.c:169-201. *)
Fixpoint free_walk (fuel : nat) (m : mem) (c : ctx) (hprev : option Z) (h newh : Z)
  : res (mem * ctx) :=
  if h =? 0 then
    '(m1, c1) <- set_link m c hprev newh ;;
    m2 <- store m1 (next_at newh) 0 ;;
    Ok (m2, c1)
  else
  match fuel with
  | O => NoFuel
  | S k =>
      if newh <? h then
        '(m1, c1) <- set_link m c hprev newh ;;
        ns <- load m1 newh ;;
        if wrap (newh + ns) =? h then
          hs <- load m1 h ;;
          m2 <- store m1 newh (wrap (ns + hs)) ;;
          nx <- load m2 (next_at h) ;;
          m3 <- store m2 (next_at newh) nx ;;
          Ok (m3, c1)
        else
          m2 <- store m1 (next_at newh) h ;;
          Ok (m2, c1)
      else
      hs <- load m h ;;
      if wrap (h + hs) =? newh then
        ns <- load m newh ;;
        m1 <- store m h (wrap (hs + ns)) ;;
        hs1 <- load m1 h ;;
        nx <- load m1 (next_at h) ;;
        if wrap (h + hs1) =? nx then
          xs <- load m1 nx ;;
          m2 <- store m1 h (wrap (hs1 + xs)) ;;
          nx2 <- load m2 (next_at h) ;;
          nn <- load m2 (next_at nx2) ;;
          m3 <- store m2 (next_at h) nn ;;
          Ok (m3, c)
        else Ok (m1, c)
      else
      nx <- load m (next_at h) ;;
      free_walk k m c (Some h) nx newh
  end.

(* make_free_block, kernel/fpm_alloc.c:154-202. *)
Definition make_free_block (m : mem) (c : ctx) (newh : Z) : res (mem * ctx) :=
  ns <- load m newh ;;
  free_walk (walk_fuel c) m (add_free c ns) None (free_list c) newh.

(* fpm_free, kernel/fpm_alloc.c:207-224. *)
Definition free (m : mem) (c : ctx) (p : Z) : res (mem * ctx) :=
  if p =? 0 then Ok (m, c) else make_free_block m c (p - P).

(* fpm_sizeof, kernel/fpm_alloc.c:305-320. *)
Definition size_of (m : mem) (p : Z) : res Z :=
  if p =? 0 then Ok 0 else
  hs <- load m (p - P) ;; Ok (wrap (hs - P)).

(* fpm_realloc, kernel/fpm_alloc.c:230-257. *)
Definition realloc (m : mem) (c : ctx) (p n : Z) : res (mem * ctx * Z) :=
  if p =? 0 then Ok (m, c, 0) else
  hs <- load m (p - P) ;;
  let old_size := wrap (hs - P) in
  if n <=? old_size then Ok (m, c, p) else
  '(m1, c1, q) <- alloc m c n ;;
  if q =? 0 then
    '(m2, c2) <- make_free_block m1 c1 (p - P) ;;
    Ok (m2, c2, 0)
  else
    m2 <- memcpy m1 q p old_size ;;
    '(m3, c3) <- make_free_block m2 c1 (p - P) ;;
    Ok (m3, c3, q).

(* fpm_truncate, kernel/fpm_alloc.c:263-292. *)
Definition truncate (m : mem) (c : ctx) (p nbytes : Z) : res (mem * ctx) :=
  if p =? 0 then Ok (m, c) else
  let n := round_request nbytes in
  hs <- load m (p - P) ;;
  if wrap (n + P + 2 * P) <=? hs then
    let newh := wrap (p - P + n) in
    m1 <- store m newh (wrap (hs - n)) ;;
    m2 <- store m1 (p - P) n ;;
    make_free_block m2 c newh
  else Ok (m, c).

(* fpm_heap_available, kernel/fpm_alloc.c:297-300. *)
Definition heap_available (c : ctx) : Z := free_size c.

(* fpm_heap_setup, kernel/fpm_alloc.c:336-349, on a zeroed context. *)
Definition heap_setup (m : mem) (start n : Z) : res (mem * ctx) :=
  m1 <- store m start n ;;
  m2 <- store m1 (next_at start) 0 ;;
  fs <- load m2 start ;;
  Ok (m2, Ctx start fs start n).

(* fpm_heap_init, kernel/fpm_alloc.c:354-364, of the outermost context. *)
Definition heap_init (m : mem) (start n : Z) : res st :=
  '(m1, c) <- heap_setup m start n ;; Ok (St m1 c []).

(* kernel/fpm_alloc.c:374-388: first block of maximal size, with its size. *)
Fixpoint find_max (fuel : nat) (m : mem) (best : Z) (h : Z) : res Z :=
  if h =? 0 then Ok best else
  match fuel with
  | O => NoFuel
  | S k =>
      hs <- load m h ;;
      best' <- (if best =? 0 then Ok h
                else bs <- load m best ;; Ok (if bs <? hs then h else best)) ;;
      nx <- load m (next_at h) ;;
      find_max k m best' nx
  end.

(* fpm_context_push, kernel/fpm_alloc.c:370-403, of a zeroed context
   (fpm_exec clears it, kernel/fpm_exec.c:139).  None is the result false. *)
Definition context_push (s : st) : res (option st) :=
  let c := sctx s in
  mb <- find_max (walk_fuel c) (sm s) 0 (free_list c) ;;
  if mb =? 0 then Ok None else
  bs <- load (sm s) mb ;;
  if bs <? 1024 then Ok None else
  '(m1, c1) <- heap_setup (sm s) (wrap (mb + (P + P))) (wrap (bs - (P + P))) ;;
  Ok (Some (St m1 c1 (c :: sparents s))).

(* fpm_context_pop, kernel/fpm_alloc.c:408-411. *)
Definition context_pop (s : st) : res st :=
  match sparents s with
  | [] => Ub
  | c :: cs => Ok (St (sm s) c cs)
  end.

End Alloc.

(* One call made by a program.  OPoke is the program's own store of a byte. *)
Inductive op :=
| OAlloc (n : Z)
| ODirty (n : Z)
| OFree (p : Z)
| ORealloc (p n : Z)
| OTruncate (p n : Z)
| OPush
| OPop
| OPoke (a v : Z).

(* Perform one call; the second component is what the call returns (0 for
   void, 1/0 for true/false). *)
Definition step (P : Z) (s : st) (o : op) : res (st * Z) :=
  match o with
  | OAlloc n => '(m, c, p) <- alloc P (sm s) (sctx s) n ;; Ok (St m c (sparents s), p)
  | ODirty n => '(m, c, p) <- alloc_dirty P (sm s) (sctx s) n ;; Ok (St m c (sparents s), p)
  | OFree p => '(m, c) <- free P (sm s) (sctx s) p ;; Ok (St m c (sparents s), 0)
  | ORealloc p n => '(m, c, q) <- realloc P (sm s) (sctx s) p n ;; Ok (St m c (sparents s), q)
  | OTruncate p n => '(m, c) <- truncate P (sm s) (sctx s) p n ;; Ok (St m c (sparents s), 0)
  | OPush => r <- context_push P s ;;
             Ok (match r with None => (s, 0) | Some s' => (s', 1) end)
  | OPop => s' <- context_pop s ;; Ok (s', 0)
  | OPoke a v =>
      if (mlo (sm s) <=? a) && (a <? mhi (sm s))
      then Ok (St (Mem (upd (bytes (sm s)) a v) (mlo (sm s)) (mhi (sm s)))
                  (sctx s) (sparents s), 0)
      else Ub
  end.
