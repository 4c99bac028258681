(* What a program using the allocator may do and what it may rely on.  The
   definitions here mention only calls, their results, fpm_sizeof,
   fpm_heap_available, byte contents and a walk of the free list; they do not
   use the allocator's own helpers. *)
From Verif Require Import Base AllocModel.
Open Scope Z_scope.

(* The client's view: pointers it owns in the current context, and those
   owned in the enclosing contexts, innermost first. *)
Record ghost := Ghost { live : list Z; outer : list (list Z) }.

(* Requests small enough for the size computation not to wrap. *)
Definition req_ok (P n : Z) : Prop := 0 <= n <= 2 ^ 32 - 5 * P.

Definition owned (g : ghost) (p : Z) : Prop :=
  In p (live g) \/ exists l, In l (outer g) /\ In p l.

(* A correct client frees, reallocates and truncates only pointers it owns in
   the current context, and writes only inside blocks it owns. *)
Definition valid (P : Z) (s : st) (g : ghost) (o : op) : Prop :=
  match o with
  | OAlloc n | ODirty n => req_ok P n
  | OFree p => p = 0 \/ In p (live g)
  | ORealloc p n | OTruncate p n => (p = 0 \/ In p (live g)) /\ req_ok P n
  | OPush => True
  | OPop => outer g <> []
  | OPoke a _ => exists p n, owned g p /\ size_of P (sm s) p = Ok n /\ p <= a < p + n
  end.

Definition after (g : ghost) (o : op) (r : Z) : ghost :=
  match o with
  | OAlloc _ | ODirty _ => if r =? 0 then g else Ghost (r :: live g) (outer g)
  | OFree p => Ghost (remove Z.eq_dec p (live g)) (outer g)
  | ORealloc p _ =>
      if p =? 0 then g else
      let l := remove Z.eq_dec p (live g) in
      Ghost (if r =? 0 then l else r :: l) (outer g)
  | OPush => if r =? 0 then g else Ghost [] (live g :: outer g)
  | OPop => match outer g with [] => g | l :: ls => Ghost l ls end
  | OTruncate _ _ | OPoke _ _ => g
  end.

(* [run P d s g h s' g']: the client performs the calls [h], each allowed by
   [valid], never leaving the innermost [d] enclosing contexts. *)
Inductive run (P : Z) (d : nat) (s : st) (g : ghost) : list op -> st -> ghost -> Prop :=
| run_nil : run P d s g [] s g
| run_snoc : forall h s1 g1 o s2 r,
    run P d s g h s1 g1 ->
    valid P s1 g1 o ->
    step P s1 o = Ok (s2, r) ->
    (d <= length (outer (after g1 o r)))%nat ->
    run P d s g (h ++ [o]) s2 (after g1 o r).

(* Heaps fpm_heap_init may be given. *)
Definition heap_ok (P : Z) (m : mem) (start size : Z) : Prop :=
  (P = 4 \/ P = 8) /\ 0 < start /\ start mod P = 0 /\ size mod P = 0 /\
  2 * P <= size /\ start + size < 2 ^ (8 * P) /\
  mlo m <= start /\ start + size <= mhi m.

(* States reachable from fpm_heap_init by a correct client. *)
Definition reachable (P : Z) (m : mem) (start size : Z) (h : list op) (s : st) (g : ghost) : Prop :=
  exists s0, heap_init P m start size = Ok s0 /\ run P 0 s0 (Ghost [] []) h s g.

(* The free list as a walk through memory sees it: addresses and sizes. *)
Fixpoint walks (P : Z) (m : mem) (h : Z) (l : list (Z * Z)) : Prop :=
  match l with
  | [] => h = 0
  | (a, n) :: l' =>
      h = a /\ a <> 0 /\ load P m a = Ok n /\
      exists h', load P m (a + P) = Ok h' /\ walks P m h' l'
  end.

Definition free_blocks (P : Z) (s : st) (l : list (Z * Z)) : Prop :=
  walks P (sm s) (free_list (sctx s)) l.

(* Usable bytes of block [p] in memory [m]. *)
Definition usable (P : Z) (m : mem) (p n : Z) : Prop := p <> 0 /\ size_of P m p = Ok n.

(* Size of the chunk, header included, that serves a request of [n] bytes:
   the least multiple of the pointer size that holds a header and
   max(n, pointer size) bytes. *)
Definition chunk_size (P n : Z) : Z := P * ((P + Z.max n P + (P - 1)) / P).

Definition sum (l : list Z) : Z := fold_right Z.add 0 l.

(* [p] is the block that call [o] works on. *)
Definition arg_of (o : op) (p : Z) : Prop :=
  match o with
  | OFree q | ORealloc q _ | OTruncate q _ => p = q
  | _ => False
  end.

Definition is_alloc (o : op) (n : Z) : Prop := o = OAlloc n \/ o = ODirty n.

(* The number of bytes a call asks for. *)
Definition request (o : op) : option Z :=
  match o with OAlloc n | ODirty n | ORealloc _ n => Some n | _ => None end.
