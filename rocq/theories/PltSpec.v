(* What import stubs do: the processor's view of the code. *)
From Verif Require Import Base PltModel.
Open Scope Z_scope.

(* The bytes at a, where given. *)
Definition bytes_at (m : Z -> Z) (a : Z) (l : list (option Z)) : Prop := forall k v, nth_error l k = Some (Some v) -> m (a + Z.of_nat k) = v.
Definition w32 (m : Z -> Z) (a : Z) : Z := load_le m a 4.

(* amd64.  The parts of a linkage table as the linkers make them: the first entry, entries
   with endbr64, and plain ones. *)
Definition amd64_first (m : Z -> Z) (a : Z) : Prop :=
  bytes_at m a [Some 0xff; Some 0x35; None; None; None; None; Some 0xff; Some 0x25; None; None; None; None; Some 0x0f; Some 0x1f; Some 0x40; Some 0].
Definition amd64_stub (m : Z -> Z) (a : Z) : Prop :=
  bytes_at m a [Some 0xf3; Some 0x0f; Some 0x1e; Some 0xfa; Some 0xff; Some 0x25; None; None; None; None; Some 0x66; Some 0x0f; Some 0x1f; Some 0x44] \/
  bytes_at m a [Some 0xff; Some 0x25].
(* Running the code at a jumps to the address stored at %gs:d:
   [endbr64 (f3 0f 1e fa)] jmp *%gs:disp32 (65 ff 24 25 disp32). *)
Definition amd64_jumps (m : Z -> Z) (a d : Z) : Prop :=
  exists b, (b = a \/ (b = a + 4 /\ bytes_at m a [Some 0xf3; Some 0x0f; Some 0x1e; Some 0xfa])) /\
    bytes_at m b [Some 0x65; Some 0xff; Some 0x24; Some 0x25] /\ w32 m (b + 4) = d.

(* arm64: adrp; ldr x17, [x16, #]; add (immediate, any registers); br x17 *)
Definition arm64_stub (m : Z -> Z) (a : Z) : Prop :=
  Z.land (w32 m a) 0x9f000000 = 0x90000000 /\ Z.land (w32 m (a + 4)) 0xffc003ff = 0xf9400211 /\ Z.land (w32 m (a + 8)) 0xff800000 = 0x91000000 /\ w32 m (a + 12) = 0xd61f0220.
(* mrs x16, tpidr_el0; add x16, x16, #imm12{, lsl #12}; ldr x17, [x16, #imm12 * 8]; br x17
   jumps to the address stored at tpidr_el0 + d. *)
Definition arm64_jumps (m : Z -> Z) (a d : Z) : Prop :=
  w32 m a = 0xd53bd050 /\
  exists sh i j, (sh = 0 \/ sh = 1) /\ 0 <= i < 4096 /\ 0 <= j < 4096 /\
    w32 m (a + 4) = 0x91000210 + 0x400000 * sh + 0x400 * i /\ w32 m (a + 8) = 0xf9400211 + 0x400 * j /\ w32 m (a + 12) = 0xd61f0220 /\
    d = (if sh =? 1 then 4096 * i else i) + 8 * j.

(* arm32: add ip, pc, #; add ip, ip, #; ldr Rt, [ip, #]! *)
Definition arm32_stub (m : Z -> Z) (a : Z) : Prop :=
  Z.land (w32 m a) 0xfffff000 = 0xe28fc000 /\ Z.land (w32 m (a + 4)) 0xfffff000 = 0xe28cc000 /\ Z.land (w32 m (a + 8)) 0xffff0000 = 0xe5bc0000.
(* mrc p15, 0, ip, c13, c0, 2; ldr pc, [ip, #imm12] jumps to the address stored at
   TPIDRURW + d. *)
Definition arm32_jumps (m : Z -> Z) (a d : Z) : Prop :=
  w32 m a = 0xee1dcf50 /\ 0 <= d < 4096 /\ w32 m (a + 4) = 0xe59cf000 + d.

(* Numbers of imports before part i; parts are stubs (true) or something else (false). *)
Definition before (ks : list bool) (i : nat) : Z := Z.of_nat (count_occ bool_dec (firstn i ks) true).
