(* Import stubs, tools/elfexe/elfexe.c:209-482.  The mapped file is a byte memory of fsz
   bytes; a and stop are the offsets of the section's start and end in the file.  Section
   headers are not inside the section, so that they do not change; messages left out. *)
From Verif Require Import Base.
Open Scope Z_scope.

(* process_*_plt returns or ends the program with an error; the file (mapped MAP_SHARED)
   has then the contents m, and num_links is n. *)
Inductive plt_out := Done (m : Z -> Z) (n : Z) | Exit (m : Z -> Z) (n : Z).

Definition inside (fsz a n : Z) : bool := (0 <=? a) && (a + n <=? fsz).
Definition word (x : Z) : Z := x mod 4294967296.

(* code[k] == v && ... *)
Fixpoint tests8 (fsz : Z) (m : Z -> Z) (a : Z) (l : list (Z * Z)) : res bool :=
  match l with
  | [] => Ok true
  | (k, v) :: l => if inside fsz (a + k) 1 then if m (a + k) =? v then tests8 fsz m a l else Ok false else Ub
  end.
(* (code[k] & mask) == v && ... *)
Fixpoint tests32 (fsz : Z) (m : Z -> Z) (a : Z) (l : list (Z * Z * Z)) : res bool :=
  match l with
  | [] => Ok true
  | (k, mask, v) :: l =>
      if inside fsz (a + 4 * k) 4 then if Z.land (load_le m (a + 4 * k) 4) mask =? v then tests32 fsz m a l else Ok false else Ub
  end.
(* code[k] = v, code[k + 1] = ... *)
Fixpoint puts8 (fsz : Z) (m : Z -> Z) (a : Z) (l : list Z) : res (Z -> Z) :=
  match l with
  | [] => Ok m
  | v :: l => if inside fsz a 1 then puts8 fsz (upd m a (v mod 256)) (a + 1) l else Ub
  end.
Fixpoint puts32 (fsz : Z) (m : Z -> Z) (a : Z) (l : list Z) : res (Z -> Z) :=
  match l with
  | [] => Ok m
  | v :: l => if inside fsz a 4 then puts32 fsz (store_le m a 4 v) (a + 4) l else Ub
  end.

(* 215-220 *)
Definition is_amd64_entry fsz m a : res bool :=
  tests8 fsz m a [(0, 243); (1, 15); (2, 30); (3, 250); (4, 255); (5, 37); (10, 102); (11, 15); (12, 31); (13, 68)].
(* 228-231 *)
Definition is_amd64_entry2 fsz m a : res bool := tests8 fsz m a [(0, 255); (1, 37)].
(* 239-244 *)
Definition is_amd64_preamble fsz m a : res bool :=
  tests8 fsz m a [(0, 255); (1, 53); (6, 255); (7, 37); (12, 15); (13, 31); (14, 64); (15, 0)].

(* One round of the loop, 276-337; None: bad entry. *)
Definition amd64_step (fsz : Z) (m : Z -> Z) (a n : Z) : res (option ((Z -> Z) * Z)) :=
  pre <- is_amd64_preamble fsz m a ;;
  if pre then Ok (Some (m, n))
  else
    let i8 := word (n * 8) in
    let imm := [i8; Z.shiftr i8 8; Z.shiftr i8 16; Z.shiftr i8 24] in
    e1 <- is_amd64_entry fsz m a ;;
    if e1 then
      m <- puts8 fsz m (a + 4) ([101; 255; 36; 37] ++ imm ++ [15; 31; 4; 0]) ;; Ok (Some (m, word (n + 1)))
    else
      e2 <- is_amd64_entry2 fsz m a ;;
      if e2 then
        m <- puts8 fsz m a ([101; 255; 36; 37] ++ imm ++ [15; 31; 132; 0; 1; 0; 0; 0]) ;; Ok (Some (m, word (n + 1)))
      else Ok None.

(* 348-354 *)
Definition is_arm64_entry fsz m a : res bool :=
  tests32 fsz m a [(0, 0x9f000000, 0x90000000); (1, 0xffc003ff, 0xf9400211); (2, 0xff800000, 0x91000000); (3, 0xffffffff, 0xd61f0220)].
(* 390-405 *)
Definition arm64_step (fsz : Z) (m : Z -> Z) (a n : Z) : res (option ((Z -> Z) * Z)) :=
  e <- is_arm64_entry fsz m a ;;
  if e then
    m <- puts32 fsz m a [0xd53bd050; Z.lor 0x91000210 (word (Z.shiftl n 13)); 0xf9400211; 0xd61f0220] ;; Ok (Some (m, word (n + 1)))
  else Ok None.

(* 414-419 *)
Definition is_arm32_entry fsz m a : res bool :=
  tests32 fsz m a [(0, 0xfffff000, 0xe28fc000); (1, 0xfffff000, 0xe28cc000); (2, 0xffff0000, 0xe5bc0000)].
(* 461-475 *)
Definition arm32_step (fsz : Z) (m : Z -> Z) (a n : Z) : res (option ((Z -> Z) * Z)) :=
  e <- is_arm32_entry fsz m a ;;
  if e then
    m <- puts32 fsz m a [0xee1dcf50; Z.lor 0xe59cf000 n; 0xe320f000] ;; Ok (Some (m, word (n + 1)))
  else Ok None.

(* The loops: 275-339, 389-407, 460-476.  offset is an unsigned int and sections are
   smaller than 4 Gbytes. *)
Fixpoint scan (fuel : nat) (step : (Z -> Z) -> Z -> Z -> res (option ((Z -> Z) * Z))) (sz : Z) (m : Z -> Z) (a stop n : Z) : res plt_out :=
  match fuel with
  | 0%nat => NoFuel
  | S fuel =>
      if a <? stop then
        r <- step m a n ;;
        match r with
        | Some (m, n) => scan fuel step sz m (a + sz) stop n
        | None => Ok (Exit m n)
        end
      else Ok (Done m n)
  end.
(* 453-459 *)
Fixpoint skip (fuel : nat) (fsz : Z) (m : Z -> Z) (a stop : Z) : res Z :=
  match fuel with
  | 0%nat => NoFuel
  | S fuel =>
      if a <? stop then
        e <- is_arm32_entry fsz m a ;; if e then Ok a else skip fuel fsz m (a + 4) stop
      else Ok a
  end.

(* num_links is 0 at the start and each file has one section processed. *)
Definition process_amd64_plt (fsz : Z) (m : Z -> Z) (a size : Z) : res plt_out :=
  scan (Z.to_nat size + 1) (amd64_step fsz) 16 m a (a + size) 0.
Definition process_arm64_plt (fsz : Z) (m : Z -> Z) (a size : Z) : res plt_out :=
  scan (Z.to_nat size + 1) (arm64_step fsz) 16 m (a + 32) (a + size) 0.
Definition process_arm32_plt (fsz : Z) (m : Z -> Z) (a size : Z) : res plt_out :=
  o <- skip (Z.to_nat size + 1) fsz m a (a + size) ;;
  scan (Z.to_nat size + 1) (arm32_step fsz) 12 m o (a + size) 0.
