(* Model of kernel/fpm_loader.c, kernel/fpm_exec.c and the Unix part of the
   loader, unix/loader_unix.c.  The mapped file is the list of its bytes; a read
   outside it is undefined behaviour.  Pointers into it are offsets from
   ctx->base.  Alignment is not checked.  The machine is little endian. *)
From Verif Require Import Base Arr.
Open Scope Z_scope.

(* A little-endian field of [n] bytes at offset [o]. *)
Definition byte_at (f : list Z) (o : Z) : res Z :=
  if (0 <=? o) && (o <? Z.of_nat (length f)) then rd f (Z.to_nat o) else Ub.
Fixpoint field (f : list Z) (o : Z) (n : nat) : res Z :=
  match n with
  | O => Ok 0
  | S k => b <- byte_at f o ;; r <- field f (o + 1) k ;; Ok (b + 256 * r)
  end.

(* include/fpm/elf.h:368, 358, 826, 856, 861 *)
Definition SHT_RELA : Z := 4.
Definition SHT_REL : Z := 9.
Definition SHF_INFO_LINK : Z := 64.
Definition ET_DYN : Z := 3.

(* The binding tables: a table is its entries behind the first one, a chain is
   the table followed by the ones its first entries lead to
   (include/fpm/loader.h:22-25; kernel/fpm_loader.c:205-224).  Address 0 is
   NULL. *)
Definition table := list (list Z * Z).

Fixpoint Zs_eqb (a b : list Z) : bool :=
  match a, b with
  | [], [] => true
  | x :: a', y :: b' => (x =? y) && Zs_eqb a' b'
  | _, _ => false
  end.

(* kernel/fpm_loader.c:209-213 *)
Fixpoint find_in (t : table) (name : list Z) : option Z :=
  match t with
  | [] => None
  | (n, a) :: t' => if Zs_eqb name n then Some a else find_in t' name
  end.

(* find_address_by_name, kernel/fpm_loader.c:205-224 *)
Fixpoint find_address_by_name (chain : list table) (name : list Z) : Z :=
  match chain with
  | [] => 0
  | t :: ts => match find_in t name with Some a => a | None => find_address_by_name ts name end
  end.

(* An entry of the global offset table built by fpm_invoke. *)
Inductive slot :=
| Local (offset : Z)     (* base + offset *)
| Extern (address : Z).

Inductive load_error := NotElf | BadVersion | BadEndian | BadClass | BadType | BadMachine | NoReloc.

Section Load.

(* __SIZE_WIDTH__ == 64, and NATIVE_MACHINE. *)
Variable b64 : bool.
Variable machine : Z.

Definition pick {A} (x y : A) : A := if b64 then x else y.
Definition word : nat := pick 8%nat 4%nat.

(* Native_Ehdr, include/fpm/elf.h:459-492 *)
Definition e_type (f : list Z) := field f 16 2.
Definition e_machine (f : list Z) := field f 18 2.
Definition e_entry (f : list Z) := field f 24 word.
Definition e_shoff (f : list Z) := field f (pick 40 32) word.
Definition e_shnum (f : list Z) := field f (pick 60 48) 2.

(* Native_Shdr, include/fpm/elf.h:623-648; [s]: offset of the header. *)
Definition sizeof_shdr : Z := pick 64 40.
Definition sh_type (f : list Z) (s : Z) := field f (s + 4) 4.
Definition sh_flags (f : list Z) (s : Z) := field f (s + 8) word.
Definition sh_offset (f : list Z) (s : Z) := field f (s + pick 24 16) word.
Definition sh_size (f : list Z) (s : Z) := field f (s + pick 32 20) word.
Definition sh_link (f : list Z) (s : Z) := field f (s + pick 40 24) 4.
Definition sh_entsize (f : list Z) (s : Z) := field f (s + pick 56 36) word.

(* The loop of fpm_section_by_type_flags, kernel/fpm_loader.c:42-47, with [n]
   sections left, the next at [s]. *)
Fixpoint find_section (f : list Z) (s : Z) (n : nat) (type flags : Z) : res (option Z) :=
  match n with
  | O => Ok None
  | S k =>
      t <- sh_type f s ;;
      if t =? type then
        fl <- sh_flags f s ;;
        if Z.land fl flags =? flags then Ok (Some s) else find_section f (s + sizeof_shdr) k type flags
      else find_section f (s + sizeof_shdr) k type flags
  end.

(* fpm_section_by_type_flags, kernel/fpm_loader.c:37-49 *)
Definition section_by_type_flags (f : list Z) (type flags : Z) : res (option Z) :=
  off <- e_shoff f ;;
  num <- e_shnum f ;;
  find_section f off (Z.to_nat num) type flags.

(* fpm_section_by_index, kernel/fpm_loader.c:54-60 *)
Definition section_by_index (f : list Z) (i : Z) : res Z :=
  off <- e_shoff f ;; Ok (off + i * sizeof_shdr).

(* fpm_load behind fpm_load_arch, kernel/fpm_loader.c:72-143: an error, or
   rel_section and num_links.  Division by zero is undefined. *)
Definition check_file (f : list Z) : res (load_error + Z * Z) :=
  m0 <- byte_at f 0 ;; m1 <- (if m0 =? 127 then byte_at f 1 else Ok 0) ;;
  m2 <- (if m1 =? 69 then byte_at f 2 else Ok 0) ;; m3 <- (if m2 =? 76 then byte_at f 3 else Ok 0) ;;
  if negb (m3 =? 70) then Ok (inl NotElf) else
  v <- byte_at f 6 ;;
  if negb (v =? 1) then Ok (inl BadVersion) else
  d <- byte_at f 5 ;;
  if negb (d =? 1) then Ok (inl BadEndian) else
  c <- byte_at f 4 ;;
  if negb (c =? pick 2 1) then Ok (inl BadClass) else
  t <- e_type f ;;
  if negb (t =? ET_DYN) then Ok (inl BadType) else
  m <- e_machine f ;;
  if negb (m =? machine) then Ok (inl BadMachine) else
  r <- section_by_type_flags f SHT_RELA SHF_INFO_LINK ;;
  r <- (match r with Some s => Ok (Some s) | None => section_by_type_flags f SHT_REL SHF_INFO_LINK end) ;;
  match r with
  | None => Ok (inl NoReloc)
  | Some s =>
      size <- sh_size f s ;;
      ent <- sh_entsize f s ;;
      if ent =? 0 then Ub else Ok (inr (s, (size / ent) mod 2 ^ 32))
  end.

(* Index of the symbol of a relocation, kernel/fpm_loader.c:163-171; the result
   is an unsigned. *)
Definition reloc_symbol (f : list Z) (rel i : Z) : res Z :=
  t <- sh_type f rel ;;
  off <- sh_offset f rel ;;
  info <- field f (off + i * (if t =? SHT_RELA then pick 24 12 else pick 16 8) + pick 8 4) word ;;
  Ok (Z.shiftr info (pick 32 8) mod 2 ^ 32).

(* fpm_get_name, kernel/fpm_loader.c:157-187: offset of the name, and value
   (an unsigned). *)
Definition get_name (f : list Z) (rel i : Z) : res (Z * Z) :=
  sym <- reloc_symbol f rel i ;;
  l <- sh_link f rel ;;
  dyn <- section_by_index f l ;;
  symbols <- sh_offset f dyn ;;
  let s := symbols + sym * pick 24 16 in
  value <- field f (s + pick 8 4) word ;;
  l <- sh_link f dyn ;;
  str <- section_by_index f l ;;
  strings <- sh_offset f str ;;
  name <- field f s 4 ;;
  Ok (strings + name, value mod 2 ^ 32).

(* The C string at an offset.  strcmp and fpm_printf may stop earlier; here the
   terminator must be inside the file. *)
Fixpoint cstr (f : list Z) : res (list Z) :=
  match f with
  | [] => Ub
  | c :: r => if c =? 0 then Ok [] else s <- cstr r ;; Ok (c :: s)
  end.
Definition string_from (f : list Z) (o : Z) : res (list Z) :=
  if 0 <=? o then cstr (skipn (Z.to_nat o) f) else Ub.

(* The binding loop of fpm_invoke, kernel/fpm_loader.c:281-300, for [n] more
   imports from [i] on.  Result: the entries of got, and the names not found (the
   entries are only used when there is none). *)
Fixpoint bind_all (f : list Z) (chain : list table) (rel i : Z) (n : nat) : res (list slot * list (list Z)) :=
  match n with
  | O => Ok ([], [])
  | S k =>
      '(o, v) <- get_name f rel i ;;
      if negb (v =? 0) then
        '(g, m) <- bind_all f chain rel (i + 1) k ;; Ok (Local v :: g, m)
      else
        name <- string_from f o ;;
        let a := find_address_by_name chain name in
        '(g, m) <- bind_all f chain rel (i + 1) k ;;
        Ok (Extern a :: g, if a =? 0 then name :: m else m)
  end.

(* What fpm_invoke does: prints the missing names and returns false, or calls
   the entry with the table. *)
Inductive invoked :=
| Missing (names : list (list Z))
| Called (entry : Z) (got : list slot).

(* fpm_invoke, kernel/fpm_loader.c:275-322 *)
Definition invoke (f : list Z) (chain : list table) (rel num : Z) : res invoked :=
  '(g, m) <- bind_all f chain rel 0 (Z.to_nat num) ;;
  match m with
  | [] => e <- e_entry f ;; Ok (Called e g)
  | _ => Ok (Missing m)
  end.

(* Both steps as in fpm_exec. *)
Definition load_invoke (f : list Z) (chain : list table) : res (load_error + invoked) :=
  r <- check_file f ;;
  match r with
  | inl e => Ok (inl e)
  | inr (rel, num) => x <- invoke f chain rel num ;; Ok (inr x)
  end.

End Load.
