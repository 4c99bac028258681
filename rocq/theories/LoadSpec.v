(* What an executable file means, stated on its bytes with the structure
   definitions of the ELF format, and what binding its imports means. *)
From Verif Require Import Base LoadModel.
Open Scope Z_scope.

(* The number written by little-endian bytes. *)
Fixpoint of_le (l : list Z) : Z := match l with [] => 0 | b :: l' => b + 256 * of_le l' end.

(* The [n] bytes at offset [o] of the file hold [v]. *)
Definition holds (f : list Z) (o : Z) (n : nat) (v : Z) : Prop :=
  exists pre bs post, f = pre ++ bs ++ post /\ Z.of_nat (length pre) = o /\ length bs = n /\ of_le bs = v.

(* Structures as the list of their members' sizes. *)
Definition sum (l : list nat) : nat := fold_right Nat.add 0%nat l.
Definition member (f : list Z) (base : Z) (l : list nat) (k : nat) (v : Z) : Prop :=
  holds f (base + Z.of_nat (sum (firstn k l))) (nth k l 0%nat) v.

Section Elf.
Variable b64 : bool.
Variable machine : Z.

Definition w : nat := if b64 then 8 else 4.
(* ident type machine version entry phoff shoff flags ehsize phentsize phnum shentsize shnum shstrndx *)
Definition ehdr : list nat := [16; 2; 2; 4; w; w; w; 4; 2; 2; 2; 2; 2; 2]%nat.
(* name type flags addr offset size link info addralign entsize *)
Definition shdr : list nat := [4; 4; w; w; w; w; 4; 4; w; w]%nat.
(* offset info [addend] *)
Definition rela : list nat := [w; w; w].
Definition rel : list nat := [w; w].
(* name info other shndx value size; name value size info other shndx *)
Definition sym : list nat := if b64 then [4; 1; 1; 2; 8; 8]%nat else [4; 4; 4; 1; 1; 2]%nat.
Definition sym_value : nat := if b64 then 4 else 1.

(* Member [k] of section header [i]. *)
Definition section (f : list Z) (i : Z) (k : nat) (v : Z) : Prop :=
  exists shoff, member f 0 ehdr 6 shoff /\ member f (shoff + i * Z.of_nat (sum shdr)) shdr k v.

(* Section [i] is a relocation section of the given type for the procedure
   linkage table (flag INFO_LINK, bit 6). *)
Definition is_reloc (f : list Z) (ty i : Z) : Prop :=
  section f i 1 ty /\ exists fl, section f i 2 fl /\ Z.testbit fl 6 = true.
Definition not_reloc (f : list Z) (ty i : Z) : Prop :=
  exists t, section f i 1 t /\ (t <> ty \/ exists fl, section f i 2 fl /\ Z.testbit fl 6 = false).

(* The relocation section: the first of type RELA (4), or the first of type REL
   (9) when there is none. *)
Definition reloc_section (f : list Z) (ty i : Z) : Prop :=
  exists num, member f 0 ehdr 12 num /\ 0 <= i < num /\ is_reloc f ty i /\
    (forall j, 0 <= j < i -> not_reloc f ty j) /\
    (ty = 4 \/ ty = 9 /\ forall j, 0 <= j < num -> not_reloc f 4 j).

(* Header of a program for this machine: ELF magic, class, little endian,
   version 1, shared object, machine. *)
Definition good_header (f : list Z) : Prop :=
  holds f 0 1 127 /\ holds f 1 1 69 /\ holds f 2 1 76 /\ holds f 3 1 70 /\
  holds f 4 1 (if b64 then 2 else 1) /\ holds f 5 1 1 /\ holds f 6 1 1 /\
  member f 0 ehdr 1 3 /\ member f 0 ehdr 2 machine.

(* An import is defined in the file itself, or has only a name. *)
Inductive import := Defined (value : Z) | Named (name : list Z).

Definition string_at (f : list Z) (o : Z) (s : list Z) : Prop :=
  ~ In 0 s /\ exists pre post, f = pre ++ s ++ 0 :: post /\ Z.of_nat (length pre) = o.

(* The import of relocation [k] in section [r] of type [ty]: the symbol its info
   word names, in the symbol table linked to [r], with the name in the string
   table linked to that.  Values are taken modulo 2^32. *)
Definition import_at (f : list Z) (ty r k : Z) (m : import) : Prop :=
  exists roff info dyn soff str toff value name,
    section f r 4 roff /\
    member f (roff + k * Z.of_nat (sum (if ty =? 4 then rela else rel))) (if ty =? 4 then rela else rel) 1 info /\
    section f r 6 dyn /\ section f dyn 4 soff /\ section f dyn 6 str /\ section f str 4 toff /\
    let s := soff + info / (if b64 then 2 ^ 32 else 2 ^ 8) * Z.of_nat (sum sym) in
    member f s sym sym_value value /\ member f s sym 0 name /\
    match m with
    | Defined v => v = value mod 2 ^ 32 /\ v <> 0
    | Named n => value mod 2 ^ 32 = 0 /\ string_at f (toff + name) n
    end.

(* The file is a program with these imports. *)
Definition program (f : list Z) (imps : list import) : Prop :=
  good_header f /\
  exists ty r size ent, reloc_section f ty r /\ section f r 5 size /\ section f r 9 ent /\ ent <> 0 /\
    Z.of_nat (length imps) = (size / ent) mod 2 ^ 32 /\
    forall k m, nth_error imps k = Some m -> import_at f ty r (Z.of_nat k) m.

Definition entry_point (f : list Z) (e : Z) : Prop := member f 0 ehdr 4 e.

End Elf.

(* [a] is the address in the first definition of [name] in the chain, inner
   tables first. *)
Definition names (t : table) : list (list Z) := map fst t.
Definition first_definition (chain : list table) (name : list Z) (a : Z) : Prop :=
  exists ts t ts' l l', chain = ts ++ t :: ts' /\ Forall (fun u => ~ In name (names u)) ts /\
    t = l ++ (name, a) :: l' /\ ~ In name (names l).
Definition unbound (chain : list table) (name : list Z) : Prop :=
  first_definition chain name 0 \/ Forall (fun u => ~ In name (names u)) chain.

Definition resolves (chain : list table) (m : import) (s : slot) : Prop :=
  match m with
  | Defined v => s = Local v
  | Named n => exists a, a <> 0 /\ first_definition chain n a /\ s = Extern a
  end.

(* The names without definition, in order. *)
Inductive missing (chain : list table) : list import -> list (list Z) -> Prop :=
| missing_nil : missing chain [] []
| missing_defined v ms l : missing chain ms l -> missing chain (Defined v :: ms) l
| missing_bound n ms l a : first_definition chain n a -> a <> 0 -> missing chain ms l -> missing chain (Named n :: ms) l
| missing_unbound n ms l : unbound chain n -> missing chain ms l -> missing chain (Named n :: ms) (n :: l).
