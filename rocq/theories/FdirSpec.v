(* A directory as a list of files. *)
From Verif Require Import Base FutfModel FutfSpec LfnModel LfnSpec FdirModel.
Open Scope Z_scope.

(* What is in a table: deleted entries, volume labels, and files with their short name
   entry and their long name (if none, []).  Dot entries are files here. *)
Inductive item := Hole | Label (e : Z -> Z) | File (w : list Z) (e : Z -> Z).

(* A short name entry. *)
Definition short_ok (e : Z -> Z) : Prop := bytes e /\ e 0 <> 0 /\ e 0 <> DDEM /\ Z.land (e 11) 8 = 0.
Definition label_ok (e : Z -> Z) : Prop := bytes e /\ e 0 <> 0 /\ e 0 <> DDEM /\ Z.land (e 11) 31 = 8.

Definition size (x : item) : Z := match x with File w _ => parts w + 1 | _ => 1 end.
Definition sizes (l : list item) : Z := fold_right (fun x n => size x + n) 0 l.

(* Item x is stored at entry p. *)
Definition stored (t : Z -> Z -> Z) (p : Z) (x : item) : Prop :=
  match x with
  | Hole => bytes (t p) /\ t p 0 = DDEM
  | Label e => t p = e /\ label_ok e
  | File w e =>
      t (p + parts w) = e /\ short_ok e /\
      (w <> [] -> name_ok w /\ e 0 <> 46 /\ forall k, 0 <= k < parts w -> part_of w (parts w - k) (sum_sfn e) (t (p + k)) /\ bytes (t (p + k)))
  end.
Fixpoint laid (t : Z -> Z -> Z) (p : Z) (l : list item) : Prop :=
  match l with
  | [] => True
  | x :: l => stored t p x /\ laid t (p + size x) l
  end.

(* The table holds the items, and zeroed entries behind them.  A fixed root directory has
   chunk 1 and nothing to spare. *)
Record dir_ok (d : dirt) (l : list item) : Prop := {
  dk_laid : laid (tab d) 0 l;
  dk_room : sizes l <= cap d;
  dk_cap : 1 <= cap d <= MAXENT;
  dk_chunk : 1 <= chunk d;
  dk_div : (chunk d | cap d) /\ (chunk d | MAXENT);
  dk_spare : 0 <= spare d;
  dk_tail : forall j, sizes l <= j < cap d -> tab d j 0 = 0 /\ bytes (tab d j) }.

Definition entry_t : Type := list Z * (Z -> Z).
Fixpoint files (l : list item) : list entry_t :=
  match l with
  | [] => []
  | File w e :: l => (w, e) :: files l
  | _ :: l => files l
  end.

(* The name looked for, x as long and fn as short name, is one of the file's names. *)
Definition short_same (e fn : Z -> Z) : Prop := forall k, 0 <= k < 11 -> e k = fn k.
Definition hit (x : list Z) (fn : Z -> Z) (f : entry_t) : Prop :=
  (has (fn 11) 64 = false /\ fst f <> [] /\ same_name (fst f) x) \/ (has (fn 11) 1 = false /\ short_same (snd f) fn).

(* The start of the block of a file with long name w at entry p, as dir_remove wants it;
   a search without long names does not tell. *)
Definition read_blk (w : list Z) (p : Z) : Z := match w with [] => NONE | _ => p end.
Definition blk_of (fn : Z -> Z) (w : list Z) (p : Z) : Z := if has (fn 11) 64 then NONE else read_blk w p.

(* Files which are listed: not the dot entries. *)
Definition shown (f : entry_t) : bool := negb (snd f 0 =? 46).
(* An item of a listing is the file f: its entry, and its long name in the buffer or none. *)
Definition lists (d : dirt) (r : Z * Z * (Z -> Z)) (f : entry_t) : Prop :=
  let '(i, blk, buf) := r in
  tab d i = snd f /\ match fst f with [] => blk = NONE | w => blk <> NONE /\ holds buf w end.

(* Free entries, and a table with no room for n entries in a row. *)
Definition free (t : Z -> Z -> Z) (j : Z) : Prop := t j 0 = 0 \/ t j 0 = DDEM.
Definition no_room (d : dirt) (n : Z) : Prop :=
  (spare d = 0 \/ cap d = MAXENT) /\ forall p, 0 <= p -> p + n <= cap d -> exists j, p <= j < p + n /\ ~ free (tab d) j.

(* Short name fn can be registered. *)
Definition fn_ok (fn : Z -> Z) : Prop := bytes fn /\ fn 0 <> 0 /\ fn 0 <> DDEM /\ fn 0 <> 46 /\ has (fn 11) 160 = false.

(* f is the n-th numbered form of the short name fn: the body up to its first space, cut
   to make room for a tilde and hexadecimal digits; the first five are ~1 to ~5. *)
Definition hex_digit (c : Z) : Prop := 48 <= c <= 57 \/ 65 <= c <= 70.
Definition numbered (fn : Z -> Z) (n : Z) (f : Z -> Z) : Prop :=
  exists m ds, let k := Z.of_nat (length ds) in
    1 <= k <= 4 /\ Forall hex_digit ds /\ (n <= 5 -> ds = [48 + n]) /\ 0 <= m /\ m + 1 + k <= 8 /\ (m + 1 + k = 8 \/ fn m = 32) /\
    (forall j, 0 <= j < m -> f j = fn j /\ fn j <> 32) /\ f m = 126 /\
    (forall j, 0 <= j < k -> f (m + 1 + j) = nth (Z.to_nat j) ds 0) /\
    (forall j, m + 1 + k <= j < 8 -> f j = 32) /\ (forall j, 8 <= j < 11 -> f j = fn j).

(* A new short name entry: name f, no attributes, lower case flags, all else zero. *)
Definition new_entry (f : Z -> Z) (flags : Z) (e : Z -> Z) : Prop :=
  short_same e f /\ e 11 = 0 /\ e 12 = Z.land flags 24 /\ forall k, 13 <= k < 32 -> e k = 0.
