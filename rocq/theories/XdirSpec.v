(* What the entries of a file in an exFAT directory are, without reference to the model. *)
From Verif Require Import Base FutfSpec LfnSpec.
Open Scope Z_scope.

(* The checksum of the exFAT specification: rotate right in 16 bits, add. *)
Definition step (s b : Z) : Z := (s / 2 + 32768 * (s mod 2) + b) mod 65536.
(* of all bytes of a set of entries but the checksum itself *)
Definition checksum (blk : list Z) : Z := fold_left step (firstn 2 blk ++ skipn 4 blk) 0.

Definition byte_ok (x : Z) : Prop := 0 <= x < 256.
Definition entry_ok (e : list Z) : Prop := length e = 32%nat /\ Forall byte_ok e.
Definition at_ (e : list Z) (i : nat) : Z := nth i e 0.

(* A valid set: file entry, stream entry, name entries. *)
Record good (h s : list Z) (names : list (list Z)) : Prop := {
  g_file : at_ h 0 = 133;
  g_stream : at_ s 0 = 192;
  g_names : Forall (fun e => at_ e 0 = 193) names;
  g_size : (1 <= length names <= 17)%nat;
  g_length : (at_ s 3 + 14) / 15 <= Z.of_nat (length names);
  g_sum : checksum (concat (h :: s :: names)) = at_ h 2 + 256 * at_ h 3 }.

(* Sets at place k of a directory *)
Definition placed (tab : list (list Z)) (k : nat) (es : list (list Z)) : Prop :=
  exists pre post, tab = pre ++ es ++ post /\ length pre = k.

(* A unit of UTF-16 that can be in a name *)
Definition unit_ok' (u : Z) : Prop := 0 < u < 65536.

Definition meta_in (a f c n t : Z) : Prop :=
  byte_ok a /\ byte_ok f /\ 0 <= c < 2 ^ 32 /\ 0 <= n < 2 ^ 64 /\ 0 <= t < 2 ^ 32.

(* The hash of a name of the exFAT specification: of its bytes in upper case *)
Definition name_hash (ws : list Z) : Z := fold_left (fun s u => step (step s (upper u mod 256)) (upper u / 256)) ws 0.
(* A valid set for the file named ws: fifteen units in each name entry from byte 2 on *)
Record file_set (ws h s : list Z) (names : list (list Z)) : Prop := {
  f_h : entry_ok h;
  f_s : entry_ok s;
  f_n : Forall entry_ok names;
  f_good : good h s names;
  f_count : at_ h 1 = Z.of_nat (length names) + 1;
  f_units : Forall unit_ok' ws;
  f_length : at_ s 3 = Z.of_nat (length ws);
  f_hash : at_ s 4 + 256 * at_ s 5 = name_hash ws;
  f_name : forall j, (j < length ws)%nat -> let i := (32 * (j / 15) + 2 + 2 * (j mod 15))%nat in
    at_ (concat names) i + 256 * at_ (concat names) (S i) = nth j ws 0 }.

(* A directory: files and other entries (deleted, label, bitmap ...), then the end. *)
Inductive item := Other (e : list Z) | File (ws h s : list Z) (names : list (list Z)).
Definition item_ok (i : item) : Prop :=
  match i with Other e => entry_ok e /\ at_ e 0 <> 0 /\ at_ e 0 <> 133 | File ws h s names => file_set ws h s names end.
Definition entries (i : item) : list (list Z) := match i with Other e => [e] | File _ h s names => h :: s :: names end.
Definition directory (items : list item) (tab : list (list Z)) : Prop :=
  Forall item_ok items /\ exists rest, tab = concat (map entries items) ++ rest /\ (forall e, hd_error rest = Some e -> entry_ok e /\ at_ e 0 = 0).
Definition is_named (zs : list Z) (i : item) : Prop := match i with Other _ => False | File ws _ _ _ => same_name ws zs end.

(* The files of a directory whose first entry is number k: their places and bytes *)
Fixpoint listing (k : nat) (items : list item) : list (nat * list Z) :=
  match items with
  | [] => []
  | Other _ :: r => listing (k + 1) r
  | File _ h s names :: r => (k, concat (h :: s :: names)) :: listing (k + 2 + length names) r
  end.
Definition shows (x y : nat * list Z) : Prop := fst x = fst y /\ firstn (length (snd y)) (snd x) = snd y.

(* An entry no longer in use: the highest bit of its type is clear, the rest is the same. *)
Definition unused (e : list Z) : list Z := match e with t :: r => (t - 128) :: r | [] => [] end.

(* Entries that can be used for a new file, and those behind the last one *)
Definition free (e : list Z) : Prop := at_ e 0 < 128.
Definition zero (e : list Z) : Prop := entry_ok e /\ at_ e 0 = 0.
