(* What a directory listing should look like. *)
From Coq Require Import Permutation String.
From Verif Require Import Base ExecModel DirModel.
Open Scope Z_scope.

(* --- order --- *)

(* Alphabetical order of byte strings. *)
Definition str_lt (a b : list Z) : Prop :=
  exists p, (exists y b', a = p /\ b = p ++ y :: b') \/ (exists x y a' b', a = p ++ x :: a' /\ b = p ++ y :: b' /\ x < y).

Definition name_before (a b : item) : Prop := str_lt (i_name a) (i_name b).
(* Newest first, then by name. *)
Definition time_before (a b : item) : Prop := i_mtime b < i_mtime a \/ i_mtime a = i_mtime b /\ name_before a b.
Definition goes_before (o : options) (a b : item) : Prop :=
  let lt := if o_timesort o then time_before else name_before in
  if o_reversesort o then lt b a else lt a b.

(* Nothing stands behind something it should go before. *)
Definition sorted (o : options) (l : list item) : Prop :=
  forall i j x y, (i < j)%nat -> nth_error l i = Some x -> nth_error l j = Some y -> ~ goes_before o y x.

(* Dates before 2044, if they matter. *)
Definition date_ok (o : options) (i : item) : Prop := 0 <= i_mtime i /\ (o_timesort o = true -> i_mtime i < 2 ^ 31).

(* --- numbers --- *)

Definition value (ds : list Z) : Z := fold_left (fun v d => 10 * v + (d - 48)) ds 0.
(* [ds]: the usual decimal notation of [n]. *)
Definition number (ds : list Z) (n : Z) : Prop :=
  Forall (fun d => 48 <= d <= 57) ds /\ value ds = n /\ ds <> [] /\ (hd 0 ds = 48 -> ds = [48]).

(* A comma after every third digit, counted from the end: lists with the last
   digit first. *)
Fixpoint commas (r : list Z) : list Z :=
  match r with
  | x :: r1 => match r1 with
               | y :: r2 => match r2 with
                            | z :: r3 => match r3 with [] => r | _ => x :: y :: z :: 44 :: commas r3 end
                            | [] => r end
               | [] => r end
  | [] => []
  end.
Definition grouped (n : Z) (s : list Z) : Prop := exists ds, number ds n /\ s = rev (commas (rev ds)).

(* --- columns --- *)

(* An entry as shown, with a slash behind directories if asked for, and its width
   on the screen. *)
Definition slash (o : options) (i : item) : list Z := if o_type o && Z.testbit (i_attrib i) 4 then [47] else [].
Definition shown (o : options) (i : item) : list Z := i_name i ++ slash o i.
Definition chars (o : options) (i : item) : Z := i_namelen i + Z.of_nat (length (slash o i)).

(* A row: every entry but the last filled up to the column width [w]. *)
Fixpoint line (o : options) (w : Z) (row : list item) : list Z :=
  match row with
  | [] => []
  | i :: rest => match rest with
                 | [] => shown o i
                 | _ => shown o i ++ repeat 32 (Z.to_nat (w - chars o i)) ++ line o w rest
                 end
  end.
Definition line_chars (o : options) (w : Z) (row : list item) : Z :=
  match rev row with [] => 0 | i :: r => w * Z.of_nat (length r) + chars o i end.

(* The rows show the list column by column: entry [c * length rows + r] is in row
   [r], place [c], and nothing else is in the row. *)
Definition by_columns (l : list item) (rows : list (list item)) : Prop :=
  (rows = [] -> l = []) /\
  forall r row, nth_error rows r = Some row -> forall c, nth_error row c = nth_error l (c * length rows + r).

(* The longest name has [m] characters. *)
Definition widest (l : list item) (m : Z) : Prop :=
  (forall i, In i l -> i_namelen i <= m) /\ (exists i, In i l /\ i_namelen i = m).

(* --- what is listed --- *)

(* Bits of the attribute byte: 1 is hidden, 4 a directory. *)
Definition hidden (i : item) : Prop := Z.testbit (i_attrib i) 1 = true.
Definition directory (i : item) : Prop := Z.testbit (i_attrib i) 4 = true.
Definition visible (o : options) (i : item) : Prop :=
  (hidden i -> o_showhidden o = true) /\ (directory i -> o_toplevel o = false).

(* [arr]: the visible entries of [l], all of them, in the order asked for. *)
Definition listing (o : options) (l arr : list item) : Prop :=
  sorted o arr /\ exists rest, Permutation l (arr ++ rest) /\ Forall (visible o) arr /\ Forall (fun i => ~ visible o i) rest.

(* --- the long form --- *)

Definition right_adjusted (c w : Z) (s : list Z) : list Z := repeat c (Z.to_nat w - length s) ++ s.
Definition left_adjusted (w : Z) (s : list Z) : list Z := s ++ repeat 32 (Z.to_nat w - length s).

(* The moment of a FAT time stamp: year, month, day, hour, minute, seconds/2. *)
Definition stamp (y mo d h mi s2 : Z) : Z := (y - 1980) * 2 ^ 25 + mo * 2 ^ 21 + d * 2 ^ 16 + h * 2 ^ 11 + mi * 2 ^ 5 + s2.
(* yyyy/m/d and h:mm. *)
Definition date_text (t : Z) (s : list Z) : Prop :=
  exists y mo d h mi s2 ty tmo td th tmi,
    1980 <= y < 2108 /\ 0 <= mo < 16 /\ 0 <= d < 32 /\ 0 <= h < 32 /\ 0 <= mi < 64 /\ 0 <= s2 < 32 /\
    t = stamp y mo d h mi s2 /\ number ty y /\ number tmo mo /\ number td d /\ number th h /\ number tmi mi /\
    s = left_adjusted 11 (ty ++ [47] ++ tmo ++ [47] ++ td) ++ right_adjusted 32 2 th ++ [58] ++ right_adjusted 48 2 tmi ++ [32; 32].

(* adshr: archive, directory, system, hidden, read-only. *)
Definition attrib_text (a : Z) : list Z :=
  map (fun p => if Z.testbit a (fst p) then snd p else 45) [(5, 97); (4, 100); (2, 115); (1, 104); (0, 114)].

(* The line of [i], sizes adjusted to [w] characters. *)
Definition long_text (o : options) (w : Z) (i : item) (s : list Z) : Prop :=
  exists ts td, date_text (i_mtime i) td /\ (if Z.testbit (i_attrib i) 4 then ts = [45] else grouped (i_nbytes i) ts) /\
    Z.of_nat (length ts) <= w /\
    s = attrib_text (i_attrib i) ++ [32; 32] ++ right_adjusted 32 w ts ++ [32; 32] ++ td ++ shown o i ++ [13; 10].

(* The biggest size has [w] characters. *)
Definition size_width (l : list item) (w : Z) : Prop :=
  exists i s, In i l /\ (forall j, In j l -> i_nbytes j <= i_nbytes i) /\ grouped (i_nbytes i) s /\ w = Z.of_nat (length s).

(* Kilobytes, each size rounded up. *)
Definition kilobytes (l : list item) : Z := fold_right (fun i s => (i_nbytes i + 1023) / 1024 + s) 0 l.
Definition total_line (o : options) (l : list item) (s : list Z) : Prop :=
  if o_toplevel o then s = [] else exists n, number n (kilobytes l) /\ s = str "Total " ++ n ++ str " kbytes" ++ [13; 10].

Definition item_ok (i : item) : Prop := 0 <= i_nbytes i <= 2 ^ 64 - 1024 /\ 0 <= i_mtime i < 2 ^ 32 /\ 0 <= i_namelen i < 2 ^ 16.

(* --- directories --- *)

Definition opened (es : list event) : list (list Z) :=
  flat_map (fun e => match e with Opendir p | OpendirFailed p => [p] | _ => [] end) es.

(* File names as FatFs gives them: at most 255 bytes. *)
Definition names_fit (ent : list Z -> option (list item)) : Prop :=
  forall p l i, ent p = Some l -> In i l -> (length (i_name i) <= 255)%nat.

(* Directories at or below [path], as deep as [n], in the order of a listing. *)
Inductive below (ent : list Z -> option (list item)) (o : options) : list Z -> list (list Z) -> Prop :=
| below_dir path l ds : match ent path with Some l' => Permutation l' l | None => l = [] end -> sorted o l ->
    belows ent o path l ds -> below ent o path (path :: ds)
with belows (ent : list Z -> option (list item)) (o : options) : list Z -> list item -> list (list Z) -> Prop :=
| belows_nil path : belows ent o path [] []
| belows_file path i l ds : ~ directory i -> belows ent o path l ds -> belows ent o path (i :: l) ds
| belows_sub path i l ds ds' : directory i -> below ent o (path ++ [47] ++ i_name i) ds -> belows ent o path l ds' ->
    belows ent o path (i :: l) (ds ++ ds').

(* Nothing is nested deeper than [n] below [path]. *)
Fixpoint height_le (ent : list Z -> option (list item)) (n : nat) (path : list Z) : Prop :=
  match n with
  | O => False
  | S k => forall l i, ent path = Some l -> In i l -> directory i -> height_le ent k (path ++ [47] ++ i_name i)
  end.

(* Names in columns of width [w], as few rows as possible. *)
Definition columns_text (o : options) (arr : list item) (w : Z) (out : list Z) : Prop :=
  exists rows, by_columns arr rows /\ out = concat (map (fun r => line o w r ++ [13; 10]) rows) /\
    Forall (fun r => line_chars o w r <= o_termwidth o) rows /\
    Z.of_nat (length rows - 1) * (o_termwidth o / w) < Z.of_nat (length arr).

Definition good_ent (o : options) (ent : list Z -> option (list item)) : Prop :=
  forall p l, ent p = Some l -> Forall item_ok l /\ Forall (date_ok o) l.
