(* Command lines as lists of items, and what parsing them must return. *)
From Verif Require Import Base GetoptModel.
Open Scope Z_scope.

Inductive kind := No | Req | Maybe.

(* Option characters and their kinds, written as a short-option string. *)
Definition shorts_string (tbl : list (Z * kind)) : list Z :=
  flat_map (fun '(c, k) => match k with No => [c] | Req => [c; 58] | Maybe => [c; 58; 58] end) tbl.

Fixpoint kind_of (tbl : list (Z * kind)) (c : Z) : option kind :=
  match tbl with
  | [] => None
  | (d, k) :: t => if d =? c then Some k else kind_of t c
  end.

(* Not NUL, ':', '-', '+'. *)
Definition opt_char (c : Z) : Prop := c <> 0 /\ c <> 58 /\ c <> 45 /\ c <> 43.

Definition kind_code (k : kind) : Z := match k with No => 0 | Req => 1 | Maybe => 2 end.

(* How a value is given. *)
Inductive value :=
| Absent
| Attached (v : list Z)     (* -oVALUE *)
| WithEq (v : list Z)       (* -o=VALUE, --opt=VALUE *)
| Separate (v : list Z).    (* -o VALUE, --opt VALUE *)

Definition value_text (v : value) : option (list Z) :=
  match v with Absent => None | Attached s | WithEq s | Separate s => Some s end.

(* Part of the same word, and the following word. *)
Definition value_tail (v : value) : list Z :=
  match v with Attached s => s | WithEq s => 61 :: s | _ => [] end.
Definition value_word (v : value) : list (list Z) :=
  match v with Separate s => [s] | _ => [] end.

Definition value_fits (k : kind) (v : value) : Prop :=
  match k, v with
  | No, Absent => True
  | Req, Attached s => s <> [] /\ hd 0 s <> 61
  | Req, WithEq s => s <> []
  | Req, Separate _ => True
  | Maybe, Absent => True
  | Maybe, Attached s => s <> [] /\ hd 0 s <> 61
  | Maybe, WithEq s => s <> []
  | _, _ => False
  end.

Inductive item :=
| Plain (s : list Z)
| Shorts (flags : list Z) (c : Z) (v : value)   (* -abc: flags a, b, then c with its value *)
| Long (typed : list Z) (i : nat) (v : value).  (* --typed, which means long option number i *)

Definition item_words (it : item) : list (list Z) :=
  match it with
  | Plain s => [s]
  | Shorts fl c v => (45 :: fl ++ c :: value_tail v) :: value_word v
  | Long t i v => (45 :: 45 :: t ++ value_tail v) :: value_word v
  end.

Definition long_ret (longs : list longopt) (i : nat) : Z :=
  match nth_error longs i with Some l => if l_flag l then 0 else l_val l | None => 0 end.

Definition item_results (longs : list longopt) (it : item) : list (Z * option (list Z)) :=
  match it with
  | Plain s => [(1, Some s)]
  | Shorts fl c v => map (fun f => (f, None)) fl ++ [(c, value_text v)]
  | Long t i v => [(long_ret longs i, value_text v)]
  end.

Definition begins (t n : list Z) : Prop := exists r, n = t ++ r.

(* [t] is the name of option [i], or an abbreviation of no other name. *)
Definition means (longs : list longopt) (t : list Z) (i : nat) : Prop :=
  exists l, nth_error longs i = Some l /\ begins t (l_name l) /\
  (forall j l', nth_error longs j = Some l' -> begins t (l_name l') -> j = i \/ (l_name l = t /\ i < j)%nat).

Definition item_ok (tbl : list (Z * kind)) (longs : list longopt) (it : item) : Prop :=
  match it with
  | Plain s => hd 0 s <> 45 \/ s = [45]
  | Shorts fl c v =>
      Forall (fun f => kind_of tbl f = Some No) fl /\ exists k, kind_of tbl c = Some k /\ value_fits k v
  | Long t i v =>
      t <> [] /\ Forall (fun c => c <> 61) t /\ (forall s, v <> Attached s) /\ means longs t i /\
      exists k, option_map l_has (nth_error longs i) = Some (kind_code k) /\ value_fits k v
  end.

(* The whole short-option string: optional sign, optional colon, options. *)
Definition tbl_ok (tbl : list (Z * kind)) : Prop := Forall (fun e => opt_char (fst e)) tbl.
Definition sign_ok (sg : list Z) : Prop := sg = [] \/ sg = [45] \/ sg = [43].
Definition full_string (sg : list Z) (colon : bool) (tbl : list (Z * kind)) : list Z :=
  sg ++ (if colon then [58] else []) ++ shorts_string tbl.

(* Every argument --t or --t=... is the beginning of a long option's name. *)
Definition longs_known (argv : list (list Z)) (longs : option (list longopt)) : Prop :=
  forall ls t tail, longs = Some ls -> In (45 :: 45 :: t ++ tail) argv -> Forall (fun c => c <> 61) t ->
  (tail = [] \/ exists s, tail = 61 :: s) -> exists l, In l ls /\ begins t (l_name l).

(* All characters and terminators of a list of arguments. *)
Fixpoint chars (args : list (list Z)) : nat :=
  match args with [] => 0%nat | s :: r => (length s + 1 + chars r)%nat end.
