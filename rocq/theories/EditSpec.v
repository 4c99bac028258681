(* Independent descriptions: console keys as byte sequences, an editor with a
   text on each side of the cursor, and a one-line terminal. *)
From Verif Require Import Base Utf8Spec.
Open Scope Z_scope.

(* --- keys --- *)

(* What arrives from the keyboard: a character, or one of the documented
   escape sequences ESC [ x / ESC O x, Delete as ESC [ 3 ~, or a sequence the
   console does not know (ignored). *)
Inductive event :=
| Char (c : Z)
| Up (o : bool) | Down (o : bool) | Left (o : bool) | Right (o : bool) | Home (o : bool) | End_ (o : bool)
| Delete
| OtherSeq (o : bool) (c : Z)
| OtherNum (digits : list Z).

Definition csi (o : bool) (x : Z) : list Z := [27; if o then 79 else 91; x].

Definition event_chars (e : event) : list Z :=
  match e with
  | Char c => [c]
  | Up o => csi o 65 | Down o => csi o 66 | Right o => csi o 67 | Left o => csi o 68
  | End_ o => csi o 70 | Home o => csi o 72
  | Delete => [27; 91; 51; 126]
  | OtherSeq o c => csi o c
  | OtherNum ds => [27; 91] ++ ds ++ [126]
  end.

(* Decimal value of a digit string. *)
Definition decimal (ds : list Z) : Z := fold_left (fun v d => 10 * v + (d - 48)) ds 0.

Definition event_ok (e : event) : Prop :=
  match e with
  | Char c => 0 <= c < 65536 /\ c <> 27
  | OtherSeq _ c => 0 <= c < 65536 /\ ~ In c [65; 66; 67; 68; 70; 72] /\ ~ 48 <= c <= 57
  | OtherNum ds => ds <> [] /\ Forall (fun d => 48 <= d <= 57) ds /\ decimal ds mod 2 ^ 32 <> 3
  | _ => True
  end.

Definition event_key (e : event) : list Z :=
  match e with
  | Char c => [c]
  | Left _ => [8592] | Up _ => [8593] | Right _ => [8594] | Down _ => [8595]
  | Home _ => [8676] | End_ _ => [8677] | Delete => [9249]
  | OtherSeq _ _ | OtherNum _ => []
  end.

(* --- the abstract editor --- *)

Inductive action := Insert (c : Z) | Enter | DelLeft | DelRight | GoLeft | GoRight | GoHome | GoEnd
                  | Kill | Redraw | Older | Newer | Nothing.

(* ^A ^B ^D ^E ^F ^H ^L ^M ^N ^P ^U, Backspace and the function keys. *)
Definition bindings : list (Z * action) :=
  [(1, GoHome); (2, GoLeft); (4, DelRight); (5, GoEnd); (6, GoRight); (8, DelLeft); (12, Redraw); (13, Enter);
   (14, Newer); (16, Older); (21, Kill); (127, DelLeft);
   (8592, GoLeft); (8593, Older); (8594, GoRight); (8595, Newer); (8676, GoHome); (8677, GoEnd); (9249, DelRight)].

Definition key_action (k : Z) : action :=
  match find (fun b => Z.eqb (fst b) k) bindings with
  | Some (_, a) => a
  | None => if k <? 32 then Nothing else Insert k
  end.

Record zip := Zip {
  before : list Z;          (* text left of the cursor *)
  after : list Z;           (* text right of the cursor *)
  saved : list Z;           (* the new line, while the old one is shown *)
  older : bool;             (* the old line is shown *)
  history : option (list Z) (* the old line *) }.

Definition text (z : zip) : list Z := before z ++ after z.

Definition drop_last (l : list Z) : list Z := rev (tl (rev l)).

(* At most 127 characters go to or come from the history. *)
Definition cut (l : list Z) : list Z := firstn 127 l.

(* [cap]: characters the line may hold when typing. *)
Definition zstep (cap : nat) (z : zip) (a : action) : zip :=
  let '(Zip b r s o h) := z in
  match a with
  | Insert c => if (length b + length r <? cap)%nat then Zip (b ++ [c]) r s o h else z
  | Enter | GoEnd => Zip (b ++ r) [] s o h
  | DelLeft => Zip (drop_last b) r s o h
  | DelRight => Zip b (tl r) s o h
  | GoLeft => match rev b with [] => z | c :: _ => Zip (drop_last b) (c :: r) s o h end
  | GoRight => match r with [] => z | c :: r' => Zip (b ++ [c]) r' s o h end
  | GoHome => Zip [] (b ++ r) s o h
  | Kill => Zip [] [] s o h
  | Older => match o, h with
             | false, Some t => Zip (cut t) [] (cut (b ++ r)) true h
             | _, _ => z
             end
  | Newer => match o, h with
             | true, Some _ => Zip s [] s false (Some (cut (b ++ r)))
             | _, _ => z
             end
  | Redraw | Nothing => z
  end.

(* All keys up to the return key: final state, and whether it was pressed. *)
Fixpoint zrun (cap : nat) (z : zip) (keys : list Z) : zip * bool :=
  match keys with
  | [] => (z, false)
  | k :: ks =>
      match key_action k with
      | Enter => (zstep cap z Enter, true)
      | a => zrun cap (zstep cap z a) ks
      end
  end.

Definition zstart (t : list Z) (h : option (list Z)) : zip := Zip t [] [] false h.

(* A C string in an array. *)
Definition holds (a t : list Z) : Prop := exists rest, a = t ++ 0 :: rest.

(* The history array holds the text [h]; both it and the line buffer (of
   length [n]) have room for 128 characters. *)
Definition hist_rel (prev history : option (list Z)) (n : nat) : Prop :=
  match prev, history with
  | None, None => True
  | Some pl, Some h => holds pl h /\ Forall wide h /\ (128 <= length pl)%nat /\ (128 <= n)%nat
  | _, _ => False
  end.

(* --- the terminal --- *)

Inductive mode := Ground | Esc | Csi.

(* One line: the cells written so far, the cursor column. *)
Record term := Term { cells : list Z; col : nat; md : mode }.

(* Write [c] in column [n], filling up with blanks. *)
Fixpoint put (l : list Z) (n : nat) (c : Z) : list Z :=
  match n, l with
  | O, [] => [c]
  | O, _ :: l' => c :: l'
  | S k, [] => 32 :: put [] k c
  | S k, x :: l' => x :: put l' k c
  end.

Definition tstep (t : term) (c : Z) : term :=
  let '(Term l n m) := t in
  match m with
  | Ground =>
      if c =? 8 then Term l (pred n) Ground
      else if c =? 13 then Term l 0 Ground
      else if c =? 10 then Term [] n Ground
      else if c =? 27 then Term l n Esc
      else if c <? 32 then t
      else Term (put l n c) (S n) Ground
  | Esc => if c =? 91 then Term l n Csi else Term l n Ground
  | Csi =>
      if c =? 64 then Term (firstn n l ++ 32 :: skipn n l) n Ground       (* insert a blank *)
      else if c =? 80 then Term (firstn n l ++ skipn (S n) l) n Ground    (* delete *)
      else if c =? 75 then Term (firstn n l) n Ground                     (* erase to end *)
      else Term l n Ground
  end.

Definition trun (t : term) (cs : list Z) : term := fold_left tstep cs t.

Definition fresh : term := Term [] 0 Ground.

(* The line shows [t], followed by blanks. *)
Definition shows (tm : term) (t : list Z) (column : nat) : Prop :=
  (exists n, cells tm = t ++ repeat 32 n) /\ col tm = column /\ md tm = Ground.

Definition printable (c : Z) : Prop := 32 <= c < 65536.
