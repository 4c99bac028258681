(* The prompt as text, and the dialog on typed lines without arrays. *)
From Coq Require Import String.
From Verif Require Import Base Utf8Spec EditSpec TokModel TokSpec LoadModel ExecModel ShellModel.
Open Scope Z_scope.

(* --- prompt --- *)

(* The part of the path shown: all after the drive in the root directory of the
   drive, else the last name. *)
Definition shown (p b : list Z) : list Z := if last p 0 =? 58 then 47 :: b else b.

Definition prompt_text (disk where_ : list Z) : list Z :=
  27 :: str "[0;31m" ++ disk ++ where_ ++ 27 :: str "[1;32m" ++ str " >" ++ 27 :: str "[m" ++ str " ".

(* --- lines --- *)

(* No character typed meets a full line of [cap] characters. *)
Fixpoint fits (cap : nat) (z : zip) (keys : list Z) : Prop :=
  match keys with
  | [] => True
  | k :: ks =>
      match key_action k with
      | Enter => True
      | Insert c => (length (text z) < cap)%nat /\ fits cap (zstep cap z (Insert c)) ks
      | a => fits cap (zstep cap z a) ks
      end
  end.

(* The text on the line when the return key is pressed, and the history line
   then. *)
Definition entered (h keys t h' : list Z) : Prop :=
  exists z, zrun 127 (zstart [] (Some h)) keys = (z, true) /\ fits 127 (zstart [] (Some h)) keys /\
    text z = t /\ history z = Some h'.

Definition is_exit (w : list Z) : bool := if list_eq_dec Z.eq_dec w (str "exit") then true else false.

(* What a line of bytes leads to. *)
Definition meaning (line : list Z) : action :=
  match split_error line with
  | Some e => Complain e
  | None =>
      match split_words line with
      | [] => Ignore
      | w :: ws => if is_exit w then match ws with [] => Leave | _ => Usage end else Run (w :: ws)
      end
  end.

(* Empty lines leave the history as it is. *)
Definition next_history (line t h' : list Z) : list Z :=
  match meaning line with Ignore => h' | _ => t end.

(* A dialog: the history line before, the keys of each line, the actions. *)
Inductive talk : list Z -> list (list Z) -> list action -> Prop :=
| talk_end h : talk h [] []
| talk_leave h keys r t h' : entered h keys t h' -> (length (split_words (utf8 t)) < 42)%nat ->
    meaning (utf8 t) = Leave -> talk h (keys :: r) [Leave]
| talk_line h keys r t h' s : entered h keys t h' -> (length (split_words (utf8 t)) < 42)%nat ->
    meaning (utf8 t) <> Leave -> talk (next_history (utf8 t) t h') r s -> talk h (keys :: r) (meaning (utf8 t) :: s).

Definition locals_ok (l : locals) : Prop := length (l_buf l) = 128%nat /\ length (l_next l) = 128%nat /\ length (l_cmd l) = 384%nat.
