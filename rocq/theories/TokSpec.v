(* The quoting rules, stated on whole lines: first every character is
   classified as a separator or a literal character, then the literals
   between separators form the words. *)
From Verif Require Import Base Arr TokModel.
Open Scope Z_scope.

Inductive item := Sep | Lit (c : Z).

(* Inside no quotes, inside apostrophes, inside double quotes. *)
Inductive mode := Plain | InApos | InQuote.

(* The items read up to the end of the line or to the first error. *)
Fixpoint lex (m : mode) (s : list Z) : list item * option tok_error :=
  match s with
  | [] => ([], match m with
               | Plain => None
               | InApos => Some UntermApostrophe
               | InQuote => Some UntermQuote
               end)
  | c :: s' =>
      let put i r := (i :: fst r, snd r) in
      if c =? 92 then
        match s' with
        | [] => ([], Some IncompleteBackslash)
        | d :: s'' => put (Lit d) (lex m s'')
        end
      else match m with
           | Plain => if c =? 32 then put Sep (lex m s')
                      else if c =? 39 then lex InApos s'
                      else if c =? 34 then lex InQuote s'
                      else put (Lit c) (lex m s')
           | InApos => if c =? 39 then lex Plain s' else put (Lit c) (lex m s')
           | InQuote => if c =? 34 then lex Plain s' else put (Lit c) (lex m s')
           end
  end.

(* Maximal non-empty runs of literals; [w] is the run read so far. *)
Fixpoint words_from (w : list Z) (l : list item) : list (list Z) :=
  match l with
  | [] => match w with [] => [] | _ => [w] end
  | Sep :: l' => match w with [] => words_from [] l' | _ => w :: words_from [] l' end
  | Lit c :: l' => words_from (w ++ [c]) l'
  end.

Definition split_words (s : list Z) : list (list Z) := words_from [] (fst (lex Plain s)).

Definition split_error (s : list Z) : option tok_error := snd (lex Plain s).

Definition no_nul (s : list Z) : Prop := Forall (fun c => c <> 0) s.

(* [w] is the C string at index [p] of the array [b]. *)
Definition string_at (b : list Z) (p : nat) (w : list Z) : Prop :=
  no_nul w /\ exists l r, b = l ++ w ++ 0 :: r /\ length l = p.

(* Two ways of writing a word so that it survives: a backslash before every
   character, or apostrophes around it. *)
Definition escape_word (w : list Z) : list Z := flat_map (fun c => [92; c]) w.
Definition quote_word (w : list Z) : list Z := 39 :: w ++ [39].

(* Apostrophes protect everything but an apostrophe and a backslash. *)
Definition quotable (w : list Z) : Prop := Forall (fun c => c <> 39 /\ c <> 92) w.

Fixpoint join_words (ws : list (list Z)) : list Z :=
  match ws with
  | [] => []
  | [w] => w
  | w :: ws' => w ++ 32 :: join_words ws'
  end.
