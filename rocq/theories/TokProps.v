(* C11-C14: splitting a command line into words.  The line is
   [s ++ 0 :: ...], held in a buffer with at least one byte after its
   terminator; [cap] is the number of slots in argv. *)
From Verif Require Import Base Arr TokModel TokSpec TokProof2.
Open Scope Z_scope.

Theorem C11_split_follows_rules : forall cap s x tail,
  no_nul s -> (length (split_words s) < cap)%nat ->
  exists b av, tokenize cap (s ++ 0 :: x :: tail) = Ok (b, av, split_error s) /\
    length b = length (s ++ 0 :: x :: tail) /\ skipn (length s + 2) b = tail /\
    length av = length (split_words s) /\
    (split_error s = None -> Forall2 (string_at b) av (split_words s)) /\
    (split_error s <> None -> skipn (length s + 1) b = x :: tail).
Proof. exact tokenize_ok. Qed.
Print Assumptions C11_split_follows_rules.

(* a 'b c'\ "d'" *)
Example C11_example :
  split_words [97; 32; 39; 98; 32; 99; 39; 92; 32; 34; 100; 39; 34] = [[97]; [98; 32; 99; 32; 100; 39]] /\
  split_error [97; 32; 39; 98; 32; 99; 39; 92; 32; 34; 100; 39; 34] = None /\
  split_error [97; 32; 39; 98] = Some UntermApostrophe /\ split_error [34; 92] = Some IncompleteBackslash.
Proof. repeat split. Qed.

(* A line of n characters has at most (n+1)/2 words, none of them empty. *)
Theorem C12_word_count : forall s, (2 * length (split_words s) <= length s + 1)%nat.
Proof. exact split_count. Qed.
Print Assumptions C12_word_count.

Theorem C12_words_not_empty : forall s, no_nul s ->
  Forall (fun w => no_nul w /\ w <> []) (split_words s).
Proof. exact split_nn. Qed.
Print Assumptions C12_words_not_empty.

(* A buffer that ends with the line's terminator is too small: the "extra
   NUL" is stored behind it. *)
Theorem C12_inside_line_refuted : exists s, no_nul s /\ forall cap, tokenize cap (s ++ [0]) = Ub.
Proof. exact tokenize_past_end. Qed.
Print Assumptions C12_inside_line_refuted.

Theorem C13_any_words_escaped : forall cap ws x tail,
  Forall (fun w => no_nul w /\ w <> []) ws -> (length ws < cap)%nat ->
  exists b av, tokenize cap (join_words (map escape_word ws) ++ 0 :: x :: tail) = Ok (b, av, None) /\
    Forall2 (string_at b) av ws.
Proof. exact tokenize_escaped. Qed.
Print Assumptions C13_any_words_escaped.

Theorem C13_any_words_quoted : forall cap ws x tail,
  Forall (fun w => no_nul w /\ w <> [] /\ quotable w) ws -> (length ws < cap)%nat ->
  exists b av, tokenize cap (join_words (map quote_word ws) ++ 0 :: x :: tail) = Ok (b, av, None) /\
    Forall2 (string_at b) av ws.
Proof. exact tokenize_quoted. Qed.
Print Assumptions C13_any_words_quoted.

Example C13_example : Forall (fun w => no_nul w /\ w <> [] /\ quotable w) [[97; 32; 34]; [32]].
Proof. repeat constructor; discriminate. Qed.

(* The shell's argv has 42 slots.  A line of 86 characters with 43 words
   overruns it ... *)
Theorem C14_shell_argv_refuted : exists s, no_nul s /\ (length s < 127)%nat /\
  forall x tail, tokenize shell_argv_slots (s ++ 0 :: x :: tail) = Ub.
Proof. exact shell_overflow. Qed.
Print Assumptions C14_shell_argv_refuted.

(* ... and every line of at most 81 characters is safe. *)
Theorem C14_shell_argv_short_lines : forall s x tail, no_nul s -> (length s <= 81)%nat ->
  exists b av, tokenize shell_argv_slots (s ++ 0 :: x :: tail) = Ok (b, av, split_error s).
Proof. exact shell_short. Qed.
Print Assumptions C14_shell_argv_short_lines.
