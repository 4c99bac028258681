(* Model of kernel/fpm_tokenize.c (splitting a command line in place). *)
From Verif Require Import Base Arr.
Open Scope Z_scope.

(* The messages returned, kernel/fpm_tokenize.c:29, 32, 59. *)
Inductive tok_error := UntermApostrophe | UntermQuote | IncompleteBackslash.

(* The local variables.  The line buffer is the whole array the caller owns;
   pointers into it are indices.  [argv] holds the entries stored so far, so
   its length is *argc. *)
Record tk := Tk {
  buf : list Z;
  src : nat;
  dest : nat;
  seen_space : bool;
  seen_apostrophe : bool;
  seen_quote : bool;
  argv : list nat
}.

Inductive tk_out :=
| Next (t : tk)
| Done (t : tk) (e : option tok_error).

Section Tok.

(* Number of slots in the caller's argv array. *)
Variable cap : nat.

(* kernel/fpm_tokenize.c:73-82, with the src++ of the for loop. *)
Definition consume (t : tk) (ch : Z) : res tk_out :=
  argv' <- (if seen_space t then
              if (length (argv t) <? cap)%nat then Ok (argv t ++ [dest t]) else Ub
            else Ok (argv t)) ;;
  b <- wr (buf t) (dest t) ch ;;
  Ok (Next (Tk b (S (src t)) (S (dest t)) false (seen_apostrophe t) (seen_quote t) argv')).

(* One turn of the loop, kernel/fpm_tokenize.c:20-84. *)
Definition tok_step (t : tk) : res tk_out :=
  ch <- rd (buf t) (src t) ;;
  if ch =? 0 then
    if seen_apostrophe t then Ok (Done t (Some UntermApostrophe)) else
    if seen_quote t then Ok (Done t (Some UntermQuote)) else
    '(b, d) <- (if seen_space t then Ok (buf t, dest t)
                else b <- wr (buf t) (dest t) 0 ;; Ok (b, S (dest t))) ;;
    b' <- wr b d 0 ;;
    (* argv[*argc] = 0 *)
    if (length (argv t) <? cap)%nat
    then Ok (Done (Tk b' (src t) d (seen_space t) false false (argv t)) None)
    else Ub
  else if ch =? 32 then (* space *)
    if seen_apostrophe t || seen_quote t then consume t ch else
    if seen_space t
    then Ok (Next (Tk (buf t) (S (src t)) (dest t) true false false (argv t)))
    else b <- wr (buf t) (dest t) 0 ;;
         Ok (Next (Tk b (S (src t)) (S (dest t)) true false false (argv t)))
  else if ch =? 92 then (* backslash *)
    let t' := Tk (buf t) (S (src t)) (dest t) (seen_space t) (seen_apostrophe t) (seen_quote t) (argv t) in
    ch' <- rd (buf t) (S (src t)) ;;
    if ch' =? 0 then Ok (Done t' (Some IncompleteBackslash)) else consume t' ch'
  else if ch =? 39 then (* apostrophe *)
    if seen_quote t then consume t ch
    else Ok (Next (Tk (buf t) (S (src t)) (dest t) (seen_space t) (negb (seen_apostrophe t)) false (argv t)))
  else if ch =? 34 then (* double quote *)
    if seen_apostrophe t then consume t ch
    else Ok (Next (Tk (buf t) (S (src t)) (dest t) (seen_space t) false (negb (seen_quote t)) (argv t)))
  else consume t ch.

Fixpoint tok_loop (fuel : nat) (t : tk) : res (tk * option tok_error) :=
  match fuel with
  | O => NoFuel
  | S k =>
      o <- tok_step t ;;
      match o with
      | Next t' => tok_loop k t'
      | Done t' e => Ok (t', e)
      end
  end.

(* fpm_tokenize, kernel/fpm_tokenize.c:9-86.  Result: the buffer, the entries
   of argv (argc of them, followed by NULL on success) and the error. *)
Definition tokenize (line : list Z) : res (list Z * list nat * option tok_error) :=
  '(t, e) <- tok_loop (S (length line)) (Tk line 0 0 true false false []) ;;
  Ok (buf t, argv t, e).

End Tok.

(* kernel/fpm_shell.c:82: slots in the shell's argv; FPM_CMDLINE_SIZE is 128
   (include/fpm/api.h:20). *)
Definition shell_argv_slots : nat := 42.
