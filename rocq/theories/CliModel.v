(* The loop over options and arguments that the commands share, and the command echo.
   fpm_puts of an argument writes its bytes. *)
From Coq Require Import String Ascii.
From Verif Require Import Base ExecModel GetoptModel.
Open Scope Z_scope.

Definition crlf : list Z := [13; 10].
Definition longs : list longopt := [Longopt (str "help") NO_ARG false 104].

(* while (fpm_getopt (argc, argv, shorts, long_opts, &opt) >= 0) switch (opt.ret) { ... }:
   one round ends with the new state, or with the end of the command. *)
Inductive round (T : Type) := Go (s : T) | Stop (s : T).
Arguments Go {T}. Arguments Stop {T}.
Fixpoint options {T} (fuel : nat) (shorts : list Z) (handle : T -> Z -> option (list Z) -> res (round T)) (argv : list (list Z)) (s : T) (o : opt) : res (round T) :=
  match fuel with
  | O => NoFuel
  | S k =>
      o <- getopt argv (Some shorts) (Some longs) false o ;;
      if o_ret o <? 0 then Ok (Go s)
      else
        r <- handle s (o_ret o) (o_arg o) ;;
        match r with Go s => options k shorts handle argv s o | Stop s => Ok (Stop s) end
  end.

(* kernel/cmd/cmd_echo.c:36-41 *)
Definition echo_usage : list Z :=
  str "Usage:" ++ crlf ++ str "    echo [-n] [string ...]" ++ crlf ++ [10] ++ str "    -n            Do not output the trailing newline" ++ crlf ++ [10].
(* no_newline, count, and what was written *)
Record echo_st := Echo { no_newline : bool; count : Z; written : list Z }.
(* kernel/cmd/cmd_echo.c:19-43; the message of fpm_getopt before '?' is left out *)
Definition echo_round (s : echo_st) (ret : Z) (arg : option (list Z)) : res (round echo_st) :=
  if ret =? 1 then
    match arg with
    | Some a => Ok (Go (Echo (no_newline s) (count s + 1) (written s ++ (if 0 <? count s then [32] else []) ++ a)))
    | None => Ub
    end
  else if ret =? 110 then Ok (Go (Echo true (count s) (written s)))
  else if ret =? 104 then Ok (Stop (Echo (no_newline s) (count s) (written s ++ echo_usage)))
  else Ok (Go s).
(* fpm_cmd_echo, kernel/cmd/cmd_echo.c:8-49; "hn" *)
Definition cmd_echo (fuel : nat) (argv : list (list Z)) : res (list Z) :=
  r <- options fuel [104; 110] echo_round argv (Echo false 0 []) opt0 ;;
  match r with
  | Stop s => Ok (written s)
  | Go s => Ok (written s ++ if no_newline s then [] else crlf)
  end.
