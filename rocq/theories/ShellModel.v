(* Model of kernel/fpm_shell.c: the prompt, and the dialog up to the call of
   fpm_exec.  setjmp and the commands themselves are left out. *)
From Coq Require Import String.
From Verif Require Import Base Arr TokModel Utf8Model EditModel LoadModel ExecModel.
Open Scope Z_scope.

(* strrchr(path, '/'): index of the last slash. *)
Fixpoint strrchr (s : list Z) (c : Z) : option nat :=
  match s with
  | [] => None
  | x :: s' => match strrchr s' c with Some i => Some (S i) | None => if x =? c then Some 0%nat else None end
  end.

Definition esc : list Z := [27].

(* build_prompt, kernel/fpm_shell.c:20-45.  [buf]: the array prompt, [disk]:
   disk_name[f_getdrive()], [cwd]: the result of f_getcwd, None for a failure. *)
Definition build_prompt (buf disk : list Z) (cwd : option (list Z)) : res (list Z) :=
  b <- wr buf 0 0 ;;
  b <- strcat b (esc ++ str "[0;31m") ;;
  b <- strcat b disk ;;
  b <- (match cwd with
        | None => Ok b
        | Some path =>
            b <- strcat b (str ":") ;;
            match strrchr path 47 with
            | None => strcat b (str "?")
            | Some O => Ub                            (* basename[-1] *)
            | Some (S k) =>
                c <- rd path k ;;
                if negb (c =? 58) then strcat b (skipn (S (S k)) path) else strcat b (skipn (S k) path)
            end
        end) ;;
  b <- strcat b (esc ++ str "[1;32m") ;;
  b <- strcat b (str " >") ;;
  b <- strcat b (esc ++ str "[m") ;;
  strcat b (str " ").

(* What one line leads to. *)
Inductive action :=
| Complain (e : tok_error)     (* the message of fpm_tokenize *)
| Ignore                       (* empty line *)
| Usage                        (* exit with arguments *)
| Leave                        (* exit *)
| Run (argv : list (list Z)).  (* fpm_exec *)

(* The local arrays, uninitialised: buf_unicode, next_line of fpm_editline,
   cmd_line. *)
Record locals := Locals { l_buf : list Z; l_next : list Z; l_cmd : list Z }.

(* The strings argv points to. *)
Fixpoint strings (b : list Z) (av : list nat) : res (list (list Z)) :=
  match av with
  | [] => Ok []
  | p :: av' => s <- string_from b (Z.of_nat p) ;; r <- strings b av' ;; Ok (s :: r)
  end.

(* One turn of the main loop, kernel/fpm_shell.c:66-112, with the keys typed;
   None: the line is not finished.  Result: what to do, and fpm_history. *)
Definition turn (prompt hist : list Z) (l : locals) (keys : list Z) : res (option (action * list Z)) :=
  '(s, _, fin) <- editline (l_buf l) 256 true prompt (l_next l) (Some hist) keys ;;
  if negb fin then Ok None else
  hist <- (match e_prev s with Some h => Ok h | None => Ub end) ;;
  '(cmd, _) <- strlcpy_to_utf8 (l_cmd l) (e_buf s) 384 ;;
  '(b, av, err) <- tokenize shell_argv_slots cmd ;;
  match err with
  | Some e => '(h, _) <- strlcpy hist (e_buf s) 128 ;; Ok (Some (Complain e, h))
  | None =>
      match av with
      | [] => Ok (Some (Ignore, hist))
      | _ :: _ =>
          '(h, _) <- strlcpy hist (e_buf s) 128 ;;
          argv <- strings b av ;;
          if Zs_eqb (hd [] argv) (str "exit")
          then Ok (Some (if (1 <? length argv)%nat then Usage else Leave, h))
          else Ok (Some (Run argv, h))
      end
  end.

(* The main loop on the lines typed: the actions, until exit or the end of the
   input. *)
Fixpoint dialog (prompt hist : list Z) (lines : list (locals * list Z)) : res (list action) :=
  match lines with
  | [] => Ok []
  | (l, keys) :: r =>
      o <- turn prompt hist l keys ;;
      match o with
      | None => Ok []
      | Some (Leave, _) => Ok [Leave]
      | Some (a, h) => s <- dialog prompt h r ;; Ok (a :: s)
      end
  end.
