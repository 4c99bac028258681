(* Model of kernel/fpm_getopt.c.  A C string is the list of its characters
   without the terminator; argv is the list of its strings, argv[argc] is
   NULL.  Messages to the console (printed when opt->silent is 0) are left
   out; they do not change the state, except opt->opt as noted below. *)
From Verif Require Import Base Arr.
Open Scope Z_scope.

(* s[i]: the terminator is readable, nothing behind it. *)
Definition at_ (s : list Z) (i : nat) : res Z :=
  match nth_error s i with
  | Some c => Ok c
  | None => if (i =? length s)%nat then Ok 0 else Ub
  end.

(* include/fpm/getopt.h:17-26.  flag is only tested for null. *)
Record longopt := Longopt { l_name : list Z; l_has : Z; l_flag : bool; l_val : Z }.
Definition NO_ARG : Z := 0.
Definition REQUIRED_ARG : Z := 1.
Definition OPTIONAL_ARG : Z := 2.

(* include/fpm/getopt.h:28-36.  o_arg is the string the pointer refers to.
   o_store: the last store through a flag pointer (option index). *)
Record opt := Opt { o_ret : Z; o_opt : Z; o_arg : option (list Z); o_long : Z; o_ind : nat; o_where : nat;
                    o_store : option nat }.
Definition opt0 : opt := Opt 0 0 None 0 0 0 None.

Definition Zlist_eqb (a b : list Z) : bool := if list_eq_dec Z.eq_dec a b then true else false.

(* memcmp(a, b, n) == 0 for strings: compares up to the first difference, so
   nothing behind the shorter string's terminator is used. *)
Fixpoint memeq (a b : list Z) (n : nat) {struct n} : bool :=
  match n with
  | O => true
  | S k =>
      match a, b with
      | x :: a', y :: b' => (x =? y) && memeq a' b' k
      | [], [] => true
      | _, _ => false
      end
  end.

(* strchr(s, c): position of the first c; the terminator counts. *)
Fixpoint strchr (s : list Z) (c : Z) : option nat :=
  match s with
  | [] => if c =? 0 then Some O else None
  | x :: s' => if x =? c then Some O else match strchr s' c with Some i => Some (S i) | None => None end
  end.

(* The loop over longopts, kernel/fpm_getopt.c:117-144: the matched index so
   far is [m].  inl: final longopt_match; inr: ambiguous. *)
Fixpoint find_long (longs : list longopt) (typed : list Z) (mc : nat) (i : nat) (m : option nat) : option nat + unit :=
  match longs with
  | [] => inl m
  | l :: ls =>
      if memeq typed (l_name l) mc then
        if (mc =? length (l_name l))%nat then inl (Some i)
        else match m with
             | Some _ => inr tt
             | None => find_long ls typed mc (S i) (Some i)
             end
      else find_long ls typed mc (S i) m
  end.

Definition set_ret (o : opt) (r : Z) : opt := Opt r (o_opt o) (o_arg o) (o_long o) (o_ind o) (o_where o) (o_store o).
Definition set_ret_opt (o : opt) (r : Z) : opt := Opt r r (o_arg o) (o_long o) (o_ind o) (o_where o) (o_store o).
Definition set_pos (o : opt) (ind wh : nat) : opt := Opt (o_ret o) (o_opt o) (o_arg o) (o_long o) ind wh (o_store o).
Definition set_arg (o : opt) (a : option (list Z)) : opt := Opt (o_ret o) (o_opt o) a (o_long o) (o_ind o) (o_where o) (o_store o).
Definition set_opt (o : opt) (c : Z) : opt := Opt (o_ret o) c (o_arg o) (o_long o) (o_ind o) (o_where o) (o_store o).

(* kernel/fpm_getopt.c:193-265, from "Get argument and reset opt->where" to
   the end.  [lm]: longopt_match; [pa]: the string at possible_arg. *)
Definition finish_opt (argv : list (list Z)) (longs : list longopt) (silent colon : bool)
    (o : opt) (cur : list Z) (lm : option nat) (has : Z) (pa : list Z) (cp : Z) : res opt :=
  let pa' := match pa with c :: p => if c =? 61 then p else pa | [] => [] end in
  let fin (o : opt) (next : nat) :=
    let o := if (o_where o =? 1)%nat then set_pos o (o_ind o + 1 + next) 1 else o in
    match lm with
    | Some i =>
        match nth_error longs i with
        | None => Ub
        | Some l =>
            let o := Opt (o_ret o) (o_opt o) (o_arg o) (Z.of_nat i) (o_ind o) (o_where o)
                         (if l_flag l then Some i else o_store o) in
            Ok (set_ret o (if l_flag l then 0 else l_val l))
        end
    | None => Ok (set_ret o (o_opt o))
    end in
  if has =? OPTIONAL_ARG then
    fin (set_pos (set_arg o (match pa' with [] => None | _ => Some pa' end)) (o_ind o) 1) 0%nat
  else if has =? REQUIRED_ARG then
    match pa' with
    | _ :: _ => fin (set_pos (set_arg o (Some pa')) (o_ind o) 1) 0%nat
    | [] =>
        if (length argv <=? o_ind o + 1)%nat then
          let r := if colon then 58 else 63 in
          (* opt->opt is set inside if (!opt->silent). *)
          let o := if silent then o else set_opt o (match lm with Some _ => r | None => cp end) in
          Ok (set_ret (set_pos o (o_ind o + 1) (o_where o)) r)
        else
          match nth_error argv (o_ind o + 1) with
          | None => Ub
          | Some a => fin (set_pos (set_arg o (Some a)) (o_ind o) 1) 1%nat
          end
    end
  else
    (* NO_ARG and default *)
    o <- (match lm with
          | Some _ => Ok (set_pos o (o_ind o) 1)
          | None =>
              c <- at_ cur (S (o_where o)) ;;
              Ok (set_pos o (o_ind o) (if c =? 0 then 1 else S (o_where o)))
          end) ;;
    fin (set_arg o None) 0%nat.

(* The short-option part, kernel/fpm_getopt.c:160-191 (longopt_match < 0). *)
Definition short_opt (argv : list (list Z)) (longs : list longopt) (silent colon : bool)
    (shorts : option (list Z)) (o : opt) (cur : list Z) : res opt :=
  match shorts with
  | None => finish_opt argv longs silent colon o cur None (-1) [] 0
  | Some ss =>
      c <- at_ cur (o_where o) ;;
      match strchr ss c with
      | None =>
          c' <- at_ cur (S (o_where o)) ;;
          let o := if c' =? 0 then set_pos o (S (o_ind o)) 1 else set_pos o (o_ind o) (S (o_where o)) in
          Ok (set_ret_opt o 63)
      | Some i =>
          c1 <- at_ ss (S i) ;;
          has <- (if c1 =? 58 then c2 <- at_ ss (S (S i)) ;; Ok (if c2 =? 58 then OPTIONAL_ARG else REQUIRED_ARG)
                  else Ok NO_ARG) ;;
          if (length cur <? S (o_where o))%nat then Ub else
          finish_opt argv longs silent colon (set_opt o c) cur None has (skipn (S (o_where o)) cur) c
      end
  end.

(* The text before the first '=' and, if there is one, what starts at it. *)
Fixpoint split_eq (s : list Z) : list Z * list Z :=
  match s with
  | [] => ([], [])
  | c :: r => if c =? 61 then ([], s) else let '(a, b) := split_eq r in (c :: a, b)
  end.

Definition drop_sign (ss : list Z) : list Z :=
  match ss with c :: r => if (c =? 45) || (c =? 43) then r else ss | [] => [] end.

Definition starts_colon (ss : list Z) : bool := match ss with c :: _ => c =? 58 | [] => false end.

(* fpm_getopt, kernel/fpm_getopt.c:32-266. *)
Definition getopt (argv : list (list Z)) (shorts : option (list Z)) (longs : option (list longopt))
    (silent : bool) (o : opt) : res opt :=
  let argc := length argv in
  if (argc =? 0)%nat || (match shorts, longs with None, None => true | _, _ => false end) || (argc <? o_ind o)%nat
  then Ok (set_ret o (-1))
  else
  if (match nth_error argv (o_ind o) with Some a => Zlist_eqb a [45; 45] | None => false end)
  then Ok (Opt (-1) 0 None (o_long o) (S (o_ind o)) (o_where o) (o_store o))
  else
  let o := if (o_ind o =? 0)%nat then set_pos o 1 1 else o in
  let shorts := match shorts with Some ss => Some (drop_sign ss) | None => None end in
  let '(shorts, colon) := match shorts with
                          | Some ss => if starts_colon ss then (Some (tl ss), true) else (Some ss, false)
                          | None => (None, false)
                          end in
  match nth_error argv (o_ind o) with
  | None => Ok (Opt (-1) 0 None (o_long o) (o_ind o) (o_where o) (o_store o))
  | Some cur =>
      let plain := match cur with
                   | [] => true
                   | c :: r => negb (c =? 45) || (match r with [] => true | _ => false end)
                   end in
      if (o_where o =? 1)%nat && plain then
        Ok (Opt 1 1 (Some cur) (o_long o) (S (o_ind o)) (o_where o) (o_store o))
      else
        match longs with
        | Some ls =>
            if memeq cur [45; 45] 2 && (o_where o =? 1)%nat then
              let o := set_pos o (o_ind o) 2 in
              let '(typed, pa) := split_eq (skipn 2 cur) in
              match find_long ls (skipn 2 cur) (length typed) 0 None with
              | inr _ => Ok (set_ret_opt o 63)
              | inl None => Ok (set_ret_opt (set_pos o (S (o_ind o)) 2) 63)
              | inl (Some i) =>
                  match nth_error ls i with
                  | None => Ub
                  | Some l => finish_opt argv ls silent colon o cur (Some i) (l_has l) pa 0
                  end
              end
            else short_opt argv ls silent colon shorts o cur
        | None => short_opt argv [] silent colon shorts o cur
        end
  end.

(* [n] calls: what they return, and the final state. *)
Fixpoint getopts (n : nat) (argv : list (list Z)) (shorts : option (list Z)) (longs : option (list longopt))
    (silent : bool) (o : opt) : res (list (Z * option (list Z)) * opt) :=
  match n with
  | O => Ok ([], o)
  | S k =>
      o' <- getopt argv shorts longs silent o ;;
      '(l, o'') <- getopts k argv shorts longs silent o' ;;
      Ok ((o_ret o', o_arg o') :: l, o'')
  end.

(* while (fpm_getopt(...) >= 0): the callers' loop, e.g.
   kernel/cmd/cmd_dir.c:621. *)
Fixpoint getopt_loop (fuel : nat) (argv : list (list Z)) (shorts : option (list Z)) (longs : option (list longopt))
    (silent : bool) (o : opt) : res opt :=
  match fuel with
  | O => NoFuel
  | S k =>
      o' <- getopt argv shorts longs silent o ;;
      if 0 <=? o_ret o' then getopt_loop k argv shorts longs silent o' else Ok o'
  end.
