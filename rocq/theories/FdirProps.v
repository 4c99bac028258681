(* Directory tables. *)
From Verif Require Import Base FutfModel FutfSpec LfnModel LfnSpec LfnExample FdirModel FdirSpec FdirProof FdirProof2 FdirProof3 FdirExample.
Open Scope Z_scope.

(* A search answers the first file with the name, its entry and the start of its block,
   or that there is none. *)
Theorem C76_find : forall d l fn buf x, dir_ok d l -> units buf -> Forall (fun u => 0 < u < 65536) x -> holds buf x ->
  (exists i b, dir_find d fn buf = Ok (D_NO_FILE, i, b) /\ Forall (fun f => ~ hit x fn f) (files l)) \/
  (exists l1 w e l2, l = l1 ++ File w e :: l2 /\ Forall (fun f => ~ hit x fn f) (files l1) /\ hit x fn (w, e) /\
     dir_find d fn buf = Ok (D_OK, sizes l1 + parts w, blk_of fn w (sizes l1))).
Proof. exact find_ok. Qed.
Print Assumptions C76_find.

(* A listing is all files but the dot entries, in order, with their long names. *)
Theorem C76_list : forall d l bufs, dir_ok d l -> exists out, list_dir d bufs = Ok out /\ Forall2 (lists d) out (filter shown (files l)).
Proof. exact list_ok. Qed.
Print Assumptions C76_list.

(* Making an entry adds one file in place of free entries and changes or moves no other; it
   is refused only if there is no room or all numbers are taken, and then no file changes. *)
Theorem C76_register : forall d l fn buf x, dir_ok d l -> fn_ok fn -> name_ok x -> holds buf x -> units buf ->
  let w := if has (fn 11) 2 then x else [] in
  (exists d' i l1 l2 h f e, dir_register d fn buf = Ok (d', D_OK, i) /\ l = l1 ++ repeat Hole h ++ l2 /\ (Z.of_nat h = parts w + 1 \/ l2 = []) /\ dir_ok d' (l1 ++ File w e :: l2) /\ i = sizes l1 + parts w /\ tab d' i = e /\
     new_entry f (fn 11) e /\ (if has (fn 11) 1 then (exists n, 1 <= n < 100 /\ numbered fn n f) /\ Forall (fun g => ~ short_same (snd g) f) (files l) else short_same f fn)) \/
  (exists d' i, dir_register d fn buf = Ok (d', D_DENIED, i) /\ dir_ok d' l /\ (forall j, j < cap d -> tab d' j = tab d j) /\
     ((has (fn 11) 1 = true /\ forall n, 1 <= n < 100 -> exists f, numbered fn n f /\ Exists (fun g => short_same (snd g) f) (files l)) \/ no_room d' (parts w + 1))).
Proof. exact register_ok. Qed.
Print Assumptions C76_register.

(* Removing takes away one file and changes no other. *)
Theorem C76_remove : forall d l1 w e l2, dir_ok d (l1 ++ File w e :: l2) ->
  exists d', dir_remove d (sizes l1 + parts w) (read_blk w (sizes l1)) = Ok (d', D_OK) /\ dir_ok d' (l1 ++ repeat Hole (Z.to_nat (parts w + 1)) ++ l2).
Proof. exact remove_ok. Qed.
Print Assumptions C76_remove.

(* Any bytes in the table: searching and listing end, inside the table and the buffer. *)
Theorem C76_find_safe : forall d fn buf, 1 <= cap d <= MAXENT -> (forall i, 0 <= i < cap d -> bytes (tab d i)) -> units buf ->
  exists r i b, dir_find d fn buf = Ok (r, i, b) /\ (r = D_OK \/ r = D_NO_FILE) /\ 0 <= i < cap d.
Proof. exact find_safe. Qed.
Print Assumptions C76_find_safe.
Theorem C76_read_safe : forall d buf i blk, 1 <= cap d <= MAXENT -> (forall i, 0 <= i < cap d -> bytes (tab d i)) -> units buf -> 0 <= i < cap d ->
  exists r j b buf', dir_read d buf i blk = Ok (r, j, b, buf') /\ (r = D_OK \/ r = D_NO_FILE) /\ i <= j < cap d /\ units buf'.
Proof. exact read_safe. Qed.
Print Assumptions C76_read_safe.

Example C76_start : dir_ok d0 l0 /\ fn_ok fn_quick /\ name_ok quick /\ holds (in_buf quick) quick /\ units (in_buf quick).
Proof. exact (conj d0_ok (conj fn_quick_ok (conj quick_ok (conj quick_holds quick_units)))). Qed.
Example C76_example : session = Ok
  ([(D_OK, 6); (D_OK, 9); (D_OK, 6); (D_OK, 3); (D_OK, 0); (D_NO_FILE, 0); (D_OK, 2); (D_OK, NONE)],
   [[([82; 69; 65; 68; 77; 69; 32; 32; 84], []); ([84; 72; 69; 95; 81; 85; 126; 49; 74], quick ++ [0]); ([84; 72; 69; 95; 81; 85; 126; 50; 74], quicker ++ [0; 7])];
    [([82; 69; 65; 68; 77; 69; 32; 32; 84], []); ([84; 72; 69; 95; 81; 85; 126; 50; 74], quicker ++ [0; 7])]]).
Proof. vm_compute. reflexivity. Qed.
