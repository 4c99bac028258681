(* Theorems about the search for files. *)
From Coq Require Import String.
From Verif Require FpatModel FpatSpec.
From Verif Require Import Base FutfModel FutfSpec LfnModel LfnSpec FdirModel FdirSpec FnameModel FnameSpec FpathModel FpathSpec FpathExample RmExample FindModel FindSpec FindProof FindExample.
Open Scope Z_scope.

(* C100: f_findfirst and f_findnext *)
Theorem C100_find : forall v A total path ps buf bufs, holds_tree v A total -> spelled path -> units buf -> pattern ps ->
  (forall c f, In c (nodes A) -> In f (ents A c) -> exists cs, good_name cs /\ named cs f /\ zlen (utf8 cs) <= 255) ->
  exists t r c l, find_all v path (utf8 ps ++ [0]) buf bufs = Ok (r, l) /\ resolves A (cdir v) path t /\ opens A t r c /\
    (if match r with R_OK => true | _ => false end then In c (nodes A) /\ finds ps (ents A c) l else l = []).
Proof. exact find_ok. Qed.
Print Assumptions C100_find.
Example C100_example : exists A, holds_tree made A (upto 2 18) /\ spelled (path "d") /\ units buf0 /\ pattern (chars "X*") /\
  (forall c f, In c (nodes A) -> In f (ents A c) -> exists cs, good_name cs /\ named cs f /\ zlen (utf8 cs) <= 255) /\
  match find_all made (path "d") (utf8 (chars "X*") ++ [0]) buf0 (fun _ => buf0) with Ok (R_OK, [(n, _)]) => n = chars "x" | _ => False end /\
  match find_all made (path "/") (utf8 (chars "X*") ++ [0]) buf0 (fun _ => buf0) with Ok (R_OK, []) => True | _ => False end.
Proof. exact find_example. Qed.
(* Which name a file has is no matter of choice. *)
Theorem C100_name : forall v A total c f a b, holds_tree v A total -> In c (nodes A) -> In f (ents A c) -> good_name a -> named a f -> good_name b -> named b f -> zlen (utf8 a) <= 255 -> zlen (utf8 b) <= 255 -> a = b.
Proof. exact one_name. Qed.
Print Assumptions C100_name.
Example C100_name_example : exists A f, holds_tree made A (upto 2 18) /\ In 0 (nodes A) /\ In f (ents A 0) /\ good_name (chars "d") /\ named (chars "d") f.
Proof. destruct made_ok as (A & k & f & g & T & En & E0 & _ & _ & _ & _ & _ & Nf & _). exists A, f. rewrite En, E0. cbn. split; [exact T|]. split; [auto|]. split; [auto|]. split; [exact good_d|auto]. Qed.
