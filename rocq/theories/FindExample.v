(* A search on the volume of RmExample. *)
From Coq Require Import String.
From Verif Require FpatModel FpatSpec.
From Verif Require Import Base LockModel FutfModel FutfSpec LfnModel LfnSpec FdirModel FdirSpec FnameModel FnameSpec FpathModel FpathSpec FpathProof16 FpathProof17 FpathExample RmExample FindModel FindSpec.
Open Scope Z_scope.

(* The file in d is found by d and X*. *)
Lemma find_example : exists A, holds_tree made A (upto 2 18) /\ spelled (path "d") /\ units buf0 /\ pattern (chars "X*") /\
  (forall c f, In c (nodes A) -> In f (ents A c) -> exists cs, good_name cs /\ named cs f /\ zlen (utf8 cs) <= 255) /\
  match find_all made (path "d") (utf8 (chars "X*") ++ [0]) buf0 (fun _ => buf0) with Ok (R_OK, [(n, _)]) => n = chars "x" | _ => False end /\
  match find_all made (path "/") (utf8 (chars "X*") ++ [0]) buf0 (fun _ => buf0) with Ok (R_OK, []) => True | _ => False end.
Proof.
  destruct made_ok as (A & k & f & g & M). exists A. split; [apply M|]. split; [apply ascii_path; reflexivity|]. split; [exact buf0_units|]. split.
  - split; [|split; [|vm_compute; lia]].
    + do 2 (apply Forall_cons; [split; [unfold scalar; cbn; lia|discriminate]|]). apply Forall_nil.
    + change (FpatSpec.runs 0 [88; 42]). unfold FpatSpec.runs. change (88 =? 63) with false. change (88 =? 42) with false. change (42 =? 63) with false. change (42 =? 42) with true. cbv iota. lia.
  - split; [|split; vm_compute; auto]. intros c h I J. destruct (made_in A k f g M c h I J) as [(-> & ->)|(-> & ->)]; [exists (chars "d")|exists (chars "x")]; (split; [try exact good_d; exact good_x|]); (split; [apply M|vm_compute; discriminate]).
Qed.
