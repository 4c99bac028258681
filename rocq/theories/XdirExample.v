(* A directory of eight blank entries, into which the file Readme.txt of 1000 bytes from
   cluster 5 goes behind the first two. *)
From Coq Require Import String Ascii.
From Verif Require Import Base Arr LfnSpec FutfModel XdirModel XdirSpec.
Open Scope Z_scope.

Definition units (s : string) : list Z := map (fun c => Z.of_nat (nat_of_ascii c)) (list_ascii_of_string s).
Definition name : list Z := units "Readme.txt with a long name".
Definition blank_dir : list (list Z) := repeat (repeat 0 32) 8.
Definition junk : list Z := repeat 7 608.
Definition facts : meta := Meta 32 3 5 1000 1234567.
Definition stored : res (list (list Z) * list Z * bool) :=
  b <- create_xdir junk (name ++ [0]) ;; b <- put_meta b facts ;; store_xdir blank_dir 2 b.
Definition dir1 : list (list Z) := match stored with Ok (t, _, _) => t | _ => [] end.

Lemma units_ok : Forall unit_ok' name /\ (1 <= length name <= 255)%nat /\ meta_in 32 3 5 1000 1234567.
Proof.
  split; [|split].
  - apply Forall_forall. intros c H. assert (X : forallb (fun c => (0 <? c) && (c <? 65536)) name = true) by (vm_compute; reflexivity).
    rewrite forallb_forall in X. specialize (X c H). unfold unit_ok'. lia.
  - vm_compute. lia.
  - unfold meta_in, byte_ok. lia.
Qed.

(* loaded again; found under another case, not under a shorter name; a changed byte is found out *)
Definition loaded : list Z := match load_xdir dir1 2 (repeat 9 608) with Ok (b, _) => b | _ => [] end.
Definition verdict (r : res (list Z * bool)) : option bool := match r with Ok (_, b) => Some b | _ => None end.
Lemma example_ok :
  verdict (load_xdir dir1 2 (repeat 9 608)) = Some true /\ get_meta loaded = Ok facts /\
  named loaded (units "README.TXT WITH A LONG NAME" ++ [0]) = Ok true /\ named loaded (units "readme.txt with a long" ++ [0]) = Ok false /\
  verdict (load_xdir (set_at dir1 4 (set_at (nth 4 dir1 []) 6 100)) 2 (repeat 9 608)) = Some false /\
  nth 6 dir1 [] = repeat 0 32.
Proof. repeat split; vm_compute; reflexivity. Qed.

(* the set of dir1 meets the conditions of the theorems, with no name entry behind it *)
Definition e_h : list Z := nth 2 dir1 [].
Definition e_s : list Z := nth 3 dir1 [].
Definition e_names : list (list Z) := [nth 4 dir1 []; nth 5 dir1 []].
Lemma entry_dec e : (length e =? 32)%nat = true -> forallb (fun x => (0 <=? x) && (x <? 256)) e = true -> entry_ok e.
Proof.
  intros A B. split; [now apply Nat.eqb_eq|]. apply Forall_forall. intros x I. rewrite forallb_forall in B. specialize (B x I). unfold byte_ok. lia.
Qed.
Lemma set_ok : entry_ok e_h /\ entry_ok e_s /\ Forall entry_ok e_names /\ good e_h e_s e_names /\ at_ e_h 1 = Z.of_nat (length e_names) + 1 /\
  Z.of_nat (length e_names) = (at_ e_s 3 + 14) / 15 /\ dir1 = repeat (repeat 0 32) 2 ++ e_h :: e_s :: e_names ++ repeat (repeat 0 32) 2.
Proof.
  split; [apply entry_dec; vm_compute; reflexivity|]. split; [apply entry_dec; vm_compute; reflexivity|].
  split; [apply Forall_cons; [|apply Forall_cons; [|apply Forall_nil]]; (apply entry_dec; vm_compute; reflexivity)|].
  split; [|split; [|split]; vm_compute; reflexivity].
  constructor.
  - vm_compute; reflexivity.
  - vm_compute; reflexivity.
  - apply Forall_cons; [|apply Forall_cons; [|apply Forall_nil]]; vm_compute; reflexivity.
  - unfold e_names. cbn [length]. lia.
  - vm_compute. discriminate.
  - vm_compute; reflexivity.
Qed.
