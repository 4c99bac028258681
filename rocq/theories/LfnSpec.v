(* Long names as lists of 16-bit units. *)
From Verif Require Import Base FutfModel FutfSpec LfnModel.
Open Scope Z_scope.

Definition unit_ok (u : Z) : Prop := 0 < u < 65535.
Definition name_ok (w : list Z) : Prop := Forall unit_ok w /\ (1 <= length w <= 255)%nat.
(* The buffer holds the name w and a NUL; what follows does not matter. *)
Definition holds (buf : Z -> Z) (w : list Z) : Prop :=
  (forall j, 0 <= j < Z.of_nat (length w) -> buf j = nth (Z.to_nat j) w 0) /\ buf (Z.of_nat (length w)) = 0.
Definition bytes (e : Z -> Z) : Prop := forall o, 0 <= e o < 256.
Definition units (buf : Z -> Z) : Prop := forall j, 0 <= buf j < 65536.

(* Number of entries for a name. *)
Definition parts (w : list Z) : Z := (Z.of_nat (length w) + 12) / 13.
(* What the long name entries of w say: a NUL ends the name, 0xFFFF fills the rest. *)
Definition unit_at (w : list Z) (j : Z) : Z :=
  if j <? Z.of_nat (length w) then nth (Z.to_nat j) w 0 else if j =? Z.of_nat (length w) then 0 else 65535.

(* e is part ord of the name w. *)
Record part_of (w : list Z) (ord sum : Z) (e : Z -> Z) : Prop := {
  po_ord : e 0 = if ord =? parts w then ord + 64 else ord;
  po_attr : e 11 = 15;
  po_type : e 12 = 0;
  po_sum : e 13 = sum;
  po_zero : ld_word e 26 = 0;
  po_unit : forall s, 0 <= s < 13 -> ld_word e (nth (Z.to_nat s) LfnOfs 0) = unit_at w ((ord - 1) * 13 + s) }.

Definition same_name (a b : list Z) : Prop := map upper a = map upper b.

(* The entries of a name, last part first, as dir_register stores them. *)
Fixpoint store (n : nat) (lfn : Z -> Z) (es : list (Z -> Z)) (sum : Z) : res (list (Z -> Z)) :=
  match n, es with
  | S m, e :: es => e <- put_lfn lfn e (Z.of_nat n) sum ;; es <- store m lfn es sum ;; Ok (e :: es)
  | _, _ => Ok []
  end.
Fixpoint recover (buf : Z -> Z) (es : list (Z -> Z)) : res ((Z -> Z) * bool) :=
  match es with
  | [] => Ok (buf, true)
  | e :: es => '(buf, b) <- pick_lfn buf e ;; if b then recover buf es else Ok (buf, false)
  end.
Fixpoint matches (buf : Z -> Z) (es : list (Z -> Z)) : res bool :=
  match es with
  | [] => Ok true
  | e :: es => b <- cmp_lfn buf e ;; if b then matches buf es else Ok false
  end.
