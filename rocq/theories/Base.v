(* Common definitions: outcome monad for the C models, function update,
   little-endian words, and lia configuration. *)
From Coq Require Export ZArith List Bool Lia.
From Coq Require Export ZifyBool ZifyNat ZifyN.
Export ListNotations.
Open Scope Z_scope.

(* Keep cbn from unfolding arithmetic on variables. *)
Global Arguments Z.add : simpl never.
Global Arguments Z.sub : simpl never.
Global Arguments Z.mul : simpl never.
Global Arguments Z.opp : simpl never.
Global Arguments Z.pow : simpl never.
Global Arguments Z.div : simpl never.
Global Arguments Z.modulo : simpl never.
Global Arguments Z.land : simpl never.
Global Arguments Z.lor : simpl never.
Global Arguments Z.lxor : simpl never.
Global Arguments Z.shiftl : simpl never.
Global Arguments Z.shiftr : simpl never.
Global Arguments Z.of_nat : simpl never.
Global Arguments Z.to_nat : simpl never.
Global Arguments Z.max : simpl never.
Global Arguments Z.min : simpl never.
Global Arguments Z.eqb : simpl never.
Global Arguments Z.leb : simpl never.
Global Arguments Z.ltb : simpl never.

(* Outcome of a modelled C function: a value, undefined behaviour (an access
   outside the object it may touch), or an exhausted loop bound (the model's
   substitute for a loop that does not end). *)
Inductive res (A : Type) : Type :=
| Ok : A -> res A
| Ub : res A
| NoFuel : res A.
Arguments Ok {A} _.
Arguments Ub {A}.
Arguments NoFuel {A}.

Definition bind {A B} (x : res A) (f : A -> res B) : res B :=
  match x with
  | Ok a => f a
  | Ub => Ub
  | NoFuel => NoFuel
  end.

Notation "x <- e1 ;; e2" := (bind e1 (fun x => e2))
  (at level 61, e1 at next level, right associativity).
Notation "' p <- e1 ;; e2" := (bind e1 (fun p => e2))
  (at level 61, p pattern, e1 at next level, right associativity).

Definition is_ok {A} (x : res A) : bool :=
  match x with Ok _ => true | _ => false end.

(* Pointwise update of a byte memory. *)
Definition upd (f : Z -> Z) (a v : Z) : Z -> Z :=
  fun x => if x =? a then v else f x.

(* Little-endian words of [n] bytes. *)
Fixpoint load_le (f : Z -> Z) (a : Z) (n : nat) : Z :=
  match n with
  | O => 0
  | S k => f a mod 256 + 256 * load_le f (a + 1) k
  end.

Fixpoint store_le (f : Z -> Z) (a : Z) (n : nat) (v : Z) : Z -> Z :=
  match n with
  | O => f
  | S k => store_le (upd f a (v mod 256)) (a + 1) k (v / 256)
  end.
