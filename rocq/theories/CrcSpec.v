(* Remainders of polynomials over GF(2), by long division. *)
From Coq Require Import ZArith Bool List.
Import ListNotations.
Open Scope Z_scope.

(* A polynomial is the list of its coefficients, highest power first. *)
Fixpoint xor_onto (d g : list bool) : list bool :=
  match d, g with
  | b :: d', c :: g' => xorb b c :: xor_onto d' g'
  | _, _ => d
  end.

(* Long division of [d] by x^w + g (w the length of [g]); [n] quotient
   coefficients are found, the rest of [d] is left. *)
Fixpoint divide (g : list bool) (n : nat) (d : list bool) : list bool :=
  match n, d with
  | S k, b :: r => divide g k (if b then xor_onto r g else r)
  | _, _ => d
  end.

Definition zeros (n : nat) : list bool := repeat false n.
Definition ones (n : nat) : list bool := repeat true n.

(* x^w + the sum of the x^i listed: the coefficients below x^w. *)
Definition poly (w : nat) (powers : list nat) : list bool :=
  rev (map (fun i => existsb (Nat.eqb i) powers) (seq 0 w)).
Definition g16 : list bool := poly 16 [12; 5; 0]%nat.
Definition g7 : list bool := poly 7 [3; 0]%nat.
Definition g32 : list bool := poly 32 [26; 23; 22; 16; 12; 11; 10; 8; 7; 5; 4; 2; 1; 0]%nat.

(* (init x^n + msg) x^w mod (x^w + g), n the length of the message. *)
Definition remainder (g init msg : list bool) : list bool :=
  divide g (length msg) (xor_onto (msg ++ zeros (length g)) init).

(* The w low bits of a number, lowest or highest first. *)
Definition lsb_bits (w : nat) (z : Z) : list bool := map (fun i => Z.testbit z (Z.of_nat i)) (seq 0 w).
Definition msb_bits (w : nat) (z : Z) : list bool := rev (lsb_bits w z).

Definition msb_first (data : list Z) : list bool := flat_map (msb_bits 8) data.
Definition lsb_first (data : list Z) : list bool := flat_map (lsb_bits 8) data.

Definition byte (c : Z) : Prop := 0 <= c < 256.

(* [m'] differs from [m] only inside a run of at most [w] bits. *)
Definition burst (w : nat) (m m' : list bool) : Prop :=
  exists a e e' c, m = a ++ e ++ c /\ m' = a ++ e' ++ c /\ length e = length e' /\ (length e <= w)%nat /\ e <> e'.

(* Number of positions where two lists differ. *)
Fixpoint flips (m m' : list bool) : nat :=
  match m, m' with
  | b :: r, c :: r' => ((if xorb b c then 1 else 0) + flips r r')%nat
  | _, _ => 0%nat
  end.

(* [m'] is [m] with two bits flipped, at most [d] positions apart. *)
Definition two_flips (d : Z) (m m' : list bool) : Prop :=
  exists a b mid c z, m = a ++ b :: mid ++ c :: z /\ m' = a ++ negb b :: mid ++ negb c :: z /\ Z.of_nat (S (length mid)) <= d.
