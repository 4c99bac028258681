(* Names: characters, and the 8.3 form. *)
From Verif Require Import Base FutfModel FutfSpec LfnModel LfnSpec FdirModel FdirSpec FnameModel.
Open Scope Z_scope.

Definition zlen (x : list Z) : Z := Z.of_nat (length x).

(* A character in UTF-16, and names as characters, units and bytes. *)
Definition units_of (c : Z) : list Z := if c <? 65536 then [c] else [55296 + (c - 65536) / 1024; 56320 + (c - 65536) mod 1024].
Definition utf16 (cs : list Z) : list Z := flat_map units_of cs.
Definition utf8 (cs : list Z) : list Z := flat_map utf8_of cs.

(* Characters of a name: not controls, separators or wildcards. *)
(* U+FFFF is a character but no long name can contain it, see C77_ffff_refuted. *)
Definition name_char (c : Z) : Prop := scalar c /\ c <> 65535 /\ 32 <= c /\ ~ In c [34; 42; 47; 58; 60; 62; 63; 92; 124; 127].

(* What may follow a name in a path: a control character (end of the path), or separators
   and something else.  What is left then, and whether it was the last name. *)
Definition sep (c : Z) : Prop := c = 47 \/ c = 92.
Inductive ends : list Z -> list Z -> bool -> Prop :=
| ends_here : forall t p, 0 <= t < 32 -> ends (t :: p) p true
| ends_sep : forall s seps c p, sep s -> Forall sep seps -> ~ sep c -> ends (s :: seps ++ c :: p) (c :: p) (c <? 32).

(* y is x without its trailing spaces and dots. *)
Definition blank (u : Z) : Prop := u = 32 \/ u = 46.
Definition snipped (x y : list Z) : Prop := exists t, x = y ++ t /\ Forall blank t /\ forall y' u, y = y' ++ [u] -> ~ blank u.

(* Units of names, and a name as it is kept. *)
Definition xunits (x : list Z) : Prop := Forall (fun u => 32 <= u < 65536) x.
Definition clean (x : list Z) : Prop := xunits x /\ forall z u, x = z ++ [u] -> ~ blank u.

(* The body and the extension of a name. *)
Definition split_name (x body ext : list Z) : Prop := (body = x /\ ext = [] /\ ~ In 46 x) \/ (x = body ++ 46 :: ext /\ ~ In 46 ext).
(* Characters of short names (case ignored). *)
Definition sfn_char (c : Z) : Prop := 33 <= c <= 126 /\ ~ In c [43; 44; 46; 59; 61; 91; 93].
Definition fits (body ext : list Z) : Prop := (1 <= length body <= 8)%nat /\ (length ext <= 3)%nat /\ Forall sfn_char body /\ Forall sfn_char ext.
Definition is_83 (x : list Z) : Prop := exists body ext, split_name x body ext /\ fits body ext.

Definition up (c : Z) : Z := if (97 <=? c) && (c <=? 122) then c - 32 else c.
Definition is_up (c : Z) : bool := (65 <=? c) && (c <=? 90).
Definition is_low (c : Z) : bool := (97 <=? c) && (c <=? 122).
(* Letters of both cases. *)
Definition mixed (l : list Z) : bool := existsb is_up l && existsb is_low l.

(* The 11 bytes of a short name. *)
Definition pad (body ext : list Z) (k : Z) : Z := if k <? 8 then nth (Z.to_nat k) (map up body) 32 else nth (Z.to_nat (k - 8)) (map up ext) 32.
(* Bytes of a short name. *)
Definition sfn_byte (c : Z) : Prop := c = 32 \/ (sfn_char c /\ is_low c = false).

(* fn is the directory form of name x; byte 11 are the flags LOSS 1, LFN 2, LAST 4, BODY 8,
   EXT 16. *)
Record form (x : list Z) (last : bool) (fn : Z -> Z) : Prop := {
  fm_bytes : forall k, 0 <= k < 11 -> sfn_byte (fn k);
  fm_all : bytes fn;
  fm_range : 0 <= fn 11 < 32;
  fm_last : has (fn 11) 4 = last;
  fm_loss : has (fn 11) 1 = true <-> ~ is_83 x;
  fm_lfn : forall body ext, split_name x body ext -> fits body ext -> has (fn 11) 2 = mixed body || mixed ext;
  fm_long : ~ is_83 x -> has (fn 11) 2 = true;
  fm_short : forall body ext, split_name x body ext -> fits body ext -> forall k, 0 <= k < 11 -> fn k = pad body ext k;
  fm_case : forall body ext, split_name x body ext -> fits body ext -> has (fn 11) 2 = false -> has (fn 11) 8 = existsb is_low body /\ has (fn 11) 16 = existsb is_low ext;
  fm_nocase : has (fn 11) 2 = true -> Z.land (fn 11) 24 = 0 }.

(* The directory form of the dot names. *)
Definition dot_form (n : Z) (last : bool) (fn : Z -> Z) : Prop := (forall k, 0 <= k < 11 -> fn k = if k <? n then 46 else 32) /\ fn 11 = if last then 36 else 32.

(* The answer of create_name for a name of units xs: the rest of the path, the directory
   form, and the name without trailing spaces and dots in the buffer. *)
Definition answer (xs p : list Z) (last : bool) (buf : Z -> Z) (r : res (option (list Z * (Z -> Z) * (Z -> Z)))) : Prop :=
  (exists fn lfn, (xs = [46] \/ xs = [46; 46]) /\ r = Ok (Some (p, fn, lfn)) /\ dot_form (zlen xs) last fn /\ holds lfn xs /\ (units buf -> units lfn)) \/
  (xs <> [46] /\ xs <> [46; 46] /\ exists y, snipped xs y /\ (y = [] -> r = Ok None) /\
     (y <> [] -> exists fn lfn, r = Ok (Some (p, fn, lfn)) /\ holds lfn y /\ form y last fn /\ (units buf -> units lfn))).

(* The names of a directory: no two files have a name in common; a long name that is a
   short name, too, has that one. *)
Record names_ok (l : list item) : Prop := {
  nm_short : ForallOrdPairs (fun f g => ~ short_same (snd f) (snd g)) (files l);
  nm_long : ForallOrdPairs (fun f g => fst f <> [] -> fst g <> [] -> ~ same_name (fst f) (fst g)) (files l);
  nm_alias : Forall (fun f => fst f <> [] -> forall body ext, split_name (fst f) body ext -> fits body ext -> forall k, 0 <= k < 11 -> snd f k = pad body ext k) (files l) }.
