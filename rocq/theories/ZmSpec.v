(* ZMODEM encodings and sessions. *)
From Coq Require Import ZArith Bool List.
From Verif Require Import CrcSpec.
Import ListNotations.
Open Scope Z_scope.

(* --- bytes on the line --- *)

(* What a run of line characters stands for: a data byte, or one of the four
   end-of-block marks 'h' 'i' 'j' 'k'. *)
Inductive symbol := Byte (c : Z) | Mark (k : Z).

(* 0x18 (ZDLE) escapes; up to three more may precede the escaped character (the
   fifth in a row cancels).  XON and XOFF (0x11, 0x13) are ignored. *)
Inductive sym : symbol -> list Z -> Prop :=
| sym_flow f v bs : f = 17 \/ f = 19 -> sym v bs -> sym v (f :: bs)
| sym_plain c : byte c -> c <> 17 -> c <> 19 -> c <> 24 -> sym (Byte c) [c]
| sym_esc n c : (n <= 3)%nat -> byte c -> Z.land c 96 = 0 -> sym (Byte c) (24 :: repeat 24 n ++ [Z.lxor c 64])
| sym_7f n : (n <= 3)%nat -> sym (Byte 127) (24 :: repeat 24 n ++ [108])
| sym_ff n : (n <= 3)%nat -> sym (Byte 255) (24 :: repeat 24 n ++ [109])
| sym_mark n k : (n <= 3)%nat -> 104 <= k <= 107 -> sym (Mark k) (24 :: repeat 24 n ++ [k]).

Inductive syms : list symbol -> list Z -> Prop :=
| syms_nil : syms [] []
| syms_cons v vs bs cs : sym v bs -> syms vs cs -> syms (v :: vs) (bs ++ cs).

Definition enc (data bs : list Z) : Prop := syms (map Byte data) bs.

(* How the usual sender does it: escape 0x18, 0x10, 0x11, 0x13 and the same with
   the top bit set, leave the rest alone. *)
Definition usual (c : Z) : list Z :=
  if existsb (Z.eqb (Z.land c 127)) [24; 16; 17; 19] then [24; Z.lxor c 64] else [c].

(* --- check sequences --- *)

Definition is_crc (wide : bool) (data cks : list Z) : Prop :=
  Forall byte cks /\
  if wide then length cks = 4%nat /\ lsb_first cks = map negb (remainder g32 (ones 32) (lsb_first data))
  else length cks = 2%nat /\ msb_first cks = remainder g16 (zeros 16) (msb_first data).

(* --- headers --- *)

Definition hexdigits (b : Z) : list Z :=
  map (fun n => if n <? 10 then 48 + n else 97 + (n - 10)) [b / 16; b mod 16].

(* The three header encodings, from behind the 0x18 on; [cks] is the check
   sequence. *)
Inductive hdr_text (h cks : list Z) : bool -> list Z -> Prop :=
| text_hex nl : In nl [[10]; [138]; [13; 10]; [13; 138]; [141; 10]; [141; 138]] ->
    hdr_text h cks false (66 :: flat_map hexdigits (h ++ cks) ++ nl)
| text_bin16 bs : enc (h ++ cks) bs -> hdr_text h cks false (65 :: bs)
| text_bin32 bs : enc (h ++ cks) bs -> hdr_text h cks true (67 :: bs).

Definition cks_len (wide : bool) : nat := if wide then 4 else 2.

(* A header as sent: anything but 0x18, then 0x18 and the text. *)
Definition header_with (h cks : list Z) (wide : bool) (bs : list Z) : Prop :=
  length h = 5%nat /\ Forall byte h /\ length cks = cks_len wide /\ Forall byte cks /\
  exists skip t, Forall byte skip /\ ~ In 24 skip /\ hdr_text h cks wide t /\ bs = skip ++ 24 :: t.

Definition header (h : list Z) (wide : bool) (bs : list Z) : Prop :=
  exists cks, is_crc wide h cks /\ header_with h cks wide bs.

(* --- data blocks --- *)

Definition block_with (data : list Z) (k : Z) (cks : list Z) (wide : bool) (bs : list Z) : Prop :=
  Forall byte data /\ length cks = cks_len wide /\ Forall byte cks /\
  exists e m c, enc data e /\ sym (Mark k) m /\ enc cks c /\ bs = e ++ m ++ c.

Definition block (wide : bool) (data : list Z) (k : Z) (bs : list Z) : Prop :=
  exists cks, is_crc wide (data ++ [k]) cks /\ block_with data k cks wide bs.

(* As accepted: a mark in the place of a check byte counts as that byte. *)
Definition loose (v : symbol) : Z := match v with Byte c => c | Mark k => k end.
Definition block_accepted (wide : bool) (data : list Z) (k : Z) (bs : list Z) : Prop :=
  exists cks e m c, Forall byte data /\ enc data e /\ sym (Mark k) m /\ is_crc wide (data ++ [k]) (map loose cks) /\ syms cks c /\
  bs = e ++ m ++ c.

(* --- a sender's side of a session --- *)

(* A data frame is a header and blocks, all but the last of which end in 'i' or
   'j' (more follows) and the last in 'h' or 'k' (a header follows). *)
Inductive frame :=
| Ask                                        (* ZRQINIT or ZEOF *)
| File (name info : list Z)                  (* ZFILE *)
| Data (blocks : list (list Z * bool)) (final : list Z * bool). (* ZDATA; true: acknowledgement wanted *)

Inductive blocks_bytes (wide : bool) : list (list Z * bool) -> list Z -> Prop :=
| blocks_nil : blocks_bytes wide [] []
| blocks_cons d a l bs cs : (length d <= 2047)%nat -> block wide d (if a : bool then 106 else 105) bs -> blocks_bytes wide l cs ->
    blocks_bytes wide ((d, a) :: l) (bs ++ cs).

Inductive frame_bytes : frame -> list Z -> Prop :=
| bytes_ask t p w bs : t = 0 \/ t = 11 -> header (t :: p) w bs -> frame_bytes Ask bs
| bytes_file p w bs name info k cs : header (4 :: p) w bs -> Forall byte name -> ~ In 0 name -> Forall byte info ->
    (length name + length info <= 2046)%nat -> block w (name ++ 0 :: info) k cs -> frame_bytes (File name info) (bs ++ cs)
| bytes_data p w bs l d a cs ds : header (10 :: p) w bs -> blocks_bytes w l cs ->
    (length d <= 2047)%nat -> block w d (if a : bool then 107 else 104) ds -> frame_bytes (Data l (d, a)) (bs ++ cs ++ ds).

Inductive frames_bytes : list frame -> list Z -> Prop :=
| frames_nil : frames_bytes [] []
| frames_cons f fs bs cs : frame_bytes f bs -> frames_bytes fs cs -> frames_bytes (f :: fs) (bs ++ cs).

(* A position as four bytes, lowest first. *)
Definition le32 (n : Z) : list Z := [n mod 256; n / 256 mod 256; n / 65536 mod 256; n / 16777216 mod 256].

(* The receiver's side. *)
Inductive action := Header (h : list Z) | OpenFile (name : list Z) | Put (data : list Z) | CloseFile.

Fixpoint put_blocks (total : Z) (l : list (list Z * bool)) : Z * list action :=
  match l with
  | [] => (total, [])
  | (d, a) :: l' =>
      let total := total + Z.of_nat (length d) in
      let '(t, acts) := put_blocks total l' in
      (t, Put d :: (if a then [Header (3 :: le32 total)] else []) ++ acts)
  end.

(* What is expected for the frames, [total] bytes having been received. *)
Fixpoint answers (total : Z) (fs : list frame) : list action :=
  match fs with
  | [] => []
  | Ask :: fs' => Header [1; 0; 0; 0; 34] :: answers total fs'
  | File name _ :: fs' => OpenFile name :: Header (9 :: le32 total) :: answers total fs'
  | Data l last :: fs' => let '(t, acts) := put_blocks total (l ++ [last]) in acts ++ answers t fs'
  end.

Fixpoint content (l : list action) : list Z :=
  match l with
  | [] => []
  | Put d :: l' => d ++ content l'
  | _ :: l' => content l'
  end.

(* A data frame must not come before the first file. *)
Fixpoint data_after_file (opened : bool) (fs : list frame) : Prop :=
  match fs with
  | [] => True
  | Ask :: fs' => data_after_file opened fs'
  | File _ _ :: fs' => data_after_file true fs'
  | Data _ _ :: fs' => opened = true /\ data_after_file opened fs'
  end.

Definition block_data (f : frame) : list Z :=
  match f with Data l last => concat (map fst (l ++ [last])) | _ => [] end.

(* Files are written only after one is opened, and closed last. *)
Fixpoint orderly (opened : bool) (l : list action) : Prop :=
  match l with
  | [] => True
  | Header _ :: l' => orderly opened l'
  | OpenFile _ :: l' => orderly true l'
  | Put _ :: l' => opened = true /\ orderly opened l'
  | CloseFile :: l' => opened = true /\ l' = []
  end.

Fixpoint any_file (fs : list frame) : bool :=
  match fs with [] => false | File _ _ :: _ => true | _ :: fs' => any_file fs' end.

Definition names (fs : list frame) : list (list Z) :=
  flat_map (fun f => match f with File n _ => [n] | _ => [] end) fs.

Definition put_or_ack (a : action) : Prop := match a with Put _ => True | Header (t :: _) => t = 3 | _ => False end.
Definition is_data (f : frame) : Prop := match f with Data _ _ => True | _ => False end.


Definition hello : list Z := [104; 105].
Definition two_files : list frame :=
  [Ask; File [97] []; Data [] (hello, false); Ask; File [98] []; Data [] (hello, false); Ask].


(* [d] is (the beginning of) the contents of a block that arrived intact. *)
Definition fromblock (inp d : list Z) : Prop :=
  exists data k w bs pre post, inp = pre ++ bs ++ post /\ block_accepted w data k bs /\ d = firstn (length d) data.

