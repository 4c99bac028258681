(* C32-C36, C58-C63: ZMODEM receive.  [rz_main] is run with char unsigned (first
   argument false) unless said otherwise. *)
From Verif Require Import Base Arr CrcModel CrcSpec ZmModel ZmSpec ZmProof ZmProof2 ZmProof3 ZmProof4.
Open Scope Z_scope.

Theorem C32_hex_digits :
  (forall b, byte b -> zm_byte_to_hex b = hexdigits b /\ zm_hex_to_byte (nth 0 (hexdigits b) 0) (nth 1 (hexdigits b) 0) = b) /\
  (forall c1 c2, byte c1 -> byte c2 -> (exists b, byte b /\ [c1; c2] = hexdigits b /\ zm_hex_to_byte c1 c2 = b) \/
     ((forall b, byte b -> [c1; c2] <> hexdigits b) /\ zm_hex_to_byte c1 c2 = BAD_DIGIT)).
Proof. exact hex_all. Qed.
Print Assumptions C32_hex_digits.

Example C32_example : hexdigits 175 = [97; 102] /\ zm_hex_to_byte 97 102 = 175 /\ zm_hex_to_byte 65 102 = BAD_DIGIT.
Proof. repeat split. Qed.

(* Hexadecimal and both binary headers, after anything but the escape byte. *)
Theorem C33_header_read : forall h w bs r fuel, header h w bs ->
  await_header (S fuel) false (bs ++ r) = Ok (Some (OK, h, Some w, r)).
Proof. exact header_ok. Qed.
Print Assumptions C33_header_read.

Theorem C33_bad_check : forall h cks w bs r fuel, header_with h cks w bs -> ~ is_crc w h cks ->
  exists r', await_header (S fuel) false (bs ++ r) = Ok (Some (BAD_CRC, h, Some w, r')).
Proof. exact header_bad. Qed.
Print Assumptions C33_bad_check.

(* What is sent is a hexadecimal header and XON, if a NUL happens to follow the
   buffer (see C36). *)
Theorem C33_header_sent : forall h tl, length h = 5%nat -> Forall byte h ->
  exists bs, zm_send_hex_hdr h (0 :: tl) = Ok (bs ++ [17]) /\ header h false bs.
Proof. exact send_ok. Qed.
Print Assumptions C33_header_sent.

(* ZRPOS at 65793, as sent ("**\x18B0901010100..."). *)
Example C33_example : exists bs, header (9 :: le32 65793) false bs /\ firstn 14 bs = [42; 42; 24; 66; 48; 57; 48; 49; 48; 49; 48; 49; 48; 48].
Proof.
  destruct (send_ok (9 :: le32 65793) [] eq_refl) as (bs & E & H); [repeat constructor; discriminate|].
  exists bs. split; auto. vm_compute in E. inversion E as [E']. apply (f_equal (firstn 14)) in E'.
  destruct bs as [|? [|? [|? [|? [|? [|? [|? [|? [|? [|? [|? [|? [|? [|? bs]]]]]]]]]]]]]]; cbn in E'; try discriminate E'.
  cbn. congruence.
Qed.

Theorem C34_block_read : forall data k w bs r buf max, block w data k bs -> (length data < max)%nat -> (max <= length buf)%nat ->
  zm_read_data_block false w buf max (bs ++ r) = Ok (Some (Z.lor FIN k, data ++ k :: skipn (S (length data)) buf, S (length data), r)).
Proof. exact block_ok. Qed.
Print Assumptions C34_block_read.

Theorem C34_bad_check : forall data k cks w bs r buf max, block_with data k cks w bs -> ~ is_crc w (data ++ [k]) cks ->
  (length data < max)%nat -> (max <= length buf)%nat ->
  zm_read_data_block false w buf max (bs ++ r) = Ok (Some (BAD_CRC, data ++ k :: skipn (S (length data)) buf, S (length data), r)).
Proof. exact block_bad. Qed.
Print Assumptions C34_bad_check.

(* Nothing else is accepted. *)
Theorem C34_accepted_is_block : forall w buf max inp c buf' len r, Forall byte inp -> (max <= length buf)%nat ->
  zm_read_data_block false w buf max inp = Ok (Some (c, buf', len, r)) -> is_error c = false ->
  exists data k bs, block_accepted w data k bs /\ inp = bs ++ r /\ c = Z.lor FIN k /\ len = S (length data) /\ (len <= max)%nat /\
    buf' = data ++ k :: skipn len buf.
Proof. exact block_sound. Qed.
Print Assumptions C34_accepted_is_block.

(* A block for any data and mark, escaped as usual. *)
Theorem C34_blocks_exist : forall w d k, Forall byte d -> 104 <= k <= 107 -> block w d k (mk_block w d k).
Proof. exact mk_block_ok. Qed.
Print Assumptions C34_blocks_exist.

Example C34_example : Forall byte [24; 17; 0; 255] /\ firstn 8 (mk_block true [24; 17; 0; 255] 107) = [24; 88; 24; 81; 0; 255; 24; 107].
Proof. split; [repeat constructor; discriminate|vm_compute; reflexivity]. Qed.

Theorem C35_buffer_bounds : forall sg w buf max inp, (max <= length buf)%nat -> exists o, zm_read_data_block sg w buf max inp = Ok o /\
  forall c buf' len r, o = Some (c, buf', len, r) -> (len <= max)%nat /\ length buf' = length buf /\ skipn len buf' = skipn len buf.
Proof. exact block_safe_pub. Qed.
Print Assumptions C35_buffer_bounds.

Theorem C35_out_of_space : forall w data e r buf, enc data e -> (length data <= length buf)%nat ->
  zm_read_data_block false w buf (length data) (e ++ r) = Ok (Some (OUT_OF_SPACE, data ++ skipn (length data) buf, length data, r)).
Proof. exact block_full. Qed.
Print Assumptions C35_out_of_space.

Example C35_example : zm_read_data_block false false [0; 0; 0; 7] 3 [65; 24; 88; 66; 67] = Ok (Some (OUT_OF_SPACE, [65; 24; 66; 7], 3%nat, [67])).
Proof. reflexivity. Qed.

(* With no memory behind the buffer, undefined; else bytes from behind it are
   sent. *)
Theorem C36_header_overread_refuted : forall h tl, Forall byte h -> zm_send_hex_hdr h [] = Ub /\
  forall c, c <> 0 -> zm_send_hex_hdr h (c :: 0 :: tl) = Ok ([42; 42; 24] ++ zm_to_hex_header (zm_calc_hdr_crc h) ++ [c; 17]).
Proof. exact send_overread. Qed.
Print Assumptions C36_header_overread_refuted.

Example C36_example : Forall byte [9; 0; 0; 0; 0]. Proof. repeat constructor; discriminate. Qed.

(* Whatever arrives, rz accesses only its buffer (given a NUL somewhere behind
   it, see C61), its loops end or wait for input, it writes only between opening
   and closing, and what it writes arrived in an intact block. *)
Theorem C58_any_input : forall sg open_ok junk after space inp, length junk = DATA_BUF_LEN -> In 0 after ->
  exists evs, rz_main sg open_ok junk after space inp = Ok evs /\ orderly false (map act evs) /\
  (sg = false -> Forall byte inp -> forall d, In (Write d) evs -> fromblock inp d).
Proof. exact rz_any. Qed.
Print Assumptions C58_any_input.

Example C58_example : length (repeat 7 2048) = DATA_BUF_LEN /\ In 0 [3; 0] /\
  rz_main false (fun _ => true) (repeat 7 2048) [3; 0] 10 [42; 24; 66; 49; 24; 24; 24; 24; 24] = Ok [Send (pos_hdr ZNAK 0)].
Proof. split; [apply repeat_length|]. split; [cbn; auto|]. vm_compute. reflexivity. Qed.

(* The answers to any well-formed sequence of frames. *)
Theorem C59_session : forall open_ok junk after space fs bs p w fin r, frames_bytes fs bs -> header (8 :: p) w fin ->
  length junk = DATA_BUF_LEN -> data_after_file false fs -> (forall n, In n (names fs) -> open_ok n = true) ->
  (length (concat (map block_data fs)) <= space)%nat ->
  exists evs, rz_main false open_ok junk after space (bs ++ fin ++ r) = Ok evs /\
  map act evs = answers 0 fs ++ Header [8; 0; 0; 0; 0] :: (if any_file fs then [CloseFile] else []).
Proof. exact session. Qed.
Print Assumptions C59_session.

(* One file: opened under its name, its blocks written in order, closed. *)
Theorem C59_one_file : forall open_ok junk after space pre mid post name info bs p w fin r,
  Forall (fun f => f = Ask) pre -> Forall is_data mid -> Forall (fun f => f = Ask) post ->
  frames_bytes (pre ++ [File name info] ++ mid ++ post) bs -> header (8 :: p) w fin -> length junk = DATA_BUF_LEN -> open_ok name = true ->
  (length (concat (map block_data mid)) <= space)%nat ->
  exists evs acts, rz_main false open_ok junk after space (bs ++ fin ++ r) = Ok evs /\
    map act evs = map (fun _ => Header [1; 0; 0; 0; 34]) pre ++ [OpenFile name; Header [9; 0; 0; 0; 0]] ++ acts ++
                  map (fun _ => Header [1; 0; 0; 0; 34]) post ++ [Header [8; 0; 0; 0; 0]; CloseFile] /\
    content acts = concat (map block_data mid) /\ Forall put_or_ack acts.
Proof. exact one_file. Qed.
Print Assumptions C59_one_file.

(* Such byte sequences exist for all frames that fit. *)
Theorem C59_frames_exist : forall w fs, Forall frame_fits fs -> frames_bytes fs (flat_map (mk_frame w) fs).
Proof. exact mk_frames_ok. Qed.
Print Assumptions C59_frames_exist.

Example C59_example :
  let fs := [Ask; File [97; 46; 99] [51]; Data [([24; 0], true)] ([255], false); Ask] in
  Forall frame_fits fs /\ data_after_file false fs /\
  answers 0 fs = [Header [1; 0; 0; 0; 34]; OpenFile [97; 46; 99]; Header [9; 0; 0; 0; 0]; Put [24; 0]; Header [3; 2; 0; 0; 0];
                  Put [255]; Header [1; 0; 0; 0; 34]].
Proof.
  cbv zeta. split; [|split; [cbn; auto|reflexivity]].
  constructor; [exact I|]. constructor; [|constructor; [|constructor; [exact I|constructor]]].
  - split; [repeat constructor; discriminate|]. split; [cbn; lia|]. split; [repeat constructor; discriminate|cbn [length]; lia].
  - constructor; [|constructor; [|constructor]]; (split; [repeat constructor; discriminate|cbn [fst length]; lia]).
Qed.

(* Second file: requested from where the first ended; the first is not closed. *)
Theorem C60_second_file_refuted : exists bs fin evs, frames_bytes two_files bs /\ header [8; 0; 0; 0; 0] true fin /\
  rz_main false (fun _ => true) (repeat 0 2048) [0] 1000 (bs ++ fin) = Ok evs /\
  map act evs = [Header [1; 0; 0; 0; 34]; OpenFile [97]; Header [9; 0; 0; 0; 0]; Put hello; Header [1; 0; 0; 0; 34];
                 OpenFile [98]; Header [9; 2; 0; 0; 0]; Put hello; Header [1; 0; 0; 0; 34]; Header [8; 0; 0; 0; 0]; CloseFile].
Proof. exact second_file_pub. Qed.
Print Assumptions C60_second_file_refuted.

(* File name without NUL: old buffer contents become part of the name, and with
   none in the buffer the read goes on behind it. *)
Theorem C61_name_overread_refuted : exists a b, header [4; 0; 0; 0; 0] true a /\ block true [97] 107 b /\
  rz_main false (fun _ => true) (repeat 66 2048) [] 1000 (a ++ b) = Ub /\
  rz_main false (fun _ => true) (repeat 66 2048) [0] 1000 (a ++ b) = Ok [Open (97 :: 107 :: repeat 66 2046); Send [9; 0; 0; 0; 0]] /\
  rz_main false (fun _ => true) (repeat 67 2048) [0] 1000 (a ++ b) = Ok [Open (97 :: 107 :: repeat 67 2046); Send [9; 0; 0; 0; 0]].
Proof. exact name_pub. Qed.
Print Assumptions C61_name_overread_refuted.

(* Data announced for any offset is written at the current one. *)
Theorem C62_position_ignored_refuted : forall p, length p = 4%nat -> Forall byte p -> exists a b c d evs, frame_bytes (File [97] []) a /\ header (10 :: p) true b /\
  block true hello 104 c /\ header [8; 0; 0; 0; 0] true d /\
  rz_main false (fun _ => true) (repeat 0 2048) [0] 1000 (a ++ b ++ c ++ d) = Ok evs /\
  map act evs = [OpenFile [97]; Header [9; 0; 0; 0; 0]; Put hello; Header [8; 0; 0; 0; 0]; CloseFile].
Proof. exact position_pub. Qed.
Print Assumptions C62_position_ignored_refuted.

Example C62_example : length (le32 100) = 4%nat /\ Forall byte (le32 100).
Proof. split; [reflexivity|repeat constructor; discriminate]. Qed.

(* With char signed, an intact block is rejected. *)
Theorem C63_signed_char_refuted : exists bs, block true [200] 104 bs /\ forall buf max r, (1 <= max)%nat ->
  exists e r', zm_read_data_block true true buf max (bs ++ r) = Ok (Some (e, buf, 0%nat, r')) /\ is_error e = true.
Proof. exact signed_pub. Qed.
Print Assumptions C63_signed_char_refuted.
