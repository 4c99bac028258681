(* C21-C25: keyboard input and the line editor. *)
From Verif Require Import Base Arr Utf8Model Utf8Spec EditModel EditSpec EditKeys EditProof EditProof2.
Open Scope Z_scope.

(* Any stream of characters and escape sequences yields exactly its keys. *)
Theorem C21_keys_of_stream : forall es, Forall event_ok es -> forall fuel, (length es < fuel)%nat ->
  all_keys fuel (utf8 (flat_map event_chars es)) = Ok (flat_map event_key es).
Proof. exact all_keys_stream. Qed.
Print Assumptions C21_keys_of_stream.

(* x, Left as ESC [ D, ESC [ 2 ~ (unknown), é, Delete, End as ESC O F *)
Example C21_example :
  let es := [Char 120; Left false; OtherNum [50]; Char 233; Delete; End_ true] in
  Forall event_ok es /\ flat_map event_key es = [120; 8592; 233; 9249; 8677] /\
  utf8 (flat_map event_chars es) = [120; 27; 91; 68; 27; 91; 50; 126; 195; 169; 27; 91; 51; 126; 27; 79; 70].
Proof.
  split; [|split; reflexivity]. repeat (apply Forall_cons || apply Forall_nil); cbn [event_ok]; auto; try lia.
  split; [discriminate|]. split; [repeat constructor; discriminate|]. discriminate.
Qed.

(* The first key does not depend on what follows it. *)
Theorem C21_one_key : forall e r, event_ok e ->
  fpm_getkey (utf8 (event_chars e) ++ r) =
    match event_key e with k :: _ => Ok (Some (k, r)) | [] => fpm_getkey r end.
Proof. exact fpm_getkey_event. Qed.
Print Assumptions C21_one_key.

(* Whatever arrives, fpm_getkey returns or waits for input. *)
Theorem C21_any_input : forall inp, exists o, fpm_getkey inp = Ok o.
Proof. exact getkey_waits. Qed.
Print Assumptions C21_any_input.

Theorem C21_editor_from_console : forall bl prompt es, Forall event_ok es -> forall fuel s, (length es < fuel)%nat ->
  bytes_loop fuel bl prompt s (utf8 (flat_map event_chars es)) = keys_loop bl prompt s (flat_map event_key es).
Proof. exact bytes_keys. Qed.
Print Assumptions C21_editor_from_console.

(* In C22-C24: the buffer has [n] elements, buffer_length is [S cap] <= n, the
   prompt is the text [pw], [t0] is the text in the buffer at the start, [h]
   the history text.  The result Ok means that no access leaves an array. *)
Theorem C22_buffer_well_formed : forall n cap buf clear pw ptail junk prev h t0 keys,
  Forall wide pw -> Forall wide t0 ->
  (if clear : bool then t0 = [] /\ buf <> [] else holds buf t0) -> length buf = n -> length junk = 128%nat ->
  hist_rel prev h n -> (S cap <= n)%nat -> Z.of_nat n < 2 ^ 32 -> Forall (fun k => 0 <= k < 65536) keys ->
  exists s out fin t, editline buf (Z.of_nat (S cap)) clear (utf8 pw ++ 0 :: ptail) junk prev keys = Ok (s, out, fin) /\
    holds (e_buf s) t /\ Forall wide t /\ length (e_buf s) = n /\ (e_pos s <= length t)%nat /\
    (length t <= Nat.max cap (Nat.max (length t0) (match h with Some _ => 127 | None => 0 end)))%nat.
Proof. exact editline_wf. Qed.
Print Assumptions C22_buffer_well_formed.

Theorem C23_text_is_abstract_text : forall n cap buf clear pw ptail junk prev h t0 keys,
  Forall wide pw -> Forall wide t0 ->
  (if clear : bool then t0 = [] /\ buf <> [] else holds buf t0) -> length buf = n -> length junk = 128%nat ->
  hist_rel prev h n -> (S cap <= n)%nat -> Z.of_nat n < 2 ^ 32 -> Forall (fun k => 0 <= k < 65536) keys ->
  exists s out fin z, editline buf (Z.of_nat (S cap)) clear (utf8 pw ++ 0 :: ptail) junk prev keys = Ok (s, out, fin) /\
    zrun cap (zstart t0 h) keys = (z, fin) /\
    holds (e_buf s) (text z) /\ e_pos s = length (before z) /\ hist_rel (e_prev s) (history z) n.
Proof. exact editline_text. Qed.
Print Assumptions C23_text_is_abstract_text.

Theorem C24_screen_shows_text : forall n cap buf clear pw ptail junk prev h t0 keys,
  Forall printable pw -> Forall printable t0 ->
  (if clear : bool then t0 = [] /\ buf <> [] else holds buf t0) -> length buf = n -> length junk = 128%nat ->
  hist_rel prev h n -> (forall t, h = Some t -> Forall printable t) ->
  (S cap <= n)%nat -> Z.of_nat n < 2 ^ 32 -> Forall (fun k => 0 <= k < 65536) keys ->
  exists s out fin z, editline buf (Z.of_nat (S cap)) clear (utf8 pw ++ 0 :: ptail) junk prev keys = Ok (s, utf8 out, fin) /\
    zrun cap (zstart t0 h) keys = (z, fin) /\ holds (e_buf s) (text z) /\
    shows (trun fresh out) (pw ++ text z) (length pw + length (before z)).
Proof. exact editline_screen. Qed.
Print Assumptions C24_screen_shows_text.

(* Type "abc", Left, Backspace, "xy", Home, Delete, Up, Down, return. *)
Example C24_example :
  let keys := [97; 98; 99; 8592; 8; 120; 121; 8676; 9249; 8593; 8595; 13; 7] in
  let h := 104 :: 105 :: 0 :: repeat 9 125 in
  hist_rel (Some h) (Some [104; 105]) 200 /\
  zrun 5 (zstart [] (Some [104; 105])) keys = (Zip [120; 121; 99] [] [120; 121; 99] false (Some [104; 105]), true).
Proof.
  split; [|reflexivity]. split; [eexists; reflexivity|]. split; [repeat constructor|]. cbn; lia.
Qed.

(* Every caller passes the size in bytes.  The shell's buffer of 128
   characters is overrun by the 128th character. *)
Theorem C25_shell_buffer_refuted : exists keys, Forall (fun k => 0 <= k < 65536) keys /\
  forall buf junk prev, length buf = 128%nat -> length junk = 128%nat -> hist_rel prev (Some []) 128 ->
  editline buf 256 true [0] junk prev keys = Ub.
Proof. exact shell_buffer_overflow. Qed.
Print Assumptions C25_shell_buffer_refuted.
