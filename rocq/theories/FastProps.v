(* Properties C116 to C118. *)
From Verif Require Import Base FatModel FatSpec FatExample FileModel FileSpec FileExample ExpandSpec FastModel FastSpec FastProof3 FastExample.
Open Scope Z_scope.

(* C116.  With CREATE_LINKMAP, f_lseek describes the clusters of a file by runs which could
   not be longer; the table is not written beyond the size it states, and if it is too
   small, the size needed is stored.  Nothing happens to the volume. *)
Theorem C116_linkmap g v cs fs ds k f d tab size fuel : geo_ok g -> data_ok g -> open_files g v cs fs ds -> nth_error fs k = Some f -> nth_error ds k = Some d ->
  plain_end (entry g v) (nth k cs []) -> 0 < size -> tab 0 <= size -> n_fatent g <= Z.of_nat fuel ->
  exists v' tab' rs, runs_of rs (nth k cs []) /\ create_linkmap fuel g v f tab size = Ok (v', f, tab', if items rs <=? tab 0 then LDone FR_OK else LNotEnough) /\
    tab' 0 = items rs /\ (items rs <= tab 0 -> holds tab' 1 rs /\ linkmap tab' size (nth k cs []) /\ forall i, items rs <= i -> tab' i = tab i) /\
    (forall i, i < 0 \/ Z.max 1 (tab 0) <= i -> tab' i = tab i) /\
    open_files g v' cs fs ds /\ (forall c, 0 <= c < n_fatent g -> entry g v' c = entry g v c) /\ same_outside g v v'.
Proof. exact (files_map g v cs fs ds k f d tab size fuel). Qed.
Print Assumptions C116_linkmap.
Example C116_example :
  match begun with Ok (v, fs, _) => exists cs ds, open_files floppy v cs fs ds | _ => False end /\
  match begun with
  | Ok (v, fs, _) =>
      let f := nth 0 fs (opened 0 0 77 true true) in
      shown_map (create_linkmap 400 floppy v f (table 7) 8) = Some ([6; 2; 2; 1; 6; 0; 99; 99], LDone FR_OK) /\
      shown_map (create_linkmap 400 floppy v f (table 5) 8) = Some ([6; 2; 2; 99; 99; 99; 99; 99], LNotEnough)
  | _ => False
  end.
Proof. exact both_maps. Qed.

(* C117.  With a link map, f_lseek moves the position, but not beyond the end of the file,
   and f_read returns the bytes of the file; as without, nothing else changes. *)
Theorem C117_seek g v cs fs ds k f d tab size ofs : geo_ok g -> data_ok g -> open_files g v cs fs ds -> nth_error fs k = Some f -> nth_error ds k = Some d ->
  linkmap tab size (nth k cs []) -> 0 <= ofs ->
  exists v' f', fast_seek g v f tab size ofs = Ok (v', f', FR_OK) /\ open_files g v' cs (edit fs k f') (edit ds k (at_pos d (Z.min ofs (len d)))) /\
    (forall s o, outside g s -> ~ ours g (concat (skipn (length fs) cs)) s -> 0 <= o < ss g -> view v' s o = view v s o).
Proof. exact (files_seek g v cs fs ds k f d tab size ofs). Qed.
Print Assumptions C117_seek.
Theorem C117_read g v cs fs ds k f d tab size rb bl n fuel : geo_ok g -> data_ok g -> open_files g v cs fs ds -> nth_error fs k = Some f -> nth_error ds k = Some d ->
  linkmap tab size (nth k cs []) -> fread f = true -> 0 <= n -> n <= bl -> n < Z.of_nat fuel ->
  let m := Z.min n (len d - pos d) in
  exists v' f' rb', fast_read fuel tab size g v f rb bl n = Ok (v', f', rb', m, FR_OK) /\
    (forall j b, 0 <= j < m -> data d (pos d + j) = Some b -> rb' j = b) /\ (forall j, ~ 0 <= j < m -> rb' j = rb j) /\
    open_files g v' cs (edit fs k f') (edit ds k (at_pos d (pos d + m))) /\ (forall c, 0 <= c < n_fatent g -> entry g v' c = entry g v c) /\
    (forall s o, outside g s -> ~ ours g (concat (skipn (length fs) cs)) s -> 0 <= o < ss g -> view v' s o = view v s o).
Proof. exact (files_read g v cs fs ds k f d tab size rb bl n fuel). Qed.
Print Assumptions C117_read.
Example C117_example : linkmap lm 6 [2; 3; 6] /\
  match begun with
  | Ok (v, fs, _) =>
      match fast_seek floppy v (nth 0 fs (opened 0 0 77 true true)) lm 6 1020 with
      | Ok (v, f, r) =>
          r = FR_OK /\ fptr f = 1020 /\ clust f = 3 /\
          match fast_read 100 lm 6 floppy v f buffer 8 8 with
          | Ok (v, f, rb, n, r) => n = 8 /\ r = FR_OK /\ fptr f = 1028 /\ clust f = 6 /\ row rb 8 = map (fun k => ramp (1020 - 600 + k)) [0; 1; 2; 3; 4; 5; 6; 7]
          | _ => False
          end /\
          match f_forward [Accept 3; Accept 100; Busy] floppy v f 50 with
          | Ok (v, f, w, r) => r = FR_OK /\ w = map (fun k => ramp (1020 - 600 + k)) [0; 1; 2; 3] /\ fptr f = 1024
          | _ => False
          end /\
          match f_forward [Accept 2; Accept 0] floppy v f 50 with
          | Ok (v, f, w, r) => r = FR_INT_ERR /\ w = map (fun k => ramp (1020 - 600 + k)) [0; 1] /\ fptr f = 1022
          | _ => False
          end
      | _ => False
      end
  | _ => False
  end.
Proof. exact both_seeks. Qed.

(* C118.  f_forward hands the bytes of the file to the stream in order, none twice and none
   left out, until the stream is busy or all have been taken; the position moves by as many
   bytes as were taken.  If the stream takes none although it was not busy, the call fails. *)
Theorem C118_forward g v cs fs ds k f d btf ts : geo_ok g -> data_ok g -> open_files g v cs fs ds -> nth_error fs k = Some f -> nth_error ds k = Some d -> fread f = true -> 0 <= btf ->
  let t := taken (ss g) ts (pos d) (Z.min btf (len d - pos d)) in
  exists v' f' w, f_forward ts g v f btf = Ok (v', f', w, if snd t then FR_OK else FR_INT_ERR) /\ Z.of_nat (length w) = fst t /\
    (forall j b, 0 <= j < fst t -> data d (pos d + j) = Some b -> nth (Z.to_nat j) w 0 = b) /\
    (forall c, 0 <= c < n_fatent g -> entry g v' c = entry g v c) /\
    (forall s o, outside g s -> ~ ours g (concat (skipn (length fs) cs)) s -> 0 <= o < ss g -> view v' s o = view v s o) /\
    (if snd t then open_files g v' cs (edit fs k f') (edit ds k (at_pos d (pos d + fst t))) else ferr f' = FR_INT_ERR /\ cached g v' (nth k cs []) f' d).
Proof. exact (files_forward g v cs fs ds k f d btf ts). Qed.
Print Assumptions C118_forward.
