(* Files as byte arrays with a position. *)
From Verif Require Import Base FatModel FatSpec FileModel.
Open Scope Z_scope.

(* The data area: clusters are a power of two sectors, lie behind the FATs and on the
   drive. *)
Record data_ok (g : geo) : Prop := {
  ok_csize : csize g = 1 \/ csize g = 2 \/ csize g = 4 \/ csize g = 8 \/ csize g = 16 \/ csize g = 32 \/ csize g = 64 \/ csize g = 128;
  ok_behind : fatbase g + n_fats g * fsize g <= database g;
  ok_data : database g + csize g * (n_fatent g - 2) <= dsize g }.

Definition bcs (g : geo) : Z := csize g * ss g.
(* Sector s belongs to cluster c. *)
Definition in_cluster (g : geo) (c s : Z) : Prop := database g + csize g * (c - 2) <= s < database g + csize g * (c - 1).
(* Where byte p of a file with the clusters l is stored. *)
Definition sector_of (g : geo) (l : list Z) (p : Z) : Z :=
  database g + csize g * (nth (Z.to_nat (p / bcs g)) l 0 - 2) + (p / ss g) mod csize g.

(* A file: its bytes, as far as they have been written; its length; the position. *)
Record ifile := mkI { data : Z -> option Z; len : Z; pos : Z }.

(* Sectors of the data area which are not part of the clusters D (of directories and of
   files that are not open). *)
Definition ours (g : geo) (D : list Z) (s : Z) : Prop := exists c, 2 <= c < n_fatent g /\ in_cluster g c s /\ ~ In c D.
Definition apart (g : geo) (D : list Z) (v : vol) : Prop := ~ ours g D (winsect v).

(* The open file f has the clusters l and the content d: what is in the file's buffer
   counts, if it has been changed. *)
Record cached (g : geo) (v : vol) (l : list Z) (f : fil) (d : ifile) : Prop := {
  ca_byte : forall o, vbyte (fbuf f o);
  ca_sect : 0 <= fsect f < 4294967296;
  ca_own : fdirty f = true -> exists c, In c l /\ in_cluster g c (fsect f);
  ca_len : forall p b, data d p = Some b -> 0 <= p < len d;
  ca_disk : forall p b, data d p = Some b -> fdirty f = false \/ fsect f <> sector_of g l p -> disk v (sector_of g l p) (p mod ss g) = b;
  ca_buf : forall p b, data d p = Some b -> fsect f = sector_of g l p -> fbuf f (p mod ss g) = b }.

Record file_ok (g : geo) (v : vol) (l : list Z) (f : fil) (d : ifile) : Prop := {
  fo_cache : cached g v l f d;
  fo_pos : fptr f = pos d;
  fo_len : objsize f = len d;
  fo_range : 0 <= pos d <= len d /\ len d < 4294967296;
  fo_room : len d <= Z.of_nat (length l) * bcs g;
  fo_start : sclust f = hd 0 l;
  fo_clust : 0 < pos d -> clust f = nth (Z.to_nat ((pos d - 1) / bcs g)) l 0;
  fo_sect : pos d mod ss g <> 0 -> fsect f = sector_of g l (pos d);
  fo_err : ferr f = FR_OK }.

(* --- what the calls mean ------------------------------------------------------- *)

Definition overwritten (d : Z -> option Z) (p n : Z) (w : Z -> Z) (x : Z) : option Z :=
  if (p <=? x) && (x <? p + n) then Some (w (x - p)) else d x.
Definition written (d : ifile) (n : Z) (w : Z -> Z) : ifile :=
  mkI (overwritten (data d) (pos d) n w) (Z.max (len d) (pos d + n)) (pos d + n).
Definition at_pos (d : ifile) (p : Z) : ifile := mkI (data d) (len d) p.
Definition extended (d : ifile) (p : Z) : ifile := mkI (data d) (Z.max (len d) p) p.
Definition cut_off (d : ifile) : ifile := mkI (fun x => if x <? pos d then data d x else None) (pos d) (pos d).
Definition same_file (a b : ifile) : Prop := (forall p, data a p = data b p) /\ len a = len b /\ pos a = pos b.

(* --- several open files ---------------------------------------------------------- *)

(* File k has the k-th chain; further chains belong to directories and closed files. *)
Inductive call := Read (n : Z) | Write (w : Z -> Z) (n : Z) | Seek (p : Z) | Truncate.
Inductive answer := Got (rb : Z -> Z) (n : Z) (r : frc) | Put_ (n : Z) (r : frc) | Done (r : frc).

Definition buffer : Z -> Z := fun _ => 0.
Definition do_call (fuel : nat) (g : geo) (v : vol) (f : fil) (x : call) : res (vol * fil * answer) :=
  match x with
  | Read n => '(v, f, rb, k, r) <- f_read fuel g v f buffer n n ;; Ok (v, f, Got rb k r)
  | Write w n => '(v, f, k, r) <- f_write fuel g v f w n n ;; Ok (v, f, Put_ k r)
  | Seek p => '(v, f, r) <- f_lseek fuel g v f p ;; Ok (v, f, Done r)
  | Truncate => '(v, f, r) <- f_truncate g v f ;; Ok (v, f, Done r)
  end.

Definition sane (x : call) : Prop :=
  match x with
  | Read n => 0 <= n < 4294967296
  | Write w n => 0 <= n < 4294967296 /\ forall k, vbyte (w k)
  | Seek p => 0 <= p < 18446744073709551616
  | Truncate => True
  end.

(* What a call on an ideal file may answer and leave; [full] says that the disk is full.
   Bytes never written may read as anything. *)
Inductive means_call (full : Prop) (rd wr : bool) (d : ifile) : call -> answer -> ifile -> Prop :=
| mc_read n rb : rd = true ->
    let k := Z.min n (len d - pos d) in
    (forall j b, 0 <= j < k -> data d (pos d + j) = Some b -> rb j = b) ->
    (forall j, ~ (0 <= j < k) -> rb j = buffer j) ->
    means_call full rd wr d (Read n) (Got rb k FR_OK) (at_pos d (pos d + k))
| mc_write w n k : wr = true -> 0 <= k <= Z.min n (4294967295 - pos d) -> k = Z.min n (4294967295 - pos d) \/ full ->
    means_call full rd wr d (Write w n) (Put_ k FR_OK) (written d k w)
| mc_seek p q : wr = true -> q = Z.min p 4294967295 \/ full /\ len d <= q <= Z.min p 4294967295 ->
    means_call full rd wr d (Seek p) (Done FR_OK) (extended d q)
| mc_seek_ro p : wr = false -> means_call full rd wr d (Seek p) (Done FR_OK) (at_pos d (Z.min p (len d)))
| mc_cut : wr = true -> means_call full rd wr d Truncate (Done FR_OK) (cut_off d)
| mc_read_denied n : rd = false -> means_call full rd wr d (Read n) (Got buffer 0 FR_DENIED) d
| mc_write_denied w n : wr = false -> means_call full rd wr d (Write w n) (Put_ 0 FR_DENIED) d
| mc_cut_denied : wr = false -> means_call full rd wr d Truncate (Done FR_DENIED) d.

(* Calls on open files, each with the answer and the volume afterwards. *)
Fixpoint do_calls (fuel : nat) (g : geo) (v : vol) (fs : list fil) (xs : list (nat * call)) : res (vol * list fil * list (answer * vol)) :=
  match xs with
  | [] => Ok (v, fs, [])
  | (k, x) :: xs =>
      match nth_error fs k with
      | None => Ub
      | Some f =>
          '(v, f, a) <- do_call fuel g v f x ;;
          '(v', fs', out) <- do_calls fuel g v (edit fs k f) xs ;;
          Ok (v', fs', (a, v) :: out)
      end
  end.

(* The same calls on ideal files; ms says which files may be read and written. *)
Inductive ideal (g : geo) (ms : list (bool * bool)) : list ifile -> list (nat * call) -> list (answer * vol) -> list ifile -> Prop :=
| id_nil ds : ideal g ms ds [] [] ds
| id_cons ds k x xs a v out d d' m ds' :
    nth_error ds k = Some d -> nth_error ms k = Some m ->
    means_call (none_free g v) (fst m) (snd m) d x a d' ->
    ideal g ms (edit ds k d') xs out ds' ->
    ideal g ms ds ((k, x) :: xs) ((a, v) :: out) ds'.

(* Fuel for the loops: one step per byte is more than enough. *)
Definition enough (fuel : nat) (x : call) : Prop :=
  match x with
  | Read n => n < Z.of_nat fuel
  | Write _ n => n < Z.of_nat fuel
  | Seek p => Z.min p 4294967295 < Z.of_nat fuel
  | Truncate => True
  end.

(* The files fs are open, with contents ds; the remaining chains of cs belong to closed
   files and directories. *)
Record open_files (g : geo) (v : vol) (cs : list (list Z)) (fs : list fil) (ds : list ifile) : Prop := {
  of_len : length fs = length ds;
  of_own : owns g v cs;
  of_le : (length fs <= length cs)%nat;
  of_apart : apart g (concat (skipn (length fs) cs)) v;
  of_file : forall k f d, nth_error fs k = Some f -> nth_error ds k = Some d -> file_ok g v (nth k cs []) f d }.

Definition modes (fs : list fil) : list (bool * bool) := map (fun f => (fread f, fwrite f)) fs.

(* What is on the disk of a file with n bytes and the clusters l. *)
Definition on_disk (g : geo) (v : vol) (l : list Z) (n : Z) : ifile :=
  mkI (fun p => if (0 <=? p) && (p <? n) then Some (disk v (sector_of g l p) (p mod ss g)) else None) n 0.
