(* Properties C53. *)
From Verif Require Import Base FatModel FatSpec FatExample FileModel FileSpec FileProof8 FileExample.
Open Scope Z_scope.

(* C53.  Any history of calls on open files answers like ideal byte arrays with a position
   do: nothing is lost or mixed up between files, fewer bytes are written only when no
   cluster is free, and everything which belongs to no open file (FATs apart) stays. *)
Theorem C53_history g fuel xs v cs fs ds : geo_ok g -> data_ok g -> open_files g v cs fs ds ->
  Forall (fun kx => (fst kx < length fs)%nat /\ sane (snd kx) /\ enough fuel (snd kx)) xs ->
  exists v' cs' fs' ds' out, do_calls fuel g v fs xs = Ok (v', fs', out) /\ open_files g v' cs' fs' ds' /\ ideal g (modes fs) ds xs out ds' /\
    length cs' = length cs /\ length fs' = length fs /\ modes fs' = modes fs /\ skipn (length fs) cs' = skipn (length fs) cs /\
    (forall s o, outside g s -> ~ ours g (concat (skipn (length fs) cs)) s -> 0 <= o < ss g -> view v' s o = view v s o).
Proof. exact (calls_ok g fuel xs v cs fs ds). Qed.
Print Assumptions C53_history.

(* C53.  A file just opened has the content which is on the disk. *)
Theorem C53_opened g v l n c r w : geo_ok g -> data_ok g -> vol_ok g v -> 0 <= n < 4294967296 -> n <= Z.of_nat (length l) * bcs g ->
  chain g (entry g v) l -> file_ok g v l (opened (hd 0 l) n c r w) (on_disk g v l n).
Proof. exact (opened_ok g v l n c r w). Qed.
Print Assumptions C53_opened.

Example C53_example :
  (geo_ok floppy /\ data_ok floppy /\ open_files floppy blank [[]; []] two [empty; empty]) /\
  match do_calls 3000 floppy blank two turns with
  | Ok (v, fs, out) =>
      map (fun av => shown (fst av)) out =
        [[500]; [600]; [600]; [0]; [5; 247; 248; 0; 1; 2]; [0]; [3]; [0]; [8; 238; 245; 0; 1; 2; 17; 24; 31]; [0]; [0]; [4];
         [0]; [7; 25; 26; 27; 3; 10; 17; 24]; [83; 38; 45; 52; 59; 66; 73; 80; 87]; [0]; [0]; [0]; [0]] /\
      map sclust fs = [2; 0]
  | _ => False
  end.
Proof.
  split; [split; [exact floppy_ok|split; [exact floppy_data|exact two_ok]]|]. vm_compute. split; reflexivity.
Qed.
Print Assumptions C53_example.
