(* Properties C113 to C115. *)
From Verif Require Import Base FatModel FatSpec FatExample FileModel FileSpec FileExample ExpandModel ExpandSpec ExpandProof2 ExpandExample.
Open Scope Z_scope.

(* C113.  f_expand gives an empty file a block of consecutive free clusters and touches no
   other entry; only looking for one moves the place of the next search; a refusal changes
   nothing and has a reason.  In the remaining case, the block found goes over the end of
   the volume. *)
Theorem C113_expand g v cs fs ds k f d fsz opt fuel : geo_ok g -> data_ok g -> open_files g v cs fs ds ->
  nth_error fs k = Some f -> nth_error ds k = Some d -> (len d = 0 -> nth k cs [] = []) -> 0 <= fsz -> n_fatent g <= Z.of_nat fuel ->
  let n := needed g fsz in
  exists v' f' r, f_expand fuel g v f fsz opt = Ok (v', f', r) /\ same_outside g v v' /\
   (r = FR_OK /\ opt = true /\
      (exists s, free_block g (entry g v) s n /\ open_files g v' (edit cs k (block s n)) (edit fs k f') (edit ds k (mkI (fun _ => None) fsz 0)) /\
                 (forall c, 2 <= c < n_fatent g -> ~ s <= c < s + n -> entry g v' c = entry g v c)) \/
    r = FR_OK /\ opt = false /\ f' = f /\ open_files g v' cs fs ds /\ (forall c, 0 <= c < n_fatent g -> entry g v' c = entry g v c) /\
      (free_block g (entry g v) (last_clst v' + 1) n \/ split_block g (entry g v) (last_clst v' + 1) n) \/
    r = FR_DENIED /\ f' = f /\ open_files g v' cs fs ds /\ (forall c, 0 <= c < n_fatent g -> entry g v' c = entry g v c) /\
      (fsz = 0 \/ len d <> 0 \/ fwrite f = false \/ 4294967296 <= fsz \/ forall s, free_block g (entry g v) s n -> s < hint g v < s + n) \/
    r = FR_INT_ERR /\ opt = true /\ f' = f /\
      (exists s, split_block g (entry g v) s n /\ (forall c, 0 <= c < n_fatent g -> entry g v' c = if s <=? c then c + 1 else entry g v c))).
Proof. exact (expand_ok g v cs fs ds k f d fsz opt fuel). Qed.
Print Assumptions C113_expand.
Example C113_example :
  open_files floppy hinted [[]; []] two [empty; empty] /\
  match f_expand 400 floppy hinted first 5000 true with
  | Ok (v', f', r) => r = FR_OK /\ objsize f' = 5000 /\ sclust f' = 200 /\ map (entry floppy v') [199; 200; 208; 209; 210] = [0; 201; 209; 4095; 0] /\ free_clst v' = 388 /\ last_clst v' = 209
  | _ => False
  end /\
  match f_expand 400 floppy hinted first 5000 false with
  | Ok (v', f', r) => r = FR_OK /\ f' = first /\ last_clst v' = 199 /\ free_clst v' = 398
  | _ => False
  end.
Proof. exact (conj hinted_ok expand_example). Qed.

(* C114.  A block which is free need not be found: on an empty volume of 398 clusters, 300
   are not given to a file; the volume is damaged instead. *)
Theorem C114_split_refuted :
  open_files floppy hinted [[]; []] two [empty; empty] /\ free_block floppy (entry floppy hinted) 2 (needed floppy (300 * 512)) /\
  exists v', f_expand 400 floppy hinted first (300 * 512) true = Ok (v', first, FR_INT_ERR) /\
    (forall c, 200 <= c < 400 -> entry floppy v' c = c + 1) /\ free_clst v' = 398 /\ ~ owns floppy v' [[]; []].
Proof. exact (conj hinted_ok (conj split_free split_wrong)). Qed.
Print Assumptions C114_split_refuted.

(* C115.  FR_DENIED although 300 consecutive clusters are free. *)
Theorem C115_straddle_refuted :
  open_files floppy worn [[]; []] two [empty; empty] /\ free_block floppy (entry floppy worn) 2 (needed floppy (300 * 512)) /\
  match f_expand 400 floppy worn first (300 * 512) true with Ok (_, f', r) => f' = first /\ r = FR_DENIED | _ => False end.
Proof. exact worn_wrong. Qed.
Print Assumptions C115_straddle_refuted.
