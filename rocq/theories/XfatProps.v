(* Properties C139 to C141. *)
From Verif Require Import Base FatModel FatSpec XfatModel XfatSpec XfatProof3 XfatExample.
Open Scope Z_scope.

(* C139.  The allocation bitmap of exFAT.  The search for one cluster finds the first free
   one from the start on, going round at the end, and 0 only if none is free.  The search
   for a block finds the first one, in the same order, that begins at the start or behind
   it and ends before it.  Neither changes anything.  Marking sets or clears exactly the
   bits asked for, or stops at the first that has the value already. *)
Theorem C139_one g bb v c fuel : xgeo_ok g bb -> xvol_ok g v -> 0 <= c < 4294967296 -> clusts g <= Z.of_nat fuel ->
  exists v' r, find_bitmap fuel g bb v c 1 = Ok (v', r) /\ unchanged g bb v v' /\
    ((2 <= r < n_fatent g /\ used g bb v r = false /\
      exists d, 0 <= d < clusts g /\ r = ring g (origin g c) d /\ forall d', 0 <= d' < d -> used g bb v (ring g (origin g c) d') = true) \/
     (r = 0 /\ forall x, 2 <= x < n_fatent g -> used g bb v x = true)).
Proof. exact (fun G => search_one g bb G v c fuel). Qed.
Print Assumptions C139_one.
Theorem C139_block g bb v c n fuel : xgeo_ok g bb -> xvol_ok g v -> 0 <= c < 4294967296 -> 0 < n < 4294967296 -> clusts g <= Z.of_nat fuel ->
  exists v' r, find_bitmap fuel g bb v c n = Ok (v', r) /\ unchanged g bb v v' /\
    ((exists d, 0 <= d /\ d + n <= clusts g /\ r = ring g (origin g c) d /\ free_run g bb v (origin g c) d n /\
                forall d', 0 <= d' < d -> ~ free_run g bb v (origin g c) d' n) \/
     (r = 0 /\ forall d, 0 <= d -> d + n <= clusts g -> ~ free_run g bb v (origin g c) d n)).
Proof. exact (fun G => search_ok g bb G v c n fuel). Qed.
Print Assumptions C139_block.
Theorem C139_mark g bb v c n x fuel : xgeo_ok g bb -> xvol_ok g v -> 2 <= c -> 0 < n -> c + n <= bits g + 2 -> n < 4294967296 -> c < 4294967296 -> n <= Z.of_nat fuel ->
  exists v' m r, change_bitmap fuel g bb v c n x = Ok (v', r) /\ marked g bb v v' c (c + m) x /\ same_info v v' /\
    (forall d, c <= d < c + m -> used g bb v d = negb x) /\
    ((m = n /\ r = FR_OK) \/ (0 <= m < n /\ r = FR_INT_ERR /\ used g bb v (c + m) = x)).
Proof. exact (fun G => change_marks g bb G v c n x fuel). Qed.
Print Assumptions C139_mark.
Example C139_example :
  xgeo_ok stick 2 /\
  (xvol_ok stick gaps /\ found_at (find_bitmap 16 stick 2 gaps 10 1) = Some 16 /\ found_at (find_bitmap 16 stick 2 gaps 4 1) = Some 6 /\
   found_at (find_bitmap 16 stick 2 gaps 4 3) = Some 6 /\ found_at (find_bitmap 16 stick 2 gaps 1 5) = Some 0 /\
   found_at (find_bitmap 16 stick 2 (mapped 255 255 9) 7 1) = Some 0) /\
  (marks (change_bitmap 16 stick 2 gaps 6 4 true) = Some (map (fun c => ((4 <=? c) && (c <? 16))%nat) (seq 2 18), FR_OK) /\
   marks (change_bitmap 16 stick 2 gaps 8 4 true) =
     Some (map (fun c => (((4 <=? c) && (c <? 6)) || ((8 <=? c) && (c <? 16)))%nat) (seq 2 18), FR_INT_ERR)).
Proof. exact (conj stick_ok (conj find_gaps mark_gaps)). Qed.

(* C140.  f_expand on exFAT.  If the first or the last cluster of the volume is in use and
   the size asked for is not above that of the volume, the file gets clusters which exist,
   which were free, which are in use afterwards, and no others; or nothing happens. *)
Theorem C140_expand g bb v o fsz fuel : xgeo_ok g bb -> xvol_ok g v -> (exists k, 0 <= k /\ csize g = 2 ^ k) -> 0 <= last_clst v < 4294967296 ->
  0 < fsz -> fsz <= cbytes g * clusts g -> clusts g <= Z.of_nat fuel ->
  used g bb v 2 = true \/ used g bb v (n_fatent g - 1) = true ->
  exists v' o' r, xexpand fuel g bb v o fsz true = Ok (v', o', r) /\
    ((r = FR_DENIED /\ o' = o /\ unchanged g bb v v') \/
     (r = FR_OK /\ stat o' = 2 /\ objsize o' = fsz /\ 2 <= sclust o' /\ sclust o' + clusters_of g fsz <= n_fatent g /\
      (forall c, sclust o' <= c < sclust o' + clusters_of g fsz -> used g bb v c = false) /\
      marked g bb v v' (sclust o') (sclust o' + clusters_of g fsz) true)).
Proof. exact (fun G => expand_ok g bb G v o fsz fuel). Qed.
Print Assumptions C140_expand.
Example C140_example :
  xvol_ok stick plenty /\ used stick 2 plenty 2 = true /\
  grown (xexpand 16 stick 2 plenty fresh 1500 true) = Some (4, 1500, FR_OK) /\
  grown (xexpand 16 stick 2 plenty fresh 2000 true) = Some (8, 2000, FR_OK) /\
  grown (xexpand 16 stick 2 plenty fresh 8000 true) = Some (0, 0, FR_DENIED).
Proof. exact expand_plenty. Qed.
(* Without these conditions: the clusters need not exist; *)
Theorem C140_inside_refuted :
  ~ (forall g bb v o fsz fuel v' o', xgeo_ok g bb -> (exists k, 0 <= k /\ csize g = 2 ^ k) -> xvol_ok g v ->
       0 < fsz <= cbytes g * clusts g -> xexpand fuel g bb v o fsz true = Ok (v', o', FR_OK) ->
       sclust o' + clusters_of g fsz <= n_fatent g).
Proof. exact over_the_end. Qed.
Print Assumptions C140_inside_refuted.
(* a block around the cluster where the search starts is not found; *)
Theorem C140_complete_refuted :
  ~ (forall g bb v o fsz fuel v' o', xgeo_ok g bb -> (exists k, 0 <= k /\ csize g = 2 ^ k) -> xvol_ok g v ->
       0 < fsz <= cbytes g * clusts g -> xexpand fuel g bb v o fsz true = Ok (v', o', FR_DENIED) ->
       forall c, 2 <= c -> c + clusters_of g fsz <= n_fatent g -> exists d, c <= d < c + clusters_of g fsz /\ used g bb v d = true).
Proof. exact not_seen. Qed.
Print Assumptions C140_complete_refuted.
(* and a file may become larger than the volume. *)
Theorem C140_size_refuted :
  ~ (forall g bb v o fsz fuel v' o', xgeo_ok g bb -> (exists k, 0 <= k /\ csize g = 2 ^ k) -> xvol_ok g v ->
       used g bb v 2 = true -> 0 < fsz < 18446744073709551616 -> xexpand fuel g bb v o fsz true = Ok (v', o', FR_OK) ->
       objsize o' <= cbytes g * clusts g).
Proof. exact too_large. Qed.
Print Assumptions C140_size_refuted.

(* C141.  f_statfs on exFAT counts exactly the clusters whose bit is clear, and changes
   nothing. *)
Theorem C141_count g bb v fuel : xgeo_ok g bb -> xvol_ok g v -> clusts g <= Z.of_nat fuel ->
  exists v', count_bitmap fuel g bb v = Ok (v', FR_OK, xfree g bb v) /\ unchanged g bb v v'.
Proof. exact (fun G => count_ok g bb G v fuel). Qed.
Print Assumptions C141_count.
Example C141_example : counted (count_bitmap 16 stick 2 gaps) = Some 8 /\ counted (count_bitmap 16 stick 2 plenty) = Some 13.
Proof. exact count_gaps. Qed.
