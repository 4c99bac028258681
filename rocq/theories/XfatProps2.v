(* Property C142. *)
From Verif Require Import Base FatModel FatSpec XfatModel XfatSpec XfatRun XfatProof8 XfatExample XfatExample2.
Open Scope Z_scope.

(* C142.  Files on exFAT: contiguous without a chain, fragmented while being written, or
   with a chain on the FAT.  Whatever sequence of operations happens to them, each file has
   the clusters it got, in this order, no cluster belongs to two files or to a file and
   somebody else, exactly these are in use, the count of free clusters is right, and
   nothing else on the disk changes. *)
Theorem C142_step g bb fuel v fs ls R op : xgeo_ok g bb -> n_fatent g < EOC -> xdisk g bb v fs ls R -> legal fs ls op -> 2 * clusts g <= Z.of_nat fuel ->
  exists v' fs' r, do_xop fuel g bb v fs op = Ok (v', fs', r) /\ result_ok g R ls op r /\ xdisk g bb v' fs' (next ls op r) R /\ apart g bb R v v'.
Proof. exact (fun G S => step_ok g bb G S fuel v fs ls R op). Qed.
Print Assumptions C142_step.
Theorem C142_history g bb fuel R ops v fs ls : xgeo_ok g bb -> n_fatent g < EOC -> 2 * clusts g <= Z.of_nat fuel -> xdisk g bb v fs ls R ->
  all_legal fuel g bb v fs ls ops ->
  exists v' fs' ls', xrun fuel g bb v fs ls ops = Ok (v', fs', ls') /\ xdisk g bb v' fs' ls' R /\ apart g bb R v v'.
Proof. exact (fun G S F => run_ok g bb G S fuel R F ops v fs ls). Qed.
Print Assumptions C142_history.
Example C142_example :
  xdisk stick 2 begin two [[]; []] [2] /\ all_legal 32 stick 2 begin two [[]; []] story /\
  lists (xrun 32 stick 2 begin two [[]; []] (firstn 6 story)) = Some [[3; 4; 6; 7]; [5; 8]] /\
  lists (xrun 32 stick 2 begin two [[]; []] story) = Some [[3; 4; 6; 7]; [8]].
Proof. exact story_ok. Qed.
(* On a volume of the largest number of clusters the last one is never freed. *)
Theorem C142_largest_refuted :
  ~ (forall g bb v f l fuel v' f', xgeo_ok g bb -> xvol_ok g v -> xfile_ok g bb v f l -> l <> [] -> n_frag (obj f) = 0 ->
       empty fuel g bb v f = Ok (v', f', FR_OK) -> forall c, In c l -> used g bb v' c = false).
Proof. exact never_free. Qed.
Print Assumptions C142_largest_refuted.
