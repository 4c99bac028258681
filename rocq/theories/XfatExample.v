(* A small exFAT volume of 16 clusters, with several bitmaps. *)
From Coq Require Import ZArith Lia Bool List ZifyClasses ZifyInst ZifyBool.
From Verif Require Import Base FatModel FatSpec XfatModel XfatSpec.
Import ListNotations.
Open Scope Z_scope.
Ltac Zify.zify_post_hook ::= Z.div_mod_to_equations.

Definition stick : geo := mkGeo 512 1 1 1 18 FAT32 1 4 0 20.
Definition mapped (b0 b1 last : Z) : vol :=
  mkVol (fun s o => if s =? 2 then if o =? 0 then b0 else if o =? 1 then b1 else 0 else 0) (fun o => 0) 4294967295 false 4294967295 last 0.

Lemma stick_ok : xgeo_ok stick 2.
Proof.
  constructor; unfold EOC, clusts; cbn; try lia.
  - constructor; cbn; lia.
  - intros s [A B]. change (nbm stick) with 1 in B. assert (s = 2) as -> by lia. unfold outside, mine, second, in_fat. cbn. lia.
Qed.
Lemma stick_pow : exists k, 0 <= k /\ csize stick = 2 ^ k.
Proof. exists 0. split; [lia|reflexivity]. Qed.
Lemma mapped_ok b0 b1 l : vbyte b0 -> vbyte b1 -> xvol_ok stick (mapped b0 b1 l).
Proof.
  unfold vbyte. intros A B. constructor; cbn; unfold vbyte; intros; try lia; auto.
  destruct (s =? 2); [|lia]. destruct (o =? 0); [lia|]. destruct (o =? 1); lia.
Qed.

Definition fresh : xobj := mkObj 0 0 0 0 0.

(* What the results show. *)
Definition found_at {A} (r : res (A * Z)) : option Z := match r with Ok (_, c) => Some c | _ => None end.
Definition uses (v : vol) : list bool := map (used stick 2 v) (map (fun i => 2 + Z.of_nat i) (seq 0 18)).
Definition marks (r : res (vol * frc)) : option (list bool * frc) := match r with Ok (v, e) => Some (uses v, e) | _ => None end.
Definition grown (r : res (vol * xobj * frc)) : option (Z * Z * frc) :=
  match r with Ok (v, o, e) => Some (sclust o, objsize o, e) | _ => None end.
Definition counted (r : res (vol * frc * Z)) : option Z := match r with Ok (_, FR_OK, n) => Some n | _ => None end.

(* Clusters 2 and 3, 6 to 9, 16 and 17 free; the last one allocated was 10. *)
Definition gaps : vol := mapped 12 63 10.
(* Clusters 8 to 11 free; the last one allocated was 10. *)
Definition straddle : vol := mapped 63 252 10.
(* 2, 3 and 7 used *)
Definition plenty : vol := mapped 35 0 3.

Lemma find_gaps :
  xvol_ok stick gaps /\ found_at (find_bitmap 16 stick 2 gaps 10 1) = Some 16 /\ found_at (find_bitmap 16 stick 2 gaps 4 1) = Some 6 /\
  found_at (find_bitmap 16 stick 2 gaps 4 3) = Some 6 /\ found_at (find_bitmap 16 stick 2 gaps 1 5) = Some 0 /\
  found_at (find_bitmap 16 stick 2 (mapped 255 255 9) 7 1) = Some 0.
Proof. split; [apply mapped_ok; unfold vbyte; lia|]. vm_compute. repeat split. Qed.
Lemma mark_gaps :
  marks (change_bitmap 16 stick 2 gaps 6 4 true) =
    Some (map (fun c => ((4 <=? c) && (c <? 16))%nat) (seq 2 18), FR_OK) /\
  marks (change_bitmap 16 stick 2 gaps 8 4 true) =
    Some (map (fun c => (((4 <=? c) && (c <? 6)) || ((8 <=? c) && (c <? 16)))%nat) (seq 2 18), FR_INT_ERR).
Proof. vm_compute. split; reflexivity. Qed.
Lemma expand_plenty :
  xvol_ok stick plenty /\ used stick 2 plenty 2 = true /\
  grown (xexpand 16 stick 2 plenty fresh 1500 true) = Some (4, 1500, FR_OK) /\
  grown (xexpand 16 stick 2 plenty fresh 2000 true) = Some (8, 2000, FR_OK) /\
  grown (xexpand 16 stick 2 plenty fresh 8000 true) = Some (0, 0, FR_DENIED).
Proof. split; [apply mapped_ok; unfold vbyte; lia|]. vm_compute. repeat split. Qed.
Lemma count_gaps : counted (count_bitmap 16 stick 2 gaps) = Some 8 /\ counted (count_bitmap 16 stick 2 plenty) = Some 13.
Proof. vm_compute. split; reflexivity. Qed.

(* --- witnesses against f_expand --- *)

Lemma over_the_end :
  ~ (forall g bb v o fsz fuel v' o', xgeo_ok g bb -> (exists k, 0 <= k /\ csize g = 2 ^ k) -> xvol_ok g v ->
       0 < fsz <= cbytes g * clusts g -> xexpand fuel g bb v o fsz true = Ok (v', o', FR_OK) ->
       sclust o' + clusters_of g fsz <= n_fatent g).
Proof.
  intros H. destruct (xexpand 16 stick 2 gaps fresh 2048 true) as [[[v' o'] r]| |] eqn:E.
  - assert (grown (Ok (v', o', r)) = Some (16, 2048, FR_OK)) as X by (rewrite <- E; vm_compute; reflexivity).
    cbn in X. injection X as X1 X2 X3. subst r.
    specialize (H stick 2 gaps fresh 2048 16%nat v' o' stick_ok stick_pow ltac:(apply mapped_ok; unfold vbyte; lia) ltac:(vm_compute; split; congruence) E).
    rewrite X1 in H. vm_compute in H. congruence.
  - vm_compute in E. discriminate.
  - vm_compute in E. discriminate.
Qed.

Lemma not_seen :
  ~ (forall g bb v o fsz fuel v' o', xgeo_ok g bb -> (exists k, 0 <= k /\ csize g = 2 ^ k) -> xvol_ok g v ->
       0 < fsz <= cbytes g * clusts g -> xexpand fuel g bb v o fsz true = Ok (v', o', FR_DENIED) ->
       forall c, 2 <= c -> c + clusters_of g fsz <= n_fatent g -> exists d, c <= d < c + clusters_of g fsz /\ used g bb v d = true).
Proof.
  intros H. destruct (xexpand 16 stick 2 straddle fresh 2048 true) as [[[v' o'] r]| |] eqn:E.
  - assert (grown (Ok (v', o', r)) = Some (0, 0, FR_DENIED)) as X by (rewrite <- E; vm_compute; reflexivity).
    cbn in X. injection X as X1 X2 X3. subst r.
    destruct (H stick 2 straddle fresh 2048 16%nat v' o' stick_ok stick_pow ltac:(apply mapped_ok; unfold vbyte; lia) ltac:(vm_compute; split; congruence) E
      8 ltac:(lia) ltac:(vm_compute; congruence)) as (d & D & U).
    change (clusters_of stick 2048) with 4 in D.
    assert (d = 8 \/ d = 9 \/ d = 10 \/ d = 11) as [ -> | [ -> | [ -> | -> ] ] ] by (clear - D; lia); vm_compute in U; discriminate.
  - vm_compute in E. discriminate.
  - vm_compute in E. discriminate.
Qed.

Lemma too_large :
  ~ (forall g bb v o fsz fuel v' o', xgeo_ok g bb -> (exists k, 0 <= k /\ csize g = 2 ^ k) -> xvol_ok g v ->
       used g bb v 2 = true -> 0 < fsz < 18446744073709551616 -> xexpand fuel g bb v o fsz true = Ok (v', o', FR_OK) ->
       objsize o' <= cbytes g * clusts g).
Proof.
  intros H. destruct (xexpand 16 stick 2 plenty fresh 2199023256064 true) as [[[v' o'] r]| |] eqn:E.
  - assert (grown (Ok (v', o', r)) = Some (4, 2199023256064, FR_OK)) as X by (rewrite <- E; vm_compute; reflexivity).
    cbn in X. injection X as X1 X2 X3. subst r.
    specialize (H stick 2 plenty fresh 2199023256064 16%nat v' o' stick_ok stick_pow ltac:(apply mapped_ok; unfold vbyte; lia) eq_refl ltac:(lia) E).
    rewrite X2 in H. vm_compute in H. congruence.
  - vm_compute in E. discriminate.
  - vm_compute in E. discriminate.
Qed.
