(* A history of two files on the small exFAT volume, and a volume of the largest size. *)
From Coq Require Import ZArith Lia Bool List.
From Verif Require Import Base FatModel FatSpec XfatModel XfatSpec XfatRun XfatExample.
Import ListNotations.
Open Scope Z_scope.

Definition legalb (fs : list xfil) (ls : list (list Z)) (op : xop) : bool :=
  match op with
  | XGrow i => (i <? length ls)%nat && ((length (nth i ls []) =? 0)%nat || (clust (nth i fs blank_file) =? last (nth i ls []) 0))
  | XSeek i k => (i <? length ls)%nat && (k <? length (nth i ls []))%nat
  | XSync i | XReopen i => (i <? length ls)%nat
  | XEmpty i => (i <? length ls)%nat && negb (length (nth i ls []) =? 0)%nat
  | XCut i k => (i <? length ls)%nat && (S k <? length (nth i ls []))%nat
  end.
Lemma legalb_ok fs ls op : legalb fs ls op = true -> legal fs ls op.
Proof.
  destruct op; cbn [legalb legal]; rewrite ?andb_true_iff, ?orb_true_iff, ?Nat.ltb_lt, ?Nat.eqb_eq, ?Z.eqb_eq, ?negb_true_iff, ?Nat.eqb_neq.
  - intros [A [B|B]]; split; auto. left. now apply length_zero_iff_nil.
  - auto.
  - auto.
  - auto.
  - intros [A B]. split; auto. intros C. apply B. rewrite C. reflexivity.
  - auto.
Qed.
Fixpoint checked (fuel : nat) (g : geo) (bb : Z) (v : vol) (fs : list xfil) (ls : list (list Z)) (ops : list xop) : bool :=
  match ops with
  | [] => true
  | op :: ops => legalb fs ls op && match do_xop fuel g bb v fs op with Ok (v', fs', r) => checked fuel g bb v' fs' (next ls op r) ops | _ => true end
  end.
Lemma checked_ok fuel g bb ops : forall v fs ls, checked fuel g bb v fs ls ops = true -> all_legal fuel g bb v fs ls ops.
Proof.
  induction ops as [|op ops IH]; intros v fs ls H; cbn [all_legal checked] in *; auto. apply andb_true_iff in H as [A B]. split; [now apply legalb_ok|].
  intros v' fs' r E. rewrite E in B. auto.
Qed.

(* Cluster 2 is that of the bitmap. *)
Definition begin : vol := mapped 1 0 0.
Definition two : list xfil := [blank_file; blank_file].
Definition story : list xop :=
  [XGrow 0; XGrow 0; XGrow 1; XGrow 0; XGrow 0; XGrow 1; XSeek 0 3; XCut 0 2; XSync 0; XReopen 0; XSeek 0 2; XGrow 0; XEmpty 1; XGrow 1].

Lemma begin_ok : xdisk stick 2 begin two [[]; []] [2].
Proof.
  constructor.
  - apply mapped_ok; unfold vbyte; lia.
  - assert (X : xfile_ok stick 2 begin blank_file []) by (constructor; cbn; auto; try constructor; auto; try tauto; try lia). constructor; [exact X|]. constructor; [exact X|constructor].
  - cbn. constructor; [tauto|constructor].
  - repeat constructor; cbn; lia.
  - intros c C. cbn [n_fatent stick] in C.
    assert (c = 2 \/ c = 3 \/ c = 4 \/ c = 5 \/ c = 6 \/ c = 7 \/ c = 8 \/ c = 9 \/ c = 10 \/ c = 11 \/ c = 12 \/ c = 13 \/ c = 14 \/ c = 15 \/ c = 16 \/ c = 17) as H by lia.
    cbn [concat app In]. repeat destruct H as [H|H]; subst c; split; intros Q; try (vm_compute in Q; discriminate); try (destruct Q as [Q|[]]; discriminate); try (left; reflexivity); reflexivity.
  - right. reflexivity.
  - cbn. lia.
Qed.
Definition lists (r : res (vol * list xfil * list (list Z))) : option (list (list Z)) := match r with Ok (_, _, ls) => Some ls | _ => None end.
Lemma story_ok :
  xdisk stick 2 begin two [[]; []] [2] /\ all_legal 32 stick 2 begin two [[]; []] story /\
  lists (xrun 32 stick 2 begin two [[]; []] (firstn 6 story)) = Some [[3; 4; 6; 7]; [5; 8]] /\
  lists (xrun 32 stick 2 begin two [[]; []] story) = Some [[3; 4; 6; 7]; [8]].
Proof. split; [exact begin_ok|]. split; [apply checked_ok|split]; vm_compute; reflexivity. Qed.

(* --- a volume of 2^31 - 3 clusters --- *)

Definition huge : geo := mkGeo 512 1 16777216 1 2147483647 FAT32 1 17301505 0 2200000000.
Definition top : vol :=
  mkVol (fun s o => if (s =? 17301504) && (o =? 511) then 16 else 0) (fun o => 0) 4294967295 false 4294967295 0 0.
Definition one : xfil := mkXfil (mkObj 2147483646 2 0 0 512) 2147483646.
Lemma huge_ok : xgeo_ok huge 16777217.
Proof.
  constructor; unfold EOC, clusts; cbn; try lia.
  - constructor; cbn; lia.
  - intros s [A B]. change (nbm huge) with 524288 in B. unfold outside, mine, second, in_fat. cbn. lia.
Qed.
Lemma top_ok : xvol_ok huge top.
Proof. constructor; cbn; unfold vbyte; intros; try lia; auto. destruct ((s =? 17301504) && (o =? 511)); lia. Qed.
Lemma one_ok : xfile_ok huge 16777217 top one [2147483646].
Proof.
  constructor; cbn; auto; try lia.
  - constructor; [easy|constructor].
  - constructor; [split; [lia|vm_compute; reflexivity]|constructor].
  - intros _. left. cbn. auto.
Qed.
Lemma never_free :
  ~ (forall g bb v f l fuel v' f', xgeo_ok g bb -> xvol_ok g v -> xfile_ok g bb v f l -> l <> [] -> n_frag (obj f) = 0 ->
       empty fuel g bb v f = Ok (v', f', FR_OK) -> forall c, In c l -> used g bb v' c = false).
Proof.
  intros H. destruct (empty 3 huge 16777217 top one) as [[[v' f'] r]| |] eqn:E; [|vm_compute in E; discriminate|vm_compute in E; discriminate].
  assert (X : (used huge 16777217 v' 2147483646, r) = (true, FR_OK)).
  { transitivity (match empty 3 huge 16777217 top one with Ok (v, _, r) => (used huge 16777217 v 2147483646, r) | _ => (false, FR_OK) end); [now rewrite E|vm_compute; reflexivity]. }
  injection X as X1 X2. subst r.
  rewrite (H huge 16777217 top one [2147483646] 3%nat v' f' huge_ok top_ok one_ok ltac:(congruence) eq_refl E 2147483646 (or_introl eq_refl)) in X1. discriminate.
Qed.
