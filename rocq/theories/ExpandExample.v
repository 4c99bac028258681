(* f_expand on a small volume. *)
From Coq Require Import ZifyClasses ZifyInst ZifyBool.
From Verif Require Import Base FatModel FatSpec FatExample FatProof FatProof2 FatProof3 FatProof4 FatProof5 FatProof6 FileModel FileSpec FileProof8 FileExample
  ExpandModel ExpandSpec ExpandProof ExpandProof2.
Open Scope Z_scope.
Ltac Zify.zify_post_hook ::= idtac.

Definition first : fil := opened 0 0 77 true true.

(* The blank volume, cluster 200 having been given out last. *)
Definition hinted : vol := set_info blank 398 200 0.
Lemma hinted_ok : open_files floppy hinted [[]; []] two [empty; empty].
Proof.
  apply (quiet_files floppy blank); [exact floppy_ok|exact floppy_data|exact two_ok| |reflexivity|cbn; lia].
  unfold hinted. apply es_info. apply es_refl. exact blank_ok.
Qed.
Lemma hinted_entry c : entry floppy hinted c = 0.
Proof. exact (blank_entry c). Qed.

Definition sees (v : vol) (c x : Z) : bool := entry floppy v c =? x.
Definition upto (a b : Z) : list Z := map (fun i => a + Z.of_nat i) (seq 0 (Z.to_nat (b - a))).
Lemma upto_in a b c : a <= c < b -> In c (upto a b).
Proof. intros H. apply in_map_iff. exists (Z.to_nat (c - a)). split; [lia|]. apply in_seq. lia. Qed.

(* 300 free clusters exist from cluster 2 on, but the search starts at cluster 200. *)
Lemma split_wrong : exists v', f_expand 400 floppy hinted first (300 * 512) true = Ok (v', first, FR_INT_ERR) /\
  (forall c, 200 <= c < 400 -> entry floppy v' c = c + 1) /\ free_clst v' = 398 /\ ~ owns floppy v' [[]; []].
Proof.
  pose (p := f_expand 400 floppy hinted first (300 * 512) true).
  assert (X : match p with Ok (v', f', r) => f' = first /\ r = FR_INT_ERR /\ forallb (fun c => sees v' c (c + 1)) (upto 200 400) = true /\ free_clst v' = 398 | _ => False end).
  { vm_compute. auto. }
  unfold p in X. destruct (f_expand 400 floppy hinted first (300 * 512) true) as [[[v' f'] r]| |]; try contradiction.
  destruct X as (-> & -> & X1 & X2). exists v'. split; [auto|].
  assert (Y : forall c, 200 <= c < 400 -> entry floppy v' c = c + 1).
  { intros c Hc. rewrite forallb_forall in X1. specialize (X1 c (upto_in _ _ _ Hc)). unfold sees in X1. lia. }
  split; [auto|]. split; [auto|]. intros [_ _ _ R _ _]. specialize (R 250 ltac:(cbn; lia) ltac:(cbn; tauto)). rewrite Y in R by lia. cbn in R. lia.
Qed.
Lemma split_free : free_block floppy (entry floppy hinted) 2 (needed floppy (300 * 512)).
Proof. split; [lia|]. split; [vm_compute; discriminate|]. intros c _. apply hinted_entry. Qed.

(* The last cluster is bad. *)
Definition worn : vol := match put_fat floppy (set_info blank ERR 200 0) 399 4087 with Ok (v, _) => v | _ => blank end.
Lemma worn_step : estep floppy blank worn (upd (entry floppy blank) 399 4087) /\ same_info (set_info blank ERR 200 0) worn.
Proof.
  assert (V : vol_ok floppy (set_info blank ERR 200 0)) by (apply (es_ok floppy blank _ (entry floppy blank)); apply es_info; apply es_refl; exact blank_ok).
  destruct (put_entry floppy (set_info blank ERR 200 0) 399 4087 floppy_ok V ltac:(cbn; lia) ltac:(lia)) as (v' & E & S1 & S2).
  unfold worn. rewrite E. split; [|exact S2].
  eapply es_trans; [|exact S1]. apply es_info. apply es_refl. exact blank_ok.
Qed.
Lemma worn_ok : open_files floppy worn [[]; []] two [empty; empty].
Proof.
  destruct worn_step as (S1 & S2 & S3 & S4).
  change [[]; []] with (edit [[]; @nil Z] 0 []). change two with (edit two 0 first). change [empty; empty] with (edit [empty; empty] 0 empty).
  apply (replace_file floppy blank worn [[]; []] two [empty; empty] 0); [exact floppy_ok|exact floppy_data|exact two_ok|cbn; lia| |apply S1|apply S1|].
  - constructor.
    + apply S1.
    + constructor; [exact I|]. constructor; [exact I|constructor].
    + constructor.
    + intros c Hc _. rewrite (es_ent _ _ _ _ S1) by (cbn in *; lia). unfold upd. destruct (c =? 399); [right; cbn; lia|left; apply blank_entry].
    + right. rewrite S2. reflexivity.
    + rewrite S3. cbn. lia.
  - apply (opened_ok floppy worn [] 0 77 true true); [exact floppy_ok|exact floppy_data|apply S1|lia|cbn; lia|exact I].
Qed.
Lemma worn_free : free_block floppy (entry floppy worn) 2 (needed floppy (300 * 512)).
Proof.
  split; [lia|]. split; [vm_compute; discriminate|]. intros c Hc. destruct worn_step as (S1 & _).
  replace (needed floppy (300 * 512)) with 300 in Hc by (vm_compute; auto).
  rewrite (es_ent _ _ _ _ S1) by (cbn; lia). unfold upd. destruct (Z.eqb_spec c 399); [lia|]. apply blank_entry.
Qed.
Lemma worn_denied : match f_expand 400 floppy worn first (300 * 512) true with Ok (_, f', r) => f' = first /\ r = FR_DENIED | _ => False end.
Proof. vm_compute. auto. Qed.

Lemma worn_wrong : open_files floppy worn [[]; []] two [empty; empty] /\ free_block floppy (entry floppy worn) 2 (needed floppy (300 * 512)) /\
  match f_expand 400 floppy worn first (300 * 512) true with Ok (_, f', r) => f' = first /\ r = FR_DENIED | _ => False end.
Proof. split; [exact worn_ok|]. split; [exact worn_free|]. exact worn_denied. Qed.

Lemma expand_example :
  match f_expand 400 floppy hinted first 5000 true with
  | Ok (v', f', r) => r = FR_OK /\ objsize f' = 5000 /\ sclust f' = 200 /\ map (entry floppy v') [199; 200; 208; 209; 210] = [0; 201; 209; 4095; 0] /\ free_clst v' = 388 /\ last_clst v' = 209
  | _ => False
  end /\
  match f_expand 400 floppy hinted first 5000 false with
  | Ok (v', f', r) => r = FR_OK /\ f' = first /\ last_clst v' = 199 /\ free_clst v' = 398
  | _ => False
  end.
Proof. vm_compute. repeat split. Qed.
