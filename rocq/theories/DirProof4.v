From Coq Require Import Permutation Sorted String.
From Verif Require Import Base Arr ArrLemmas DotwModel ExecModel ExecProof DirModel DirSpec DirProof DirProof2 DirProof3.
Open Scope Z_scope.
Ltac Zify.zify_post_hook ::= Z.div_mod_to_equations.

Lemma set_top_twice o a b : set_top (set_top o a) b = set_top o b. Proof. reflexivity. Qed.
Lemma date_top o b i : date_ok (set_top o b) i <-> date_ok o i. Proof. reflexivity. Qed.
Lemma sorted_top o b l : sorted (set_top o b) l <-> sorted o l. Proof. reflexivity. Qed.

Lemma map_Forall {A} (P Q : A -> Prop) l : (forall x, P x -> Q x) -> Forall P l -> Forall Q l.
Proof. intros H F. rewrite Forall_forall in *. auto. Qed.

(* Every listing succeeds. *)
Lemma show_total o l : Forall item_ok l -> Forall (date_ok o) l -> 0 <= o_termwidth o < 2 ^ 31 -> exists s b, show_files o l = Ok (s, b).
Proof.
  intros F D T. destruct (show_ok o l F D) as (arr & L & Fa & E). rewrite E. destruct arr as [|x arr]; [eauto|].
  set (a := x :: arr) in *. assert (NE : a <> []) by discriminate.
  destruct (o_singlecol o); [cbn [bind]; eauto|]. destruct (o_longform o) eqn:Lf.
  - destruct (maxsize_ok a NE Fa) as (A & i & I & Ei).
    assert (Bi : 0 <= i_nbytes i < 2 ^ 64) by (rewrite Forall_forall in Fa; apply Fa in I as (X & _); lia).
    destruct (size_text (i_nbytes i) Bi) as (s & G & SL & _).
    unfold print_long. rewrite <- Ei, SL. cbn [bind].
    destruct (map_res_ok (long_line o (Z.of_nat (length s))) (long_text o (Z.of_nat (length s))) a) as (ls & El & Fl).
    { intros y Y. apply long_ok; [rewrite Forall_forall in Fa; now apply Fa|]. exists (i_nbytes i), s. split; [|auto]. split; [|lia]. rewrite Ei. now apply A. }
    rewrite El. cbn [bind]. eauto.
  - destruct (columns_ok o a _ (kbytes_of a) NE Fa (maxlen_ok a NE Fa) Lf T) as (out & -> & _). cbn [bind]. eauto.
Qed.

Lemma opened_app a b : opened (a ++ b) = opened a ++ opened b.
Proof. unfold opened. now rewrite flat_map_app. Qed.

Lemma path_ok parent name : parent <> [] -> (length name <= 255)%nat -> dir_path parent name = Ok (parent ++ [47] ++ name).
Proof.
  intros N L. unfold dir_path. destruct parent as [|x p]; [contradiction|]. cbv zeta.
  replace (_ <? _)%nat with false by (cbn [length]; lia). reflexivity.
Qed.
Lemma path_top name : (length name <= 255)%nat -> dir_path [] name = Ok name.
Proof. intros L. unfold dir_path. cbv zeta. replace (_ <? _)%nat with false by (cbn [length]; lia). reflexivity. Qed.

Section Walk.
Variable ent : list Z -> option (list item).
Variable o : options.
Hypothesis fit : names_fit ent.
Hypothesis good : good_ent o ent.
Hypothesis tw : 0 <= o_termwidth o < 2 ^ 31.

Lemma each_ok sd many path : path <> [] ->
  forall l, Forall (fun i => (length (i_name i) <= 255)%nat) l ->
  (forall any i, In i l -> directory i -> exists es any', sd any (path ++ [47] ++ i_name i) = Ok (es, any') /\ below ent o (path ++ [47] ++ i_name i) (opened es)) ->
  forall top any, exists es any', each_dir sd many path top any l = Ok (es, any') /\ belows ent o path l (opened es).
Proof.
  intros NE. induction l as [|i l IH]; intros F H top any; cbn [each_dir].
  - eexists _, _. split; [reflexivity | constructor].
  - inversion F as [|? ? Fi Fl]; subst. rewrite has_dir.
    assert (Hl : forall any i0, In i0 l -> directory i0 -> exists es any', sd any (path ++ [47] ++ i_name i0) = Ok (es, any') /\ below ent o (path ++ [47] ++ i_name i0) (opened es)).
    { intros a j J. apply H. now right. }
    destruct (Z.testbit (i_attrib i) 4) eqn:D.
    + rewrite path_ok by auto. cbn [bind].
      set (h := if any then _ else _). destruct h as (h1, h2).
      destruct (H h2 i (or_introl eq_refl) D) as (es & any' & E & B). rewrite E. cbn [bind].
      destruct (IH Fl Hl false any') as (es2 & any2 & E2 & B2). rewrite E2. cbn [bind].
      eexists _, _. split; [reflexivity|]. change (Say h1 :: es ++ es2) with ([Say h1] ++ es ++ es2). rewrite !opened_app. cbn [opened flat_map app].
      now constructor.
    + destruct (IH Fl Hl top any) as (es & any' & E & B). rewrite E. eexists _, _. split; [reflexivity|]. constructor; [|exact B].
      unfold directory. now rewrite D.
Qed.

Lemma walk_ok n : forall path any top, path <> [] -> height_le ent n path ->
  exists es any', show_dir n ent true (set_top o top) any path = Ok (es, any') /\ below ent o path (opened es).
Proof.
  induction n as [|n IH]; intros path any top NE H; [contradiction|]. cbn [show_dir]. rewrite set_top_twice.
  assert (X : exists e0 l, (match ent path with Some l => (Opendir path, l) | None => (OpendirFailed path, []) end) = (e0, l) /\ opened [e0] = [path] /\
     match ent path with Some l' => Permutation l' l | None => l = [] end /\ Forall item_ok l /\ Forall (date_ok o) l /\
     Forall (fun i => (length (i_name i) <= 255)%nat) l /\ (forall i, In i l -> directory i -> height_le ent n (path ++ [47] ++ i_name i))).
  { destruct (ent path) as [l|] eqn:E.
    - exists (Opendir path), l. split; [reflexivity|]. split; [reflexivity|]. split; [reflexivity|]. destruct (good path l E). repeat split; auto.
      + apply Forall_forall. intros i I. eauto.
      + intros i I D. cbn [height_le] in H. eauto.
    - exists (OpendirFailed path), []. repeat split; auto. intros i []. }
  destruct X as (e0 & l & -> & Oe & P & Fi & Fd & Fn & Hh).
  destruct (show_total (set_top o false) l Fi) as (s & b & ->); [exact Fd | exact tw |]. cbn [bind].
  destruct (sort_ok (set_top o false) (S (length l)) l) as (l' & El & Pl & Sl); [lia | exact Fd|]. rewrite El. cbn [bind].
  unfold show_directories.
  destruct (each_ok (show_dir n ent true (set_top o false)) (match l' with _ :: _ :: _ => true | _ => false end) path NE l') with (top := false) (any := any || b)
    as (es & any' & Es & Bs).
  - now rewrite <- Pl.
  - intros a i I D. apply IH; [now destruct path|]. apply Hh; auto. now rewrite Pl.
  - rewrite Es. cbn [bind]. eexists _, _. split; [reflexivity|].
    change (e0 :: Say s :: es) with ([e0] ++ [Say s] ++ es). rewrite !opened_app, Oe. cbn [opened flat_map app].
    apply (below_dir ent o path l').
    + destruct (ent path); [now rewrite P | subst; now apply Permutation_nil in Pl].
    + apply (sorted_top o false). now apply sorted_iff.
    + exact Bs.
Qed.
End Walk.

Definition dot : item := Item 0 0 1 AM_DIR (str ".").

(* ls -R without arguments. *)
Theorem recursive_ok stat ent o n : stat (str ".") = StatInvalidName -> names_fit ent -> good_ent o ent -> 0 <= o_termwidth o < 2 ^ 31 -> height_le ent n (str ".") ->
  exists es, cmd_dir n stat ent true o [] = Ok es /\ below ent o (str ".") (opened es).
Proof.
  intros St Ft Gd Tw H. unfold cmd_dir. cbn [append_names bind]. unfold list_append_name at 1. rewrite St.
  replace (strcpy (repeat 0 FNAME) (str ".")) with (Ok (str "." ++ 0 :: repeat 0 254)) by reflexivity. cbn [bind].
  replace (Utf8Model.utf8len (str "." ++ [0])) with (Ok 1%nat) by reflexivity. cbn [bind app]. change (Z.of_nat 1) with 1. fold dot.
  rewrite (show_nothing (set_top o true) [dot]).
  2: { constructor; [unfold item_ok, dot; cbn [i_nbytes i_mtime i_namelen]; lia | constructor]. }
  2: { constructor; [unfold date_ok, dot; cbn [i_mtime]; split; intros; lia | constructor]. }
  2: { constructor; [|constructor]. intros (_ & V). specialize (V eq_refl). discriminate. }
  cbn [bind length sort]. unfold show_directories. cbn [each_dir]. change (has (i_attrib dot) AM_DIR) with true. cbv iota.
  rewrite path_top by (cbn; lia). cbn [bind negb orb].
  destruct (walk_ok ent o Ft Gd Tw n (str ".") false true ltac:(discriminate) H) as (es & any' & E & B).
  change (i_name dot) with (str "."). rewrite E. cbn [bind]. eexists. split; [reflexivity|].
  rewrite app_nil_r. change (Say [] :: ?x) with ([Say []] ++ x). rewrite !opened_app.
  destruct any'; cbn [opened flat_map app]; rewrite ?app_nil_r; exact B.
Qed.

(* --- refutations --- *)

Definition plain : options := Options 80 false false false false false true false.
Definition sub : item := Item 0 0 1 AM_DIR (str "b").
Definition stat_ab (n : list Z) : stat_result := if list_eq_dec Z.eq_dec n (str "a/b") then StatOk sub else StatError.
Definition ent_ab (p : list Z) : option (list item) := if list_eq_dec Z.eq_dec p (str "a/b") then Some [] else None.

(* ls a/b *)
Theorem wrong_directory : exists stat ent name es, stat name = StatOk sub /\ (exists d, name = d ++ [47] ++ i_name sub) /\
  cmd_dir 9 stat ent false plain [name] = Ok es /\ ent name = Some [] /\ opened es = [i_name sub] /\ ~ In name (opened es).
Proof.
  exists stat_ab, ent_ab, (str "a/b"). eexists. split; [reflexivity|]. split; [now exists (str "a")|].
  split; [vm_compute; reflexivity|]. split; [reflexivity|]. split; [reflexivity|]. cbn. intros [E|[]]. discriminate.
Qed.

Definition secret : item := Item 0 0 1 (AM_DIR + AM_HID) (str "s").
Definition ent_s (p : list Z) : option (list item) := if list_eq_dec Z.eq_dec p (str ".") then Some [secret] else Some [].
(* ls -R *)
Theorem hidden_shown : exists ent es, ent (str ".") = Some [secret] /\ ~ visible plain secret /\
  cmd_dir 9 (fun _ => StatInvalidName) ent true plain [] = Ok es /\ In (str "./s") (opened es) /\ In (Say (str "./s:" ++ [13; 10])) es.
Proof.
  exists ent_s. eexists. split; [reflexivity|]. split. { intros (V & _). specialize (V eq_refl). discriminate. }
  split; [vm_compute; reflexivity|]. split; cbn; auto 10.
Qed.

Lemma walk_example : names_fit ent_s /\ good_ent plain ent_s /\ height_le ent_s 2 (str ".") /\
  exists es, cmd_dir 2 (fun _ => StatInvalidName) ent_s true plain [] = Ok es /\ opened es = [str "."; str "./s"].
Proof.
  split; [|split; [|split]].
  - intros p l i E I. unfold ent_s in E. destruct (list_eq_dec _ _ _); injection E as <-; [|destruct I]. destruct I as [<-|[]]. cbn. lia.
  - intros p l E. unfold ent_s in E. destruct (list_eq_dec _ _ _); injection E as <-; split; repeat constructor; cbn; lia.
  - cbn [height_le]. intros l i E I D l' i' E' I' D'. injection E as <-. destruct I as [<-|[]]. injection E' as <-. destruct I'.
  - eexists. split; [vm_compute; reflexivity | vm_compute; reflexivity].
Qed.
