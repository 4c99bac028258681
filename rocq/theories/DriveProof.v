(* Proofs about format. *)
From Coq Require Import String Ascii Lia.
From Verif Require Import Base Arr ExecModel GetoptModel GetoptSpec GetoptProof Utf8Model Utf8Spec DirModel EditModel EditSpec EditProof EditProof2 FpatModel FpatSpec FpatProof CliModel CliProof DriveModel DriveSpec.
Open Scope Z_scope.

(* --- the reply --- *)

(* While the line is shorter than 31 the limit does not matter. *)
Lemma step_limit s z p k : R 32 s z -> (length (EditSpec.text z) < 31)%nat -> step 64 p s k = step 32 p s k.
Proof.
  intros H L. rewrite !step_action. destruct (key_action k) eqn:K; try reflexivity.
  destruct s as [b q nx on pr]. cbn [astep]. destruct H as ((rest & HB) & Hn & Hp & _ & _ & _ & Wb & Wr & _). cbn [e_buf] in *. rewrite HB.
  unfold EditSpec.text in *. rewrite <- app_assoc. rewrite len_text by auto. cbn [bind]. rewrite app_length in L.
  change ((64 - 1) mod 2 ^ 32) with 63. change ((32 - 1) mod 2 ^ 32) with 31.
  rewrite !(proj2 (Z.ltb_lt _ _)) by lia. reflexivity.
Qed.
Lemma zstep_grow z a : history z = None -> (length (EditSpec.text (zstep 31 z a)) <= S (length (EditSpec.text z)))%nat /\ history (zstep 31 z a) = None.
Proof.
  intros H. assert (G : forall m, (length (EditSpec.text z) <= m)%nat -> (31 <= m)%nat \/ True) by auto.
  destruct z as [b r s o h]. cbn [history] in H. subst h. unfold EditSpec.text. cbn [before after]. rewrite !app_length.
  destruct a; cbn [zstep].
  - destruct (Nat.ltb_spec (length b + length r) 31); cbn [before after history]; rewrite ?app_length; cbn [length]; split; try reflexivity; lia.
  - cbn [before after history]. rewrite !app_length. cbn [length]. split; [lia|reflexivity].
  - cbn [before after history]. pose proof (drop_last_len b). split; [lia|reflexivity].
  - cbn [before after history]. destruct r; cbn [tl length]; split; try reflexivity; lia.
  - destruct (exists_last_or_nil b) as [-> | (b' & c & ->)]; [cbn; split; [lia|reflexivity]|].
    rewrite rev_app_distr, drop_last_app. cbn [rev app before after history]. rewrite app_length. cbn [length]. split; [lia|reflexivity].
  - destruct r; cbn [before after history]; rewrite ?app_length; cbn [length]; split; try reflexivity; lia.
  - cbn [before after history]. rewrite app_length. cbn [length]. split; [lia|reflexivity].
  - cbn [before after history]. rewrite app_length. cbn [length]. split; [lia|reflexivity].
  - cbn [before after history length]. split; [lia|reflexivity].
  - cbn [before after history]. split; [lia|reflexivity].
  - destruct o; cbn [before after history]; split; try reflexivity; lia.
  - destruct o; cbn [before after history]; split; try reflexivity; lia.
  - cbn [before after history]. split; [lia|reflexivity].
Qed.
Lemma keys_limit pw ptail : Forall wide pw -> forall keys s z, R 32 s z -> history z = None -> (length (EditSpec.text z) + length keys <= 31)%nat \/
  (exists ks more, keys = ks ++ 13 :: more /\ (length (EditSpec.text z) + length ks <= 31)%nat) -> Forall (fun k => 0 <= k < 65536) keys ->
  keys_loop 64 (utf8 pw ++ 0 :: ptail) s keys = keys_loop 32 (utf8 pw ++ 0 :: ptail) s keys.
Proof.
  intros Hpw. induction keys as [|k ks IH]; intros s z HR H L Hk; [reflexivity|]. inversion Hk as [|? ? Hk1 Hk2]; subst.
  assert (C : k = 13 \/ (length (EditSpec.text z) < 31)%nat /\ ((S (length (EditSpec.text z)) + length ks <= 31)%nat \/ exists ks' more, ks = ks' ++ 13 :: more /\ (S (length (EditSpec.text z)) + length ks' <= 31)%nat)).
  { destruct L as [L|(ks' & more & E & L)]; [right; cbn [length] in L; split; [lia|left; lia]|]. destruct ks' as [|x ks']; cbn [app] in E; injection E as -> E; [now left|].
    right. cbn [length] in L. split; [lia|]. right. exists ks', more. split; [exact E|lia]. }
  cbn [keys_loop]. destruct C as [-> |[C1 C2]].
  - rewrite !step_action. change (key_action 13) with Enter.
    destruct (astep_ok 32 31 pw ptail s z Enter HR Hpw ltac:(lia) ltac:(lia) I) as (s' & E & _). change (Z.of_nat (S 31)) with 32 in E.
    assert (E64 : astep 64 (utf8 pw ++ 0 :: ptail) s Enter = astep 32 (utf8 pw ++ 0 :: ptail) s Enter) by (destruct s; reflexivity).
    rewrite E64, E. reflexivity.
  - rewrite (step_limit s z _ k HR C1). rewrite step_action.
    destruct (astep_ok 32 31 pw ptail s z (key_action k) HR Hpw ltac:(lia) ltac:(lia)) as (s' & E & HR').
    { destruct (key_action k) eqn:E; auto. apply key_action_insert in E. unfold wide. lia. }
    change (Z.of_nat (S 31)) with 32 in E. rewrite E. cbn [bind]. destruct (is_enter (key_action k)); [reflexivity|].
    destruct (zstep_grow z (key_action k) H) as [G1 G2]. rewrite (IH s' (zstep 31 z (key_action k)) HR' G2); [reflexivity| |exact Hk2].
    destruct C2 as [C2|(ks' & more & E2 & C2)]; [left; lia|right; exists ks', more; split; [exact E2|lia]].
Qed.
Definition few (keys : list Z) : Prop := (length keys <= 31)%nat \/ exists ks more, keys = ks ++ 13 :: more /\ (length ks <= 31)%nat.
Lemma reply_ok pw reply junk keys : Forall wide pw -> length reply = 32%nat -> length junk = 128%nat -> Forall (fun k => 0 <= k < 65536) keys -> few keys ->
  exists s o, editline reply 64 true (utf8 pw ++ [0]) junk None keys = Ok (s, o, entered keys) /\ holds (e_buf s) (line_of keys) /\ Forall wide (line_of keys).
Proof.
  intros Hpw Lr Lj Hk F. assert (Hb : [] = @nil Z /\ reply <> []) by (split; [reflexivity|intros ->; discriminate]).
  destruct (start_ok 32 reply true pw [] junk None None [] Hpw ltac:(constructor) Hb Lr Lj I) as (s & E & HR).
  destruct (keys_ok 31 32 pw [] Hpw ltac:(lia) ltac:(lia) keys s _ Hk HR) as (s' & fin & E' & Hf & HR').
  unfold editline. rewrite E. cbn [bind]. rewrite (keys_limit pw [] Hpw keys s _ HR eq_refl F Hk). change (Z.of_nat (S 31)) with 32 in E'. rewrite E'. cbn [bind].
  exists s'. eexists. split; [unfold entered; rewrite Hf; reflexivity|]. unfold line_of, EditSpec.text. destruct HR' as (G1 & _ & _ & _ & _ & _ & G2 & G3 & _). split; [exact G1|apply Forall_app; auto].
Qed.
Lemma first_char buf t : holds buf t -> Forall wide t -> exists r, rd buf 0 = Ok r /\ negb (r =? 121) && negb (r =? 89) = negb (agreed t).
Proof.
  intros [rest ->] W. destruct t as [|c t]; cbn [app].
  - exists 0. split; reflexivity.
  - exists c. split; [reflexivity|]. cbn [agreed]. now rewrite negb_orb.
Qed.

(* --- the drive --- *)

Lemma select_ok curr name d : 0 <= curr < 2 -> selects curr name d -> exists rest, get_ldnumber curr (name ++ [0]) = Ok (d, rest) /\ deref rest = Ok 0 /\ 0 <= d < 2.
Proof.
  intros C [(pre & -> & P & N)|[-> ->]].
  - exists [0]. rewrite <- app_assoc. cbn [app]. destruct (ldnumber_ok pre [0] curr P) as (e & E & [M|[M1 M2]]); [|exfalso; exact (M2 d N)].
    assert (De : e = d).
    { unfold drive_named in *. destruct N as [[-> N]|[-> N]], M as [[-> M]|[-> M]]; try reflexivity; exfalso; destruct N as [N|N], M as [M|M]; subst; try discriminate; congruence. }
    subst e. rewrite E. assert (0 <= d < 2) by (destruct N as [[-> _]|[-> _]]; lia). rewrite (proj2 (Z.eqb_neq d (-1))) by lia. repeat split; lia.
  - exists [0]. rewrite (ldnumber_none [] 0 [] curr) by (try constructor; lia). repeat split; lia.
Qed.
Lemma select_none curr name : 0 <= curr < 2 -> Forall (fun c => 0 < c < 256) name -> (forall d, ~ selects curr name d) ->
  exists u rest c, get_ldnumber curr (name ++ [0]) = Ok (u, rest) /\ deref rest = Ok c /\ (u <? 0) || negb (c =? 0) = true.
Proof.
  intros C F N. destruct (path_cases (name ++ [0])) as (pre & c & rest & E & P & K).
  { apply Forall_app. split; [|constructor; [unfold CrcSpec.byte; lia|constructor]]. eapply Forall_impl; [|exact F]. unfold CrcSpec.byte. intros; lia. }
  { apply in_or_app. right. now left. }
  destruct K as [-> |K].
  - rewrite E. destruct (ldnumber_ok pre rest curr P) as (e & G & M). rewrite G. destruct (Z.eqb_spec e (-1)) as [Ee|Ne].
    + destruct pre as [|x pre]; cbn [app]; (do 3 eexists; split; [reflexivity|]; split; [reflexivity|reflexivity]).
    + destruct M as [M|[M _]]; [|contradiction]. destruct (rev rest) as [|z r'] eqn:R.
      { exfalso. apply (f_equal (@rev Z)) in R. rewrite rev_involutive in R. cbn in R. subst rest. apply (f_equal (@rev Z)) in E. rewrite !rev_app_distr in E. cbn in E. discriminate. }
      apply (f_equal (@rev Z)) in R. rewrite rev_involutive in R. cbn [rev] in R. subst rest. set (t := rev r') in *. clearbody t.
      replace (pre ++ 58 :: t ++ [z]) with ((pre ++ 58 :: t) ++ [z]) in E by (rewrite <- app_assoc; reflexivity). apply app_inj_tail in E as [E <-]. destruct t as [|y t].
      * exfalso. apply (N e). left. exists pre. now subst.
      * cbn [app]. exists e, (y :: t ++ [0]), y. split; [reflexivity|]. split; [reflexivity|].
        assert (Y : 0 < y < 256) by (rewrite Forall_forall in F; apply F; subst name; apply in_or_app; right; right; now left).
        rewrite (proj2 (Z.eqb_neq y 0)) by lia. apply orb_true_r.
  - rewrite E, (ldnumber_none pre c rest curr P K), <- E. destruct name as [|y name].
    + exfalso. apply (N curr). right. auto.
    + cbn [app]. exists curr, (y :: name ++ [0]), y. split; [reflexivity|]. split; [reflexivity|]. inversion F; subst. rewrite (proj2 (Z.eqb_neq y 0)) by lia. apply orb_true_r.
Qed.

(* --- the command --- *)

Section F.
Variables (curr : Z) (identify : Z -> option disk) (mkfs : list Z -> Z -> option (list Z)) (reply junk : list Z).
Hypotheses (HC : 0 <= curr < 2) (HR : length reply = 32%nat) (HJ : length junk = 128%nat).
Definition run := cmd_format curr identify mkfs reply junk.

Lemma prompt_text : exists pw, Forall wide pw /\ prompt ++ [0] = utf8 pw ++ [0].
Proof. exists prompt. split; [repeat constructor; cbn; lia|reflexivity]. Qed.
Lemma format_drive_ok name d i keys : selects curr name d -> identify d = Some i -> Forall (fun k => 0 <= k < 65536) keys -> few keys ->
  exists s, format_drive curr identify mkfs reply junk name keys = Ok s /\ over s = entered keys /\
    made s = (if entered keys && agreed (line_of keys) then [(name, format_of d)] else []) /\ exists more, shown s = question d i ++ more.
Proof.
  intros S I K F. unfold format_drive. destruct (select_ok _ _ _ HC S) as (rest & E & D & Dd). rewrite E. cbn [bind]. rewrite D. cbn [bind].
  rewrite (proj2 (Z.ltb_ge d 0)) by lia. cbn [Z.eqb negb orb]. rewrite I. destruct prompt_text as (pw & W & ->).
  destruct (reply_ok pw reply junk keys W HR HJ K F) as (s & o & Eo & H1 & H2). rewrite Eo. cbn [bind]. destruct (entered keys); cbn [negb andb].
  - destruct (first_char _ _ H1 H2) as (r & R1 & R2). rewrite R1. cbn [bind]. rewrite R2. destruct (agreed (line_of keys)); cbn [negb].
    + replace (nth (Z.to_nat d) disk_fmt 0) with (format_of d) by (assert (C : d = 0 \/ d = 1) by lia; destruct C; subst; reflexivity).
      destruct (mkfs name (format_of d)); (eexists; split; [reflexivity|]; cbn [over made shown]; repeat split; eexists; rewrite <- !app_assoc; reflexivity).
    + eexists. split; [reflexivity|]. cbn [over made shown]. repeat split. eexists. rewrite <- !app_assoc. reflexivity.
  - eexists. split; [reflexivity|]. cbn [over made shown]. repeat split. eexists. reflexivity.
Qed.
Lemma cmd_name name prog keys fuel : prog <> [45; 45] -> hd 0 name <> 45 -> (1 < fuel)%nat ->
  run fuel [prog; name] keys = (d <- format_drive curr identify mkfs reply junk name keys ;; Ok (Done (shown d ++ if over d then crlf else []) (made d) (over d))).
Proof using curr identify mkfs reply junk.
  clear HC HR HJ. intros P H L. unfold run, cmd_format. change [104] with (shorts_string [(104, No)]).
  change [prog; name] with (prog :: flat_map item_words [Plain name]). rewrite (options_items [(104, No)] format_round prog [Plain name] (Fst None []) fuel).
  - reflexivity.
  - repeat constructor; discriminate.
  - repeat constructor. exact H.
  - exact P.
  - repeat constructor; cbn; lia.
  - exact L.
Qed.
Lemma format_ok name d i keys prog fuel : selects curr name d -> identify d = Some i -> Forall (fun k => 0 <= k < 65536) keys -> few keys ->
  prog <> [45; 45] -> (1 < fuel)%nat ->
  exists s, run fuel [prog; name] keys = Ok s /\ over s = entered keys /\
    made s = (if entered keys && agreed (line_of keys) then [(name, format_of d)] else []) /\ exists more, shown s = question d i ++ more.
Proof.
  intros S I K F P L. rewrite cmd_name; try assumption.
  - destruct (format_drive_ok name d i keys S I K F) as (s & E & O & M & more & Sh). rewrite E. cbn [bind]. eexists. split; [reflexivity|]. cbn [over made shown].
    split; [exact O|]. split; [exact M|]. eexists. rewrite Sh, <- app_assoc. reflexivity.
  - destruct S as [(pre & -> & Pp & N)|[-> _]]; [|cbn; lia]. unfold drive_named in N. destruct pre as [|x pre]; [cbn; lia|]. cbn [app hd]. intros ->.
    destruct N as [[_ [N|N]]|[_ [N|N]]]; try discriminate; destruct pre; cbn in N; discriminate.
Qed.
Lemma format_none name keys prog fuel : Forall (fun c => 0 < c < 256) name -> (forall d, ~ selects curr name d) -> hd 0 name <> 45 -> prog <> [45; 45] -> (1 < fuel)%nat ->
  run fuel [prog; name] keys = Ok (Done (name ++ ExecModel.str ": Invalid drive name" ++ [13; 10; 13; 10]) [] true).
Proof using HC.
  clear HR HJ. intros F N H P L. rewrite cmd_name by assumption. unfold format_drive. destruct (select_none _ _ HC F N) as (u & rest & c & E & D & B). rewrite E. cbn [bind]. rewrite D. cbn [bind].
  rewrite B. cbn [bind shown over made]. rewrite <- !app_assoc. reflexivity.
Qed.
Lemma format_count names keys prog fuel : length names <> 1%nat -> Forall (fun n => hd 0 n <> 45) names -> prog <> [45; 45] -> (length names < fuel)%nat ->
  run fuel (prog :: names) keys = Ok (Done format_usage [] true).
Proof using curr identify mkfs reply junk.
  clear HC HR HJ. intros C H P L. unfold run, cmd_format. change [104] with (shorts_string [(104, No)]).
  assert (Ew : flat_map item_words (map Plain names) = names) by (clear; induction names as [|w ws IH]; [reflexivity|]; cbn [map flat_map item_words app]; now rewrite IH).
  assert (Er : flat_map (item_results longs) (map Plain names) = map (fun w => (1, Some w)) names) by (clear; induction names as [|w ws IH]; [reflexivity|]; cbn [map flat_map item_results app]; now rewrite IH).
  rewrite <- Ew at 1. rewrite (options_items [(104, No)] format_round prog (map Plain names) (Fst None []) fuel).
  - rewrite Er. destruct names as [|a [|b names]]; [reflexivity|cbn in C; lia|reflexivity].
  - repeat constructor; discriminate.
  - apply Forall_forall. intros it I. apply in_map_iff in I as (w & <- & I). cbn. left. rewrite Forall_forall in H. auto.
  - exact P.
  - rewrite Er. apply Forall_forall. intros x I. apply in_map_iff in I as (w & <- & _). cbn. lia.
  - rewrite Er, map_length. exact L.
Qed.
End F.

(* 32 characters *)
Lemma long_reply : exists keys, Forall (fun k => 0 <= k < 65536) keys /\
  run 0 (fun _ => Some (Disk [] 0)) (fun _ _ => None) (repeat 0 32) (repeat 0 128) 5 [ExecModel.str "format"; ExecModel.str "sd:"] keys = Ub.
Proof. exists (repeat 110 32 ++ [13]). split; [apply Forall_app; split; [apply Forall_forall; intros k I; apply repeat_spec in I; lia|repeat constructor; lia]|]. vm_compute. reflexivity. Qed.
