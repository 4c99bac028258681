(* Lemmas: searching a directory. *)
From Verif Require Import Base Arr ArrLemmas LfnSpec FutfModel FutfSpec FutfProof LfnProof XdirModel XdirSpec XdirProof XdirProof2 XdirProof3.
Open Scope Z_scope.

Lemma set_length h s names : entry_ok h -> entry_ok s -> Forall entry_ok names -> length (concat (h :: s :: names)) = (64 + 32 * length names)%nat.
Proof.
  intros (Lh & _) (Ls & _) F. cbn [concat]. rewrite !app_length, concat32; [lia|]. eapply Forall_impl; [|exact F]. intros ? (? & _); auto.
Qed.

Lemma named_set ws h s names rest zs : file_set ws h s names -> Forall unit_ok' zs ->
  exists r, named (concat (h :: s :: names) ++ rest) (zs ++ [0]) = Ok r /\ (r = true <-> same_name ws zs).
Proof.
  intros F Uz. pose proof (set_length h s names (f_h _ _ _ _ F) (f_s _ _ _ _ F) (f_n _ _ _ _ F)) as Ln.
  destruct F as [(Lh & Bh) (Ls & Bs) Fn G C U L H N].
  assert (Lc : length (concat names) = (32 * length names)%nat) by (cbn [concat] in Ln; rewrite !app_length in Ln; lia).
  assert (A : forall i, (i < 32)%nat -> at_ (concat (h :: s :: names) ++ rest) (32 + i) = at_ s i).
  { intros i I. cbn [concat]. rewrite <- !app_assoc. unfold at_. rewrite (app_nth2 h) by lia. rewrite app_nth1 by lia. f_equal. lia. }
  assert (B : forall i, (i < 32 * length names)%nat -> at_ (concat (h :: s :: names) ++ rest) (64 + i) = at_ (concat names) i).
  { intros i I. cbn [concat]. rewrite <- !app_assoc. unfold at_. rewrite (app_nth2 h) by lia. rewrite (app_nth2 s) by lia. rewrite app_nth1 by lia. f_equal. lia. }
  assert (R : forall i, (i < 64 + 32 * length names)%nat -> rd (concat (h :: s :: names) ++ rest) i = Ok (at_ (concat (h :: s :: names) ++ rest) i)).
  { intros i I. apply rd_at. rewrite app_length. lia. }
  set (b := concat (h :: s :: names) ++ rest) in *. clearbody b.
  pose proof (g_length _ _ _ G) as Gl. rewrite L in Gl.
  unfold named. rewrite hash_ok by auto. cbn [bind]. unfold ld_word at 1. rewrite !R by lia. cbn [bind].
  pose proof (A 4%nat ltac:(lia)) as A4. pose proof (A 5%nat ltac:(lia)) as A5. pose proof (A 3%nat ltac:(lia)) as A3. cbn [Nat.add] in A3, A4, A5.
  rewrite A4, A5, H. change name_hash with nhash.
  destruct (Z.eqb_spec (nhash ws) (nhash zs)) as [E|E]; cbn [negb].
  2:{ eexists; split; [reflexivity|]. split; [discriminate|]. intros X. apply hash_same in X. contradiction. }
  cbn [bind]. rewrite A3, L, Nat2Z.id.
  apply (same_run _ ws) with (nc := length ws) (j := 0%nat); auto.
  intros j J. unfold ld_word, pos.
  assert (I : (32 * (j / 15) + 2 + 2 * (j mod 15) + 1 < 32 * length names)%nat).
  { pose proof (Nat.div_mod j 15 ltac:(lia)) as D. pose proof (Nat.mod_upper_bound j 15 ltac:(lia)) as M.
    assert (length ws <= 15 * length names)%nat by (clear - Gl; Z.to_euclidean_division_equations; lia). lia. }
  rewrite !R by lia. cbn [bind]. rewrite B by lia. replace (S (64 + (32 * (j / 15) + 2 + 2 * (j mod 15))))%nat with (64 + S (32 * (j / 15) + 2 + 2 * (j mod 15)))%nat by lia.
  rewrite B by lia. f_equal. apply N. auto.
Qed.

Lemma skip1 n pre e post b p : p = length pre -> entry_ok e -> at_ e 0 <> 0 -> at_ e 0 <> 133 ->
  dir_read_x (S n) (pre ++ e :: post) p b = dir_read_x n (pre ++ e :: post) (S p) b.
Proof.
  intros -> (L & _) H0 H1. cbn [dir_read_x]. rewrite nth_error_app2, Nat.sub_diag by lia. cbn [nth_error]. rewrite rd_at by lia. cbn [bind].
  destruct (Z.eqb_spec (at_ e 0) 0); [contradiction|]. destruct (Z.eqb_spec (at_ e 0) 133); [contradiction|]. reflexivity.
Qed.
Lemma found1 n pre ws h s names post b p : p = length pre -> file_set ws h s names -> length b = 608%nat ->
  dir_read_x (S n) (pre ++ (h :: s :: names) ++ post) p b =
    Ok (Xfound p (concat (h :: s :: names) ++ skipn (length (concat (h :: s :: names))) b) (p + (length names + 1))).
Proof.
  intros -> F L. pose proof (set_length h s names (f_h _ _ _ _ F) (f_s _ _ _ _ F) (f_n _ _ _ _ F)) as Ln. destruct F as [Eh Es Fn G C _ _ _ _].
  destruct (load_ok (pre ++ (h :: s :: names) ++ post) (length pre) h s names b Eh Es Fn) as (b' & r & X & Y & Z); auto. { exists pre, post. auto. }
  assert (r = true) by (apply Y; auto). subst r. rewrite (Z eq_refl) in X.
  cbn [dir_read_x]. rewrite X. cbn [app]. rewrite nth_error_app2, Nat.sub_diag by lia. cbn [nth_error]. destruct Eh as (Lh & _). rewrite rd_at by lia. cbn [bind].
  rewrite (g_file _ _ _ G). change (133 =? 0) with false. change (133 =? 133) with true. cbv iota.
  rewrite rd_at by (rewrite app_length; lia). rewrite at_app by lia. cbn [concat]. rewrite at_app by lia. cbn [bind]. rewrite C. do 2 f_equal. lia.
Qed.

Definition go (m n : nat) (tab : list (list Z)) (p : nat) (b lfn : list Z) : res xread :=
  r <- dir_read_x n tab p b ;;
  match r with Xfound k b q => y <- named b lfn ;; if y then Ok r else find_x m tab q b lfn | _ => Ok r end.

Lemma find_run zs rest : Forall unit_ok' zs -> (forall e, hd_error rest = Some e -> entry_ok e /\ at_ e 0 = 0) -> forall items pre b m n tab, Forall item_ok items ->
  tab = pre ++ concat (map entries items) ++ rest -> length b = 608%nat -> (length items <= m)%nat -> (length tab < n + length pre)%nat ->
  (exists before ws h s names after b', items = before ++ File ws h s names :: after /\ Forall (fun i => ~ is_named zs i) before /\ same_name ws zs /\
     go m n tab (length pre) b (zs ++ [0]) = Ok (Xfound (length pre + length (concat (map entries before))) b' (length pre + length (concat (map entries before)) + (length names + 1))) /\
     firstn (length (concat (h :: s :: names))) b' = concat (h :: s :: names)) \/
  (Forall (fun i => ~ is_named zs i) items /\ go m n tab (length pre) b (zs ++ [0]) = Ok Xnone).
Proof.
  intros Uz Er. induction items as [|i items IH]; intros pre b m n tab Fi -> Lb Hm Hn.
  { right. split; [constructor|]. unfold go. cbn [map concat app] in *. destruct n as [|n]; [rewrite app_length in Hn; lia|]. cbn [dir_read_x].
    rewrite nth_error_app2, Nat.sub_diag by lia. destruct rest as [|e rest]; cbn [nth_error]; [reflexivity|].
    destruct (Er e eq_refl) as ((Le & _) & E0). rewrite rd_at by lia. rewrite E0. reflexivity. }
  inversion Fi as [|? ? Oi Fi']; subst. cbn [length] in Hm.
  destruct i as [e|ws h s names]; cbn [map entries concat item_ok] in *.
  - destruct Oi as (Ee & E0 & E1). cbn [app] in *.
    destruct n as [|n]; [rewrite app_length in Hn; lia|].
    destruct (IH (pre ++ [e]) b m n (pre ++ e :: concat (map entries items) ++ rest)) as [X|X]; auto.
    { now rewrite <- app_assoc. } { lia. } { rewrite (app_length pre [e]). cbn [length]. lia. }
    + destruct X as (before & ws & h & s & names & after & b' & -> & Nb & Sn & R & P). left.
      exists (Other e :: before), ws, h, s, names, after, b'. split; [reflexivity|]. split; [constructor; auto|]. split; [exact Sn|]. split; [|exact P].
      unfold go in *. rewrite skip1 by auto. rewrite (app_length pre [e]) in R. cbn [length] in R. replace (S (length pre)) with (length pre + 1)%nat by lia. rewrite R.
      cbn [map entries concat app length]. do 2 f_equal; lia.
    + destruct X as (Nb & R). right. split; [constructor; auto|]. unfold go in *. rewrite skip1 by auto. rewrite (app_length pre [e]) in R. cbn [length] in R. replace (S (length pre)) with (length pre + 1)%nat by lia. exact R.
  - pose proof (set_length h s names (f_h _ _ _ _ Oi) (f_s _ _ _ _ Oi) (f_n _ _ _ _ Oi)) as Ln.
    pose proof (g_size _ _ _ (f_good _ _ _ _ Oi)) as Gz.
    destruct n as [|n]; [rewrite !app_length in Hn; cbn [length] in Hn; lia|].
    set (b1 := concat (h :: s :: names) ++ skipn (length (concat (h :: s :: names))) b).
    assert (Lb1 : length b1 = 608%nat) by (unfold b1; rewrite app_length, skipn_length; lia).
    destruct (named_set ws h s names (skipn (length (concat (h :: s :: names))) b) zs Oi Uz) as (r & Nr & Sr). fold b1 in Nr.
    assert (Gs : go m (S n) (pre ++ ((h :: s :: names) ++ concat (map entries items)) ++ rest) (length pre) b (zs ++ [0]) =
      (if r then Ok (Xfound (length pre) b1 (length pre + (length names + 1))) else find_x m (pre ++ ((h :: s :: names) ++ concat (map entries items)) ++ rest) (length pre + (length names + 1)) b1 (zs ++ [0]))).
    { unfold go. rewrite <- (app_assoc (h :: s :: names)). rewrite (found1 n pre ws) by auto. cbn [bind]. fold b1. rewrite Nr. reflexivity. }
    destruct r.
    + left. exists [], ws, h, s, names, items, b1. split; [reflexivity|]. split; [constructor|]. split; [now apply Sr|].
      split; [rewrite Gs; cbn [map concat length]; now rewrite Nat.add_0_r|]. unfold b1. rewrite firstn_app, Nat.sub_diag, firstn_all, firstn_O. apply app_nil_r.
    + assert (Ns : ~ same_name ws zs) by (intros X; apply Sr in X; discriminate).
      rewrite Gs. destruct m as [|m]; [lia|]. cbn [find_x].
      set (tab := pre ++ ((h :: s :: names) ++ concat (map entries items)) ++ rest) in *.
      destruct (exists_last (l := names)) as (ns & e & En). { intros ->. cbn in Gz. lia. }
      assert (Ee : entry_ok e /\ at_ e 0 = 193).
      { pose proof (f_n _ _ _ _ Oi) as F1. pose proof (g_names _ _ _ (f_good _ _ _ _ Oi)) as F2. rewrite Forall_forall in F1, F2. split; [apply F1|apply F2]; rewrite En; apply in_or_app; right; now left. }
      assert (T2 : tab = (pre ++ h :: s :: ns) ++ e :: concat (map entries items) ++ rest).
      { unfold tab. rewrite En. cbn [app]. rewrite <- !app_assoc. reflexivity. }
      assert (Lq : (length pre + (length names + 1))%nat = length (pre ++ h :: s :: ns)) by (rewrite En, !app_length; cbn [length]; lia).
      assert (Sk : dir_read_x (S (length tab)) tab (length pre + (length names + 1)) b1 = dir_read_x (length tab) tab (length (pre ++ h :: s :: names)) b1).
      { rewrite Lq. rewrite T2 at 2 4. rewrite skip1 by (auto; try apply Ee; destruct Ee as (_ & ->); discriminate). f_equal. rewrite En, !app_length. cbn [length]. rewrite app_length. cbn [length]. lia. }
      rewrite Sk.
      destruct (IH (pre ++ h :: s :: names) b1 m (length tab) tab) as [X|X]; auto.
      { unfold tab. rewrite <- !app_assoc. reflexivity. } { lia. } { rewrite (app_length pre). cbn [length]. lia. }
      * destruct X as (before & ws' & h' & s' & names' & after & b' & -> & Nb & Sn & R & P). left.
        exists (File ws h s names :: before), ws', h', s', names', after, b'. split; [reflexivity|]. split; [constructor; auto|]. split; [exact Sn|]. split; [|exact P].
        unfold go in R. rewrite R. cbn [map entries concat]. rewrite (app_length pre), (app_length (h :: s :: names)). do 2 f_equal; lia.
      * destruct X as (Nb & R). right. split; [constructor; auto|]. exact R.
Qed.

Lemma entries_length items : (length items <= length (concat (map entries items)))%nat.
Proof. induction items as [|[e|ws h s ns] items IH]; cbn; auto; [lia|]. rewrite app_length. lia. Qed.

Lemma find_ok items tab b zs : directory items tab -> length b = 608%nat -> Forall unit_ok' zs ->
  (exists before ws h s names after b', items = before ++ File ws h s names :: after /\ Forall (fun i => ~ is_named zs i) before /\ same_name ws zs /\
     dir_find_x tab b (zs ++ [0]) = Ok (Xfound (length (concat (map entries before))) b' (length (concat (map entries before)) + (length names + 1))) /\
     firstn (length (concat (h :: s :: names))) b' = concat (h :: s :: names)) \/
  (Forall (fun i => ~ is_named zs i) items /\ dir_find_x tab b (zs ++ [0]) = Ok Xnone).
Proof.
  intros (Fi & rest & -> & Er) Lb Uz.
  pose proof (find_run zs rest Uz Er items [] b (length (concat (map entries items) ++ rest)) (S (length (concat (map entries items) ++ rest))) _ Fi eq_refl Lb) as X.
  cbn [app length Nat.add] in X. apply X; [|lia]. rewrite app_length. pose proof (entries_length items). lia.
Qed.
