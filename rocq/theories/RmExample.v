(* Volumes to try rm and mv on. *)
From Coq Require Import String Ascii.
From Verif Require Import Base LockModel FutfModel FutfSpec LfnModel LfnSpec FdirModel FdirSpec FdirProof2 FnameModel FnameSpec FpathModel FpathSpec FpathProof FpathProof3 FpathProof4 FpathProof7 FpathProof13 FpathProof14 FpathProof15 FpathProof16 FpathProof17 FpathExample RmModel RmSpec RmProof RmProof4 RmProof5 RmProof6.
Open Scope Z_scope.

Definition bufs0 : nat -> Z -> Z := fun _ => buf0.
Lemma bufs0_units n : units (bufs0 n).
Proof. exact buf0_units. Qed.
Definition locks0 : list sem := repeat (mkSem 0 0 0 0) 16.
Definition shell (v : volume) (ks : list Z) : world := mkWorld v locks0 ks 0 [].
Lemma good_ascii cs : forallb (fun c => (32 <=? c) && (c <? 127) && negb (existsb (Z.eqb c) [34; 42; 47; 58; 60; 62; 63; 92; 124; 127])) cs = true -> cs <> [] -> zlen (utf16 cs) <= 255 -> last cs 0 <> 46 -> last cs 0 <> 32 -> good_name cs.
Proof.
  intros F N Le L1 L2. split; [|split; [auto|split; [auto|]]].
  - rewrite forallb_forall in F. apply Forall_forall. intros c I. specialize (F c I). apply andb_true_iff in F as [F1 F2]. apply negb_true_iff in F2. split; [unfold scalar; lia|]. split; [lia|]. split; [lia|]. intros J. assert (X : existsb (Z.eqb c) [34; 42; 47; 58; 60; 62; 63; 92; 124; 127] = true) by (apply existsb_exists; exists c; split; [exact J|apply Z.eqb_refl]). congruence.
  - intros z u ->. rewrite last_last in L1, L2. unfold FnameSpec.blank. lia.
Qed.
Lemma good_d : good_name (chars "d").
Proof. apply good_ascii; try reflexivity; vm_compute; discriminate. Qed.
Lemma good_x : good_name (chars "x").
Proof. apply good_ascii; try reflexivity; vm_compute; discriminate. Qed.
Lemma good_e : good_name (chars "e").
Proof. apply good_ascii; try reflexivity; vm_compute; discriminate. Qed.
Lemma path_one cs : good_name cs -> forall h t, utf8 cs ++ [0] = h :: t -> ~ sep h -> path_of (utf8 cs ++ [0]) false [Name cs].
Proof. intros G h t E N. pose proof (spells_names [] cs (Forall_cons _ G (Forall_nil _))) as S. cbn in S. rewrite E in S |- *. now apply po_here. Qed.
Lemma path_d : path_of (path "d") false [Name (chars "d")].
Proof. apply (path_one (chars "d") good_d 100 [0]); [reflexivity|unfold sep; lia]. Qed.
Lemma path_x : path_of (path "x") false [Name (chars "x")].
Proof. apply (path_one (chars "x") good_x 120 [0]); [reflexivity|unfold sep; lia]. Qed.
Lemma path_e : path_of (path "e") false [Name (chars "e")].
Proof. apply (path_one (chars "e") good_e 101 [0]); [reflexivity|unfold sep; lia]. Qed.
Lemma path_dx : path_of (path "d/x") false [Name (chars "d"); Name (chars "x")].
Proof. apply (po_here 100 (tl (path "d/x"))); [unfold sep; lia|]. exact (spells_names [chars "x"] (chars "d") (Forall_cons _ good_d (Forall_cons _ good_x (Forall_nil _)))). Qed.

(* A directory d with a file x. *)
Definition made : volume := after v16 (with_buf [Mkdir (path "d") 77; Open (path "d/x") 10 78]).
Definition made_tree (A : tree) (k : Z) (f g : entry_t) : Prop :=
  holds_tree made A (upto 2 18) /\ nodes A = [k; 0] /\ ents A 0 = [f] /\ ents A k = [g] /\ k <> 0 /\ clu A f = k /\ snd f 11 = 16 /\ snd g 11 = 32 /\ named (chars "d") f /\ named (chars "x") g.
Lemma made_ok : exists A k f g, made_tree A k f g.
Proof.
  pose proof (formatted_ok _ _ v16_ok) as T0.
  destruct (step_ok v16 _ _ (Mkdir (path "d") 77) buf0 T0) as (v1 & r1 & A1 & E1 & (t1 & R1 & D1 & _) & T1); [split; [apply ascii_path; reflexivity|unfold dword; lia]|exact buf0_units|].
  assert (Q1 : match step v16 (Mkdir (path "d") 77) buf0 with Ok (v, R_OK) => cdir v | _ => 1 end = 0) by (vm_compute; reflexivity). rewrite E1 in Q1. destruct r1; try discriminate Q1.
  assert (t1 = Free 0 (chars "d")) by (destruct T0 as [L0 V0]; eapply (resolves_one v16 _ L0 _ V0); [exact R1|]; exists false, [Name (chars "d")]; split; [exact path_d|apply lk_free; constructor]). subst t1. cbn in D1. destruct D1 as [(_ & k & f & Nk & (a & b & Ea & EA) & Nm & Nw)|(D & _)]; [|discriminate D].
  assert (K0 : k <> 0) by (intros ->; apply Nk; left; auto). cbn in Ea. rewrite put_other in Ea by auto. destruct a; [|discriminate Ea]. destruct b; [|discriminate Ea]. clear Ea. cbn [app] in EA.
  destruct Nw as (At & _ & Ck & _). change (clu (bare false) f) with (ld_clust false (snd f)) in Ck.
  assert (Ek : ents A1 k = []) by (subst A1; cbn; rewrite put_other, put_same by auto; auto). assert (E0 : ents A1 0 = [f]) by (subst A1; cbn; now rewrite put_same).
  assert (Cf : clu A1 f = k) by (subst A1; exact Ck). assert (Df : isdir f = true) by (unfold isdir; rewrite At; reflexivity).
  destruct (step_ok v1 A1 _ (Open (path "d/x") 10 78) buf0 T1) as (v2 & r2 & A2 & E2 & (t2 & R2 & D2 & _) & T2); [split; [apply ascii_path; reflexivity|unfold dword; lia]|exact buf0_units|].
  assert (Q2 : match step v16 (Mkdir (path "d") 77) buf0 with Ok (v, _) => match step v (Open (path "d/x") 10 78) buf0 with Ok (_, R_OK) => true | _ => false end | _ => false end = true) by (vm_compute; reflexivity). rewrite E1, E2 in Q2. destruct r2; try discriminate Q2.
  assert (t2 = Free k (chars "x")).
  { destruct T1 as [L1 V1]. eapply (resolves_one v1 _ L1 _ V1); [exact R2|]. exists false, [Name (chars "d"); Name (chars "x")]. split; [exact path_dx|]. cbn iota. rewrite Q1. eapply lk_down; [rewrite E0; left; reflexivity|apply named_called; [exact good_d|auto]|auto|discriminate|]. rewrite Cf. apply lk_free. rewrite Ek. constructor. }
  subst t2. cbn in D2. destruct D2 as [(_ & g & (a & b & Ea & EA2) & Ng & Nw & _)|(D & _)]; [|discriminate D]. rewrite Ek in Ea. destruct a; [|discriminate Ea]. destruct b; [|discriminate Ea]. cbn [app] in EA2.
  exists A2, k, f, g. unfold made_tree. assert (Em : made = v2). { unfold made, after, with_buf. cbn [map run]. rewrite E1. cbn [bind]. rewrite E2. reflexivity. } rewrite Em. split; [exact T2|].
  subst A2. cbn [nodes ents with_ents]. rewrite put_same, put_other, E0 by auto. split; [subst A1; reflexivity|]. split; [auto|]. split; [auto|]. split; [auto|]. split; [subst A1; exact Ck|]. split; [auto|]. split; [apply Nw|]. auto.
Qed.
Lemma made_root : cdir made = 0.
Proof. vm_compute. reflexivity. Qed.
Lemma made_leads A k f g : made_tree A k f g -> leads A (cdir made) (chars "d") 0 f (chars "d").
Proof.
  intros (T & En & E0 & Ek & K0 & Cf & Af & Ag & Nf & Ng). split; [repeat constructor; cbn; lia|]. exists false, [Name (chars "d")]. split; [exact path_d|]. split; [intros [Q|[]]; discriminate|]. cbn iota. rewrite made_root. apply lk_found; [rewrite E0; left; auto|]. apply named_called; [exact good_d|auto].
Qed.
Lemma made_file A k f g : made_tree A k f g -> resolves A (cdir made) (path "d/x") (Found k g (chars "x")).
Proof.
  intros (T & En & E0 & Ek & K0 & Cf & Af & Ag & Nf & Ng). exists false, [Name (chars "d"); Name (chars "x")]. split; [exact path_dx|]. cbn iota. rewrite made_root. eapply lk_down; [rewrite E0; left; auto|apply named_called; [exact good_d|auto]|unfold isdir; now rewrite Af|discriminate|]. rewrite Cf. apply lk_found; [rewrite Ek; left; auto|]. apply named_called; [exact good_x|auto].
Qed.
Lemma made_in A k f g : made_tree A k f g -> forall c h, In c (nodes A) -> In h (ents A c) -> (c = 0 /\ h = f) \/ (c = k /\ h = g).
Proof.
  intros (T & En & E0 & Ek & K0 & Cf & Af & Ag & Nf & Ng) c h I J. rewrite En in I. destruct I as [<-|[<-|[]]]; [rewrite Ek in J|rewrite E0 in J]; destruct J as [<-|[]]; auto.
Qed.
Lemma made_parent A k f g p c : made_tree A k f g -> parent A p c -> p = 0 /\ c = k.
Proof.
  intros M (I & h & J & D & C). destruct (made_in A k f g M p h I J) as [(-> & ->)|(-> & ->)]; destruct M as (T & En & E0 & Ek & K0 & Cf & Af & Ag & Nf & Ng); [split; congruence|]. unfold isdir in D. rewrite Ag in D. discriminate.
Qed.
Lemma made_below A k f g c : made_tree A k f g -> below A f c -> c = k.
Proof.
  intros M (_ & U). assert (Cf : clu A f = k) by apply M. assert (K0 : k <> 0) by apply M. rewrite Cf in U. induction U as [|p c U IH P]; [auto|]. now apply (made_parent A k f g p c M) in P.
Qed.
Lemma made_short A k f g : made_tree A k f g -> short_names A f.
Proof.
  intros M c h I B J. apply (made_below A k f g c M) in B. subst c. destruct (made_in A k f g M k h I J) as [(Q & _)|(_ & ->)]; [exfalso; now apply M in Q|]. exists (chars "x"). split; [exact good_x|]. split; [apply M|]. vm_compute. discriminate.
Qed.
Lemma made_pinned A k f g : made_tree A k f g -> ~ pinned A (cdir made) f.
Proof.
  intros M. pose proof M as (T & En & E0 & Ek & K0 & Cf & Af & Ag & Nf & Ng). rewrite made_root. intros [P|[P|(c & h & I & B & J & P)]].
  - unfold isro in P. rewrite Af in P. discriminate.
  - apply (made_below A k f g 0 M) in P. congruence.
  - destruct (made_in A k f g M c h I J) as [(_ & ->)|(_ & ->)]; unfold isro in P; [rewrite Af in P|rewrite Ag in P]; discriminate.
Qed.
Lemma made_deep A k f g n : made_tree A k f g -> ~ deep A (Datatypes.S n) (clu A f).
Proof.
  intros M (c & P & _). apply (made_parent A k f g _ c M) in P as [P _]. assert (clu A f = k) by apply M. assert (k <> 0) by apply M. congruence.
Qed.
Lemma locks0_unopened A f : unopened locks0 A f.
Proof. unfold locks0, unopened. repeat (constructor; [cbn; lia|]). constructor. Qed.

(* All that C94_all asks for. *)
Definition rv : opts := mkOpts false true true.
Lemma rm_example : exists A c f, holds_tree made A (upto 2 18) /\ leads A (cdir made) (chars "d") c f (chars "d") /\ isdir f = true /\ short_names A f /\
  unopened locks0 A f /\ List.length locks0 = 16%nat /\ yes (121) /\ (List.length (nodes A) + List.length (links A) < 9)%nat /\
  ~ pinned A (cdir made) f /\ ~ deep A (places locks0) (clu A f).
Proof.
  destruct made_ok as (A & k & f & g & M). exists A, 0, f. pose proof M as (T & En & E0 & Ek & K0 & Cf & Af & Ag & Nf & Ng). split; [exact T|]. split; [now apply (made_leads A k f g)|]. split; [unfold isdir; now rewrite Af|]. split; [now apply (made_short A k f g)|]. split; [apply locks0_unopened|]. split; [auto|]. split; [left; auto|].
  split; [unfold links; rewrite En; cbn; rewrite Ek, E0; cbn; lia|]. split; [now apply (made_pinned A k f g)|]. now apply (made_deep A k f g 15).
Qed.
Definition shows (r : res world) : list msg := match r with Ok w => out w | _ => [] end.
Definition volume_of (r : res world) : volume := match r with Ok w => vol w | _ => v16 end.
Definition listed (v : volume) (c : Z) : list (list Z) :=
  match list_dir (table v c) (fun _ => buf0) with Ok l => map (fun r => let '(i, blk, buf) := r in match file_names (tab (table v c) i) blk buf with Ok (n, _) => n | _ => [] end) l | _ => [] end.

(* rm -rv shows the path of a file again in place of the directory's. *)
Lemma verbose_wrong : exists A c f w', holds_tree made A (upto 2 18) /\ leads A (cdir made) (chars "d") c f (chars "d") /\ isdir f = true /\
  remove bufs0 9 rv (shell made [121]) (chars "d") = Ok w' /\ (exists A', holds_tree (vol w') A' (upto 2 18) /\ deleted A c f A') /\
  out w' = [Shown (chars "d/x"); Shown (chars "d/x"); Ask true (chars "d")].
Proof.
  destruct rm_example as (A & c & f & H1 & H2 & H3 & H4 & H5 & H6 & H7 & H8 & H9 & H10). destruct (directory_all bufs0 bufs0_units 9 rv (shell made [121]) A _ _ c f _ H1 H2 H3 H4 H5 H6 eq_refl H7 H8 H9 H10) as (w' & A' & ms & E & H' & D & _).
  exists A, c, f, w'. split; [auto|]. split; [auto|]. split; [auto|]. split; [auto|]. split; [eauto|]. assert (Q : shows (remove bufs0 9 rv (shell made [121]) (chars "d")) = [Shown (chars "d/x"); Shown (chars "d/x"); Ask true (chars "d")]) by (vm_compute; reflexivity). now rewrite E in Q.
Qed.
(* rm -rf asks, and does nothing without an answer. *)
Lemma unanswered v A total p c f cs : holds_tree v A total -> leads A (cdir v) p c f cs -> isdir f = true -> exists w', remove bufs0 9 (mkOpts true true false) (shell v []) p = Ok w' /\ vol w' = v.
Proof.
  intros H1 H2 H3. pose proof (leads_in _ _ _ _ _ _ _ H1 H2) as (Sp & Re & _). destruct (kept_ok bufs0 bufs0_units 9 (mkOpts true true false) (shell v []) A total p (Found c f cs) H1 Sp Re) as (w' & E & Ev & _); [cbn; rewrite H3; right; unfold yes; cbn; lia|]. eauto.
Qed.
Lemma force_asks : exists A c f w', holds_tree made A (upto 2 18) /\ leads A (cdir made) (chars "d") c f (chars "d") /\ isdir f = true /\
  remove bufs0 9 (mkOpts true true false) (shell made []) (chars "d") = Ok w' /\ vol w' = made /\ out w' = [Kept; Ask true (chars "d")].
Proof.
  destruct rm_example as (A & c & f & H1 & H2 & H3 & _). destruct (unanswered made A _ _ c f _ H1 H2 H3) as (w' & E & Ev).
  exists A, c, f, w'. split; [exact H1|]. split; [exact H2|]. split; [exact H3|]. split; [exact E|]. split; [exact Ev|]. assert (Q : shows (remove bufs0 9 (mkOpts true true false) (shell made []) (chars "d")) = [Kept; Ask true (chars "d")]) by (vm_compute; reflexivity). now rewrite E in Q.
Qed.

(* Eighteen directories, one in the other. *)
Definition nest (n : nat) : list (op * (Z -> Z)) := with_buf (flat_map (fun _ => [Mkdir (path "d") 77; Chdir (path "d")]) (seq 1 n) ++ [Chdir (path "/")]).
Definition nested : volume := after v16 (nest 18).
Lemma nest_sane n : Forall (fun x => sane (fst x) /\ units (snd x)) (nest n).
Proof.
  unfold nest. apply Forall_forall. intros x I. unfold with_buf in I. apply in_map_iff in I as (y & <- & I). split; [|exact buf0_units]. cbn [fst]. apply in_app_or in I as [I|[<-|[]]]; [|apply ascii_path; reflexivity]. apply in_flat_map in I as (j & _ & [<-|[<-|[]]]); [split; [apply ascii_path; reflexivity|unfold dword; lia]|apply ascii_path; reflexivity].
Qed.
Lemma too_deep : exists A w', holds_tree (vol (shell nested [121])) A (upto 2 18) /\ cdir (vol (shell nested [121])) = 0 /\
  remove bufs0 40 (mkOpts false true false) (shell nested [121]) (chars "d") = Ok w' /\ (exists p, out w' = [Failed p TooMany; Ask true (chars "d")]) /\ listed (vol w') 0 = [chars "d"].
Proof.
  destruct (after_ok v16 _ (nest 18) v16_ok (nest_sane 18) ltac:(vm_compute; exact eq_refl)) as (rs & A & _ & _ & T). destruct (remove bufs0 40 (mkOpts false true false) (shell nested [121]) (chars "d")) as [w'| |] eqn:E; [|vm_compute in E; discriminate E..].
  assert (Q : exists p, (shows (remove bufs0 40 (mkOpts false true false) (shell nested [121]) (chars "d")), listed (volume_of (remove bufs0 40 (mkOpts false true false) (shell nested [121]) (chars "d"))) 0) = ([Failed p TooMany; Ask true (chars "d")], [chars "d"])) by (eexists; vm_compute; reflexivity).
  rewrite E in Q. destruct Q as [p Q]. cbn [shows volume_of] in Q. apply pair_equal_spec in Q as [Q1 Q2]. exists A, w'. split; [exact T|]. split; [vm_compute; reflexivity|]. split; [auto|]. split; [exists p; auto|exact Q2].
Qed.

(* rm -r of the current directory: what is in it goes, then there is an error. *)
Definition inside : volume := after v16 (with_buf [Mkdir (path "d") 77; Open (path "d/x") 10 78; Chdir (path "d")]).
Lemma dot_empties : exists A w', holds_tree (vol (shell inside [121])) A (upto 2 18) /\ listed (vol (shell inside [121])) (cdir inside) = [chars "x"] /\
  remove bufs0 40 (mkOpts false true false) (shell inside [121]) (chars ".") = Ok w' /\ out w' = [Failed (chars ".") (Rc R_INVALID_NAME); Ask true (chars ".")] /\ listed (vol w') (cdir inside) = [].
Proof.
  assert (Sn : Forall (fun x => sane (fst x) /\ units (snd x)) (with_buf [Mkdir (path "d") 77; Open (path "d/x") 10 78; Chdir (path "d")])) by paths.
  destruct (after_ok v16 _ _ v16_ok Sn ltac:(vm_compute; exact eq_refl)) as (rs & A & _ & _ & T). set (r := remove bufs0 40 (mkOpts false true false) (shell inside [121]) (chars ".")).
  assert (Q : (shows r, listed (volume_of r) (cdir inside)) = ([Failed (chars ".") (Rc R_INVALID_NAME); Ask true (chars ".")], [])) by (vm_compute; reflexivity).
  destruct r as [w'| |] eqn:E; [|discriminate Q..]. cbn [shows volume_of] in Q. apply pair_equal_spec in Q as [Q1 Q2]. exists A, w'. split; [exact T|]. split; [vm_compute; reflexivity|]. split; [reflexivity|]. split; [exact Q1|exact Q2].
Qed.

(* --- mv ------------------------------------------------------------------------------------ *)
Definition plain : opts := mkOpts false false false.
Lemma into_root A cd : into A cd (chars "/") 0.
Proof.
  split; [repeat constructor; cbn; lia|]. split; [discriminate|]. exists (At 0). split; [|cbn; auto]. exists true, []. split; [|apply lk_nil]. apply (po_root 47 [] 0 []); [left; auto|constructor|unfold sep; lia|apply sp_end; lia].
Qed.
(* Neither root nor d has a file e. *)
Lemma made_free A k f g p cs c : made_tree A k f g -> In c (nodes A) -> good_name cs -> path_of (p ++ [0]) false (match c with 0 => [Name cs] | _ => [Name (chars "d"); Name cs] end) -> spelled (p ++ [0]) ->
  match f_stat made (p ++ [0]) buf0 with Ok (R_NO_FILE, _) => true | _ => false end = true -> Forall (fun h => ~ called cs h) (ents A c).
Proof.
  intros M I G P Sp Q. apply Forall_forall. intros h J Ca. pose proof M as (T & En & E0 & Ek & K0 & Cf & Af & Ag & Nf & Ng).
  assert (R : resolves A (cdir made) (p ++ [0]) (Found c h cs)).
  { exists false. eexists. split; [exact P|]. cbn iota. rewrite made_root. destruct (Z.eq_dec c 0) as [->|Nc]; [now apply lk_found|]. assert (c = k) by (rewrite En in I; destruct I as [I|[I|[]]]; congruence). subst c. replace (match k with 0 => _ | _ => _ end) with [Name (chars "d"); Name cs] by (destruct k; congruence).
    eapply lk_down; [rewrite E0; left; auto|apply named_called; [exact good_d|auto]|unfold isdir; now rewrite Af|discriminate|]. rewrite Cf. now apply lk_found. }
  destruct (stat_ok made A _ (p ++ [0]) buf0 T Sp buf0_units) as (t & r & x & E & R' & D). rewrite E in Q. assert (t = Found c h cs) by (destruct T as [L V]; eapply (resolves_one made A L _ V); eauto). subst t. destruct D as (-> & _). discriminate.
Qed.

Lemma mv_example : exists A c f, holds_tree made A (upto 2 18) /\ spelled (path "d/x") /\ resolves A (cdir made) (path "d/x") (Found c f (chars "x")) /\ good_name (chars "x") /\ ends_in (chars "d/x") (chars "x") /\
  into A (cdir made) (chars "/") 0 /\ Forall (fun g => ~ called (chars "x") g) (ents A 0) /\ isdir f = false.
Proof.
  destruct made_ok as (A & k & f & g & M). exists A, k, g. pose proof M as (T & En & E0 & Ek & K0 & Cf & Af & Ag & Nf & Ng). split; [exact T|]. split; [apply ascii_path; reflexivity|]. split; [now apply (made_file A k f g)|]. split; [exact good_x|]. split; [right; exists (chars "d"); reflexivity|]. split; [apply into_root|]. split; [|unfold isdir; now rewrite Ag].
  apply (made_free A k f g (chars "x") (chars "x") 0 M); [rewrite En; right; left; auto|exact good_x|exact path_x|apply ascii_path; reflexivity|vm_compute; reflexivity].
Qed.
(* d becomes e. *)
Lemma mv_new_example : exists A c f c2, holds_tree made A (upto 2 18) /\ spelled (path "d") /\ spelled (path "e") /\ resolves A (cdir made) (path "d") (Found c f (chars "d")) /\ isdir f = true /\
  resolves A (cdir made) (path "e") (Free c2 (chars "e")) /\ ~ under A (clu A f) c2.
Proof.
  destruct made_ok as (A & k & f & g & M). exists A, 0, f, 0. pose proof M as (T & En & E0 & Ek & K0 & Cf & Af & Ag & Nf & Ng). split; [exact T|]. split; [apply ascii_path; reflexivity|]. split; [apply ascii_path; reflexivity|]. destruct (leads_in _ _ _ _ _ _ _ T (made_leads A k f g M)) as (_ & Re & _). split; [exact Re|]. split; [unfold isdir; now rewrite Af|]. split.
  - exists false, [Name (chars "e")]. split; [exact path_e|]. cbn iota. rewrite made_root. apply lk_free. apply (made_free A k f g (chars "e") (chars "e") 0 M); [rewrite En; right; left; auto|exact good_e|exact path_e|apply ascii_path; reflexivity|vm_compute; reflexivity].
  - intros U. apply K0. symmetry. apply (made_below A k f g 0 M). split; [unfold isdir; now rewrite Af|auto].
Qed.

(* A file is moved onto another: the answer does not matter. *)
Definition two : volume := after v16 (with_buf [Open (path "a") 10 77; Open (path "b") 10 78]).
Lemma never_overwrites : exists A w', holds_tree (vol (shell two [121])) A (upto 2 18) /\ fpm_cmd_rename bufs0 plain (shell two [121]) [chars "a"; chars "b"] = Ok w' /\
  out w' = [Failed2 (chars "a") (chars "b") (Rc R_EXIST); Ask false (chars "b")] /\ listed (vol w') 0 = [chars "a"; chars "b"].
Proof.
  assert (Sn : Forall (fun x => sane (fst x) /\ units (snd x)) (with_buf [Open (path "a") 10 77; Open (path "b") 10 78])) by paths.
  destruct (after_ok v16 _ _ v16_ok Sn ltac:(vm_compute; exact eq_refl)) as (rs & A & _ & _ & T). set (r := fpm_cmd_rename bufs0 plain (shell two [121]) [chars "a"; chars "b"]).
  assert (Q : (shows r, listed (volume_of r) 0) = ([Failed2 (chars "a") (chars "b") (Rc R_EXIST); Ask false (chars "b")], [chars "a"; chars "b"])) by (vm_compute; reflexivity).
  destruct r as [w'| |] eqn:E; [|discriminate Q..]. cbn [shows volume_of] in Q. apply pair_equal_spec in Q as [Q1 Q2]. exists A, w'. split; [exact T|]. split; [reflexivity|]. split; [exact Q1|exact Q2].
Qed.
(* mv d d moves a directory into itself: it is lost, and nothing is shown. *)
Definition one : volume := after v16 (with_buf [Mkdir (path "d") 77]).
Lemma mv_into_itself : exists A w', holds_tree (vol (shell one [])) A (upto 2 18) /\ fpm_cmd_rename bufs0 plain (shell one []) [chars "d"; chars "d"] = Ok w' /\ out w' = [] /\ forall A', ~ holds_tree (vol w') A' (upto 2 18).
Proof.
  assert (Sn : Forall (fun x => sane (fst x) /\ units (snd x)) (with_buf [Mkdir (path "d") 77])) by paths.
  destruct (after_ok v16 _ _ v16_ok Sn ltac:(vm_compute; exact eq_refl)) as (rs & A & _ & _ & T). set (r := fpm_cmd_rename bufs0 plain (shell one []) [chars "d"; chars "d"]).
  assert (Q : (shows r, ((List.length (avail (volume_of r)) =? 17)%nat && match chains (volume_of r) 0 with [] => true | _ => false end && match list_dir (table (volume_of r) 0) (fun _ => buf0) with Ok [] => true | _ => false end)%bool) = ([], true)) by (vm_compute; reflexivity).
  destruct r as [w'| |] eqn:E; [|discriminate Q..]. cbn [shows volume_of] in Q. apply pair_equal_spec in Q as [Q1 Q]. set (v' := vol w') in *. apply andb_true_iff in Q as [Q Q3]. apply andb_true_iff in Q as [Q4 Q2].
  exists A, w'. split; [exact T|]. split; [reflexivity|]. split; [exact Q1|]. fold v'. intros A' T'.
  assert (I0 : In 0 (nodes A')) by (destruct T' as [L' V']; destruct (vo_shape _ _ _ _ V') as (_ & P & _); eapply Permutation_in; [exact P|left; auto]).
  destruct (list_tree v' A' _ 0 (fun _ => buf0) T' I0) as (out & El & F). rewrite El in Q3. destruct out; [|discriminate]. assert (E0 : ents A' 0 = []) by (inversion F; auto). destruct T' as [L' V']. destruct (vo_shape _ _ _ _ V') as (Nd & P & Rc).
  assert (N0 : forall c, In c (nodes A') -> c = 0).
  { intros c I. specialize (Rc c I). induction Rc as [|q c Rq IH (Iq & f & If & _)]; [auto|]. rewrite (IH Iq) in If. rewrite E0 in If. easy. }
  assert (Lk : links A' = []) by (unfold links; clear - N0 E0; induction (nodes A') as [|x l IH]; [auto|]; cbn; rewrite (N0 x (or_introl eq_refl)), E0; apply IH; intros; apply N0; right; auto).
  pose proof (no_leak v' A' _ (ex_intro _ L' V') Lk) as Pm. apply Permutation_length in Pm. rewrite app_length in Pm. destruct (chains v' 0); [|discriminate]. apply Nat.eqb_eq in Q4. rewrite Q4 in Pm. discriminate.
Qed.
(* A long word is copied behind the end of the buffer. *)
Lemma mv_too_long : exists A src, holds_tree made A (upto 2 18) /\ zlen src = 257 /\ Forall (fun c => c = 97) src /\ fpm_cmd_rename bufs0 plain (shell made []) [src; chars "d"] = Ub.
Proof.
  destruct made_ok as (A & k & f & g & M). exists A, (repeat 97 257). split; [apply M|]. split; [reflexivity|]. split; [apply Forall_forall; intros c I; now apply repeat_spec in I|]. vm_compute. reflexivity.
Qed.
