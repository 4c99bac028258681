From Verif Require Import Base CrcSpec FutfModel FutfSpec FutfProof LfnModel LfnSpec LfnProof FdirModel FdirSpec FdirProof FdirProof2 FdirProof3 FnameModel FnameSpec FnameProof FnameProof2 FnameProof3 FnameProof4 FnameProof5 FnameProof6 FpathModel FpathSpec FpathProof FpathProof2 FpathProof3 FpathProof4 FpathProof5 FpathProof6 FpathProof7 FpathProof8 FpathProof9 FpathProof10 FpathProof11 FpathProof12.
Open Scope Z_scope.

(* --- steps and histories ------------------------------------------------------------------- *)
Theorem step_ok v A total o buf : holds_tree v A total -> allowed A (cdir v) o -> units buf ->
  exists v' r A', step v o buf = Ok (v', r) /\ does v A o r A' (cdir v') /\ holds_tree v' A' total.
Proof.
  intros [L V] Al U.
  assert (W : forall x (P : prc -> tree -> Prop), ends_well v total x P -> exists v' r A', x = Ok (v', r) /\ (P r A' /\ cdir v' = cdir v) /\ holds_tree v' A' total) by (intros x P (v' & r & A' & E & H & C & Q); exists v', r, A'; auto).
  assert (R1 : forall x path (P : target -> prc -> tree -> Prop), ends_well v total x (fun r A' => exists t, resolves A (cdir v) path t /\ P t r A') ->
    exists v' r A', x = Ok (v', r) /\ (exists t, resolves A (cdir v) path t /\ P t r A' /\ cdir v' = cdir v) /\ holds_tree v' A' total).
  { intros x path P H. destruct (W _ _ H) as (v' & r & A' & E & [(t & Re & Q) C] & Hv). exists v', r, A'. split; [auto|]. split; [|auto]. exists t. auto. }
  destruct o as [path mode tm|path n size tm|path|path tm|a b|path attr mask|path tm|path|n]; cbn [step allowed does] in *.
  - destruct Al as [Sp T]. exact (R1 _ path _ (open_ok _ _ _ _ V path mode tm buf Sp U T)).
  - destruct Al as (Sp & Sz & T). exact (R1 _ path _ (store_ok _ _ _ _ V path n size tm buf Sp U Sz T)).
  - exact (R1 _ path _ (unlink_ok _ _ _ _ V path buf Al U)).
  - destruct Al as [Sp T]. exact (R1 _ path _ (mkdir_ok _ _ _ _ path tm buf V Sp U T)).
  - destruct Al as (S1 & S2 & N). destruct (W _ _ (rename_ok _ _ _ _ a b buf V S1 S2 U N)) as (v' & r & A' & E & [(t1 & t2 & Re1 & Re2 & Q) C] & Hv). exists v', r, A'. split; [auto|]. split; [|auto]. exists t1, t2. auto.
  - destruct Al as (Sp & Ha & Hm). exact (R1 _ path _ (chmod_ok _ _ _ _ V path attr mask buf Sp U Ha Hm)).
  - destruct Al as [Sp T]. exact (R1 _ path _ (utime_ok _ _ _ _ V path tm buf Sp U T)).
  - destruct (chdir_ok _ _ _ _ V path buf Al U) as (v' & r & t & d & E & Hv & Re & Op & Cd). exists v', r, A. split; [auto|]. split; [|auto]. exists t. split; [auto|]. split; [auto|]. exists d. auto.
  - exists (set_chains v (chains v) (shuffle n (avail v))), R_OK, A. split; [auto|]. split; [auto|]. apply (shuffle_ok _ _ _ _ V).
Qed.
Theorem run_ok total os : forall v A, holds_tree v A total -> may total v A os -> exists v' rs A', run v os = Ok (v', rs) /\ history v A os rs v' A' /\ holds_tree v' A' total.
Proof.
  induction os as [|[o buf] os IH]; intros v A H M.
  - exists v, [], A. split; [auto|]. split; [constructor|auto].
  - destruct M as (Al & U & M). destruct (step_ok v A total o buf H Al U) as (v1 & r & A1 & E & D & H1). destruct (IH v1 A1 H1 (M v1 r A1 E D H1)) as (v' & rs & A' & E2 & Hi & H2). exists v', (r :: rs), A'. cbn [run]. rewrite E. cbn [bind]. rewrite E2. cbn [bind]. split; [auto|]. split; [econstructor; eauto|auto].
Qed.

(* --- room ---------------------------------------------------------------------------------- *)
Lemma parts_20 x : (length x <= 255)%nat -> parts x <= 20.
Proof. intros H. unfold parts. Z.to_euclidean_division_equations. lia. Qed.
Lemma not_full v A L total c n : vol_ok v A L total -> In c (nodes A) -> fixed v c = false -> cap (dirs v c) + 2 * epc v <= MAXENT -> (2 <= length (avail v))%nat -> n <= 32 -> 1 <= n -> ~ full (table v c) n.
Proof.
  intros V I Fx C A2 N N1 F. destruct (vo_tabs _ _ _ _ V c I) as [[D La] _]. destruct (La Fx) as [Ch _]. destruct (vo_geo _ _ _ _ V) as (Ge & _). unfold full, table in F. rewrite Fx in F. cbn [cap chunk spare tab] in F. rewrite Ch in F. pose proof (dk_cap _ _ D) as Cp. cbn [table cap] in Cp. unfold table in Cp. cbn [cap] in Cp.
  destruct (F (cap (dirs v c))) as (j & J & Jc & _); [lia| |lia]. assert (2 * epc v <= epc v * Z.of_nat (length (avail v))) by nia. lia.
Qed.
Theorem room_ok v A total c cs : holds_tree v A total -> In c (nodes A) -> good_name cs -> fixed v c = false -> cap (dirs v c) + 2 * epc v <= MAXENT -> (2 <= length (avail v))%nat -> refused v A c cs ->
  exists last fn, form (utf16 cs) last fn /\ has (fn 11) 1 = true /\ forall n, 1 <= n < 100 -> exists f, numbered fn n f /\ Exists (fun g => short_same (snd g) f) (ents A c).
Proof.
  intros [L V] I G Fx C A2 (last & fn & Fo & [[W1 W2]|W]); [exists last, fn; auto|]. exfalso. destruct (good_clean cs G) as [_ [_ Nl]]. revert W. apply (not_full v A L total); auto.
  - destruct (has (fn 11) 2); [pose proof (parts_20 _ (proj2 Nl)); lia|change (parts []) with 0; lia].
  - pose proof (parts_nonneg (if has (fn 11) 2 then utf16 cs else [])). lia.
Qed.
