(* Volumes to try the operations on. *)
From Coq Require Import String Ascii.
From Verif Require Import Base FutfModel FutfSpec LfnModel LfnSpec FdirModel FdirSpec FdirProof2 FnameModel FnameSpec FpathModel FpathSpec FpathProof FpathProof4 FpathProof7 FpathProof13 FpathProof14 FpathProof15 FpathProof16 FpathProof17.
Open Scope Z_scope.

Fixpoint chars (s : string) : list Z := match s with EmptyString => [] | String c s => Z.of_nat (nat_of_ascii c) :: chars s end.
Definition path (s : string) : list Z := chars s ++ [0].
Definition upto (a n : nat) : list Z := map Z.of_nat (seq a n).
Definition zeros (n k : Z) : dirt := mkDir (fun _ _ => 0) n k 0.
(* 18 clusters of 16 entries; FAT16 with 32 entries in the root, and FAT32. *)
Definition v16 : volume := mkVolume false 16 20 (fun _ => zeros 32 16) (fun _ => []) (upto 2 18) 0.
Definition v32 : volume := mkVolume true 16 20 (fun _ => zeros 16 16) (fun c => if c =? 0 then [2] else []) (upto 3 17) 0.
Definition buf0 : Z -> Z := fun _ => 7.

Lemma upto_ok a n b : (2 <= a)%nat -> (a + n <= b)%nat -> NoDup (upto a n) /\ Forall (fun k => 2 <= k < Z.of_nat b) (upto a n).
Proof.
  intros H1 H2. split; [apply FinFun.Injective_map_NoDup; [intros x y E; lia|apply seq_NoDup]|]. apply Forall_forall. intros k K. apply in_map_iff in K as (j & <- & J). apply in_seq in J. lia.
Qed.
Lemma div_max k : (k * (65536 / k) =? 65536) = true -> (k | MAXENT).
Proof. intros E. exists (65536 / k). unfold MAXENT. lia. Qed.
Lemma v16_ok : formatted v16 (upto 2 18).
Proof.
  constructor; cbn.
  - split; [unfold MAXENT; lia|easy].
  - split; [lia|]. split; [exists 2; lia|]. split; [now apply div_max|easy].
  - intros j _. split; [auto|]. intros o. lia.
  - split; [cbn; auto|]. apply (upto_ok 2 18 20); lia.
  - split; [lia|]. split; [now apply div_max|lia].
  - auto.
Qed.
Lemma v32_ok : formatted v32 (upto 2 18).
Proof.
  constructor; cbn.
  - split; [unfold MAXENT; lia|auto].
  - split; [lia|]. split; [exists 1; lia|]. split; [now apply div_max|auto].
  - intros j _. split; [auto|]. intros o. lia.
  - split; [apply (Permutation_app_comm (upto 3 17) [2])|]. apply (upto_ok 2 18 20); lia.
  - split; [lia|]. split; [now apply div_max|lia].
  - auto.
Qed.

Definition with_buf (os : list op) : list (op * (Z -> Z)) := map (fun o => (o, buf0)) os.
Definition day1 : list (op * (Z -> Z)) := with_buf
  [ Mkdir (path "/docs") 77;
    Open (path "docs/Hello World.text") 10 78;
    Store (path "/DOCS/hello world.text") 3 1400 79;
    Chdir (path "docs");
    Open (path "HELLOW~1.TEX") 1 0;
    Open (path "no/such") 1 0;
    Rename (path "HELLOW~1.TEX") (path "../b.c");
    Mkdir (path "../docs/") 80;
    Unlink (path "../docs");
    Chdir (path "..");
    Unlink (path "/docs");
    Chmod (path "B.C") 1 1;
    Unlink (path "b.c");
    Utime (path "b.c") 81 ].
Definition answers : list prc :=
  [ R_OK; R_OK; R_OK; R_OK; R_OK; R_NO_PATH; R_OK; R_EXIST; R_DENIED; R_OK; R_OK; R_OK; R_DENIED; R_OK ].
Lemma buf0_units : units buf0.
Proof. intros o. unfold buf0. lia. Qed.
Ltac paths := repeat match goal with
  | |- Forall _ (with_buf _) => unfold with_buf; cbn [map]
  | |- Forall _ _ => constructor
  | |- _ /\ units _ => split; [|exact buf0_units]
  | |- sane _ => cbn [fst sane]
  | |- spelled _ => apply ascii_path; reflexivity
  | |- _ <= _ < _ => lia
  | |- _ /\ _ => split
  | |- dword _ => unfold dword; lia
  | |- _ <= _ => lia
  | |- _ < _ => lia
  end.
Lemma day1_sane : Forall (fun x => sane (fst x) /\ units (snd x)) day1.
Proof. unfold day1. paths.
Qed.
Lemma day1_may v : (v = v16 \/ v = v32) -> may (upto 2 18) v (bare (fat32 v)) day1.
Proof. intros [->| ->]; (apply opened_may; [apply formatted_ok; [apply v16_ok || apply v32_ok]|exact day1_sane|vm_compute; reflexivity]). Qed.

(* Where operations lead. *)
Definition after (v : volume) (os : list (op * (Z -> Z))) : volume := match run v os with Ok (v, _) => v | _ => v end.
Lemma after_ok v total os : formatted v total -> Forall (fun x => sane (fst x) /\ units (snd x)) os -> opened v os = true ->
  exists rs A, run v os = Ok (after v os, rs) /\ history v (bare (fat32 v)) os rs (after v os) A /\ holds_tree (after v os) A total.
Proof.
  intros F S O. destruct (run_ok total os v (bare (fat32 v)) (formatted_ok v total F) (opened_may total os v _ (formatted_ok v total F) S O)) as (v' & rs & A' & E & H & T). unfold after. rewrite E. eauto.
Qed.

(* --- f_stat ------------------------------------------------------------------------------- *)
Definition stat_name (v : volume) (p : list Z) : list Z := match f_stat v p buf0 with Ok (R_OK, Some (_, n, _)) => n | _ => [] end.
Definition hello : list Z := chars "Hello World.text".
Lemma hello_good : good_name hello.
Proof.
  split; [|split; [discriminate|split]].
  - assert (F : forallb (fun c => (32 <=? c) && (c <? 127) && negb (existsb (Z.eqb c) [34; 42; 47; 58; 60; 62; 63; 92; 124; 127])) hello = true) by reflexivity. rewrite forallb_forall in F. apply Forall_forall. intros c I. specialize (F c I).
    apply andb_true_iff in F as [F1 F2]. apply negb_true_iff in F2. split; [unfold scalar; lia|]. split; [lia|]. split; [lia|]. intros J. assert (X : existsb (Z.eqb c) [34; 42; 47; 58; 60; 62; 63; 92; 124; 127] = true) by (apply existsb_exists; exists c; split; [auto|apply Z.eqb_refl]). congruence.
  - vm_compute. discriminate.
  - intros z u E. assert (Q : last hello 0 = u) by (rewrite E; apply last_last). change (last hello 0) with 116 in Q. unfold blank. lia.
Qed.
Lemma hello_free A : ents A 0 = [] -> resolves A 0 (path "Hello World.text") (Free 0 hello).
Proof.
  intros E. exists false, [Name hello]. split.
  - apply (po_here 72 (tl (path "Hello World.text"))); [unfold sep; lia|]. exact (spells_names [] hello (Forall_cons _ hello_good (Forall_nil _))).
  - apply lk_free. rewrite E. constructor.
Qed.
Lemma stat_name_wrong : exists v A total c f cs p buf fname alt,
  holds_tree v A total /\ In c (nodes A) /\ In f (ents A c) /\ good_name cs /\ named cs f /\ zlen (utf8 cs) <= 255 /\ spelled p /\ units buf /\
  f_stat v p buf = Ok (R_OK, Some (snd f, fname, alt)) /\ fname <> utf8 cs.
Proof.
  pose proof (formatted_ok _ _ v16_ok) as T0. destruct (step_ok v16 _ _ (Open (path "Hello World.text") 10 78) buf0 T0) as (v & r & A & E1 & (t & Re & D & _) & T); [split; [apply ascii_path; reflexivity|unfold dword; lia]|exact buf0_units|].
  set (p := path "HELLO world.TEXT"). assert (Q0 : match step v16 (Open (path "Hello World.text") 10 78) buf0 with Ok (v, R_OK) => stat_name v p | _ => [] end = chars "HELLO world.TEXT") by (vm_compute; reflexivity). rewrite E1 in Q0. clear E1. destruct r; [|discriminate Q0..].
  assert (t = Free 0 hello) by (destruct T0 as [L0 V0]; eapply (resolves_one v16 _ L0 _ V0); [exact Re|]; now apply hello_free). subst t.
  cbn in D. destruct D as [(_ & f & (a & b & Ea & ->) & Nm & _)|(D & _)]; [|discriminate D]. cbn in Ea. destruct a; [|discriminate Ea]. destruct b; [|discriminate Ea]. clear Ea.
  set (A := with_ents (bare false) 0 ([] ++ [f])) in *. assert (Sp : spelled p) by (apply ascii_path; reflexivity).
  destruct (stat_ok v A _ p buf0 T Sp buf0_units) as (t2 & r2 & x & Es & Re2 & Ds). pose proof (target_ok v A _ p t2 T Re2) as Tg.
  pose proof Q0 as Q. unfold stat_name in Q. rewrite Es in Q.
  destruct t2 as [c|c d|c f2 cs2|c cs2| |]; cbn [stat_does] in Ds; try (destruct Ds as [-> _]; discriminate Q).
  - destruct Tg as ([<-|[]] & N0 & _). easy.
  - destruct Tg as ([<-|[]] & If & _). destruct If as [<-|[]]. destruct Ds as (-> & fname & alt & -> & _). exists v, A, (upto 2 18), 0, f, hello, p, buf0, fname, alt.
    split; [auto|]. split; [left; auto|]. split; [left; auto|]. split; [apply hello_good|]. split; [auto|]. split; [vm_compute; discriminate|]. split; [auto|]. split; [exact buf0_units|]. split; [auto|]. subst fname. vm_compute. discriminate.
Qed.

(* --- a directory moved into itself --------------------------------------------------------- *)
Definition dir1 : list (op * (Z -> Z)) := with_buf [Mkdir (path "/a") 77].
Lemma rename_into_itself : exists v A total p1 p2 buf v', holds_tree v A total /\ spelled p1 /\ spelled p2 /\ units buf /\
  step v (Rename p1 p2) buf = Ok (v', R_OK) /\ forall A', ~ holds_tree v' A' total.
Proof.
  assert (S : Forall (fun x => sane (fst x) /\ units (snd x)) dir1) by (unfold dir1; paths).
  destruct (after_ok v16 _ dir1 v16_ok S ltac:(vm_compute; exact eq_refl)) as (rs & A & E & H & T). set (v := after v16 dir1) in *.
  destruct (step v (Rename (path "/a") (path "/a/b")) buf0) as [[v' r]| |] eqn:St; [|vm_compute in St; discriminate St..].
  assert (Q : (match step v (Rename (path "/a") (path "/a/b")) buf0 with Ok (v', R_OK) => (length (avail v') =? 17)%nat && match chains v' 0 with [] => true | _ => false end && match list_dir (table v' 0) (fun _ => buf0) with Ok [] => true | _ => false end | _ => false end) = true) by (vm_compute; reflexivity).
  rewrite St in Q. destruct r; try discriminate Q. apply andb_true_iff in Q as [Q Q3]. apply andb_true_iff in Q as [Q1 Q2].
  exists v, A, (upto 2 18), (path "/a"), (path "/a/b"), buf0, v'. split; [auto|]. split; [apply ascii_path; reflexivity|]. split; [apply ascii_path; reflexivity|]. split; [exact buf0_units|]. split; [auto|]. intros A' T'.
  assert (I0 : In 0 (nodes A')) by (destruct T' as [L' V']; destruct (vo_shape _ _ _ _ V') as (_ & P & _); eapply Permutation_in; [exact P|left; auto]).
  destruct (list_tree v' A' _ 0 (fun _ => buf0) T' I0) as (out & El & F). rewrite El in Q3. destruct out; [|discriminate]. assert (E0 : ents A' 0 = []) by (inversion F; auto). destruct T' as [L' V']. destruct (vo_shape _ _ _ _ V') as (Nd & P & Rc).
  assert (N0 : forall c, In c (nodes A') -> c = 0).
  { intros c I. specialize (Rc c I). induction Rc as [|q c Rq IH (Iq & f & If & _)]; [auto|]. rewrite (IH Iq) in If. rewrite E0 in If. easy. }
  assert (Lk : links A' = []) by (unfold links; clear - N0 E0; induction (nodes A') as [|x l IH]; [auto|]; cbn; rewrite (N0 x (or_introl eq_refl)), E0; apply IH; intros; apply N0; right; auto).
  pose proof (no_leak v' A' _ (ex_intro _ L' V') Lk) as Pm. apply Permutation_length in Pm. rewrite app_length in Pm. destruct (chains v' 0); [|discriminate]. apply Nat.eqb_eq in Q1. rewrite Q1 in Pm. discriminate.
Qed.

(* --- a create that is refused and takes a cluster ------------------------------------------ *)
Definition tight : volume := mkVolume true 16 4 (fun _ => zeros 16 16) (fun c => if c =? 0 then [2] else []) [3] 0.
Lemma tight_ok : formatted tight [2; 3].
Proof.
  constructor; cbn.
  - split; [unfold MAXENT; lia|auto].
  - split; [lia|]. split; [exists 1; lia|]. split; [now apply div_max|auto].
  - intros j _. split; [auto|]. intros o. lia.
  - split; [apply (Permutation_app_comm [3] [2])|]. split; [repeat constructor; cbn; lia|repeat constructor; lia].
  - split; [lia|]. split; [now apply div_max|lia].
  - auto.
Qed.
Definition twelve : list (op * (Z -> Z)) := with_buf (map (fun k => Open ([Z.of_nat k] ++ [0]) 10 78) (seq 65 12)).
Definition long_path : list Z := repeat 97 250 ++ [0].
Lemma refused_costs : exists v A total p buf v', holds_tree v A total /\ spelled p /\ units buf /\
  step v (Open p 10 78) buf = Ok (v', R_DENIED) /\ holds_tree v' A total /\ (length (avail v') < length (avail v))%nat.
Proof.
  assert (S : Forall (fun x => sane (fst x) /\ units (snd x)) twelve) by (unfold twelve; cbn [seq map]; change (Z.of_nat 65) with 65; paths).
  destruct (after_ok tight _ twelve tight_ok S) as (rs & A & E & H & T); [vm_compute; reflexivity|]. set (v := after tight twelve) in *.
  assert (Sp : spelled long_path) by (apply ascii_path; reflexivity). destruct (step_ok v A _ (Open long_path 10 78) buf0 T) as (v' & r & A' & St & (t & Re & D & _) & T'); [split; [auto|unfold dword; lia]|exact buf0_units|].
  assert (Q : (match step v (Open long_path 10 78) buf0 with Ok (v', R_DENIED) => (length (avail v') =? 0)%nat && (length (avail v) =? 1)%nat | _ => false end) = true) by (vm_compute; reflexivity).
  rewrite St in Q. destruct r; try discriminate Q. apply andb_true_iff in Q as [Q1 Q2]. apply Nat.eqb_eq in Q1, Q2.
  exists v, A, [2; 3], long_path, buf0, v'. split; [auto|]. split; [auto|]. split; [exact buf0_units|]. split; [auto|]. split; [|lia].
  assert (X : A' = A); [clear - D|rewrite <- X at 1; exact T']. unfold open_does in D. change (has 10 28) with true in D. change (has 10 4) with false in D. change (has 10 8) with true in D. destruct t as [c|c d|c f cs|c cs| |]; try (now destruct D as [_ ->]).
  - destruct (isdir f || isro f); [now destruct D|]. now destruct D.
  - destruct D as [[D _]|(_ & D & _)]; [discriminate|auto].
Qed.
