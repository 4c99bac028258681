From Coq Require Import String.
From Verif Require Import Base Arr ArrLemmas LoadModel LoadProof LoadProof2 ExecModel ExecSpec.
Open Scope Z_scope.

Lemma tolower_iff a b : tolower a = tolower b <-> same_letter a b.
Proof.
  unfold tolower, same_letter. destruct ((65 <=? a) && (a <=? 90)) eqn:A, ((65 <=? b) && (b <=? 90)) eqn:B; lia.
Qed.

Lemma strcaseeq_iff a : forall b, strcaseeq a b = true <-> same_name a b.
Proof.
  unfold strcaseeq, same_name. induction a as [|x a IH]; intros [|y b]; cbn [map Zs_eqb].
  - split; constructor.
  - split; [discriminate | intros H; inversion H].
  - split; [discriminate | intros H; inversion H].
  - rewrite andb_true_iff, IH, Z.eqb_eq, tolower_iff. split; [intros (H1 & H2); now constructor | intros H; inversion H; auto].
Qed.

Lemma find_cmd_some t name c : find_cmd t name = Some c -> exists n, In (n, c) t /\ same_name n name.
Proof.
  induction t as [|(n, d) t IH]; cbn [find_cmd]; [discriminate|].
  destruct (strcaseeq n name) eqn:E.
  - intros H. injection H as ->. exists n. split; [now left | now apply strcaseeq_iff].
  - intros H. apply IH in H as (m & I & S). exists m. split; [now right | exact S].
Qed.

Lemma find_cmd_none t name : find_cmd t name = None -> forall n c, In (n, c) t -> ~ same_name n name.
Proof.
  induction t as [|(n, d) t IH]; cbn [find_cmd]; [intros _ n c []|].
  destruct (strcaseeq n name) eqn:E; [discriminate|]. intros H m c [I|I] S.
  - injection I as -> ->. apply strcaseeq_iff in S. congruence.
  - eapply IH; eauto.
Qed.

Lemma same_letter_sym a b : same_letter a b -> same_letter b a.
Proof. unfold same_letter. lia. Qed.
Lemma same_letter_trans a b c : same_letter a b -> same_letter b c -> same_letter a c.
Proof. rewrite <- !tolower_iff. congruence. Qed.
Lemma same_name_sym a b : same_name a b -> same_name b a.
Proof. unfold same_name. induction 1; constructor; auto using same_letter_sym. Qed.
Lemma same_name_trans a b : same_name a b -> forall c, same_name b c -> same_name a c.
Proof. unfold same_name. induction 1; intros d H'; inversion H'; subst; constructor; eauto using same_letter_trans. Qed.

(* The table and the documented names are the same. *)
Lemma in_table n c : In (n, c) cmd_tab <-> In n (names_of c).
Proof.
  split.
  - intros H. cbn [cmd_tab In] in H.
    repeat match type of H with _ \/ _ => destruct H as [H|H] end; try contradiction; injection H as <- <-; cbn [names_of In]; tauto.
  - destruct c; cbn [names_of In]; intros H; repeat match type of H with _ \/ _ => destruct H as [H|H] end; try contradiction; subst n;
      cbn [cmd_tab In]; tauto.
Qed.

Lemma table_distinct : forall p q, In p cmd_tab -> In q cmd_tab -> strcaseeq (fst p) (fst q) = true -> p = q.
Proof.
  assert (K : forallb (fun p => forallb (fun q => negb (strcaseeq (fst p) (fst q)) || Zs_eqb (fst p) (fst q)) cmd_tab) cmd_tab = true) by reflexivity.
  assert (U : forallb (fun p => match find_cmd cmd_tab (fst p) with Some c => true | None => false end) cmd_tab = true) by reflexivity.
  intros (n, c) (m, d) Hp Hq E. rewrite forallb_forall in K. specialize (K _ Hp). rewrite forallb_forall in K. specialize (K _ Hq).
  rewrite E in K. cbn [negb orb fst] in K. apply Zs_eqb_iff in K. cbn [fst] in *. subst m. f_equal.
  assert (D : forall n c d, In (n, c) cmd_tab -> In (n, d) cmd_tab -> c = d); [|eauto].
  clear. intros n c d Hp Hq.
  assert (N : NoDup (map fst cmd_tab)).
  { vm_compute. repeat constructor; cbn [In]; intuition discriminate. }
  revert N Hp Hq. generalize cmd_tab. intros t N. induction t as [|(k, e) t IH]; cbn [In map] in *; [tauto|].
  inversion N as [|x y Nx N']; subst. intros [Hp|Hp] [Hq|Hq].
  - congruence.
  - injection Hp as -> ->. exfalso. apply Nx. change n with (fst (n, d)). now apply in_map.
  - injection Hq as -> ->. exfalso. apply Nx. change n with (fst (n, c)). now apply in_map.
  - auto.
Qed.

Lemma find_cmd_iff name c : find_cmd cmd_tab name = Some c <-> is_builtin name c.
Proof.
  split.
  - intros H. apply find_cmd_some in H as (n & I & S). apply in_table in I. exists n. auto.
  - intros (n & I & S). apply in_table in I. destruct (find_cmd cmd_tab name) as [d|] eqn:E.
    + apply find_cmd_some in E as (m & J & T). assert (X : (n, c) = (m, d)).
      { apply table_distinct; auto. apply strcaseeq_iff. cbn. eapply same_name_trans; [exact S | now apply same_name_sym]. }
      congruence.
    + exfalso. eapply find_cmd_none; eauto.
Qed.

Lemma find_cmd_none_iff name : find_cmd cmd_tab name = None <-> forall c, ~ is_builtin name c.
Proof.
  split.
  - intros H c B. apply find_cmd_iff in B. congruence.
  - intros H. destruct (find_cmd cmd_tab name) as [c|] eqn:E; [|reflexivity]. apply find_cmd_iff in E. exfalso. eapply H; eauto.
Qed.

Lemma has_char_iff s c : has_char s c = true <-> In c s.
Proof.
  unfold has_char. rewrite existsb_exists. split.
  - intros (x & I & E). apply Z.eqb_eq in E. now subst.
  - intros I. exists c. split; [exact I | apply Z.eqb_refl].
Qed.

(* The path buffer. *)
Lemma strcpy_ok buf s : (length s < length buf)%nat -> strcpy buf s = Ok (s ++ 0 :: skipn (S (length s)) buf).
Proof. intros H. unfold strcpy. now replace (length s <? length buf)%nat with true by lia. Qed.

Lemma cstr_app s r : ~ In 0 s -> cstr (s ++ 0 :: r) = Ok s.
Proof. intros N. apply cstr_iff. split; [exact N|]. now exists r. Qed.

Lemma strcat_ok d r s : ~ In 0 d -> (length s <= length r)%nat -> strcat (d ++ 0 :: r) s = Ok (d ++ s ++ 0 :: skipn (length s) r).
Proof.
  intros N L. unfold strcat. rewrite cstr_app by exact N. cbn [bind].
  rewrite skipn_app, skipn_all, Nat.sub_diag, skipn_O. cbn [app]. rewrite strcpy_ok by (cbn; lia). cbn [bind].
  rewrite firstn_app, Nat.sub_diag, firstn_O, app_nil_r, firstn_all. cbn [skipn]. reflexivity.
Qed.

Lemma str_len s : length (str s) = String.length s.
Proof. unfold str. rewrite map_length. induction s as [|a s IH]; cbn; congruence. Qed.

Lemma no_nul_app (a b : list Z) : ~ In 0 a -> ~ In 0 b -> ~ In 0 (a ++ b).
Proof. intros A B H. apply in_app_iff in H. tauto. Qed.

Lemma exe_nn : ~ In 0 (str ".exe").
Proof. cbn. intuition discriminate. Qed.
Lemma bin_nn : ~ In 0 (str "flash:/bin/").
Proof. cbn. intuition discriminate. Qed.

Lemma here_built name buf : ~ In 0 name -> length buf = (length name + 16)%nat ->
  exists r, (b <- strcpy buf name ;; strcat b (str ".exe")) = Ok (here name ++ 0 :: r) /\ length r = 11%nat.
Proof.
  intros N L. rewrite strcpy_ok by lia. cbn [bind]. pose proof (str_len ".exe") as E. cbn [String.length] in E.
  rewrite strcat_ok; [|exact N | rewrite skipn_length; lia].
  eexists. split; [unfold here; now rewrite <- app_assoc|]. rewrite !skipn_length. lia.
Qed.

Lemma there_built name buf : ~ In 0 name -> length buf = (length name + 16)%nat ->
  (b <- strcpy buf (str "flash:/bin/") ;; b <- strcat b name ;; strcat b (str ".exe")) = Ok (there name ++ [0]).
Proof.
  intros N L. pose proof (str_len ".exe") as E. pose proof (str_len "flash:/bin/") as B. cbn [String.length] in E, B.
  rewrite strcpy_ok by lia. cbn [bind]. rewrite strcat_ok; [|exact bin_nn | rewrite skipn_length; lia]. cbn [bind].
  rewrite app_assoc. rewrite strcat_ok; [|apply no_nul_app; [exact bin_nn | exact N] | rewrite !skipn_length; lia].
  unfold there. rewrite <- !app_assoc.
  rewrite (skipn_all2 (n := length (str ".exe"))); [reflexivity|]. rewrite !skipn_length. lia.
Qed.

Lemma bind_assoc {A B C} (x : res A) (f : A -> res B) (g : B -> res C) : bind (bind x f) g = bind x (fun a => bind (f a) g).
Proof. now destruct x. Qed.

Lemma find_exe_ok w name buf : ~ In 0 name -> length buf = (length name + 16)%nat -> 
  find_exe w name buf = Ok (if has_char name 47 || has_char name 46 then Some name
                            else if w_stat w (here name) then Some (here name)
                            else if w_stat w (there name) then Some (there name) else None).
Proof.
  intros N L. unfold find_exe. destruct (has_char name 47); [reflexivity|]. destruct (has_char name 46); [reflexivity|]. cbn [orb].
  destruct (here_built name buf N L) as (r & H & Lr). rewrite <- bind_assoc, H. cbn [bind].
  rewrite cstr_app by (apply no_nul_app; [exact N | exact exe_nn]). cbn [bind].
  destruct (w_stat w (here name)); [reflexivity|].
  pose proof (there_built name (here name ++ 0 :: r) N) as T.
  assert (LL : length (here name ++ 0 :: r) = (length name + 16)%nat).
  { unfold here. rewrite !app_length, str_len. cbn [length String.length]. lia. }
  specialize (T LL). apply bind_ok in T as (b1 & T1 & T). apply bind_ok in T as (b2 & T2 & T). rewrite T1. cbn [bind]. rewrite T2. cbn [bind]. rewrite T. cbn [bind].
  change (there name ++ [0]) with (there name ++ 0 :: []). rewrite cstr_app; [reflexivity|].
  unfold there. apply no_nul_app; [exact bin_nn|]. apply no_nul_app; [exact N | exact exe_nn].
Qed.

Lemma last_char (name : list Z) : name <> [] -> exists p c, name = p ++ [c] /\ rd name (length name - 1) = Ok c.
Proof.
  intros N. destruct (exists_last N) as (p & c & ->). exists p, c. split; [reflexivity|]. unfold rd.
  rewrite app_length. cbn [length]. rewrite nth_error_app2 by lia. replace (length p + 1 - 1 - length p)%nat with 0%nat by lia. reflexivity.
Qed.

Section Exec.
Variable b64 : bool.
Variable machine : Z.
Variable bindings : list table.

Notation exec := (exec b64 machine bindings).

Definition outcome (w : world) (m : meaning) (argv : list (list Z)) : res (list event) :=
  match m with
  | MeansDrive => Ok (Chdrive (hd [] argv) :: if w_drive w (hd [] argv) then [] else [Say MDrive])
  | MeansBuiltin c => Ok [Builtin c argv]
  | MeansFile p => run_file b64 machine bindings w p argv
  | MeansNothing => Ok [Say MNotFound]
  end.

Theorem exec_ok w (junk name : list Z) args m : name <> [] -> ~ In 0 name -> (length name + 16 <= length junk)%nat ->
  means (w_stat w) name m -> exec w junk (name :: args) = outcome w m (name :: args).
Proof.
  intros NE N L M. unfold ExecModel.exec. destruct (last_char name NE) as (p & c & E & R).
  assert (R' : match name with [] => Ub | _ => rd name (length name - 1) end = Ok c) by (destruct name; [congruence | exact R]).
  rewrite R'. cbn [bind].
  assert (D : (c =? 58) = true <-> is_drive name).
  { split.
    - intros H. exists p. rewrite E. do 2 f_equal. lia.
    - intros (q & Q). rewrite E in Q. apply app_inj_tail in Q as (_ & ->). reflexivity. }
  assert (FE : find_exe w name (firstn (length name + 5 + 11) junk) = _) by (apply find_exe_ok; [exact N | rewrite firstn_length; lia]).
  destruct m as [| k | q |]; cbn [means outcome hd] in *.
  - apply D in M. now rewrite M.
  - destruct M as (ND & B). destruct (c =? 58); [exfalso; apply ND; now apply D|]. apply find_cmd_iff in B. now rewrite B.
  - destruct M as (ND & B & Q). destruct (c =? 58); [exfalso; apply ND; now apply D|].
    apply find_cmd_none_iff in B. rewrite B, FE.
    destruct (has_char name 47 || has_char name 46) eqn:HC.
    + assert (IP : is_path name) by (unfold is_path; rewrite <- !has_char_iff; now apply orb_true_iff).
      destruct Q as [(_ & ->) | [(X & _) | (X & _)]]; [reflexivity | tauto | tauto].
    + assert (IP : ~ is_path name) by (unfold is_path; rewrite <- !has_char_iff, <- orb_true_iff; congruence).
      destruct Q as [(X & _) | [(_ & Y & ->) | (_ & Y & Z & ->)]]; [tauto | now rewrite Y | now rewrite Y, Z].
  - destruct M as (ND & B & X & Y & Z). destruct (c =? 58); [exfalso; apply ND; now apply D|].
    apply find_cmd_none_iff in B. rewrite B, FE.
    replace (has_char name 47 || has_char name 46) with false; [now rewrite Y, Z|]. symmetry. apply not_true_iff_false.
    intros H. apply X. unfold is_path. rewrite <- !has_char_iff. now apply orb_true_iff.
Qed.

Theorem means_total st name : exists m, means st name m.
Proof.
  assert (D : {is_drive name} + {~ is_drive name}).
  { destruct (list_eq_dec Z.eq_dec name []) as [->|NE]; [right; intros (p & P); destruct p; discriminate|].
    destruct (Z.eq_dec (last name 0) 58) as [E|E].
    - left. exists (removelast name). rewrite <- E. now apply app_removelast_last.
    - right. intros (p & ->). apply E. apply last_last. }
  destruct D as [D|D]; [now exists MeansDrive|].
  destruct (find_cmd cmd_tab name) as [c|] eqn:F; [exists (MeansBuiltin c); split; [exact D | now apply find_cmd_iff]|].
  assert (B := proj1 (find_cmd_none_iff name) F).
  destruct (has_char name 47 || has_char name 46) eqn:HC.
  - exists (MeansFile name). split; [exact D|]. split; [exact B|]. left. split; [|reflexivity].
    unfold is_path. rewrite <- !has_char_iff. now apply orb_true_iff.
  - assert (P : ~ is_path name) by (unfold is_path; rewrite <- !has_char_iff, <- orb_true_iff; congruence).
    destruct (st (here name)) eqn:H; [exists (MeansFile (here name)); cbn; auto 10|].
    destruct (st (there name)) eqn:T; [exists (MeansFile (there name)); cbn; auto 10|].
    exists MeansNothing. cbn. auto.
Qed.

Theorem means_unique st name m m' : means st name m -> means st name m' -> m = m'.
Proof.
  assert (U : forall c d, is_builtin name c -> is_builtin name d -> c = d).
  { intros c d C D. apply find_cmd_iff in C. apply find_cmd_iff in D. congruence. }
  destruct m as [|c|p|], m' as [|d|q|]; cbn [means]; try tauto.
  - intros (_ & C) (_ & D). f_equal. eauto.
  - intros (_ & C) (_ & D & _). exfalso. eapply D; eauto.
  - intros (_ & C) (_ & D & _). exfalso. eapply D; eauto.
  - intros (_ & C & _) (_ & D). exfalso. eapply C; eauto.
  - intros (_ & _ & A) (_ & _ & B). f_equal. intuition congruence.
  - intros (_ & _ & A) (_ & _ & B). intuition congruence.
  - intros (_ & C & _) (_ & D). exfalso. eapply C; eauto.
  - intros (_ & _ & A) (_ & _ & B). intuition congruence.
Qed.

(* Running a file. *)
Theorem run_called w path argv fd f rel num e got : w_open w path = fd -> 0 < fd -> w_fstat w path = true ->
  w_map w path = Some f -> w_stack w = true -> w_push w = true ->
  check_file b64 machine f = Ok (inr (rel, num)) -> invoke b64 f bindings rel num = Ok (Called e got) ->
  run_file b64 machine bindings w path argv = Ok [Open path fd; Map f; Push; Call e got argv; Unmap; Close fd; Pop].
Proof.
  intros O F S M K P C I. unfold run_file, load, load_arch. rewrite O, S, M. replace (fd <? 0) with false by lia. cbn [negb].
  rewrite C. cbn [bind]. rewrite K, P. cbn [negb]. rewrite I. cbn [bind]. unfold unload_arch. replace (0 <? fd) with true by lia. reflexivity.
Qed.

Lemma count_cons p e tr : count p (e :: tr) = ((if p e then 1 else 0) + count p tr)%nat.
Proof. unfold count. cbn [filter]. now destruct (p e). Qed.

Theorem run_balanced w path argv tr : 0 <> w_open w path ->
  (0 < w_open w path -> w_fstat w path = true /\ exists f, w_map w path = Some f) -> w_stack w = true -> w_push w = true ->
  run_file b64 machine bindings w path argv = Ok tr -> balanced tr.
Proof.
  intros O F S P. unfold run_file, load, load_arch. destruct (w_open w path <? 0) eqn:E.
  { cbn [unload_arch app]. replace (0 <? w_open w path) with false by lia. cbn. intros H. injection H as <-.
    split; [|split]; reflexivity. }
  destruct F as (F & f & M); [lia|]. rewrite F, M, S, P. cbn [negb].
  destruct (check_file b64 machine f) as [[er|(rel & num)]| |]; cbn [bind]; try discriminate.
  - cbn [unload_arch app]. replace (0 <? w_open w path) with true by lia. intros H. injection H as <-.
    split; [|split]; [|reflexivity|reflexivity]. intros fd. unfold count. cbn. destruct (w_open w path =? fd); reflexivity.
  - destruct (invoke b64 f bindings rel num) as [i| |]; cbn [bind]; try discriminate.
    cbn [unload_arch app]. replace (0 <? w_open w path) with true by lia. intros H. injection H as <-.
    destruct i; (split; [|split]; [|reflexivity|reflexivity]); intros fd; unfold count; cbn; destruct (w_open w path =? fd); reflexivity.
Qed.

End Exec.
