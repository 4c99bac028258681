(* Patterns and drive prefixes: proofs. *)
From Verif Require Import Base CrcSpec Finite FutfModel FutfSpec FutfProof FpatModel FpatSpec.
Open Scope Z_scope.
Ltac Zify.zify_post_hook ::= Z.div_mod_to_equations.

(* --- drive prefixes --- *)

Lemma colon_ok pre c rest : Forall plain_byte pre -> c = 58 \/ 0 <= c < 32 ->
  forall n fuel, (length pre < fuel)%nat -> colon fuel (pre ++ c :: rest) n = Ok (c, S (n + length pre)).
Proof.
  intros P Hc. induction P as [|x pre Hx P IH]; intros n fuel Hf; (destruct fuel as [|fuel]; [lia|]); cbn [colon app next bind length].
  - replace (negb (is_term c) && negb (c =? 58)) with false by (unfold is_term; lia). do 3 f_equal. lia.
  - destruct Hx. replace (negb (is_term x) && negb (x =? 58)) with true by (unfold is_term; lia).
    cbn [length] in Hf. rewrite IH by lia. do 3 f_equal. lia.
Qed.

(* Comparison with one drive name (capitals up to a zero). *)
Lemma same_name_ok name : Forall (fun c => cap c <> 0 /\ cap c <> 58) name -> forall pre rest n fuel, Forall plain_byte pre ->
  (length name < fuel)%nat ->
  exists c m, same_name fuel (name ++ [0]) (pre ++ 58 :: rest) n = Ok (c, m) /\
    ((c = 0 /\ m = (n + S (length pre))%nat) <-> fold_case pre = map cap name).
Proof.
  intros N. induction N as [|x name [Hx Hy] N IH]; intros pre rest n fuel P Hf; (destruct fuel as [|fuel]; [lia|]); cbn [same_name app next bind].
  - assert (E : exists t r, pre ++ 58 :: rest = t :: r) by (destruct pre; cbn; eauto). destruct E as (t & r & E). rewrite E. cbn [next bind].
    change (cap 0) with 0. change (0 =? 0) with true. cbn [negb andb]. exists 0, (S n). split; [reflexivity|].
    destruct pre as [|y pre]; cbn; split; intros; [reflexivity|split; lia|exfalso; lia|discriminate].
  - destruct pre as [|y pre]; cbn [app next bind].
    + replace (cap 58) with 58 by reflexivity. replace (negb (cap x =? 0) && (cap x =? 58)) with false by lia.
      exists (cap x), (S n). split; [reflexivity|]. cbn. split; [lia|discriminate].
    + inversion P; subst. replace (negb (cap x =? 0)) with true by lia. cbn [andb].
      destruct (cap x =? cap y) eqn:Q.
      * cbn [length] in Hf. destruct (IH pre rest (S n) fuel H2 ltac:(lia)) as (c & m & E & F).
        exists c, m. split; [exact E|]. cbn [fold_case map length]. apply Z.eqb_eq in Q. change (if (97 <=? y) && (y <=? 122) then y - 32 else y) with (cap y).
        rewrite <- Q. split.
        -- intros [A B]. f_equal. apply F. split; [auto|lia].
        -- intros A. inversion A. apply F in H0. lia.
      * exists (cap x), (S n). split; [reflexivity|]. cbn [fold_case map]. split; [lia|]. intros A. inversion A.
        change (if (97 <=? y) && (y <=? 122) then y - 32 else y) with (cap y) in H0. lia.
Qed.

Lemma ldnumber_ok pre rest curr : Forall plain_byte pre ->
  exists d, get_ldnumber curr (pre ++ 58 :: rest) = Ok (if d =? -1 then (-1, pre ++ 58 :: rest) else (d, rest)) /\
    (drive_named pre d \/ (d = -1 /\ forall e, ~ drive_named pre e)).
Proof.
  intros P. unfold get_ldnumber. rewrite colon_ok by (rewrite ?app_length; cbn; auto; lia). cbn [bind].
  change (58 =? 58) with true. cbv iota.
  assert (Sk : forall l : list Z, skipn (S (0 + length l)) (l ++ 58 :: rest) = rest).
  { intros l. replace (S (0 + length l)) with (length (l ++ [58])) by (rewrite app_length; cbn; lia).
    change (58 :: rest) with ([58] ++ rest). rewrite app_assoc, skipn_app, skipn_all, Nat.sub_diag. reflexivity. }
  destruct pre as [|x pre].
  { cbn [app deref bind]. change ((48 <=? 58) && (58 <=? 57)) with false. cbn [andb]. cbn [find_drive disk_name].
    exists (-1). split; [reflexivity|]. right. split; [reflexivity|]. intros e [[_ [H|H]]|[_ [H|H]]]; discriminate. }
  cbn [app deref bind]. change (x :: pre ++ 58 :: rest) with ((x :: pre) ++ 58 :: rest).
  destruct ((48 <=? x) && (x <=? 57) && (S (0 + length (x :: pre)) =? 2)%nat) eqn:Q.
  - rewrite !andb_true_iff, Nat.eqb_eq in Q. destruct Q as [[Q1 Q2] Q3]. destruct pre; [|discriminate]. cbn [bind].
    destruct (x - 48 <? 2) eqn:R.
    + exists (x - 48). replace (x - 48 =? -1) with false by lia. rewrite (Sk [x]). split; [reflexivity|]. left.
      assert (x = 48 \/ x = 49) as [-> | ->] by lia; [left|right]; auto.
    + exists (-1). split; [reflexivity|]. right. split; [reflexivity|]. unfold drive_named.
      intros e [[_ [H|H]]|[_ [H|H]]]; inversion H; lia.
  - assert (ND : x :: pre <> [48] /\ x :: pre <> [49]) by (split; intros E; inversion E; subst; discriminate).
    cbn [find_drive disk_name].
    destruct (same_name_ok [102; 108; 97; 115; 104] ltac:(repeat (apply Forall_cons; [cbv; split; discriminate|]); apply Forall_nil)
      (x :: pre) rest 0 7 P ltac:(cbn; lia)) as (c & m & E & F).
    change (S (length [102; 108; 97; 115; 104; 0])) with 7%nat. cbn [app] in E. cbn [app]. rewrite E. cbn [bind].
    destruct (same_name_ok [115; 100] ltac:(repeat (apply Forall_cons; [cbv; split; discriminate|]); apply Forall_nil)
      (x :: pre) rest 0 4 P ltac:(cbn; lia)) as (c2 & m2 & E2 & F2).
    change (S (length [115; 100; 0])) with 4%nat. cbn [app] in E2. 
    change (map cap [102; 108; 97; 115; 104]) with [70; 76; 65; 83; 72] in F. change (map cap [115; 100]) with [83; 68] in F2.
    destruct (negb (c =? 0) || negb (m =? S (0 + length (x :: pre)))%nat) eqn:R.
    + rewrite E2. cbn [bind]. assert (N1 : fold_case (x :: pre) <> [70; 76; 65; 83; 72]).
      { intros A. apply F in A. destruct A as [-> ->]. rewrite Nat.eqb_refl in R. discriminate. }
      destruct (negb (c2 =? 0) || negb (m2 =? S (0 + length (x :: pre)))%nat) eqn:R2.
      * exists (-1). split; [reflexivity|]. right. split; [reflexivity|].
        intros e [[_ [H|H]]|[_ [H|H]]]; [tauto|tauto|tauto|]. apply F2 in H. destruct H as [-> ->].
        rewrite Nat.eqb_refl in R2. discriminate.
      * exists 1. change (0 + 1 <? 2) with true. change (1 =? -1) with false. cbv iota. split.
        -- cbn [bind]. change (0 + 1 <? 2) with true. cbv iota. pose proof (Sk (x :: pre)) as K. cbn [app] in K. rewrite K. reflexivity.
        -- left. right. split; [reflexivity|]. right. apply F2. lia.
    + exists 0. change (0 =? -1) with false. cbv iota. split.
      * cbn [bind]. change (0 <? 2) with true. cbv iota. pose proof (Sk (x :: pre)) as K. cbn [app] in K. rewrite K. reflexivity.
      * left. left. split; [reflexivity|]. right. apply F. lia.
Qed.

Lemma ldnumber_none pre c rest curr : Forall plain_byte pre -> 0 <= c < 32 ->
  get_ldnumber curr (pre ++ c :: rest) = Ok (curr, pre ++ c :: rest).
Proof.
  intros P Hc. unfold get_ldnumber. rewrite colon_ok by (rewrite ?app_length; cbn; auto; lia). cbn [bind].
  now replace (c =? 58) with false by lia.
Qed.

Lemma path_cases l : Forall byte l -> In 0 l -> exists pre c rest, l = pre ++ c :: rest /\ Forall plain_byte pre /\ (c = 58 \/ 0 <= c < 32).
Proof.
  intros B. induction B as [|x l Hx B IH]; intros I; [destruct I|]. unfold byte in Hx.
  destruct (Z.eq_dec x 58) as [->|N]; [exists [], 58, l; auto|].
  destruct (Z_lt_le_dec x 32); [exists [], x, l; split; [auto|split; [auto|right; lia]]|].
  destruct IH as (pre & c & rest & -> & P & C); [destruct I; [lia|auto]|].
  exists (x :: pre), c, rest. split; [reflexivity|]. split; [constructor; [unfold plain_byte; lia|auto]|auto].
Qed.

(* --- characters of a text --- *)

Definition F (c : Z) : Z := upper (utf16_of c).

Lemma F_nz c : char c -> F c <> 0.
Proof.
  unfold char, scalar, F, utf16_of. intros [H N]. destruct (Z.ltb_spec c 65536).
  - destruct (upper_ok c) as (_ & _ & _ & A & B & _); [lia|]. destruct (Z_lt_le_dec c 128).
    + rewrite B by lia. destruct ((97 <=? c) && (c <=? 122)) eqn:Q; lia.
    + specialize (A ltac:(lia)). lia.
  - assert (65536 <= (55296 + (c - 65536) / 1024) * 65536 + (56320 + (c - 65536) mod 1024)) by lia.
    destruct (upper_pair _ H1) as [_ ->]. lia.
Qed.

Lemma text_cons c w t : text (c :: w) t = utf8_of c ++ text w t.
Proof. unfold text. cbn [flat_map]. now rewrite app_assoc. Qed.

Lemma achar_cons c w t : char c -> get_achar (text (c :: w) t) = Ok (F c, text w t).
Proof.
  intros [Hs N]. rewrite text_cons. unfold get_achar. rewrite decode_ok by auto. cbn [bind].
  assert (E : ff_wtoupper (utf16_of c) = Ok (F c)).
  { unfold F, scalar in *. unfold utf16_of. destruct (Z.ltb_spec c 65536).
    - apply upper_ok. lia.
    - assert (65536 <= (55296 + (c - 65536) / 1024) * 65536 + (56320 + (c - 65536) mod 1024)) by lia.
      destruct (upper_pair _ H0) as [-> ->]. reflexivity. }
  rewrite E. reflexivity.
Qed.
Lemma achar_nil t : get_achar (text [] t) = Ok (0, t).
Proof. reflexivity. Qed.

Lemma first_byte c : char c -> exists b r, utf8_of c = b :: r /\ b <> 0 /\ wild b = wild c /\ (wild c = true -> b = c /\ r = []).
Proof.
  unfold char, scalar, utf8_of, utf8_count. intros [H N].
  destruct (Z.ltb_spec c 128); [|destruct (Z.ltb_spec c 2048); [|destruct (Z.ltb_spec c 65536)]].
  all: unfold utf8_form; cbn; eexists _, _; split; [reflexivity|]; split; [lia|]; unfold wild; split; [lia|]; intros W; try lia; auto.
Qed.

Lemma deref_cons c w t : char c -> exists b, deref (text (c :: w) t) = Ok b /\ b <> 0 /\ wild b = wild c.
Proof.
  intros H. destruct (first_byte c H) as (b & r & E & N & W & _). rewrite text_cons, E. exists b. auto.
Qed.
Lemma deref_nil t : deref (text [] t) = Ok 0.
Proof. reflexivity. Qed.

(* --- wildcard runs --- *)

Fixpoint qs (ws : list Z) : nat := match ws with [] => 0 | c :: r => if c =? 63 then S (qs r) else qs r end.
Fixpoint star (ws : list Z) : bool := match ws with [] => false | c :: r => (c =? 42) || star r end.
Definition unwild (q : list Z) : Prop := match q with [] => True | c :: _ => wild c = false end.

Lemma run_split p : exists ws q, p = ws ++ q /\ Forall (fun c => wild c = true) ws /\ unwild q.
Proof.
  induction p as [|c p (ws & q & -> & A & B)]; [exists [], []; cbn; auto|].
  destruct (wild c) eqn:W; [exists (c :: ws), q; auto|]. exists [], (c :: ws ++ q). cbn. auto.
Qed.

Definition fits (s : bool) (k : nat) (a : list Z) : Prop := if s then (k <= length a)%nat else length a = k.

Lemma wild_cases c : wild c = true -> c = 63 \/ c = 42.
Proof. unfold wild. lia. Qed.

Lemma glob_any_inv p n : glob (63 :: p) n -> exists c m, n = c :: m /\ glob p m.
Proof. intros G. inversion G; subst; eauto; contradiction. Qed.
Lemma glob_star_inv p n : glob (42 :: p) n -> exists s m, n = s ++ m /\ glob p m.
Proof. intros G. inversion G; subst; eauto; contradiction. Qed.

Lemma glob_run ws : Forall (fun c => wild c = true) ws -> forall q n,
  glob (ws ++ q) n <-> exists a m, n = a ++ m /\ fits (star ws) (qs ws) a /\ glob q m.
Proof.
  induction 1 as [|c ws W _ IH]; intros q n; cbn [app star qs].
  - split; [intros G; exists [], n; cbn; auto|]. intros (a & m & -> & L & G). destruct a; [exact G|discriminate].
  - apply wild_cases in W. destruct W as [-> | ->].
    + change (63 =? 42) with false. change (63 =? 63) with true. cbn [orb]. cbv iota. split.
      * intros G. apply glob_any_inv in G. destruct G as (c & n' & -> & G). apply IH in G. destruct G as (a & m & -> & L & G').
        exists (c :: a), m. split; [reflexivity|]. split; [|auto]. unfold fits in *. destruct (star ws); cbn; lia.
      * intros (a & m & -> & L & G). destruct a as [|c a]; [unfold fits in L; destruct (star ws); cbn in L; lia|].
        cbn [app]. constructor. apply IH. exists a, m. split; [auto|]. split; [|auto]. unfold fits in *. destruct (star ws); cbn in L; lia.
    + change (42 =? 42) with true. change (42 =? 63) with false. cbn [orb]. cbv iota. split.
      * intros G. apply glob_star_inv in G. destruct G as (s & n' & -> & G). apply IH in G. destruct G as (a & m & -> & L & G').
        exists (s ++ a), m. rewrite app_assoc. split; [reflexivity|]. split; [|auto]. unfold fits in *. rewrite app_length. destruct (star ws); lia.
      * intros (a & m & -> & L & G). unfold fits in L.
        rewrite <- (firstn_skipn (length a - qs ws) a), <- app_assoc. constructor. apply IH.
        exists (skipn (length a - qs ws) a), m. split; [auto|]. split; [|auto]. unfold fits. rewrite skipn_length. destruct (star ws); lia.
Qed.

Lemma groups_run ws q : Forall (fun c => wild c = true) ws -> unwild q -> groups_from true (ws ++ q) = groups q.
Proof.
  intros A B. induction A as [|c ws W _ IH]; cbn [app groups_from].
  - destruct q as [|c q]; [reflexivity|]. unfold groups. cbn [groups_from]. cbn in B. now rewrite B.
  - now rewrite W.
Qed.

Lemma runs_run ws q : Forall (fun c => wild c = true) ws -> unwild q -> forall n, runs n (ws ++ q) -> (n + qs ws < 256)%nat /\ runs 0 q.
Proof.
  intros A B. induction A as [|c ws W _ IH]; intros n R; cbn [app runs qs] in *.
  - destruct q as [|c q]; cbn [runs] in *; [lia|]. cbn in B. unfold wild in B.
    replace (c =? 63) with false in * by lia. replace (c =? 42) with false in * by lia. destruct R. split; [lia|]. split; [lia|auto].
  - apply wild_cases in W. destruct W as [-> | ->].
    + change (63 =? 63) with true in *. cbv iota in *. apply IH in R. split; [lia|tauto].
    + change (42 =? 63) with false in *. change (42 =? 42) with true in *. cbv iota in *. apply IH in R. tauto.
Qed.

Lemma lor256 x : 0 <= x < 512 -> Z.lor x 256 = x mod 256 + 256.
Proof.
  intros H. pose proof (allb0 9 (fun x => Z.lor x 256 =? x mod 256 + 256) ltac:(vm_cast_no_check (eq_refl true)) x H) as K.
  cbv beta in K. lia.
Qed.

Definition code (k : nat) (s : bool) : Z := Z.of_nat k + 256 * Z.b2z s.

Lemma term_ok ws : Forall (fun c => wild c = true) ws -> ws <> [] -> forall q t, unwild q -> Forall char q ->
  forall k s fuel, (length ws <= fuel)%nat -> (k + qs ws < 256)%nat ->
  term fuel (text (ws ++ q) t) (code k s) = Ok (code (k + qs ws) (s || star ws), text q t).
Proof.
  induction 1 as [|c ws W A IH]; intros N q t U Q k s fuel Hf Hk; [contradiction|]. clear N.
  destruct fuel as [|fuel]; [cbn in Hf; lia|]. cbn [length] in Hf.
  assert (E : text ((c :: ws) ++ q) t = c :: text (ws ++ q) t).
  { cbn [app]. rewrite text_cons. apply wild_cases in W. destruct W as [-> | ->]; reflexivity. }
  rewrite E. cbn [term next bind].
  set (sk := if c =? 63 then w32 (code k s + 1) else Z.lor (code k s) 256).
  assert (Esk : exists k' s', sk = code k' s' /\ (k' + qs ws = k + qs (c :: ws))%nat /\ (s' || star ws = s || star (c :: ws))%bool).
  { unfold sk. apply wild_cases in W. cbn [qs star] in *. destruct W as [-> | ->].
    - change (63 =? 63) with true in *. change (63 =? 42) with false. cbv iota in *. exists (S k), s. split; [|split; [lia|reflexivity]].
      unfold code, w32. destruct s; cbn [Z.b2z]; lia.
    - change (42 =? 63) with false in *. change (42 =? 42) with true. cbv iota in *. exists k, true. split; [|split; [lia|]].
      + unfold code in *. rewrite lor256 by (destruct s; cbn [Z.b2z]; lia). destruct s; cbn [Z.b2z]; lia.
      + cbn. now destruct s. }
  destruct Esk as (k' & s' & -> & Ek & Es).
  destruct ws as [|d ws].
  - cbn [app]. assert (D : exists b, deref (text q t) = Ok b /\ wild b = false).
    { destruct q as [|e q]; [exists 0; auto|]. inversion Q; subst. destruct (deref_cons e q t H1) as (b & D & _ & Wb). exists b. split; [auto|]. cbn in U. congruence. }
    destruct D as (b & -> & Wb). cbn [bind]. rewrite Wb. cbn [qs star] in *. rewrite <- Ek, <- Es. rewrite Nat.add_0_r, orb_false_r. reflexivity.
  - assert (D : deref (text ((d :: ws) ++ q) t) = Ok d).
    { inversion A; subst. cbn [app]. rewrite text_cons. apply wild_cases in H1. destruct H1 as [-> | ->]; reflexivity. }
    rewrite D. cbn [bind]. inversion A; subst. rewrite H1. rewrite IH; [|discriminate|auto|auto|lia|lia]. now rewrite Ek, Es.
Qed.

Lemma preskip_ok k : forall n t, Forall char n ->
  preskip k (text n t) = Ok (if (k <=? length n)%nat then Some (text (skipn k n) t) else None).
Proof.
  induction k as [|k IH]; intros n t C; [reflexivity|]. cbn [preskip]. destruct C as [|c n Hc C].
  - rewrite achar_nil. reflexivity.
  - rewrite achar_cons by auto. cbn [bind]. pose proof (F_nz c Hc). replace (F c =? 0) with false by lia. rewrite IH by auto. reflexivity.
Qed.

(* --- the loops --- *)

Lemma glob_cons c p n : wild c = false -> glob (c :: p) n <-> exists d m, n = d :: m /\ F c = F d /\ glob p m.
Proof.
  unfold wild. intros W. split.
  - intros G. inversion G; subst; try discriminate. eexists _, _. split; [reflexivity|]. auto.
  - intros (d & m & -> & E & G). constructor; auto; lia.
Qed.

Definition matches (R : nat) (q n : list Z) (k : nat) (s : bool) : Prop :=
  (groups q <= R)%nat /\ exists a m, n = a ++ m /\ fits s k a /\ glob q m.

Definition rec_ok (recur : nat) (rec : option (list Z -> list Z -> Z -> res bool)) : Prop :=
  match recur, rec with
  | O, None => True
  | S R, Some f => forall q n k s tq tn, Forall char q -> Forall char n -> runs 0 q -> (k < 256)%nat ->
      exists b, f (text q tq) (text n tn) (code k s) = Ok b /\ (b = true <-> matches R q n k s)
  | _, _ => False
  end.

Definition good (R : nat) (p n : list Z) : Prop := (groups p <= R)%nat /\ glob p n.

Lemma text_length w t : Forall char w -> (length w < length (text w t))%nat.
Proof.
  induction 1 as [|c w Hc _ IH]; [cbn; lia|]. rewrite text_cons, app_length. destruct (first_byte c Hc) as (b & r & -> & _). cbn [length]. lia.
Qed.

Lemma inner_ok R rec tp tn : rec_ok R rec -> forall p, Forall char p -> runs 0 p -> forall n fuel, Forall char n -> (length p < fuel)%nat ->
  exists e, inner rec fuel (text p tp) (text n tn) = Ok e /\
    match e with
    | Return true => good R p n
    | Return false => (R < groups p)%nat
    | Break x => ~ good R p n /\ (n = [] -> x = 0) /\ (x = 0 -> forall m, (length m < length n)%nat -> ~ good R p m)
    end.
Proof.
  intros HR p P. induction P as [|c p Hc P IH]; intros RU n fuel N Hf; (destruct fuel as [|fuel]; [lia|]).
  - cbn [inner]. rewrite deref_nil. cbn [bind]. change (wild 0) with false. cbv iota. rewrite achar_nil. cbn [bind].
    destruct N as [|d n Hd N].
    + rewrite achar_nil. cbn [bind]. exists (Return true). split; [reflexivity|]. split; [cbn; lia|constructor].
    + rewrite achar_cons by auto. cbn [bind]. pose proof (F_nz d Hd). replace (negb (0 =? F d)) with true by lia.
      exists (Break (F d)). split; [reflexivity|]. split; [intros [_ G]; inversion G|]. split; [discriminate|]. lia.
  - cbn [inner]. destruct (deref_cons c p tp Hc) as (b & D & _ & W). rewrite D. cbn [bind]. rewrite W.
    destruct (wild c) eqn:Wc.
    + clear IH. destruct (run_split (c :: p)) as (ws & q & E & A & U).
      assert (NE : ws <> []). { intros ->. cbn in E. subst q. cbn in U. congruence. }
      assert (Gr : groups (c :: p) = S (groups q)).
      { unfold groups at 1. cbn [groups_from]. rewrite Wc. f_equal.
        destruct ws as [|w ws]; [contradiction|]. cbn [app] in E. inversion E; subst. inversion A; subst. now apply groups_run. }
      assert (PC : Forall char (ws ++ q)) by (rewrite <- E; constructor; auto).
      rewrite E in RU. apply runs_run in RU; auto. destruct RU as [RK RQ].
      apply Forall_app in PC. destruct PC as [_ QC].
      destruct R as [|R], rec as [f|]; cbn in HR; try contradiction.
      * exists (Return false). split; [reflexivity|]. lia.
      * assert (T : term (length (text (c :: p) tp)) (text (c :: p) tp) 0 = Ok (code (qs ws) (star ws), text q tp)).
        { rewrite E. change 0 with (code 0 false). apply (term_ok ws A NE q tp U QC 0 false); [|lia].
          pose proof (text_length (ws ++ q) tp). rewrite <- E in H at 1. specialize (H (Forall_cons _ Hc P)). rewrite app_length in H. lia. }
        rewrite T. cbn [bind].
        destruct (HR q n (qs ws) (star ws) tp tn QC N RQ ltac:(lia)) as (b' & -> & M). cbn [bind].
        assert (GM : good (S R) (c :: p) n <-> matches R q n (qs ws) (star ws)).
        { unfold good, matches. rewrite Gr, E. rewrite (glob_run ws A). split; intros [X Y]; (split; [lia|exact Y]). }
        destruct b'; [exists (Return true); split; [reflexivity|]; apply GM, M; reflexivity|].
        assert (NG : ~ good (S R) (c :: p) n) by (intros G; apply GM, M in G; discriminate).
        destruct N as [|d n Hd N].
        -- rewrite deref_nil. cbn [bind]. exists (Break 0). split; [reflexivity|]. split; [auto|]. split; [auto|]. cbn [length]. intros; lia.
        -- destruct (deref_cons d n tn Hd) as (b1 & -> & Nz & _). cbn [bind]. exists (Break b1). split; [reflexivity|].
           split; [auto|]. split; [discriminate|lia].
    + assert (Gr : groups (c :: p) = groups p) by (unfold groups; cbn [groups_from]; now rewrite Wc).
      assert (RP : runs 0 p). { cbn [runs] in RU. unfold wild in Wc. replace (c =? 63) with false in RU by lia. replace (c =? 42) with false in RU by lia. tauto. }
      specialize (IH RP). rewrite achar_cons by auto. cbn [bind]. pose proof (F_nz c Hc) as Fc.
      destruct N as [|d n Hd N].
      * rewrite achar_nil. cbn [bind]. replace (negb (F c =? 0)) with true by lia. exists (Break 0). split; [reflexivity|].
        split; [|split; [auto|cbn; lia]]. intros [_ G]. apply glob_cons in G; auto. destruct G as (d & m & G & _). discriminate.
      * rewrite achar_cons by auto. cbn [bind]. pose proof (F_nz d Hd) as Fd. destruct (F c =? F d) eqn:Q; cbn [negb].
        -- apply Z.eqb_eq in Q. replace (F c =? 0) with false by lia. cbn [length] in Hf.
           destruct (IH n fuel N ltac:(lia)) as (e & -> & He). exists e. split; [reflexivity|].
           destruct e as [[|]|x].
           ++ destruct He as [X Y]. split; [lia|]. apply glob_cons; auto. exists d, n. auto.
           ++ lia.
           ++ destruct He as (H1 & H2 & H3). split; [|split; [discriminate|]].
              ** intros [X G]. apply glob_cons in G; auto. destruct G as (d' & m & E & _ & G). inversion E; subst. apply H1. split; [lia|auto].
              ** intros Hx m L [X G]. apply glob_cons in G; auto. destruct G as (d' & m' & -> & _ & G). cbn [length] in L.
                 apply (H3 Hx m'); [lia|]. split; [lia|auto].
        -- exists (Break (F d)). split; [reflexivity|]. split; [|split; [discriminate|lia]].
           intros [_ G]. apply glob_cons in G; auto. destruct G as (d' & m & E & E2 & _). inversion E; subst. lia.
Qed.

Lemma outer_ok R rec tp tn p : rec_ok R rec -> Forall char p -> runs 0 p -> forall n s fuel, Forall char n -> (length n < fuel)%nat ->
  exists b, outer rec fuel (text p tp) (text n tn) (code 0 s) = Ok b /\ (b = true <-> matches R p n 0 s).
Proof.
  intros HR P RU n s. induction n as [|d n IH]; intros fuel N Hf; (destruct fuel as [|fuel]; [lia|]); cbn [outer].
  - destruct (inner_ok R rec tp tn HR p P RU [] (S (length (text p tp))) N) as (e & -> & He).
    { pose proof (text_length p tp P). lia. }
    cbn [bind]. destruct e as [[|]|x].
    + exists true. split; [reflexivity|]. split; [|auto]. intros _. destruct He. split; [auto|]. exists [], []. split; [auto|]. split; [destruct s; cbn; lia|auto].
    + exists false. split; [reflexivity|]. split; [discriminate|]. intros [X _]. lia.
    + destruct He as (H1 & H2 & _). rewrite H2 by auto. rewrite achar_nil. cbn [bind]. change (negb (0 =? 0)) with false. rewrite andb_false_r.
      exists false. split; [reflexivity|]. split; [discriminate|]. intros [X (a & m & E & _ & G)].
      destruct a; [|discriminate]. cbn in E. subst m. exfalso. apply H1. split; auto.
  - destruct (inner_ok R rec tp tn HR p P RU (d :: n) (S (length (text p tp))) N) as (e & -> & He).
    { pose proof (text_length p tp P). lia. }
    cbn [bind]. destruct e as [[|]|x].
    + exists true. split; [reflexivity|]. split; [|auto]. intros _. destruct He. split; [auto|]. exists [], (d :: n). split; [auto|]. split; [destruct s; cbn; lia|auto].
    + exists false. split; [reflexivity|]. split; [discriminate|]. intros [X _]. lia.
    + destruct He as (H1 & _ & H3). inversion N; subst. rewrite achar_cons by auto. cbn [bind].
      destruct s; cbn [code Z.b2z].
      * change (Z.of_nat 0 + 256 * 1) with 256. change (negb (256 =? 0)) with true. cbn [andb]. destruct (x =? 0) eqn:Q; cbn [negb].
        -- apply Z.eqb_eq in Q. exists false. split; [reflexivity|]. split; [discriminate|]. intros [X (a & m & E & _ & G)].
           exfalso. destruct a as [|a0 a]; [cbn in E; subst m; apply H1; split; auto|]. inversion E; subst. apply (H3 eq_refl m).
           ++ cbn [length]. rewrite app_length. lia.
           ++ split; auto.
        -- cbn [length] in Hf. destruct (IH fuel H4 ltac:(lia)) as (b & E & M). change (code 0 true) with 256 in E. exists b. split; [exact E|].
           rewrite M. unfold matches. split; intros [X (a & m & E2 & L & G)]; (split; [exact X|]).
           ++ exists (d :: a), m. subst n. split; [reflexivity|]. split; [cbn; lia|auto].
           ++ destruct a as [|a0 a]; [cbn in E2; subst m; exfalso; apply H1; split; auto|]. inversion E2; subst. exists a, m.
              split; [auto|]. split; [cbn; lia|auto].
      * change (Z.of_nat 0 + 256 * 0) with 0. change (negb (0 =? 0)) with false. cbn [andb]. exists false. split; [reflexivity|].
        split; [discriminate|]. intros [X (a & m & E & L & G)]. cbn in L. destruct a; [|discriminate]. cbn in E. subst m.
        exfalso. apply H1. split; auto.
Qed.

Lemma code_low k s : (k < 256)%nat -> Z.land (code k s) 255 = Z.of_nat k.
Proof.
  intros H. change 255 with (Z.ones 8). rewrite Z.land_ones by lia. change (2 ^ 8) with 256. unfold code. destruct s; cbn [Z.b2z]; lia.
Qed.

Lemma pattern_ok R : forall p n k s tp tn, Forall char p -> Forall char n -> runs 0 p -> (k < 256)%nat ->
  exists b, pattern_match R (text p tp) (text n tn) (code k s) = Ok b /\ (b = true <-> matches R p n k s).
Proof.
  assert (Step : forall R rec, rec_ok R rec -> forall p n k s tp tn, Forall char p -> Forall char n -> runs 0 p -> (k < 256)%nat ->
    exists b, (o <- preskip (Z.to_nat (Z.land (code k s) 255)) (text n tn) ;;
      match o with
      | None => Ok false
      | Some nam =>
          let skip := code k s - Z.land (code k s) 255 in
          b <- deref (text p tp) ;;
          if (b =? 0) && negb (skip =? 0) then Ok true
          else outer rec (S (length nam)) (text p tp) nam skip
      end) = Ok b /\ (b = true <-> matches R p n k s)).
  { clear R. intros R rec HR p n k s tp tn P N RU Hk. rewrite code_low by auto. rewrite Nat2Z.id, preskip_ok by auto. cbn [bind].
    destruct (Nat.leb_spec k (length n)).
    2:{ exists false. split; [reflexivity|]. split; [discriminate|]. intros [_ (a & m & -> & L & _)].
        rewrite app_length in *. unfold fits in L. destruct s; lia. }
    cbv zeta. replace (code k s - Z.of_nat k) with (code 0 s) by (unfold code; lia).
    assert (MM : matches R p n k s <-> matches R p (skipn k n) 0 s).
    { unfold matches. split; intros [X (a & m & E & L & G)]; (split; [exact X|]).
      - exists (skipn k a), m. subst n. split.
        + rewrite skipn_app. replace (k - length a)%nat with 0%nat by (unfold fits in L; destruct s; lia). reflexivity.
        + split; [|auto]. unfold fits in *. rewrite skipn_length. destruct s; lia.
      - exists (firstn k n ++ a), m. split; [rewrite <- app_assoc, <- E; now rewrite firstn_skipn|]. split; [|auto].
        unfold fits in *. rewrite app_length, firstn_length. destruct s; lia. }
    assert (NS : Forall char (skipn k n)). { rewrite Forall_forall in *. intros x I. apply N. rewrite <- (firstn_skipn k n). apply in_or_app. auto. }
    assert (D : exists b, deref (text p tp) = Ok b /\ (b = 0 <-> p = [])).
    { destruct P as [|c p Hc P]; [exists 0; split; [reflexivity|tauto]|]. destruct (deref_cons c p tp Hc) as (b & -> & Nz & _).
      exists b. split; [reflexivity|]. split; [tauto|discriminate]. }
    destruct D as (b & -> & Db). cbn [bind]. destruct ((b =? 0) && negb (code 0 s =? 0)) eqn:Q.
    - apply andb_true_iff in Q. destruct Q as [Q1 Q2]. apply Z.eqb_eq in Q1. apply Db in Q1. subst p.
      destruct s; [|discriminate]. exists true. split; [reflexivity|]. split; [|auto]. intros _. apply MM. split; [cbn; lia|].
      exists (skipn k n), []. rewrite app_nil_r. split; [auto|]. split; [cbn; lia|constructor].
    - destruct (outer_ok R rec tp tn p HR P RU (skipn k n) s (S (length (text (skipn k n) tn))) NS) as (b' & E & M).
      { pose proof (text_length (skipn k n) tn NS). lia. }
      exists b'. split; [exact E|]. tauto. }
  induction R as [|R IH]; intros; cbn [pattern_match]; apply Step; cbn; auto.
Qed.

Lemma find_ok p n tp tn : Forall char p -> Forall char n -> runs 0 p ->
  exists b, find_match (text p tp) (text n tn) = Ok b /\ (b = true <-> (groups p <= 4)%nat /\ glob p n).
Proof.
  intros. destruct (pattern_ok 4 p n 0 false tp tn) as (b & E & M); auto; [lia|]. exists b. split; [exact E|].
  rewrite M. unfold matches, fits. split; intros [X Y]; (split; [exact X|]).
  - destruct Y as (a & m & -> & L & G). destruct a; [exact G|discriminate].
  - exists [], n. auto.
Qed.

(* --- arbitrary bytes --- *)

Definition str (l : list Z) : Prop := Forall byte l /\ In 0 l.

Lemma upper_total u c : scalar c -> u = utf16_of c -> ff_wtoupper u = Ok (F c).
Proof.
  intros H ->. unfold F. unfold scalar in H. unfold utf16_of. destruct (Z.ltb_spec c 65536).
  - apply upper_ok. lia.
  - assert (65536 <= (55296 + (c - 65536) / 1024) * 65536 + (56320 + (c - 65536) mod 1024)) by lia.
    destruct (upper_pair _ H1) as [-> ->]. reflexivity.
Qed.

Lemma str_tail b l : str (b :: l) -> b <> 0 -> str l.
Proof. intros [A B] N. inversion A; subst. destruct B; [congruence|]. split; auto. Qed.

Lemma form_zero n c : 128 <= c -> scalar c -> 0 <= n <= 4 -> n <> 1 -> ~ In 0 (utf8_form n c) /\ utf8_form n c <> [].
Proof.
  unfold utf8_form, scalar. intros. replace (n =? 1) with false by lia.
  destruct (n =? 2); [|destruct (n =? 3)]; (split; [cbn; lia|discriminate]).
Qed.

Lemma achar_any l : str l -> exists u r, get_achar l = Ok (u, r) /\ (u <> 0 -> str r /\ (length r < length l)%nat).
Proof.
  intros [B I]. destruct (decode_any l B I) as (o & r & E & H). unfold get_achar. rewrite E. cbn [bind]. destruct o as [u|].
  - destruct H as (c & f & Hs & -> & -> & Hf). rewrite (upper_total _ c) by auto. cbn [bind]. exists (F c), r. split; [reflexivity|].
    intros Nz. assert (Hc : c <> 0). { intros ->. apply Nz. reflexivity. }
    assert (Z0 : ~ In 0 f /\ f <> []).
    { destruct Hf as [-> | (k & Hk & H128 & ->)].
      - pose proof (utf8_of_nz c Hs Hc) as U. rewrite Forall_forall in U. split; [intros J; now apply (U 0)|].
        destruct (first_byte c (conj Hs Hc)) as (b & t & -> & _). discriminate.
      - apply form_zero; auto; unfold utf8_count in Hk; destruct (c <? 128) eqn:?; destruct (c <? 2048); destruct (c <? 65536); lia. }
    destruct Z0 as [Z0 Z1]. apply Forall_app in B. apply in_app_or in I. destruct B, I; [contradiction|]. split; [split; auto|].
    rewrite app_length. destruct f; [contradiction|]. cbn. lia.
  - subst r. assert (U : ff_wtoupper 0 = Ok 0) by reflexivity. rewrite U. cbn [bind]. exists 0, l. split; [reflexivity|]. congruence.
Qed.

Lemma deref_any l : str l -> exists b r, l = b :: r.
Proof. intros [_ I]. destruct l; [destruct I|eauto]. Qed.

Lemma term_any fuel : forall l sk, str l -> (length l <= fuel)%nat -> wild (hd 0 l) = true -> exists sk' q, term fuel l sk = Ok (sk', q) /\ str q.
Proof.
  induction fuel as [|fuel IH]; intros l sk H L W; destruct (deref_any l H) as (b & r & ->); [cbn in L; lia|].
  cbn [hd] in W. assert (R : str r) by (apply (str_tail b); [auto|unfold wild in W; lia]).
  cbn [term next bind]. destruct (deref_any r R) as (b' & r' & ->). cbn [deref bind]. destruct (wild b') eqn:W'.
  - apply IH; auto. cbn [length] in *. lia.
  - eexists _, _. split; [reflexivity|auto].
Qed.

Lemma preskip_any k : forall l, str l -> exists o, preskip k l = Ok o /\ (forall m, o = Some m -> str m).
Proof.
  induction k as [|k IH]; intros l H; cbn [preskip]; [exists (Some l); split; [auto|]; intros m E; inversion E; subst; auto|].
  destruct (achar_any l H) as (u & r & -> & Hr). cbn [bind]. destruct (u =? 0) eqn:Q; [exists None; split; [auto|discriminate]|].
  apply IH. apply Hr. lia.
Qed.

Definition rec_any (rec : option (list Z -> list Z -> Z -> res bool)) : Prop :=
  forall f, rec = Some f -> forall p n sk, str p -> wild (hd 0 p) = false -> str n -> exists b, f p n sk = Ok b.

Lemma term_unwild fuel : forall l sk sk' q, term fuel l sk = Ok (sk', q) -> wild (hd 0 q) = false.
Proof.
  induction fuel as [|fuel IH]; intros l sk sk' q E; [discriminate|]. cbn [term] in E. destruct l as [|b l]; [discriminate|]. cbn [next bind] in E.
  destruct l as [|b' l]; [discriminate|]. cbn [deref bind] in E. destruct (wild b') eqn:W; [eauto|]. inversion E; subst. exact W.
Qed.

Lemma inner_any rec : rec_any rec -> forall fuel p n, str p -> str n -> (length p < fuel)%nat ->
  exists e, inner rec fuel p n = Ok e /\
    (forall x u r, wild (hd 0 p) = false -> e = Break x -> x <> 0 -> get_achar n = Ok (u, r) -> u <> 0).
Proof.
  intros HR. induction fuel as [|fuel IH]; intros p n P N L; [lia|]. cbn [inner].
  destruct (deref_any p P) as (b & p' & ->). cbn [deref bind hd]. destruct (wild b) eqn:W.
  - destruct rec as [f|]; [|exists (Return false); split; [reflexivity|discriminate]].
    destruct (term_any (length (b :: p')) (b :: p') 0 P (le_n _) W) as (sk & q & ET & Q).
    pose proof (term_unwild _ _ _ _ _ ET) as WQ. rewrite ET. cbn [bind].
    destruct (HR f eq_refl q n sk Q WQ N) as (m & ->). cbn [bind]. destruct m; [exists (Return true); split; [reflexivity|discriminate]|].
    destruct (deref_any n N) as (x & n' & ->). cbn [deref bind]. eexists. split; [reflexivity|discriminate].
  - destruct (achar_any _ P) as (pc & pr & E1 & H1). destruct (achar_any _ N) as (nc & nr & E2 & H2). rewrite E1. cbn [bind]. rewrite E2. cbn [bind].
    destruct (pc =? nc) eqn:Q; cbn [negb].
    + destruct (pc =? 0) eqn:Q0; [exists (Return true); split; [reflexivity|discriminate]|].
      destruct (H1 ltac:(lia)) as [S1 L1]. destruct (H2 ltac:(lia)) as [S2 _].
      destruct (IH pr nr S1 S2 ltac:(lia)) as (e & -> & _). exists e. split; [reflexivity|]. intros x u r _ _ _ E. inversion E; subst. lia.
    + exists (Break nc). split; [reflexivity|]. intros x u r _ E Nx E'. inversion E; inversion E'; subst. exact Nx.
Qed.

Lemma outer_any rec p skip : rec_any rec -> str p -> (skip = 0 \/ wild (hd 0 p) = false) ->
  forall fuel n, str n -> (length n < fuel)%nat -> exists b, outer rec fuel p n skip = Ok b.
Proof.
  intros HR P HS. induction fuel as [|fuel IH]; intros n N L; [lia|]. cbn [outer].
  destruct (inner_any rec HR (S (length p)) p n P N ltac:(lia)) as (e & -> & He). cbn [bind]. destruct e as [b|x]; [eauto|].
  destruct (achar_any n N) as (u & r & E & H). rewrite E. cbn [bind].
  destruct (negb (skip =? 0) && negb (x =? 0)) eqn:Q; [|eauto]. destruct HS as [->|W]; [discriminate|].
  assert (U : u <> 0). { apply (He x u r W eq_refl); [lia|exact E]. }
  destruct (H U). apply IH; [auto|lia].
Qed.


Lemma pattern_any R : forall p n skip, str p -> str n -> skip = 0 \/ wild (hd 0 p) = false ->
  exists b, pattern_match R p n skip = Ok b.
Proof.
  assert (Step : forall rec, rec_any rec -> forall p n skip, str p -> str n -> skip = 0 \/ wild (hd 0 p) = false ->
    exists b, (o <- preskip (Z.to_nat (Z.land skip 255)) n ;;
      match o with
      | None => Ok false
      | Some nam =>
          let sk := skip - Z.land skip 255 in
          b <- deref p ;;
          if (b =? 0) && negb (sk =? 0) then Ok true else outer rec (S (length nam)) p nam sk
      end) = Ok b).
  { intros rec HR p n skip P N W. destruct (preskip_any (Z.to_nat (Z.land skip 255)) n N) as (o & -> & Ho). cbn [bind].
    destruct o as [m|]; [|eauto]. specialize (Ho m eq_refl). destruct (deref_any p P) as (b & p' & ->). cbn [deref bind]. cbv zeta.
    destruct ((b =? 0) && negb (skip - Z.land skip 255 =? 0)); [eauto|]. apply outer_any; auto.
    destruct W as [-> | W]; [left; reflexivity|right; exact W]. }
  induction R as [|R IH]; intros p n skip P N W; cbn [pattern_match]; apply Step; auto.
  - intros f E. discriminate.
  - intros f E p0 n0 sk P0 W0 N0. inversion E; subst. apply IH; auto.
Qed.

Lemma find_any p n : Forall byte p -> In 0 p -> Forall byte n -> In 0 n -> exists b, find_match p n = Ok b.
Proof. intros. apply pattern_any; [split; auto|split; auto|auto]. Qed.

Lemma glob_length p n : glob p n -> Forall (fun c => c <> 42) p -> length n = length p.
Proof. induction 1; intros A; inversion A; subst; cbn; auto. contradiction. Qed.

Lemma many_marks : exists p n, Forall char p /\ Forall char n /\ (groups p <= 4)%nat /\
  find_match (text p []) (text n []) = Ok true /\ ~ glob p n.
Proof.
  exists (repeat 63 256), [65]. split; [|split; [|split; [|split]]].
  - apply Forall_forall. intros x I. apply repeat_spec in I. subst x. split; [unfold scalar; lia|discriminate].
  - constructor; [|constructor]. split; [unfold scalar; lia|discriminate].
  - vm_compute. lia.
  - vm_compute. reflexivity.
  - intros G. apply glob_length in G; [discriminate|]. apply Forall_forall. intros x I. apply repeat_spec in I. subst x. discriminate.
Qed.
