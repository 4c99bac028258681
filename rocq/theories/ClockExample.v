(* Examples for ClockProps. *)
From Coq Require Import String Lia.
From Verif Require Import Base ExecModel GetoptModel DotwModel DotwSpec DirModel DirSpec ClockModel ClockSpec ClockProof.
Open Scope Z_scope.

(* 7 March 2024, a Thursday, 00:05:59 *)
Definition noon : clock := Clock 2024 3 7 4 0 5 59.
Definition late : clock := Clock 2200 3 7 5 12 5 59.

Lemma noon_ok : ok noon.
Proof. unfold ok, noon. cbn. lia. Qed.
Lemma late_ok : ok late.
Proof. unfold ok, late. cbn. lia. Qed.

Lemma short_len s : (length s <= 9)%nat -> short s.
Proof. intros L p ds q -> _. rewrite !app_length in L. lia. Qed.
Lemma short_split p x q : short p -> ~ figure x -> (length q <= 9)%nat -> short (p ++ x :: q).
Proof.
  intros P X Q a ds b E F.
  destruct (le_lt_dec (length a + length ds) (length p)) as [L|L].
  - assert (E' : firstn (length a + length ds) (p ++ x :: q) = a ++ ds).
    { rewrite E, app_assoc, <- app_length. rewrite firstn_app, firstn_all, Nat.sub_diag, firstn_O. apply app_nil_r. }
    rewrite firstn_app in E'. replace (length a + length ds - length p)%nat with 0%nat in E' by lia. rewrite firstn_O, app_nil_r in E'.
    apply (P a ds (skipn (length a + length ds) p)); auto. rewrite app_assoc, <- E'. symmetry. apply firstn_skipn.
  - destruct (le_lt_dec (length a) (length p)) as [M|M].
    + exfalso. apply X. rewrite Forall_forall in F. apply F.
      assert (N : nth_error (a ++ ds ++ b) (length p) = Some x) by (rewrite <- E, nth_error_app2, Nat.sub_diag by lia; reflexivity).
      rewrite nth_error_app2, nth_error_app1 in N by lia. eapply nth_error_In, N.
    + apply (f_equal (@length Z)) in E. rewrite !app_length in E. cbn [length] in E. lia.
Qed.

Lemma figures l : forallb isdigit l = true -> Forall figure l.
Proof. intros H. apply Forall_forall. intros x I. rewrite forallb_forall in H. apply figure_dec. auto. Qed.
Lemma writes_digits ds : ds <> [] -> forallb isdigit ds = true -> writes ds (value ds).
Proof. intros N F. exists [], [], ds. cbn [app]. split; [reflexivity|]. split; [constructor|]. split; [now apply figures|]. auto. Qed.

Definition d1 : list Z := str "2/29/2024".
Definition d2 : list Z := str " 02/+30/2023x".
Definition d3 : list Z := str "1/1/9000".
Definition d4 : list Z := str "13/1/2024".
Definition t1 : list Z := str "23:59:0".

Lemma ex_t1 : triple 47 d1 2 29 2024 /\ short d1 /\ plain d1.
Proof.
  split; [|split; [apply short_len; cbn; lia|left; discriminate]].
  exists (str "2"), (str "29"), (str "2024"), []. split; [reflexivity|].
  split; [apply (writes_digits (str "2")); [discriminate|reflexivity]|]. split; [apply (writes_digits (str "29")); [discriminate|reflexivity]|].
  split; [apply (writes_digits (str "2024")); [discriminate|reflexivity]|]. discriminate.
Qed.
Lemma ex_t2 : triple 47 d2 2 30 2023 /\ short d2 /\ plain d2.
Proof.
  split; [|split; [apply (short_split (str " 02") 47 (str "+30/2023x")); [apply short_len; cbn; lia|unfold figure; lia|cbn; lia]|left; discriminate]].
  exists (str " 02"), (str "+30"), (str "2023"), (str "x"). split; [reflexivity|].
  split; [exists [32], [], (str "02"); split; [reflexivity|]; split; [repeat constructor|]; split; [now apply figures|]; split; [discriminate|auto]|].
  split; [exists [], [43], (str "30"); split; [reflexivity|]; split; [constructor|]; split; [now apply figures|]; split; [discriminate|auto]|].
  split; [apply (writes_digits (str "2023")); [discriminate|reflexivity]|]. intros x r [= <- <-]. unfold figure. lia.
Qed.
Lemma ex_t3 : triple 47 d3 1 1 9000 /\ short d3 /\ plain d3.
Proof.
  split; [|split; [apply short_len; cbn; lia|left; discriminate]].
  exists (str "1"), (str "1"), (str "9000"), []. split; [reflexivity|].
  split; [apply (writes_digits (str "1")); [discriminate|reflexivity]|]. split; [apply (writes_digits (str "1")); [discriminate|reflexivity]|].
  split; [apply (writes_digits (str "9000")); [discriminate|reflexivity]|]. discriminate.
Qed.
Lemma ex_t4 : triple 58 t1 23 59 0 /\ short t1 /\ plain t1.
Proof.
  split; [|split; [apply short_len; cbn; lia|left; discriminate]].
  exists (str "23"), (str "59"), (str "0"), []. split; [reflexivity|].
  split; [apply (writes_digits (str "23")); [discriminate|reflexivity]|]. split; [apply (writes_digits (str "59")); [discriminate|reflexivity]|].
  split; [apply (writes_digits (str "0")); [discriminate|reflexivity]|]. discriminate.
Qed.

Lemma date_example : ok noon /\ (triple 47 d1 2 29 2024 /\ short d1 /\ plain d1) /\
  cmd_date 1 noon [str "date"; d1] = Ok (Said eol (Clock 2024 2 29 4 0 5 59)) /\
  cmd_date 1 noon [str "date"; d4] = Ok (Said (str "The specified date is not correct." ++ eol ++ [10]) noon) /\
  cmd_date 2 noon [str "date"; str "-t"] = Ok (Said (str "03/07/2024" ++ eol ++ eol) noon) /\
  cmd_date 1 noon [str "date"] = Ok (Said (str "Current Date: Thu 3/7/2024" ++ eol ++ str "Type 'date MM/DD/YYYY' to change." ++ eol ++ eol) noon).
Proof. split; [exact noon_ok|]. split; [exact ex_t1|]. repeat split; reflexivity. Qed.

Lemma time_example : ok noon /\ (triple 58 t1 23 59 0 /\ short t1 /\ plain t1) /\
  cmd_time 1 noon [str "time"; t1] = Ok (Said eol (Clock 2024 3 7 4 23 59 0)) /\
  cmd_time 1 noon [str "time"; str "24:00:00"] = Ok (Said (str "The specified time is not correct." ++ eol ++ [10]) noon) /\
  cmd_time 2 noon [str "time"; str "-t"] = Ok (Said (str "00:05:59" ++ eol ++ eol) noon) /\
  cmd_time 1 noon [str "time"] = Ok (Said (str "Current Time: 12:05:59 AM" ++ eol ++ str "Type 'time hh:mm:ss' to change." ++ eol ++ eol) noon).
Proof. split; [exact noon_ok|]. split; [exact ex_t4|]. repeat split; reflexivity. Qed.

Lemma stamp_example : ok noon /\ print_time (get_fattime noon) = str "2024/3/7    0:05  " /\ ok late /\ print_time (get_fattime late) = str "2072/3/7   12:05  ".
Proof. split; [exact noon_ok|]. split; [reflexivity|]. split; [exact late_ok|]. reflexivity. Qed.

Lemma calendar_refuted : exists s m d y, triple 47 s m d y /\ short s /\ plain s /\ ~ valid (Date y m d) /\
  forall now prog fuel, ok now -> prog <> [45; 45] -> exists w, cmd_date (S fuel) now [prog; s] = Ok (Said eol (Clock y m d w (hr now) (mn now) (sc now))).
Proof.
  exists d2, 2, 30, 2023. destruct ex_t2 as (T & S & P). split; [exact T|]. split; [exact S|]. split; [exact P|]. split; [intros (_ & _ & V); cbn [year month day] in V; change (month_days 2023 2) with 28 in V; lia|].
  intros now prog fuel O NP. destruct (date_sets now prog d2 fuel O NP P S) as [A _]. destruct (A 2 30 2023 T ltac:(lia) ltac:(lia) ltac:(lia)) as (w & E & _). exists w. exact E.
Qed.
