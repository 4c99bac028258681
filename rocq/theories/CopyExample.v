(* cp: the hypotheses can be met. *)
From Coq Require Import Lia.
From Verif Require Import Base CopyModel CopySpec CopyProof CopyProof2 CopyProof3 CopyProof4.
Open Scope Z_scope.

Lemma leads1 l n : good n -> hd 0 n <> 47 -> leads (w_of l) n [n].
Proof.
  intros G H. exists [n], []. split; [now constructor|]. split; [discriminate|]. split; [right; split; [exact H|reflexivity]|]. split; [reflexivity|].
  intros [|u a] b X Na Nb; [congruence|]. injection X as _ X. destruct a; [|discriminate]. cbn in X. congruence.
Qed.
Lemma wf_sane : sane (w_of wf).
Proof. split; [exact wf_tree|now left]. Qed.

(* cp -r f x b, one of them with a file in it *)
Example many_given : given (w_of wf) [[102]; [120]] [([nf], nf); ([nx], nx)].
Proof.
  constructor; [|constructor; [|constructor]]; (split; [apply leads1; [apply good1; discriminate|discriminate]|split; [now exists []|]]); intros [[|? [|? ?]] E]; discriminate.
Qed.
Example many_into : into (w_of wf) [98] [nb].
Proof. left. split; [apply leads1; [apply good1; discriminate|discriminate]|reflexivity]. Qed.
Example root_into : into (w_of wf) [47] [].
Proof. right. split; [discriminate|]. split; [repeat constructor|reflexivity]. Qed.
Lemma wf_under n t x : find wf (n :: t) = Some x -> t = [] \/ n = nf /\ t = [ng].
Proof.
  intros E. apply find_In in E. cbn in E. destruct E as [E|[E|[E|[E|[]]]]]; injection E as <- <- _; auto.
Qed.
Lemma wf_b n t : find wf (nb :: n :: t) = None.
Proof.
  destruct (find wf (nb :: n :: t)) as [x|] eqn:E; [|reflexivity]. apply wf_under in E as [E|[E _]]; discriminate.
Qed.
Example many_ready p m : In (p, m) [([nf], nf); ([nx], nx)] -> ready 9 rec (w_of wf) p ([nb] ++ [m]).
Proof.
  intros I. assert (E : p = [m] /\ (m = nf \/ m = nx)) by (destruct I as [E|[E|[]]]; injection E as <- <-; auto). destruct E as [-> M].
  split; [split; intros [t X]; destruct M as [-> | ->]; discriminate|].
  split; [exists D; split; [destruct M as [-> | ->]; reflexivity|now left]|].
  split; [right; intros t d _; cbn [app w_of fs]; rewrite (wf_b m t); discriminate|].
  split; [intros t a b _ X; cbn [app w_of fs] in X; rewrite (wf_b m t) in X; discriminate|].
  split; [constructor|]. split.
  - intros t X. cbn [app w_of fs opened length] in *. destruct (find wf (m :: t)) as [x|] eqn:Ex; [|congruence]. apply wf_under in Ex as [-> |[_ ->]]; unfold LOCKS; cbn; lia.
  - destruct M as [-> | ->]; unfold LOCKS; cbn; lia.
Qed.
Example many_apart p m p' m' : In (p, m) [([nf], nf); ([nx], nx)] -> In (p', m') [([nf], nf); ([nx], nx)] -> apart p ([nb] ++ [m']).
Proof. intros I J. destruct I as [E|[E|[]]], J as [E'|[E'|[]]]; injection E as <- <-; injection E' as <- <-; split; intros [t X]; discriminate. Qed.
Example many_run : exists w', fpm_cmd_copy fine 9 rec (w_of wf) ([[102]; [120]] ++ [[98]]) = Ok w' /\ find (fs w') [nb; nf; ng] = Some (F [1; 2; 3]) /\ find (fs w') [nb; nx] = Some D.
Proof. eexists. split; [vm_compute; reflexivity|]. now split. Qed.
(* with every call failing *)
Example confined_run : forall p m, In (p, m) [([nf], nf); ([nx], nx)] -> apart p [nb] /\ (size wf p < 9)%nat.
Proof. intros p m [E|[E|[]]]; injection E as <- <-; (split; [split; intros [t X]; discriminate|unfold LOCKS; cbn; lia]). Qed.

(* cp -r f c, a new name *)
Example one_ready : ready 9 rec (w_of wf) [nf] [[99]].
Proof.
  assert (N : forall t, find wf ([[99]] ++ t) = None).
  { intros t. destruct (find wf ([[99]] ++ t)) as [x|] eqn:E; [|reflexivity]. apply find_In in E. cbn in E. destruct E as [E|[E|[E|[E|[]]]]]; discriminate. }
  split; [split; intros [t X]; discriminate|]. split; [exists D; split; [reflexivity|now left]|].
  split; [right; intros t d _; cbn [w_of fs]; rewrite N; discriminate|].
  split; [intros t a b _ X; cbn [w_of fs] in X; rewrite N in X; discriminate|].
  split; [constructor|]. split; [|unfold LOCKS; cbn; lia].
  intros t X. cbn [app w_of fs opened length] in *. destruct (find wf (nf :: t)) as [x|] eqn:Ex; [|congruence]. apply wf_under in Ex as [-> |[_ ->]]; unfold LOCKS; cbn; lia.
Qed.
(* files *)
Definition wg : files := [([nf], F [1; 2]); ([nb], F [3])].
Lemma wg_sane : sane (w_of wg).
Proof.
  split; [|now left]. split; [repeat constructor; cbn; intuition discriminate|]. intros p o I. cbn in I.
  destruct I as [E|[E|[]]]; injection E as <- <-; eexists [], _; (split; [reflexivity|]); (split; [apply good1; discriminate|now left]).
Qed.
Example file_hyps : leads (w_of wg) [102] [nf] /\ leads (w_of wg) [98] [nb] /\ apart [nf] [nb] /\ free (w_of wg) [nb] /\ (length (opened (w_of wg)) + 2 <= LOCKS)%nat.
Proof.
  split; [apply leads1; [apply good1; discriminate|discriminate]|]. split; [apply leads1; [apply good1; discriminate|discriminate]|].
  split; [split; intros [t X]; discriminate|]. split; [constructor|unfold LOCKS; cbn; lia].
Qed.
Example file_yes : exists w', fpm_cmd_copy fine 9 rec (World wg [] [] [121] 0 []) [[102]; [98]] = Ok w' /\ find (fs w') [nb] = Some (F [1; 2]).
Proof. eexists. split; [vm_compute; reflexivity|]. reflexivity. Qed.
