(* An executable check that a history is allowed, used to exhibit concrete
   reachable states in the examples and refutations. *)
From Verif Require Import Base AllocModel AllocSpec.
Open Scope Z_scope.

Definition memb (p : Z) (l : list Z) : bool := existsb (Z.eqb p) l.

Definition ownedb (g : ghost) (p : Z) : bool := memb p (live g) || existsb (memb p) (outer g).

Definition req_okb (P n : Z) : bool := (0 <=? n) && (n <=? 2 ^ 32 - 5 * P).

Definition pokeb (P : Z) (s : st) (g : ghost) (a : Z) : bool :=
  existsb (fun p => match size_of P (sm s) p with
                    | Ok n => (p <=? a) && (a <? p + n)
                    | _ => false
                    end) (live g).

Definition validb (P : Z) (s : st) (g : ghost) (o : op) : bool :=
  match o with
  | OAlloc n | ODirty n => req_okb P n
  | OFree p => (p =? 0) || memb p (live g)
  | ORealloc p n | OTruncate p n => ((p =? 0) || memb p (live g)) && req_okb P n
  | OPush => true
  | OPop => match outer g with [] => false | _ => true end
  | OPoke a _ => pokeb P s g a
  end.

Fixpoint exec (P : Z) (s : st) (g : ghost) (h : list op) : option (st * ghost) :=
  match h with
  | [] => Some (s, g)
  | o :: h' =>
      if validb P s g o then
        match step P s o with
        | Ok (s', r) => exec P s' (after g o r) h'
        | _ => None
        end
      else None
  end.

Lemma memb_in p l : memb p l = true -> In p l.
Proof. unfold memb. rewrite existsb_exists. intros (x & H & E). apply Z.eqb_eq in E. subst. auto. Qed.

Lemma req_okb_ok P n : req_okb P n = true -> req_ok P n.
Proof. unfold req_okb, req_ok. rewrite andb_true_iff, !Z.leb_le. auto. Qed.

Lemma validb_ok P s g o : validb P s g o = true -> valid P s g o.
Proof.
  destruct o; cbn [validb valid]; rewrite ?andb_true_iff, ?orb_true_iff, ?Z.eqb_eq; auto using req_okb_ok.
  - intros [H | H]; auto using memb_in.
  - intros [[H | H] H']; split; auto using memb_in, req_okb_ok.
  - intros [[H | H] H']; split; auto using memb_in, req_okb_ok.
  - destruct (outer g); discriminate.
  - unfold pokeb. rewrite existsb_exists. intros (p & Hp & H).
    destruct (size_of P (sm s) p) as [n| |] eqn:E; try discriminate.
    rewrite andb_true_iff, Z.leb_le, Z.ltb_lt in H. exists p, n. split; [left; auto|]. auto.
Qed.

Lemma exec_run P h2 : forall s0 g0 h1 s g s' g', run P 0 s0 g0 h1 s g -> exec P s g h2 = Some (s', g') ->
  run P 0 s0 g0 (h1 ++ h2) s' g'.
Proof.
  induction h2 as [|o h2 IH]; cbn; intros s0 g0 h1 s g s' g' H E.
  - injection E as <- <-. rewrite app_nil_r. auto.
  - destruct (validb P s g o) eqn:V; [|discriminate]. apply validb_ok in V.
    destruct (step P s o) as [[s1 r]| |] eqn:St; try discriminate.
    replace (h1 ++ o :: h2) with ((h1 ++ [o]) ++ h2) by (rewrite <- app_assoc; auto).
    eapply IH; [|exact E]. eapply run_snoc; eauto. apply Nat.le_0_l.
Qed.

(* Run [h] from a fresh heap and test the final state with [q]. *)
Definition tryb (P : Z) (m : mem) (start size : Z) (h : list op) (q : st -> ghost -> bool) : bool :=
  match heap_init P m start size with
  | Ok s0 => match exec P s0 (Ghost [] []) h with Some (s, g) => q s g | None => false end
  | _ => false
  end.

Lemma tryb_reach P m start size h q : tryb P m start size h q = true ->
  exists s g, reachable P m start size h s g /\ q s g = true.
Proof.
  unfold tryb. destruct (heap_init P m start size) as [s0| |] eqn:E0; try discriminate.
  destruct (exec P s0 (Ghost [] []) h) as [[s g]|] eqn:E; try discriminate.
  intros H. exists s, g. split; auto. exists s0. split; auto.
  apply (exec_run P h s0 (Ghost [] []) [] s0 (Ghost [] []) s g); auto. constructor.
Qed.

(* A memory filled with 0xA5 in [lo, hi). *)
Definition mem0 (lo hi : Z) : mem := Mem (fun _ => 165) lo hi.
