(* Histories of operations on several exFAT files. *)
From Coq Require Import ZArith Bool List.
From Verif Require Import Base FatModel FatSpec XfatModel XfatSpec.
Import ListNotations.
Open Scope Z_scope.

(* On file number i: a cluster is appended; the position is set into cluster number k;
   f_sync; f_close and f_open; f_lseek and f_truncate, to nothing or behind cluster
   number k. *)
Inductive xop := XGrow (i : nat) | XSeek (i k : nat) | XSync (i : nat) | XReopen (i : nat) | XEmpty (i : nat) | XCut (i k : nat).

Definition blank_file : xfil := mkXfil (mkObj 0 0 0 0 0) 0.
Definition code (r : frc) : Z := match r with FR_OK => 0 | _ => 1 end.

(* The volume, the files, and the result: of create_chain, the cluster reached, or 0. *)
Definition do_xop (fuel : nat) (g : geo) (bb : Z) (v : vol) (fs : list xfil) (op : xop) : res (vol * list xfil * Z) :=
  match op with
  | XGrow i => '(v, f, c) <- grow fuel g bb v (nth i fs blank_file) ;; Ok (v, edit fs i f, c)
  | XSeek i k => '(v, f, c) <- seek fuel g bb v (nth i fs blank_file) k ;; Ok (v, edit fs i f, c)
  | XSync i => '(v, f, r) <- xsync g v (nth i fs blank_file) ;; Ok (v, edit fs i f, code r)
  | XReopen i => '(v, f, r) <- xsync g v (nth i fs blank_file) ;; Ok (v, edit fs i (reopen f), code r)
  | XEmpty i =>
      '(v, f, _) <- seek fuel g bb v (nth i fs blank_file) 0 ;;
      '(v, f, r) <- empty fuel g bb v f ;; Ok (v, edit fs i f, code r)
  | XCut i k =>
      '(v, f, _) <- seek fuel g bb v (nth i fs blank_file) k ;;
      '(v, f, r) <- cut fuel g bb v f k ;; Ok (v, edit fs i f, code r)
  end.

(* What is possible: a file grows only at its end; the position is in the file. *)
Definition legal (fs : list xfil) (ls : list (list Z)) (op : xop) : Prop :=
  match op with
  | XGrow i => (i < length ls)%nat /\ (nth i ls [] = [] \/ clust (nth i fs blank_file) = last (nth i ls []) 0)
  | XSeek i k => (i < length ls)%nat /\ (k < length (nth i ls []))%nat
  | XSync i | XReopen i => (i < length ls)%nat
  | XEmpty i => (i < length ls)%nat /\ nth i ls [] <> []
  | XCut i k => (i < length ls)%nat /\ (S k < length (nth i ls []))%nat
  end.

(* The clusters of the files afterwards, and the result. *)
Definition next (ls : list (list Z)) (op : xop) (r : Z) : list (list Z) :=
  match op with
  | XGrow i => if r =? 0 then ls else edit ls i (nth i ls [] ++ [r])
  | XEmpty i => edit ls i []
  | XCut i k => edit ls i (firstn (S k) (nth i ls []))
  | _ => ls
  end.
Definition result_ok (g : geo) (R : list Z) (ls : list (list Z)) (op : xop) (r : Z) : Prop :=
  match op with
  | XGrow _ => (r = 0 /\ forall c, 2 <= c < n_fatent g -> In c (concat ls ++ R)) \/ (2 <= r < n_fatent g /\ ~ In r (concat ls ++ R))
  | XSeek i k => r = nth k (nth i ls []) 0
  | _ => r = 0
  end.

(* The files have the clusters ls, R are in use otherwise, nothing else is in use. *)
Record xdisk (g : geo) (bb : Z) (v : vol) (fs : list xfil) (ls : list (list Z)) (R : list Z) : Prop := {
  xd_vol : xvol_ok g v;
  xd_files : Forall2 (xfile_ok g bb v) fs ls;
  xd_nodup : NoDup (concat ls ++ R);
  xd_reserved : Forall (fun c => 2 <= c < n_fatent g) R;
  xd_used : forall c, 2 <= c < n_fatent g -> (used g bb v c = true <-> In c (concat ls ++ R));
  xd_free : free_clst v = xfree g bb v \/ free_clst v = ERR;
  xd_last : 0 <= last_clst v < 4294967296 }.

(* What no operation changes: sectors which are neither FAT nor bitmap, the entries of R. *)
Definition apart (g : geo) (bb : Z) (R : list Z) (v v' : vol) : Prop :=
  same_other g bb v v' /\ forall c, In c R -> xent g v' c = xent g v c.

Fixpoint xrun (fuel : nat) (g : geo) (bb : Z) (v : vol) (fs : list xfil) (ls : list (list Z)) (ops : list xop) : res (vol * list xfil * list (list Z)) :=
  match ops with
  | [] => Ok (v, fs, ls)
  | op :: ops => '(v, fs, r) <- do_xop fuel g bb v fs op ;; xrun fuel g bb v fs (next ls op r) ops
  end.
Fixpoint all_legal (fuel : nat) (g : geo) (bb : Z) (v : vol) (fs : list xfil) (ls : list (list Z)) (ops : list xop) : Prop :=
  match ops with
  | [] => True
  | op :: ops => legal fs ls op /\ forall v' fs' r, do_xop fuel g bb v fs op = Ok (v', fs', r) -> all_legal fuel g bb v' fs' (next ls op r) ops
  end.
