(** Executing programs with effects, given the list of outcomes of the operations that can fail: for instances. *)
From Coq Require Import List NArith Bool Lia Arith.
From Verif Require Import PyStr PyDict FileOps.
Import ListNotations.

Definition hd_tl (l : list bool) : bool * list bool := match l with b :: l => (b, l) | [] => (true, []) end.
(** [l]: for each operation that can fail, whether it succeeds; for each question, the answer.  A failing write writes 3 characters. *)
Fixpoint perform {A} (x : prog A) (l : list bool) (w : fsys) : res A * fsys :=
  match x with
  | Ret r => (r, w)
  | IsFile p k => perform (k (present w p)) l w
  | ReadFile p k => let '(b, l) := hd_tl l in
      match files w p with
      | Some c => if b then perform (k (Ok c)) l w else perform (k (Err OSError)) l (log (NotRead p) w)
      | None => perform (k (Err OSError)) l (log (NotRead p) w) end
  | Replace a b k => let '(o, l) := hd_tl l in
      match files w a with
      | Some c => if o then perform (k (Ok tt)) l (log (Renamed a b) (set_file b (Some c) (set_file a None w))) else perform (k (Err OSError)) l (log (NotRenamed a b) w)
      | None => perform (k (Err OSError)) l (log (NotRenamed a b) w) end
  | OpenW p k => let '(o, l) := hd_tl l in
      if o then perform (k (Ok tt)) l (log (Opened p) (set_file p (Some []) w)) else perform (k (Err OSError)) l (log (NotWritten p) w)
  | Put p d k => let '(o, l) := hd_tl l in
      if o then perform (k (Ok tt)) l (log (Wrote p) (set_file p (Some (text_at w p ++ d)) w))
      else perform (k (Err OSError)) l (log (NotWritten p) (set_file p (Some (text_at w p ++ firstn 3 d)) w))
  | RmTree p k => perform k l w
  | Other k => let '(o, l) := hd_tl l in if o then perform (k (Ok tt)) l w else perform (k (Err OSError)) l (log Trouble w)
  | Ask q k => let '(o, l) := hd_tl l in perform (k o) l (log (Asked q o) w)
  | Tell m k => perform k l (log (Status m) w)
  | What m k => perform k l (log (Announced m) w)
  | Warn m k => perform k l (log (Warned m) w)
  end.

Theorem perform_runs : forall {A} (x : prog A) l w, runs x w (fst (perform x l w)) (snd (perform x l w)).
Proof.
  intros A x. induction x as [r|p k IH|p k IH|a b k IH|p k IH|p d k IH|p k IH|k IH|q k IH|m k IH|m k IH|m k IH]; intros l w; cbn [perform].
  - apply r_ret.
  - apply r_isfile, IH.
  - destruct (hd_tl l) as [o l']. destruct (files w p) as [c|] eqn:E; [destruct o; [apply (r_read _ _ _ c); [exact E | apply IH] | apply r_read_fails, IH] | apply r_read_fails, IH].
  - destruct (hd_tl l) as [o l']. destruct (files w a) as [c|] eqn:E; [destruct o; [apply (r_replace _ _ _ _ c); [exact E | apply IH] | apply r_replace_fails, IH] | apply r_replace_fails, IH].
  - destruct (hd_tl l) as [[] l']; [apply r_open, IH | apply r_open_fails, IH].
  - destruct (hd_tl l) as [[] l']; [apply r_put, IH | apply (r_put_fails _ _ (firstn 3 d) (skipn 3 d)); [symmetry; apply firstn_skipn | apply IH]].
  - apply (r_rmtree _ _ w w); [reflexivity | reflexivity | apply IH].
  - destruct (hd_tl l) as [[] l']; [apply r_other, IH | apply r_other_fails, IH].
  - destruct (hd_tl l) as [o l0]. apply (r_ask _ o), IH.
  - apply r_tell, IH.
  - apply r_what, IH.
  - apply r_warn, IH.
Qed.

(** [perform] with a given result *)
Lemma perform_is : forall {A} (x : prog A) l w r w', perform x l w = (r, w') -> runs x w r w'.
Proof. intros A x l w r w' H. pose proof (perform_runs x l w) as R. rewrite H in R. exact R. Qed.
