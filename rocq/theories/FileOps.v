(** Programs with effects on files and on the user interface, and what can happen when they run.

    Trusted modelling layer.  A program is a tree of operations.  The world consists of the files (contents by
    path) and the list of events.  Every operation on files can fail at any time (OSError); writing can fail or
    be interrupted after any part of the data; renaming is atomic, as os.replace promises.
    A crash is the end of the process between two operations or within a write.
    Not modelled: other processes, loss of data already written to the operating system, directories,
    permissions (a missing permission is a failure). *)
From Coq Require Import List NArith Bool Lia Arith.
From Verif Require Import PyStr PyDict.
Import ListNotations.

(** what the outside can observe apart from the files *)
Inductive event :=
| Asked (question : str) (answer : bool)      (* ui.ask_yes_no *)
| Status (message : str)                      (* ui.set_info_how *)
| Announced (message : str)                   (* ui.set_info_what *)
| Warned (message : str)                      (* ui.show_warning *)
| NotRenamed (a b : str)                      (* os.replace(a, b) failed *)
| NotWritten (p : str)                        (* opening or writing p failed *)
| NotRead (p : str)                           (* reading p failed *)
| Renamed (a b : str) | Opened (p : str)      (* os.replace(a, b) succeeded, open(p, 'w') succeeded *)
| Wrote (p : str)                             (* a piece of data was completely written to p *)
| Trouble.                                    (* another failure *)

Record fsys := mkSys { files : str -> option str; events : list event }.
Definition set_file (p : str) (c : option str) (w : fsys) : fsys :=
  {| files := fun q => if str_eqb q p then c else files w q; events := events w |}.
Definition log (e : event) (w : fsys) : fsys := {| files := files w; events := events w ++ [e] |}.
Definition present (w : fsys) (p : str) : bool := match files w p with Some _ => true | None => false end.
Definition text_at (w : fsys) (p : str) : str := match files w p with Some c => c | None => [] end.

Inductive prog (A : Type) :=
| Ret (r : res A)
| IsFile (p : str) (k : bool -> prog A)                     (* os.path.isfile *)
| ReadFile (p : str) (k : res str -> prog A)                (* open(p, 'r') and read *)
| Replace (a b : str) (k : res unit -> prog A)              (* os.replace *)
| OpenW (p : str) (k : res unit -> prog A)                  (* open(p, 'w'): creates or empties the file *)
| Put (p d : str) (k : res unit -> prog A)                  (* write d to the open file *)
| RmTree (p : str) (k : prog A)                             (* shutil.rmtree, exceptions ignored *)
| Other (k : res unit -> prog A)                            (* mkdir, chdir, ... *)
| Ask (q : str) (k : bool -> prog A)
| Tell (m : str) (k : prog A)
| What (m : str) (k : prog A)
| Warn (m : str) (k : prog A).
Arguments Ret {A} r. Arguments IsFile {A} p k. Arguments ReadFile {A} p k. Arguments Replace {A} a b k. Arguments OpenW {A} p k.
Arguments Put {A} p d k. Arguments RmTree {A} p k. Arguments Other {A} k. Arguments Ask {A} q k. Arguments Tell {A} m k.
Arguments What {A} m k. Arguments Warn {A} m k.

(** sequence: an exception ends it *)
Fixpoint pbind {A B} (x : prog A) (f : A -> prog B) : prog B :=
  match x with
  | Ret (Ok a) => f a
  | Ret (Err e) => Ret (Err e)
  | IsFile p k => IsFile p (fun b => pbind (k b) f)
  | ReadFile p k => ReadFile p (fun b => pbind (k b) f)
  | Replace a b k => Replace a b (fun b => pbind (k b) f)
  | OpenW p k => OpenW p (fun b => pbind (k b) f)
  | Put p d k => Put p d (fun b => pbind (k b) f)
  | RmTree p k => RmTree p (pbind k f)
  | Other k => Other (fun b => pbind (k b) f)
  | Ask q k => Ask q (fun b => pbind (k b) f)
  | Tell m k => Tell m (pbind k f)
  | What m k => What m (pbind k f)
  | Warn m k => Warn m (pbind k f)
  end.
Notation "'run' x <- e ; k" := (pbind e (fun x => k)) (at level 200, x name, e at level 100, k at level 200).
(** try: x   except: h *)
Fixpoint pcatch {A B} (x : prog A) (f : res A -> prog B) : prog B :=
  match x with
  | Ret r => f r
  | IsFile p k => IsFile p (fun b => pcatch (k b) f)
  | ReadFile p k => ReadFile p (fun b => pcatch (k b) f)
  | Replace a b k => Replace a b (fun b => pcatch (k b) f)
  | OpenW p k => OpenW p (fun b => pcatch (k b) f)
  | Put p d k => Put p d (fun b => pcatch (k b) f)
  | RmTree p k => RmTree p (pcatch k f)
  | Other k => Other (fun b => pcatch (k b) f)
  | Ask q k => Ask q (fun b => pcatch (k b) f)
  | Tell m k => Tell m (pcatch k f)
  | What m k => What m (pcatch k f)
  | Warn m k => Warn m (pcatch k f)
  end.

(** an operation whose exception is passed on *)
Definition op_read (p : str) : prog str := ReadFile p Ret.
Definition op_replace (a b : str) : prog unit := Replace a b Ret.
Definition op_open (p : str) : prog unit := OpenW p Ret.
Definition op_put (p d : str) : prog unit := Put p d Ret.
Definition op_other : prog unit := Other Ret.

(** a file in directory d *)
Definition below (d p : str) : bool := prefixb (d ++ s "/") p.

(** ** What can happen *)
(** complete executions *)
Inductive runs {A} : prog A -> fsys -> res A -> fsys -> Prop :=
| r_ret : forall r w, runs (Ret r) w r w
| r_isfile : forall p k w r w', runs (k (present w p)) w r w' -> runs (IsFile p k) w r w'
| r_read : forall p k w c r w', files w p = Some c -> runs (k (Ok c)) w r w' -> runs (ReadFile p k) w r w'
| r_read_fails : forall p k w r w', runs (k (Err OSError)) (log (NotRead p) w) r w' -> runs (ReadFile p k) w r w'
| r_replace : forall a b k w c r w', files w a = Some c ->
    runs (k (Ok tt)) (log (Renamed a b) (set_file b (Some c) (set_file a None w))) r w' -> runs (Replace a b k) w r w'
| r_replace_fails : forall a b k w r w', runs (k (Err OSError)) (log (NotRenamed a b) w) r w' -> runs (Replace a b k) w r w'
| r_open : forall p k w r w', runs (k (Ok tt)) (log (Opened p) (set_file p (Some []) w)) r w' -> runs (OpenW p k) w r w'
| r_open_fails : forall p k w r w', runs (k (Err OSError)) (log (NotWritten p) w) r w' -> runs (OpenW p k) w r w'
| r_put : forall p d k w r w', runs (k (Ok tt)) (log (Wrote p) (set_file p (Some (text_at w p ++ d)) w)) r w' -> runs (Put p d k) w r w'
| r_put_fails : forall p d d1 d2 k w r w', d = d1 ++ d2 ->
    runs (k (Err OSError)) (log (NotWritten p) (set_file p (Some (text_at w p ++ d1)) w)) r w' -> runs (Put p d k) w r w'
| r_rmtree : forall p k w w1 r w', events w1 = events w -> (forall q, below p q = false -> files w1 q = files w q) ->
    runs k w1 r w' -> runs (RmTree p k) w r w'
| r_other : forall k w r w', runs (k (Ok tt)) w r w' -> runs (Other k) w r w'
| r_other_fails : forall k w r w', runs (k (Err OSError)) (log Trouble w) r w' -> runs (Other k) w r w'
| r_ask : forall q b k w r w', runs (k b) (log (Asked q b) w) r w' -> runs (Ask q k) w r w'
| r_tell : forall m k w r w', runs k (log (Status m) w) r w' -> runs (Tell m k) w r w'
| r_what : forall m k w r w', runs k (log (Announced m) w) r w' -> runs (What m k) w r w'
| r_warn : forall m k w r w', runs k (log (Warned m) w) r w' -> runs (Warn m k) w r w'.

(** interrupted executions: the world at the moment of a crash *)
Inductive crashes {A} : prog A -> fsys -> fsys -> Prop :=
| c_now : forall x w, crashes x w w
| c_isfile : forall p k w w', crashes (k (present w p)) w w' -> crashes (IsFile p k) w w'
| c_read : forall p k w c w', files w p = Some c -> crashes (k (Ok c)) w w' -> crashes (ReadFile p k) w w'
| c_read_fails : forall p k w w', crashes (k (Err OSError)) (log (NotRead p) w) w' -> crashes (ReadFile p k) w w'
| c_replace : forall a b k w c w', files w a = Some c ->
    crashes (k (Ok tt)) (log (Renamed a b) (set_file b (Some c) (set_file a None w))) w' -> crashes (Replace a b k) w w'
| c_replace_fails : forall a b k w w', crashes (k (Err OSError)) (log (NotRenamed a b) w) w' -> crashes (Replace a b k) w w'
| c_open : forall p k w w', crashes (k (Ok tt)) (log (Opened p) (set_file p (Some []) w)) w' -> crashes (OpenW p k) w w'
| c_open_fails : forall p k w w', crashes (k (Err OSError)) (log (NotWritten p) w) w' -> crashes (OpenW p k) w w'
| c_put : forall p d k w w', crashes (k (Ok tt)) (log (Wrote p) (set_file p (Some (text_at w p ++ d)) w)) w' -> crashes (Put p d k) w w'
| c_torn : forall p d d1 d2 k w, d = d1 ++ d2 -> crashes (Put p d k) w (set_file p (Some (text_at w p ++ d1)) w)
| c_put_fails : forall p d d1 d2 k w w', d = d1 ++ d2 ->
    crashes (k (Err OSError)) (log (NotWritten p) (set_file p (Some (text_at w p ++ d1)) w)) w' -> crashes (Put p d k) w w'
| c_rmtree : forall p k w w1 w', events w1 = events w -> (forall q, below p q = false -> files w1 q = files w q) ->
    crashes k w1 w' -> crashes (RmTree p k) w w'
| c_rmtree_torn : forall p k w w1, events w1 = events w -> (forall q, below p q = false -> files w1 q = files w q) ->
    crashes (RmTree p k) w w1
| c_other : forall k w w', crashes (k (Ok tt)) w w' -> crashes (Other k) w w'
| c_other_fails : forall k w w', crashes (k (Err OSError)) (log Trouble w) w' -> crashes (Other k) w w'
| c_ask : forall q b k w w', crashes (k b) (log (Asked q b) w) w' -> crashes (Ask q k) w w'
| c_tell : forall m k w w', crashes k (log (Status m) w) w' -> crashes (Tell m k) w w'
| c_what : forall m k w w', crashes k (log (Announced m) w) w' -> crashes (What m k) w w'
| c_warn : forall m k w w', crashes k (log (Warned m) w) w' -> crashes (Warn m k) w w'.
