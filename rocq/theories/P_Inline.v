(** Property theorems about the inliner: C33. *)
From Coq Require Import String List NArith Bool Lia Arith.
From Verif Require Import PyStr PyDict Inliner SpecInliner InlinerProofs.
Import ListNotations.

(** It always ends, also for cyclic imports; it fails only if the file of the script or of a needed module is missing. *)
Theorem C33_terminates : forall files package packagePath root, exists r, run files package packagePath root = Some r.
Proof. exact run_ends. Qed.
Print Assumptions C33_terminates.
Theorem C33_fails_only_if_missing : forall files package packagePath root e, run files package packagePath root = Some (Err e) ->
  e = OSError /\ (dget root files = None \/ exists m, needed files package packagePath root m /\ dget (file_of m) files = None).
Proof. exact run_err. Qed.
Print Assumptions C33_fails_only_if_missing.
(** An import from the package is what the regular expression says. *)
Theorem C33_import_lines : forall line name, match_import line = Some name <-> imports_from line name.
Proof. exact match_import_iff. Qed.
Print Assumptions C33_import_lines.
(** The output consists of lines, each from the script or from a needed module; each needed module contributes once: the lines that
    count, in order, without imports from the package; of the plain imports of a module one remains; and the lines of a module come
    before those that follow its import, unless the imports are cyclic. *)
Theorem C33_inlines : forall files package packagePath root text, run files package packagePath root = Some (Ok text) -> no_clash files package packagePath ->
  (forall m, needed files package packagePath root m -> root <> file_of m) ->
  exists (o : list (str * str)) (mods : list str),
    text = concat (map snd o) /\ NoDup mods /\ (forall m, In m mods <-> needed files package packagePath root m) /\
    (forall m, In m mods -> exists content, dget (file_of m) files = Some content) /\
    (forall f line, In (f, line) o -> included root mods f /\ In line (lines_of files package f) /\ forall m, kind_in package packagePath line <> Needs m) /\
    (forall f, included root mods f -> filter (other package packagePath) (from_file f o) = filter (other package packagePath) (lines_of files package f)) /\
    (forall x, (exists f, included root mods f /\ imports files package packagePath f x) -> length (filter (plain package packagePath x) (map snd o)) = 1) /\
    (forall f a line b m, included root mods f -> lines_of files package f = a ++ line :: b -> kind_in package packagePath line = Needs m ->
      ~ cyclic files package packagePath m ->
      exists o1 o2, o = o1 ++ o2 /\ filter (other package packagePath) (from_file f o1) = filter (other package packagePath) a /\ from_file (file_of m) o2 = []).
Proof. exact run_result. Qed.
Print Assumptions C33_inlines.

Definition NL : str := [10%N].
Definition PY : str := s "pkg\/".
(** a script, and two modules that need each other *)
Definition sample : dict str :=
  [(s "app.py", s "import os" ++ NL ++ s "from pkg.a import *" ++ NL ++ s "from pkg.b import B" ++ NL ++ s "run()" ++ NL);
   (PY ++ s "a.py", s """""""Module a.""""""" ++ NL ++ s "import os" ++ NL ++ s "from pkg.b import B" ++ NL ++ s "# comment" ++ NL ++ s "class A: pass" ++ NL);
   (PY ++ s "b.py", s "from pkg.a import A" ++ NL ++ s "import re" ++ NL ++ s "class B: pass" ++ NL)].
Example C33_instance : run sample (s "pkg") [] (s "app.py") = Some (Ok (s "import os" ++ NL ++ s "import re" ++ NL ++ s "class B: pass" ++ NL ++ s "class A: pass" ++ NL ++ s "run()" ++ NL)).
Proof. vm_compute. reflexivity. Qed.
Lemma C33_needs : forall f m, needs sample (s "pkg") [] f m -> m = PY ++ s "a" \/ m = PY ++ s "b".
Proof.
  intros f m [l [Hl K]]. unfold lines_of in Hl. destruct (dget f sample) as [c|] eqn:D; [|destruct Hl]. apply dget_In in D.
  assert (F : forall g c, In (g, c) sample -> forallb (fun b => forallb (fun l => match kind_in (s "pkg") [] l with Needs m => str_eqb m (PY ++ s "a") || str_eqb m (PY ++ s "b") | Imports x => str_eqb x (s "os") || str_eqb x (s "re") | Other => true end)
    (relevant b false (readlines c))) [true; false] = true).
  { intros g d [E|[E|[E|[]]]]; injection E as <- <-; vm_compute; reflexivity. }
  specialize (F f c D). cbn [forallb] in F. apply andb_true_iff in F as [F1 F2]. rewrite andb_true_r in F2.
  assert (F3 : match kind_in (s "pkg") [] l with Needs m => str_eqb m (PY ++ s "a") || str_eqb m (PY ++ s "b") | Imports x => str_eqb x (s "os") || str_eqb x (s "re") | Other => true end = true)
    by (destruct (containsb (s "pkg") f); [rewrite forallb_forall in F1; exact (F1 l Hl) | rewrite forallb_forall in F2; exact (F2 l Hl)]).
  rewrite K in F3. apply orb_true_iff in F3 as [F3|F3]; apply str_eqb_eq in F3; auto.
Qed.
Example C33_instance_hyps : no_clash sample (s "pkg") [] /\ (forall m, needed sample (s "pkg") [] (s "app.py") m -> s "app.py" <> file_of m).
Proof.
  assert (Im : forall g x, imports sample (s "pkg") [] g x -> x = s "os" \/ x = s "re").
  { intros f x [l [Hl K]]. unfold lines_of in Hl. destruct (dget f sample) as [c|] eqn:D; [|destruct Hl]. apply dget_In in D.
    assert (F : forall g c, In (g, c) sample -> forallb (fun b => forallb (fun l => match kind_in (s "pkg") [] l with Imports x => str_eqb x (s "os") || str_eqb x (s "re") | _ => true end)
      (relevant b false (readlines c))) [true; false] = true).
    { intros g d [E|[E|[E|[]]]]; injection E as <- <-; vm_compute; reflexivity. }
    specialize (F f c D). cbn [forallb] in F. apply andb_true_iff in F as [F1 F2]. rewrite andb_true_r in F2.
    assert (F3 : match kind_in (s "pkg") [] l with Imports x => str_eqb x (s "os") || str_eqb x (s "re") | _ => true end = true)
      by (destruct (containsb (s "pkg") f); [rewrite forallb_forall in F1; exact (F1 l Hl) | rewrite forallb_forall in F2; exact (F2 l Hl)]).
    rewrite K in F3. apply orb_true_iff in F3 as [F3|F3]; apply str_eqb_eq in F3; auto. }
  split.
  - intros f g m H1 H2. apply C33_needs in H1. apply Im in H2. destruct H1 as [->| ->], H2 as [H2|H2]; discriminate.
  - intros m H. assert (N : exists f, needs sample (s "pkg") [] f m) by (destruct H; eauto). destruct N as [f N]. apply C33_needs in N. destruct N as [->| ->]; discriminate.
Qed.

(** A script that is itself a module of the package, needed by a module, is copied twice. *)
Theorem C33_script_twice_refuted : exists files package packagePath root,
  no_clash files package packagePath /\ run files package packagePath root = Some (Ok (s "class A: pass" ++ NL ++ s "x = 1" ++ NL ++ s "x = 1" ++ NL)).
Proof.
  exists [(PY ++ s "main.py", s "from pkg.a import A" ++ NL ++ s "x = 1" ++ NL); (PY ++ s "a.py", s "class A: pass" ++ NL ++ s "from pkg.main import x" ++ NL)], (s "pkg"), [], (PY ++ s "main.py").
  split; [|vm_compute; reflexivity]. intros f g m _ [l [Hl K]]. unfold lines_of in Hl. destruct (dget g _) as [c|] eqn:D; [|destruct Hl]. apply dget_In in D.
  assert (F : forallb (fun b => forallb (fun l => match kind_in (s "pkg") [] l with Imports x => false | _ => true end) (relevant b false (readlines c))) [true; false] = true)
    by (destruct D as [E|[E|[]]]; injection E as <- <-; vm_compute; reflexivity).
  cbn [forallb] in F. apply andb_true_iff in F as [F1 F2]. rewrite andb_true_r in F2. rewrite forallb_forall in F1, F2.
  destruct (containsb (s "pkg") g); [specialize (F1 l Hl) | specialize (F2 l Hl)]; rewrite K in *; discriminate.
Qed.
Print Assumptions C33_script_twice_refuted.
(** A plain import of the package keeps it from being inlined. *)
Theorem C33_shadowed_refuted : run [(s "app.py", s "import pkg" ++ NL ++ s "from pkg import A" ++ NL ++ s "A()" ++ NL); (s "pkg.py", s "class A: pass" ++ NL)] (s "pkg") [] (s "app.py") =
  Some (Ok (s "import pkg" ++ NL ++ s "A()" ++ NL)).
Proof. vm_compute. reflexivity. Qed.
Print Assumptions C33_shadowed_refuted.
