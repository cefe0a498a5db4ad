(** What inlining means. *)
From Coq Require Import String List NArith Bool.
From Verif Require Import PyStr PyDict Inliner.
Import ListNotations.

(** ** Lines *)
(** from NAME import ...: the shortest NAME, within the line *)
Definition imports_from (line name : str) : Prop :=
  let shape n := exists c r, line = s "from " ++ n ++ s " import" ++ c :: r /\ n <> [] /\ ~ In 10%N n /\ c <> 10%N in
  shape name /\ forall n, shape n -> length name <= length n.
(** the path of a module: a backslash and a slash for each dot *)
Definition module_path (packagePath name : str) : str := packagePath ++ join [92%N; 47%N] (splitc 46 name).

(** a line of a program: an import from the package, a plain import of a module, or something else *)
Inductive kind := Needs (module : str) | Imports (name : str) | Other.
Definition kind_of (package packagePath line : str) : kind :=
  match match_import line with
  | Some name => if containsb package name then Needs (module_path packagePath name)
                 else if prefixb (s "import") (lstrip line) then Imports (rstrip (replace (s "import ") [] line)) else Other
  | None => if prefixb (s "import") (lstrip line) then Imports (rstrip (replace (s "import ") [] line)) else Other
  end.

(** comment lines, except the first line of a script *)
Definition comment (line : str) : bool := prefixb (s "#") (lstrip line) && negb (prefixb (s "#!") (lstrip line)).
(** the lines of a file that count: no comments, no docstrings; of the package's modules (inPackage) nothing from the first line on
    that contains main() or __main__; nothing from a line on that begins with # do_not_inline *)
Fixpoint relevant (inPackage inDocstring : bool) (lines : list str) : list str :=
  match lines with
  | [] => []
  | line :: rest =>
      if prefixb (s "# do_not_inline") line then []
      else if comment line || Nat.eqb (count QUOTES line) 2 then relevant inPackage inDocstring rest
      else if Nat.eqb (count QUOTES line) 1 then
        if inPackage then relevant inPackage (negb inDocstring) rest
        else line :: relevant inPackage inDocstring rest
      else if inDocstring then relevant inPackage inDocstring rest
      else if inPackage && (containsb (s "main()") line || containsb (s "__main__") line) then []
      else line :: relevant inPackage inDocstring rest
  end.
(** a line with one mark of a multi-line string in the main script is never taken for an import *)
Definition line_kind (package packagePath line : str) : kind := if Nat.eqb (count QUOTES line) 1 then Other else kind_of package packagePath line.

(** ** Programs *)
Section Program.
Variables (files : dict str) (package packagePath : str).
Definition lines_of (file : str) : list str :=
  match dget file files with Some content => relevant (containsb package file) false (readlines content) | None => [] end.
Definition kind_in (line : str) : kind := line_kind package packagePath line.
Definition needs (file m : str) : Prop := exists line, In line (lines_of file) /\ kind_in line = Needs m.
Definition imports (file x : str) : Prop := exists line, In line (lines_of file) /\ kind_in line = Imports x.
Definition file_of (m : str) : str := m ++ s ".py".
(** the modules a script needs, directly or not *)
Inductive needed (root : str) : str -> Prop :=
| nd_root : forall m, needs root m -> needed root m
| nd_step : forall m m', needed root m -> needs (file_of m) m' -> needed root m'.
(** the files: the script and those of the modules *)
Definition included (root : str) (mods : list str) (f : str) : Prop := f = root \/ exists m, In m mods /\ f = file_of m.
(** no plain import has the name of a module's path *)
Definition no_clash : Prop := forall f g m, needs f m -> ~ imports g m.
(** lines that are not imports *)
Definition other (line : str) : bool := match kind_in line with Other => true | _ => false end.
Definition plain (x line : str) : bool := match kind_in line with Imports y => str_eqb y x | _ => false end.
Definition from_file (f : str) (out : list (str * str)) : list str := map snd (filter (fun p => str_eqb (fst p) f) out).
(** m needs itself in the end *)
Definition cyclic (m : str) : Prop := needed (file_of m) m.
End Program.
