(** Model of src/inliner.py: inline_module and run.

    The files are a finite map from paths to texts (what open(...).read() returns, after decoding and universal newline
    translation); a path that is not in the map raises FileNotFoundError (here OSError). Not modelled: messages, and copying the
    files (21-26, copyPyWriter=False).
    Recursion is recursion on fuel; running out of fuel is None (proved impossible for the fuel in [run]). *)
From Coq Require Import String List NArith Bool Lia Arith.
From Verif Require Import PyStr PyDict.
Import ListNotations.

(** f.readlines() (27): pieces that end with a line feed, except perhaps the last one *)
Fixpoint readlines (t : str) : list str :=
  match t with
  | [] => []
  | c :: t' => if N.eqb c 10 then [c] :: readlines t'
               else match readlines t' with [] => [[c]] | l :: ls => (c :: l) :: ls end
  end.
Definition QUOTES : str := [34%N; 34%N; 34%N].
(** line.count(QUOTES) (34, 43) *)
Definition count (sub t : str) : nat := pred (length (split sub t)).
Definition startswith (p t : str) : bool := prefixb p t.

(** 63 re.match(r'from (.+?) import.+', line).group(1); g: the group so far, r: the rest of the line *)
Fixpoint import_group (g r : str) : option str :=
  match r with
  | [] => None
  | c :: r' =>
      if truthy g && prefixb (s " import") r && match skipn 7 r with d :: _ => negb (N.eqb d 10) | [] => false end then Some g
      else if N.eqb c 10 then None
      else import_group (g ++ [c]) r'
  end.
Definition match_import (line : str) : option str := if prefixb (s "from ") line then import_group [] (skipn 5 line) else None.
(** 65 re.sub(r'\.', r'\/', name): the replacement is a backslash and a slash *)
Definition package_path (name : str) : str := replace (s ".") [92%N; 47%N] name.

Section Inline.
Variables (files : dict str) (package packagePath : str).

(** 30-80 the loop over the lines of a file; rec: the recursive call (file, text, processedModules) *)
Fixpoint loop (rec : str -> str -> list str -> option (res (str * list str))) (file : str)
    (lines : list str) (inDocstring : bool) (text : str) (processed : list str) : option (res (str * list str)) :=
  match lines with
  | [] => Some (Ok (text, processed))                                            (* 80 *)
  | line :: rest =>
      if startswith (s "# do_not_inline") line then Some (Ok (text, processed))  (* 31-32 *)
      else if Nat.eqb (count QUOTES line) 2 then loop rec file rest inDocstring text processed  (* 34-36 *)
      else if startswith (s "#") (lstrip line) && negb (startswith (s "#!") (lstrip line)) then loop rec file rest inDocstring text processed (* 38-41 *)
      else if Nat.eqb (count QUOTES line) 1 then                                 (* 43-55 *)
        if containsb package file then loop rec file rest (negb inDocstring) text processed
        else loop rec file rest inDocstring (text ++ line) processed
      else if inDocstring then loop rec file rest inDocstring text processed              (* 56 *)
      else if containsb package file && (containsb (s "main()") line || containsb (s "__main__") line) then Some (Ok (text, processed)) (* 57-61 *)
      else if containsb (s "import") line then                                   (* 62 *)
        match match_import line with
        | Some name =>
            if containsb package name then                                       (* 64-70 *)
              let moduleName := packagePath ++ package_path name in
              if smem moduleName processed then loop rec file rest inDocstring text processed
              else match rec (moduleName ++ s ".py") text (processed ++ [moduleName]) with
                   | Some (Ok (text, processed)) => loop rec file rest inDocstring text processed
                   | r => r
                   end
            else if startswith (s "import") (lstrip line) then
              let moduleName := rstrip (replace (s "import ") [] line) in
              if smem moduleName processed then loop rec file rest inDocstring text processed
              else loop rec file rest inDocstring (text ++ line) (processed ++ [moduleName])
            else loop rec file rest inDocstring (text ++ line) processed
        | None =>
            if startswith (s "import") (lstrip line) then                        (* 71-75 *)
              let moduleName := rstrip (replace (s "import ") [] line) in
              if smem moduleName processed then loop rec file rest inDocstring text processed
              else loop rec file rest inDocstring (text ++ line) (processed ++ [moduleName])
            else loop rec file rest inDocstring (text ++ line) processed                  (* 76-77 *)
        end
      else loop rec file rest inDocstring (text ++ line) processed                        (* 78-79 *)
  end.
Fixpoint inline_module (fuel : nat) (file text : str) (processed : list str) : option (res (str * list str)) :=
  match fuel with
  | O => None
  | S fuel =>
      match dget file files with
      | None => Some (Err OSError)                                                         (* 19 *)
      | Some content => loop (inline_module fuel) file (readlines content) false text processed
      end
  end.

(** 83-89 run: the text of the target file *)
Definition run (sourceFile : str) : option (res str) :=
  match inline_module (S (S (length files))) sourceFile [] [] with
  | Some (Ok (text, _)) => Some (Ok text)
  | Some (Err e) => Some (Err e)
  | None => None
  end.
End Inline.
