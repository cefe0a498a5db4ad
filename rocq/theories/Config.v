(** Configuration files.

    Models src/pywriter/config/configuration.py and, as trusted modelling layer, the parts of Python 3.11's configparser.ConfigParser
    it uses with default arguments: delimiters '=' and ':', comment prefixes '#' and ';', no inline comments, strict, empty lines in
    values, BasicInterpolation, DEFAULT section.  All exceptions of configparser are ParseError, except ValueError of set() and
    getboolean().  [xform]: optionxform, i.e. str.lower.  Line breaks are translated when reading (unl). *)
From Coq Require Import List NArith Bool.
From Verif Require Import PyStr PyDict YwText.
Import ListNotations.

Record configuration := mkConfig { settings : dict str; options : dict bool }.

(** ** configparser: reading *)
(** lines of a text file, without line breaks *)
Definition file_lines (t : str) : list str :=
  let l := splitc 10 t in match last l [] with [] => removelast l | _ => l end.

(** SECTCRE: \[(?P<header>.+)\] at the beginning *)
Fixpoint to_last (c : N) (t : str) : option str :=     (* what precedes the last c *)
  match t with
  | [] => None
  | x :: t' => match to_last c t' with Some r => Some (x :: r) | None => if N.eqb x c then Some [] else None end
  end.
Definition section_header (v : str) : option str :=
  match v with
  | c :: t => if N.eqb c 91 then match to_last 93 t with Some (x :: h) => Some (x :: h) | _ => None end else None
  | [] => None
  end.
(** _optcre: what precedes the first delimiter without trailing space, and what follows it *)
Definition delimiter (c : N) : bool := N.eqb c 61 || N.eqb c 58.
Fixpoint at_delimiter (t : str) : option (str * str) :=
  match t with
  | [] => None
  | c :: t' => if delimiter c then Some ([], t') else match at_delimiter t' with Some (a, b) => Some (c :: a, b) | None => None end
  end.
Definition comment_start (v : str) : bool := prefixb (s "#") v || prefixb (s ";") v.
Fixpoint indent_of (line : str) : nat := match line with c :: t => if is_space c then S (indent_of t) else 0 | [] => 0 end.

Definition DEFAULT : str := s "DEFAULT".
(** the state of _read(): all sections with the lines of their values (DEFAULT included if it has occurred), the current section, option
    and indentation *)
Record ini := mkIni { in_sections : dict (dict (list str)); in_cur : option str; in_opt : option str; in_indent : nat }.
Definition sect (name : str) (d : dict (dict (list str))) : dict (list str) := match dget name d with Some x => x | None => [] end.
Definition append_line (st : ini) (v : str) : ini :=
  match in_cur st, in_opt st with
  | Some sn, Some o => {| in_sections := dset sn (dset o (match dget o (sect sn (in_sections st)) with Some l => l ++ [v] | None => [v] end) (sect sn (in_sections st))) (in_sections st);
                          in_cur := in_cur st; in_opt := in_opt st; in_indent := in_indent st |}
  | _, _ => st
  end.
Definition continues (st : ini) (line : str) : bool :=
  match in_cur st, in_opt st with Some _, Some _ => Nat.ltb (in_indent st) (indent_of line) | _, _ => false end.
Definition read_line (xform : str -> str) (st : ini) (line : str) : res ini :=
  let v := strip line in
  if comment_start v then Ok st else
  match v with
  | [] => Ok (append_line st [])
  | _ => if continues st line then Ok (append_line st v) else
      match section_header v with
      | Some h => if dmem h (in_sections st) && negb (str_eqb h DEFAULT) then Err ParseError
                  else Ok {| in_sections := if dmem h (in_sections st) then in_sections st else dset h [] (in_sections st);
                             in_cur := Some h; in_opt := None; in_indent := indent_of line |}
      | None =>
          match in_cur st with
          | None => Err ParseError
          | Some sn => match at_delimiter v with
              | None => Err ParseError
              | Some (a, b) =>
                  let o := xform (rstrip a) in
                  match rstrip a with
                  | [] => Err ParseError
                  | _ => if dmem o (sect sn (in_sections st)) then Err ParseError
                         else Ok {| in_sections := dset sn (dset o [strip b] (sect sn (in_sections st))) (in_sections st);
                                    in_cur := in_cur st; in_opt := Some o; in_indent := indent_of line |}
                  end
              end
          end
      end
  end.
Definition join_values (d : dict (list str)) : dict str := map (fun kv => (fst kv, rstrip (join [10%N] (snd kv)))) d.
(** ConfigParser.read of an existing file *)
Definition ini_read (xform : str -> str) (t : str) : res (dict (dict str)) :=
  do st <- foldM (read_line xform) (file_lines t) {| in_sections := []; in_cur := None; in_opt := None; in_indent := 0 |};
  Ok (map (fun kv => (fst kv, join_values (snd kv))) (in_sections st)).

(** BasicInterpolation: %% and %(name)s *)
Fixpoint to_paren (t : str) : option (str * nat) :=   (* name before ")s", its length *)
  match t with
  | [] => None
  | c :: t' => if N.eqb c 41 then (if prefixb (s "s") t' then Some ([], 0) else None)
               else match to_paren t' with Some (a, n) => Some (c :: a, S n) | None => None end
  end.
Definition key_at (t : str) : option (str * nat) :=   (* t after "%(" ; the name has at least one character *)
  match to_paren t with Some ([], _) => None | x => x end.
Fixpoint interpolate (depth : nat) (xform : str -> str) (m : dict str) (t : str) : res str :=
  match depth with
  | O => Err ParseError
  | S d => (fix go (skip : nat) (t : str) : res str :=
      match t with
      | [] => Ok []
      | c :: t' => match skip with
          | S k => go k t'
          | O => if negb (N.eqb c 37) then do r <- go 0 t'; Ok (c :: r) else
              match t' with
              | c2 :: t2 => if N.eqb c2 37 then do r <- go 1 t'; Ok (c :: r)
                  else if N.eqb c2 40 then
                    match key_at t2 with
                    | None => Err ParseError
                    | Some (name, n) =>
                        match dget (xform name) m with
                        | None => Err ParseError
                        | Some v => do x <- (if existsb (N.eqb 37) v then interpolate d xform m v else Ok v);
                                    do r <- go (n + 3) t'; Ok (x ++ r)
                        end
                    end
                  else Err ParseError
              | [] => Err ParseError
              end
          end
      end) 0 t
  end.

(** section.get(option, fallback); the section's values come before those of DEFAULT *)
Definition section_get {A} (xform : str -> str) (d : dict (dict str)) (sn o : str) (conv : str -> res A) (fallback : A) : res A :=
  let own := match dget sn d with Some x => x | None => [] end in
  let def := match dget DEFAULT d with Some x => x | None => [] end in
  match dget (xform o) (own ++ def) with
  | None => Ok fallback
  | Some v => do x <- interpolate 10 xform (own ++ def) v; conv x
  end.
(** _convert_to_boolean; lower() is modelled for ASCII (the long s and the Kelvin sign do not occur in a state's name: "yes" has U+017F
    as upper-case variant only, whose lower() is itself) *)
Definition to_boolean (v : str) : res bool :=
  let v := lower v in
  if smem v [s "1"; s "yes"; s "true"; s "on"] then Ok true
  else if smem v [s "0"; s "no"; s "false"; s "off"] then Ok false else Err ValueError.
Definition has_section (d : dict (dict str)) (sn : str) : bool := dmem sn d.

(** configuration.py 40-59 read; None: no such file *)
Definition config_read (xform : str -> str) (file : option str) (c : configuration) : res configuration :=
  match file with
  | None => Ok c
  | Some t =>
      do d <- ini_read xform (unl t);
      do st <- (if has_section d (s "SETTINGS")
                then mapM (fun kv => do v <- section_get xform d (s "SETTINGS") (fst kv) (fun x => Ok x) (snd kv); Ok (fst kv, v)) (settings c)
                else Ok (settings c));
      do op <- (if has_section d (s "OPTIONS")
                then mapM (fun kv => do v <- section_get xform d (s "OPTIONS") (fst kv) to_boolean (snd kv); Ok (fst kv, v)) (options c)
                else Ok (options c));
      Ok {| settings := st; options := op |}
  end.

(** ** configparser: writing *)
(** before_set: what is left after removing %% and %(name)s must not contain % *)
Fixpoint no_keys (skip : nat) (t : str) : str :=
  match t with
  | [] => []
  | c :: t' => match skip with
      | S k => no_keys k t'
      | O => if prefixb (s "%(") t then match key_at (tl t') with Some (_, n) => no_keys (n + 3) t' | None => c :: no_keys 0 t' end
             else c :: no_keys 0 t'
      end
  end.
Definition value_ok (v : str) : bool := negb (existsb (N.eqb 37) (no_keys 0 (replace (s "%%") [] v))).
(** set() of all values of a section *)
Definition set_all (xform : str -> str) (l : list (str * str)) : res (dict str) :=
  foldM (fun d kv => if value_ok (snd kv) then Ok (dset (xform (fst kv)) (snd kv) d) else Err ValueError) l [].
(** _write_section *)
Definition write_section (sn : str) (d : dict str) : str :=
  s "[" ++ sn ++ s "]" ++ [10%N] ++ flat_map (fun kv => fst kv ++ s " = " ++ replace [10%N] [10; 9]%N (snd kv) ++ [10%N]) d ++ [10%N].

(** configuration.py 73-92 write: the text of the file *)
Definition yes_no (b : bool) : str := if b then s "Yes" else s "No".
Definition config_write (xform : str -> str) (c : configuration) : res str :=
  do a <- (match settings c with [] => Ok [] | _ => do d <- set_all xform (settings c); Ok (write_section (s "SETTINGS") d) end);
  do b <- (match options c with [] => Ok [] | _ => do d <- set_all xform (map (fun kv => (fst kv, yes_no (snd kv))) (options c)); Ok (write_section (s "OPTIONS") d) end);
  Ok (a ++ b).

(** configuration.py 61-71 set; 27-38 __init__ *)
Definition config_set (st : option (dict str)) (op : option (dict bool)) (c : configuration) : configuration :=
  {| settings := match st with Some x => x | None => settings c end; options := match op with Some x => x | None => options c end |}.
Definition config_new (st : dict str) (op : dict bool) : configuration := {| settings := st; options := op |}.
