(** Model of src/translations.py, and of the file format of src/pgettext.py.

    Files are texts (None: no file); encoding, the messages printed, the backup files (128-132, 145-149, 214-226: see FileOps.v for
    the same scheme) and the time are not modelled: the time is a parameter. Reading a file translates line ends (unl). *)
From Coq Require Import String List NArith Bool Lia Arith.
From Verif Require Import PyStr PyDict YwText Template Inliner.
Import ListNotations.

(** * json.dump(d, f, ensure_ascii=False, sort_keys=True, indent=2) for a dictionary of strings (Python's json/encoder.py) *)
Definition hex_digit (k : N) : N := if (k <? 10)%N then (48 + k)%N else (87 + k)%N.
Definition json_char (c : N) : str :=
  if N.eqb c 34 then [92; 34]%N else if N.eqb c 92 then [92; 92]%N else if N.eqb c 10 then [92; 110]%N else if N.eqb c 13 then [92; 114]%N
  else if N.eqb c 9 then [92; 116]%N else if N.eqb c 12 then [92; 102]%N else if N.eqb c 8 then [92; 98]%N
  else if (c <? 32)%N then [92; 117; 48; 48]%N ++ [hex_digit (c / 16); hex_digit (c mod 16)]
  else [c].
Definition json_string (t : str) : str := [34%N] ++ flat_map json_char t ++ [34%N].
(** the order of strings: by code points *)
Fixpoint str_leb (a b : str) : bool :=
  match a, b with
  | [], _ => true
  | _ :: _, [] => false
  | x :: a', y :: b' => if (x <? y)%N then true else if (y <? x)%N then false else str_leb a' b'
  end.
Fixpoint insert {A} (key : A -> str) (x : A) (l : list A) : list A :=
  match l with [] => [x] | y :: l' => if str_leb (key x) (key y) then x :: y :: l' else y :: insert key x l' end.
(** sorted(l), stable *)
Fixpoint sorted {A} (key : A -> str) (l : list A) : list A := match l with [] => [] | x :: l' => insert key x (sorted key l') end.
Definition json_item (p : str * str) : str := json_string (fst p) ++ s ": " ++ json_string (snd p).
Definition json_text (d : dict str) : str :=
  match d with
  | [] => s "{}"
  | _ => s "{" ++ [10%N] ++ s "  " ++ join (s "," ++ [10%N] ++ s "  ") (map json_item (sorted fst d)) ++ [10%N] ++ s "}"
  end.

(** * json.load(f) (Python's json/decoder.py); a value that is not an object of strings counts as an error here *)
Definition hex_value (c : N) : option N :=
  if is_digit c then Some (c - 48)%N else if ((65 <=? c) && (c <=? 70))%N then Some (c - 55)%N else if ((97 <=? c) && (c <=? 102))%N then Some (c - 87)%N else None.
Definition hex4 (a b c d : N) : option N :=
  match hex_value a, hex_value b, hex_value c, hex_value d with
  | Some w, Some x, Some y, Some z => Some (((w * 16 + x) * 16 + y) * 16 + z)%N
  | _, _, _, _ => None
  end.
Definition backslash (e : N) : option N :=
  if N.eqb e 34 then Some 34%N else if N.eqb e 92 then Some 92%N else if N.eqb e 47 then Some 47%N else if N.eqb e 98 then Some 8%N
  else if N.eqb e 102 then Some 12%N else if N.eqb e 110 then Some 10%N else if N.eqb e 114 then Some 13%N else if N.eqb e 116 then Some 9%N else None.
Definition put (c : N) (r : option (str * str)) : option (str * str) := match r with Some (t, rest) => Some (c :: t, rest) | None => None end.
Fixpoint scanstring (t : str) : option (str * str) :=
  match t with
  | [] => None
  | c :: t1 =>
      if N.eqb c 34 then Some ([], t1)
      else if N.eqb c 92 then
        match t1 with
        | [] => None
        | e :: t2 =>
            if N.eqb e 117 then
              match t2 with
              | a :: b :: c :: d :: t3 =>
                  match hex4 a b c d with
                  | None => None
                  | Some u =>
                      match t3 with
                      | x :: y :: t4 =>
                          if ((55296 <=? u) && (u <=? 56319))%N && N.eqb x 92 && N.eqb y 117 then
                            match t4 with
                            | a :: b :: c :: d :: t5 =>
                                match hex4 a b c d with
                                | None => None
                                | Some v => if ((56320 <=? v) && (v <=? 57343))%N then put (65536 + ((u - 55296) * 1024 + (v - 56320)))%N (scanstring t5)
                                            else put u (scanstring t3)
                                end
                            | _ => None
                            end
                          else put u (scanstring t3)
                      | _ => put u (scanstring t3)
                      end
                  end
              | _ => None
              end
            else match backslash e with Some x => put x (scanstring t2) | None => None end
        end
      else if (c <? 32)%N then None
      else put c (scanstring t1)
  end.
Definition json_space (c : N) : bool := N.eqb c 32 || N.eqb c 9 || N.eqb c 10 || N.eqb c 13.
Definition skip_space (t : str) : str := lstrip_by json_space t.
(** the members of an object, from the opening quote of a key on; the rest of the text follows the closing brace *)
Fixpoint members (fuel : nat) (t : str) (d : dict str) : option (dict str * str) :=
  match fuel with
  | O => None
  | S fuel =>
      match t with
      | q :: t =>
          if negb (N.eqb q 34) then None
          else match scanstring t with
               | Some (k, t) =>
                   match skip_space t with
                   | c :: t =>
                       if negb (N.eqb c 58) then None
                       else match skip_space t with
                            | q :: t =>
                                if negb (N.eqb q 34) then None
                                else match scanstring t with
                                     | Some (v, t) =>
                                         match skip_space t with
                                         | e :: t => if N.eqb e 125 then Some (dset k v d, t)
                                                     else if N.eqb e 44 then members fuel (skip_space t) (dset k v d) else None
                                         | [] => None
                                         end
                                     | None => None
                                     end
                            | [] => None
                            end
                   | [] => None
                   end
               | None => None
               end
      | [] => None
      end
  end.
Definition json_load (t : str) : option (dict str) :=
  match skip_space t with
  | b :: t =>
      if negb (N.eqb b 123) then None
      else match skip_space t with
           | [] => None
           | c :: t' =>
               match (if N.eqb c 125 then Some ([], t') else members (length t) (c :: t') []) with
               | Some (d, rest) => match skip_space rest with [] => Some d | _ => None end
               | None => None
               end
           end
  | [] => None
  end.

(** * class Translations *)
Record translations := mkTr { tr_msgDict : dict str; tr_msgList : list str; tr_header : str; tr_potCreation : str }.
(** line.strip() for the lines of a file; 83-87 *)
Definition file_lines (t : str) : list str := map strip (readlines (unl t)).
(** 235-239 _extract_text *)
Definition extract_text (prefix line : str) : str := firstn (length line - 1 - length prefix) (skipn (length prefix) line).
Definition MSGID : str := s "msgid """.
Definition MSGSTR : str := s "msgstr """.
(** 76-100 read_pot; the list is sorted after each line *)
Definition pot_line (st : bool * str * list str) (line : str) : bool * str * list str :=
  let '(inHeader, potCreation, msgList) := st in
  let '(inHeader, potCreation) :=
    if prefixb (MSGID ++ [34%N]) line then (inHeader, potCreation)
    else if inHeader then
      if prefixb (s """POT-Creation-Date") line then (inHeader, line)
      else if prefixb MSGID line then (false, potCreation) else (inHeader, potCreation)
    else (inHeader, potCreation) in
  let msgList := if negb inHeader && prefixb MSGID line then msgList ++ [extract_text MSGID line] else msgList in
  (inHeader, potCreation, sorted (fun x => x) msgList).
Definition read_pot (pot : option str) (tr : translations) : res translations :=
  match pot with
  | None => Err OSError
  | Some t =>
      let '(_, potCreation, msgList) := fold_left pot_line (file_lines t) (true, tr_potCreation tr, tr_msgList tr) in
      Ok (mkTr (tr_msgDict tr) msgList (tr_header tr) potCreation)
  end.
(** 102-119 read_json: errors are ignored *)
Definition read_json (json : option str) (tr : translations) : translations :=
  match json with
  | None => tr
  | Some t => match json_load (unl t) with
              | Some d => mkTr (fold_left (fun acc p => dset (fst p) (snd p) acc) d (tr_msgDict tr)) (tr_msgList tr) (tr_header tr) (tr_potCreation tr)
              | None => tr
              end
  end.
(** 136-141 write_json: the text of the file *)
Definition write_json (tr : translations) : str := json_text (filter (fun p => truthy (snd p)) (tr_msgDict tr)).
(** 36-52 *)
Definition poHeader : str :=
  s "# ${app} Dictionary (English-German)" ++ [10%N] ++ s "# Copyright (C) 2022 Peter Triesberger" ++ [10%N] ++ s "#" ++ [10%N] ++ s "msgid """"" ++ [10%N] ++ s "msgstr """"" ++ [10%N] ++
  s """Project-Id-Version: ${appVersion}\n""" ++ [10%N] ++ s "${pot_creation}" ++ [10%N] ++ s """PO-Revision-Date: ${datetime}\n""" ++ [10%N] ++ s """Last-Translator: Peter Triesberger\n""" ++ [10%N] ++
  s """Language: de\n""" ++ [10%N] ++ s """MIME-Version: 1.0\n""" ++ [10%N] ++ s """Content-Type: text/plain; charset=UTF-8\n""" ++ [10%N] ++ s """Content-Transfer-Encoding: 8bit\n""" ++ [10%N; 10%N; 10%N].
(** 176-190 the loop of read_po; message is set before it is used because the header ends with a message *)
Definition po_line (st : bool * str * dict str) (line : str) : bool * str * dict str :=
  let '(inHeader, message, d) := st in
  let inHeader := if prefixb (MSGID ++ [34%N]) line then inHeader else if inHeader then negb (prefixb MSGID line) else inHeader in
  if inHeader then (inHeader, message, d)
  else if prefixb MSGID line then (inHeader, extract_text MSGID line, d)
  else if prefixb MSGSTR line then
    let translation := extract_text MSGSTR line in
    (inHeader, message, if truthy translation then dset message translation d else d)
  else (inHeader, message, d).
Section Class.
Variables (app appVersion currentDateTime : str).
(** 64-74 __init__ *)
Definition new_translations : translations :=
  mkTr [] [] [] (s """POT-Creation-Date: " ++ currentDateTime ++ s "\n""").
(** 151-192 read_po *)
Definition read_po (po : option str) (tr : translations) : translations :=
  let header := safe_substitute poHeader [(s "app", app); (s "appVersion", appVersion); (s "datetime", currentDateTime); (s "pot_creation", tr_potCreation tr)] in
  match po with
  | None => mkTr (tr_msgDict tr) (tr_msgList tr) header (tr_potCreation tr)
  | Some t => mkTr (snd (fold_left po_line (file_lines t) (true, [], tr_msgDict tr))) (tr_msgList tr) header (tr_potCreation tr)
  end.
End Class.
(** 194-233 write_po: the text of the file, and whether all messages have a translation *)
Definition translation_of (tr : translations) (message : str) : str := match dget message (tr_msgDict tr) with Some t => t | None => [] end.
Definition po_entry (tr : translations) (message : str) : str :=
  MSGID ++ message ++ [34; 10]%N ++ MSGSTR ++ translation_of tr message ++ [34; 10; 10]%N.
Definition write_po (tr : translations) : str * bool :=
  (tr_header tr ++ concat (map (po_entry tr) (tr_msgList tr)), forallb (fun m => truthy (translation_of tr m)) (tr_msgList tr)).
(** 242-264 main(languageCode, app, appVersion, potFile, json=True): the new PO and JSON files and the result; json=False: no JSON file *)
Definition main (app appVersion currentDateTime : str) (json : bool) (jsonFile potFile poFile : option str) : res (option str * str * bool) :=
  let tr := new_translations currentDateTime in
  let tr := if json then read_json jsonFile tr else tr in
  do tr <- read_pot potFile tr;
  let tr := read_po app appVersion currentDateTime poFile tr in
  let jsonFile := if json then Some (write_json tr) else jsonFile in
  let '(po, complete) := write_po tr in
  Ok (jsonFile, po, complete).

(** * src/pgettext.py 19-35, 53-69 PotFile.write_pot: the text of the file; msgList: sorted list of the set of messages *)
Definition potHeader : str :=
  s "# ${app} Dictionary" ++ [10%N] ++ s "# Copyright (C) 2022 Peter Triesberger" ++ [10%N] ++ s "#" ++ [10%N] ++ s "msgid """"" ++ [10%N] ++ s "msgstr """"" ++ [10%N] ++
  s """Project-Id-Version: ${appVersion}\n""" ++ [10%N] ++ s """POT-Creation-Date: ${datetime}\n""" ++ [10%N] ++ s """PO-Revision-Date: YEAR-MO-DA HO:MI+ZONE\n""" ++ [10%N] ++
  s """Last-Translator: FULL NAME <EMAIL@ADDRESS>\n""" ++ [10%N] ++ s """Language: LANGUAGE\n""" ++ [10%N] ++ s """MIME-Version: 1.0\n""" ++ [10%N] ++
  s """Content-Type: text/plain; charset=UTF-8\n""" ++ [10%N] ++ s """Content-Transfer-Encoding: 8bit\n""" ++ [10%N] ++ s """Generated-By: PyWriter pgettext.py ${version}\n""" ++ [10%N; 10%N].
(** list(set(l)), in some order *)
Fixpoint distinct (l : list str) : list str := match l with [] => [] | x :: l' => if smem x l' then distinct l' else x :: distinct l' end.
Definition escaped (message : str) : str := replace (s """") (s "\""") message.
Definition pot_entry (message : str) : str := [10%N] ++ MSGID ++ escaped message ++ [34; 10]%N ++ s "msgstr """"" ++ [10%N].
Definition write_pot (app appVersion datetime : str) (msgs : list str) : str :=
  safe_substitute potHeader [(s "app", app); (s "appVersion", appVersion); (s "datetime", datetime); (s "version", s "0.3")] ++
  concat (map pot_entry (sorted (fun x => x) (distinct msgs))).

(** * src/pgettext.py 15-17, 71-75 get_messages *)
(** (.+?)CLOSE matched lazily: the group and the rest after CLOSE; the group is not empty and has no line feed *)
Fixpoint lazy_group (close t acc : str) : option (str * str) :=
  match t with
  | [] => None
  | c :: t' => if truthy acc && prefixb close t then Some (rev acc, skipn (length close) t)
               else if N.eqb c 10 then None else lazy_group close t' (c :: acc)
  end.
(** pattern.findall(text) for the pattern OPEN(.+?)CLOSE *)
Fixpoint findall (fuel : nat) (opening close t : str) : list str :=
  match fuel with
  | O => []
  | S fuel =>
      match t with
      | [] => []
      | _ :: t' => if prefixb opening t then match lazy_group close (skipn (length opening) t) [] with
                                             | Some (m, rest) => m :: findall fuel opening close rest
                                             | None => findall fuel opening close t'
                                             end
                   else findall fuel opening close t'
      end
  end.
Definition get_messages (text : str) : list str :=
  findall (S (length text)) (s "_(""") (s """)") text ++ findall (S (length text)) (s "_('") (s "')") text.
(** 71-90 scan_file, scan_dir: the messages of all the source files, read in text mode *)
Definition scan (files : list str) : list str := flat_map (fun text => get_messages (unl text)) files.
