(** Model of src/msgfmt.py 99-216 (make: compiling a PO file) and of src/translate_de.py 42-45.

    A codec is a pair of functions; latin-1 and UTF-8 are given, others are whatever Python has (oracle).  ast.literal_eval is modelled for one
    string in double quotation marks with simple escapes, anything else is an oracle; the charset of the header (email.parser.HeaderParser,
    get_content_charset) is modelled for lines of the form NAME: VALUE and the content type PyWriter writes, anything else is an oracle.
    Messages printed are not modelled; sys.exit(1) is the error EXIT.  MESSAGES is a global variable: it is passed in and out. *)
From Coq Require Import String List NArith Bool Lia Arith.
From Verif Require Import PyStr PyDict YwText Inliner Translations Msgfmt.
Import ListNotations.

(** * bytes.decode and str.encode *)
Record codec := mkCodec { decode : bytes -> res str; encode : str -> res bytes }.
Definition latin1 : codec :=
  mkCodec (fun b => Ok b) (fun t => if forallb (fun c => c <? 256)%N t then Ok t else Err ValueError).
(** Unicode scalar values: all code points but the surrogates *)
Definition scalar (c : N) : bool := ((c <? 55296) || ((57344 <=? c) && (c <? 1114112)))%N.
Definition utf8_char (c : N) : bytes :=
  if (c <? 128)%N then [c]
  else if (c <? 2048)%N then [192 + c / 64; 128 + c mod 64]%N
  else if (c <? 65536)%N then [224 + c / 4096; 128 + (c / 64) mod 64; 128 + c mod 64]%N
  else [240 + c / 262144; 128 + (c / 4096) mod 64; 128 + (c / 64) mod 64; 128 + c mod 64]%N.
Definition utf8_text (t : str) : bytes := flat_map utf8_char t.
Definition more (b : N) : bool := ((128 <=? b) && (b <? 192))%N.
Definition okcons (c : N) (r : res str) : res str := match r with Ok t => Ok (c :: t) | Err e => Err e end.
Fixpoint utf8_decode (t : bytes) : res str :=
  match t with
  | [] => Ok []
  | b :: t1 =>
      if (b <? 128)%N then okcons b (utf8_decode t1)
      else if (b <? 192)%N then Err ValueError
      else match t1 with
           | [] => Err ValueError
           | b1 :: t2 =>
               if negb (more b1) then Err ValueError
               else if (b <? 224)%N then
                 let c := ((b - 192) * 64 + (b1 - 128))%N in
                 if (128 <=? c)%N then okcons c (utf8_decode t2) else Err ValueError
               else match t2 with
                    | [] => Err ValueError
                    | b2 :: t3 =>
                        if negb (more b2) then Err ValueError
                        else if (b <? 240)%N then
                          let c := (((b - 224) * 64 + (b1 - 128)) * 64 + (b2 - 128))%N in
                          if ((2048 <=? c) && scalar c)%N then okcons c (utf8_decode t3) else Err ValueError
                        else match t3 with
                             | [] => Err ValueError
                             | b3 :: t4 =>
                                 if negb (more b3) then Err ValueError
                                 else let c := ((((b - 240) * 64 + (b1 - 128)) * 64 + (b2 - 128)) * 64 + (b3 - 128))%N in
                                      if ((65536 <=? c) && scalar c)%N then okcons c (utf8_decode t4) else Err ValueError
                             end
                    end
           end
  end.
Definition utf8 : codec := mkCodec utf8_decode (fun t => if forallb scalar t then Ok (utf8_text t) else Err ValueError).

(** * ast.literal_eval(l), msgfmt.py 192 *)
(** the escapes of one letter (Python language reference, 2.4.1.1); None: another one *)
Definition escape_value (e : N) : option N :=
  if N.eqb e 92 then Some 92%N else if N.eqb e 39 then Some 39%N else if N.eqb e 34 then Some 34%N else if N.eqb e 97 then Some 7%N
  else if N.eqb e 98 then Some 8%N else if N.eqb e 102 then Some 12%N else if N.eqb e 110 then Some 10%N else if N.eqb e 114 then Some 13%N
  else if N.eqb e 116 then Some 9%N else if N.eqb e 118 then Some 11%N else None.
Definition somecons (c : N) (r : option str) : option str := match r with Some t => Some (c :: t) | None => None end.
(** the text after the opening quotation mark up to the closing one, which must be the last character; None: not of this form *)
Fixpoint scan_literal (t : str) : option str :=
  match t with
  | [] => None
  | c :: t1 =>
      if N.eqb c 34 then match t1 with [] => Some [] | _ => None end
      else if N.eqb c 92 then
        match t1 with
        | [] => None
        | e :: t2 => match escape_value e with Some x => somecons x (scan_literal t2) | None => None end
        end
      else if N.eqb c 10 || N.eqb c 13 || N.eqb c 0 || negb (scalar c) then None
      else somecons c (scan_literal t1)
  end.
Definition literal_eval (other : str -> res str) (l : str) : res str :=
  match l with
  | q :: t => if N.eqb q 34 then match scan_literal t with Some v => Ok v | None => other l end else other l
  | [] => other l
  end.

(** * p.parsestr(header).get_content_charset(), msgfmt.py 154-155 *)
(** NAME: VALUE, the name of printable ASCII characters *)
Definition name_char (c : N) : bool := ((33 <=? c) && (c <=? 126))%N.
Definition header_field (l : str) : option (str * str) :=
  match splitc 58 l with
  | name :: _ :: _ => if truthy name && forallb name_char name
                      then Some (name, lstrip_by (fun c => N.eqb c 32 || N.eqb c 9) (skipn (S (length name)) l)) else None
  | _ => None
  end.
Fixpoint all_fields (ls : list str) : option (list (str * str)) :=
  match ls with
  | [] => None
  | [l] => match l with [] => Some [] | _ => None end
  | l :: ls' => match header_field l, all_fields ls' with Some f, Some fs => Some (f :: fs) | _, _ => None end
  end.
Definition lower_ascii (t : str) : str := map (fun c => if ((65 <=? c) && (c <=? 90))%N then (c + 32)%N else c) t.
Fixpoint first_field (name : str) (fs : list (str * str)) : option str :=
  match fs with [] => None | f :: fs' => if str_eqb (lower_ascii (fst f)) name then Some (snd f) else first_field name fs' end.
(** None: no charset *)
Definition header_charset (other : str -> option codec) (t : str) : option codec :=
  if smem [13%N] (map (fun c => [c]) t) then other t
  else match all_fields (splitc 10 t) with
       | None => other t
       | Some fs => match first_field (s "content-type") fs with
                    | None => None
                    | Some v => if str_eqb v (s "text/plain; charset=UTF-8") then Some utf8 else other t
                    end
       end.

(** * make *)
Inductive sect := CTXT | ID | STR.
(** the variables of the loop (119-124); None: not bound yet (section, msgctxt: None) *)
Record state := mkSt { section : option sect; msgctxt : option bytes; msgid : option bytes; msgstr : option bytes; is_plural : option bool;
                       fuzzy : bool; encoding : codec; messages : dict bytes }.
Definition EXIT : exn := UserError (s "exit 1").
Definition bound {A} (x : option A) : res A := match x with Some a => Ok a | None => Err UnboundLocalError end.
Definition in_str (st : state) : bool := match section st with Some STR => true | _ => false end.
(** add(msgctxt, msgid, msgstr, fuzzy) *)
Definition add_entry (st : state) : res state :=
  do i <- bound (msgid st); do t <- bound (msgstr st);
  Ok (mkSt (section st) (msgctxt st) (msgid st) (msgstr st) (is_plural st) (fuzzy st) (encoding st) (add (msgctxt st) i t (fuzzy st) (messages st))).
Section Make.
Variables (other : str -> res str) (charset : str -> option codec).
(** 131-135 a comment line after a msgstr *)
Definition comment (st : state) : res state :=
  do st <- add_entry st;
  Ok (mkSt None None (msgid st) (msgstr st) (is_plural st) false (encoding st) (messages st)).
(** 143-147 msgctxt *)
Definition ctxt_line (st : state) (l : str) : res (str * state) :=
  do st <- (if in_str st then add_entry st else Ok st);
  Ok (skipn 7 l, mkSt (Some CTXT) (Some []) (msgid st) (msgstr st) (is_plural st) (fuzzy st) (encoding st) (messages st)).
(** 149-161 msgid *)
Definition id_line (st : state) (l : str) : res (str * state) :=
  do st <- (if in_str st then
              do st <- add_entry st;
              match msgid st, msgstr st with
              | Some [], Some t => do h <- decode (encoding st) t;
                             Ok (match header_charset charset h with
                                 | Some c => mkSt (section st) (msgctxt st) (msgid st) (msgstr st) (is_plural st) (fuzzy st) c (messages st)
                                 | None => st
                                 end)
              | _, _ => Ok st
              end
            else Ok st);
  Ok (skipn 5 l, mkSt (Some ID) (msgctxt st) (Some []) (Some []) (Some false) (fuzzy st) (encoding st) (messages st)).
(** 163-170 msgid_plural *)
Definition plural_line (st : state) (l : str) : res (str * state) :=
  match section st with
  | Some ID => do i <- bound (msgid st);
               Ok (skipn 12 l, mkSt (section st) (msgctxt st) (Some (i ++ [0%N])) (msgstr st) (Some true) (fuzzy st) (encoding st) (messages st))
  | _ => Err EXIT
  end.
(** 172-187 msgstr *)
Definition str_line (st : state) (l : str) : res (str * state) :=
  let st := mkSt (Some STR) (msgctxt st) (msgid st) (msgstr st) (is_plural st) (fuzzy st) (encoding st) (messages st) in
  do plural <- bound (is_plural st);
  if prefixb (s "msgstr[") l then
    if negb plural then Err EXIT
    else match splitc 93 l with
         | a :: _ :: _ => do t <- bound (msgstr st);
                          Ok (skipn (S (length a)) l, mkSt (section st) (msgctxt st) (msgid st) (Some (if truthy t then t ++ [0%N] else t)) (is_plural st) (fuzzy st) (encoding st) (messages st))
         | _ => Err IndexError
         end
  else if plural then Err EXIT
  else Ok (skipn 6 l, st).
(** 142-187 *)
Definition keyword (st : state) (l : str) : res (str * state) :=
  if prefixb (s "msgctxt") l then ctxt_line st l
  else if prefixb (s "msgid") l && negb (prefixb (s "msgid_plural") l) then id_line st l
  else if prefixb (s "msgid_plural") l then plural_line st l
  else if prefixb (s "msgstr") l then str_line st l
  else Ok (l, st).
(** 188-203 *)
Definition text_part (st : state) (l : str) : res state :=
  match strip l with
  | [] => Ok st
  | l => do v <- literal_eval other l;
         match section st with
         | Some CTXT => do c <- bound (msgctxt st); do b <- encode (encoding st) v;
                        Ok (mkSt (section st) (Some (c ++ b)) (msgid st) (msgstr st) (is_plural st) (fuzzy st) (encoding st) (messages st))
         | Some ID => do i <- bound (msgid st); do b <- encode (encoding st) v;
                      Ok (mkSt (section st) (msgctxt st) (Some (i ++ b)) (msgstr st) (is_plural st) (fuzzy st) (encoding st) (messages st))
         | Some STR => do t <- bound (msgstr st); do b <- encode (encoding st) v;
                       Ok (mkSt (section st) (msgctxt st) (msgid st) (Some (t ++ b)) (is_plural st) (fuzzy st) (encoding st) (messages st))
         | None => Err EXIT
         end
  end.
(** 128-203 the body of the loop *)
Definition step (st : state) (line : bytes) : res state :=
  do l <- decode (encoding st) line;
  match l with
  | [] => Err IndexError
  | c :: _ =>
      do st <- (if N.eqb c 35 && in_str st then comment st else Ok st);
      let st := if prefixb (s "#,") l && containsb (s "fuzzy") l
                then mkSt (section st) (msgctxt st) (msgid st) (msgstr st) (is_plural st) true (encoding st) (messages st) else st in
      if N.eqb c 35 then Ok st
      else do r <- keyword st l; text_part (snd r) (fst r)
  end.
(** 111-206 the catalogue of a PO file; f.readlines() of a binary file *)
Definition parse (file : bytes) (ms : dict bytes) : res (dict bytes) :=
  do st <- foldM step (readlines file) (mkSt None None None None None false latin1 ms);
  do st <- (if in_str st then add_entry st else Ok st);
  Ok (messages st).
(** 99-216 make: the .mo file written; None: no such PO file *)
Definition make (big : bool) (po : option bytes) (ms : dict bytes) : res bytes :=
  match po with
  | None => Err EXIT
  | Some file => do ms <- parse file ms; generate big ms
  end.
(** src/translate_de.py 42-45: the new PO file, and the .mo file if all messages are translated.  The files are written and read in UTF-8.
    Simplification: a text that cannot be encoded is an error here (translations.py 222-226 prints it and returns False). *)
Definition translate_de (big : bool) (now : str) (potFile poFile : option str) : res (bytes * option bytes) :=
  do r <- main (s "PyWriter") (s "unknown") now false None potFile poFile;
  let '(_, po, complete) := r in
  do file <- encode utf8 po;
  if complete then do mo <- make big (Some file) []; Ok (file, Some mo) else Ok (file, None).
End Make.
