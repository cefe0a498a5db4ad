(** XML with attributes, as read by xml.sax and xml.etree.ElementTree: the parsers used in src/pywriter/odt_r/odt_parser.py 103
    (sax.parseString) and src/pywriter/ods_r/ods_parser.py 49 (ET.fromstring).

    Trusted modelling layer.  Modelled: start tags with attributes, end tags, empty-element tags, character data, the five predefined
    entities, the XML declaration, CDATA sections, line end normalisation, nesting, unique attribute names.
    Outside the language (None): comments, processing instructions, document types, numeric character references.
    Simplifications: names are compared with their prefixes (no namespace resolution); adjacent character data are reported in one piece
    by sax below (as ElementTree stores them). The parser of xml.sax reports them in several pieces: separately for each entity, each
    line feed and at the ends of its input buffer. Statements about the readers of text documents (OdtRead.v) therefore quantify over
    the events, pieces included. *)
From Coq Require Import String List NArith ZArith Bool Lia Arith.
From Verif Require Import PyStr PyDict YwTree YwText.
Import ListNotations.

Definition attrs := list (str * str).

(** ** Tokens *)
Inductive xtok :=
| XStart (name : str) (a : attrs)
| XEmpty (name : str) (a : attrs)
| XEnd (name : str)
| XChar (c : N)        (* a character of the document *)
| XText (t : str).     (* an entity or a CDATA section *)

Definition xname_char (c : N) : bool := name_char c || N.eqb c 58.
Definition xname_ok (t : str) : bool := match t with c :: _ => name_start c | [] => false end && forallb xname_char t.
(** a name, its length, and the text behind it *)
Definition take_name (t : str) : option (str * nat * str) :=
  let n := span_len xname_char (length t) t in
  if xname_ok (firstn n t) then Some (firstn n t, n, skipn n t) else None.

(** an entity: its value and its length *)
Definition take_entity (t : str) : option (str * nat) :=
  match look_entity entities t with Some (TText v, n) => Some (v, n) | _ => None end.

(** an attribute value up to the closing quotation mark q: the value, the length including the mark, the text behind it *)
Fixpoint take_value (fuel : nat) (q : N) (t : str) : option (str * nat * str) :=
  match fuel, t with
  | S f, c :: r =>
      if N.eqb c q then Some ([], 1, r)
      else if N.eqb c 60 then None
      else if N.eqb c 38 then
        match take_entity t with
        | Some (v, n) => match take_value f q (skipn n t) with Some (x, k, r') => Some (v ++ x, n + k, r') | None => None end
        | None => None
        end
      else if xml_char c then
        match take_value f q r with Some (x, k, r') => Some ((if xml_space c then 32%N else c) :: x, S k, r') | None => None end
      else None
  | _, _ => None
  end.

(** the rest of a start tag: attributes, whether it ends with "/>", its length *)
Fixpoint take_attrs (fuel : nat) (t : str) : option (attrs * bool * nat) :=
  match fuel with
  | O => None
  | S f =>
      let w := span_len xml_space (length t) t in
      match skipn w t with
      | 62%N :: _ => Some ([], false, w + 1)
      | 47%N :: 62%N :: _ => Some ([], true, w + 2)
      | r =>
          if 0 <? w then
            match take_name r with
            | Some (name, n, 61%N :: q :: r1) =>
                if (N.eqb q 34 || N.eqb q 39)%bool then
                  match take_value (length r1) q r1 with
                  | Some (v, k, r2) =>
                      match take_attrs f r2 with
                      | Some (a, e, m) => if smem name (map fst a) then None else Some ((name, v) :: a, e, w + n + 2 + k + m)
                      | None => None
                      end
                  | None => None
                  end
                else None
            | _ => None
            end
          else None
      end
  end.

(** the token at the beginning of t, and its length *)
Definition xlook (t : str) : option (xtok * nat) :=
  match t with
  | [] => None
  | c :: r =>
      if N.eqb c 60 then
        if prefixb (s "![CDATA[") r then
          match before (s "]]>") (skipn 8 r) with
          | Some x => if forallb xml_char x then Some (XText x, 9 + length x + 3) else None
          | None => None
          end
        else match r with
        | 47%N :: r' =>
            match take_name r' with
            | Some (name, n, r2) =>
                let w := span_len xml_space (length r2) r2 in
                match skipn w r2 with 62%N :: _ => Some (XEnd name, 2 + n + w + 1) | _ => None end
            | None => None
            end
        | _ =>
            match take_name r with
            | Some (name, n, r2) =>
                match take_attrs (length r2) r2 with
                | Some (a, e, m) => Some (if e then XEmpty name a else XStart name a, 1 + n + m)
                | None => None
                end
            | None => None
            end
        end
      else if N.eqb c 38 then match take_entity t with Some (v, n) => Some (XText v, n) | None => None end
      else if xml_char c then Some (XChar c, 1) else None
  end.

Fixpoint xlex_go (skip : nat) (t : str) : option (list xtok) :=
  match t with
  | [] => Some []
  | c :: t' =>
      match skip with
      | S k => xlex_go k t'
      | 0 => match xlook t with
             | Some (k, n) => option_map (cons k) (xlex_go (pred n) t')
             | None => None
             end
      end
  end.
Definition xlex (t : str) : option (list xtok) := xlex_go 0 t.

(** ]]> must not occur in character data *)
Fixpoint no_cdata_end (ts : list xtok) : bool :=
  match ts with
  | XChar a :: ((XChar b :: XChar c :: _) as ts') => negb (N.eqb a 93 && N.eqb b 93 && N.eqb c 62) && no_cdata_end ts'
  | _ :: ts' => no_cdata_end ts'
  | [] => true
  end.

(** ** Events *)
Inductive event := Start (name : str) (a : attrs) | End (name : str) | Data (t : str).

(** nesting: st are the open elements; outside the root there is white space only, and one root *)
Fixpoint nest (st : list str) (seen : bool) (ts : list xtok) : option (list event) :=
  match ts with
  | [] => match st with [] => if seen then Some [] else None | _ => None end
  | XStart n a :: ts' =>
      match st, seen with
      | [], true => None
      | _, _ => option_map (cons (Start n a)) (nest (n :: st) true ts')
      end
  | XEmpty n a :: ts' =>
      match st, seen with
      | [], true => None
      | _, _ => option_map (fun es => Start n a :: End n :: es) (nest st true ts')
      end
  | XEnd n :: ts' =>
      match st with
      | m :: st' => if str_eqb n m then option_map (cons (End n)) (nest st' seen ts') else None
      | [] => None
      end
  | XChar c :: ts' =>
      match st with
      | [] => if xml_space c then nest [] seen ts' else None
      | _ => option_map (cons (Data [c])) (nest st seen ts')
      end
  | XText t :: ts' =>
      match st with
      | [] => None
      | _ => option_map (cons (Data t)) (nest st seen ts')
      end
  end.
(** adjacent character data are one event; empty data are none *)
Fixpoint merge (es : list event) : list event :=
  match es with
  | [] => []
  | Data t :: es' =>
      match merge es' with
      | Data u :: r => Data (t ++ u) :: r
      | r => match t with [] => r | _ => Data t :: r end
      end
  | e :: es' => e :: merge es'
  end.

(** the events of a document *)
Definition sax (doc : str) : option (list event) :=
  match skip_declaration (unl doc) with
  | Some t => match xlex t with
              | Some ts => if no_cdata_end ts then option_map merge (nest [] false ts) else None
              | None => None
              end
  | None => None
  end.

(** ** Trees (ElementTree): mixed content *)
Inductive node := Txt (t : str) | Elt (name : str) (a : attrs) (kids : list node).
(** the siblings up to the end of the enclosing element, and the remaining events *)
Fixpoint siblings (fuel : nat) (es : list event) : option (list node * list event) :=
  match fuel with
  | O => None
  | S f =>
      match es with
      | [] => Some ([], [])
      | End _ :: es' => Some ([], es')
      | Data t :: es' => match siblings f es' with Some (k, r) => Some (Txt t :: k, r) | None => None end
      | Start n a :: es' =>
          match siblings f es' with
          | Some (k, r) => match siblings f r with Some (k', r') => Some (Elt n a k :: k', r') | None => None end
          | None => None
          end
      end
  end.
(** ET.fromstring *)
Definition tree_of (doc : str) : option node :=
  match sax doc with
  | Some es => match siblings (S (length es)) es with Some ([e], []) => Some e | _ => None end
  | None => None
  end.
