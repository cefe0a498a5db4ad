(** Conversion of texts for OpenDocument files.

    Models _convert_from_yw of src/pywriter/odt_w/odt_writer.py 367-398, src/pywriter/odt_w/odt_w_formatted.py 45-109, 141-153
    and src/pywriter/ods_w/ods_writer.py 269-294. *)
From Coq Require Import String List NArith ZArith Bool Lia Arith.
From Verif Require Import PyStr PyDict WordCount.
Import ListNotations.

(** for yw, od in replacements: text = text.replace(yw, od) *)
Definition apply_replacements (rs : list (str * str)) (t : str) : str := fold_left (fun t r => replace (fst r) (snd r) t) rs t.

(** odt_writer.py 381-387, odt_w_formatted.py 58-64 *)
Definition ODT_ENTITIES : list (str * str) :=
  [(s "&", s "&amp;"); (s ">", s "&gt;"); (s "<", s "&lt;"); (s "'", s "&apos;"); (s """", s "&quot;")].
(** odt_writer.py 390-394, odt_w_formatted.py 142-146 *)
Definition ODT_BREAKS : list (str * str) :=
  [([10; 10]%N, s "</text:p>" ++ [13%N] ++ s "<text:p text:style-name=""First_20_line_20_indent"" />" ++ [13%N] ++
                s "<text:p text:style-name=""Text_20_body"">");
   ([10%N], s "</text:p>" ++ [13%N] ++ s "<text:p text:style-name=""First_20_line_20_indent"">");
   ([13%N], [10%N])].

(** odt_writer.py 367-398 OdtWriter._convert_from_yw *)
Definition odt_convert (text : option str) (quick : bool) : str :=
  match text with
  | Some (c :: t) => apply_replacements (ODT_ENTITIES ++ if quick then [] else ODT_BREAKS) (c :: t)
  | _ => []
  end.

(** ods_writer.py 280-287 *)
Definition ODS_REPLACEMENTS : list (str * str) :=
  [(s "&", s "&amp;"); (s """", s "&quot;"); (s "'", s "&apos;"); (s ">", s "&gt;"); (s "<", s "&lt;");
   ([10%N], s "</text:p>" ++ [10%N] ++ s "<text:p>")].
(** ods_writer.py 269-294 OdsWriter._convert_from_yw; quick is ignored *)
Definition ods_convert (text : option str) : str :=
  match text with
  | Some t => apply_replacements ODS_REPLACEMENTS (rstrip t)
  | None => []
  end.

(** ** Formatted text *)
(** str.count(sub): non-overlapping occurrences *)
Fixpoint count_go (sub : str) (skip : nat) (t : str) : nat :=
  match t with
  | [] => 0
  | _ :: t' => match skip with
               | S k => count_go sub k t'
               | O => if prefixb sub t then S (count_go sub (length sub - 1) t') else count_go sub 0 t'
               end
  end.
Definition count (sub t : str) : nat := count_go sub 0 t.

Definition opening (tag : str) : str := s "[" ++ tag ++ s "]".
Definition closing (tag : str) : str := s "[/" ++ tag ++ s "]".

(** odt_w_formatted.py 89-91: while line.count(opening) > line.count(closing): append the closing tag.  The result says whether the body
    was entered.  None: out of fuel *)
Fixpoint close_line (fuel : nat) (tag line : str) : option (str * bool) :=
  match fuel with
  | O => None
  | S f => if Nat.ltb (count (closing tag) line) (count (opening tag) line)
           then match close_line f tag (line ++ closing tag) with Some (l, _) => Some (l, true) | None => None end
           else Some (line, false)
  end.
(** odt_w_formatted.py 92-93: the same for closing tags: prepend opening tags *)
Fixpoint open_line (fuel : nat) (tag line : str) : option str :=
  match fuel with
  | O => None
  | S f => if Nat.ltb (count (opening tag) line) (count (closing tag) line) then open_line f tag (opening tag ++ line) else Some line
  end.
(** odt_w_formatted.py 82-94: one tag in one line; [isOpen]: isOpen[tag] *)
Definition GT : str := s "&gt; ".
Definition tag_line (line tag : str) (isOpen : bool) : option (str * bool) :=
  let line := if isOpen
              then if prefixb GT line then GT ++ opening tag ++ lstrip_by (in_chars GT) line else opening tag ++ line
              else line in
  match close_line (S (length line)) tag line with
  | Some (line, open) => match open_line (S (length line)) tag line with
      | Some line => Some (replace (opening tag ++ closing tag) [] line, open)
      | None => None
      end
  | None => None
  end.
(** odt_w_formatted.py 81-95: for tag in tags; [st]: the tags with isOpen *)
Fixpoint tags_line (line : str) (st : list (str * bool)) : option (str * list (str * bool)) :=
  match st with
  | [] => Some (line, [])
  | (tag, b) :: st' => match tag_line line tag b with
      | Some (line, b') => match tags_line line st' with Some (line, st') => Some (line, (tag, b') :: st') | None => None end
      | None => None
      end
  end.
(** odt_w_formatted.py 80-95: for line in lines *)
Fixpoint tags_lines (lines : list str) (st : list (str * bool)) : option (list str) :=
  match lines with
  | [] => Some []
  | l :: ls => match tags_line l st with
      | Some (l, st) => match tags_lines ls st with Some ls => Some (l :: ls) | None => None end
      | None => None
      end
  end.

(** odt_w_formatted.py 141-153 OdtWFormatted._get_replacements; [author]: f'{self.novel.authorName}' *)
Definition format_replacements (author : str) : list (str * str) :=
  ODT_BREAKS ++
  [(s "[i]", s "<text:span text:style-name=""Emphasis"">"); (s "[/i]", s "</text:span>");
   (s "[b]", s "<text:span text:style-name=""Strong_20_Emphasis"">"); (s "[/b]", s "</text:span>");
   (s "/*", s "<office:annotation><dc:creator>" ++ author ++ s "</dc:creator><text:p>");
   (s "*/", s "</text:p></office:annotation>")].
(** odt_w_formatted.py 68-71: enumerate(languages, i) *)
Fixpoint language_replacements (i : N) (languages : list str) : list (str * str) :=
  match languages with
  | [] => []
  | l :: ls => (s "[lang=" ++ l ++ s "]", s "<text:span text:style-name=""T" ++ str_of_N i ++ s """>") :: (s "[/lang=" ++ l ++ s "]", s "</text:span>")
               :: language_replacements (N.succ i) ls
  end.

(** \d: the first characters of the Unicode ranges of decimal digits (Python 3.11) *)
Definition ZEROS : list N :=
  [48; 1632; 1776; 1984; 2406; 2534; 2662; 2790; 2918; 3046; 3174; 3302; 3430; 3558; 3664; 3792; 3872; 4160; 4240; 6112; 6160; 6470; 6608; 6784;
   6800; 6992; 7088; 7232; 7248; 42528; 43216; 43264; 43472; 43504; 43600; 44016; 65296; 66720; 68912; 69734; 69872; 69942; 70096; 70384; 70736;
   70864; 71248; 71360; 71472; 71904; 72016; 72784; 73040; 73120; 92768; 92864; 93008; 120782; 120792; 120802; 120812; 120822; 123200; 123632;
   125264; 130032]%N.
Definition udigit (c : N) : bool := existsb (fun z => (z <=? c) && (c <? z + 10))%N ZEROS.
Fixpoint span (f : N -> bool) (t : str) : nat := match t with c :: t' => if f c then S (span f t') else 0 | [] => 0 end.
(** odt_w_formatted.py 106: \[\/*[h|c|r|s|u]\d*\] (the class contains the |) *)
Definition m_hidden (bol : bool) (t : str) : nat :=
  match t with
  | c :: t1 =>
      if N.eqb c 91 then
        let k := span (N.eqb 47) t1 in
        match skipn k t1 with
        | x :: t2 => if in_chars (s "h|crsu") x then
            let d := span udigit t2 in
            match skipn d t2 with
            | y :: _ => if N.eqb y 93 then S (k + S (d + 1)) else 0
            | [] => 0
            end
            else 0
        | [] => 0
        end
      else 0
  | [] => 0
  end.

(** odt_w_formatted.py 45-109 OdtWFormatted._convert_from_yw; [languages]: self.novel.languages (set by write(), 42-43).
    None: a loop does not end *)
Definition odtf_convert (author : str) (languages : list str) (text : option str) (quick : bool) : option str :=
  match text with
  | Some (c :: t) =>
      if quick then Some (re_sub m_hidden [] (apply_replacements ODT_ENTITIES (c :: t)))
      else
        let tags := [s "i"; s "b"] ++ map (fun l => s "lang=" ++ l) languages in
        match tags_lines (split [10%N] (c :: t)) (map (fun tag => (tag, false)) tags) with
        | Some newlines =>
            Some (re_sub m_hidden [] (apply_replacements (ODT_ENTITIES ++ format_replacements author ++ language_replacements 1 languages)
                                        (rstrip (join [10%N] newlines))))
        | None => None
        end
  | _ => Some []
  end.
