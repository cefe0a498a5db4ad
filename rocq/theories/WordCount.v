(** Model of the word and letter counting in src/pywriter/model/scene.py *)
From Coq Require Import List NArith Bool Lia Arith.
From Verif Require Import PyStr.
Import ListNotations.

Definition nl : N := 10%N.     (* '\n' *)
Definition cr : N := 13%N.     (* '\r' *)

(** re.sub(pattern, repl, t) for a pattern given by a matcher [m bol t]: the length of the match at the
    current position, 0 if none.  [bol] says that the position is at the beginning of a line of the
    original text (needed for ^ with re.MULTILINE).  Modelled patterns never match the empty string. *)
Fixpoint sub_go (m : bool -> str -> nat) (repl : str) (bol : bool) (skip : nat) (t : str) : str :=
  match t with
  | [] => []
  | c :: t' =>
      match skip with
      | S k => sub_go m repl (N.eqb c nl) k t'
      | O => match m bol t with
             | O => c :: sub_go m repl (N.eqb c nl) 0 t'
             | S k => repl ++ sub_go m repl (N.eqb c nl) k t'
             end
      end
  end.
Definition re_sub (m : bool -> str -> nat) (repl t : str) : str := sub_go m repl true 0 t.

(** .*? followed by [close]: number of characters up to and including the first [close],
    none of the skipped characters being a newline *)
Fixpoint lazy_to (close t : str) : option nat :=
  if prefixb close t then Some (length close)
  else match t with
       | [] => None
       | c :: t' => if N.eqb c nl then None else option_map S (lazy_to close t')
       end.

(** [open].+?[close] at the start of t *)
Definition m_delim (open close t : str) : nat :=
  if prefixb open t then
    match skipn (length open) t with
    | [] => 0
    | c :: t' => if N.eqb c nl then 0
                 else match lazy_to close t' with
                      | Some k => length open + 1 + k
                      | None => 0
                      end
    end
  else 0.

Definition m_tag : str -> nat := m_delim (s "[") (s "]").
Definition m_comment : str -> nat := m_delim (s "/*") (s "*/").

(** scene.py 14: ADDITIONAL_WORD_LIMITS = --|U+2014|U+2013 *)
Definition m_word_limits (bol : bool) (t : str) : nat :=
  if prefixb (s "--") t then 2
  else match t with
       | c :: _ => if ((c =? 8212) || (c =? 8211))%N then 1 else 0
       | [] => 0
       end.

(** first alternative that matches *)
Definition orelse (a b : nat) : nat := match a with O => b | _ => a end.

(** scene.py 17: NO_WORD_LIMITS = \[.+?\] | /\*.+?\*/ | - | ^>   (re.MULTILINE) *)
Definition m_no_word_limits (bol : bool) (t : str) : nat :=
  orelse (m_tag t) (orelse (m_comment t)
    (match t with
     | c :: _ => if (c =? 45)%N then 1 else if ((c =? 62)%N && bol) then 1 else 0
     | [] => 0
     end)).

(** scene.py 21: NON_LETTERS = \[.+?\] | /\*.+?\*/ | \n | \r *)
Definition m_non_letters (bol : bool) (t : str) : nat :=
  orelse (m_tag t) (orelse (m_comment t)
    (match t with
     | c :: _ => if ((c =? nl) || (c =? cr))%N then 1 else 0
     | [] => 0
     end)).

(** scene.py 221-230, the sceneContent setter: word count and letter count of a content *)
Definition word_count (text : str) : nat :=
  length (words (re_sub m_no_word_limits [] (re_sub m_word_limits (s " ") text))).
Definition letter_count (text : str) : nat := length (re_sub m_non_letters [] text).
