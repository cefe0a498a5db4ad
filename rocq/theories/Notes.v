(** Writing the "Notes" and the "Todo" chapters as documents: src/pywriter/odt_w/odt_w_notes.py and odt_w_todo.py (templates: Templates.v), both subclasses of
    OdtWManuscript (Manuscript.v): content.xml. *)
From Coq Require Import String List NArith.
From Verif Require Import PyStr PyDict NovelModel Export Templates Manuscript.
Import ListNotations.

Section Notes.
Variable tr : str -> str.
Variables projectName projectPath : option str.
(** odt_w_notes.py 11-43; the mappings for elements that do not occur in the document are left out *)
Definition OdtWNotes : exporter :=
  OdtWNotes_with formatted_header (manuscript_chapter projectName projectPath) (manuscript_scene tr projectName projectPath) (fun _ _ => Ok []) (fun _ _ => Ok []) (fun _ _ => Ok []) (fun _ _ => Ok []).
(** odt_w_todo.py 11-43 *)
Definition OdtWTodo : exporter :=
  OdtWTodo_with formatted_header (manuscript_chapter projectName projectPath) (manuscript_scene tr projectName projectPath) (fun _ _ => Ok []) (fun _ _ => Ok []) (fun _ _ => Ok []) (fun _ _ => Ok []).
(** content.xml: odt_w_formatted.py 36-43 and 155-176 *)
Definition notes_text (n : novel) : res str := get_formatted_text OdtWNotes (with_languages n).
Definition todo_text (n : novel) : res str := get_formatted_text OdtWTodo (with_languages n).
End Notes.
