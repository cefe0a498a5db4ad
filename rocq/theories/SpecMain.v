(** What the main window should show. *)
From Coq Require Import String List NArith ZArith Bool Lia Arith.
From Verif Require Import PyStr NovelModel MainTk.
Import ListNotations.

(** the title of the window for a novel: "title by author - application" *)
Definition names_novel (tr : str -> str) (app : str) (n : novel) (shown : str) : Prop :=
  exists t a, shown = t ++ s " " ++ tr (s "by") ++ s " " ++ a ++ s " - " ++ app /\
    (forall x, nv_title n = Some x -> x <> [] -> t = x) /\ (nv_title n = None \/ nv_title n = Some [] -> t = tr (s "Untitled project")) /\
    (forall x, nv_authorName n = Some x -> x <> [] -> a = x) /\ (nv_authorName n = None \/ nv_authorName n = Some [] -> a = tr (s "Unknown author")).
(** reading a project succeeds, or fails with a message *)
Definition orderly (a : action) : Prop := match a with Open _ _ _ r => forall f n, r f <> Breaks n | _ => True end.
(** what is shown fits what is open; path: how file paths are shown *)
Definition fitting (tr np : str -> str) (app : str) (w : window) : Prop :=
  match w_file w with
  | None => w_menu w = false /\ w_caption w = app /\ w_path w = []
  | Some p => w_menu w = true /\ w_path w = (match p with Some x => np x | None => s "." end) /\ exists n, w_novel w = Some n /\ names_novel tr app n (w_caption w)
  end.
