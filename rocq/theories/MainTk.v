(** The main window: src/pywriter/ui/main_tk.py.  The widgets are modelled by what they show. *)
From Coq Require Import String List NArith ZArith Bool Lia Arith.
From Verif Require Import PyStr PyDict NovelModel Converter.
Import ListNotations.

(** colours of the status bar: the background of the window and black; red and white; green and white *)
Inductive colour := Normal | Red | Green.
(** the instance variables and the widgets.  kwargs is modelled by its entry yw_last_open; geometry and key bindings are left out *)
Record window := mkWindow {
  w_app : str;                         (* title *)
  w_status : str;                      (* _statusText *)
  w_info : str;                        (* infoHowText *)
  w_last : option str;                 (* kwargs['yw_last_open'] *)
  w_file : option (option str);        (* prjFile: None, or an object with its filePath *)
  w_novel : option novel;              (* novel *)
  w_caption : str;                     (* the title of the root window *)
  w_bar : str * colour;                (* the status bar *)
  w_path : str;                        (* the path bar *)
  w_menu : bool }.                     (* the menu entry "Close" is enabled *)

(** main_tk.py 54-102 __init__; 294-304 _build_main_menu.  last: the keyword argument yw_last_open *)
Definition new_window (app : str) (last : option str) : window := mkWindow app [] [] last None None app ([], Normal) [] false.

(** main_tk.py 270-275 show_status *)
Definition show_status (m : str) (w : window) : window :=
  mkWindow (w_app w) m (w_info w) (w_last w) (w_file w) (w_novel w) (w_caption w) (m, Normal) (w_path w) (w_menu w).
(** 182-184 restore_status *)
Definition restore_status (w : window) : window := show_status (w_status w) w.
(** 265-268 show_path *)
Definition show_path (m : str) (w : window) : window :=
  mkWindow (w_app w) (w_status w) (w_info w) (w_last w) (w_file w) (w_novel w) (w_caption w) (w_bar w) m (w_menu w).
(** 130-142 disable_menu, enable_menu *)
Definition set_menu (b : bool) (w : window) : window :=
  mkWindow (w_app w) (w_status w) (w_info w) (w_last w) (w_file w) (w_novel w) (w_caption w) (w_bar w) (w_path w) b.
Definition set_caption (m : str) (w : window) : window :=
  mkWindow (w_app w) (w_status w) (w_info w) (w_last w) (w_file w) (w_novel w) m (w_bar w) (w_path w) (w_menu w).
Definition set_file (f : option (option str)) (w : window) : window :=
  mkWindow (w_app w) (w_status w) (w_info w) (w_last w) f (w_novel w) (w_caption w) (w_bar w) (w_path w) (w_menu w).
Definition set_last (f : str) (w : window) : window :=
  mkWindow (w_app w) (w_status w) (w_info w) (Some f) (w_file w) (w_novel w) (w_caption w) (w_bar w) (w_path w) (w_menu w).
Definition set_novel (n : novel) (w : window) : window :=
  mkWindow (w_app w) (w_status w) (w_info w) (w_last w) (w_file w) (Some n) (w_caption w) (w_bar w) (w_path w) (w_menu w).

(** message.split('!', maxsplit=1)[1].strip() for a message that starts with '!' *)
Definition after_mark (m : str) : str := strip (skipn 1 m).
(** 211-228 set_info_how; ui_tk.py 60-77 is the same for another label *)
Definition tk_how (m : str) : str * colour := if prefixb (s "!") m then (after_mark m, Red) else (m, Green).
Definition set_info_how (m : str) (w : window) : window :=
  mkWindow (w_app w) (w_status w) (fst (tk_how m)) (w_last w) (w_file w) (w_novel w) (w_caption w) (tk_how m) (w_path w) (w_menu w).
(** ui.py 48-59 and ui_cmd.py 46-58 set_info_how: infoHowText *)
Definition ui_how (m : str) : str := if prefixb (s "!") m then s "FAIL: " ++ after_mark m else m.

(** 119-128 close_project *)
Definition close_project (w : window) : window := set_menu false (show_path [] (show_status [] (set_caption (w_app w) (set_file None w)))).

(** 230-243 set_title; tr: the translation of messages *)
Definition or_else (x : option str) (d : str) : str := match x with Some (c :: t) => c :: t | _ => d end.
Definition caption (tr : str -> str) (app : str) (n : novel) : str :=
  or_else (nv_title n) (tr (s "Untitled project")) ++ s " " ++ tr (s "by") ++ s " " ++ or_else (nv_authorName n) (tr (s "Unknown author")) ++ s " - " ++ app.

(** what happens outside: whether the file exists, the answer of the file dialog, and the outcome of reading the file *)
Inductive reading :=
| Reads (n : novel)           (* read() returns; the novel then *)
| Fails (m : str) (n : novel) (* Error(m) *)
| Breaks (n : novel).         (* any other exception; Tk reports it and goes on *)
(** 186-209 select_project *)
Definition select_project (file : str) (isfile : bool) (answer : str) : str := if negb (truthy file) || negb isfile then answer else file.
(** 149-180 open_project: the window, and True or False, or None if an exception is raised.
    np: norm_path for a path that is not None; os.path.normpath('') is '.' *)
Definition open_project (tr np : str -> str) (file : str) (isfile : bool) (answer : str) (r : str -> reading) (w : window) : window * option bool :=
  let w := restore_status w in
  let file := select_project file isfile answer in
  if negb (truthy file) then (w, Some false) else
  let w := match w_file w with Some _ => close_project w | None => w end in
  let w := set_last file w in
  let path := set_path [] (s ".yw7") file in
  let w := set_file (Some path) w in
  match r file with
  | Breaks n => (set_novel n w, None)
  | Fails m n => (set_info_how (s "!" ++ m) (close_project (set_novel n w)), Some false)
  | Reads n =>
      let w := set_novel n w in
      let w := show_path (match path with Some p => np p | None => s "." end) w in
      (set_menu true (set_caption (caption tr (w_app w) n) w), Some true)
  end.

(** the events *)
Inductive action :=
| Open (file : str) (isfile : bool) (answer : str) (r : str -> reading)
| Close
| Restore
| Status (m : str)
| How (m : str).
Definition act (tr np : str -> str) (w : window) (a : action) : window :=
  match a with
  | Open f b x r => fst (open_project tr np f b x r w)
  | Close => close_project w
  | Restore => restore_status w
  | Status m => show_status m w
  | How m => set_info_how m w
  end.
Definition session (tr np : str -> str) (app : str) (last : option str) (h : list action) : window := fold_left (act tr np) h (new_window app last).
