(** Vocabulary for the properties of conversions (C17-C20). *)
From Coq Require Import List NArith Bool.
From Verif Require Import PyStr PyDict NovelModel FileOps SpecFile Converter.
Import ListNotations.

(** what the user sees *)
Definition ui_event (e : event) : bool := match e with Asked _ _ | Status _ | Announced _ | Warned _ => true | _ => false end.
Definition status_messages (es : list event) : list str := flat_map (fun e => match e with Status m => [m] | _ => [] end) es.
Definition questions (es : list event) : list (str * bool) := flat_map (fun e => match e with Asked q b => [(q, b)] | _ => [] end) es.

(** the program does not talk to the user *)
Definition silent {A} (x : prog A) : Prop := forall w r w', runs x w r w' -> exists es, happened w w' es /\ filter ui_event es = [].

(** A class can be used for reading: read() changes no file, whatever happens *)
Definition good_reader (c : fclass) : Prop := forall p n,
  silent (fc_read c p n) /\ forall w w', crashes (fc_read c p n) w w' -> files w' = files w.
(** A class can be used for writing: write() changes no file but the one to write, its backup, and those in the temporary
    directory; there is no backup if there was no file; after success there is a file *)
Definition good_writer (tmp : str) (c : fclass) : Prop := forall p n m,
  silent (fc_write c p n m) /\
  (forall w w', crashes (fc_write c p n m) w w' ->
     only_at_or_below tmp [p; p ++ s ".bak"] w w' /\
     (below tmp p = false -> files w p = None -> files w' (p ++ s ".bak") = files w (p ++ s ".bak"))) /\
  (forall w w', runs (fc_write c p n m) w (Ok tt) w' -> below tmp p = false -> files w' p <> None).

Record good_converter (tmp : str) (cv : converter) : Prop := {
  gc_export_source : Forall good_reader (cv_export_source cv);
  gc_export_target : Forall (good_writer tmp) (cv_export_target cv);
  gc_import_source : Forall good_reader (cv_import_source cv);
  gc_import_target_r : Forall good_reader (cv_import_target cv);
  gc_import_target : Forall (good_writer tmp) (cv_import_target cv);
  gc_new : forall l, cv_new_project cv = Some l -> Forall good_reader l;
  gc_yw7 : good_writer tmp (cv_yw7 cv);
  gc_yw7_path : fc_suffix (cv_yw7 cv) = None /\ fc_ext (cv_yw7 cv) = s ".yw7";
  gc_outline : good_reader (cv_outline cv);
  gc_import : good_reader (cv_import cv)
}.

(** the parts of a generated document have different names, other than content.xml, and only existing parts are packed *)
Definition good_environment (en : environment) : Prop := forall k n,
  NoDup (s "content.xml" :: s "content.xml.bak" :: map fst (en_parts en k n)) /\
  forall x, In x (en_names en k) -> x = s "META-INF" \/ x = s "content.xml" \/ In x (map fst (en_parts en k n)).
