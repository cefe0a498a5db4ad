(** C38: translations. *)
From Coq Require Import String List NArith Bool Sorting.Permutation.
From Verif Require Import PyStr PyDict YwText Template Inliner Translations SpecTrans TransProofs TransProofs2.
Import ListNotations.

(** The translation table written as JSON and read back: every non-empty translation is there unchanged, whatever characters (quotation marks,
    line breaks, control characters) message and translation have. *)
Theorem C38_table : forall tr tr0 m, NoDup (dkeys (tr_msgDict tr)) ->
  dget m (tr_msgDict (read_json (Some (write_json tr)) tr0)) = before_or (present (dget m (tr_msgDict tr))) (dget m (tr_msgDict tr0)).
Proof. exact json_back. Qed.
Print Assumptions C38_table.
Example C38_table_instance :
  let tr := mkTr [(s "say ""hi""", s "sag ""hallo""" ++ [10%N; 9%N] ++ s "a\b"); (s "b", s "B")] [] [] [] in
  NoDup (dkeys (tr_msgDict tr)) /\ dget (s "say ""hi""") (tr_msgDict (read_json (Some (write_json tr)) (new_translations []))) = Some (s "sag ""hallo""" ++ [10%N; 9%N] ++ s "a\b").
Proof. split; [cbn; repeat constructor; cbn; intuition discriminate | vm_compute; reflexivity]. Qed.

(** A PO file written and read back: of the messages in the list, each with a translation has it again. *)
Theorem C38_po : forall app appVersion now tr tr0 m, header_ok (tr_header tr) -> Forall message_ok (tr_msgList tr) ->
  (forall m, In m (tr_msgList tr) -> one_line (translation_of tr m)) ->
  dget m (tr_msgDict (read_po app appVersion now (Some (fst (write_po tr))) tr0)) = before_or (po_says (tr_msgList tr) (tr_msgDict tr) m) (dget m (tr_msgDict tr0)).
Proof. exact po_back. Qed.
Print Assumptions C38_po.
Example C38_po_instance : let tr := mkTr [(s "say \""hi\""", s "sag \""hallo\"""); (s "b", s "B")] [s "b"; s "say \""hi\"""] (safe_substitute poHeader [(s "app", s "app"); (s "appVersion", s "1"); (s "datetime", s "now"); (s "pot_creation", s """""")]) [] in
  header_ok (tr_header tr) /\ Forall message_ok (tr_msgList tr) /\ (forall m, In m (tr_msgList tr) -> one_line (translation_of tr m)) /\ po_file_says (Some (fst (write_po tr))) (s "say \""hi\""") = Some (s "sag \""hallo\""").
Proof.
  split; [|split; [|split]].
  - apply po_header_ok; first [apply one_lineb_ok; vm_compute; reflexivity | exists 34%N, [34%N]; repeat split; discriminate].
  - repeat apply Forall_cons; try apply Forall_nil; (split; [apply one_lineb_ok; vm_compute; reflexivity | split; [discriminate | intros r H; discriminate]]).
  - intros m [<-|[<-|[]]]; apply one_lineb_ok; vm_compute; reflexivity.
  - vm_compute. reflexivity.
Qed.

(** The messages extracted from source files (any files) are non-empty single lines found between the quotation marks of a call of _. *)
Theorem C38_scan : forall files m, In m (scan files) -> source_message m /\
  exists text x y, In text files /\ (unl text = x ++ s "_(""" ++ m ++ s """)" ++ y \/ unl text = x ++ s "_('" ++ m ++ s "')" ++ y).
Proof. exact scan_source. Qed.
Print Assumptions C38_scan.

(** The template (POT) written from messages and read again: each message once, in order, with quotation marks escaped;
    different messages stay different. *)
Theorem C38_template : forall app version datetime msgs tr, one_line app -> one_line version -> one_line datetime -> Forall source_message msgs -> tr_msgList tr = [] ->
  exists l, read_pot (Some (write_pot app version datetime msgs)) tr = Ok (mkTr (tr_msgDict tr) l (tr_header tr) (s """POT-Creation-Date: " ++ datetime ++ s "\n""")) /\ catalogue msgs l.
Proof. exact pot_back. Qed.
Print Assumptions C38_template.
Theorem C38_quoting : forall a b, quoted a = quoted b -> a = b.
Proof. exact quoted_inj. Qed.
Print Assumptions C38_quoting.
Example C38_template_instance : let msgs := scan [s "print(_(""File""), _('say ""hi""'))"; s "x = _(""File"")"] in
  Forall source_message msgs /\ msgs = [s "File"; s "say ""hi"""; s "File"] /\
  read_pot (Some (write_pot (s "app") (s "1.0") (s "now") msgs)) (new_translations []) =
    Ok (mkTr [] [s "File"; s "say \""hi\"""] [] (s """POT-Creation-Date: now\n""")).
Proof. split; [apply Forall_forall; intros m H; now apply scan_source in H | split; vm_compute; reflexivity]. Qed.

(** The whole update run, for every translation table (JSON file, readable or not), every PO file or none, and every template made of extracted
    messages: it succeeds; what is known about a message (the PO file first, then the table) is what the new table says about it, for every
    message, used or not; the new PO file says it for exactly the messages of the template; and the run reports completeness exactly when
    each message of the template has a translation. The translations in the table must be single lines. *)
Theorem C38_update : forall app appVersion now json potApp potVersion potTime msgs po,
  one_line app -> one_line appVersion -> one_line now -> one_line potApp -> one_line potVersion -> one_line potTime -> Forall source_message msgs ->
  (forall m t, json_says json m = Some t -> one_line t) ->
  exists json' po' complete l, main app appVersion now true json (Some (write_pot potApp potVersion potTime msgs)) po = Ok (Some json', po', complete) /\ catalogue msgs l /\
    (forall m, json_says (Some json') m = known json po m) /\
    (forall m, po_file_says (Some po') m = if smem m l then known json po m else None) /\
    (complete = true <-> forall m, In m l -> known json po m <> None).
Proof. exact main_run. Qed.
Print Assumptions C38_update.
(** a second run changes nothing *)
Theorem C38_stable : forall app appVersion now now2 json potApp potVersion potTime msgs po json' po' complete,
  one_line app -> one_line appVersion -> one_line now -> one_line now2 -> one_line potApp -> one_line potVersion -> one_line potTime -> Forall source_message msgs ->
  (forall m t, json_says json m = Some t -> one_line t) ->
  main app appVersion now true json (Some (write_pot potApp potVersion potTime msgs)) po = Ok (Some json', po', complete) ->
  exists json2 po2, main app appVersion now2 true (Some json') (Some (write_pot potApp potVersion potTime msgs)) (Some po') = Ok (Some json2, po2, complete) /\
    (forall m, json_says (Some json2) m = json_says (Some json') m) /\ (forall m, po_file_says (Some po2) m = po_file_says (Some po') m).
Proof. exact main_twice. Qed.
Print Assumptions C38_stable.
(** without the table: the table is left alone and not asked *)
Theorem C38_without_table : forall app appVersion now json pot po,
  main app appVersion now false json pot po = match main app appVersion now true None pot po with Ok (_, p, c) => Ok (json, p, c) | Err e => Err e end.
Proof. exact main_nojson. Qed.
Print Assumptions C38_without_table.
Example C38_update_instance :
  let json := Some (json_text [(s "File", s "Datei"); (s "old", s "alt")]) in
  let po := Some (s "msgid ""File""" ++ [10%N] ++ s "msgstr ""Akte""" ++ [10%N]) in
  json_says json (s "File") = Some (s "Datei") /\ known json po (s "File") = Some (s "Akte") /\ known json po (s "old") = Some (s "alt") /\ known json po (s "Quit") = None /\
  match main (s "app") (s "1") (s "now") true json (Some (write_pot (s "app") (s "1") (s "then") [s "Quit"; s "File"])) po with
  | Ok (Some json', po', complete) => json_says (Some json') (s "File") = Some (s "Akte") /\ json_says (Some json') (s "old") = Some (s "alt") /\ po_file_says (Some po') (s "File") = Some (s "Akte") /\ po_file_says (Some po') (s "old") = None /\ complete = false
  | _ => False
  end.
Proof. vm_compute. repeat split; reflexivity. Qed.

(** What does not hold. A line break in a translation of the table cuts it in the PO file, and the next run then puts the rest into the table. *)
Theorem C38_line_break_refuted : exists json json' po' c, json_says (Some json) (s "a") = Some (s "first" ++ [10%N] ++ s "second") /\
  main [] [] [] true (Some json) (Some (write_pot [] [] [] [s "a"])) None = Ok (Some json', po', c) /\ po_file_says (Some po') (s "a") = Some (s "firs") /\
  match main [] [] [] true (Some json') (Some (write_pot [] [] [] [s "a"])) (Some po') with Ok (Some json2, _, _) => json_says (Some json2) (s "a") = Some (s "firs") | _ => False end.
Proof.
  exists (json_text [(s "a", s "first" ++ [10%N] ++ s "second")]). eexists. eexists. eexists. split; [vm_compute; reflexivity|]. split; [vm_compute; reflexivity|]. split; vm_compute; reflexivity.
Qed.
Print Assumptions C38_line_break_refuted.
(** A PO file that has a quotation mark unescaped at the beginning of its first message: this message is taken for the header and lost. *)
Theorem C38_unescaped_quote_refuted : exists tr, header_ok (tr_header tr) /\ Forall (fun m => one_line m /\ m <> []) (tr_msgList tr) /\ po_says (tr_msgList tr) (tr_msgDict tr) (s """a""") = Some (s "A") /\
  po_file_says (Some (fst (write_po tr))) (s """a""") = None.
Proof.
  exists (mkTr [(s """a""", s "A")] [s """a"""] (safe_substitute poHeader [(s "app", []); (s "appVersion", []); (s "datetime", []); (s "pot_creation", s """""")]) []).
  split; [|split; [|split; vm_compute; reflexivity]].
  - apply po_header_ok; first [apply one_lineb_ok; vm_compute; reflexivity | exists 34%N, [34%N]; repeat split; discriminate].
  - apply Forall_cons; [|apply Forall_nil]. split; [apply one_lineb_ok; vm_compute; reflexivity | discriminate].
Qed.
Print Assumptions C38_unescaped_quote_refuted.
