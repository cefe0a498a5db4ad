(** Property theorems about texts in OpenDocument files: C21 *)
From Coq Require Import String List NArith ZArith Bool.
From Verif Require Import PyStr YwText OdfXml OdtText SpecOdf OdtTextProofs2.
Import ListNotations.

(** A title or another one-liner inserted into an element is its text, whatever characters it contains (the parser turns CR and CR LF
    into LF, as XML demands) *)
Theorem C21_one_liner : forall t, xml_text t ->
  sax (s "<x>" ++ odt_convert (Some t) true ++ s "</x>") = Some (Start (s "x") [] :: data (unl t) ++ [End (s "x")]).
Proof. exact quick_element. Qed.
Print Assumptions C21_one_liner.
(** ... and inserted into an attribute *)
Theorem C21_attribute : forall t, xml_text t ->
  sax (s "<x a=""" ++ odt_convert (Some t) true ++ s """/>") = Some [Start (s "x") [(s "a", blanks (unl t))]; End (s "x")].
Proof. exact quick_attribute. Qed.
Print Assumptions C21_attribute.
(** A text inserted into a paragraph of a text document: one paragraph per line, nothing else *)
Theorem C21_paragraphs : forall t, xml_text t ->
  exists es, sax (s "<doc>" ++ (s "<text:p>" ++ odt_convert (Some t) false ++ s "</text:p>") ++ s "</doc>") = Some (Start (s "doc") [] :: es ++ [End (s "doc")]) /\
             paragraphs es = Some (map breaks (lines t)).
Proof. exact long_paragraphs. Qed.
Print Assumptions C21_paragraphs.
(** A text inserted into a table cell: one paragraph per line of the text without trailing white space *)
Theorem C21_cell : forall t, xml_text t ->
  exists es, sax (s "<doc>" ++ (s "<text:p>" ++ ods_convert (Some t) ++ s "</text:p>") ++ s "</doc>") = Some (Start (s "doc") [] :: es ++ [End (s "doc")]) /\
             paragraphs es = Some (map breaks (lines (rstrip t))).
Proof. exact ods_paragraphs. Qed.
Print Assumptions C21_cell.
(** A missing text is the empty text *)
Theorem C21_missing : odt_convert None true = odt_convert (Some []) true /\ odt_convert None false = odt_convert (Some []) false /\ ods_convert None = ods_convert (Some []).
Proof. repeat split. Qed.
Print Assumptions C21_missing.

Definition G_text : str := s "<b>""Tom & Jerry's"" &amp; ]]> 1 > 0" ++ [10; 10; 10]%N ++ s "second" ++ [13; 10]%N ++ s "last ".
Example C21_instance : xml_text G_text /\ odt_convert (Some G_text) true <> G_text /\
  exists es, sax (s "<doc>" ++ (s "<text:p>" ++ odt_convert (Some G_text) false ++ s "</text:p>") ++ s "</doc>") = Some es /\ length es = 19 /\
  map breaks (lines G_text) = [s "<b>""Tom & Jerry's"" &amp; ]]> 1 > 0"; []; []; s "second" ++ [10%N]; s "last "].
Proof.
  split; [apply Forall_forall; intros c Hc; revert c Hc; apply Forall_forall; repeat constructor|].
  split; [vm_compute; discriminate|]. eexists. split; [vm_compute; reflexivity | split; vm_compute; reflexivity].
Qed.
