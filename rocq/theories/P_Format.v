(** C22: formatting markup in OpenDocument texts. *)
From Coq Require Import String List NArith ZArith Bool Lia Arith.
From Verif Require Import PyStr YwText OdfXml OdtText SpecOdf SpecFormat FormatProofs FormatEnds.
Import ListNotations.

(** a document with the converted text in a paragraph *)
Definition in_document (w : str) : str := s "<doc>" ++ (s "<text:p>" ++ w ++ s "</text:p>") ++ s "</doc>".

(** The conversion ends for every text; [languages]: the language codes, none of them with a bracket *)
Theorem C22_ends : forall author languages text quick, Forall (fun l => ~ In 91%N l) languages -> odtf_convert author languages text quick <> None.
Proof. exact conversion_ends. Qed.
Print Assumptions C22_ends.

(** For texts with formatting that is opened before it is closed, in any order and over any number of lines, the result is well-formed: all spans
    are closed in their paragraph. All characters, line breaks and comments are shown, up to trailing white space *)
Theorem C22_balanced : forall author languages ks, names_ok author languages -> marked_up languages ks ->
  exists w es out tail, odtf_convert author languages (Some (typed ks)) false = Some w /\
    sax (in_document w) = Some (Start (s "doc") [] :: es ++ [End (s "doc")]) /\
    shown es = Some out /\ map undress (meaning author [] ks) = map undress out ++ tail /\ Forall blank_atom tail.
Proof. intros author languages ks N0. exact (characters_kept author languages N0 ks). Qed.
Print Assumptions C22_balanced.

(** If the tags are nested, each character is shown with the styles of the tags around it, in each line the formatting extends to *)
Theorem C22_styles : forall author languages ks, names_ok author languages -> marked_up languages ks -> nested (tags_of languages) [] ks ->
  exists w es out tail, odtf_convert author languages (Some (typed ks)) false = Some w /\
    sax (in_document w) = Some (Start (s "doc") [] :: es ++ [End (s "doc")]) /\
    shown es = Some (map (dress languages) out) /\ meaning author [] ks = out ++ tail /\ Forall blank_atom tail.
Proof. intros author languages ks N0. exact (styles_kept author languages N0 ks). Qed.
Print Assumptions C22_styles.

(** an example: italic in bold over two lines, a language, a comment of two lines, hidden tags, special characters *)
Definition F_languages : list str := [s "de-DE"; s "fr-FR"].
Definition F_chars (t : string) : list token := map Chr (s t).
Definition F_tokens : list token :=
  F_chars "Tom & <Jerry> " ++ [Opn (s "b")] ++ F_chars "bold " ++ [Opn (s "i")] ++ F_chars "both" ++ [Brk; Brk] ++ F_chars "still " ++ [Cls (s "i")] ++ F_chars "bold" ++ [Cls (s "b")] ++
  [Com (s "first" ++ [10%N] ++ s "second * 'x'")] ++ [Opn (s "lang=fr-FR")] ++ F_chars "oui" ++ [Cls (s "lang=fr-FR"); Box (s "h1")] ++ F_chars "x" ++ [Box (s "/h1"); Box (s "sic")] ++
  F_chars " end" ++ [Brk] ++ F_chars "  ".
Example C22_instance : names_ok (s "A. Author") F_languages /\ marked_up F_languages F_tokens /\ nested (tags_of F_languages) [] F_tokens /\ length (meaning (s "A. Author") [] F_tokens) = 52.
Proof.
  assert (P : forall t, forallb plain_char t = true -> Forall (fun c => plain_char c = true) t) by (intros t H; now apply Forall_forall, forallb_forall).
  split; [split; [apply P; vm_compute; reflexivity | split; [repeat constructor; apply P; vm_compute; reflexivity|]]|].
  - repeat constructor; cbn; intuition discriminate.
  - split; [vm_compute; repeat split|]. split; [vm_compute; repeat split | vm_compute; reflexivity].
Qed.

(** ** What the conditions exclude *)
(** a tag that is closed before it is opened, in the same line: the result is not well-formed *)
Theorem C22_order_refuted : exists w, odtf_convert (s "A") [] (Some (s "a[/i]b[i]c")) false = Some w /\ sax (in_document w) = None.
Proof. eexists. split; [vm_compute; reflexivity | vm_compute; reflexivity]. Qed.
Print Assumptions C22_order_refuted.
(** formatting around a comment of two lines: the result is not well-formed *)
Theorem C22_comment_refuted : exists w, odtf_convert (s "A") [] (Some (s "[i]a/*c" ++ [10%N] ++ s "d*/b[/i]")) false = Some w /\ sax (in_document w) = None.
Proof. eexists. split; [vm_compute; reflexivity | vm_compute; reflexivity]. Qed.
Print Assumptions C22_comment_refuted.
(** a comment that is not closed: the result is not well-formed *)
Theorem C22_open_comment_refuted : exists w, odtf_convert (s "A") [] (Some (s "a /* b")) false = Some w /\ sax (in_document w) = None.
Proof. eexists. split; [vm_compute; reflexivity | vm_compute; reflexivity]. Qed.
Print Assumptions C22_open_comment_refuted.
(** an author whose name contains an ampersand makes every document with comments ill-formed *)
Theorem C22_author_refuted : exists w, odtf_convert (s "A & B") [] (Some (s "a/*c*/")) false = Some w /\ sax (in_document w) = None.
Proof. eexists. split; [vm_compute; reflexivity | vm_compute; reflexivity]. Qed.
Print Assumptions C22_author_refuted.
(** removing empty pairs of tags makes a comment mark, or a tag, out of other text *)
Theorem C22_pairs_refuted : (exists w, odtf_convert (s "A") [] (Some (s "1/[i][/i]*2")) false = Some w /\ sax (in_document w) = None) /\
  (exists w, odtf_convert (s "A") [] (Some (s "[[i][/i]i]x")) false = Some w /\ sax (in_document w) = None).
Proof. split; eexists; (split; [vm_compute; reflexivity | vm_compute; reflexivity]). Qed.
Print Assumptions C22_pairs_refuted.
(** bold in italic over two lines: all is well-formed, but the rest of the italic text is bold instead *)
Definition F_swap : list token := [Opn (s "i"); Opn (s "b")] ++ F_chars "a" ++ [Brk] ++ F_chars "b" ++ [Cls (s "b")] ++ F_chars "c" ++ [Cls (s "i")].
Theorem C22_swap_refuted : marked_up [] F_swap /\ In (Glyph 99 [s "i"]) (meaning (s "A") [] F_swap) /\
  exists w es out, odtf_convert (s "A") [] (Some (typed F_swap)) false = Some w /\ sax (in_document w) = Some (Start (s "doc") [] :: es ++ [End (s "doc")]) /\
    shown es = Some out /\ In (Glyph 99 [s "Strong_20_Emphasis"]) out /\ ~ In (Glyph 99 [s "Emphasis"]) out.
Proof.
  split; [vm_compute; repeat split|]. split; [vm_compute; intuition|].
  destruct (sax (in_document match odtf_convert (s "A") [] (Some (typed F_swap)) false with Some w => w | None => [] end)) as [l|] eqn:E; [|vm_compute in E; discriminate].
  eexists. exists (removelast (tl l)). eexists. split; [vm_compute; reflexivity|]. split; [|vm_compute in E; injection E as <-; split; [vm_compute; reflexivity|]].
  - vm_compute in E. injection E as <-. vm_compute. reflexivity.
  - split; [cbn; intuition | cbn; intuition discriminate].
Qed.
Print Assumptions C22_swap_refuted.
(** a line of formatted text that begins with the characters &gt; loses them, and more *)
Definition F_quote : list token := [Opn (s "i")] ++ F_chars "a" ++ [Brk] ++ F_chars "&gt; great" ++ [Cls (s "i")].
Theorem C22_quote_refuted : exists w es out, odtf_convert (s "A") [] (Some (typed F_quote)) false = Some w /\
  sax (in_document w) = Some (Start (s "doc") [] :: es ++ [End (s "doc")]) /\ shown es = Some out /\
  length (meaning (s "A") [] F_quote) = 12 /\ map undress out = map undress (meaning (s "A") [] (F_chars "a" ++ [Brk] ++ F_chars "&gt; reat")).
Proof.
  destruct (sax (in_document match odtf_convert (s "A") [] (Some (typed F_quote)) false with Some w => w | None => [] end)) as [l|] eqn:E; [|vm_compute in E; discriminate].
  eexists. exists (removelast (tl l)). eexists. split; [vm_compute; reflexivity|]. split; [|vm_compute in E; injection E as <-; split; [vm_compute; reflexivity|]].
  - vm_compute in E. injection E as <-. vm_compute. reflexivity.
  - split; [reflexivity | vm_compute; reflexivity].
Qed.
Print Assumptions C22_quote_refuted.
