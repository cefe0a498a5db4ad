(** C48: the cross reference document lists exactly the references of the novel. *)
From Coq Require Import List NArith ZArith Bool Lia Arith.
From Verif Require Import SpecExport PyStr PyDict Globals NovelModel Template SpecTemplate Export OdtText Templates Descriptions XRef SpecNovel XRefWrite SpecShow SpecXref XRefWriteProofs OdfXml SpecDesc SpecXrefDoc XRefDocProofs.
Import ListNotations.

(** If everything that is referred to exists, and the scenes have a completion status, the document is the header with the title and
    the author, one text for every line of SpecXref, in that order, and the end; every text is the template of its line with every placeholder replaced
    as its table says. *)
Theorem C48_document : forall (tr : str -> str) (projectName projectPath : option str) (n : novel), SpecNovel.refs_exist n ->
  (forall i x, In i (all_scenes n) -> dget i (nv_scenes n) = Some x -> exists z, sc_status x = Some z /\ (0 <= z <= 5)%Z) ->
  exists header texts, xref_text tr projectName projectPath n = Ok (header ++ concat texts ++ OdtWXref_fileFooter) /\
    rendered (header_table odt_conv n) OdtWXref_fileHeader header /\ Forall2 line_shown (xref_lines tr projectName projectPath n) texts.
Proof. exact xref_document. Qed.
Print Assumptions C48_document.
(** There is only one list of texts that shows these lines. *)
Theorem C48_determined : forall tr (projectName projectPath : option str) (n : novel) ts us,
  Forall2 line_shown (xref_lines tr projectName projectPath n) ts -> Forall2 line_shown (xref_lines tr projectName projectPath n) us -> ts = us.
Proof. exact lines_determined. Qed.
Print Assumptions C48_determined.
(** With texts that XML can carry, the document is well-formed, and a program that reads it finds exactly these headings and paragraphs (SpecXrefDoc). *)
Theorem C48_paragraphs : forall (tr : str -> str) (projectName projectPath : option str) (n : novel), SpecNovel.refs_exist n -> printable n projectName ->
  (forall i x, In i (all_scenes n) -> dget i (nv_scenes n) = Some x -> exists z, sc_status x = Some z /\ (0 <= z <= 5)%Z) ->
  exists doc es, xref_text tr projectName projectPath n = Ok doc /\ sax doc = Some es /\ paragraphs None es = xref_paragraphs n.
Proof. exact document_paragraphs. Qed.
Print Assumptions C48_paragraphs.
(** A line for a scene stands in the part about a character (a location, an item, a tag) if and only if the scene refers to it. *)
Theorem C48_references : forall (n : novel) (f : scene -> option (list str)) (k scId : str),
  In scId (references f n k (all_scenes n)) <-> In scId (all_scenes n) /\ In k (scene_refs f n scId).
Proof.
  intros n f k i. unfold references. rewrite in_flat_map. split.
  - intros [j [Hj H]]. pose proof (repeat_spec _ _ _ H) as E. subst j. split; [exact Hj|]. apply (count_occ_In str_eq_dec).
    destruct (count_occ str_eq_dec (scene_refs f n i) k); [destruct H|lia].
  - intros [Hi Hk]. exists i. split; [exact Hi|]. apply (count_occ_In str_eq_dec) in Hk. destruct (count_occ str_eq_dec (scene_refs f n i) k); [lia|now left].
Qed.
Print Assumptions C48_references.
(** The number of a scene (of its chapter) is its place in the list. *)
Theorem C48_positions : forall (x : str) (l : list str), In x l -> exists before after, l = before ++ x :: after /\ ~ In x before /\ position x l = S (length before).
Proof.
  induction l as [|y l IH]; intro H; [destruct H|]. cbn [position]. destruct (str_eqb y x) eqn:E.
  - apply str_eqb_eq in E. subst. exists [], l. now repeat split.
  - destruct H as [->|H]; [rewrite str_eqb_refl in E; discriminate E|]. destruct (IH H) as [b [a [-> [N P]]]]. exists (y :: b), a. split; [reflexivity|split].
    + intros [->|B]; [rewrite str_eqb_refl in E; discriminate E|contradiction].
    + now rewrite P.
Qed.
Print Assumptions C48_positions.

(** ** A sample: two chapters; the second scene is a note *)
Definition X_scene1 : scene := Eval vm_compute in set_sc_title (Some (s "One & two")) (set_sc_type (Some 0%N) (set_sc_status (Some 2%Z) (set_sc_characters (Some [s "2"; s "1"]) (set_sc_tags (Some [s "x"; s "y"]) new_scene)))).
Definition X_scene2 : scene := Eval vm_compute in set_sc_title (Some (s "Idea")) (set_sc_type (Some 1%N) (set_sc_status (Some 1%Z) (set_sc_characters (Some [s "2"]) (set_sc_tags (Some [s "y"]) new_scene)))).
Definition X_novel_with (crTag : str) : novel :=
  set_nv_title (Some (s "T")) (set_nv_authorName (Some (s "A")) (set_nv_srtChapters [s "1"; s "2"]
   (set_nv_chapters [(s "1", set_ch_srtScenes [s "7"] new_chapter); (s "2", set_ch_srtScenes [s "8"] new_chapter)]
   (set_nv_scenes [(s "7", X_scene1); (s "8", X_scene2)]
   (set_nv_characters [(s "1", set_cr_title (Some (s "Joe")) (set_cr_fullName (Some (s "Joe Doe")) (set_cr_tags (Some [crTag]) new_character))); (s "2", set_cr_title (Some (s "Ann")) new_character)]
   (set_nv_srtCharacters [s "1"; s "2"] (set_nv_locations [(s "1", set_we_title (Some (s "Rome")) new_world)] (set_nv_srtLocations [s "1"] new_novel)))))))).
Definition X_novel : novel := Eval vm_compute in X_novel_with (s "hero").
Example C48_instance_refs : SpecNovel.refs_exist X_novel.
Proof.
  split; [intros c Hc; cbn in Hc; destruct Hc as [<-|[<-|[]]]; apply smem_In; vm_compute; reflexivity|]. split.
  - intros i Hi. vm_compute in Hi. destruct Hi as [<-|[<-|[]]]; (split; [apply smem_In; vm_compute; reflexivity|]); (split; [|split; intros k Hk; vm_compute in Hk; destruct Hk]);
      intros k Hk; vm_compute in Hk; repeat (destruct Hk as [<-|Hk]; [apply smem_In; vm_compute; reflexivity|]); destruct Hk.
  - split; [|split]; intros i Hi; vm_compute in Hi; repeat (destruct Hi as [<-|Hi]; [apply smem_In; vm_compute; reflexivity|]); destruct Hi.
Qed.
Example C48_instance_status : forall i x, In i (all_scenes X_novel) -> dget i (nv_scenes X_novel) = Some x -> exists z, sc_status x = Some z /\ (0 <= z <= 5)%Z.
Proof.
  intros i x _ H. apply dget_In in H. change (In (i, x) [(s "7", X_scene1); (s "8", X_scene2)]) in H. destruct H as [H|[H|[]]]; injection H as _ <-.
  - exists 2%Z. split; [reflexivity|lia].
  - exists 1%Z. split; [reflexivity|lia].
Qed.
Definition X_body : str := s "<text:h text:style-name=""Heading_20_2"" text:outline-level=""2"">Scenes with Character Joe:</text:h>
<text:p text:style-name=""scene_20_mark"">
<text:a xlink:href=""../P_manuscript.odt#ScID:7%7Cregion"">1</text:a> (Ch 1) One &amp; two
</text:p>
<text:h text:style-name=""Heading_20_2"" text:outline-level=""2"">Scenes with Character Ann:</text:h>
<text:p text:style-name=""scene_20_mark"">
<text:a xlink:href=""../P_manuscript.odt#ScID:7%7Cregion"">1</text:a> (Ch 1) One &amp; two
</text:p>
<text:p text:style-name=""scene_20_mark_20_notes"">
2 (Ch 2) Idea (Notes)
</text:p>
<text:h text:style-name=""Heading_20_2"" text:outline-level=""2"">Scenes tagged x:</text:h>
<text:p text:style-name=""scene_20_mark"">
<text:a xlink:href=""../P_manuscript.odt#ScID:7%7Cregion"">1</text:a> (Ch 1) One &amp; two
</text:p>
<text:h text:style-name=""Heading_20_2"" text:outline-level=""2"">Scenes tagged y:</text:h>
<text:p text:style-name=""scene_20_mark"">
<text:a xlink:href=""../P_manuscript.odt#ScID:7%7Cregion"">1</text:a> (Ch 1) One &amp; two
</text:p>
<text:p text:style-name=""scene_20_mark_20_notes"">
2 (Ch 2) Idea (Notes)
</text:p>
<text:h text:style-name=""Heading_20_2"" text:outline-level=""2"">Characters tagged hero:</text:h>
<text:p text:style-name=""Text_20_body"">
<text:a xlink:href=""../P_characters.odt#CrID:1%7Cregion"">Joe</text:a> Joe Doe
</text:p>
".
Definition X_text : str := Eval vm_compute in match xref_text (fun t => t) (Some (s "P")) None X_novel with Ok t => t | Err _ => [] end.
Example C48_instance : xref_text (fun t => t) (Some (s "P")) None X_novel = Ok X_text /\ suffixb (X_body ++ OdtWXref_fileFooter) X_text = true.
Proof. split; vm_compute; reflexivity. Qed.

Example C48_instance_printable : printable X_novel (Some (s "P")).
Proof.
  assert (Wr : forall t, forallb safe t = true -> writable t) by (intros t H; now apply writable_safe).
  assert (Amp : writable (s "One & two")) by (split; [repeat constructor|intro H; cbn in H; repeat (destruct H as [H|H]; [discriminate H|]); exact H]).
  split.
  - split; [apply Wr; reflexivity|]. intro H. cbn in H. destruct H as [H|[]]. discriminate H.
  - split; apply Wr; reflexivity.
  - intros i x H. apply dget_In in H. change (In (i, x) [(s "7", X_scene1); (s "8", X_scene2)]) in H. destruct H as [H|[H|[]]]; injection H as <- <-; (split; [reflexivity|]); [exact Amp|apply Wr; reflexivity].
  - intros i c H. apply dget_In in H. cbn in H. destruct H as [H|[H|[]]]; injection H as <- <-; (split; [reflexivity|]); (split; [apply Wr; reflexivity|]); [apply Wr; reflexivity|exact I].
  - intros i c H. apply dget_In in H. cbn in H. destruct H as [H|[]]; injection H as <- <-. split; [reflexivity|]. apply Wr. reflexivity.
  - intros i c H. discriminate H.
  - intros t H. assert (K : In t [s "x"; s "y"; s "hero"]).
    { destruct H as [H|[H|[H|H]]]; vm_compute in H; cbn [In]; intuition. }
    destruct K as [<-|[<-|[<-|[]]]]; (split; [apply Wr; reflexivity|repeat constructor; discriminate]).
Qed.
Example C48_instance_paragraphs : xref_paragraphs X_novel =
  [(s "text:p", s "T"); (s "text:p", s "A");
   (s "text:h", s "Scenes with Character Joe:"); (s "text:p", [10%N] ++ s "1 (Ch 1) One & two" ++ [10%N]);
   (s "text:h", s "Scenes with Character Ann:"); (s "text:p", [10%N] ++ s "1 (Ch 1) One & two" ++ [10%N]); (s "text:p", [10%N] ++ s "2 (Ch 2) Idea (Notes)" ++ [10%N]);
   (s "text:h", s "Scenes tagged x:"); (s "text:p", [10%N] ++ s "1 (Ch 1) One & two" ++ [10%N]);
   (s "text:h", s "Scenes tagged y:"); (s "text:p", [10%N] ++ s "1 (Ch 1) One & two" ++ [10%N]); (s "text:p", [10%N] ++ s "2 (Ch 2) Idea (Notes)" ++ [10%N]);
   (s "text:h", s "Characters tagged hero:"); (s "text:p", [10%N] ++ s "Joe Joe Doe" ++ [10%N])].
Proof. vm_compute. reflexivity. Qed.

(** A tag is not converted: with markup characters in it the document is not well-formed. *)
Theorem C48_tag_refuted : exists t, xref_text (fun t => t) (Some (s "P")) None (X_novel_with (s "<x>")) = Ok t /\
  containsb (s "Characters tagged <x>:</text:h>") t = true /\ sax t = None.
Proof.
  exists (match xref_text (fun t => t) (Some (s "P")) None (X_novel_with (s "<x>")) with Ok t => t | Err _ => [] end). split; [vm_compute; reflexivity|split; vm_compute; reflexivity].
Qed.
Print Assumptions C48_tag_refuted.
(** Without a completion status, or with a reference to a character that does not exist, there is no document at all. *)
Theorem C48_refused_refuted :
  xref_text (fun t => t) None None (set_nv_scenes [(s "7", set_sc_status None X_scene1); (s "8", X_scene2)] X_novel) = Err TypeError /\
  xref_text (fun t => t) None None (set_nv_srtCharacters [s "1"] X_novel) = Err KeyError.
Proof. split; vm_compute; reflexivity. Qed.
Print Assumptions C48_refused_refuted.
