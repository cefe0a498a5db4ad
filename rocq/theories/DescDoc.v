(** The document with descriptions: its events, and reading it. *)
From Coq Require Import String List NArith ZArith Bool Lia Arith.
From Verif Require Import PyStr PyDict YwText YwTextProofs NovelModel NovelOps OdfXml OdfXmlProofs OdfLex OdtText OdtTextProofs OdtTextProofs2 SpecOdf SpecManuscript SpecDesc
  OdsTree OdsRoundTrip OdsRoundTrip2 Template Templates OdtRead XmlTags DescEngine DescBlocks Export Descriptions ManuExport.
From Verif Require ManuDoc ManuBlocks ManuWalk FormatXml4.
Import ListNotations.

Definition MARK : str := s "<text:p text:style-name=""Title"">".
Fixpoint cut (fuel : nat) (t : str) : str :=
  match fuel, t with S f, c :: r => if prefixb MARK t then [] else c :: cut f r | _, _ => [] end.
Definition HEADD : str := Eval vm_compute in cut (length OdtWSceneDesc_fileHeader) (skipn (length DECL) OdtWSceneDesc_fileHeader).
Notation FOOT := ManuDoc.FOOT.
Lemma header_text : forall m, safe_substitute OdtWSceneDesc_fileHeader m =
  DECL ++ HEADD ++ s "<text:p text:style-name=""Title"">" ++ V m (s "Title") ++ s "</text:p>" ++ [10%N] ++ s "<text:p text:style-name=""Subtitle"">" ++ V m (s "AuthorName") ++ s "</text:p>" ++ [10%N].
Proof. intro m. unfold V. cbv -[value_or]. reflexivity. Qed.
Lemma same_headers : OdtWChapterDesc_fileHeader = OdtWSceneDesc_fileHeader /\ OdtWPartDesc_fileHeader = OdtWSceneDesc_fileHeader /\ OdtWCharacters_fileHeader = OdtWSceneDesc_fileHeader /\
  OdtWLocations_fileHeader = OdtWSceneDesc_fileHeader /\ OdtWItems_fileHeader = OdtWSceneDesc_fileHeader.
Proof. repeat split. Qed.
Definition TD : list xtok := Eval vm_compute in ManuDoc.toks HEADD.
Definition ED : list event := Eval vm_compute in ManuDoc.run_events [] false TD.
Lemma runD : nest_run [] false TD = Some (ED, ManuDoc.ST2, true).
Proof. vm_compute. reflexivity. Qed.
Theorem document_events : forall body Eb, frag body Eb -> sax (DECL ++ HEADD ++ body ++ FOOT) = Some (merge (ED ++ Eb ++ ManuDoc.E3)).
Proof.
  intros body Eb [Cb [tb [Lb [Gb Nb]]]].
  assert (C : ~ In 13%N (DECL ++ HEADD ++ body ++ FOOT)).
  { rewrite !in_app_iff. assert (A : ~ In 13%N DECL /\ ~ In 13%N HEADD /\ ~ In 13%N FOOT) by (repeat split; apply no_char; vm_compute; reflexivity). tauto. }
  unfold sax. rewrite unl_id by exact C. rewrite skip_DECL.
  assert (L : xlex (HEADD ++ body ++ FOOT) = Some (TD ++ tb ++ ManuDoc.T3)).
  { apply lexes_full. repeat apply lexes_app; try assumption; apply xlex_lexes; vm_compute; reflexivity. }
  rewrite L, no_cdata_end_ok.
  2:{ rewrite !in_app_iff. assert (A : ~ In (XChar 62) TD /\ ~ In (XChar 62) ManuDoc.T3) by (repeat split; apply not_gt_in; vm_compute; reflexivity). tauto. }
  rewrite nest_app, runD. unfold ManuDoc.ST2. rewrite (Nb _ _ ManuDoc.T3). change [s "office:text"; s "office:body"; s "office:document-content"] with ManuDoc.ST2.
  rewrite <- (app_nil_r ManuDoc.T3), nest_app, ManuDoc.run3. cbn [nest option_map]. rewrite app_nil_r. reflexivity.
Qed.
Theorem document_read : forall P h n m r' body, moves P h (new_rs m) r' body -> r_novel r' = n ->
  exists es, sax (DECL ++ HEADD ++ body ++ FOOT) = Some es /\ forall opening es', foldM (handle h) opening (new_rs m) = Ok (new_rs m) -> deliver_by P es es' -> read_plain h opening es' m = Ok n.
Proof.
  intros P h n m r' body [Eb [Fb Tb]] Hn. eexists. split; [exact (document_events body Eb Fb)|]. intros opening es' Ho D. unfold read_plain, feed. rewrite Ho. cbn [bind].
  assert (G : W P h [] (ED ++ Eb ++ ManuDoc.E3) (PSS None false, new_rs m) (fun st => snd st = r')).
  { apply W_dull; [vm_compute; reflexivity|]. intro u1. apply Tb. intros u2 r <-. rewrite <- (app_nil_r ManuDoc.E3). apply W_dull; [vm_compute; reflexivity|]. intro u3.
    apply W_end. intros ts _. eexists. split; [apply data_out | reflexivity]. }
  destruct (G es') as [st2 [E1 E2]]; [now rewrite ManuRead.merge_none|]. change new_ps with (PSS None false). rewrite E1. cbn [bind]. rewrite E2, Hn. reflexivity.
Qed.

(** ** Common parts *)
Definition otext (t : option str) : str := match t with Some x => x | None => [] end.
Lemma conv_quick : forall t, odt_convert t true = xesc (otext t).
Proof. intros [t|]; [apply odt_quick | reflexivity]. Qed.
Lemma conv_long : forall t, odt_convert t false = br (otext t).
Proof. intros [t|]; [apply odt_long | reflexivity]. Qed.
Lemma headline_text : forall t, headline t -> writable (otext t).
Proof. intros [t|] H; [exact H|]. split; [constructor | intros []]. Qed.
(** readers that take no notice of titles and paragraphs outside sections *)
Definition same (r r1 : rs) : Prop := r1 = r.
Lemma quiet_heading : forall h tag r, h_start h tag [None] r = Ok r -> (forall t, h_data h t r = Ok r) -> h_end h (Some tag) r = Ok r -> heading h tag (same r) r r.
Proof. intros h tag r H1 H2 H3. constructor; [now exists r | intros t r1 ->; exists r; split; [apply H2 | reflexivity] | now intros r1 ->]. Qed.
Lemma header_block : forall P h n m, fileHeaderMapping odt_conv n = Ok m -> headline (nv_title n) -> headline (nv_authorName n) ->
  exists w, safe_substitute OdtWSceneDesc_fileHeader m = DECL ++ HEADD ++ w /\ forall r, heading h (s "p") (same r) r r -> block P h r w.
Proof.
  intros P h n m E H1 H2. rewrite header_text. unfold fileHeaderMapping, odt_conv in E.
  destruct (mapping_get _ _ E (s "Title") _ eq_refl) as [v1 [E1 G1]]. destruct (mapping_get _ _ E (s "AuthorName") _ eq_refl) as [v2 [E2 G2]].
  assert (X1 : V m (s "Title") = xesc (otext (nv_title n))) by (rewrite <- conv_quick; apply value_get; rewrite G1; injection E1 as ->; reflexivity).
  assert (X2 : V m (s "AuthorName") = xesc (otext (nv_authorName n))) by (rewrite <- conv_quick; apply value_get; rewrite G2; injection E2 as ->; reflexivity).
  rewrite X1, X2. exists ((para_text (s "Title") (xesc (otext (nv_title n))) ++ [10%N]) ++ (para_text (s "Subtitle") (xesc (otext (nv_authorName n))) ++ [10%N])). split.
  - unfold ManuBlocks.para_text, tag_text, attr_text, ManuWalk.para_attrs, closing_text. cbn [flat_map fst snd]. rewrite <- !app_assoc. cbn [app]. rewrite <- ?app_assoc. reflexivity.
  - intros r Hp. apply block_app.
    + eapply block_para; [now left | apply frag_xesc; now apply headline_text | apply dull_chars | exact Hp].
    + eapply block_para; [right; now left | apply frag_xesc; now apply headline_text | apply dull_chars | exact Hp].
Qed.

(** ** Texts that restore the descriptions of elements, one by one *)
Section Restores.
Variable P : str -> Prop.
Variable h : reader.
Variable other : (str -> Prop) -> novel -> novel -> Prop.
Hypothesis O_weaken : forall (A B : str -> Prop) n m, (forall i, A i -> B i) -> other A n m -> other B n m.
Hypothesis O_end : forall n m, other (fun i => In i []) n m -> m = n.
Variable n : novel.
(** the text w contains the descriptions of ids: afterwards these are those of n, whatever they were *)
Definition restores (f g : novel -> rs) (w : str) (ids : list str) : Prop :=
  forall todo m, other (fun i => In i (ids ++ todo)) n m -> exists m', other (fun i => In i todo) n m' /\ moves P h (f m) (g m') w.
Lemma restores_app : forall f g k a b ia ib, restores f g a ia -> restores g k b ib -> restores f k (a ++ b) (ia ++ ib).
Proof.
  intros f g k a b ia ib A B todo m O. rewrite <- app_assoc in O. destruct (A _ _ O) as [m1 [O1 M1]]. destruct (B _ _ O1) as [m2 [O2 M2]]. exists m2. split; [exact O2|]. now apply (moves_app P h (f m) (g m1)).
Qed.
Lemma restores_quiet : forall f w, (forall m, other (fun _ => True) n m -> block P h (f m) w) -> restores f f w [].
Proof.
  intros f w H todo m O. exists m. split; [exact O|]. apply H. revert O. now apply O_weaken.
Qed.
Lemma restores_nil : forall f, restores f f [] [].
Proof. intro f. apply restores_quiet. intros m _. apply block_nil. Qed.
Lemma restores_section : forall x f f1 g1 g w ids, forallb FormatXml4.style_char x = true -> (forall m, other (fun _ => True) n m -> h_start h (s "div") (ManuWalk.div_attr x) (f m) = Ok (f1 m)) -> restores f1 g1 w ids ->
  (forall m, other (fun _ => True) n m -> h_end h (Some (s "div")) (g1 m) = Ok (g m)) -> restores f g (ManuBlocks.section_text x ([10%N] ++ w) ++ [10%N]) ids.
Proof.
  intros x f f1 g1 g w ids Hx Hs Hw He todo m O. destruct (Hw _ _ O) as [m1 [O1 M1]]. exists m1. split; [exact O1|]. apply (moves_section P h x (f m) (f1 m) (g1 m1)); [exact Hx | | exact M1 |].
  - apply Hs. revert O. now apply O_weaken.
  - apply He. revert O1. now apply O_weaken.
Qed.
Lemma document_restored : forall f body ids m, restores (fun m => new_rs m) f body ids -> (forall m, r_novel (f m) = m) -> other (fun i => In i ids) n m ->
  exists es, sax (DECL ++ HEADD ++ body ++ FOOT) = Some es /\ forall opening es', foldM (handle h) opening (new_rs m) = Ok (new_rs m) -> deliver_by P es es' -> read_plain h opening es' m = Ok n.
Proof.
  intros f body ids m B Hf O. destruct (B [] m) as [m' [O' M]]; [now rewrite app_nil_r|]. apply O_end in O'. subst m'. apply (document_read P h n m (f n) body M). apply Hf.
Qed.
End Restores.
