(** Consequences: texts, types and starts of what is read; the text of files. *)
From Coq Require Import String List NArith ZArith Bool Lia Arith.
From Verif Require Import PyStr PyDict Spec Globals NovelModel NovelOps YwTree IsoDate Yw7Build Yw7Read YwTreeProofs Yw7SceneProofs Yw7SceneRT Yw7ChapterRT
  Yw7ElemRT Yw7ListRT Yw7TreeInv Yw7ProjRT Yw7SecRT Yw7TreeRT YwText YwTextProofs SpecYw7 SpecText SpecFrame Yw7Clean Yw7Repr Yw7Facts.
Import ListNotations.

Lemma read_scene_texts : forall ext cs ls is k x, read_scene ext cs ls is k = Ok x ->
  (forall t f, In (t, f) scene_text_fields -> f x = get_text t k) /\ read_start ext k = Ok (sc_date x, sc_time x, sc_day x) /\ sc_type x = Some (read_scene_type k).
Proof.
  intros ext cs ls is k x H. unfold read_scene in H. apply bind_ok in H. destruct H as (st & _ & H). apply bind_ok in H. destruct H as ([[d t] y] & Hs & H). cbv zeta in H.
  split; [|split].
  - intros u f Hf. destruct (get_text (s "SceneContent") k) as [c|] eqn:Ec; injection H as <-;
      repeat (destruct Hf as [Hf | Hf]; [injection Hf as <- <-; try exact (eq_sym Ec); reflexivity|]); destruct Hf.
  - rewrite Hs. destruct (get_text (s "SceneContent") k); injection H as <-; reflexivity.
  - destruct (get_text (s "SceneContent") k); injection H as <-; reflexivity.
Qed.

Theorem read_texts : forall ext r n', read_tree ext r new_novel = Ok n' ->
  unique_ids (entries (s "LOCATIONS") r) -> unique_ids (entries (s "ITEMS") r) -> unique_ids (entries (s "CHARACTERS") r) ->
  unique_ids (entries (s "SCENES") r) -> unique_ids (entries (s "CHAPTERS") r) ->
  (forall t f, In (t, f) project_text_fields -> f n' = first_text t (entries (s "PROJECT") r)) /\
  texts_present world_text_fields (entries (s "LOCATIONS") r) (nv_locations n') /\ texts_present world_text_fields (entries (s "ITEMS") r) (nv_items n') /\
  texts_present character_text_fields (entries (s "CHARACTERS") r) (nv_characters n') /\
  texts_present scene_text_fields (entries (s "SCENES") r) (nv_scenes n') /\ texts_present chapter_text_fields (entries (s "CHAPTERS") r) (nv_chapters n').
Proof.
  intros ext r n' H UL UI UC US UH. destruct (read_tree_parts ext r n' H) as [(p & Ep & Hp) (eL & EL & HL) (eI & EI & HI) (eC & EC & HC) (eS & scs & ES & HS & (eH & EH & HH) & HT)].
  rewrite (entries_find _ _ _ Ep). rewrite (entries_find _ _ _ EL) in *. rewrite (entries_find _ _ _ EI) in *. rewrite (entries_find _ _ _ EC) in *. rewrite (entries_find _ _ _ ES) in *. rewrite (entries_find _ _ _ EH) in *.
  assert (X : forall {A} (rd : list elem -> A) table es a d, unique_ids es -> read_into rd es ([], []) = Ok (a, d) ->
     (forall k t f, In (t, f) table -> f (rd k) = get_text t k) -> texts_present table es d).
  { intros A rd table es a d U Hr Ht e i He Hi. destruct (read_into_dict rd es _ _ _ Hr) as (Hf & _). destruct (foldM_dict (fun e => Ok (rd (e_kids e))) es [] d U Hf e i He Hi) as (x & Hx & Hd).
    injection Hx as <-. exists (rd (e_kids e)). split; [exact Hd|]. intros t f Hin. rewrite (Ht _ _ _ Hin). symmetry. apply first_text_get. }
  split; [intros t f Hf; rewrite (Hp t f Hf); symmetry; apply first_text_get|].
  split; [apply (X _ _ _ _ _ _ UL HL); intros k t f Hf; repeat (destruct Hf as [Hf | Hf]; [injection Hf as <- <-; reflexivity|]); destruct Hf|].
  split; [apply (X _ _ _ _ _ _ UI HI); intros k t f Hf; repeat (destruct Hf as [Hf | Hf]; [injection Hf as <- <-; reflexivity|]); destruct Hf|].
  split; [apply (X _ _ _ _ _ _ UC HC); intros k t f Hf; repeat (destruct Hf as [Hf | Hf]; [injection Hf as <- <-; reflexivity|]); destruct Hf|].
  split.
  - intros e i He Hi. destruct (foldM_dict (fun e => read_scene ext _ _ _ (e_kids e)) _ _ _ US HS e i He Hi) as (x & Hx & Hd). specialize (HT i). rewrite Hd in HT.
    destruct (dget i (nv_scenes n')) as [y|]; [|contradiction]. destruct HT as (ty & ->). exists (custom_vars (set_sc_type ty x)). split; [reflexivity|].
    intros t f Hf. rewrite first_text_get, <- (proj1 (read_scene_texts _ _ _ _ _ _ Hx) t f Hf). repeat (destruct Hf as [Hf | Hf]; [injection Hf as <- <-; reflexivity|]); destruct Hf.
  - apply (X _ _ _ _ _ _ UH HH); intros k t f Hf; repeat (destruct Hf as [Hf | Hf]; [injection Hf as <- <-; reflexivity|]); destruct Hf.
Qed.

(** every scene that was read comes from an element *)
Lemma foldM_from : forall {A} (rd : elem -> res A) es d d', foldM (fun d e => do i <- read_id e; do x <- rd e; Ok (dset i x d)) es d = Ok d' ->
  forall i x, dget i d' = Some x -> dget i d = Some x \/ exists e, In e es /\ rd e = Ok x.
Proof.
  intros A rd es. induction es as [|e es IH]; intros d d' H i x Hx; cbn [foldM] in H; [injection H as <-; left; exact Hx|].
  apply bind_ok in H. destruct H as (d1 & H1 & H). apply bind_ok in H1. destruct H1 as (j & Hj & H1). apply bind_ok in H1. destruct H1 as (y & Hy & H1). injection H1 as <-.
  destruct (IH _ _ H i x Hx) as [E | (e' & He' & E)]; [|right; exists e'; split; [right; exact He' | exact E]].
  rewrite dget_dset in E. destruct (str_eqb i j); [injection E as <-; right; exists e; split; [left; reflexivity | exact Hy] | left; exact E].
Qed.

Lemma scene_source : forall ext r n' i y, read_tree ext r new_novel = Ok n' -> dget i (nv_scenes n') = Some y ->
  exists e x ty, In e (entries (s "SCENES") r) /\ read_scene ext (nv_srtCharacters n') (nv_srtLocations n') (nv_srtItems n') (e_kids e) = Ok x /\ y = custom_vars (set_sc_type ty x).
Proof.
  intros ext r n' i y H Hy. destruct (read_tree_parts ext r n' H) as [_ _ _ _ (eS & scs & ES & HS & _ & HT)]. specialize (HT i). rewrite Hy in HT.
  destruct (dget i scs) as [x|] eqn:Ex; [|contradiction]. destruct HT as (ty & ->).
  destruct (foldM_from (fun e => read_scene ext _ _ _ (e_kids e)) _ _ _ HS i x Ex) as [E | (e & He & E)]; [discriminate E|].
  exists e, x, ty. rewrite (entries_find _ _ _ ES). split; [exact He|]. split; [exact E | reflexivity].
Qed.

Lemma read_start_ok : forall ext k d t y, (forall v d t, ext v = Some (d, t) -> valid_date d = true) -> read_start ext k = Ok (d, t, y) ->
  (d = None \/ y = None) /\ date_or_nothing d /\ day_or_nothing y.
Proof.
  intros ext k d t y Hext H. unfold read_start in H. destruct (find (s "SpecificDateTime") k) as [e|].
  - destruct (e_text e) as [v|].
    + destruct (fromiso ext v) as [[d1 t1]|] eqn:E; injection H as <- <- <-; (split; [right; reflexivity|]); (split; [|exact I]).
      * right. unfold fromiso in E. destruct (iso_naive v) as [[d2 t2]|] eqn:E2; [injection E as -> ->; exact (iso_naive_date _ _ _ E2) | exact (Hext _ _ _ E)].
      * left. reflexivity.
    + injection H as <- <- <-. split; [right; reflexivity|]. split; [left; reflexivity | exact I].
  - apply bind_ok in H. destruct H as (day & Hd & H). apply bind_ok in H. destruct H as (h & _ & H). apply bind_ok in H. destruct H as (m & _ & H). injection H as <- <- <-.
    split; [left; reflexivity|]. split; [exact I|]. destruct (find (s "Day") k) as [e|]; [|injection Hd as <-; exact I].
    destruct (e_text e) as [v|]; [|discriminate]. destruct (parse_int v) eqn:E; injection Hd as <-; [right; rewrite E; discriminate | left; reflexivity].
Qed.

Theorem read_starts : forall ext r n', (forall v d t, ext v = Some (d, t) -> valid_date d = true) -> read_tree ext r new_novel = Ok n' ->
  forall i x, dget i (nv_scenes n') = Some x -> (sc_date x = None \/ sc_day x = None) /\ date_or_nothing (sc_date x) /\ day_or_nothing (sc_day x).
Proof.
  intros ext r n' Hext H i x Hx. destruct (scene_source ext r n' i x H Hx) as (e & y & ty & _ & Hr & ->). destruct (read_scene_texts _ _ _ _ _ _ Hr) as (_ & Hs & _).
  exact (read_start_ok ext _ _ _ _ Hext Hs).
Qed.

(** ** Types *)
Theorem scene_type_table_read : forall ext cs ls is k x, read_scene ext cs ls is k = Ok x ->
  length (filter (fun e => str_eqb (e_tag e) (s "Fields")) k) <= 1 ->
  sc_type x = Some (scene_type_table (match field_elems (s "Field_SceneType") k with f :: _ => e_text f | [] => None end) (tag_present (s "Unused") k)).
Proof.
  intros ext cs ls is k x H One. destruct (read_scene_texts _ _ _ _ _ _ H) as (_ & _ & ->). f_equal. rewrite tag_present_has. unfold read_scene_type, field_elems. unfold findall.
  destruct (filter (fun e => str_eqb (e_tag e) (s "Fields")) k) as [|F [|G l]]; [ | | cbn in One; lia]; cbn [fold_left].
  - unfold scene_type_table. cbn [N.eqb]. destruct (has (s "Unused") k); reflexivity.
  - unfold find_text. rewrite find_findall. unfold findall. destruct (filter (fun e => str_eqb (e_tag e) (s "Field_SceneType")) (e_kids F)) as [|f fl]; cbn [hd_error option_map].
    + unfold scene_type_table. destruct (has (s "Unused") k); reflexivity.
    + destruct (e_text f) as [y|]; unfold scene_type_table; [|destruct (has (s "Unused") k); reflexivity].
      destruct (str_eqb y (s "1")); [destruct (has (s "Unused") k); reflexivity|]. destruct (str_eqb y (s "2")); [destruct (has (s "Unused") k); reflexivity|]. destruct (has (s "Unused") k); reflexivity.
Qed.
Theorem chapter_type_table_read : forall scs k,
  ch_type (read_chapter scs k) = Some (chapter_type_table (present_text (s "ChapterType") k) (present_text (s "Type") k) (tag_present (s "Unused") k)).
Proof.
  intros scs k. rewrite !present_text_find, tag_present_has. unfold read_chapter. cbn [ch_type]. f_equal. unfold read_chapter_type, find_text, chapter_type_table.
  destruct (find (s "ChapterType") k) as [e|]; cbn [option_map]; [destruct (e_text e); reflexivity|]. destruct (find (s "Type") k) as [e|]; cbn [option_map]; [destruct (e_text e); reflexivity | reflexivity].
Qed.

(** ** The text of the file *)
Lemma file_char_ok : forall c, file_char c -> char_ok c = true.
Proof.
  intros c H. unfold char_ok, xml_char, kept. unfold file_char in H.
  rewrite !andb_true_iff, !orb_true_iff, !negb_true_iff, !orb_false_iff, !andb_false_iff, !andb_true_iff, !N.eqb_eq, !N.eqb_neq, !N.leb_le, !N.leb_gt. lia.
Qed.
Lemma file_chars_ok : forall v, Forall file_char v -> forallb char_ok v = true.
Proof. intros v H. rewrite forallb_forall. rewrite Forall_forall in H. intros c Hc. apply file_char_ok. exact (H c Hc). Qed.
Theorem nothing_filtered : forall ext t n, Forall file_char t ->
  read_text ext t n = match parse_xml t with Some root => read_tree ext (e_kids root) n | None => Err ParseError end.
Proof. intros ext t n H. apply file_chars_ok in H. unfold read_text. rewrite unl_id by (apply chars_no_cr; exact H). rewrite chars_kept by exact H. destruct (parse_xml t); reflexivity. Qed.

Lemma text_tags_cd : forall t, t <> s "ConflictField_ChapterHeadingPrefix" -> cd t = true <-> In t text_tags.
Proof.
  intros t Hne. unfold cd. rewrite smem_In. split.
  - intro H. repeat (destruct H as [H | H]; [first [exfalso; apply Hne; symmetry; exact H | subst t; apply smem_In; vm_compute; reflexivity]|]). destruct H.
  - intro H. repeat (destruct H as [H | H]; [subst t; apply smem_In; vm_compute; reflexivity|]). destruct H.
Qed.
Lemma tag_name_ok : forall t, tag_name t -> name_ok t = true /\ t <> s "ConflictField_ChapterHeadingPrefix".
Proof.
  intros t (A & B & C). split; [|exact C]. destruct t as [|c t]; [destruct A|]. unfold name_ok. rewrite andb_true_iff. split.
  - unfold name_start. rewrite !orb_true_iff, !andb_true_iff, !N.leb_le, N.eqb_eq. lia.
  - rewrite forallb_forall. rewrite Forall_forall in B. intros x Hx. specialize (B x Hx). cbn beta in B. unfold name_char, name_start, is_digit. rewrite !orb_true_iff, !andb_true_iff, !N.leb_le, !N.eqb_eq. lia.
Qed.
Lemma text_tag_cd : forall t, In t text_tags -> cd t = true.
Proof. intros t H. apply text_tags_cd; [|exact H]. intros ->. revert H. cbn. intuition discriminate. Qed.
Lemma not_text_tag_cd : forall t, tag_name t -> ~ In t text_tags -> cd t = false.
Proof. intros t N H. destruct (cd t) eqn:E; [|reflexivity]. exfalso. apply H. apply text_tags_cd; [exact (proj2 (tag_name_ok t N)) | exact E]. Qed.
Lemma text_tag_name : forall t, In t text_tags -> name_ok t = true.
Proof. intros u Hu. repeat (destruct Hu as [Hu | Hu]; [subst u; reflexivity|]). destruct Hu. Qed.
Lemma blank_plain : forall x, blank_text x -> opt_ok plain_text x.
Proof.
  intros [v|] H; [|exact I]. cbn [blank_text opt_ok] in *. rewrite Forall_forall in H.
  assert (M : forall c p, In c p -> c <> 9%N -> c <> 10%N -> c <> 32%N -> ~ occurs p v).
  { intros c p Hc N1 N2 N3 (a & b & ->). assert (Hi : In c (a ++ p ++ b)) by (apply in_or_app; right; apply in_or_app; left; exact Hc). destruct (H c Hi) as [E | [E | E]]; contradiction. }
  split; [apply Forall_forall; intros c Hc; unfold file_char; specialize (H c Hc); lia|].
  split; [intro Hc; specialize (H _ Hc); lia|]. split; [intro Hc; specialize (H _ Hc); lia|].
  split; [apply (M 93%N); [left; reflexivity | discriminate ..]|]. split; [apply (M 91%N); [left; reflexivity | discriminate ..]|].
  apply (M 93%N); [right; left; reflexivity | discriminate ..].
Qed.
Lemma text_tree_clean : forall e, text_tree e -> clean e.
Proof.
  intro e. induction e as [t x k IH] using elem_rect2. intro H. inversion H as [t0 v Ht Hv | t0 v Ht Hn Hv | t0 Ht | t0 x0 k0 Ht Hn Hk Hb HF]; subst.
  - constructor; [apply text_tag_name; exact Ht | apply text_long; [apply text_tag_cd; exact Ht | exact Hv] | left; reflexivity | constructor].
  - constructor; [apply tag_name_ok; exact Ht | apply text_plain; [apply not_text_tag_cd; assumption | exact Hv] | left; reflexivity | constructor].
  - constructor; [apply tag_name_ok; exact Ht | exact I | left; reflexivity | constructor].
  - constructor; [apply tag_name_ok; exact Ht | apply text_plain; [apply not_text_tag_cd; assumption | apply blank_plain; exact Hb] | right; apply not_text_tag_cd; assumption|].
    rewrite Forall_forall in *. intros e He. apply IH; [exact He | apply HF; exact He].
Qed.
Lemma settled_same_tree : forall e, text_tree e -> forall e', settled out_text e e' -> same_tree e e'.
Proof.
  intro e. induction e as [t x k IH] using elem_rect2. intros H e' S. inversion S as [t1 x1 | t1 x1 y1 a k1 a' k1' HF2]; subst.
  - constructor. inversion H as [t0 v Ht Hv | t0 v Ht Hn Hv | t0 Ht | t0 x0 k0 Ht Hn Hk Hb HF]; subst.
    + apply same_long. apply text_tag_cd. exact Ht.
    + apply same_plain; [apply not_text_tag_cd; assumption | exact Hv].
    + reflexivity.
    + contradiction Hk; reflexivity.
  - inversion H as [t0 v Ht Hv | t0 v Ht Hn Hv | t0 Ht | t0 x0 k0 Ht Hn Hk Hb HF]; subst. constructor. clear -HF2 HF IH. revert IH HF.
    induction HF2 as [|u v us vs Huv HF2 IHF]; intros IH HF; constructor; inversion IH; inversion HF; subst; auto.
Qed.
Theorem texts_survive : forall ent nc r, Forall text_tree r ->
  exists root, parse_xml (filter kept (unl (file_text ent nc r))) = Some root /\ Forall2 same_tree r (e_kids root).
Proof.
  intros ent nc r H. destruct (file_parses ent nc r) as (root & Hp & Hs & _); [rewrite Forall_forall in *; intros e He; apply text_tree_clean; exact (H e He)|].
  exists root. split; [exact Hp|]. clear Hp. induction Hs; constructor; inversion H; subst; [apply settled_same_tree; assumption | auto].
Qed.
