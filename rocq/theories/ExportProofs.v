From Coq Require Import List NArith ZArith Bool Lia Arith.
From Verif Require Import PyStr PyDict NovelModel Template Export SpecExport.
Import ListNotations.

Lemma mapM_app : forall {A B} (f : A -> res B) a b, mapM f (a ++ b) = do x <- mapM f a; do y <- mapM f b; Ok (x ++ y).
Proof.
  induction a as [|x a IH]; intro b; cbn [app mapM].
  - cbn. destruct (mapM f b); reflexivity.
  - destruct (f x); cbn; [|reflexivity]. rewrite IH. destruct (mapM f a); cbn; [|reflexivity]. destruct (mapM f b); reflexivity.
Qed.
Lemma bind_assoc : forall {A B C} (x : res A) (f : A -> res B) (g : B -> res C), bind (bind x f) g = bind x (fun a => bind (f a) g).
Proof. intros A B C [a|e] f g; reflexivity. Qed.
Lemma bind_ext : forall {A B} (x : res A) (f g : A -> res B), (forall a, f a = g a) -> bind x f = bind x g.
Proof. intros A B [a|e] f g H; cbn; [apply H | reflexivity]. Qed.
Lemma mapM_one : forall {A B} (f : A -> res B) a, mapM f [a] = do x <- f a; Ok [x].
Proof. intros. cbn. destruct (f a); reflexivity. Qed.

Lemma is_type_1 : forall t, is_type t 1 = match t with Some 1%N => true | _ => false end.
Proof. intros [[|[p|p|]]|]; reflexivity. Qed.
Lemma is_part_eq : forall c, is_type (ch_level c) 1 = is_part c.
Proof. intro c. apply is_type_1. Qed.

Lemma filter_length_le : forall {A} (f : A -> bool) l, length (filter f l) <= length l.
Proof. induction l as [|x l IH]; cbn; [lia|]. destruct (f x); cbn; lia. Qed.

Section Doc.
Variable e : exporter.
Variable n : novel.

(** 185-195 *)
Lemma not_exported_eq : forall ids, (forall i, In i ids -> exists x, dget i (nv_scenes n) = Some x) ->
  not_exported n ids = Ok (match ids with [] => false | _ => forallb (hidden_scene n) ids end).
Proof.
  intros ids H. unfold not_exported.
  assert (G : forall ids a b, (forall i, In i ids -> exists x, dget i (nv_scenes n) = Some x) ->
    foldM (fun (c : nat * nat) scId => do x <- dindex scId (nv_scenes n); Ok (S (fst c), if flag (sc_doNotExport x) then S (snd c) else snd c)) ids (a, b)
    = Ok (a + length ids, b + length (filter (hidden_scene n) ids))).
  { clear ids H. induction ids as [|i ids IH]; intros a b H; cbn [foldM length filter].
    - now rewrite !Nat.add_0_r.
    - destruct (H i (or_introl eq_refl)) as [x Hx]. unfold dindex. rewrite Hx. cbn [bind fst snd].
      rewrite IH by (intros j Hj; apply H; now right). assert (Eh : hidden_scene n i = flag (sc_doNotExport x)) by (unfold hidden_scene, scene_of; rewrite Hx; reflexivity).
      rewrite Eh. destruct (flag (sc_doNotExport x)); cbn [length]; f_equal; f_equal; lia. }
  rewrite G by exact H. cbn [bind fst snd]. f_equal. cbn [Nat.add].
  assert (F : forall l, (length (filter (hidden_scene n) l) =? length l) = forallb (hidden_scene n) l).
  { induction l as [|x l IH]; [reflexivity|]. cbn [filter forallb length]. destruct (hidden_scene n x); cbn [length andb].
    - exact IH.
    - apply Nat.eqb_neq. pose proof (filter_length_le (hidden_scene n) l). lia. }
  rewrite F. destruct ids; reflexivity.
Qed.

Definition totals_of (l : list (str * str)) : totals := mkTotals (length (filter (numbered_scene n) l)) (total sc_wordCount n l) (total sc_letterCount n l).
Lemma totals_app : forall l ch i, totals_of (l ++ [(ch, i)]) = if numbered_scene n (ch, i) then add_scene (scene_of n i) (totals_of l) else totals_of l.
Proof.
  intros l ch i. unfold totals_of, total. rewrite !filter_app. cbn [filter]. destruct (numbered_scene n (ch, i)).
  - unfold add_scene. cbn [tt_scenes tt_words tt_letters]. rewrite !map_app, !list_sum_app, app_length. cbn [map list_sum fold_right length snd]. f_equal; lia.
  - now rewrite !app_nil_r.
Qed.

Lemma scene_template_eq : forall ch c x i first, dget ch (nv_chapters n) = Some c -> dget i (nv_scenes n) = Some x ->
  f_scene e i = true ->
  scene_template e c x (hidden_chapter n c) first
  = (if shown_scene e n ch i then Some (match scene_kind n ch i with
      | Todo => t_todoScene e | Notes => t_notesScene e | Unused => t_unusedScene e | Hidden => t_notExportedScene e
      | _ => if negb first && appended n i && truthy (t_appendedScene e) then t_appendedScene e else t_scene e end) else None,
     shown_scene e n ch i && numbered_scene n (ch, i)).
Proof.
  intros ch c x i first Hc Hx Hf.
  assert (Ec : chapter_of n ch = c) by (unfold chapter_of; now rewrite Hc). assert (Ex : scene_of n i = x) by (unfold scene_of; now rewrite Hx).
  unfold scene_template, shown_scene, numbered_scene. cbn [fst snd]. rewrite Hf. cbn [andb].
  unfold scene_kind, raw_code, appended. rewrite Ec, Ex.
  assert (Eh : hidden_scene n i = flag (sc_doNotExport x)) by (unfold hidden_scene; now rewrite Ex). rewrite Eh.
  assert (Q2 : forall t : option N, is_type t 2 = match t with Some 2%N => true | _ => false end) by (intros [[|[[p|p|]|[p|p|]|]]|]; reflexivity).
  assert (Q3 : forall t : option N, is_type t 3 = match t with Some 3%N => true | _ => false end) by (intros [[|[[p|p|]|[p|p|]|]]|]; reflexivity).
  rewrite Q2, is_type_1, !Q3.
  unfold if_given.
  assert (T : forall t : option N, (t = Some 2%N \/ t = Some 1%N \/ t = Some 3%N) \/ forall A (a b d g : A), match t with Some 2%N => a | Some 1%N => b | Some 3%N => d | _ => g end = g /\
     match t with Some 2%N => true | _ => false end = false /\ match t with Some 1%N => true | _ => false end = false /\ match t with Some 3%N => true | _ => false end = false).
  { intros [[|[[p|p|]|[p|p|]|]]|]; auto; right; repeat split. }
  destruct (T (sc_type x)) as [[E|[E|E]]|E].
  - rewrite E. destruct (truthy (t_todoScene e)); reflexivity.
  - rewrite E. destruct (truthy (t_notesScene e)); reflexivity.
  - rewrite E. cbn [orb]. destruct (truthy (t_unusedScene e)); reflexivity.
  - pose proof (E kind) as Ek. destruct (Ek Todo Notes Unused (match ch_type c with Some 3%N => Unused | _ => if flag (sc_doNotExport x) || hidden_chapter n c then Hidden else Normal end)) as [E0 [E1 [E2 E3]]].
    rewrite E0, E1, E2, E3. cbn [orb].
    assert (D : ch_type c = Some 3%N \/ (forall A (a b : A), match ch_type c with Some 3%N => a | _ => b end = b)) by (destruct (ch_type c) as [[|[[p|p|]|[p|p|]|]]|]; auto).
    destruct D as [D|D].
    + rewrite D. destruct (truthy (t_unusedScene e)); reflexivity.
    + rewrite !D. destruct (flag (sc_doNotExport x) || hidden_chapter n c).
      * destruct (truthy (t_notExportedScene e)); reflexivity.
      * unfold flag. destruct (sc_content x) as [t|]; cbn [negb andb]; [|reflexivity].
        destruct (prefixb (s "<HTML>") t); cbn [orb negb andb]; [reflexivity|]. destruct (prefixb (s "<TEX>") t); reflexivity.
Qed.

Definition is_nil {A} (l : list A) : bool := match l with [] => true | _ => false end.

Lemma scene_loop : forall ch c before, dget ch (nv_chapters n) = Some c ->
  forall ids earlier lines, (forall i, In i ids -> exists x, dget i (nv_scenes n) = Some x) ->
  foldM (scene_step e n c (hidden_chapter n c)) ids (lines, is_nil earlier, totals_of (before ++ map (pair ch) earlier))
  = do ls <- mapM (block_text e n) (flat_map (scene_blocks n before ch) (with_before_from earlier (filter (shown_scene e n ch) ids)));
    Ok (lines ++ ls, is_nil (earlier ++ filter (shown_scene e n ch) ids), totals_of (before ++ map (pair ch) (earlier ++ filter (shown_scene e n ch) ids))).
Proof.
  intros ch c before Hc. induction ids as [|i ids IH]; intros earlier lines H; cbn [foldM filter].
  - cbn [with_before_from flat_map mapM bind]. now rewrite !app_nil_r.
  - destruct (H i (or_introl eq_refl)) as [x Hx]. assert (H' : forall j, In j ids -> exists x, dget j (nv_scenes n) = Some x) by (intros j Hj; apply H; now right).
    unfold scene_step at 1.
    destruct (f_scene e i) eqn:Hf; cbn [negb].
    2:{ cbn [bind]. assert (E : shown_scene e n ch i = false) by (unfold shown_scene; now rewrite Hf). rewrite E. apply IH, H'. }
    unfold dindex at 1. rewrite Hx. cbn [bind].
    rewrite (scene_template_eq ch c x i (is_nil earlier) Hc Hx Hf).
    destruct (shown_scene e n ch i) eqn:Es; cbn [andb].
    2:{ cbn [bind]. apply IH, H'. }
    cbn [with_before_from flat_map]. rewrite mapM_app.
    set (T := totals_of (before ++ map (pair ch) earlier)).
    assert (ET : totals_of (before ++ map (pair ch) (earlier ++ [i])) = if numbered_scene n (ch, i) then add_scene x T else T).
    { rewrite map_app, app_assoc. cbn [map]. rewrite totals_app. unfold scene_of. rewrite Hx. reflexivity. }
    assert (EB : mapM (block_text e n) (scene_blocks n before ch (earlier, i)) =
      do text <- fill (scene_form e n ch i (is_nil earlier)) (m_scene e n i (if numbered_scene n (ch, i) then tt_scenes (if numbered_scene n (ch, i) then add_scene x T else T) else 0)
        (tt_words (if numbered_scene n (ch, i) then add_scene x T else T)) (tt_letters (if numbered_scene n (ch, i) then add_scene x T else T)));
      Ok ((if is_nil earlier || appended n i then [] else [t_divider e]) ++ [text])).
    { rewrite <- ET. unfold scene_blocks. fold (is_nil earlier). rewrite mapM_app, mapM_one. cbn [block_text].
      unfold totals_of. cbn [tt_scenes tt_words tt_letters].
      destruct (is_nil earlier || appended n i).
      - cbn [mapM bind]. rewrite bind_assoc. apply bind_ext. reflexivity.
      - rewrite mapM_one. cbn [block_text bind]. rewrite bind_assoc. apply bind_ext. reflexivity. }
    rewrite EB. clear EB. rewrite !bind_assoc.
    assert (EF : (if is_nil earlier && truthy (t_firstScene e) then t_firstScene e else
       match scene_kind n ch i with Todo => t_todoScene e | Notes => t_notesScene e | Unused => t_unusedScene e | Hidden => t_notExportedScene e
       | _ => if negb (is_nil earlier) && appended n i && truthy (t_appendedScene e) then t_appendedScene e else t_scene e end) = scene_form e n ch i (is_nil earlier)) by reflexivity.
    rewrite EF. apply bind_ext. intro text. cbn [bind].
    assert (EA : flag (sc_appendToPrev x) = appended n i) by (unfold appended, scene_of; rewrite Hx; reflexivity). rewrite EA.
    rewrite <- ET.
    assert (EI : false = is_nil (earlier ++ [i])) by (destruct earlier; reflexivity). rewrite EI at 1.
    rewrite (IH (earlier ++ [i]) _ H'). rewrite !bind_assoc. apply bind_ext. intro ls. cbn [bind].
    rewrite <- !app_assoc. cbn [app]. f_equal. f_equal. f_equal. destruct (is_nil earlier || appended n i); cbn [negb]; rewrite <- ?app_assoc; reflexivity.
Qed.

Lemma chapter_template_eq : forall ch c, dget ch (nv_chapters n) = Some c ->
  chapter_template e c (hidden_chapter n c) = (if has_heading e n ch then Some (heading e (chapter_kind n ch)) else None, numbered_chapter e n ch).
Proof.
  intros ch c Hc. assert (Ec : chapter_of n ch = c) by (unfold chapter_of; now rewrite Hc).
  unfold chapter_template, has_heading, numbered_chapter, chapter_kind. rewrite Ec, !is_part_eq.
  destruct (ch_type c) as [[|[[p|p|]|[p|p|]|]]|]; cbn [is_type N.eqb Pos.eqb]; unfold if_given;
    try (destruct (hidden_chapter n c)); destruct (is_part c) eqn:Ep; cbn [heading orb negb andb truthy];
    repeat match goal with |- context [truthy ?t] => destruct t eqn:?; cbn [truthy orb negb andb] end; try reflexivity.
Qed.
Lemma chapter_end_eq : forall ch c, dget ch (nv_chapters n) = Some c ->
  chapter_end_template e c (hidden_chapter n c) = (if truthy (ending e (chapter_kind n ch)) then Some (ending e (chapter_kind n ch)) else None).
Proof.
  intros ch c Hc. assert (Ec : chapter_of n ch = c) by (unfold chapter_of; now rewrite Hc).
  unfold chapter_end_template, chapter_kind. rewrite Ec.
  destruct (ch_type c) as [[|[[p|p|]|[p|p|]|]]|]; cbn [is_type N.eqb Pos.eqb]; unfold if_given;
    try (destruct (hidden_chapter n c)); destruct (is_part c) eqn:Ep; cbn [ending]; reflexivity.
Qed.

Definition chapters_before (l : list str) : nat := length (filter (numbered_chapter e n) l).
Lemma scenes_in_app : forall l ch, scenes_in e n (l ++ [ch]) = scenes_in e n l ++ map (pair ch) (shown_scenes e n ch).
Proof. intros. unfold scenes_in. rewrite flat_map_app. cbn [flat_map]. now rewrite app_nil_r. Qed.

Lemma chapter_loop : forall ids before lines,
  (forall ch, In ch ids -> exists c, dget ch (nv_chapters n) = Some c /\ forall i, In i (ch_srtScenes c) -> exists x, dget i (nv_scenes n) = Some x) ->
  foldM (chapter_step e n) ids (lines, chapters_before before, totals_of (scenes_in e n before))
  = do ls <- mapM (block_text e n) (flat_map (chapter_blocks e n) (with_before_from before (filter (f_chapter e) ids)));
    Ok (lines ++ ls, chapters_before (before ++ filter (f_chapter e) ids), totals_of (scenes_in e n (before ++ filter (f_chapter e) ids))).
Proof.
  induction ids as [|ch ids IH]; intros before lines H; cbn [foldM filter].
  - cbn [with_before_from flat_map mapM bind]. now rewrite !app_nil_r.
  - assert (H' : forall ch, In ch ids -> exists c, dget ch (nv_chapters n) = Some c /\ forall i, In i (ch_srtScenes c) -> exists x, dget i (nv_scenes n) = Some x) by (intros j Hj; apply H; now right).
    unfold chapter_step at 1. destruct (f_chapter e ch); cbn [negb].
    2:{ cbn [bind]. apply IH, H'. }
    destruct (H ch (or_introl eq_refl)) as [c [Hc Hs]]. unfold dindex at 1. rewrite Hc. cbn [bind].
    assert (EN : not_exported n (ch_srtScenes c) = Ok (hidden_chapter n c)) by (rewrite (not_exported_eq _ Hs); unfold hidden_chapter; destruct (ch_srtScenes c); reflexivity).
    rewrite EN. cbn [bind].
    rewrite (chapter_template_eq ch c Hc), (chapter_end_eq ch c Hc). cbn [fst snd].
    set (k := if numbered_chapter e n ch then (if numbered_chapter e n ch then S (chapters_before before) else chapters_before before) else 0).
    assert (Ek : k = chapter_number e n before ch).
    { unfold k, chapter_number, chapters_before. rewrite filter_app, app_length. cbn [filter]. destruct (numbered_chapter e n ch); [cbn [length]; lia | reflexivity]. }
    rewrite Ek. clear k Ek. set (k := chapter_number e n before ch).
    cbn [with_before_from flat_map]. rewrite mapM_app. unfold chapter_blocks at 1. fold k. rewrite !mapM_app.
    unfold get_scenes.
    pose proof (scene_loop ch c (scenes_in e n before) Hc (ch_srtScenes c) [] [] Hs) as SL. cbn [map app is_nil] in SL. rewrite app_nil_r in SL. rewrite SL. clear SL.
    assert (Esh : filter (shown_scene e n ch) (ch_srtScenes c) = shown_scenes e n ch) by (unfold shown_scenes, chapter_of; rewrite Hc; reflexivity).
    rewrite Esh. unfold with_before.
    assert (EH : match (if has_heading e n ch then Some (heading e (chapter_kind n ch)) else None) with Some tpl => do x <- fill tpl (m_chapter e n ch k); Ok [x] | None => Ok [] end
       = mapM (block_text e n) (if has_heading e n ch then [BHeading ch k] else [])) by (destruct (has_heading e n ch); [rewrite mapM_one|]; reflexivity).
    assert (EE : match (if truthy (ending e (chapter_kind n ch)) then Some (ending e (chapter_kind n ch)) else None) with Some tpl => do x <- fill tpl (m_chapter e n ch k); Ok [x] | None => Ok [] end
       = mapM (block_text e n) (if truthy (ending e (chapter_kind n ch)) then [BEnding ch k] else [])) by (destruct (truthy (ending e (chapter_kind n ch))); [rewrite mapM_one|]; reflexivity).
    rewrite EH, EE. rewrite !bind_assoc. apply bind_ext. intro h. rewrite !bind_assoc. apply bind_ext. intro sc. cbn [bind]. rewrite !bind_assoc. apply bind_ext. intro t. cbn [bind].
    rewrite <- scenes_in_app.
    assert (EC : (if numbered_chapter e n ch then S (chapters_before before) else chapters_before before) = chapters_before (before ++ [ch])).
    { unfold chapters_before. rewrite filter_app, app_length. cbn [filter]. destruct (numbered_chapter e n ch); cbn [length]; lia. }
    rewrite EC, (IH (before ++ [ch]) _ H'). rewrite !bind_assoc. apply bind_ext. intro ls. cbn [bind]. rewrite <- !app_assoc. cbn [app]. reflexivity.
Qed.

Theorem chapters_document : all_listed n -> get_chapters e n = mapM (block_text e n) (document e n).
Proof.
  intro H. unfold get_chapters. pose proof (chapter_loop (nv_srtChapters n) [] [] H) as L.
  change (foldM (chapter_step e n) (nv_srtChapters n) ([], 0, mkTotals 0 0 0)) with (foldM (chapter_step e n) (nv_srtChapters n) ([], chapters_before [], totals_of (scenes_in e n []))).
  rewrite L, bind_assoc. cbn [bind app]. unfold document, with_before, accepted_chapters. destruct (mapM _ _); reflexivity.
Qed.
End Doc.
