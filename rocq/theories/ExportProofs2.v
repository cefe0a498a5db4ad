From Coq Require Import List NArith ZArith Bool Lia Arith.
From Verif Require Import PyStr PyDict NovelModel Template Export SpecExport ExportProofs.
Import ListNotations.

Lemma snd_with_before : forall {A} (l bef : list A), map snd (with_before_from bef l) = l.
Proof. induction l as [|x l IH]; intro bef; cbn; [reflexivity | now rewrite IH]. Qed.
Lemma counting : forall {A} (f : A -> bool) (l bef : list A),
  map (fun x => length (filter f (fst x ++ [snd x]))) (filter (fun x => f (snd x)) (with_before_from bef l)) = seq (S (length (filter f bef))) (length (filter f l)).
Proof.
  induction l as [|x l IH]; intro bef; cbn [with_before_from filter map]; [reflexivity|]. cbn [snd]. destruct (f x) eqn:E.
  - cbn [map fst snd length seq]. rewrite IH, !filter_app, !app_length. cbn [filter]. rewrite E. cbn [length]. rewrite Nat.add_1_r. reflexivity.
  - rewrite IH, filter_app, app_length. cbn [filter]. rewrite E. cbn [length]. now rewrite Nat.add_0_r.
Qed.
Lemma flat_map_flat_map : forall {A B C} (f : A -> list B) (g : B -> list C) l, flat_map g (flat_map f l) = flat_map (fun x => flat_map g (f x)) l.
Proof. induction l as [|x l IH]; cbn; [reflexivity|]. now rewrite flat_map_app, IH. Qed.
Lemma flat_map_ext_in : forall {A B} (f g : A -> list B) l, (forall x, In x l -> f x = g x) -> flat_map f l = flat_map g l.
Proof. induction l as [|x l IH]; intro H; [reflexivity|]. cbn. rewrite (H x (or_introl eq_refl)), IH; [reflexivity|]. intros y Hy. apply H. now right. Qed.
Lemma flat_map_if : forall {A B} (f : A -> bool) (g : A -> B) l, flat_map (fun x => if f x then [g x] else []) l = map g (filter f l).
Proof. induction l as [|x l IH]; [reflexivity|]. cbn. rewrite IH. destruct (f x); reflexivity. Qed.
Lemma flat_map_nil : forall {A B} (l : list A), flat_map (fun _ => @nil B) l = [].
Proof. induction l; [reflexivity | assumption]. Qed.

Section Doc.
Variables (e : exporter) (n : novel).

Lemma no_heading : forall bef ch l, flat_map (fun b => match b with BHeading ch k => [(ch, k)] | _ => [] end) (flat_map (scene_blocks n bef ch) l) = [].
Proof.
  intros bef ch l. rewrite flat_map_flat_map. erewrite flat_map_ext_in; [apply flat_map_nil|]. intros [earlier i] _. unfold scene_blocks.
  destruct (match earlier with [] => true | _ => false end || appended n i); reflexivity.
Qed.
Lemma headings_document : headings (document e n) = map (fun x => (snd x, chapter_number e n (fst x) (snd x))) (filter (fun x => has_heading e n (snd x)) (with_before (accepted_chapters e n))).
Proof.
  unfold headings, document. rewrite flat_map_flat_map. rewrite <- flat_map_if. apply flat_map_ext_in. intros [bef ch] _. cbn [fst snd].
  unfold chapter_blocks. rewrite !flat_map_app, no_heading. destruct (has_heading e n ch); destruct (truthy (ending e (chapter_kind n ch))); reflexivity.
Qed.
Lemma filter_map_snd : forall (f : str -> bool) (l : list (list str * str)), map snd (filter (fun x => f (snd x)) l) = filter f (map snd l).
Proof. induction l as [|[a x] l IH]; [reflexivity|]. cbn. destruct (f x); cbn; now rewrite IH. Qed.
Theorem heading_chapters : map fst (headings (document e n)) = filter (has_heading e n) (accepted_chapters e n).
Proof. rewrite headings_document, map_map. cbn [fst]. rewrite filter_map_snd. unfold with_before. now rewrite snd_with_before. Qed.

Lemma filter_filter_imp : forall {A} (f g : A -> bool) l, (forall x, f x = true -> g x = true) -> filter f (filter g l) = filter f l.
Proof.
  induction l as [|x l IH]; intro H; [reflexivity|]. cbn. destruct (g x) eqn:E; cbn; [now rewrite IH|].
  destruct (f x) eqn:F; [rewrite (H x F) in E; discriminate | now apply IH].
Qed.
Lemma filter_map_comm : forall {A B} (f : B -> bool) (g : A -> B) l, filter f (map g l) = map g (filter (fun x => f (g x)) l).
Proof. induction l as [|x l IH]; [reflexivity|]. cbn. destruct (f (g x)); cbn; now rewrite IH. Qed.
Theorem heading_numbers : map snd (filter (fun x => numbered_chapter e n (fst x)) (headings (document e n))) = seq 1 (length (filter (numbered_chapter e n) (accepted_chapters e n))).
Proof.
  rewrite headings_document, filter_map_comm. cbn [fst]. rewrite map_map. cbn [snd].
  rewrite (filter_filter_imp (fun x : list str * str => numbered_chapter e n (snd x)) (fun x => has_heading e n (snd x))).
  2:{ intros x H. unfold has_heading. now rewrite H. }
  pose proof (counting (numbered_chapter e n) (accepted_chapters e n) []) as C. cbn [filter length] in C. rewrite <- C. unfold with_before. apply map_ext_in.
  intros [bef ch] Hi. apply filter_In in Hi as [_ Hi]. cbn [fst snd] in Hi |- *. unfold chapter_number. now rewrite Hi.
Qed.
Theorem heading_unnumbered : forall ch k, In (ch, k) (headings (document e n)) -> numbered_chapter e n ch = false -> k = 0.
Proof.
  intros ch k H Hn. rewrite headings_document in H. apply in_map_iff in H as [[bef c] [E _]]. cbn [fst snd] in E. injection E as -> <-.
  unfold chapter_number. now rewrite Hn.
Qed.

Lemma scenes_of_chapter : forall bef ch, scenes (flat_map (scene_blocks n bef ch) (with_before (shown_scenes e n ch)))
  = map (fun x => (ch, snd x, if numbered_scene n (ch, snd x) then length (filter (numbered_scene n) (bef ++ map (pair ch) (fst x ++ [snd x]))) else 0)) (with_before (shown_scenes e n ch)).
Proof.
  intros bef ch. unfold scenes. rewrite flat_map_flat_map. induction (with_before (shown_scenes e n ch)) as [|[a i] l IH]; [reflexivity|].
  cbn [flat_map map fst snd]. rewrite IH. unfold scene_blocks. destruct (match a with [] => true | _ => false end || appended n i); reflexivity.
Qed.
Lemma with_before_app : forall {A} (a b bef : list A), with_before_from bef (a ++ b) = with_before_from bef a ++ with_before_from (bef ++ a) b.
Proof.
  induction a as [|x a IH]; intros b bef; cbn; [now rewrite app_nil_r|]. rewrite IH, <- app_assoc. reflexivity.
Qed.
Lemma with_before_map : forall {A B} (g : A -> B) (l bef : list A) (pre : list B),
  with_before_from (pre ++ map g bef) (map g l) = map (fun x => (pre ++ map g (fst x), g (snd x))) (with_before_from bef l).
Proof.
  induction l as [|x l IH]; intros bef pre; [reflexivity|]. cbn. rewrite <- app_assoc. specialize (IH (bef ++ [x]) pre). rewrite map_app in IH. cbn in IH. now rewrite IH.
Qed.
Definition scene_number (x : list (str * str) * (str * str)) : str * str * nat :=
  (snd x, if numbered_scene n (snd x) then length (filter (numbered_scene n) (fst x ++ [snd x])) else 0).
Lemma scenes_document : scenes (document e n) = map scene_number (with_before (scenes_in e n (accepted_chapters e n))).
Proof.
  unfold document, with_before.
  enough (G : forall l bef, scenes (flat_map (chapter_blocks e n) (with_before_from bef l)) = map scene_number (with_before_from (scenes_in e n bef) (scenes_in e n l))) by apply G.
  induction l as [|ch l IH]; intro bef; [reflexivity|]. cbn [with_before_from flat_map]. unfold scenes. rewrite flat_map_app. fold (scenes (flat_map (chapter_blocks e n) (with_before_from (bef ++ [ch]) l))).
  rewrite IH. change (scenes_in e n (ch :: l)) with (map (pair ch) (shown_scenes e n ch) ++ scenes_in e n l).
  rewrite with_before_app, map_app, <- scenes_in_app. f_equal.
  unfold chapter_blocks. rewrite !flat_map_app. fold (scenes (flat_map (scene_blocks n (scenes_in e n bef) ch) (with_before (shown_scenes e n ch)))). rewrite scenes_of_chapter.
  assert (E1 : flat_map (fun b => match b with BScene c i _ k _ _ => [(c, i, k)] | _ => [] end) (if has_heading e n ch then [BHeading ch (chapter_number e n bef ch)] else []) = []) by (destruct (has_heading e n ch); reflexivity).
  assert (E2 : flat_map (fun b => match b with BScene c i _ k _ _ => [(c, i, k)] | _ => [] end) (if truthy (ending e (chapter_kind n ch)) then [BEnding ch (chapter_number e n bef ch)] else []) = []) by (destruct (truthy (ending e (chapter_kind n ch))); reflexivity).
  rewrite E1, E2, app_nil_r. cbn [app].
  pose proof (with_before_map (pair ch) (shown_scenes e n ch) [] (scenes_in e n bef)) as W. cbn [map] in W. rewrite app_nil_r in W. rewrite W, map_map.
  unfold with_before. apply map_ext. intros [a i]. unfold scene_number. cbn [fst snd]. rewrite <- app_assoc, map_app. reflexivity.
Qed.
Theorem scene_order : map fst (scenes (document e n)) = scenes_in e n (accepted_chapters e n).
Proof. rewrite scenes_document, map_map. unfold scene_number. cbn [fst]. unfold with_before. apply snd_with_before. Qed.
Theorem scene_numbers : map snd (filter (fun x => numbered_scene n (fst x)) (scenes (document e n))) = seq 1 (length (filter (numbered_scene n) (scenes_in e n (accepted_chapters e n)))).
Proof.
  rewrite scenes_document, filter_map_comm. unfold scene_number at 1. cbn [fst]. rewrite map_map.
  pose proof (counting (numbered_scene n) (scenes_in e n (accepted_chapters e n)) []) as C. cbn [filter length] in C. rewrite <- C. unfold with_before. apply map_ext_in.
  intros [bef x] Hi. apply filter_In in Hi as [_ Hi]. unfold scene_number. cbn [fst snd] in Hi |- *. now rewrite Hi.
Qed.
Theorem scene_unnumbered : forall x k, In (x, k) (scenes (document e n)) -> numbered_scene n x = false -> k = 0.
Proof.
  intros x k H Hn. rewrite scenes_document in H. apply in_map_iff in H as [[bef c] [E _]]. unfold scene_number in E. cbn [fst snd] in E. injection E as -> <-. now rewrite Hn.
Qed.

(** nothing but what the templates support *)
Theorem normal_only_scenes : normal_only e -> forall ch i k, In (ch, i, k) (scenes (document e n)) ->
  In ch (nv_srtChapters n) /\ In i (ch_srtScenes (chapter_of n ch)) /\ scene_kind n ch i = Normal /\ raw_code (scene_of n i) = false.
Proof.
  intros [_ [_ [_ [_ [_ [_ [E1 [E2 [E3 [E4 _]]]]]]]]]] ch i k H.
  assert (G : In (ch, i) (scenes_in e n (accepted_chapters e n))) by (rewrite <- scene_order; apply in_map_iff; exists (ch, i, k); auto).
  unfold scenes_in in G. apply in_flat_map in G as [c [Hc G]]. apply in_map_iff in G as [j [E G]]. injection E as -> ->.
  unfold accepted_chapters in Hc. apply filter_In in Hc as [Hc _]. unfold shown_scenes in G. apply filter_In in G as [G1 G2].
  split; [exact Hc|]. split; [exact G1|]. unfold shown_scene in G2. apply andb_true_iff in G2 as [_ G2].
  rewrite E1, E2, E3, E4 in G2. unfold scene_kind in *. destruct (sc_type (scene_of n i)) as [[|[[p|p|]|[p|p|]|]]|]; try discriminate;
    destruct (ch_type (chapter_of n ch)) as [[|[[q|q|]|[q|q|]|]]|]; try discriminate;
    destruct (hidden_scene n i || hidden_chapter n (chapter_of n ch)); try discriminate; (split; [reflexivity | now apply negb_true_iff]).
Qed.
Theorem normal_only_chapters : normal_only e -> forall ch k, In (ch, k) (headings (document e n)) ->
  In ch (nv_srtChapters n) /\ (chapter_kind n ch = Normal \/ chapter_kind n ch = Part).
Proof.
  intros [E1 [E2 [E3 [E4 [E5 [E6 _]]]]]] ch k H.
  assert (G : In ch (filter (has_heading e n) (accepted_chapters e n))) by (rewrite <- heading_chapters; apply in_map_iff; exists (ch, k); auto).
  apply filter_In in G as [G1 G2]. unfold accepted_chapters in G1. apply filter_In in G1 as [G1 _]. split; [exact G1|].
  unfold has_heading, numbered_chapter in G2. destruct (chapter_kind n ch); auto; cbn in G2; rewrite ?E1, ?E2, ?E3, ?E4, ?E5, ?E6 in G2; discriminate.
Qed.
End Doc.

(** * The mappings of the class never fail on a consistent novel *)
Lemma mapping_ok : forall l, Forall (fun x : str * res str => exists v, snd x = Ok v) l -> exists m, mapping l = Ok m.
Proof.
  induction 1 as [|[k v] l [x Hx] _ [m IH]]; cbn [mapping]; [now exists []|]. cbn [snd] in Hx. rewrite Hx. cbn. rewrite IH. cbn. now eexists.
Qed.
Lemma mapM_ok : forall {A B} (f : A -> res B) l, (forall x, In x l -> exists y, f x = Ok y) -> exists r, mapM f l = Ok r.
Proof.
  induction l as [|x l IH]; intro H; [now exists []|]. destruct (H x (or_introl eq_refl)) as [y Hy]. destruct IH as [r Hr]; [intros z Hz; apply H; now right|].
  cbn. rewrite Hy. cbn. rewrite Hr. now eexists.
Qed.

Lemma fill_ok : forall t m, (exists d, m = Ok d) -> exists r, fill t m = Ok r.
Proof. intros t m [d ->]. now eexists. Qed.
Lemma get_elements_ok : forall h t acc m ids, (forall i, In i ids -> exists d, m i = Ok d) -> exists l, get_elements h t acc m ids = Ok l.
Proof.
  intros h t acc m ids H. unfold get_elements. destruct (mapM_ok (fun i => fill t (m i)) (filter acc ids)) as [r Hr].
  { intros i Hi. apply filter_In in Hi as [Hi _]. apply fill_ok, H, Hi. }
  rewrite Hr. now eexists.
Qed.
Lemma scene_places_ok : forall d ids, orefs_exist d ids -> exists t, scene_places d ids = Ok t.
Proof.
  intros d [ids|] H; [|now exists []]. unfold scene_places. destruct (mapM_ok (fun i => do w <- dindex i d; Ok (we_title w)) ids) as [r Hr].
  { intros i Hi. destruct (H i Hi) as [w Hw]. unfold dindex. rewrite Hw. now eexists. }
  rewrite Hr. now eexists.
Qed.
Lemma status_ok : forall z, (0 <= z <= 5)%Z -> exists t, status_text (Some z) = Ok t.
Proof.
  intros z H. assert (z = 0 \/ z = 1 \/ z = 2 \/ z = 3 \/ z = 4 \/ z = 5)%Z as [->|[->|[->|[->|[->| ->]]]]] by lia; now eexists.
Qed.

Section Total.
Variables (e : exporter) (conv : option str -> bool -> res str) (pn pp : option str) (n : novel).
Hypothesis S : standard e conv pn pp.
Hypothesis C : complete n.

Ltac all_ok := repeat (apply Forall_cons || apply Forall_nil); cbn [snd]; first [now eexists | apply (proj1 S) | idtac].
Lemma chapterMapping_ok : forall ch k, In ch (nv_srtChapters n) -> exists m, m_chapter e n ch k = Ok m.
Proof.
  intros ch k H. pose proof S as [Sc [_ [-> _]]]. destruct (cn_listed n C ch H) as [c [Hc _]]. unfold chapterMapping, dindex. rewrite Hc. cbn [bind]. apply mapping_ok.
  all_ok.
Qed.
Lemma sceneMapping_ok : forall ch i k w l, In ch (nv_srtChapters n) -> In i (ch_srtScenes (chapter_of n ch)) -> exists m, m_scene e n i k w l = Ok m.
Proof.
  intros ch i k w l H Hi. pose proof S as [Sc [_ [_ [-> _]]]]. destruct (cn_listed n C ch H) as [c [Hc Hs]]. unfold chapter_of in Hi. rewrite Hc in Hi.
  destruct (Hs i Hi) as [x Hx]. destruct (cn_scenes n C i x Hx) as [Hl [Ht [z [Hz Hr]]]]. unfold sceneMapping, dindex. rewrite Hx. cbn [bind].
  destruct (scene_places_ok _ _ Hl) as [t1 ->]. cbn [bind]. destruct (scene_places_ok _ _ Ht) as [t2 ->]. cbn [bind]. apply mapping_ok.
  rewrite Hz. destruct (status_ok z Hr) as [t3 H3]. all_ok. now exists t3.
Qed.
Lemma document_blocks : forall b, In b (document e n) ->
  match b with BHeading ch _ | BEnding ch _ => In ch (nv_srtChapters n) | BScene ch i _ _ _ _ => In ch (nv_srtChapters n) /\ In i (ch_srtScenes (chapter_of n ch)) | BDivider => True end.
Proof.
  intros b H. unfold document in H. apply in_flat_map in H as [[bef ch] [H1 H2]].
  assert (Hc : In ch (nv_srtChapters n)).
  { assert (In ch (accepted_chapters e n)) by (unfold with_before in H1; rewrite <- (snd_with_before (accepted_chapters e n) []); apply in_map_iff; now exists (bef, ch)).
    unfold accepted_chapters in H. now apply filter_In in H as [H _]. }
  unfold chapter_blocks in H2. apply in_app_iff in H2 as [H2|H2]; [|apply in_app_iff in H2 as [H2|H2]].
  - destruct (has_heading e n ch); [|destruct H2]. destruct H2 as [<-|[]]. exact Hc.
  - apply in_flat_map in H2 as [[a i] [H3 H4]]. unfold scene_blocks in H4.
    assert (Hi : In i (shown_scenes e n ch)) by (unfold with_before in H3; rewrite <- (snd_with_before (shown_scenes e n ch) []); apply in_map_iff; now exists (a, i)).
    unfold shown_scenes in Hi. apply filter_In in Hi as [Hi _]. apply in_app_iff in H4 as [H4|H4].
    + destruct (match a with [] => true | _ => false end || appended n i); [destruct H4|]. destruct H4 as [<-|[]]. exact I.
    + destruct H4 as [<-|[]]. split; assumption.
  - destruct (truthy (ending e (chapter_kind n ch))); [|destruct H2]. destruct H2 as [<-|[]]. exact Hc.
Qed.
Theorem export_total : exists t, get_text e n = Ok t.
Proof.
  pose proof S as [Sc [Sh [_ [_ [Sp [Sl [Si So]]]]]]]. unfold get_text.
  assert (H1 : exists r, get_fileHeader e n = Ok r).
  { apply fill_ok. rewrite Sh. apply mapping_ok. all_ok. }
  destruct H1 as [h ->]. cbn [bind]. rewrite (chapters_document e n (cn_listed n C)).
  destruct (mapM_ok (block_text e n) (document e n)) as [c Hc].
  { intros b Hb. apply document_blocks in Hb. destruct b; cbn [block_text].
    - apply fill_ok, chapterMapping_ok, Hb.
    - now eexists.
    - destruct Hb. apply fill_ok. now apply (sceneMapping_ok ch).
    - apply fill_ok, chapterMapping_ok, Hb. }
  rewrite Hc. cbn [bind].
  destruct (get_elements_ok (t_characterHeading e) (t_character e) (f_character e) (m_character e n) (nv_srtCharacters n)) as [p Hp].
  { intros i Hi. rewrite Sp. destruct (cn_characters n C i Hi) as [x Hx]. unfold characterMapping, dindex. rewrite Hx. cbn [bind]. apply mapping_ok. all_ok. }
  unfold get_characters. rewrite Hp. cbn [bind].
  destruct (get_elements_ok (t_locationHeading e) (t_location e) (f_location e) (m_location e n) (nv_srtLocations n)) as [l Hl].
  { intros i Hi. rewrite Sl. destruct (cn_locations n C i Hi) as [x Hx]. unfold worldMapping, dindex. rewrite Hx. cbn [bind]. apply mapping_ok. all_ok. }
  unfold get_locations. rewrite Hl. cbn [bind].
  destruct (get_elements_ok (t_itemHeading e) (t_item e) (f_item e) (m_item e n) (nv_srtItems n)) as [it Hit].
  { intros i Hi. rewrite Si. destruct (cn_items n C i Hi) as [x Hx]. unfold worldMapping, dindex. rewrite Hx. cbn [bind]. apply mapping_ok. all_ok. }
  unfold get_items. rewrite Hit. cbn [bind].
  destruct (mapM_ok (fun i => fill (t_projectNote e) (m_projectNote e n i)) (nv_srtPrjNotes n)) as [o Ho].
  { intros i Hi. apply fill_ok. rewrite So. destruct (cn_notes n C i Hi) as [x Hx]. unfold prjNoteMapping, dindex. rewrite Hx. cbn [bind]. apply mapping_ok. all_ok. }
  unfold get_projectNotes. rewrite Ho. cbn [bind]. now eexists.
Qed.
End Total.
