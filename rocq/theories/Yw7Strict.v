(** The trees built for a representable novel contain no entity references in the elements which are kept when the
    project is saved again (everything except locations, items and characters), so that the tree of a reopened
    project can be saved again. *)
From Coq Require Import String List NArith ZArith Bool Lia Arith.
From Verif Require Import PyStr PyDict Spec Globals GlobalsProofs NovelModel NovelOps NovelOpsProofs YwTree IsoDate Yw7Build Yw7Read YwTreeProofs Yw7SceneProofs
  Yw7StartProofs Yw7SceneRT Yw7ChapterRT Yw7ElemRT Yw7ListRT Yw7TreeInv Yw7ProjRT Yw7SecRT Yw7TreeRT YwText YwTextProofs SpecYw7 Yw7Clean Yw7Clean2.
Import ListNotations.

Definition amp_ok (t : str) (x : option str) : Prop := match x with None => True | Some v => cd t = true \/ ~ In 38%N v end.
Inductive strict : elem -> Prop := Strict : forall t x k, amp_ok t x -> Forall strict k -> strict (Elem t x k).
Lemma amp_long : forall t x, cd t = true -> amp_ok t x.
Proof. intros t [v|] H; [left; exact H | exact I]. Qed.
Lemma amp_line : forall t v, cd t = true -> amp_ok t (Some v).
Proof. intros t v H. left. exact H. Qed.
Lemma amp_safe : forall t v, safe v -> amp_ok t (Some v).
Proof. intros t v H. right. destruct (safe_plain v H) as (_ & _ & H2 & _). exact H2. Qed.

(** ** Closure *)
Notation ks := (Forall strict).

Lemma ks_app : forall a b, ks a -> ks b -> ks (a ++ b).
Proof. intros. apply Forall_app. split; assumption. Qed.
Lemma ks_leaf : forall t x, name_ok t = true -> amp_ok t x -> strict (leaf t x).
Proof. intros. constructor; [assumption | constructor]. Qed.
Lemma ks_sub : forall t x k, name_ok t = true -> amp_ok t x -> ks k -> ks (sub t x k).
Proof. intros. apply ks_app; [assumption | constructor; [apply ks_leaf; assumption | constructor]]. Qed.
Lemma ks_upd : forall t f k, (forall e, In e k -> e_tag e = t -> strict e -> strict (f e)) -> ks k -> ks (upd t f k).
Proof.
  intros t f k Hf H. induction H as [|e k He H IH]; [constructor|]. cbn [upd]. destruct (str_eqb (e_tag e) t) eqn:E.
  - constructor; [apply Hf; [left; reflexivity | apply str_eqb_eq; exact E | exact He] | exact H].
  - constructor; [exact He | apply IH; intros; apply Hf; [right|..]; assumption].
Qed.
Lemma strict_text : forall t x e, e_tag e = t -> amp_ok t x -> strict e -> strict (with_text x e).
Proof. intros t x e <- Hx H. inversion H; subst. constructor; assumption. Qed.
Lemma strict_kids : forall e, strict e -> ks (e_kids e).
Proof. intros e H. inversion H. assumption. Qed.
Lemma strict_with_kids : forall t k e, e_tag e = t -> cd t = false -> ks k -> strict e -> strict (with_kids k e).
Proof. intros t k e <- Hc Hk H. inversion H; subst. constructor; assumption. Qed.
Lemma strict_on_kids : forall t f e, e_tag e = t -> cd t = false -> (ks (e_kids e) -> ks (f (e_kids e))) -> strict e -> strict (on_kids f e).
Proof. intros t f e Ht Hc Hf H. apply (strict_with_kids t); [assumption | assumption | apply Hf; apply strict_kids; exact H | exact H]. Qed.
Lemma ks_set_text : forall t x k, amp_ok t x -> ks k -> ks (set_text t x k).
Proof. intros. apply ks_upd; [|assumption]. intros e _ Ht He. apply (strict_text t); assumption. Qed.
Lemma ks_remove : forall t k, ks k -> ks (remove t k).
Proof. intros t k H. induction H as [|e k He H IH]; [constructor|]. cbn [remove]. destruct (str_eqb (e_tag e) t); [exact H | constructor; assumption]. Qed.
Lemma ks_put : forall t x k, name_ok t = true -> amp_ok t x -> ks k -> ks (put t x k).
Proof. intros. unfold put. destruct (has t k); [apply ks_set_text | apply ks_sub]; assumption. Qed.
Lemma ks_put_opt : forall t x k, name_ok t = true -> amp_ok t x -> ks k -> ks (put_opt t x k).
Proof.
  intros t [v|] k Hn Hx H; [|exact H]. cbn [put_opt]. destruct (has t k); [apply ks_set_text; assumption|]. destruct (truthy v); [apply ks_sub; assumption | exact H].
Qed.
Lemma ks_put_some : forall t x k, name_ok t = true -> amp_ok t x -> ks k -> ks (put_some t x k).
Proof. intros t [v|] k Hn Hx H; [apply ks_put; assumption | exact H]. Qed.
Lemma ks_sub_opt : forall t x k, name_ok t = true -> amp_ok t x -> ks k -> ks (sub_opt t x k).
Proof. intros t [v|] k Hn Hx H; [apply ks_sub; assumption | exact H]. Qed.
Lemma ks_put_flag : forall t b k, name_ok t = true -> ks k -> ks (put_flag t b k).
Proof.
  intros t b k Hn H. unfold put_flag. destruct b; [|apply ks_remove; exact H]. destruct (has t k); [exact H|]. apply ks_sub; [exact Hn | apply amp_safe; exact safe_m1 | exact H].
Qed.
Lemma ks_insert : forall i e k, strict e -> ks k -> ks (insert_at i e k).
Proof.
  intros i e k He H. unfold insert_at. rewrite <- (firstn_skipn i k) in H. apply Forall_app in H. destruct H as [H1 H2]. apply ks_app; [exact H1 | constructor; assumption].
Qed.
Lemma ks_set_element : forall t x k i, name_ok t = true -> amp_ok t x -> ks k -> ks (fst (set_element t x (k, i))).
Proof.
  intros t x k i Hn Hx H. unfold set_element. destruct (has t k), x; cbn [fst]; try exact H; [apply ks_set_text; assumption|]. apply ks_insert; [apply ks_leaf; assumption | exact H].
Qed.
Lemma ks_sub_new : forall t x k, name_ok t = true -> amp_ok t x -> ks k -> ks (sub_new t x k).
Proof. intros. unfold sub_new. destruct (has t k); [assumption | apply ks_sub; assumption]. Qed.
Lemma ks_filter : forall f k, ks k -> ks (filter f k).
Proof. intros f k H. apply Forall_forall. intros e He. apply filter_In in He. rewrite Forall_forall in H. apply H. apply He. Qed.

Definition tags_amp (tags : option (list str)) : Prop := amp_ok (s "Tags") (tags_text tags).
Lemma ks_put_tags : forall x k, tags_amp x -> ks k -> ks (put_tags x k).
Proof.
  intros [l|] k Hx H; [|exact H]. unfold tags_amp in Hx. cbn [tags_text option_map] in Hx. unfold put_tags. rewrite list_to_string_some.
  destruct (has (s "Tags") k); [apply ks_set_text; assumption|]. destruct l; [exact H | apply ks_sub; [reflexivity | exact Hx | exact H]].
Qed.
Lemma ks_sub_tags : forall x k, tags_amp x -> ks k -> ks (sub_tags x k).
Proof. intros [l|] k Hx H; [|exact H]. apply ks_sub; [reflexivity | exact Hx | exact H]. Qed.

Definition ids_amp (ids : list str) : Prop := forall i, In i ids -> ~ In 38%N i.
Lemma ks_build_refs : forall t idt ids k, name_ok t = true -> name_ok idt = true -> cd t = false -> cd idt = false ->
  (forall l, ids = Some l -> ids_amp l) -> ks k -> ks (build_refs t idt ids k).
Proof.
  intros t idt ids k H1 H2 H3 H4 H5 H. unfold build_refs. apply (ks_remove t) in H. destruct ids as [[|i l]|]; try exact H.
  apply ks_app; [exact H|]. constructor; [|constructor]. constructor; [exact I|].
  apply Forall_forall. intros e He. apply in_map_iff in He. destruct He as (j & <- & Hj). apply ks_leaf; [exact H2|]. right. apply (H5 _ eq_refl). exact Hj.
Qed.

Lemma ks_fields : forall f k, (forall l, ks l -> ks (f l)) -> ks k -> ks (upd (s "Fields") (on_kids f) k).
Proof. intros f k Hf H. apply ks_upd; [|exact H]. intros e _ Ht He. apply (strict_on_kids (s "Fields")); [exact Ht | reflexivity | apply Hf | exact He]. Qed.

Definition kw_amp (f : str) (kw : dict (option str)) : Prop :=
  match get_kw f kw with Some ((_ :: _) as v) => amp_ok f (Some (convert_from_yw v)) | _ => True end.
Lemma ks_put_kws : forall mk names kw k, (forall l, ks l -> ks (mk l)) -> (forall f, In f names -> name_ok f = true /\ kw_amp f kw) -> ks k -> ks (put_kws mk names kw k).
Proof.
  intros mk names kw k Hmk. unfold put_kws. revert k. induction names as [|f names IH]; intros k Hn H; [exact H|]. cbn [fold_left]. apply IH; [intros g Hg; apply Hn; right; exact Hg|].
  destruct (Hn f (or_introl eq_refl)) as [Hf Hk]. unfold put_kw, kw_amp in *. destruct (get_kw f kw) as [[|c v]|].
  - apply ks_fields; [|exact H]. intros l Hl. apply ks_remove. exact Hl.
  - apply ks_fields; [intros l Hl; apply ks_put; assumption|]. destruct (has (s "Fields") k); [exact H | apply Hmk; exact H].
  - apply ks_fields; [|exact H]. intros l Hl. apply ks_remove. exact Hl.
Qed.
Lemma ks_mk_fields : forall k, ks k -> ks (mk_fields k).
Proof. intros k H. apply ks_sub; [reflexivity | exact I | exact H]. Qed.

Ltac kss := repeat first
  [ assumption
  | apply ks_remove | apply ks_put_flag; [reflexivity|] | apply ks_put_tags; [eassumption|] | apply ks_sub_tags; [eassumption|]
  | apply ks_put_opt; [reflexivity | eassumption |] | apply ks_put_some; [reflexivity | eassumption |] | apply ks_sub_opt; [reflexivity | eassumption |]
  | apply ks_set_element; [reflexivity | eassumption |] | apply ks_sub_new; [reflexivity | eassumption |] | apply ks_put; [reflexivity | eassumption |]
  | apply ks_sub; [reflexivity | eassumption |] ].

(** ** Scenes *)
Record scene_amp (x : scene) : Prop := {
  te_title : amp_ok (s "Title") (sc_title x);
  te_desc : amp_ok (s "Desc") (sc_desc x);
  te_content : amp_ok (s "SceneContent") (sc_content x);
  te_notes : amp_ok (s "Notes") (sc_notes x);
  te_tags : tags_amp (sc_tags x);
  te_field1 : amp_ok (s "Field1") (sc_field1 x);
  te_field2 : amp_ok (s "Field2") (sc_field2 x);
  te_field3 : amp_ok (s "Field3") (sc_field3 x);
  te_field4 : amp_ok (s "Field4") (sc_field4 x);
  te_days : amp_ok (s "LastsDays") (sc_lastsDays x);
  te_hours : amp_ok (s "LastsHours") (sc_lastsHours x);
  te_minutes : amp_ok (s "LastsMinutes") (sc_lastsMinutes x);
  te_goal : amp_ok (s "Goal") (sc_goal x);
  te_conflict : amp_ok (s "Conflict") (sc_conflict x);
  te_outcome : amp_ok (s "Outcome") (sc_outcome x);
  te_image : amp_ok (s "ImageFile") (sc_image x);
  te_arcs : kw_amp (s "Field_SceneArcs") (sc_kw x);
  te_mode : kw_amp (s "Field_SceneMode") (sc_kw x);
  te_start : start_ok (sc_date x) (sc_time x) (sc_day x);
  te_chars : ids_amp (refs_in (sc_characters x));
  te_locs : ids_amp (refs_in (sc_locations x));
  te_items : ids_amp (refs_in (sc_items x))
}.


Lemma ks_remove_date : forall k, ks k -> ks (remove_date_time k).
Proof. intros. unfold remove_date_time. kss. Qed.

Lemma amp_pieces : forall t h m x, amp_ok t (Some (h ++ m)) -> safe x -> amp_ok t (Some x).
Proof. intros. apply amp_safe. assumption. Qed.

Lemma ks_start : forall date time day k k1, start_ok date time day -> ks k -> build_scene_start date time day k = Ok k1 -> ks k1.
Proof.
  intros date time day k k1 Hs H Hb. unfold build_scene_start in Hb. destruct date as [d|], time as [t|]; cbn in Hs.
  - destruct day; [destruct Hs|]. destruct (str_eqb (d ++ s " " ++ t) (s " ")) eqn:E; [injection Hb as <-; apply ks_remove_date; exact H|].
    destruct Hs as [[Hd Ht] | [-> ->]]; [|discriminate E].
    assert (Hdt : safe (d ++ s " " ++ t)).
    { apply safe_app; [apply valid_date_safe; exact Hd|]. rewrite forallb_app. destruct (valid_time_safe t Ht) as [_ ->]. reflexivity. }
    destruct (has (s "SpecificDateTime") k).
    + injection Hb as <-. apply ks_set_text; [|exact H]. apply amp_safe. destruct (Nat.ltb _ 2); [|exact Hdt]. apply safe_app; [exact Hdt | reflexivity].
    + injection Hb as <-. apply ks_remove, ks_remove, ks_remove. apply ks_sub; [reflexivity | apply amp_safe; exact safe_m1|]. apply ks_sub; [reflexivity | apply amp_safe; exact Hdt | exact H].
  - destruct Hs.
  - assert (Hc : clock t) by (destruct day; [apply Hs | exact Hs]).
    assert (Hd : forall y, day = Some y -> safe y) by (intros y ->; apply Hs).
    assert (Hk : ks (match day with None => remove (s "SpecificDateMode") (remove (s "SpecificDateTime") k) | Some _ => put (s "Day") day (remove (s "SpecificDateMode") (remove (s "SpecificDateTime") k)) end)).
    { destruct day as [y|]; [|kss]. apply ks_put; [reflexivity | apply amp_safe; apply Hd; reflexivity | kss]. }
    revert Hb. destruct Hc as (h & m & -> & Lh & Lm & Dh & Dm).
    assert (Sp : split (s ":") (h ++ s ":" ++ m ++ s ":00") = [h; m; s "00"]).
    { exact (clock_split h m Dh Dm). }
    assert (Sh : safe h) by (split; [destruct h; discriminate | apply digits_safe; exact Dh]). assert (Sm : safe m) by (split; [destruct m; discriminate | apply digits_safe; exact Dm]).
    destruct day as [y|]; intro Hb; (match type of Hb with (if ?b then _ else _) = _ => replace b with false in Hb by (symmetry; destruct h; rewrite ?andb_false_r; reflexivity) end); cbv zeta in Hb; rewrite Sp in Hb; injection Hb as <-; (apply ks_put; [reflexivity | apply amp_safe; exact Sm|]; apply ks_put; [reflexivity | apply amp_safe; exact Sh | exact Hk]).
  - destruct day as [y|]; [|injection Hb as <-; exact H]. destruct (negb (otruthy (Some y)) && negb (otruthy None)); injection Hb as <-; [apply ks_remove_date; exact H|].
    apply ks_put; [reflexivity | apply amp_safe; apply Hs | kss].
Qed.

Theorem ks_build_scene : forall x k k1, scene_amp x -> ks k -> build_scene x k = Ok k1 -> ks k1.
Proof.
  intros x k k1 [] H Hb. unfold build_scene in Hb.
  assert (Hn : forall n, amp_ok (s "WordCount") (Some (str_of_N n)) /\ amp_ok (s "LetterCount") (Some (str_of_N n))) by (intro n; split; apply amp_safe; apply str_of_N_safe).
  apply bind_ok in Hb. destruct Hb as (p & Hp & Hb). apply bind_ok in Hb. destruct Hb as (k2 & Hk & Hb). injection Hb as <-.
  apply ks_start in Hk; [|assumption|].
  - apply ks_build_refs; [reflexivity | reflexivity | reflexivity | reflexivity | intros l E; rewrite E in te_items0; exact te_items0|].
    apply ks_build_refs; [reflexivity | reflexivity | reflexivity | reflexivity | intros l E; rewrite E in te_locs0; exact te_locs0|].
    apply ks_build_refs; [reflexivity | reflexivity | reflexivity | reflexivity | intros l E; rewrite E in te_chars0; exact te_chars0|]. kss.
  - assert (Hst : amp_ok (s "Status") (option_map str_of_Z (sc_status x))) by (destruct (sc_status x); [apply amp_safe; apply str_of_Z_safe | exact I]).
    kss. apply ks_put_kws; [apply ks_mk_fields | |].
    + intros f [<- | [<- | []]]; split; try reflexivity; assumption.
    + assert (Hty : forall l, ks l -> ks (build_scene_type (fst p) (snd p) l)).
      { intros l Hl. unfold build_scene_type. assert (Hy : amp_ok (s "Field_SceneType") (snd p)).
        { clear -Hp. unfold scene_type_code in Hp. destruct (N.eqb _ 0); [injection Hp as <-; exact I|]. destruct (N.eqb _ 1); [injection Hp as <-; apply amp_safe; split; [discriminate | reflexivity]|].
          destruct (N.eqb _ 2); [injection Hp as <-; apply amp_safe; split; [discriminate | reflexivity]|]. destruct (N.eqb _ 3); [injection Hp as <-; apply amp_safe; split; [discriminate | reflexivity] | discriminate]. }
        assert (Hl2 : ks (put_flag (s "Unused") (fst p) l)) by (apply ks_put_flag; [reflexivity | exact Hl]).
        destruct (snd p) as [y|]; [|apply ks_fields; [intros; apply ks_remove; assumption | exact Hl2]].
        destruct (has (s "Fields") (put_flag (s "Unused") (fst p) l)); [apply ks_fields; [intros; apply ks_put; [reflexivity | assumption | assumption] | exact Hl2]|].
        apply ks_app; [exact Hl2|]. constructor; [|constructor]. constructor; [exact I|]. constructor; [apply ks_leaf; [reflexivity | exact Hy] | constructor]. }
      assert (Hex : forall l, ks l -> ks (build_scene_export (sc_doNotExport x) l)).
      { intros l Hl. unfold build_scene_export. destruct (sc_doNotExport x) as [[|]|]; [| |exact Hl].
        - apply ks_remove. destruct (has (s "ExportCondSpecific") l); [exact Hl | apply ks_sub; [reflexivity | exact I | exact Hl]].
        - destruct (has (s "ExportCondSpecific") l && negb (has (s "ExportWhenRTF") l)); [apply ks_sub; [reflexivity | apply amp_safe; exact safe_m1 | exact Hl] | exact Hl]. }
      apply Hex, Hty. apply ks_sub_new; [reflexivity | apply Hn|]. apply ks_sub_new; [reflexivity | apply Hn|]. kss.
Qed.

(** ** Chapters *)
Record chapter_amp (c : chapter) : Prop := {
  ce_title : amp_ok (s "Title") (ch_title c);
  ce_desc : amp_ok (s "Desc") (ch_desc c);
  ce_scenes : ids_amp (ch_srtScenes c)
}.

Theorem ks_build_chapter : forall c k k1, chapter_amp c -> ks k -> build_chapter c k = Ok k1 -> ks k1.
Proof.
  intros c k k1 [] H Hb. unfold build_chapter in Hb. apply bind_ok in Hb. destruct Hb as ([unused [yT yC]] & Hp & Hb).
  assert (Hy : safe yT /\ safe yC).
  { clear -Hp. unfold chapter_type_code in Hp.
    repeat (destruct (N.eqb _ _); [injection Hp as <- <- <-; split; split; try discriminate; reflexivity|]). discriminate. }
  destruct Hy as [HyT HyC].
  destruct (set_element (s "Desc") (ch_desc c) (set_element (s "Title") (ch_title c) (k, 1))) as [k2 i2] eqn:E2.
  assert (K2 : ks k2).
  { assert (Q : k2 = fst (set_element (s "Desc") (ch_desc c) (set_element (s "Title") (ch_title c) (k, 1)))) by (rewrite E2; reflexivity). rewrite Q.
    destruct (set_element (s "Title") (ch_title c) (k, 1)) as [k3 i3] eqn:E3. apply ks_set_element; [reflexivity | assumption|].
    assert (Q3 : k3 = fst (set_element (s "Title") (ch_title c) (k, 1))) by (rewrite E3; reflexivity). rewrite Q3. apply ks_set_element; [reflexivity | assumption | exact H]. }
  assert (Fl : forall i l, ks l -> ks (insert_flag i (s "Unused") unused l)).
  { intros i l Hl. unfold insert_flag. destruct unused; [|apply ks_remove; exact Hl]. destruct (has (s "Unused") l); [exact Hl|]. apply ks_insert; [|exact Hl].
    apply ks_leaf; [reflexivity | apply amp_safe; exact safe_m1]. }
  assert (Mk : forall i l, ks l -> ks (insert_at i (Elem (s "Fields") None []) l)).
  { intros i l Hl. apply ks_insert; [|exact Hl]. constructor; [exact I | constructor]. }
  assert (S1 : safe (s "1")) by (split; [discriminate | reflexivity]). assert (S0 : safe (s "0")) by (split; [discriminate | reflexivity]).
  assert (Cf : forall i f b l, name_ok f = true -> ks l -> ks (put_chapter_field i f b l)).
  { intros i f b l Hf Hl. unfold put_chapter_field. destruct b.
    - apply ks_fields; [intros z Hz; apply ks_put; [exact Hf | apply amp_safe; exact S1 | exact Hz]|]. destruct (has (s "Fields") l); [exact Hl | apply Mk; exact Hl].
    - apply ks_fields; [|exact Hl]. intros z Hz. apply ks_set_text; [apply amp_safe; exact S0 | exact Hz]. }
  cbv zeta in Hb.
  match type of Hb with (let (k, i) := set_element _ _ (set_element _ _ (?kk, ?ii)) in _) = _ => set (K := kk) in *; set (I0 := ii) in * end.
  assert (HK : ks K).
  { unfold K. match goal with |- ks (put_section_start ?i _ ?l) => set (L := l); set (J := i) end.
    assert (HL : ks L).
    { unfold L. apply ks_put_kws; [intros l Hl; apply Mk; exact Hl | intros f [] |]. unfold put_trash.
      destruct (is_true (ch_isTrash c)); [apply Cf; [reflexivity|] | apply ks_fields; [intros; apply ks_remove; assumption|]]; (apply Cf; [reflexivity|]; apply Cf; [reflexivity|]; apply ks_remove; apply Fl; exact K2). }
    assert (HI : ks (insert_at J (leaf (s "SectionStart") (Some (s "-1"))) L)) by (apply ks_insert; [apply ks_leaf; [reflexivity | apply amp_safe; exact safe_m1] | exact HL]).
    unfold put_section_start. destruct (has (s "SectionStart") L).
    - destruct (ch_level c) as [[|p]|]; try exact HL. apply ks_remove. exact HL.
    - destruct (ch_level c) as [[|[p|p|]]|]; try exact HL. exact HI. }
  destruct (set_element (s "Type") (Some yT) (K, I0)) as [k4 i4] eqn:E4.
  destruct (set_element (s "ChapterType") (Some yC) (k4, i4)) as [k5 i5] eqn:E5. match type of Hb with (let (k, i) := ?u in _) = _ => change u with (set_element (s "ChapterType") (Some yC) (set_element (s "Type") (Some yT) (K, I0))) in Hb end. rewrite E4, E5 in Hb. injection Hb as <-.
  assert (Q4 : ks k4) by (replace k4 with (fst (set_element (s "Type") (Some yT) (K, I0))) by (rewrite E4; reflexivity); apply ks_set_element; [reflexivity | apply amp_safe; exact HyT | exact HK]).
  assert (Q5 : ks k5) by (replace k5 with (fst (set_element (s "ChapterType") (Some yC) (k4, i4))) by (rewrite E5; reflexivity); apply ks_set_element; [reflexivity | apply amp_safe; exact HyC | exact Q4]).
  apply (ks_build_refs (s "Scenes") (s "ScID") (Some (ch_srtScenes c)) k5); [reflexivity | reflexivity | reflexivity | reflexivity | | exact Q5]. intros l E. injection E as <-. assumption.
Qed.
Definition note_amp (x : note) : Prop := amp_ok (s "Title") (pn_title x) /\ amp_ok (s "Desc") (pn_desc x).
Lemma ks_build_note : forall x k, note_amp x -> ks k -> ks (build_note x k).
Proof. intros x k [H1 H2] H. unfold build_note. kss. Qed.


Record novel_amp (n : novel) : Prop := {
  nt_title : amp_ok (s "Title") (nv_title n);
  nt_desc : amp_ok (s "Desc") (nv_desc n);
  nt_author : amp_ok (s "AuthorName") (nv_authorName n);
  nt_bio : amp_ok (s "Bio") (nv_authorBio n);
  nt_f1 : amp_ok (s "FieldTitle1") (nv_fieldTitle1 n);
  nt_f2 : amp_ok (s "FieldTitle2") (nv_fieldTitle2 n);
  nt_f3 : amp_ok (s "FieldTitle3") (nv_fieldTitle3 n);
  nt_f4 : amp_ok (s "FieldTitle4") (nv_fieldTitle4 n);
  nt_kw : forall f, In f PRJ_KWVAR -> kw_amp f (nv_kw n);
  nt_notes : ids_amp (nv_srtPrjNotes n) /\ forall i a, dget i (nv_projectNotes n) = Some a -> In i (nv_srtPrjNotes n) -> note_amp a;
  nt_scenes : ids_amp (dkeys (nv_scenes n)) /\ forall i x, In (i, x) (nv_scenes n) -> scene_amp x;
  nt_chapters : ids_amp (nv_srtChapters n) /\ forall i c, dget i (nv_chapters n) = Some c -> In i (nv_srtChapters n) -> chapter_amp c
}.

Lemma ks_build_project : forall n k, novel_amp n -> ks k -> ks (build_project n k).
Proof.
  intros n k [] H. unfold build_project. apply ks_remove, ks_remove. apply ks_put_kws; [apply ks_mk_fields | |].
  - intros f Hf. split; [|apply nt_kw0; exact Hf]. destruct Hf as [<- | [<- | []]]; reflexivity.
  - assert (H1 : amp_ok (s "WordCountStart") (option_map str_of_Z (nv_wordCountStart n))) by (destruct (nv_wordCountStart n); [apply amp_safe; apply str_of_Z_safe | exact I]).
    assert (H2 : amp_ok (s "WordTarget") (option_map str_of_Z (nv_wordTarget n))) by (destruct (nv_wordTarget n); [apply amp_safe; apply str_of_Z_safe | exact I]).
    assert (H3 : amp_ok (s "Ver") (Some (s "7"))) by (apply amp_safe; split; [discriminate | reflexivity]). kss.
Qed.

Lemma ks_in_section : forall t x f r r1, cd t = false -> (forall k k1, ks k -> f k = Ok k1 -> ks k1) -> ks r -> in_section t x f r = Ok r1 -> ks r1.
Proof.
  intros t x f r r1 Hc Hf H Hb. unfold in_section in Hb. destruct (find t r) as [e|] eqn:E; [|discriminate]. apply bind_ok in Hb. destruct Hb as (k & Hk & Hb). injection Hb as <-.
  assert (He : strict e /\ e_tag e = t).
  { clear -E H. induction H as [|a r Ha H IH]; [discriminate|]. cbn [find] in E. destruct (str_eqb (e_tag a) t) eqn:Et; [injection E as <-; split; [exact Ha | apply str_eqb_eq; exact Et] | apply IH; exact E]. }
  destruct He as [He Ht]. apply Hf in Hk; [|apply strict_kids; exact He]. apply ks_upd; [|exact H]. intros a _ Ha Hca. apply (strict_with_kids t); assumption.
Qed.


Lemma ks_rebuild : forall {A} t (bd : A -> list elem -> list elem) ids d (P : A -> Prop) k k1, name_ok t = true -> cd t = false ->
  (forall a l, P a -> ks l -> ks (bd a l)) -> ids_amp ids -> (forall i a, dget i d = Some a -> In i ids -> P a) -> ks k -> rebuild t bd ids d k = Ok k1 -> ks k1.
Proof.
  intros A t bd ids d P k k1 Hn Hc Hbd Hi HP H Hb. unfold rebuild in Hb. apply bind_ok in Hb. destruct Hb as (new & Hm & Hb). injection Hb as <-.
  apply ks_app; [apply ks_filter; exact H|]. refine (mapM_Forall _ _ _ _ _ Hm). intros i e Hin He. apply bind_ok in He. destruct He as (a & Ha & He). injection He as <-.
  unfold element_with_id. constructor; [exact I|]. apply Hbd.
  - apply (HP i); [|exact Hin]. unfold dindex in Ha. destruct (dget i d); [injection Ha as <-; reflexivity | discriminate].
  - constructor; [|constructor]. apply ks_leaf; [reflexivity|]. right. apply Hi. exact Hin.
Qed.


Lemma strict_renew : forall {A} t (bd : A -> list elem -> res (list elem)) saved i a e, name_ok t = true -> cd t = false -> ~ In 38%N i ->
  (forall k k1, ks k -> bd a k = Ok k1 -> ks k1) -> (forall i e, dget i saved = Some e -> strict e /\ e_tag e = t) -> renew t bd saved i a = Ok e -> strict e.
Proof.
  intros A t bd saved i a e Hn Hc Hi Hbd Hs H. unfold renew in H. destruct (dget i saved) as [e0|] eqn:E.
  - destruct (Hs i e0 E) as [He Ht]. apply bind_ok in H. destruct H as (k & Hk & H). injection H as <-. apply (strict_with_kids t); try assumption. apply (Hbd (e_kids e0)); [apply strict_kids; exact He | exact Hk].
  - apply bind_ok in H. destruct H as (k & Hk & H). injection H as <-. constructor; [exact I|]. apply (Hbd [leaf (s "ID") (Some i)]); [|exact Hk].
    constructor; [|constructor]. apply ks_leaf; [reflexivity | right; exact Hi].
Qed.

Lemma ks_finish : forall n k k1, (forall i x, In (i, x) (nv_scenes n) -> scene_amp x) -> ks k -> mapM (finish_scene n) k = Ok k1 -> ks k1.
Proof.
  intros n k k1 Hx H Hb. refine (mapM_Forall _ _ _ _ _ Hb). intros e e1 Hin He. rewrite Forall_forall in H. pose proof (H e Hin) as Hce.
  unfold finish_scene in He. destruct (find (s "ID") (e_kids e)) as [y|]; [|discriminate]. destruct (e_text y) as [scId|]; [|discriminate].
  apply bind_ok in He. destruct He as (x & Hxx & He). apply bind_ok in He. destruct He as (k2 & Hk2 & He). injection He as <-.
  assert (St : scene_amp x). { apply (Hx scId). unfold dindex in Hxx. destruct (dget scId (nv_scenes n)) eqn:E; [injection Hxx as <-; apply dget_In; exact E | discriminate]. }
  assert (K2 : ks k2). { pose proof (te_content x St) as Tc. destruct (sc_content x) as [c|]; [|injection Hk2 as <-; apply strict_kids; exact Hce].
    destruct (has (s "SceneContent") (e_kids e)); [|discriminate]. injection Hk2 as <-. apply ks_set_text; [exact Tc | apply strict_kids; exact Hce]. }
  inversion Hce; subst. constructor; [assumption | cbn [e_kids e_tag] in *; kss].
Qed.

(** ** Project variables *)
Lemma new_id_amp : forall l, ~ In 38%N (new_id l).
Proof.
  intro l. destruct (create_id_spec l) as (k & Hk). unfold new_id. destruct Hk as (Hk & _). rewrite Hk. destruct (safe_plain _ (str_of_N_safe k)) as (_ & _ & H & _). exact H.
Qed.

Lemma ks_add_var : forall title desc st, ks (snd st) -> ks (snd (add_projectvar title desc st)).
Proof.
  intros title desc st H. unfold add_projectvar. cbn [snd]. apply ks_app; [exact H|]. constructor; [|constructor]. constructor; [exact I|].
  repeat (constructor; [apply ks_leaf; [reflexivity|] |]); [right; apply new_id_amp | apply amp_long; reflexivity | apply amp_long; reflexivity | | constructor]. apply amp_safe. split; [discriminate | reflexivity].
Qed.

Lemma ks_scan : forall n k st st1 k1, ks k -> scan_projectvars n st k = Ok (st1, k1) -> ks k1.
Proof.
  intros n k. induction k as [|e k IH]; intros st st1 k1 H Hs; cbn [scan_projectvars] in Hs; [injection Hs as <- <-; constructor|].
  apply bind_ok in Hs. destruct Hs as ([sa ea] & Ha & Hs). apply bind_ok in Hs. destruct Hs as ([sb kb] & Hb & Hs). injection Hs as <- <-. cbn [fst snd] in *.
  inversion H as [|? ? He Hk]; subst. constructor; [|exact (IH _ _ _ Hk Hb)].
  unfold scan_projectvar in Ha. destruct (str_eqb (e_tag e) (s "PROJECTVAR")) eqn:Et; cbn [negb] in Ha; [|injection Ha as <- <-; exact He]. apply str_eqb_eq in Et.
  destruct (find (s "ID") (e_kids e)) as [y|]; [|discriminate]. destruct (find (s "Title") (e_kids e)) as [z|]; [|discriminate]. destruct (e_text z) as [title|]; [|discriminate].
  assert (Hd : forall d, strict (on_kids (set_text (s "Desc") d) e)).
  { intros d. apply (strict_on_kids (s "PROJECTVAR")); [exact Et | reflexivity | intro Hk2; apply ks_set_text; [apply amp_long; reflexivity | assumption] | exact He]. }
  destruct (prefixb (s "lang=") title).
  - destruct (split (s "=") title) as [|a [|b [|c l]]]; injection Ha as <- <-; exact He.
  - destruct (str_eqb title (s "Language")); [destruct (has (s "Desc") (e_kids e)); [|discriminate]; injection Ha as <- <-; apply Hd|].
    destruct (str_eqb title (s "Country")); [destruct (has (s "Desc") (e_kids e)); [|discriminate]; injection Ha as <- <-; apply Hd|].
    injection Ha as <- <-. exact He.
Qed.

Lemma ks_vars : forall n ls k k1, ks k -> build_projectvars n ls k = Ok k1 -> ks k1.
Proof.
  intros n ls k k1 H Hb. unfold build_projectvars in Hb. apply bind_ok in Hb. destruct Hb as ([ps k2] & Hs & Hb). injection Hb as <-.
  pose proof (ks_scan n k (mkPvscan [] ls false false) ps k2 H Hs) as K2.
  set (st0 := (ps_ids ps, k2)). assert (K0 : ks (snd st0)) by exact K2.
  set (st1 := if ps_hasLang ps then st0 else add_projectvar (s "Language") (nv_languageCode n) st0).
  assert (K1 : ks (snd st1)). { unfold st1. destruct (ps_hasLang ps); [exact K0|]. apply ks_add_var. exact K0. }
  set (st2 := if ps_hasCountry ps then st1 else add_projectvar (s "Country") (nv_countryCode n) st1).
  assert (K3 : ks (snd st2)). { unfold st2. destruct (ps_hasCountry ps); [exact K1|]. apply ks_add_var. exact K1. }
  clearbody st2. clear -K3. revert st2 K3. induction (ps_langs ps) as [|c l IH]; intros st K; [exact K|]. cbn [fold_left]. apply IH.
  unfold add_langvars. apply ks_add_var, ks_add_var. exact K.
Qed.

(** ** Sections which are rebuilt *)
Definition wipe (t : str) (r : list elem) : list elem := upd t (with_kids []) r.
Lemma upd_upd_kids : forall t k k' r, upd t (with_kids k) (upd t (with_kids k') r) = upd t (with_kids k) r.
Proof.
  intros t k k' r. induction r as [|[u x l] r IH]; [reflexivity|]. cbn [upd e_tag]. destruct (str_eqb u t) eqn:E; cbn [upd e_tag with_kids]; rewrite E; [reflexivity | rewrite IH; reflexivity].
Qed.
Definition keeps_tag (g : elem -> elem) : Prop := forall e, e_tag (g e) = e_tag e.
Lemma upd_comm : forall t u g h r, str_eqb t u = false -> keeps_tag g -> keeps_tag h -> upd t g (upd u h r) = upd u h (upd t g r).
Proof.
  intros t u g h r N Hg Hh. induction r as [|e r IH]; [reflexivity|]. cbn [upd].
  destruct (str_eqb (e_tag e) u) eqn:Eu, (str_eqb (e_tag e) t) eqn:Et; cbn [upd]; rewrite ?Hh, ?Hg, ?Eu, ?Et; try reflexivity; [|rewrite IH; reflexivity].
  exfalso. apply str_eqb_eq in Eu, Et. rewrite <- Eu, <- Et, str_eqb_refl in N. discriminate.
Qed.
Lemma with_kids_tag : forall k, keeps_tag (with_kids k).
Proof. intros k []. reflexivity. Qed.
Lemma find_wipe : forall t u r, str_eqb t u = false -> find u (wipe t r) = find u r.
Proof.
  intros t u r N. unfold wipe. induction r as [|e r IH]; [reflexivity|]. cbn [upd find]. destruct (str_eqb (e_tag e) t) eqn:Et; cbn [find].
  - rewrite with_kids_tag. apply str_eqb_eq in Et. rewrite Et, N. reflexivity.
  - destruct (str_eqb (e_tag e) u); [reflexivity | apply IH].
Qed.
Lemma has_wipe : forall t u r, str_eqb t u = false -> has u (wipe t r) = has u r.
Proof. intros t u r N. unfold has. rewrite (find_wipe t u r N). reflexivity. Qed.
Lemma in_section_wipe : forall t u x f r r1, str_eqb t u = false -> in_section u x f r = Ok r1 -> in_section u x f (wipe t r) = Ok (wipe t r1).
Proof.
  intros t u x f r r1 N H. unfold in_section in *. rewrite (find_wipe t u r N). destruct (find u r) as [e|]; [|discriminate].
  apply bind_ok in H. destruct H as (k & Hk & H). injection H as <-. rewrite Hk. cbn [bind]. unfold wipe. rewrite (upd_comm t u); [reflexivity | exact N | apply with_kids_tag | apply with_kids_tag].
Qed.
Lemma in_section_wiped : forall t x f r r1, in_section t x f r = Ok r1 -> wipe t r1 = wipe t r.
Proof.
  intros t x f r r1 H. unfold in_section in H. destruct (find t r) as [e|]; [|discriminate]. apply bind_ok in H. destruct H as (k & _ & H). injection H as <-. apply upd_upd_kids.
Qed.
Lemma remove_wipe : forall t u r, str_eqb t u = false -> remove u (wipe t r) = wipe t (remove u r).
Proof.
  intros t u r N. unfold wipe. induction r as [|e r IH]; [reflexivity|]. cbn [upd remove]. destruct (str_eqb (e_tag e) t) eqn:Et; cbn [remove].
  - rewrite with_kids_tag. assert (E2 : str_eqb (e_tag e) u = false) by (apply str_eqb_eq in Et; rewrite Et; exact N). rewrite E2. cbn [upd]. rewrite Et. reflexivity.
  - destruct (str_eqb (e_tag e) u); [reflexivity|]. cbn [upd]. rewrite Et, IH. reflexivity.
Qed.
Lemma sub_wipe : forall t u r, str_eqb t u = false -> has u r = false -> sub u None (wipe t r) = wipe t (sub u None r).
Proof.
  intros t u r N H. unfold wipe, sub. clear H. induction r as [|e r IH].
  - cbn [upd List.app e_tag leaf]. rewrite str_eqb_sym in N. rewrite N. reflexivity.
  - cbn [upd List.app]. destruct (str_eqb (e_tag e) t); cbn [List.app]; [reflexivity | rewrite IH; reflexivity].
Qed.

(** all sections which are rebuilt, emptied *)
Definition wipe3 (r : list elem) : list elem := wipe (s "LOCATIONS") (wipe (s "ITEMS") (wipe (s "CHARACTERS") r)).
Definition other (u : str) : bool := negb (str_eqb (s "LOCATIONS") u || str_eqb (s "ITEMS") u || str_eqb (s "CHARACTERS") u).
Lemma other_split : forall u, other u = true -> str_eqb (s "LOCATIONS") u = false /\ str_eqb (s "ITEMS") u = false /\ str_eqb (s "CHARACTERS") u = false.
Proof. intros u H. unfold other in H. apply negb_true_iff in H. apply orb_false_iff in H. destruct H as [H H3]. apply orb_false_iff in H. tauto. Qed.
Lemma in_section_wipe3 : forall u x f r r1, other u = true -> in_section u x f r = Ok r1 -> in_section u x f (wipe3 r) = Ok (wipe3 r1).
Proof. intros u x f r r1 H E. apply other_split in H. destruct H as (H1 & H2 & H3). unfold wipe3. auto using in_section_wipe. Qed.
Lemma wipe_comm : forall t u r, str_eqb t u = false -> wipe t (wipe u r) = wipe u (wipe t r).
Proof. intros. apply upd_comm; [assumption | apply with_kids_tag | apply with_kids_tag]. Qed.
Lemma rebuilt_wipe3 : forall t x f r r1, other t = false -> in_section t x f r = Ok r1 -> wipe3 r1 = wipe3 r.
Proof.
  intros t x f r r1 H E. apply in_section_wiped in E. unfold other in H. apply negb_false_iff in H. rewrite !orb_true_iff in H.
  unfold wipe3. destruct H as [[H | H] | H]; apply str_eqb_eq in H; subst t.
  - rewrite !(wipe_comm (s "LOCATIONS")) by reflexivity. rewrite E. reflexivity.
  - rewrite !(wipe_comm (s "ITEMS")) by reflexivity. rewrite E. reflexivity.
  - rewrite E. reflexivity.
Qed.
Lemma find_wipe3 : forall u r, other u = true -> find u (wipe3 r) = find u r.
Proof. intros u r H. apply other_split in H. destruct H as (H1 & H2 & H3). unfold wipe3. rewrite !find_wipe by assumption. reflexivity. Qed.
Lemma has_wipe3 : forall u r, other u = true -> has u (wipe3 r) = has u r.
Proof. intros u r H. unfold has. rewrite find_wipe3 by exact H. reflexivity. Qed.
Lemma remove_wipe3 : forall u r, other u = true -> remove u (wipe3 r) = wipe3 (remove u r).
Proof. intros u r H. apply other_split in H. destruct H as (H1 & H2 & H3). unfold wipe3. rewrite !remove_wipe by assumption. reflexivity. Qed.
Lemma sub_wipe3 : forall u r, other u = true -> sub u None (wipe3 r) = wipe3 (sub u None r).
Proof.
  intros u r H. apply other_split in H. destruct H as (H1 & H2 & H3). unfold wipe3.
  assert (Q : forall t r0, str_eqb t u = false -> sub u None (wipe t r0) = wipe t (sub u None r0)).
  { intros t r0 N. clear -N. unfold wipe, sub. induction r0 as [|e r0 IH].
    - cbn [upd List.app e_tag leaf]. rewrite str_eqb_sym in N. rewrite N. reflexivity.
    - cbn [upd List.app]. destruct (str_eqb (e_tag e) t); cbn [List.app]; [reflexivity | rewrite IH; reflexivity]. }
  rewrite !Q by assumption. reflexivity.
Qed.

Theorem build_strict : forall loc dloc n r0 n1 r1, novel_amp n -> ks (wipe3 r0) -> build_tree loc dloc n (Some r0) = Ok (n1, r1) -> ks (wipe3 r1).
Proof.
  intros loc dloc n r0 n1 r1 T H Hb. unfold build_tree in Hb.
  apply bind_ok in Hb. destruct Hb as (ra & Ha & Hb). apply in_section_wipe3 in Ha; [|reflexivity].
  apply ks_in_section in Ha; [|reflexivity | intros k k1 Hk E; injection E as <-; apply ks_build_project; assumption | exact H].
  apply bind_ok in Hb. destruct Hb as (rb & Hb1 & Hb). apply rebuilt_wipe3 in Hb1; [|reflexivity]. rewrite <- Hb1 in Ha.
  apply bind_ok in Hb. destruct Hb as (rc & Hc1 & Hb). apply rebuilt_wipe3 in Hc1; [|reflexivity]. rewrite <- Hc1 in Ha.
  apply bind_ok in Hb. destruct Hb as (rd & Hd1 & Hb). apply rebuilt_wipe3 in Hd1; [|reflexivity]. rewrite <- Hd1 in Ha. rename Ha into Kd.
  apply bind_ok in Hb. destruct Hb as (re & He1 & Hb).
  assert (Ke : ks (wipe3 re)).
  { unfold build_notes in He1. destruct (nv_srtPrjNotes n) as [|i l] eqn:En; [injection He1 as <-; rewrite <- remove_wipe3 by reflexivity; apply ks_remove; exact Kd|].
    apply in_section_wipe3 in He1; [|reflexivity]. apply ks_in_section in He1; [exact He1 | reflexivity | |].
    - intros k k1 Hk E. destruct (nt_notes n T) as [T1 T2]. rewrite En in T1, T2. refine (ks_rebuild _ _ _ _ note_amp k k1 _ _ _ T1 T2 Hk E); [reflexivity | reflexivity | intros; apply ks_build_note; assumption].
    - destruct (has (s "PROJECTNOTES") rd); [exact Kd | rewrite <- sub_wipe3 by reflexivity; apply ks_sub; [reflexivity | exact I | exact Kd]]. }
  apply bind_ok in Hb. destruct Hb as ([n2 rf] & Hf1 & Hb).
  assert (Kf : ks (wipe3 rf) /\ nv_scenes n2 = nv_scenes n /\ nv_chapters n2 = nv_chapters n /\ nv_srtChapters n2 = nv_srtChapters n).
  { destruct (has_language n); [|injection Hf1 as <- <-; auto]. apply bind_ok in Hf1. destruct Hf1 as (n3 & Hn3 & Hf1).
    assert (Ls : nv_scenes n3 = nv_scenes n /\ nv_chapters n3 = nv_chapters n /\ nv_srtChapters n3 = nv_srtChapters n).
    { clear -Hn3. unfold check_locale in Hn3. destruct (negb (otruthy (nv_languageCode n))).
      - destruct (locale_pair loc) as [[a b]|]; [injection Hn3 as <-; auto|]. destruct (locale_pair dloc) as [[a b]|]; [injection Hn3 as <-; auto | discriminate].
      - match type of Hn3 with (if ?b then _ else _) = _ => destruct b end; injection Hn3 as <-; auto. }
    destruct (nv_languages n3) as [ls|] eqn:El; [|discriminate]. apply bind_ok in Hf1. destruct Hf1 as (r5 & H5 & Hf1). injection Hf1 as <- <-. split; [|tauto].
    apply in_section_wipe3 in H5; [|reflexivity]. apply ks_in_section in H5; [exact H5 | reflexivity | |].
    - intros k k1 Hk E. exact (ks_vars n3 ls k k1 Hk E).
    - destruct (has (s "PROJECTVARS") re); [exact Ke | rewrite <- sub_wipe3 by reflexivity; apply ks_sub; [reflexivity | exact I | exact Ke]]. }
  destruct Kf as (Kf & Nsc & Nch & Nsr).
  apply bind_ok in Hb. destruct Hb as (rg & Hg1 & Hb). apply in_section_wipe3 in Hg1; [|reflexivity]. apply ks_in_section in Hg1; [|reflexivity | | exact Kf].
  2: { intros k k1 Hk E. unfold build_scenes in E. apply bind_ok in E. destruct E as (saved & Hs & E). apply bind_ok in E. destruct E as (new & Hm & E). injection E as <-.
       apply ks_app; [apply ks_filter; exact Hk|]. refine (mapM_Forall _ _ _ _ _ Hm). intros [i x] e Hin He. rewrite Nsc in Hin. destruct (nt_scenes n T) as [T1 T2]. cbn [fst snd] in He.
       refine (strict_renew (s "SCENE") build_scene saved i x e eq_refl eq_refl _ _ _ He).
       - apply T1. apply in_map_iff. exists (i, x). auto.
       - intros l l1 Hl. apply ks_build_scene; [apply (T2 i); exact Hin | exact Hl].
       - intros j y Hy. apply (save_elems_in _ _ _ Hs) in Hy. destruct Hy as [Hy Ht]. rewrite Forall_forall in Hk. auto. }
  apply bind_ok in Hb. destruct Hb as (rh & Hh1 & Hb). apply in_section_wipe3 in Hh1; [|reflexivity]. apply ks_in_section in Hh1; [|reflexivity | | exact Hg1].
  2: { intros k k1 Hk E. unfold build_chapters in E. apply bind_ok in E. destruct E as (saved & Hs & E). apply bind_ok in E. destruct E as (new & Hm & E). injection E as <-.
       apply ks_app; [apply ks_filter; exact Hk|]. refine (mapM_Forall _ _ _ _ _ Hm). intros i e Hin He. rewrite Nsr in Hin. destruct (nt_chapters n T) as [T1 T2].
       apply bind_ok in He. destruct He as (c & Hc & He). refine (strict_renew (s "CHAPTER") build_chapter saved i c e eq_refl eq_refl _ _ _ He).
       - apply T1. exact Hin.
       - intros l l1 Hl. apply ks_build_chapter; [|exact Hl]. apply (T2 i); [|exact Hin]. unfold dindex in Hc. rewrite Nch in Hc. destruct (dget i (nv_chapters n)); [injection Hc as <-; reflexivity | discriminate].
       - intros j y Hy. apply (save_elems_in _ _ _ Hs) in Hy. destruct Hy as [Hy Ht]. rewrite Forall_forall in Hk. auto. }
  apply bind_ok in Hb. destruct Hb as (ri & Hi1 & Hb). injection Hb as <- <-. apply in_section_wipe3 in Hi1; [|reflexivity].
  apply ks_in_section in Hi1; [exact Hi1 | reflexivity | | exact Hh1]. intros k k1 Hk E. destruct (nt_scenes n T) as [T1 T2].
  refine (ks_finish n2 k k1 _ Hk E). rewrite Nsc. exact T2.
Qed.
