(** The trees built for a representable novel can be written as text. *)
From Coq Require Import String List NArith ZArith Bool Lia Arith.
From Verif Require Import PyStr PyDict Spec Globals GlobalsProofs NovelModel NovelOps NovelOpsProofs YwTree IsoDate Yw7Build Yw7Read YwTreeProofs Yw7SceneProofs
  Yw7StartProofs Yw7SceneRT Yw7ChapterRT Yw7ElemRT Yw7ListRT Yw7TreeInv Yw7ProjRT Yw7SecRT Yw7TreeRT YwText YwTextProofs SpecYw7.
Import ListNotations.

(** ** Texts *)
Lemma occurs_false : forall p t, ~ occurs p t -> containsb p t = false.
Proof. intros p t H. destruct (containsb p t) eqn:E; [|reflexivity]. exfalso. apply H. apply containsb_spec in E. exact E. Qed.
Lemma containsb_occurs : forall p t, containsb p t = false -> ~ occurs p t.
Proof. intros p t H E. apply containsb_spec in E. congruence. Qed.

Lemma file_char_ok : forall c, file_char c -> char_ok c = true.
Proof.
  intros c H. unfold char_ok, xml_char, kept. unfold file_char in H.
  assert (B : forall a b, (a <= b)%N -> (a <=? b)%N = true) by (intros; apply N.leb_le; assumption).
  assert (B' : forall a b, (b < a)%N -> (a <=? b)%N = false) by (intros; apply N.leb_gt; assumption).
  assert (E : forall a b, a <> b -> (a =? b)%N = false) by (intros; apply N.eqb_neq; assumption).
  destruct H as [-> | [-> | [[H1 H2] | [H | H]]]]; try reflexivity.
  - rewrite (B 32%N c), (B c 55295%N) by lia. rewrite !orb_true_r. cbn [andb orb]. rewrite (B' c 8%N), (E c 124%N), (B' c 12%N), (B' c 31%N), (E c 13%N) by lia. rewrite !andb_false_r. reflexivity.
  - rewrite (B 57344%N c), (B c 65533%N) by lia. rewrite !orb_true_r. cbn [andb orb]. rewrite (B' c 8%N), (E c 124%N), (B' c 12%N), (B' c 31%N), (E c 13%N) by lia. rewrite !andb_false_r. reflexivity.
  - rewrite (B 65536%N c), (B c 1114111%N) by lia. rewrite !orb_true_r. cbn [andb orb]. rewrite (B' c 8%N), (E c 124%N), (B' c 12%N), (B' c 31%N), (E c 13%N) by lia. rewrite !andb_false_r. reflexivity.
Qed.

Lemma file_chars_ok : forall v, Forall file_char v -> forallb char_ok v = true.
Proof. intros v H. apply forallb_forall. intros c Hc. apply file_char_ok. rewrite Forall_forall in H. apply H. exact Hc. Qed.

Lemma long_cdata : forall v, long_text v -> cdata_ok v.
Proof.
  intros v (H1 & H2 & H3 & H4). split; [apply file_chars_ok; exact H1|]. repeat split; apply occurs_false; assumption.
Qed.

Lemma prefix_occurs : forall p t, prefixb p t = true -> occurs p t.
Proof. intros p t H. apply prefixb_spec in H. destruct H as (b & ->). exists [], b. reflexivity. Qed.

(** a text without markup is read as it is *)
Lemma decode_text : forall v, forallb xml_char v = true -> ~ In 38%N v -> ~ In 60%N v -> ~ occurs (s "]]>") v -> decode v = Some v.
Proof.
  intro v. induction v as [|c v IH]; intros H1 H2 H3 H4; [reflexivity|]. unfold decode, lex in *. cbn [lex_go]. unfold look.
  replace (N.eqb c 60) with false by (symmetry; apply N.eqb_neq; intros ->; apply H3; left; reflexivity).
  replace (N.eqb c 38) with false by (symmetry; apply N.eqb_neq; intros ->; apply H2; left; reflexivity).
  destruct (prefixb (s "]]>") (c :: v)) eqn:Ep; [exfalso; apply H4; apply prefix_occurs; exact Ep|].
  cbn [forallb] in H1. apply andb_prop in H1. destruct H1 as [H0 H1]. rewrite H0. cbn [pred].
  assert (Q : match lex_go 0 v with Some ts => texts_of ts | None => None end = Some v).
  { apply IH; [exact H1 | intro E; apply H2; right; exact E | intro E; apply H3; right; exact E |].
    intros (a & b & ->). apply H4. exists (c :: a), b. reflexivity. }
  destruct (lex_go 0 v) as [ts|]; [|discriminate]. cbn [option_map texts_of]. rewrite Q. reflexivity.
Qed.

Lemma plain_decode : forall v, plain_text v -> decode v = Some v.
Proof.
  intros v (H1 & H2 & H3 & H4 & _). apply decode_text; try assumption. apply char_xml. apply file_chars_ok. exact H1.
Qed.

Lemma plain_plain : forall v, plain_text v -> plain_ok v.
Proof.
  intros v H. pose proof (plain_decode v H) as Hd. destruct H as (H1 & H2 & H3 & H4 & H5 & H6).
  split; [apply file_chars_ok; exact H1|]. split; [exact H2|]. split; [rewrite Hd; discriminate|]. split; apply occurs_false; assumption.
Qed.

Lemma text_long : forall t x, cd t = true -> opt_ok long_text x -> text_ok t x.
Proof. intros t [v|] Hc H; [|exact I]. cbn [text_ok]. rewrite Hc. apply long_cdata. exact H. Qed.
Lemma text_plain : forall t x, cd t = false -> opt_ok plain_text x -> text_ok t x.
Proof. intros t [v|] Hc H; [|exact I]. cbn [text_ok]. rewrite Hc. apply plain_plain. exact H. Qed.

(** what is read *)
Lemma out_long : forall t x, cd t = true -> out_text t x = match x with Some [] => None | _ => x end.
Proof. intros t [[|c v]|] Hc; cbn [out_text]; rewrite ?Hc; reflexivity. Qed.
Lemma out_plain : forall t x, cd t = false -> opt_ok plain_text x -> out_text t x = match x with Some [] => None | _ => x end.
Proof. intros t [[|c v]|] Hc H; cbn [out_text]; rewrite ?Hc; [reflexivity | | reflexivity]. rewrite (plain_decode _ H). reflexivity. Qed.

Lemma oc_None : forall t, out_text t None = None.
Proof. reflexivity. Qed.
Lemma oc_nil : forall t, out_text t (Some []) = None.
Proof. intro t. cbn [out_text]. destruct (cd t); reflexivity. Qed.

Lemma safe_file : forall c, safe_char c = true -> (file_char c /\ c <> 60 /\ c <> 38 /\ c <> 93 /\ c <> 10)%N.
Proof.
  intros c H. unfold safe_char, is_digit in H. rewrite !orb_true_iff, !andb_true_iff, !N.leb_le in H.
  assert (In c (s "-+:._ ") \/ (48 <= c <= 57 \/ 65 <= c <= 90 \/ 97 <= c <= 122)%N) as [Q | Q].
  { destruct H as [[[H | H] | H] | H]; [right; lia | right; lia | right; lia | left]. apply existsb_exists in H. destruct H as (d & Hd & E). apply N.eqb_eq in E. subst d. exact Hd. }
  - cbn in Q. unfold file_char. lia.
  - unfold file_char. lia.
Qed.

Lemma no_in_occurs : forall c p t, In c p -> ~ In c t -> ~ occurs p t.
Proof. intros c p t Hp Ht (a & b & ->). apply Ht. apply in_or_app. right. apply in_or_app. left. exact Hp. Qed.

Lemma safe_plain : forall v, safe v -> plain_text v.
Proof.
  intros v [_ H]. rewrite forallb_forall in H.
  assert (Q : forall c, In c v -> (file_char c /\ c <> 60 /\ c <> 38 /\ c <> 93 /\ c <> 10)%N) by (intros c Hc; apply safe_file; apply H; exact Hc).
  assert (N10 : ~ In 10%N v) by (intro E; apply Q in E; tauto).
  assert (N93 : ~ In 93%N v) by (intro E; apply Q in E; tauto).
  split; [apply Forall_forall; intros c Hc; apply Q; exact Hc|]. split; [intro E; apply Q in E; tauto|]. split; [intro E; apply Q in E; tauto|].
  split; [|split].
  - apply (no_in_occurs 93%N); [left; reflexivity | exact N93].
  - apply (no_in_occurs 10%N); [apply in_or_app; right; left; reflexivity | exact N10].
  - apply (no_in_occurs 10%N); [left; reflexivity | exact N10].
Qed.

(** one line without bracket *)
Definition line_ok (v : str) : Prop := Forall file_char v /\ ~ In 10%N v /\ ~ In 93%N v.
Lemma line_long : forall v, line_ok v -> long_text v.
Proof.
  intros v (H1 & H2 & H3). split; [exact H1|]. split; [apply (no_in_occurs 93%N); [left; reflexivity | exact H3]|]. split.
  - apply (no_in_occurs 10%N); [apply in_or_app; right; left; reflexivity|]. intro E. apply in_app_or in E. destruct E as [E | E]; [cbn in E; intuition discriminate | exact (H2 E)].
  - apply (no_in_occurs 10%N); [left; reflexivity|]. intro E. apply in_app_or in E. destruct E as [E | E]; [exact (H2 E) | cbn in E; intuition discriminate].
Qed.
Lemma safe_line : forall v, forallb safe_char v = true -> line_ok v.
Proof.
  intros v H. rewrite forallb_forall in H.
  assert (Q : forall c, In c v -> (file_char c /\ c <> 60 /\ c <> 38 /\ c <> 93 /\ c <> 10)%N) by (intros c Hc; apply safe_file; apply H; exact Hc).
  split; [apply Forall_forall; intros c Hc; apply Q; exact Hc|]. split; intro E; apply Q in E; tauto.
Qed.

Lemma text_safe : forall t v, safe v -> text_ok t (Some v).
Proof.
  intros t v H. destruct (cd t) eqn:E; [apply text_long; [exact E|]; apply line_long; apply safe_line; apply H | apply text_plain; [exact E|]; apply safe_plain; exact H].
Qed.
Lemma oc_safe : forall t v, safe v -> out_text t (Some v) = Some v.
Proof.
  intros t v H. destruct v as [|c v]; [destruct H; congruence|]. destruct (cd t) eqn:E; [rewrite out_long by exact E; reflexivity|].
  rewrite out_plain; [reflexivity | exact E | apply safe_plain; exact H].
Qed.

(** ** Closure *)
Notation kc := (Forall clean).

Lemma kc_app : forall a b, kc a -> kc b -> kc (a ++ b).
Proof. intros. apply Forall_app. split; assumption. Qed.
Lemma kc_leaf : forall t x, name_ok t = true -> text_ok t x -> clean (leaf t x).
Proof. intros. constructor; [assumption | assumption | left; reflexivity | constructor]. Qed.
Lemma kc_sub : forall t x k, name_ok t = true -> text_ok t x -> kc k -> kc (sub t x k).
Proof. intros. apply kc_app; [assumption | constructor; [apply kc_leaf; assumption | constructor]]. Qed.
Lemma kc_upd : forall t f k, (forall e, In e k -> e_tag e = t -> clean e -> clean (f e)) -> kc k -> kc (upd t f k).
Proof.
  intros t f k Hf H. induction H as [|e k He H IH]; [constructor|]. cbn [upd]. destruct (str_eqb (e_tag e) t) eqn:E.
  - constructor; [apply Hf; [left; reflexivity | apply str_eqb_eq; exact E | exact He] | exact H].
  - constructor; [exact He | apply IH; intros; apply Hf; [right|..]; assumption].
Qed.
Lemma clean_text : forall t x e, e_tag e = t -> text_ok t x -> clean e -> clean (with_text x e).
Proof. intros t x e <- Hx H. inversion H; subst. constructor; assumption. Qed.
Lemma clean_kids : forall e, clean e -> kc (e_kids e).
Proof. intros e H. inversion H. assumption. Qed.
Lemma clean_with_kids : forall t k e, e_tag e = t -> cd t = false -> kc k -> clean e -> clean (with_kids k e).
Proof. intros t k e <- Hc Hk H. inversion H; subst. constructor; [assumption | assumption | right; exact Hc | exact Hk]. Qed.
Lemma clean_on_kids : forall t f e, e_tag e = t -> cd t = false -> (kc (e_kids e) -> kc (f (e_kids e))) -> clean e -> clean (on_kids f e).
Proof. intros t f e Ht Hc Hf H. apply (clean_with_kids t); [assumption | assumption | apply Hf; apply clean_kids; exact H | exact H]. Qed.
Lemma kc_set_text : forall t x k, text_ok t x -> kc k -> kc (set_text t x k).
Proof. intros. apply kc_upd; [|assumption]. intros e _ Ht He. apply (clean_text t); assumption. Qed.
Lemma kc_remove : forall t k, kc k -> kc (remove t k).
Proof. intros t k H. induction H as [|e k He H IH]; [constructor|]. cbn [remove]. destruct (str_eqb (e_tag e) t); [exact H | constructor; assumption]. Qed.
Lemma kc_put : forall t x k, name_ok t = true -> text_ok t x -> kc k -> kc (put t x k).
Proof. intros. unfold put. destruct (has t k); [apply kc_set_text | apply kc_sub]; assumption. Qed.
Lemma kc_put_opt : forall t x k, name_ok t = true -> text_ok t x -> kc k -> kc (put_opt t x k).
Proof.
  intros t [v|] k Hn Hx H; [|exact H]. cbn [put_opt]. destruct (has t k); [apply kc_set_text; assumption|]. destruct (truthy v); [apply kc_sub; assumption | exact H].
Qed.
Lemma kc_put_some : forall t x k, name_ok t = true -> text_ok t x -> kc k -> kc (put_some t x k).
Proof. intros t [v|] k Hn Hx H; [apply kc_put; assumption | exact H]. Qed.
Lemma kc_sub_opt : forall t x k, name_ok t = true -> text_ok t x -> kc k -> kc (sub_opt t x k).
Proof. intros t [v|] k Hn Hx H; [apply kc_sub; assumption | exact H]. Qed.
Lemma safe_m1 : safe (s "-1"). Proof. split; [discriminate | reflexivity]. Qed.
Lemma kc_put_flag : forall t b k, name_ok t = true -> kc k -> kc (put_flag t b k).
Proof.
  intros t b k Hn H. unfold put_flag. destruct b; [|apply kc_remove; exact H]. destruct (has t k); [exact H|]. apply kc_sub; [exact Hn | apply text_safe; exact safe_m1 | exact H].
Qed.
Lemma kc_insert : forall i e k, clean e -> kc k -> kc (insert_at i e k).
Proof.
  intros i e k He H. unfold insert_at. rewrite <- (firstn_skipn i k) in H. apply Forall_app in H. destruct H as [H1 H2]. apply kc_app; [exact H1 | constructor; assumption].
Qed.
Lemma kc_set_element : forall t x k i, name_ok t = true -> text_ok t x -> kc k -> kc (fst (set_element t x (k, i))).
Proof.
  intros t x k i Hn Hx H. unfold set_element. destruct (has t k), x; cbn [fst]; try exact H; [apply kc_set_text; assumption|]. apply kc_insert; [apply kc_leaf; assumption | exact H].
Qed.
Lemma kc_sub_new : forall t x k, name_ok t = true -> text_ok t x -> kc k -> kc (sub_new t x k).
Proof. intros. unfold sub_new. destruct (has t k); [assumption | apply kc_sub; assumption]. Qed.
Lemma kc_filter : forall f k, kc k -> kc (filter f k).
Proof. intros f k H. apply Forall_forall. intros e He. apply filter_In in He. rewrite Forall_forall in H. apply H. apply He. Qed.

Definition tags_text_ok (tags : option (list str)) : Prop := text_ok (s "Tags") (tags_text tags).
Lemma list_to_string_some : forall l, list_to_string (Some l) semicolon = join semicolon l.
Proof. reflexivity. Qed.
Lemma kc_put_tags : forall x k, tags_text_ok x -> kc k -> kc (put_tags x k).
Proof.
  intros [l|] k Hx H; [|exact H]. unfold tags_text_ok in Hx. cbn [tags_text option_map] in Hx. unfold put_tags. rewrite list_to_string_some.
  destruct (has (s "Tags") k); [apply kc_set_text; assumption|]. destruct l; [exact H | apply kc_sub; [reflexivity | exact Hx | exact H]].
Qed.
Lemma kc_sub_tags : forall x k, tags_text_ok x -> kc k -> kc (sub_tags x k).
Proof. intros [l|] k Hx H; [|exact H]. apply kc_sub; [reflexivity | exact Hx | exact H]. Qed.

Definition ids_plain (ids : list str) : Prop := forall i, In i ids -> plain_ok i.
Lemma kc_build_refs : forall t idt ids k, name_ok t = true -> name_ok idt = true -> cd t = false -> cd idt = false ->
  (forall l, ids = Some l -> ids_plain l) -> kc k -> kc (build_refs t idt ids k).
Proof.
  intros t idt ids k H1 H2 H3 H4 H5 H. unfold build_refs. apply (kc_remove t) in H. destruct ids as [[|i l]|]; try exact H.
  apply kc_app; [exact H|]. constructor; [|constructor]. constructor; [exact H1 | exact I | right; exact H3|].
  apply Forall_forall. intros e He. apply in_map_iff in He. destruct He as (j & <- & Hj). apply kc_leaf; [exact H2|]. cbn [text_ok]. rewrite H4. apply (H5 _ eq_refl). exact Hj.
Qed.

Lemma kc_fields : forall f k, (forall l, kc l -> kc (f l)) -> kc k -> kc (upd (s "Fields") (on_kids f) k).
Proof. intros f k Hf H. apply kc_upd; [|exact H]. intros e _ Ht He. apply (clean_on_kids (s "Fields")); [exact Ht | reflexivity | apply Hf | exact He]. Qed.

Definition kw_text (f : str) (kw : dict (option str)) : Prop :=
  match get_kw f kw with Some ((_ :: _) as v) => text_ok f (Some (convert_from_yw v)) | _ => True end.
Lemma kc_put_kws : forall mk names kw k, (forall l, kc l -> kc (mk l)) -> (forall f, In f names -> name_ok f = true /\ kw_text f kw) -> kc k -> kc (put_kws mk names kw k).
Proof.
  intros mk names kw k Hmk. unfold put_kws. revert k. induction names as [|f names IH]; intros k Hn H; [exact H|]. cbn [fold_left]. apply IH; [intros g Hg; apply Hn; right; exact Hg|].
  destruct (Hn f (or_introl eq_refl)) as [Hf Hk]. unfold put_kw, kw_text in *. destruct (get_kw f kw) as [[|c v]|].
  - apply kc_fields; [|exact H]. intros l Hl. apply kc_remove. exact Hl.
  - apply kc_fields; [intros l Hl; apply kc_put; assumption|]. destruct (has (s "Fields") k); [exact H | apply Hmk; exact H].
  - apply kc_fields; [|exact H]. intros l Hl. apply kc_remove. exact Hl.
Qed.
Lemma kc_mk_fields : forall k, kc k -> kc (mk_fields k).
Proof. intros k H. apply kc_sub; [reflexivity | exact I | exact H]. Qed.

Ltac kcs := repeat first
  [ assumption
  | apply kc_remove | apply kc_put_flag; [reflexivity|] | apply kc_put_tags; [eassumption|] | apply kc_sub_tags; [eassumption|]
  | apply kc_put_opt; [reflexivity | eassumption |] | apply kc_put_some; [reflexivity | eassumption |] | apply kc_sub_opt; [reflexivity | eassumption |]
  | apply kc_set_element; [reflexivity | eassumption |] | apply kc_sub_new; [reflexivity | eassumption |] | apply kc_put; [reflexivity | eassumption |]
  | apply kc_sub; [reflexivity | eassumption |] ].

(** ** Scenes *)
Record scene_texts (x : scene) : Prop := {
  te_title : text_ok (s "Title") (sc_title x);
  te_desc : text_ok (s "Desc") (sc_desc x);
  te_content : text_ok (s "SceneContent") (sc_content x);
  te_notes : text_ok (s "Notes") (sc_notes x);
  te_tags : tags_text_ok (sc_tags x);
  te_field1 : text_ok (s "Field1") (sc_field1 x);
  te_field2 : text_ok (s "Field2") (sc_field2 x);
  te_field3 : text_ok (s "Field3") (sc_field3 x);
  te_field4 : text_ok (s "Field4") (sc_field4 x);
  te_days : text_ok (s "LastsDays") (sc_lastsDays x);
  te_hours : text_ok (s "LastsHours") (sc_lastsHours x);
  te_minutes : text_ok (s "LastsMinutes") (sc_lastsMinutes x);
  te_goal : text_ok (s "Goal") (sc_goal x);
  te_conflict : text_ok (s "Conflict") (sc_conflict x);
  te_outcome : text_ok (s "Outcome") (sc_outcome x);
  te_image : text_ok (s "ImageFile") (sc_image x);
  te_arcs : kw_text (s "Field_SceneArcs") (sc_kw x);
  te_mode : kw_text (s "Field_SceneMode") (sc_kw x);
  te_start : start_ok (sc_date x) (sc_time x) (sc_day x);
  te_chars : ids_plain (refs_in (sc_characters x));
  te_locs : ids_plain (refs_in (sc_locations x));
  te_items : ids_plain (refs_in (sc_items x))
}.

Lemma safe_app : forall a b, safe a -> forallb safe_char b = true -> safe (a ++ b).
Proof. intros a b [H1 H2] H3. split; [destruct a; [congruence | discriminate]|]. rewrite forallb_app, H2, H3. reflexivity. Qed.
Lemma clock_safe : forall t, clock t -> safe t.
Proof.
  intros t (h & m & -> & Hh & Hm & Dh & Dm). split; [destruct h; discriminate|]. rewrite !forallb_app, (digits_safe h Dh), (digits_safe m Dm). reflexivity.
Qed.
Lemma valid_date_safe : forall d, valid_date d = true -> safe d.
Proof.
  intros d H. do 10 (destruct d as [|? d]; [discriminate H|]). destruct d; [|discriminate H]. split; [discriminate|].
  unfold valid_date in H. rewrite !andb_true_iff in H. destruct H as (((H & H1) & H2) & _). apply digits_safe in H. apply N.eqb_eq in H1, H2. subst.
  cbn [forallb] in *. rewrite !andb_true_iff in *. tauto.
Qed.
Lemma valid_time_safe : forall d, valid_time d = true -> safe d.
Proof.
  intros d H. do 8 (destruct d as [|? d]; [discriminate H|]). destruct d; [|discriminate H]. split; [discriminate|].
  unfold valid_time in H. rewrite !andb_true_iff in H. destruct H as (((((H & H1) & H2) & _) & _) & _). apply digits_safe in H. apply N.eqb_eq in H1, H2. subst.
  cbn [forallb] in *. rewrite !andb_true_iff in *. tauto.
Qed.

Lemma kc_remove_date : forall k, kc k -> kc (remove_date_time k).
Proof. intros. unfold remove_date_time. kcs. Qed.

Lemma text_pieces : forall t h m x, text_ok t (Some (h ++ m)) -> safe x -> text_ok t (Some x).
Proof. intros. apply text_safe. assumption. Qed.

Lemma kc_start : forall date time day k k1, start_ok date time day -> kc k -> build_scene_start date time day k = Ok k1 -> kc k1.
Proof.
  intros date time day k k1 Hs H Hb. unfold build_scene_start in Hb. destruct date as [d|], time as [t|]; cbn in Hs.
  - destruct day; [destruct Hs|]. destruct (str_eqb (d ++ s " " ++ t) (s " ")) eqn:E; [injection Hb as <-; apply kc_remove_date; exact H|].
    destruct Hs as [[Hd Ht] | [-> ->]]; [|discriminate E].
    assert (Hdt : safe (d ++ s " " ++ t)).
    { apply safe_app; [apply valid_date_safe; exact Hd|]. rewrite forallb_app. destruct (valid_time_safe t Ht) as [_ ->]. reflexivity. }
    destruct (has (s "SpecificDateTime") k).
    + injection Hb as <-. apply kc_set_text; [|exact H]. apply text_safe. destruct (Nat.ltb _ 2); [|exact Hdt]. apply safe_app; [exact Hdt | reflexivity].
    + injection Hb as <-. apply kc_remove, kc_remove, kc_remove. apply kc_sub; [reflexivity | apply text_safe; exact safe_m1|]. apply kc_sub; [reflexivity | apply text_safe; exact Hdt | exact H].
  - destruct Hs.
  - assert (Hc : clock t) by (destruct day; [apply Hs | exact Hs]).
    assert (Hd : forall y, day = Some y -> safe y) by (intros y ->; apply Hs).
    assert (Hk : kc (match day with None => remove (s "SpecificDateMode") (remove (s "SpecificDateTime") k) | Some _ => put (s "Day") day (remove (s "SpecificDateMode") (remove (s "SpecificDateTime") k)) end)).
    { destruct day as [y|]; [|kcs]. apply kc_put; [reflexivity | apply text_safe; apply Hd; reflexivity | kcs]. }
    revert Hb. destruct Hc as (h & m & -> & Lh & Lm & Dh & Dm).
    assert (Sp : split (s ":") (h ++ s ":" ++ m ++ s ":00") = [h; m; s "00"]).
    { exact (clock_split h m Dh Dm). }
    assert (Sh : safe h) by (split; [destruct h; discriminate | apply digits_safe; exact Dh]). assert (Sm : safe m) by (split; [destruct m; discriminate | apply digits_safe; exact Dm]).
    destruct day as [y|]; intro Hb; (match type of Hb with (if ?b then _ else _) = _ => replace b with false in Hb by (symmetry; destruct h; rewrite ?andb_false_r; reflexivity) end); cbv zeta in Hb; rewrite Sp in Hb; injection Hb as <-; (apply kc_put; [reflexivity | apply text_safe; exact Sm|]; apply kc_put; [reflexivity | apply text_safe; exact Sh | exact Hk]).
  - destruct day as [y|]; [|injection Hb as <-; exact H]. destruct (negb (otruthy (Some y)) && negb (otruthy None)); injection Hb as <-; [apply kc_remove_date; exact H|].
    apply kc_put; [reflexivity | apply text_safe; apply Hs | kcs].
Qed.

Theorem kc_build_scene : forall x k k1, scene_texts x -> kc k -> build_scene x k = Ok k1 -> kc k1.
Proof.
  intros x k k1 [] H Hb. unfold build_scene in Hb.
  assert (Hn : forall n, text_ok (s "WordCount") (Some (str_of_N n)) /\ text_ok (s "LetterCount") (Some (str_of_N n))) by (intro n; split; apply text_safe; apply str_of_N_safe).
  apply bind_ok in Hb. destruct Hb as (p & Hp & Hb). apply bind_ok in Hb. destruct Hb as (k2 & Hk & Hb). injection Hb as <-.
  apply kc_start in Hk; [|assumption|].
  - apply kc_build_refs; [reflexivity | reflexivity | reflexivity | reflexivity | intros l E; rewrite E in te_items0; exact te_items0|].
    apply kc_build_refs; [reflexivity | reflexivity | reflexivity | reflexivity | intros l E; rewrite E in te_locs0; exact te_locs0|].
    apply kc_build_refs; [reflexivity | reflexivity | reflexivity | reflexivity | intros l E; rewrite E in te_chars0; exact te_chars0|]. kcs.
  - assert (Hst : text_ok (s "Status") (option_map str_of_Z (sc_status x))) by (destruct (sc_status x); [apply text_safe; apply str_of_Z_safe | exact I]).
    kcs. apply kc_put_kws; [apply kc_mk_fields | |].
    + intros f [<- | [<- | []]]; split; try reflexivity; assumption.
    + assert (Hty : forall l, kc l -> kc (build_scene_type (fst p) (snd p) l)).
      { intros l Hl. unfold build_scene_type. assert (Hy : text_ok (s "Field_SceneType") (snd p)).
        { clear -Hp. unfold scene_type_code in Hp. destruct (N.eqb _ 0); [injection Hp as <-; exact I|]. destruct (N.eqb _ 1); [injection Hp as <-; apply text_safe; split; [discriminate | reflexivity]|].
          destruct (N.eqb _ 2); [injection Hp as <-; apply text_safe; split; [discriminate | reflexivity]|]. destruct (N.eqb _ 3); [injection Hp as <-; apply text_safe; split; [discriminate | reflexivity] | discriminate]. }
        assert (Hl2 : kc (put_flag (s "Unused") (fst p) l)) by (apply kc_put_flag; [reflexivity | exact Hl]).
        destruct (snd p) as [y|]; [|apply kc_fields; [intros; apply kc_remove; assumption | exact Hl2]].
        destruct (has (s "Fields") (put_flag (s "Unused") (fst p) l)); [apply kc_fields; [intros; apply kc_put; [reflexivity | assumption | assumption] | exact Hl2]|].
        apply kc_app; [exact Hl2|]. constructor; [|constructor]. constructor; [reflexivity | exact I | right; reflexivity|]. constructor; [apply kc_leaf; [reflexivity | exact Hy] | constructor]. }
      assert (Hex : forall l, kc l -> kc (build_scene_export (sc_doNotExport x) l)).
      { intros l Hl. unfold build_scene_export. destruct (sc_doNotExport x) as [[|]|]; [| |exact Hl].
        - apply kc_remove. destruct (has (s "ExportCondSpecific") l); [exact Hl | apply kc_sub; [reflexivity | exact I | exact Hl]].
        - destruct (has (s "ExportCondSpecific") l && negb (has (s "ExportWhenRTF") l)); [apply kc_sub; [reflexivity | apply text_safe; exact safe_m1 | exact Hl] | exact Hl]. }
      apply Hex, Hty. apply kc_sub_new; [reflexivity | apply Hn|]. apply kc_sub_new; [reflexivity | apply Hn|]. kcs.
Qed.

(** ** Chapters *)
Record chapter_texts (c : chapter) : Prop := {
  ce_title : text_ok (s "Title") (ch_title c);
  ce_desc : text_ok (s "Desc") (ch_desc c);
  ce_scenes : ids_plain (ch_srtScenes c)
}.

Theorem kc_build_chapter : forall c k k1, chapter_texts c -> kc k -> build_chapter c k = Ok k1 -> kc k1.
Proof.
  intros c k k1 [] H Hb. unfold build_chapter in Hb. apply bind_ok in Hb. destruct Hb as ([unused [yT yC]] & Hp & Hb).
  assert (Hy : safe yT /\ safe yC).
  { clear -Hp. unfold chapter_type_code in Hp.
    repeat (destruct (N.eqb _ _); [injection Hp as <- <- <-; split; split; try discriminate; reflexivity|]). discriminate. }
  destruct Hy as [HyT HyC].
  destruct (set_element (s "Desc") (ch_desc c) (set_element (s "Title") (ch_title c) (k, 1))) as [k2 i2] eqn:E2.
  assert (K2 : kc k2).
  { assert (Q : k2 = fst (set_element (s "Desc") (ch_desc c) (set_element (s "Title") (ch_title c) (k, 1)))) by (rewrite E2; reflexivity). rewrite Q.
    destruct (set_element (s "Title") (ch_title c) (k, 1)) as [k3 i3] eqn:E3. apply kc_set_element; [reflexivity | assumption|].
    assert (Q3 : k3 = fst (set_element (s "Title") (ch_title c) (k, 1))) by (rewrite E3; reflexivity). rewrite Q3. apply kc_set_element; [reflexivity | assumption | exact H]. }
  assert (Fl : forall i l, kc l -> kc (insert_flag i (s "Unused") unused l)).
  { intros i l Hl. unfold insert_flag. destruct unused; [|apply kc_remove; exact Hl]. destruct (has (s "Unused") l); [exact Hl|]. apply kc_insert; [|exact Hl].
    apply kc_leaf; [reflexivity | apply text_safe; exact safe_m1]. }
  assert (Mk : forall i l, kc l -> kc (insert_at i (Elem (s "Fields") None []) l)).
  { intros i l Hl. apply kc_insert; [|exact Hl]. constructor; [reflexivity | exact I | left; reflexivity | constructor]. }
  assert (S1 : safe (s "1")) by (split; [discriminate | reflexivity]). assert (S0 : safe (s "0")) by (split; [discriminate | reflexivity]).
  assert (Cf : forall i f b l, name_ok f = true -> kc l -> kc (put_chapter_field i f b l)).
  { intros i f b l Hf Hl. unfold put_chapter_field. destruct b.
    - apply kc_fields; [intros z Hz; apply kc_put; [exact Hf | apply text_safe; exact S1 | exact Hz]|]. destruct (has (s "Fields") l); [exact Hl | apply Mk; exact Hl].
    - apply kc_fields; [|exact Hl]. intros z Hz. apply kc_set_text; [apply text_safe; exact S0 | exact Hz]. }
  cbv zeta in Hb.
  match type of Hb with (let (k, i) := set_element _ _ (set_element _ _ (?kk, ?ii)) in _) = _ => set (K := kk) in *; set (I0 := ii) in * end.
  assert (HK : kc K).
  { unfold K. match goal with |- kc (put_section_start ?i _ ?l) => set (L := l); set (J := i) end.
    assert (HL : kc L).
    { unfold L. apply kc_put_kws; [intros l Hl; apply Mk; exact Hl | intros f [] |]. unfold put_trash.
      destruct (is_true (ch_isTrash c)); [apply Cf; [reflexivity|] | apply kc_fields; [intros; apply kc_remove; assumption|]]; (apply Cf; [reflexivity|]; apply Cf; [reflexivity|]; apply kc_remove; apply Fl; exact K2). }
    assert (HI : kc (insert_at J (leaf (s "SectionStart") (Some (s "-1"))) L)) by (apply kc_insert; [apply kc_leaf; [reflexivity | apply text_safe; exact safe_m1] | exact HL]).
    unfold put_section_start. destruct (has (s "SectionStart") L).
    - destruct (ch_level c) as [[|p]|]; try exact HL. apply kc_remove. exact HL.
    - destruct (ch_level c) as [[|[p|p|]]|]; try exact HL. exact HI. }
  destruct (set_element (s "Type") (Some yT) (K, I0)) as [k4 i4] eqn:E4.
  destruct (set_element (s "ChapterType") (Some yC) (k4, i4)) as [k5 i5] eqn:E5. match type of Hb with (let (k, i) := ?u in _) = _ => change u with (set_element (s "ChapterType") (Some yC) (set_element (s "Type") (Some yT) (K, I0))) in Hb end. rewrite E4, E5 in Hb. injection Hb as <-.
  assert (Q4 : kc k4) by (replace k4 with (fst (set_element (s "Type") (Some yT) (K, I0))) by (rewrite E4; reflexivity); apply kc_set_element; [reflexivity | apply text_safe; exact HyT | exact HK]).
  assert (Q5 : kc k5) by (replace k5 with (fst (set_element (s "ChapterType") (Some yC) (k4, i4))) by (rewrite E5; reflexivity); apply kc_set_element; [reflexivity | apply text_safe; exact HyC | exact Q4]).
  apply (kc_build_refs (s "Scenes") (s "ScID") (Some (ch_srtScenes c)) k5); [reflexivity | reflexivity | reflexivity | reflexivity | | exact Q5]. intros l E. injection E as <-. assumption.
Qed.
