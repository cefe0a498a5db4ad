From Coq Require Import List NArith ZArith Bool Lia Arith.
From Verif Require Import PyStr PyDict NovelModel WordCount NovelOps Spec GlobalsProofs.
Import ListNotations.

(** ** languages *)

Lemma upto_bracket_spec : forall t g r, upto_bracket t = Some (g, r) ->
  t = g ++ 93%N :: r /\ ~ In 93%N g /\ ~ In nl g.
Proof.
  induction t as [|c t IH]; intros g r H; [discriminate|]. cbn [upto_bracket] in H.
  destruct (N.eqb_spec c 93) as [-> | H93].
  - injection H as <- <-. cbn. tauto.
  - destruct (N.eqb_spec c nl) as [-> | Hnl]; [discriminate|].
    destruct (upto_bracket t) as [[g' r']|] eqn:E; [|discriminate].
    injection H as <- <-. destruct (IH _ _ eq_refl) as [-> [H1 H2]].
    cbn [In app]. intuition congruence.
Qed.

Lemma upto_bracket_complete : forall g r, ~ In nl g -> ~ In 93%N g -> upto_bracket (g ++ 93%N :: r) = Some (g, r).
Proof.
  induction g as [|c g IH]; intros r Hn Hb; [reflexivity|]. cbn [app upto_bracket].
  destruct (N.eqb_spec c 93) as [-> | H93]; [elim Hb; left; reflexivity|].
  destruct (N.eqb_spec c nl) as [-> | Hnl]; [elim Hn; left; reflexivity|].
  rewrite IH; [reflexivity | intro; apply Hn; now right | intro; apply Hb; now right].
Qed.

Lemma upto_bracket_none : forall t, upto_bracket t = None -> forall g r, t = g ++ 93%N :: r -> In nl g.
Proof.
  induction t as [|c t IH]; intros H g r Hg; [destruct g; discriminate|]. cbn [upto_bracket] in H.
  destruct (N.eqb_spec c 93) as [-> | H93]; [discriminate|].
  destruct g as [|x g]; [cbn in Hg; congruence|]. injection Hg as <- Hg.
  destruct (N.eqb_spec c nl) as [-> | Hnl]; [left; reflexivity|].
  destruct (upto_bracket t) as [[g' r']|] eqn:E; [discriminate|].
  right. eapply IH; [reflexivity | exact Hg].
Qed.

Definition lopen := s "[lang=".

Lemma lang_at_spec : forall t g r, lang_at t = Some (g, r) ->
  t = s "[lang=" ++ g ++ s "]" ++ r /\ ~ In 93%N g /\ ~ In 10%N g.
Proof.
  intros t g r H. unfold lang_at in H. destruct (prefixb (s "[lang=") t) eqn:E; [|discriminate].
  apply prefixb_spec in E as [t' ->]. change (skipn 6 (s "[lang=" ++ t')) with t' in H.
  apply upto_bracket_spec in H as [-> [H1 H2]]. auto.
Qed.

Lemma lang_at_none : forall t c b, lang_at t = None -> t = s "[lang=" ++ c ++ s "]" ++ b -> In 10%N c.
Proof.
  intros t c b H ->. unfold lang_at in H. rewrite prefixb_app in H.
  change (skipn 6 (s "[lang=" ++ c ++ s "]" ++ b)) with (c ++ s "]" ++ b) in H.
  eapply upto_bracket_none in H; [exact H|]. reflexivity.
Qed.

(** leftmost match *)
Lemma lang_search_spec : forall t g r, lang_search t = Some (g, r) ->
  exists a, t = a ++ s "[lang=" ++ g ++ s "]" ++ r /\ ~ In 93%N g /\ ~ In 10%N g /\
            forall a' c b, t = a' ++ s "[lang=" ++ c ++ s "]" ++ b -> ~ In 10%N c -> length a <= length a'.
Proof.
  induction t as [|x t IH]; intros g r H.
  - discriminate.
  - cbn [lang_search] in H. destruct (lang_at (x :: t)) as [[g0 r0]|] eqn:E.
    + injection H as <- <-. exists []. apply lang_at_spec in E as [E [H1 H2]].
      repeat split; [exact E | exact H1 | exact H2 |]. intros; cbn; lia.
    + apply IH in H as [a [-> [H1 [H2 H3]]]]. exists (x :: a). repeat split; [exact H1 | exact H2 |].
      intros a' c b Hab Hn. destruct a' as [|y a'].
      * exfalso. apply Hn. eapply lang_at_none; [exact E | exact Hab].
      * injection Hab as _ Hab. cbn [length]. apply H3 in Hab; [lia | exact Hn].
Qed.

Lemma lang_search_none : forall t, lang_search t = None ->
  forall a c b, t = a ++ s "[lang=" ++ c ++ s "]" ++ b -> In 10%N c.
Proof.
  induction t as [|x t IH]; intros H a c b Hab.
  - destruct a; discriminate.
  - cbn [lang_search] in H. destruct (lang_at (x :: t)) as [[g0 r0]|] eqn:E; [discriminate|].
    destruct a as [|y a].
    + eapply lang_at_none; [exact E | exact Hab].
    + injection Hab as _ Hab. eapply IH; [exact H | exact Hab].
Qed.

Lemma languages_of_tags : forall fuel t, length t <= fuel -> lang_tags t (languages_of fuel t).
Proof.
  induction fuel as [|f IH]; intros t Hl.
  - destruct t; [|cbn in Hl; lia]. cbn. apply lt_none. intros a c b Hab. destruct a; discriminate.
  - cbn [languages_of]. destruct (lang_search t) as [[g r]|] eqn:E.
    + apply lang_search_spec in E as [a [-> [H1 [H2 H3]]]].
      apply lt_first; [exact H1 | exact H2 | exact H3 |]. apply IH.
      rewrite !app_length in Hl. cbn in Hl. lia.
    + apply lt_none. intros a c b Hab. eapply lang_search_none; [exact E | exact Hab].
Qed.

Lemma add_language_fold : forall l acc, fold_left add_language l acc = acc ++ dedup acc l.
Proof.
  induction l as [|x l IH]; intro acc; cbn [fold_left dedup].
  - rewrite app_nil_r. reflexivity.
  - rewrite IH. unfold add_language. destruct (smem x acc); [reflexivity|].
    rewrite <- app_assoc. reflexivity.
Qed.

Lemma dedup_app : forall l1 l2 acc, acc ++ dedup acc (l1 ++ l2) = (acc ++ dedup acc l1) ++ dedup (acc ++ dedup acc l1) l2.
Proof. intros l1 l2 acc. rewrite <- !add_language_fold. apply fold_left_app. Qed.

Lemma dedup_first_occ : forall l acc, dedup acc l = first_occ acc l.
Proof.
  induction l as [|x l IH]; intro acc; cbn [dedup first_occ]; [reflexivity|].
  destruct (in_dec str_eq_dec x acc) as [Hi | Hn].
  - apply smem_In in Hi. rewrite Hi. apply IH.
  - apply smem_false in Hn. rewrite Hn. rewrite IH. reflexivity.
Qed.

Definition content_tags (x : scene) : list str :=
  match sc_content x with Some t => languages_of (length t) t | None => [] end.

Lemma scene_languages_eq : forall ls x, scene_languages ls x = ls ++ dedup ls (content_tags x).
Proof.
  intros ls x. unfold scene_languages, content_tags.
  destruct (sc_content x) as [[|c t]|]; try (cbn; rewrite app_nil_r; reflexivity).
  apply add_language_fold.
Qed.

Lemma scenes_languages_fold : forall l ls,
  fold_left scene_languages l ls = ls ++ dedup ls (flat_map content_tags l).
Proof.
  induction l as [|x l IH]; intro ls; cbn [fold_left flat_map].
  - cbn. rewrite app_nil_r. reflexivity.
  - rewrite IH, scene_languages_eq, dedup_app. reflexivity.
Qed.

Lemma get_languages_spec : forall n, exists tagss,
  Forall2 (fun sc tags => match sc_content sc with Some t => lang_tags t tags | None => tags = [] end)
          (map snd (nv_scenes n)) tagss /\
  get_languages n = set_nv_languages (Some (first_occ [] (concat tagss))) n.
Proof.
  intro n. exists (map content_tags (map snd (nv_scenes n))). split.
  - induction (map snd (nv_scenes n)) as [|x l IH]; cbn [map]; constructor; [|exact IH].
    unfold content_tags. destruct (sc_content x) as [t|]; [apply languages_of_tags; lia | reflexivity].
  - unfold get_languages. rewrite scenes_languages_fold, dedup_first_occ. cbn [app].
    rewrite flat_map_concat_map. reflexivity.
Qed.

Lemma first_occ_in : forall l acc x, In x (first_occ acc l) <-> In x l /\ ~ In x acc.
Proof.
  induction l as [|y l IH]; intros acc x; cbn [first_occ].
  - cbn. tauto.
  - destruct (in_dec str_eq_dec y acc) as [Hi | Hn].
    + rewrite IH. cbn [In]. intuition congruence.
    + cbn [In]. rewrite IH, in_app_iff. cbn [In].
      destruct (str_eq_dec y x) as [-> | Hne]; intuition congruence.
Qed.

Lemma first_occ_nodup : forall l acc, NoDup (first_occ acc l).
Proof.
  induction l as [|y l IH]; intros acc; cbn [first_occ]; [constructor|].
  destruct (in_dec str_eq_dec y acc) as [Hi | Hn]; [apply IH|].
  constructor; [|apply IH]. rewrite first_occ_in, in_app_iff. cbn [In]. tauto.
Qed.

Lemma lang_tags_sound : forall t l c, lang_tags t l -> In c l ->
  exists a b, t = a ++ s "[lang=" ++ c ++ s "]" ++ b.
Proof.
  intros t l c H. induction H as [t Hn | a g b l H1 H2 H3 H IH]; intro Hc; [contradiction|].
  destruct Hc as [<- | Hc]; [exists a, b; reflexivity|].
  destruct (IH Hc) as [a' [b' ->]]. exists (a ++ s "[lang=" ++ g ++ s "]" ++ a'), b'.
  rewrite <- !app_assoc. reflexivity.
Qed.

(** if two texts are equal and one head is not longer than the other it is a prefix *)
Lemma app_prefix_cases : forall {A} (a b c d : list A), a ++ b = c ++ d ->
  (exists m, c = a ++ m /\ b = m ++ d) \/ (exists m, a = c ++ m /\ d = m ++ b /\ m <> []).
Proof.
  intros A a. induction a as [|x a IH]; intros b c d H.
  - left. exists c. auto.
  - destruct c as [|y c].
    + right. exists (x :: a). cbn in H. repeat split; [|discriminate]. now rewrite <- H.
    + injection H as -> H. destruct (IH _ _ _ H) as [[m [-> ->]] | [m [-> [-> Hm]]]].
      * left. exists m. auto.
      * right. exists m. auto.
Qed.

Lemma app_split_at : forall {A} (a b c d : list A) x, a ++ b = c ++ x :: d -> ~ In x a ->
  exists e, b = e ++ x :: d /\ c = a ++ e.
Proof.
  intros A a. induction a as [|y a IH]; intros b c d x H Hn.
  - exists c. auto.
  - destruct c as [|z c].
    + cbn in H. injection H as -> _. elim Hn. left; reflexivity.
    + injection H as -> H. apply IH in H as [e [-> ->]]; [|intro Hi; apply Hn; right; exact Hi].
      exists e. auto.
Qed.

Lemma lang_tags_complete : forall t l, lang_tags t l -> forall a c b,
  t = a ++ s "[lang=" ++ c ++ s "]" ++ b -> ~ In 93%N c -> ~ In 10%N c ->
  exists x, In x l /\ (x = c \/ exists y, x = y ++ s "[lang=" ++ c).
Proof.
  intros t l H. induction H as [t Hn | a0 g r l H1 H2 H3 H IH]; intros a c b Ht Hb Hl.
  - exfalso. apply Hl. eapply Hn. exact Ht.
  - pose proof (H3 _ _ _ Ht Hl) as Hle.
    destruct (app_prefix_cases _ _ _ _ Ht) as [[m [Ha Hm]] | [m [Ha [_ Hm]]]].
    2:{ exfalso. subst a0. rewrite app_length in Hle. destruct m; [congruence | cbn in Hle; lia]. }
    (* Hm : "[lang=" ++ g ++ "]" ++ r = m ++ "[lang=" ++ c ++ "]" ++ b *)
    clear Ht Hle H3. subst a.
    destruct (app_prefix_cases (s "[lang=" ++ g ++ s "]") r m (s "[lang=" ++ c ++ s "]" ++ b)) as [[m' [Hm1 Hm2]] | [m' [Hm1 [Hm2 Hm3]]]].
    { rewrite <- !app_assoc. exact Hm. }
    + (* the tag lies behind the first one *)
      destruct (IH _ _ _ Hm2 Hb Hl) as [x [Hx Hxc]]. exists x. split; [right; exact Hx | exact Hxc].
    + (* the tag starts inside the first one *)
      assert (Hend : exists e, m' = (s "[lang=" ++ c) ++ s "]" ++ e /\ (e = [] )).
      { (* m' ends with "]" and its other characters are not "]" unless m' begins inside *)
        assert (Hsuf : exists m0, m' = m0 ++ s "]" /\ s "[lang=" ++ g = m ++ m0).
        { destruct (exists_last Hm3) as [m0 [z Hz]]. subst m'.
          rewrite !app_assoc in Hm1. change (s "]") with [93%N] in Hm1.
          apply app_inj_tail in Hm1 as [Hm1 <-]. exists m0. split; [reflexivity | rewrite Hm1; reflexivity]. }
        destruct Hsuf as [m0 [-> Hg]].
        assert (Hm0 : ~ In 93%N m0).
        { intro Hi. assert (Hi' : In 93%N (s "[lang=" ++ g)) by (rewrite Hg; apply in_or_app; right; exact Hi).
          apply in_app_or in Hi' as [Hi' | Hi']; [|contradiction].
          revert Hi'. lits. cbn. intuition discriminate. }
        rewrite <- app_assoc in Hm2.
        assert (Hc' : ~ In 93%N (s "[lang=" ++ c)).
        { intro Hi. apply in_app_or in Hi as [Hi | Hi]; [|contradiction].
          revert Hi. lits. cbn. intuition discriminate. }
        assert (Heq : m0 = s "[lang=" ++ c).
        { rewrite app_assoc in Hm2. change (s "]" ++ b) with (93%N :: b) in Hm2.
          change (s "]" ++ r) with (93%N :: r) in Hm2.
          clear -Hm2 Hm0 Hc'. revert m0 Hm0 Hm2 Hc'. generalize (s "[lang=" ++ c). 
          intro w. induction w as [|x w IHw]; intros m0 Hm0 Hm2 Hc'.
          - destruct m0 as [|y m0]; [reflexivity|]. cbn in Hm2. injection Hm2 as <- _.
            elim Hm0. left; reflexivity.
          - destruct m0 as [|y m0].
            + cbn in Hm2. injection Hm2 as -> _. elim Hc'. left; reflexivity.
            + injection Hm2 as -> Hm2. f_equal. apply IHw; [intro; apply Hm0; now right | exact Hm2 | intro; apply Hc'; now right]. }
        exists []. rewrite Heq, app_nil_r. auto. }
      destruct Hend as [e [-> ->]]. rewrite app_nil_r in *.
      exists g. split; [left; reflexivity|].
      rewrite !app_assoc in Hm1. apply app_inv_tail in Hm1.
      rewrite <- !app_assoc in Hm1. destruct (app_prefix_cases _ _ _ _ Hm1) as [[y [Hy Hy2]] | [y [Hy [Hy2 Hyn]]]].
      * right. exists y. exact Hy2.
      * (* m is a proper prefix of "[lang=" *)
        left. destruct m as [|m1 m].
        -- cbn in Hm1. injection Hm1 as Hm1. exact Hm1.
        -- exfalso. revert Hy Hy2. lits. intros Hy Hy2.
           destruct y as [|y1 y]; [congruence|]. injection Hy2 as <- Hy2.
           cbn in Hy. injection Hy as <- Hy.
           repeat (destruct m as [|? m]; [cbn in Hy; discriminate | cbn in Hy; injection Hy as <- Hy]).
           destruct m; discriminate.
Qed.

(** ** check_locale *)

Definition two_two (n : novel) : Prop :=
  exists l c, nv_languageCode n = Some l /\ nv_countryCode n = Some c /\ length l = 2 /\ length c = 2.
Definition no_language (n : novel) : Prop :=
  nv_languageCode n = Some (s "zxx") /\ nv_countryCode n = Some (s "none").

Lemma locale_pair_spec : forall x l c, locale_pair x = Some (l, c) <->
  x = Some (l ++ s "_" ++ c) /\ ~ In 95%N l /\ ~ In 95%N c.
Proof.
  intros x l c. unfold locale_pair. split.
  - destruct x as [t|]; [|discriminate]. change (s "_") with [95%N]. rewrite split_splitc. intro H.
    destruct (splitc 95 t) as [|a [|b [|]]] eqn:E; try discriminate. injection H as -> ->.
    pose proof (join_splitc 95 t) as Hj. rewrite E in Hj. cbn in Hj. rewrite <- Hj.
    split; [reflexivity|]. split; eapply splitc_pieces; rewrite E; cbn; auto.
  - intros [-> [Hl Hc]]. change (s "_") with [95%N]. rewrite split_splitc.
    change (l ++ [95%N] ++ c) with (l ++ 95%N :: c). rewrite splitc_app_sep by exact Hl.
    rewrite splitc_nosep by exact Hc. reflexivity.
Qed.

Lemma check_locale_unset : forall loc dloc n l c,
  nv_languageCode n = None \/ nv_languageCode n = Some [] ->
  locale_pair loc = Some (l, c) \/ (locale_pair loc = None /\ locale_pair dloc = Some (l, c)) ->
  check_locale loc dloc n = Ok (set_nv_countryCode (Some c) (set_nv_languageCode (Some l) n)).
Proof.
  intros loc dloc n l c Hn Hl. unfold check_locale.
  assert (E : otruthy (nv_languageCode n) = false) by (destruct Hn as [-> | ->]; reflexivity).
  rewrite E. cbn [negb]. destruct Hl as [-> | [-> ->]]; reflexivity.
Qed.

Lemma check_locale_keep : forall loc dloc n, two_two n -> check_locale loc dloc n = Ok n.
Proof.
  intros loc dloc n [l [c [Hl [Hc [Hl2 Hc2]]]]]. unfold check_locale. rewrite Hl, Hc.
  destruct l as [|x l]; [discriminate|]. cbn [otruthy negb]. rewrite Hl2, Hc2. reflexivity.
Qed.

Lemma check_locale_reset : forall loc dloc n l0,
  nv_languageCode n = Some l0 -> l0 <> [] -> ~ two_two n ->
  check_locale loc dloc n =
  Ok (set_nv_countryCode (Some (s "none")) (set_nv_languageCode (Some (s "zxx")) n)).
Proof.
  intros loc dloc n l0 Hl Hne H. unfold check_locale. rewrite Hl.
  destruct l0 as [|x l]; [congruence|]. cbn [otruthy negb].
  destruct (nv_countryCode n) as [c|] eqn:Ec; [|reflexivity].
  destruct (Nat.eqb_spec (length (x :: l)) 2) as [E1|]; [|reflexivity].
  destruct (Nat.eqb_spec (length c) 2) as [E2|]; [|reflexivity].
  elim H. exists (x :: l), c. auto.
Qed.

Lemma check_locale_again : forall loc dloc n n1,
  check_locale loc dloc n = Ok n1 -> two_two n1 \/ no_language n1 -> check_locale loc dloc n1 = Ok n1.
Proof.
  intros loc dloc n n1 _ [H | [Hl Hc]]; [apply check_locale_keep; exact H|].
  rewrite (check_locale_reset loc dloc n1 (s "zxx")).
  - destruct n1; cbn in *. subst. reflexivity.
  - exact Hl.
  - discriminate.
  - intros [l [c [Hl' [_ [H2 _]]]]]. rewrite Hl in Hl'. injection Hl' as <-. discriminate.
Qed.

Lemma first_occ_in0 : forall l x, In x (first_occ [] l) <-> In x l.
Proof. intros l x. rewrite first_occ_in. cbn [In]. tauto. Qed.
