From Coq Require Import String List NArith ZArith Bool Lia Arith.
From Verif Require Import PyStr PyDict YwTree YwText YwTextProofs OdfXml OdfXmlProofs OdtText SpecOdf.
Import ListNotations.

(** ** Entities *)
Definition esc5 (c : N) : str :=
  if N.eqb c 38 then s "&amp;" else if N.eqb c 62 then s "&gt;" else if N.eqb c 60 then s "&lt;"
  else if N.eqb c 39 then s "&apos;" else if N.eqb c 34 then s "&quot;" else [c].

Lemma replace_char_app : forall c new a b, replace [c] new (a ++ b) = replace [c] new a ++ replace [c] new b.
Proof. intros. rewrite !replace_char. apply flat_map_app. Qed.
Lemma apply_cons : forall r rs t, apply_replacements (r :: rs) t = apply_replacements rs (replace (fst r) (snd r) t).
Proof. reflexivity. Qed.
Lemma apply_rs_app : forall a b t, apply_replacements (a ++ b) t = apply_replacements b (apply_replacements a t).
Proof. intros. apply fold_left_app. Qed.
Definition single (r : str * str) : Prop := exists c, fst r = [c].
Lemma apply_app : forall rs a b, Forall single rs -> apply_replacements rs (a ++ b) = apply_replacements rs a ++ apply_replacements rs b.
Proof.
  induction rs as [|r rs IH]; intros a b H; [reflexivity|]. apply Forall_cons_iff in H as [[c Hc] H].
  rewrite !apply_cons, Hc, replace_char_app. apply IH; exact H.
Qed.
Lemma apply_nil : forall rs, apply_replacements rs [] = [].
Proof. induction rs as [|r rs IH]; [reflexivity|]. rewrite apply_cons. exact IH. Qed.
Lemma apply_flat : forall rs (f : N -> str) t, Forall single rs -> (forall c, apply_replacements rs [c] = f c) -> apply_replacements rs t = flat_map f t.
Proof.
  intros rs f t H Hf. induction t as [|c t IH]; [apply apply_nil|]. change (c :: t) with ([c] ++ t). rewrite apply_app by exact H.
  rewrite Hf, IH. reflexivity.
Qed.
Lemma replace_one : forall c new x, replace [c] new [x] = if N.eqb c x then new else [x].
Proof. intros. rewrite replace_char. cbn. now rewrite app_nil_r. Qed.
Lemma odt_entities_single : Forall single ODT_ENTITIES.
Proof. repeat (constructor; [eexists; reflexivity|]). constructor. Qed.
Ltac by_char c k := destruct (N.eqb_spec c k) as [->|?]; [vm_compute; reflexivity|].
Lemma odt_entities : forall t, apply_replacements ODT_ENTITIES t = flat_map esc5 t.
Proof.
  intro t. apply apply_flat; [apply odt_entities_single|]. intro c. unfold esc5.
  by_char c 38%N. by_char c 62%N. by_char c 60%N. by_char c 39%N. by_char c 34%N.
  unfold ODT_ENTITIES. rewrite !apply_cons. cbn [fst snd].
  change (s "&") with [38%N]. change (s ">") with [62%N]. change (s "<") with [60%N]. change (s "'") with [39%N]. change (s """") with [34%N].
  repeat (rewrite replace_one; match goal with |- context [N.eqb ?a c] => rewrite (proj2 (N.eqb_neq a c)) by congruence end).
  reflexivity.
Qed.
Definition ODS_ENTITIES : list (str * str) := firstn 5 ODS_REPLACEMENTS.
Lemma ods_entities : forall t, apply_replacements ODS_ENTITIES t = flat_map esc5 t.
Proof.
  intro t. apply apply_flat; [repeat (constructor; [eexists; reflexivity|]); constructor|]. intro c. unfold esc5.
  by_char c 38%N. by_char c 62%N. by_char c 60%N. by_char c 39%N. by_char c 34%N.
  unfold ODS_ENTITIES, ODS_REPLACEMENTS. cbn [firstn]. rewrite !apply_cons. cbn [fst snd].
  change (s "&") with [38%N]. change (s ">") with [62%N]. change (s "<") with [60%N]. change (s "'") with [39%N]. change (s """") with [34%N].
  repeat (rewrite replace_one; match goal with |- context [N.eqb ?a c] => rewrite (proj2 (N.eqb_neq a c)) by congruence end).
  reflexivity.
Qed.

Lemma esc5_in : forall c x, In x (esc5 c) -> x = c \/ In x (s "&amp;gtlos quot").
Proof.
  intros c x. unfold esc5.
  destruct (N.eqb c 38); [intro H; right; revert H; vm_compute; tauto|].
  destruct (N.eqb c 62); [intro H; right; revert H; vm_compute; tauto|].
  destruct (N.eqb c 60); [intro H; right; revert H; vm_compute; tauto|].
  destruct (N.eqb c 39); [intro H; right; revert H; vm_compute; tauto|].
  destruct (N.eqb c 34); [intro H; right; revert H; vm_compute; tauto|].
  intros [->|[]]. now left.
Qed.
Lemma esc5_lexes : forall c, xml_char c = true -> exists k, lexes (esc5 c) [k] /\ k <> XChar 62 /\ (forall m, nests [k] [Data m] \/ m <> [c]) .
Proof.
  intros c Hc. unfold esc5.
  destruct (N.eqb_spec c 38) as [->|H1]. { exists (XText [38%N]). split; [lex_tag | split; [discriminate|]]. intro m. destruct (str_eq_dec m [38%N]) as [->|]; [left; apply nests_text | now right]. }
  destruct (N.eqb_spec c 62) as [->|H2]. { exists (XText [62%N]). split; [lex_tag | split; [discriminate|]]. intro m. destruct (str_eq_dec m [62%N]) as [->|]; [left; apply nests_text | now right]. }
  destruct (N.eqb_spec c 60) as [->|H3]. { exists (XText [60%N]). split; [lex_tag | split; [discriminate|]]. intro m. destruct (str_eq_dec m [60%N]) as [->|]; [left; apply nests_text | now right]. }
  destruct (N.eqb_spec c 39) as [->|H4]. { exists (XText [39%N]). split; [lex_tag | split; [discriminate|]]. intro m. destruct (str_eq_dec m [39%N]) as [->|]; [left; apply nests_text | now right]. }
  destruct (N.eqb_spec c 34) as [->|H5]. { exists (XText [34%N]). split; [lex_tag | split; [discriminate|]]. intro m. destruct (str_eq_dec m [34%N]) as [->|]; [left; apply nests_text | now right]. }
  exists (XChar c). split; [now apply lexes_char | split; [congruence|]]. intro m. destruct (str_eq_dec m [c]) as [->|]; [left; apply nests_char | now right].
Qed.
Lemma frag_esc5 : forall c, xml_char c = true -> c <> 13%N -> frag (esc5 c) [Data [c]].
Proof.
  intros c Hc H13. split.
  - intro H. apply esc5_in in H as [H|H]; [congruence|]. revert H. vm_compute. intuition discriminate.
  - destruct (esc5_lexes c Hc) as [k [L [K Nn]]]. exists [k]. split; [exact L | split; [intros [E|[]]; congruence|]].
    destruct (Nn [c]); [assumption | congruence].
Qed.
Definition chars (t : str) : list event := map (fun c => Data [c]) t.
Lemma frag_esc : forall t, xml_text t -> ~ In 13%N t -> frag (flat_map esc5 t) (chars t).
Proof.
  induction t as [|c t IH]; intros H Hc; [apply frag_nil|]. apply Forall_cons_iff in H as [H1 H2].
  change (chars (c :: t)) with ([Data [c]] ++ chars t). cbn [flat_map]. apply frag_app.
  - apply frag_esc5; [exact H1 | intro; apply Hc; now left].
  - apply IH; [exact H2 | intro; apply Hc; now right].
Qed.
(** ** Merging *)
Lemma merge_chars : forall t es, merge (chars t ++ es) = match t, merge es with [], r => r | _, Data u :: r => Data (t ++ u) :: r | _, r => Data t :: r end.
Proof.
  induction t as [|c t IH]; intro es; [reflexivity|]. change (chars (c :: t) ++ es) with (Data [c] :: (chars t ++ es)).
  cbn [merge]. rewrite IH. destruct t as [|d t]; [destruct (merge es) as [|[]]; reflexivity|].
  destruct (merge es) as [|[]]; reflexivity.
Qed.
Lemma merge_elem : forall n a t, merge (Start n a :: chars t ++ [End n]) = Start n a :: data t ++ [End n].
Proof. intros. cbn [merge]. rewrite merge_chars. destruct t; reflexivity. Qed.

Lemma paragraphs_merge : forall es cur, paragraphs_from cur (merge es) = paragraphs_from cur es.
Proof.
  induction es as [|e es IH]; intro cur; [reflexivity|].
  destruct e as [n a|n|t]; cbn [merge].
  - destruct cur; cbn [paragraphs_from]; [reflexivity|]. destruct (str_eqb n text_p); [apply IH | reflexivity].
  - destruct cur; cbn [paragraphs_from]; [|reflexivity]. destruct (str_eqb n text_p); [now rewrite IH | reflexivity].
  - destruct (merge es) as [|[n a|n|u] r] eqn:E.
    + destruct cur as [x|]; cbn [paragraphs_from]; rewrite <- IH; destruct t as [|y t]; cbn [paragraphs_from forallb]; try reflexivity.
    + destruct cur as [x|]; cbn [paragraphs_from]; rewrite <- IH; destruct t as [|y t]; try reflexivity.
    + destruct cur as [x|]; cbn [paragraphs_from]; rewrite <- IH; destruct t as [|y t]; try reflexivity.
      now rewrite app_nil_r.
    + destruct cur as [x|]; cbn [paragraphs_from]; rewrite <- IH; cbn [paragraphs_from].
      * now rewrite app_assoc.
      * rewrite forallb_app. now destruct (forallb xml_space t).
Qed.

(** ** Line breaks *)
Definition single_break (r : str) : Prop := match r with c :: _ => c <> 10%N | [] => True end.
Lemma break_ind : forall P : str -> Prop, P [] -> (forall r, P r -> P (10%N :: 10%N :: r)) -> (forall r, single_break r -> P r -> P (10%N :: r)) ->
  (forall c r, c <> 10%N -> P r -> P (c :: r)) -> forall t, P t.
Proof.
  intros P H0 H2 H1 Hc t. enough (H : forall n t, length t <= n -> P t) by (apply (H (length t)); lia).
  induction n as [|n IH]; intros u Hu; (destruct u as [|c u]; [exact H0|]); cbn [length] in Hu; [lia|].
  destruct (N.eq_dec c 10) as [->|Hne]; [|apply Hc; [exact Hne | apply IH; lia]].
  destruct u as [|d u]; [apply H1; [exact I | exact H0]|]. cbn [length] in Hu.
  destruct (N.eq_dec d 10) as [->|Hd]; [apply H2, IH; lia | apply H1; [exact Hd | apply IH; cbn; lia]].
Qed.
Lemma replace_skip : forall x p new a b, ~ In x a -> replace (x :: p) new (a ++ b) = a ++ replace (x :: p) new b.
Proof.
  intros x p new a b. induction a as [|c a IH]; intro H; [reflexivity|]. cbn [app].
  rewrite replace_miss. { rewrite IH; [reflexivity | intro; apply H; now right]. }
  cbn [prefixb]. rewrite (proj2 (N.eqb_neq x c)); [reflexivity | intros ->; apply H; now left].
Qed.

Definition P1 : str := s "</text:p>" ++ [10%N] ++ s "<text:p text:style-name=""First_20_line_20_indent"">".
Definition P2 : str := s "</text:p>" ++ [10%N] ++ s "<text:p text:style-name=""First_20_line_20_indent"" />" ++ [10%N] ++ s "<text:p text:style-name=""Text_20_body"">".
Fixpoint br (t : str) : str :=
  match t with
  | [] => []
  | c :: t' =>
      if N.eqb c 10 then
        match t' with
        | d :: t2 => if N.eqb d 10 then P2 ++ br t2 else P1 ++ br t'
        | [] => P1
        end
      else if N.eqb c 13 then 10%N :: br t' else esc5 c ++ br t'
  end.
Lemma br_2 : forall r, br (10%N :: 10%N :: r) = P2 ++ br r.
Proof. reflexivity. Qed.
Lemma br_1 : forall r, single_break r -> br (10%N :: r) = P1 ++ br r.
Proof. intros [|d r] H; [reflexivity|]. cbn [br]. change (N.eqb 10 10) with true. cbv iota. cbn in H. now rewrite (proj2 (N.eqb_neq d 10)). Qed.
Lemma br_c : forall c r, c <> 10%N -> br (c :: r) = (if N.eqb c 13 then [10%N] else esc5 c) ++ br r.
Proof. intros c r H. cbn [br]. rewrite (proj2 (N.eqb_neq c 10)) by exact H. now destruct (N.eqb c 13). Qed.

Lemma last_breaks : forall a b, apply_replacements (tl ODT_BREAKS) (a ++ b) = apply_replacements (tl ODT_BREAKS) a ++ apply_replacements (tl ODT_BREAKS) b.
Proof. intros. apply apply_app. repeat (constructor; [eexists; reflexivity|]). constructor. Qed.
Lemma last_breaks_id : forall a, ~ In 10%N a -> ~ In 13%N a -> apply_replacements (tl ODT_BREAKS) a = a.
Proof.
  intros a H1 H2. cbn [tl ODT_BREAKS]. rewrite !apply_cons. cbn [fst snd]. rewrite (replace_absent [10%N]).
  - unfold apply_replacements. cbn [fold_left]. apply replace_absent. apply containsb_none; [discriminate|]. intros c Hc [<-|[]]. contradiction.
  - apply containsb_none; [discriminate|]. intros c Hc [<-|[]]. contradiction.
Qed.
Lemma esc5_nobreak : forall c, c <> 10%N -> c <> 13%N -> ~ In 10%N (esc5 c) /\ ~ In 13%N (esc5 c).
Proof.
  intros c H1 H2. split; intro H; apply esc5_in in H as [H|H]; try congruence; revert H; vm_compute; intuition discriminate.
Qed.
Lemma odt_breaks : forall t, apply_replacements ODT_BREAKS (flat_map esc5 t) = br t.
Proof.
  intro t. enough (G : forall Q2 : str, apply_replacements (tl ODT_BREAKS) Q2 = P2 ->
    apply_replacements (tl ODT_BREAKS) (replace [10%N; 10%N] Q2 (flat_map esc5 t)) = br t) by exact (G (snd (hd ([], []) ODT_BREAKS)) eq_refl).
  intros Q2 HQ.
  pattern t; apply break_ind; clear t; [|intros r IH|intros r Hr IH|intros c r Hc IH].
  - reflexivity.
  - cbn [flat_map]. change (esc5 10) with [10%N]. cbn [app]. change (10%N :: 10%N :: flat_map esc5 r) with ([10%N; 10%N] ++ flat_map esc5 r).
    rewrite replace_hit by discriminate. rewrite last_breaks, HQ, IH. symmetry. apply br_2.
  - cbn [flat_map]. change (esc5 10) with [10%N]. cbn [app]. rewrite replace_miss.
    + change (10%N :: replace [10%N; 10%N] Q2 (flat_map esc5 r)) with ([10%N] ++ replace [10%N; 10%N] Q2 (flat_map esc5 r)).
      rewrite last_breaks, IH, br_1 by exact Hr. f_equal.
    + cbn [prefixb]. rewrite N.eqb_refl. destruct r as [|d r]; [reflexivity|]. cbn in Hr. cbn [flat_map].
      assert (E : match esc5 d with x :: _ => x <> 10%N | [] => False end).
      { unfold esc5. repeat match goal with |- context [N.eqb d ?k] => destruct (N.eqb d k); [vm_compute; discriminate|] end. exact Hr. }
      destruct (esc5 d) as [|x u]; [contradiction|]. cbn [app]. rewrite (proj2 (N.eqb_neq 10 x)); [reflexivity | congruence].
  - cbn [flat_map]. destruct (N.eq_dec c 13) as [->|H13].
    + change (esc5 13) with [13%N]. rewrite replace_skip by (intros [H|[]]; discriminate). rewrite last_breaks, IH, br_c by exact Hc. reflexivity.
    + destruct (esc5_nobreak c Hc H13) as [A B]. rewrite replace_skip by exact A. rewrite last_breaks, IH, br_c by exact Hc.
      rewrite (proj2 (N.eqb_neq c 13)) by exact H13. f_equal. now apply last_breaks_id.
Qed.

Definition a_first : attrs := [(s "text:style-name", s "First_20_line_20_indent")].
Definition a_body : attrs := [(s "text:style-name", s "Text_20_body")].
Fixpoint evs (t : str) : list event :=
  match t with
  | [] => []
  | c :: t' =>
      if N.eqb c 10 then
        match t' with
        | d :: t2 => if N.eqb d 10 then [End text_p; Data [10%N]; Start text_p a_first; End text_p; Data [10%N]; Start text_p a_body] ++ evs t2
                     else [End text_p; Data [10%N]; Start text_p a_first] ++ evs t'
        | [] => [End text_p; Data [10%N]; Start text_p a_first]
        end
      else Data [if N.eqb c 13 then 10%N else c] :: evs t'
  end.
Lemma evs_2 : forall r, evs (10%N :: 10%N :: r) = [End text_p; Data [10%N]; Start text_p a_first; End text_p; Data [10%N]; Start text_p a_body] ++ evs r.
Proof. reflexivity. Qed.
Lemma evs_1 : forall r, single_break r -> evs (10%N :: r) = [End text_p; Data [10%N]; Start text_p a_first] ++ evs r.
Proof. intros [|d r] H; [reflexivity|]. cbn [evs]. change (N.eqb 10 10) with true. cbv iota. cbn in H. now rewrite (proj2 (N.eqb_neq d 10)). Qed.
Lemma evs_c : forall c r, c <> 10%N -> evs (c :: r) = [Data [if N.eqb c 13 then 10%N else c]] ++ evs r.
Proof. intros c r H. cbn [evs]. now rewrite (proj2 (N.eqb_neq c 10)) by exact H. Qed.

(** a text inside a paragraph which may end it and begin others *)
Definition pfrag (w : str) (es : list event) : Prop := ~ In 13%N w /\ exists ts, lexes w ts /\ ~ In (XChar 62) ts /\
  forall m st more, nest (text_p :: m :: st) true (ts ++ more) = option_map (app es) (nest (text_p :: m :: st) true more).
Lemma pfrag_app : forall a b ea eb, pfrag a ea -> pfrag b eb -> pfrag (a ++ b) (ea ++ eb).
Proof.
  intros a b ea eb [Ha [ta [La [Ga Na]]]] [Hb [tb [Lb [Gb Nb]]]]. split; [rewrite in_app_iff; tauto|].
  exists (ta ++ tb). split; [now apply lexes_app | split; [rewrite in_app_iff; tauto|]].
  intros m st more. rewrite <- app_assoc, Na, Nb. apply option_map_app2.
Qed.
Lemma frag_pfrag : forall w es, frag w es -> pfrag w es.
Proof. intros w es [H [ts [L [G Nn]]]]. split; [exact H|]. exists ts. split; [exact L | split; [exact G|]]. intros. apply Nn. Qed.
Lemma pfrag_P1 : pfrag P1 [End text_p; Data [10%N]; Start text_p a_first].
Proof.
  split; [vm_compute; intuition discriminate|]. exists ([XEnd text_p] ++ [XChar 10] ++ [XStart text_p a_first]).
  split; [apply lexes_app; [lex_tag | apply lexes_app; lex_tag] | split; [cbn; intuition discriminate|]].
  intros m st more. cbn [app nest]. rewrite str_eqb_refl. now destruct (nest (text_p :: m :: st) true more).
Qed.
Lemma pfrag_P2 : pfrag P2 [End text_p; Data [10%N]; Start text_p a_first; End text_p; Data [10%N]; Start text_p a_body].
Proof.
  split; [vm_compute; intuition discriminate|]. exists ([XEnd text_p] ++ [XChar 10] ++ [XEmpty text_p a_first] ++ [XChar 10] ++ [XStart text_p a_body]).
  split; [repeat (apply lexes_app; [lex_tag|]); lex_tag | split; [cbn; intuition discriminate|]].
  intros m st more. cbn [app nest]. rewrite str_eqb_refl. now destruct (nest (text_p :: m :: st) true more).
Qed.
Lemma pfrag_br : forall t, xml_text t -> pfrag (br t) (evs t).
Proof.
  intros t. pattern t; apply break_ind; clear t; [|intros r IH|intros r Hr IH|intros c r Hc IH]; try intro H.
  - apply frag_pfrag, frag_nil.
  - rewrite br_2, evs_2. apply pfrag_app; [apply pfrag_P2|]. apply IH. do 2 (apply Forall_inv_tail in H). exact H.
  - rewrite br_1, evs_1 by exact Hr. apply pfrag_app; [apply pfrag_P1|]. apply IH. apply Forall_inv_tail in H. exact H.
  - rewrite br_c, evs_c by exact Hc. apply Forall_cons_iff in H as [H1 H2]. apply pfrag_app; [|now apply IH].
    apply frag_pfrag. destruct (N.eqb_spec c 13) as [->|Hn]; [apply frag_char; easy | now apply frag_esc5].
Qed.
(** the paragraph around it *)
Lemma frag_para : forall w es o a, pfrag w es -> lexes o [XStart text_p a] -> ~ In 13%N o -> frag (o ++ w ++ s "</text:p>") (Start text_p a :: es ++ [End text_p]).
Proof.
  intros w es o a [Hw [ts [L [G Nn]]]] Lo Ho. split; [rewrite !in_app_iff; intros [H|[H|H]]; try contradiction; revert H; vm_compute; intuition discriminate|].
  exists ([XStart text_p a] ++ ts ++ [XEnd text_p]). split; [|split].
  - apply lexes_app; [exact Lo | apply lexes_app; [exact L | lex_tag]].
  - rewrite !in_app_iff. intros [[H|[]]|[H|[H|[]]]]; try discriminate; contradiction.
  - intros m st more. cbn [app nest]. rewrite <- app_assoc, Nn. cbn [app nest]. rewrite str_eqb_refl.
    destruct (nest (m :: st) true more); cbn; [now rewrite <- app_assoc | reflexivity].
Qed.
Definition glue (cur : str) (ps : list str) : list str := match ps with p :: ps => (cur ++ p) :: ps | [] => [] end.
Lemma splitc_10 : forall r, splitc 10 (10%N :: r) = [] :: splitc 10 r.
Proof. reflexivity. Qed.
Lemma splitc_c : forall c r, c <> 10%N -> exists p ps, splitc 10 r = p :: ps /\ splitc 10 (c :: r) = (c :: p) :: ps.
Proof.
  intros c r H. destruct (splitc 10 r) as [|p ps] eqn:E; [now apply splitc_nonempty in E|]. exists p, ps. split; [reflexivity|].
  cbn [splitc]. rewrite (proj2 (N.eqb_neq 10 c)) by congruence. now rewrite E.
Qed.
Lemma paras_evs : forall t cur more, paragraphs_from (Some cur) (evs t ++ End text_p :: more) = option_map (app (glue cur (map breaks (lines t)))) (paragraphs_from None more).
Proof.
  unfold lines. intros t. pattern t; apply break_ind; clear t; [|intros r IH|intros r Hr IH|intros c r Hc IH]; intros cur more.
  - cbn [evs app paragraphs_from splitc map breaks glue]. rewrite str_eqb_refl, app_nil_r. destruct (paragraphs_from None more); reflexivity.
  - rewrite evs_2, <- app_assoc, !splitc_10. cbn [app paragraphs_from]. rewrite str_eqb_refl. cbn [map breaks glue]. rewrite IH, app_nil_r.
    change (forallb xml_space [10%N]) with true. cbv iota. destruct (splitc 10 r) as [|p ps] eqn:E; [now apply splitc_nonempty in E|].
    destruct (paragraphs_from None more); reflexivity.
  - rewrite evs_1 by exact Hr. rewrite <- app_assoc, !splitc_10. cbn [app paragraphs_from]. rewrite str_eqb_refl. cbn [map breaks glue]. rewrite IH, app_nil_r.
    change (forallb xml_space [10%N]) with true. cbv iota. destruct (splitc 10 r) as [|p ps] eqn:E; [now apply splitc_nonempty in E|].
    destruct (paragraphs_from None more); reflexivity.
  - rewrite evs_c by exact Hc. destruct (splitc_c c r Hc) as [p [ps [E1 E2]]]. rewrite E2. cbn [app paragraphs_from]. rewrite IH, E1.
    cbn [map breaks glue]. rewrite <- app_assoc. reflexivity.
Qed.
