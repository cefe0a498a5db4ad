(** Formatted text as XML: nesting, and what is shown. *)
From Coq Require Import String List NArith ZArith Bool Lia Arith.
From Verif Require Import PyStr YwText WordCount WordCountProofs OdfXml OdfXmlProofs OdtText OdtTextProofs OdtTextProofs2 SpecOdf SpecFormat
  FormatWords FormatLines FormatRun FormatXml FormatXml2 FormatXml3 FormatXml4.
Import ListNotations.

Section Shown.
Variables (author : str) (languages : list str).
Hypothesis names : names_ok author languages.
Let tags := tags_of languages.
Let style := style_of languages.
Notation xw := (xw author languages).
Notation wordsX := (wordsX author languages).

Definition hw (p : piece) : str := match p with PH w => if invisible w then [] else box (flat_map esc5 w) | _ => xw p end.
Fixpoint wordsH (l : list piece) : list str :=
  match l with
  | [] => []
  | PB :: PB :: r => P2 :: wordsH r
  | p :: r => hw p :: wordsH r
  end.
Lemma wordsH_2 : forall r, wordsH (PB :: PB :: r) = P2 :: wordsH r.
Proof. reflexivity. Qed.
Lemma wordsH_1 : forall r, starts_pb r = false -> wordsH (PB :: r) = P1 :: wordsH r.
Proof. intros [|p r] H; [reflexivity|]. destruct p; (discriminate || reflexivity). Qed.
Lemma wordsH_c : forall p r, p <> PB -> wordsH (p :: r) = hw p :: wordsH r.
Proof. intros p r H. destruct p; try reflexivity. congruence. Qed.

Lemma digits_style : forall n, forallb style_char (str_of_N n) = true.
Proof.
  intro n. apply forallb_forall. intros c Hc. apply str_of_N_digits in Hc.
  assert (C : (c = 48 \/ c = 49 \/ c = 50 \/ c = 51 \/ c = 52 \/ c = 53 \/ c = 54 \/ c = 55 \/ c = 56 \/ c = 57)%N) by lia.
  repeat destruct C as [-> | C]; try (vm_compute; reflexivity). subst c. vm_compute. reflexivity.
Qed.
Lemma language_style_ok : forall ls i t v, language_style i ls t = Some v -> forallb style_char v = true.
Proof.
  induction ls as [|l ls IH]; intros i t v H; [discriminate|]. cbn [language_style] in H. destruct (str_eqb t (s "lang=" ++ l)); [|exact (IH _ _ _ H)].
  injection H as <-. cbn [app s list_ascii_of_string map forallb]. rewrite digits_style. vm_compute. reflexivity.
Qed.
Lemma style_ok : forall t, forallb style_char (style t) = true.
Proof.
  intro t. unfold style, style_of. destruct (str_eqb t (s "i")); [vm_compute; reflexivity|]. destruct (str_eqb t (s "b")); [vm_compute; reflexivity|].
  destruct (language_style 1 languages t) as [v|] eqn:E; [exact (language_style_ok _ _ _ _ E) | reflexivity].
Qed.
Lemma SO_no : forall t x, In x [91; 13]%N -> ~ In x (SO (style t)).
Proof.
  intros t x H Hi. destruct (esc_style _ (style_ok t)) as [_ [_ [_ [S1 S2]]]]. apply in_SO in Hi as [Hi | Hi].
  - destruct H as [<- | [<- | []]]; contradiction.
  - destruct H as [<- | [<- | []]]; revert Hi; nope.
Qed.
Lemma hidden_words : forall l, Forall (xpiece tags) l -> hide (concat (wordsX l)) = concat (wordsH l).
Proof.
  intro l. induction l as [|r IH|r Hr IH|p r Hp IH] using pbreak_ind; intro H; [reflexivity| | |].
  - rewrite wordsX_2, wordsH_2. cbn [concat]. rewrite hide_plain by nope. rewrite IH by now do 2 apply Forall_inv_tail in H. reflexivity.
  - rewrite wordsX_1, wordsH_1 by exact Hr. cbn [concat]. rewrite hide_plain by nope. rewrite IH by now apply Forall_inv_tail in H. reflexivity.
  - rewrite wordsX_c, wordsH_c by exact Hp. apply Forall_cons_iff in H as [H1 H2]. cbn [concat]. rewrite <- IH by exact H2.
    destruct p as [c | | t | t | w | |]; cbn [hw xpiece] in *.
    + apply hide_plain. unfold FormatXml3.xw. apply esc_no; [now apply char_not in H1 | nope].
    + apply hide_plain. nope.
    + apply hide_plain. apply SO_no. now left.
    + apply hide_plain. nope.
    + unfold FormatXml3.xw. rewrite hide_box; [now rewrite invisible_esc|]. split; apply esc_flat_no; try nope; apply (box_no w _ (proj1 H1)); inl.
    + apply hide_plain. unfold FormatXml3.xw. apply (AO_no author languages names). inl.
    + apply hide_plain. nope.
Qed.

(** ** Nesting *)
Definition spans (sp : list str) : list str := repeat text_span (length sp) ++ [text_p].
Definition frames (p : pplace) : list str := match p with PW sp => spans sp | PN sp _ _ => text_p :: annotation :: spans sp end.
Definition run (w : str) (es : list event) (p p' : pplace) : Prop := ~ In 13%N w /\ exists ts, lexes w ts /\ ~ In (XChar 62) ts /\
  forall m st more, nest (frames p ++ m :: st) true (ts ++ more) = option_map (app es) (nest (frames p' ++ m :: st) true more).
Definition placed (p : pplace) : place := match p with PW sp => Within (map style sp) | PN sp ps cur => Notes (map style sp) author ps cur end.
Definition shows (es : list event) (p : pplace) (a : list atom) (p' : pplace) : Prop :=
  forall rest, shown_from (placed p) (es ++ rest) = option_map (app (map (dress languages) a)) (shown_from (placed p') rest).
Lemma run_app : forall a b ea eb p p1 p2, run a ea p p1 -> run b eb p1 p2 -> run (a ++ b) (ea ++ eb) p p2.
Proof.
  intros a b ea eb p p1 p2 [Ha [ta [La [Ga Na]]]] [Hb [tb [Lb [Gb Nb]]]]. split; [rewrite in_app_iff; tauto|].
  exists (ta ++ tb). split; [now apply lexes_app | split; [rewrite in_app_iff; tauto|]]. intros m st more. rewrite <- app_assoc, Na, Nb.
  destruct (nest (frames p2 ++ m :: st) true more); cbn [option_map]; [now rewrite app_assoc | reflexivity].
Qed.
Lemma shows_app : forall ea eb p a p1 b p2, shows ea p a p1 -> shows eb p1 b p2 -> shows (ea ++ eb) p (a ++ b) p2.
Proof.
  intros ea eb p a p1 b p2 Ha Hb rest. rewrite <- app_assoc, Ha, Hb. destruct (shown_from (placed p2) rest); cbn [option_map]; [now rewrite map_app, app_assoc | reflexivity].
Qed.
Lemma run_nil : forall p, run [] [] p p.
Proof. intro p. split; [tauto|]. exists []. split; [apply lexes_nil | split; [tauto|]]. intros. cbn [app]. destruct (nest _ true more); reflexivity. Qed.
Lemma shows_nil : forall p, shows [] p [] p.
Proof. intros p rest. cbn [app map]. destruct (shown_from (placed p) rest); reflexivity. Qed.
Lemma frames_cons : forall p m st, exists x y, frames p ++ m :: st = x :: y.
Proof. intros [sp | sp ps cur] m st; unfold frames, spans; [destruct (length sp)|]; cbn; eauto. Qed.
Lemma run_frag : forall w es p p', frag w es -> frames p' = frames p -> run w es p p'.
Proof.
  intros w es p p' [H [ts [L [G Nn]]]] Ef. split; [exact H|]. exists ts. split; [exact L | split; [exact G|]]. intros m st more.
  rewrite Ef. destruct (frames_cons p m st) as [x [y E]]. rewrite E. apply Nn.
Qed.
Lemma shows_char : forall c sp, shows [Data [c]] (PW sp) [Glyph c sp] (PW sp).
Proof. intros c sp rest. cbn [app placed shown_from glyphs map dress]. reflexivity. Qed.
Lemma shows_chars : forall t sp, shows (chars t) (PW sp) (glyphs sp t) (PW sp).
Proof.
  induction t as [|c t IH]; intro sp; [apply shows_nil|]. change (chars (c :: t)) with ([Data [c]] ++ chars t). change (glyphs sp (c :: t)) with ([Glyph c sp] ++ glyphs sp t).
  eapply shows_app; [apply shows_char | apply IH].
Qed.
Lemma creating : forall t sp c ps rest, shown_from (Creating sp c ps) (chars t ++ rest) = shown_from (Creating sp (c ++ t) ps) rest.
Proof.
  induction t as [|x t IH]; intros sp c ps rest; [now rewrite app_nil_r|]. cbn [chars map app shown_from]. fold (chars t). rewrite IH, <- app_assoc. reflexivity.
Qed.
Lemma author_frag : frag author (chars author).
Proof.
  destruct names as [H _]. rewrite <- (esc_plain author H) at 1. apply frag_esc.
  - eapply Forall_impl; [|exact H]. intros c Hc. unfold plain_char in Hc. now apply andb_true_iff in Hc.
  - apply (plain_no author _ H). inl.
Qed.
Definition ev_open : list event := [Start annotation []; Start dc_creator []] ++ chars author ++ [End dc_creator; Start text_p []].
Lemma run_note : forall sp, run (AO author) ev_open (PW sp) (PN sp [] []).
Proof.
  intro sp. destruct author_frag as [F1 [ts [L [G Nn]]]]. split.
  - unfold AO. rewrite !in_app_iff. intros [H | [H | H]]; [revert H; nope | contradiction | revert H; nope].
  - exists (([XStart annotation []] ++ [XStart dc_creator []]) ++ ts ++ ([XEnd dc_creator] ++ [XStart text_p []])). split; [|split].
    + unfold AO. apply lexes_app; [|apply lexes_app; [exact L|]].
      * change (s "<office:annotation><dc:creator>") with (s "<office:annotation>" ++ s "<dc:creator>"). apply lexes_app; lex_tag.
      * change (s "</dc:creator><text:p>") with (s "</dc:creator>" ++ s "<text:p>"). apply lexes_app; lex_tag.
    + rewrite !in_app_iff. cbn [In]. intuition discriminate.
    + intros m st more. destruct (frames_cons (PW sp) m st) as [x [y E]]. rewrite <- !app_assoc. cbn [app]. rewrite E.
      cbn [nest]. rewrite Nn. cbn [nest]. rewrite str_eqb_refl. unfold frames. change ((text_p :: annotation :: spans sp) ++ m :: st) with (text_p :: annotation :: (frames (PW sp) ++ m :: st)). rewrite E.
      unfold ev_open. destruct (nest _ true more); cbn [option_map app]; [now rewrite <- app_assoc | reflexivity].
Qed.
Lemma shows_note : forall sp, shows ev_open (PW sp) [] (PN sp [] []).
Proof.
  intros sp rest. unfold ev_open. rewrite <- !app_assoc. cbn [app placed shown_from]. change (str_eqb annotation text_span) with false. change (str_eqb annotation annotation) with true. cbv iota.
  change (str_eqb dc_creator dc_creator) with true. cbv iota. rewrite creating. cbn [app shown_from]. change (str_eqb dc_creator dc_creator) with true. cbv iota.
  change (str_eqb text_p dc_creator) with false. change (str_eqb text_p text_p) with true. cbv iota. cbn [map].
  now destruct (shown_from _ rest).
Qed.
(** a document place where a line can be broken *)
Definition breakable (p : pplace) : Prop := match p with PW sp => sp = [] | PN _ _ _ => True end.
Lemma frames_break : forall p m st, breakable p -> exists x y, frames p ++ m :: st = text_p :: x :: y.
Proof. intros [sp | sp ps cur] m st H; [rewrite H; cbn; eauto | cbn; eauto]. Qed.
Lemma run_pfrag : forall w es p p', pfrag w es -> breakable p -> frames p' = frames p -> run w es p p'.
Proof.
  intros w es p p' [H [ts [L [G Nn]]]] Hp Ef. split; [exact H|]. exists ts. split; [exact L | split; [exact G|]]. intros m st more.
  rewrite Ef. destruct (frames_break p m st Hp) as [x [y E]]. rewrite E. apply Nn.
Qed.
Definition ev1 : list event := [End text_p; Data [10%N]; Start text_p a_first].
Definition ev2 : list event := [End text_p; Data [10%N]; Start text_p a_first; End text_p; Data [10%N]; Start text_p a_body].
Lemma shows_break : forall p a p' at1 at2, kstep author false p PB = Some (a, p') ->
  shows [End text_p; Data [10%N]; Start text_p at1] p a p' /\ breakable p /\ frames p' = frames p /\
  (forall a2 p2, kstep author false p' PB = Some (a2, p2) -> shows [End text_p; Data [10%N]; Start text_p at1; End text_p; Data [10%N]; Start text_p at2] p (a ++ a2) p2 /\ frames p2 = frames p).
Proof.
  intros p a p' at1 at2 H.
  assert (G : forall q b q' x, kstep author false q PB = Some (b, q') -> shows [End text_p; Data [10%N]; Start text_p x] q b q' /\ breakable q /\ frames q' = frames q).
  { intros q b q' x Hk. destruct q as [sp | sp ps cur].
    - cbn [kstep] in Hk. destruct sp as [|u sp]; [|discriminate]. injection Hk as <- <-. split; [|split; reflexivity]. intro rest. cbn [app placed map shown_from].
      change (str_eqb text_p text_span) with false. change (str_eqb text_p text_p) with true. cbv iota. cbn [shown_from forallb xml_space]. cbn [dress app]. reflexivity.
    - cbn [kstep] in Hk. injection Hk as <- <-. split; [|split; [exact I | reflexivity]]. intro rest. cbn [app placed map shown_from].
      change (str_eqb text_p text_p) with true. cbv iota. cbn [shown_from forallb xml_space]. change (str_eqb text_p dc_creator) with false. cbv iota. cbn [map].
      match goal with |- _ = option_map _ ?o => now destruct o end. }
  destruct (G p a p' at1 H) as [G1 [G2 G3]]. split; [exact G1 | split; [exact G2 | split; [exact G3|]]]. intros a2 p2 H2. destruct (G p' a2 p2 at2 H2) as [K1 [K2 K3]].
  split; [|now rewrite K3]. exact (shows_app _ _ _ _ _ _ _ G1 K1).
Qed.
Lemma step_run : forall p q a p', q <> PB -> xpiece tags q -> kstep author false p q = Some (a, p') -> exists es, run (hw q) es p p' /\ shows es p a p'.
Proof.
  intros p q a p' Hq H K. destruct p as [sp | sp ps cur]; destruct q as [c | | t | t | w | |]; try congruence; cbn [kstep] in K; try discriminate.
  - injection K as <- <-. exists [Data [c]]. split; [|apply shows_char]. apply run_frag; [|reflexivity]. apply char_not in H. apply frag_esc5; tauto.
  - injection K as <- <-. exists [Start text_span [(style_name, style t)]]. split.
    + split; [apply SO_no; right; now left|]. exists [XStart text_span [(style_name, style t)]]. split; [apply lexes_span, style_ok|]. split; [intros [E | []]; discriminate|].
      intros m st more. cbn [app]. destruct (frames_cons (PW sp) m st) as [x [y E]]. change (frames (PW (t :: sp)) ++ m :: st) with (text_span :: (frames (PW sp) ++ m :: st)). rewrite E. reflexivity.
    + intro rest. cbn [app placed shown_from map]. change (str_eqb text_span text_span) with true. cbv iota. cbn [style_in]. change (str_eqb style_name style_name) with true. cbv iota.
      fold style. match goal with |- _ = option_map _ ?o => now destruct o end.
  - destruct sp as [|u sp]; [discriminate|]. injection K as <- <-. exists [End text_span]. split.
    + split; [nope|]. exists [XEnd text_span]. split; [lex_tag|]. split; [intros [E | []]; discriminate|]. intros m st more. cbn [app].
      change (frames (PW (u :: sp)) ++ m :: st) with (text_span :: (frames (PW sp) ++ m :: st)). cbn [nest]. rewrite str_eqb_refl. reflexivity.
    + intro rest. cbn [app placed shown_from map]. change (str_eqb text_span text_span) with true. cbv iota. match goal with |- _ = option_map _ ?o => now destruct o end.
  - injection K as <- <-. cbn [hw]. destruct (invisible w); [exists []; split; [apply run_nil | apply shows_nil]|]. cbn [xpiece] in H. destruct H as [H _].
    exists (chars (box w)). split; [|apply shows_chars]. apply run_frag; [|reflexivity]. rewrite <- esc_box. apply frag_esc.
    + unfold box. constructor; [reflexivity|]. apply Forall_app. split; [|repeat constructor]. apply Forall_forall. intros c Hc. rewrite forallb_forall in H. apply H in Hc. unfold box_char in Hc. now apply andb_true_iff in Hc.
    + intros [E | E]; [discriminate|]. apply in_app_iff in E. destruct E as [E | [E | []]]; [|discriminate]. revert E. apply (box_no w _ H). inl.
  - injection K as <- <-. exists ev_open. split; [apply run_note | apply shows_note].
  - injection K as <- <-. exists [Data [c]]. split; [apply run_frag; [|reflexivity]; apply char_not in H; apply frag_esc5; tauto|].
    intro rest. cbn [app placed shown_from map]. match goal with |- _ = option_map _ ?o => now destruct o end.
  - injection K as <- <-. exists [End text_p; End annotation]. split.
    + split; [nope|]. exists ([XEnd text_p] ++ [XEnd annotation]). split; [change (hw PCx) with (s "</text:p>" ++ s "</office:annotation>"); apply lexes_app; lex_tag|]. split; [cbn; intuition discriminate|].
      intros m st more. change (frames (PN sp ps cur) ++ m :: st) with (text_p :: annotation :: (frames (PW sp) ++ m :: st)). cbn [app nest]. rewrite !str_eqb_refl.
      now destruct (nest _ true more).
    + intro rest. cbn [app placed shown_from map]. change (str_eqb text_p text_p) with true. cbv iota. cbn [shown_from]. change (str_eqb annotation annotation) with true. cbv iota. cbn [dress]. reflexivity.
Qed.
Lemma read_run : forall l p a p', Forall (xpiece tags) l -> kread author false p l = Some (a, p') -> exists es, run (concat (wordsH l)) es p p' /\ shows es p a p'.
Proof.
  intro l. induction l as [|r IH|r Hr IH|q r Hq IH] using pbreak_ind; intros p a p' H K.
  - cbn [kread] in K. injection K as <- <-. exists []. split; [apply run_nil | apply shows_nil].
  - rewrite wordsH_2. cbn [kread] in K. destruct (kstep author false p PB) as [[a1 p1]|] eqn:E1; [|discriminate].
    destruct (kstep author false p1 PB) as [[a2 p2]|] eqn:E2; [|discriminate]. destruct (kread author false p2 r) as [[a3 p3]|] eqn:E3; [|discriminate]. injection K as <- <-.
    destruct (IH p2 a3 p3) as [es [R1 R2]]; [now do 2 apply Forall_inv_tail in H | exact E3|].
    destruct (shows_break p a1 p1 a_first a_body E1) as [_ [Hb [_ G]]]. destruct (G _ _ E2) as [G1 G2]. exists (ev2 ++ es). split.
    + cbn [concat]. eapply run_app; [|exact R1]. apply run_pfrag; [apply pfrag_P2 | exact Hb | exact G2].
    + rewrite app_assoc. eapply shows_app; [exact G1 | exact R2].
  - rewrite wordsH_1 by exact Hr. cbn [kread] in K. destruct (kstep author false p PB) as [[a1 p1]|] eqn:E1; [|discriminate].
    destruct (kread author false p1 r) as [[a3 p3]|] eqn:E3; [|discriminate]. injection K as <- <-.
    destruct (IH p1 a3 p3) as [es [R1 R2]]; [now apply Forall_inv_tail in H | exact E3|].
    destruct (shows_break p a1 p1 a_first a_body E1) as [G [Hb [Hf _]]]. exists (ev1 ++ es). split.
    + cbn [concat]. eapply run_app; [|exact R1]. apply run_pfrag; [apply pfrag_P1 | exact Hb | exact Hf].
    + eapply shows_app; [exact G | exact R2].
  - rewrite wordsH_c by exact Hq. cbn [kread] in K. destruct (kstep author false p q) as [[a1 p1]|] eqn:E1; [|discriminate].
    destruct (kread author false p1 r) as [[a3 p3]|] eqn:E3; [|discriminate]. injection K as <- <-. apply Forall_cons_iff in H as [H1 H2].
    destruct (IH p1 a3 p3 H2 E3) as [es [R1 R2]]. destruct (step_run p q a1 p1 Hq H1 E1) as [es1 [S1 S2]]. exists (es1 ++ es). split.
    + cbn [concat]. eapply run_app; [exact S1 | exact R1].
    + eapply shows_app; [exact S2 | exact R2].
Qed.
Lemma shown_merge : forall es p, shown_from p (merge es) = shown_from p es.
Proof.
  assert (D : forall t u r p, shown_from p (Data (t ++ u) :: r) = shown_from p (Data t :: Data u :: r)).
  { intros t u r p. destruct p; cbn [shown_from].
    - rewrite forallb_app. destruct (forallb xml_space t); reflexivity.
    - unfold glyphs. rewrite map_app. destruct (shown_from _ r); cbn [option_map]; [now rewrite <- app_assoc | reflexivity].
    - rewrite forallb_app. destruct (forallb xml_space t); reflexivity.
    - now rewrite app_assoc.
    - now rewrite app_assoc. }
  assert (D0 : forall r p, shown_from p (Data [] :: r) = shown_from p r).
  { intros r p. destruct p; cbn [shown_from forallb glyphs map]; try reflexivity; try now rewrite app_nil_r. now destruct (shown_from _ r). }
  assert (C : forall e a b, (forall p, shown_from p a = shown_from p b) -> forall p, shown_from p (e :: a) = shown_from p (e :: b)).
  { intros e a b H p. destruct p, e; cbn [shown_from]; try reflexivity;
      repeat match goal with |- context [if ?x then _ else _] => destruct x | |- context [match ?x with _ => _ end] => destruct x end; rewrite ?H; reflexivity. }
  induction es as [|e es IH]; intro p; [reflexivity|]. destruct e as [n x | n | t]; try (cbn [merge]; apply C; exact IH).
  rewrite <- (C (Data t) (merge es) es IH p). cbn [merge].
  assert (G : forall r, shown_from p (match t with [] => r | _ => Data t :: r end) = shown_from p (Data t :: r)) by (intro r; destruct t; [symmetry; apply D0 | reflexivity]).
  destruct (merge es) as [|[n x | n | u] r]; try apply G. apply D.
Qed.
End Shown.
