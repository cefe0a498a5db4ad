(** The language styles of an exported manuscript. *)
From Coq Require Import String List NArith ZArith Bool Lia Arith.
From Verif Require Import PyStr PyDict YwText YwTextProofs NovelModel OdfXml OdfXmlProofs OdfLex OdtText OdtTextProofs OdtTextProofs2 OdsTree OdsRoundTrip OdsRoundTrip2 SpecFormat SpecManuscript FormatXml4 FormatXml5 Manuscript XmlTags OdtRead ManuRead ManuMachine ManuWalk.
Import ListNotations.

Lemma frag_white : forall w, forallb xml_space w = true -> ~ In 13%N w -> frag w (chars w).
Proof.
  intros w H1 H2. assert (E : chars w = OdsTree.evs (txts w)) by (clear; induction w as [|c w IH]; [reflexivity | cbn [chars map txts OdsTree.evs app] in *; unfold chars in IH; now rewrite IH]).
  rewrite E. now apply frag_ws.
Qed.
Lemma style_no_cr : forall v, forallb style_char v = true -> ~ In 13%N v.
Proof. intros v S I. rewrite forallb_forall in S. specialize (S _ I). discriminate S. Qed.
Lemma name_no_cr : forall v, xname_ok v = true -> ~ In 13%N v.
Proof. intros v S I. unfold xname_ok in S. apply andb_true_iff in S as [_ S]. rewrite forallb_forall in S. specialize (S _ I). discriminate S. Qed.
Lemma tag_no_cr : forall name a e, xname_ok name = true -> Forall attr_good a -> ~ In 13%N (tag_text name a e).
Proof.
  intros name a e Hn Ha. unfold tag_text. rewrite !in_app_iff. intros [I | [I | [I | I]]].
  - revert I. apply no_char. reflexivity.
  - now apply (name_no_cr name).
  - unfold attr_text in I. apply in_flat_map in I as [p [Hp I]]. rewrite Forall_forall in Ha. destruct (Ha p Hp) as [G1 G2]. rewrite !in_app_iff in I. destruct I as [I | [I | [I | [I | I]]]].
    + revert I. apply no_char. reflexivity.
    + now apply (name_no_cr _ G1).
    + revert I. apply no_char. reflexivity.
    + now apply (style_no_cr _ G2).
    + revert I. apply no_char. reflexivity.
  - revert I. destruct e; apply no_char; reflexivity.
Qed.
Lemma frag_tag_empty : forall name a, xname_ok name = true -> Forall attr_good a -> NoDup (map fst a) -> frag (tag_text name a true) [Start name a; End name].
Proof. intros name a H1 H2 H3. apply frag_empty; [exact (lexes_tag name a true H1 H2 H3) | now apply tag_no_cr]. Qed.
Lemma frag_tag : forall name a c w es, xname_ok name = true -> Forall attr_good a -> NoDup (map fst a) -> lexes c [XEnd name] -> ~ In 13%N c -> frag w es ->
  frag (tag_text name a false ++ w ++ c) (Start name a :: es ++ [End name]).
Proof. intros name a c w es H1 H2 H3 H4 H5 H6. apply frag_elem; [exact (lexes_tag name a false H1 H2 H3) | exact H4 | now apply tag_no_cr | exact H5 | exact H6]. Qed.

Definition t_style (i : N) : str := s "T" ++ str_of_N i.
Definition a_style (i : N) : attrs := [(s "style:name", t_style i); (s "style:family", s "text")].
Definition a_props (l c : str) : attrs := [(s "fo:language", l); (s "fo:country", c); (s "style:language-asian", l); (s "style:country-asian", c); (s "style:language-complex", l); (s "style:country-complex", c)].
Definition entry_events (i : N) (l c : str) : list event :=
  chars (s "  ") ++ (Start (s "style:style") (a_style i) :: (chars ([10%N] ++ s "   ") ++ [Start (s "style:text-properties") (a_props l c); End (s "style:text-properties")] ++ chars ([10%N] ++ s "  ")) ++ [End (s "style:style")]).
Lemma entry_text : forall i x l c, locale_codes x = (l, c) -> language_entry i x =
  s "  " ++ tag_text (s "style:style") (a_style i) false ++ ((([10%N] ++ s "   ") ++ tag_text (s "style:text-properties") (a_props l c) true) ++ ([10%N] ++ s "  ")) ++ s "</style:style>".
Proof.
  intros i x l c E. unfold language_entry. rewrite E. unfold tag_text, attr_text, a_style, a_props, t_style. cbn [flat_map fst snd]. rewrite <- !app_assoc. reflexivity.
Qed.
Lemma nodup_names : forall (l : list str), (fix go (l : list str) : bool := match l with [] => true | x :: r => negb (smem x r) && go r end) l = true -> NoDup l.
Proof. induction l as [|x r IH]; intro E; [constructor|]. apply andb_true_iff in E as [E1 E2]. constructor; [apply negb_true_iff in E1; now apply smem_false | now apply IH]. Qed.
Lemma frag_entry : forall i x l c, locale_codes x = (l, c) -> forallb style_char l = true -> forallb style_char c = true -> frag (language_entry i x) (entry_events i l c).
Proof.
  intros i x l c E Hl Hc. rewrite (entry_text i x l c E). unfold entry_events. apply frag_app; [apply frag_white; [reflexivity | apply no_char; reflexivity]|].
  apply frag_tag; [reflexivity | | | | |].
  - constructor; [split; [reflexivity|]; exact (digits_style i) | constructor; [split; reflexivity | constructor]].
  - apply nodup_names. reflexivity.
  - apply xlex_lexes. reflexivity.
  - apply no_char. reflexivity.
  - rewrite (app_assoc (chars ([10%N] ++ s "   "))). apply frag_app; [|apply frag_white; [reflexivity | apply no_char; reflexivity]]. apply frag_app; [apply frag_white; [reflexivity | apply no_char; reflexivity]|].
    apply frag_tag_empty; [reflexivity | | apply nodup_names; reflexivity]. repeat (constructor; [split; [reflexivity | assumption]|]). constructor.
Qed.
Fixpoint entries_events (i : N) (ls : list str) : list event :=
  match ls with [] => [] | x :: r => entry_events i (fst (locale_codes x)) (snd (locale_codes x)) ++ chars [10%N] ++ entries_events (N.succ i) r end.
Fixpoint entries_text (i : N) (ls : list str) : str := match ls with [] => [] | x :: r => language_entry i x ++ [10%N] ++ entries_text (N.succ i) r end.
Lemma join_entries : forall ls i z, join [10%N] (language_entries i ls ++ [z]) = entries_text i ls ++ z.
Proof.
  induction ls as [|x ls IH]; intros i z; [reflexivity|]. cbn [language_entries entries_text app]. rewrite join_cons by (destruct ls; discriminate). rewrite IH. rewrite <- !app_assoc. reflexivity.
Qed.
Definition o_styles : str := s "office:automatic-styles".
Lemma styles_text : forall x ls, automatic_styles (x :: ls) = s "<office:automatic-styles>" ++ (([10%N] ++ entries_text 1 (x :: ls)) ++ s " ") ++ s "</office:automatic-styles>".
Proof.
  intros x ls. unfold automatic_styles. change ([s "<office:automatic-styles>"] ++ language_entries 1 (x :: ls) ++ [s " </office:automatic-styles>"]) with (s "<office:automatic-styles>" :: (language_entries 1 (x :: ls) ++ [s " </office:automatic-styles>"])). rewrite (join_cons [10%N]) by discriminate. rewrite join_entries. rewrite <- !app_assoc. reflexivity.
Qed.
Definition styles_events (ls : list str) : list event :=
  match ls with [] => [Start o_styles []; End o_styles] | _ => Start o_styles [] :: ((chars [10%N] ++ entries_events 1 ls) ++ chars (s " ")) ++ [End o_styles] end.
(** the codes can be written in XML attributes *)
Definition codes_ok (x : str) : Prop := forallb style_char (fst (locale_codes x)) = true /\ forallb style_char (snd (locale_codes x)) = true.
Lemma frag_entries : forall ls i, Forall codes_ok ls -> frag (entries_text i ls) (entries_events i ls).
Proof.
  induction ls as [|x ls IH]; intros i F; [apply frag_nil|]. apply Forall_cons_iff in F as [[F1 F2] F]. cbn [entries_text entries_events].
  apply frag_app; [apply frag_entry; [now destruct (locale_codes x) | exact F1 | exact F2]|]. apply frag_app; [apply frag_white; [reflexivity | apply no_char; reflexivity] | now apply IH].
Qed.
Theorem frag_styles : forall ls, Forall codes_ok ls -> frag (automatic_styles ls) (styles_events ls).
Proof.
  intros [|x ls] F; [apply frag_empty; [apply xlex_lexes; reflexivity | apply no_char; reflexivity]|]. rewrite styles_text. unfold styles_events.
  apply frag_elem; [apply xlex_lexes; reflexivity | apply xlex_lexes; reflexivity | apply no_char; reflexivity | apply no_char; reflexivity|].
  apply frag_app; [|apply frag_white; [reflexivity | apply no_char; reflexivity]]. apply frag_app; [apply frag_white; [reflexivity | apply no_char; reflexivity] | now apply frag_entries].
Qed.

(** ** Reading the styles *)
Definition StyleP (lang : dict str) (x : option str) : ps := mkPs [s "Emphasis"] [s "Strong_20_Emphasis"] [s "Quotations"] lang [] None false None [] false false [] x.
Definition locale_of (l c : str) : str := if str_eqb c (s "none") then l else l ++ s "-" ++ c.
Definition InStyle (lang : dict str) (x : str) (n : novel) : ps * rs := (StyleP lang (Some x), RS n [] None None []).
Lemma style_norm : forall lang x n, norm (InStyle lang x n) = InStyle lang x n.
Proof. intros. unfold norm, InStyle. cbn [fst snd]. rewrite nl_RS1. reflexivity. Qed.
Section Typed.
Context {typ : Typ}.
Lemma style_flush : forall u lang x n, flush u (InStyle lang x n) = Ok (InStyle lang x n).
Proof. intros u lang x n. destruct u as [|c u]; [reflexivity|]. cbn [flush]. apply gfeed_none; [apply style_norm | reflexivity | reflexivity]. Qed.
Lemma entry_walk : forall u i l c R lang n, l <> [] -> pfeed u (entry_events i l c ++ R) (Out lang n None) = pfeed [] R (Out (dset (t_style i) (locale_of l c) lang) n None).
Proof.
  intros u i l c R lang n Hl. unfold entry_events. rewrite <- !app_assoc. unfold chars. rewrite pfeed_chars. cbn [app]. rewrite pfeed_tag by reflexivity. rewrite flush_out by exact I. cbn [bind].
  assert (G1 : gfeed (Out lang n None) (Start (s "style:style") (a_style i)) = Ok (InStyle lang (t_style i) n)).
  { unfold gfeed. cbn [safe]. unfold feed_event. cbn [fst snd parser_event Out]. change (start_element (s "style:style") (a_style i) (PS lang None false None [] [])) with (@Ok (ps * list call) (StyleP lang (Some (t_style i)), [])).
    cbn [bind foldM]. change (StyleP lang (Some (t_style i)), RS n [] None None []) with (InStyle lang (t_style i) n). now rewrite style_norm. }
  rewrite G1. cbn [bind]. rewrite <- !app_assoc. rewrite pfeed_chars. cbn [app]. rewrite pfeed_tag by reflexivity. rewrite style_flush. cbn [bind].
  assert (G2 : gfeed (InStyle lang (t_style i) n) (Start (s "style:text-properties") (a_props l c)) = Ok (InStyle (dset (t_style i) (locale_of l c) lang) (t_style i) n)).
  { unfold gfeed. cbn [safe]. unfold feed_event. cbn [fst snd parser_event InStyle].
    assert (E : start_element (s "style:text-properties") (a_props l c) (StyleP lang (Some (t_style i))) = Ok (StyleP (dset (t_style i) (locale_of l c) lang) (Some (t_style i)), [])) by (destruct l as [|b l]; [congruence | reflexivity]).
    rewrite E. cbn [bind foldM]. change (StyleP (dset (t_style i) (locale_of l c) lang) (Some (t_style i)), RS n [] None None []) with (InStyle (dset (t_style i) (locale_of l c) lang) (t_style i) n). now rewrite style_norm. }
  rewrite G2. cbn [bind]. set (lang' := dset (t_style i) (locale_of l c) lang). clearbody lang'. rewrite pfeed_tag by reflexivity. cbn [flush bind].
  assert (G3 : gfeed (InStyle lang' (t_style i) n) (End (s "style:text-properties")) = Ok (InStyle lang' (t_style i) n)) by (apply gfeed_none; [apply style_norm | reflexivity | reflexivity]).
  rewrite G3. cbn [bind]. rewrite <- !app_assoc. rewrite pfeed_chars. cbn [app]. rewrite pfeed_tag by reflexivity. rewrite style_flush. cbn [bind].
  assert (G4 : gfeed (InStyle lang' (t_style i) n) (End (s "style:style")) = Ok (Out lang' n None)).
  { unfold gfeed. change (safe (InStyle lang' (t_style i) n) (End (s "style:style"))) with true. cbv iota. unfold feed_event. cbn [fst snd parser_event InStyle].
    change (end_element (s "style:style") (StyleP lang' (Some (t_style i)))) with (PS lang' None false None [] [], @nil call). cbn [bind foldM].
    change (PS lang' None false None [] [], RS n [] None None []) with (Out lang' n None). now rewrite out_norm. }
  rewrite G4. reflexivity.
Qed.
(** what the reader knows then *)
Fixpoint learn_styles (i : N) (ls : list str) (lang : dict str) : dict str := match ls with [] => lang | x :: r => learn_styles (N.succ i) r (dset (t_style i) (locale_of (fst (locale_codes x)) (snd (locale_codes x))) lang) end.
Lemma entries_walk : forall ls u i R lang n, Forall (fun x => fst (locale_codes x) <> []) ls -> exists u', pfeed u (entries_events i ls ++ R) (Out lang n None) = pfeed u' R (Out (learn_styles i ls lang) n None).
Proof.
  induction ls as [|x ls IH]; intros u i R lang n F; [now exists u|]. apply Forall_cons_iff in F as [F1 F2]. cbn [entries_events learn_styles]. rewrite <- !app_assoc. rewrite entry_walk by exact F1. unfold chars. rewrite pfeed_chars. now apply IH.
Qed.
Theorem styles_walk : forall ls u R n, Forall (fun x => fst (locale_codes x) <> []) ls -> exists u', pfeed u (styles_events ls ++ R) (Out [] n None) = pfeed u' R (Out (learn_styles 1 ls []) n None).
Proof.
  intros [|x ls] u R n F; [apply (walk_dull [] [Start o_styles []; End o_styles]); [reflexivity | exact I]|]. unfold styles_events.
  change (Start o_styles [] :: ((chars [10%N] ++ entries_events 1 (x :: ls)) ++ chars (s " ")) ++ [End o_styles]) with ([Start o_styles []; Data [10%N]] ++ (entries_events 1 (x :: ls) ++ chars (s " ")) ++ [End o_styles]). rewrite <- !app_assoc.
  destruct (walk_dull [] [Start o_styles []; Data [10%N]] u (entries_events 1 (x :: ls) ++ chars (s " ") ++ [End o_styles] ++ R) n None eq_refl I) as [u1 E1]. rewrite E1.
  destruct (entries_walk (x :: ls) u1 1 (chars (s " ") ++ [End o_styles] ++ R) [] n F) as [u2 E2]. rewrite E2.
  set (L := learn_styles 1 (x :: ls) []). clearbody L. change (chars (s " ") ++ [End o_styles] ++ R) with ([Data [32%N]; End o_styles] ++ R). apply walk_dull; [reflexivity | exact I].
Qed.
End Typed.

(** ** What the style names mean *)
Lemma locale_parts : forall x, locale_ok x -> forall (P : Forall (fun c => plain_char c = true) x), codes_ok x /\ fst (locale_codes x) <> [] /\ locale_of (fst (locale_codes x)) (snd (locale_codes x)) = x.
Proof.
  intros x [a [b [-> [Ha [Hb [Hm Hs]]]]]] P.
  assert (E : locale_codes (a ++ s "-" ++ b) = (a, b)).
  { unfold locale_codes. change (s "-") with [45%N]. rewrite split_splitc. change ([45%N] ++ b) with (45%N :: b). rewrite in_app_iff in Hm.
    rewrite splitc_app_sep by tauto. rewrite splitc_nosep by tauto. reflexivity. }
  rewrite E. cbn [fst snd]. split; [|split; [exact Ha|]].
  - assert (S : forall y, incl y (a ++ s "-" ++ b) -> forallb style_char y = true).
    { intros y Hi. rewrite forallb_forall. intros c Hc. rewrite Forall_forall in P, Hs. specialize (P c (Hi c Hc)). specialize (Hs c (Hi c Hc)). unfold plain_char in P. unfold style_char. apply andb_true_iff in P as [-> P]. cbn [andb]. now rewrite Hs, P. }
    split; unfold codes_ok; rewrite E; cbn [fst snd]; apply S; intros c Hc; rewrite !in_app_iff; tauto.
  - unfold locale_of. destruct (str_eqb b (s "none")) eqn:Q; [|reflexivity]. apply str_eqb_eq in Q. congruence.
Qed.
Lemma t_style_inj : forall i j, t_style i = t_style j -> i = j.
Proof. intros i j E. unfold t_style in E. apply app_inv_head in E. now apply str_of_N_inj. Qed.
Lemma learn_other : forall ls i lang x, (forall k, (i <= k)%N -> x <> t_style k) -> dget x (learn_styles i ls lang) = dget x lang.
Proof.
  induction ls as [|y ls IH]; intros i lang x Hx; [reflexivity|]. cbn [learn_styles]. rewrite IH by (intros k Hk; apply Hx; lia). apply dget_dset_other. apply Hx. lia.
Qed.
Lemma learn_found : forall ls i lang l, In l ls -> Forall (fun x => locale_of (fst (locale_codes x)) (snd (locale_codes x)) = x) ls ->
  exists k, language_style i ls (s "lang=" ++ l) = Some (t_style k) /\ dget (t_style k) (learn_styles i ls lang) = Some l.
Proof.
  induction ls as [|y ls IH]; intros i lang l Hl F; [destruct Hl|]. apply Forall_cons_iff in F as [F1 F2]. cbn [language_style learn_styles].
  destruct (str_eqb (s "lang=" ++ l) (s "lang=" ++ y)) eqn:E.
  - apply str_eqb_eq in E. apply app_inv_head in E. subst y. exists i. split; [reflexivity|]. rewrite learn_other by (intros k Hk Q; apply t_style_inj in Q; lia). rewrite F1. apply dget_dset_same.
  - destruct Hl as [-> | Hl]; [|now apply IH]. rewrite str_eqb_refl in E. discriminate.
Qed.
Section Meaning.
Variable languages : list str.
Hypothesis locales : Forall locale_ok languages.
Hypothesis plain : Forall (Forall (fun c => plain_char c = true)) languages.
Lemma all_locales : Forall codes_ok languages /\ Forall (fun x => fst (locale_codes x) <> []) languages /\ Forall (fun x => locale_of (fst (locale_codes x)) (snd (locale_codes x)) = x) languages.
Proof.
  rewrite Forall_forall in locales, plain. repeat split; apply Forall_forall; intros x Hx; destruct (locale_parts x (locales x Hx) (plain x Hx)) as [A [B C]]; assumption.
Qed.
Definition LANG : dict str := learn_styles 1 languages [].
Lemma LANG_find : forall l, In l languages -> dget (style_of languages (s "lang=" ++ l)) LANG = Some l.
Proof.
  intros l Hl. destruct all_locales as [_ [_ F]]. destruct (learn_found languages 1 [] l Hl F) as [k [E1 E2]]. change (style_of languages (s "lang=" ++ l)) with (match language_style 1 languages (s "lang=" ++ l) with Some v => v | None => [] end).
  rewrite E1. exact E2.
Qed.
Lemma not_t : forall x k, prefixb (s "T") x = false -> x <> t_style k.
Proof. intros x k E ->. discriminate. Qed.
Lemma LANG_none : forall x, In x [s "Emphasis"; s "Strong_20_Emphasis"; s "Text_20_body"; s "First_20_line_20_indent"; s "Quotations"] -> dget x LANG = None.
Proof.
  intros x Hx. unfold LANG. rewrite learn_other; [reflexivity|]. intros k _ ->. destruct Hx as [E | [E | [E | [E | [E | []]]]]]; try discriminate.
  unfold t_style in E. apply (f_equal (fun t => nth 1 t 0%N)) in E. pose proof (str_of_N_digits k) as D. change (nth 1 (s "Text_20_body") 0%N) with 101%N in E. change (nth 1 (s "T" ++ str_of_N k) 0%N) with (nth 0 (str_of_N k) 0%N) in E.
  destruct (str_of_N k) as [|d r]; [discriminate|]. cbn [nth] in E. subst d. specialize (D _ (or_introl eq_refl)). lia.
Qed.
Lemma LANG_titles : forall x, In x [s "Title"; s "Subtitle"] -> dget x LANG = None.
Proof.
  intros x Hx. unfold LANG. rewrite learn_other; [reflexivity|]. intros k _ ->. destruct Hx as [E | [E | []]]; try discriminate.
  unfold t_style in E. apply (f_equal (fun t => nth 1 t 0%N)) in E. pose proof (str_of_N_digits k) as D. change (nth 1 (s "Title") 0%N) with 105%N in E. change (nth 1 (s "T" ++ str_of_N k) 0%N) with (nth 0 (str_of_N k) 0%N) in E.
  destruct (str_of_N k) as [|d r]; [discriminate|]. cbn [nth] in E. subst d. specialize (D _ (or_introl eq_refl)). lia.
Qed.
Lemma LANG_style : forall l, In l languages -> smem (style_of languages (s "lang=" ++ l)) [s "Emphasis"; s "Strong_20_Emphasis"] = false.
Proof.
  intros l Hl. destruct all_locales as [_ [_ F]]. destruct (learn_found languages 1 [] l Hl F) as [k [E1 E2]]. change (style_of languages (s "lang=" ++ l)) with (match language_style 1 languages (s "lang=" ++ l) with Some v => v | None => [] end).
  rewrite E1. apply smem_false. intros [E | [E | []]]; discriminate.
Qed.
Lemma LANG_name : forall l, In l languages -> l <> [].
Proof. intros l Hl ->. rewrite Forall_forall in locales. destruct (locales [] Hl) as [a [b [E _]]]. now destruct a. Qed.
End Meaning.
