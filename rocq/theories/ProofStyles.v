(** The styles of a manuscript for proof reading. *)
From Coq Require Import String List NArith ZArith Bool Lia Arith.
From Verif Require Import PyStr PyDict YwText YwTextProofs NovelModel OdfXml OdfXmlProofs OdfLex OdtText OdtTextProofs OdtTextProofs2 OdsTree OdsRoundTrip OdsRoundTrip2 SpecFormat SpecManuscript FormatXml4 FormatXml5 Manuscript XmlTags OdtRead
  ManuStyles ManuWalk Proofing ProofXml ProofRead ProofWalk ProofMachine.
Import ListNotations.

Lemma ITALIC_t : forall ls, ITALIC ls = t_style (N.of_nat (length ls) + 1).
Proof. reflexivity. Qed.
Lemma BOLD_t : forall ls, BOLD ls = t_style (N.of_nat (length ls) + 2).
Proof. reflexivity. Qed.
(** an entry for a text style *)
Definition style_entry (i : N) (a : attrs) : str :=
  s "  " ++ tag_text (s "style:style") (a_style i) false ++ ((([10%N] ++ s "   ") ++ tag_text (s "style:text-properties") a true) ++ ([10%N] ++ s "  ")) ++ s "</style:style>".
Definition style_events (i : N) (a : attrs) : list event :=
  chars (s "  ") ++ (Start (s "style:style") (a_style i) :: (chars ([10%N] ++ s "   ") ++ [Start (s "style:text-properties") a; End (s "style:text-properties")] ++ chars ([10%N] ++ s "  ")) ++ [End (s "style:style")]).
Lemma frag_style : forall i a, Forall attr_good a -> NoDup (map fst a) -> frag (style_entry i a) (style_events i a).
Proof.
  intros i a Ga Na. unfold style_entry, style_events. apply frag_app; [apply frag_white; [reflexivity | apply no_char; reflexivity]|].
  apply frag_tag; [reflexivity | | | | |].
  - constructor; [split; [reflexivity|]; exact (digits_style i) | constructor; [split; reflexivity | constructor]].
  - apply nodup_names. reflexivity.
  - apply xlex_lexes. reflexivity.
  - apply no_char. reflexivity.
  - rewrite (app_assoc (chars ([10%N] ++ s "   "))). apply frag_app; [|apply frag_white; [reflexivity | apply no_char; reflexivity]]. apply frag_app; [apply frag_white; [reflexivity | apply no_char; reflexivity]|].
    apply frag_tag_empty; [reflexivity | exact Ga | exact Na].
Qed.
Definition a_italic : attrs := [(s "fo:font-style", s "italic"); (s "style:font-style-asian", s "italic"); (s "style:font-style-complex", s "italic")].
Definition a_bold : attrs := [(s "fo:font-weight", s "bold"); (s "style:font-weight-asian", s "bold"); (s "style:font-weight-complex", s "bold")].
Lemma italic_text : forall i, emphasis_entry (t_style i) (s "style") (s "italic") = style_entry i a_italic.
Proof. intro i. unfold emphasis_entry, style_entry, tag_text, attr_text, a_style, a_italic. generalize (t_style i). intro v. cbn [flat_map fst snd]. rewrite <- !app_assoc. reflexivity. Qed.
Lemma bold_text : forall i, emphasis_entry (t_style i) (s "weight") (s "bold") = style_entry i a_bold.
Proof. intro i. unfold emphasis_entry, style_entry, tag_text, attr_text, a_style, a_bold. generalize (t_style i). intro v. cbn [flat_map fst snd]. rewrite <- !app_assoc. reflexivity. Qed.
Lemma frag_italic : forall i, frag (emphasis_entry (t_style i) (s "style") (s "italic")) (style_events i a_italic).
Proof. intro i. rewrite italic_text. apply frag_style; [repeat (constructor; [split; reflexivity|]); constructor | apply nodup_names; reflexivity]. Qed.
Lemma frag_bold : forall i, frag (emphasis_entry (t_style i) (s "weight") (s "bold")) (style_events i a_bold).
Proof. intro i. rewrite bold_text. apply frag_style; [repeat (constructor; [split; reflexivity|]); constructor | apply nodup_names; reflexivity]. Qed.
Lemma join_more : forall ls i z zs, join [10%N] (language_entries i ls ++ z :: zs) = entries_text i ls ++ join [10%N] (z :: zs).
Proof.
  induction ls as [|x ls IH]; intros i z zs; [reflexivity|]. cbn [language_entries entries_text app]. rewrite join_cons by (destruct ls; discriminate). rewrite IH. rewrite <- !app_assoc. reflexivity.
Qed.
Definition I_of (ls : list str) : N := N.of_nat (length ls) + 1.
Definition B_of (ls : list str) : N := N.of_nat (length ls) + 2.
Lemma proof_styles_text : forall ls, proof_styles ls =
  s "<office:automatic-styles>" ++ ([10%N] ++ entries_text 1 ls ++ emphasis_entry (t_style (I_of ls)) (s "style") (s "italic") ++ [10%N] ++ emphasis_entry (t_style (B_of ls)) (s "weight") (s "bold") ++ [10%N] ++ s " ") ++ s "</office:automatic-styles>".
Proof.
  intro ls. unfold proof_styles. rewrite ITALIC_t, BOLD_t. fold (I_of ls) (B_of ls). generalize (emphasis_entry (t_style (I_of ls)) (s "style") (s "italic")) (emphasis_entry (t_style (B_of ls)) (s "weight") (s "bold")). intros x y.
  change ([s "<office:automatic-styles>"] ++ language_entries 1 ls ++ [x; y; s " </office:automatic-styles>"]) with (s "<office:automatic-styles>" :: (language_entries 1 ls ++ [x; y; s " </office:automatic-styles>"])).
  rewrite join_cons by (destruct ls; discriminate). rewrite join_more. rewrite join_cons by discriminate. rewrite join_cons by discriminate.
  change (join [10%N] [s " </office:automatic-styles>"]) with (s " " ++ s "</office:automatic-styles>"). rewrite <- !app_assoc. reflexivity.
Qed.
Definition proof_styles_events (ls : list str) : list event :=
  Start o_styles [] :: (chars [10%N] ++ entries_events 1 ls ++ style_events (I_of ls) a_italic ++ chars [10%N] ++ style_events (B_of ls) a_bold ++ chars [10%N] ++ chars (s " ")) ++ [End o_styles].
Theorem frag_proof_styles : forall ls, Forall codes_ok ls -> frag (proof_styles ls) (proof_styles_events ls).
Proof.
  intros ls F. rewrite proof_styles_text. unfold proof_styles_events.
  apply frag_elem; [apply xlex_lexes; reflexivity | apply xlex_lexes; reflexivity | apply no_char; reflexivity | apply no_char; reflexivity|].
  apply frag_app; [apply frag_white; [reflexivity | apply no_char; reflexivity]|]. apply frag_app; [now apply frag_entries|]. apply frag_app; [apply frag_italic|].
  apply frag_app; [apply frag_white; [reflexivity | apply no_char; reflexivity]|]. apply frag_app; [apply frag_bold|].
  apply frag_app; [apply frag_white; [reflexivity | apply no_char; reflexivity]|]. apply frag_white; [reflexivity | apply no_char; reflexivity].
Qed.

(** ** Reading the styles *)
Section Walk.
Variable tr : str -> str.
Local Notation gfeed := (ProofRead.gfeed tr).
Local Notation pfeed := (ProofRead.pfeed tr).
Local Notation flush := (ProofRead.flush tr).
Definition Q (em strong : list str) (lang : dict str) (x : str) : ps := mkPs em strong [s "Quotations"] lang [] None false None [] false false [] (Some x).
Lemma Q_norm : forall em strong lang x n T, ProofRead.norm (Q em strong lang x, R n T None) = (Q em strong lang x, R n T None).
Proof. intros. unfold ProofRead.norm. cbn [fst snd]. rewrite nl_R1. reflexivity. Qed.
Lemma style_flush : forall u em strong lang x n T, flush u (Q em strong lang x, R n T None) = Ok (Q em strong lang x, R n T None).
Proof. intros u em strong lang x n T. destruct u as [|c u]; [reflexivity|]. cbn [ProofRead.flush]. apply gfeed_none; [apply Q_norm | reflexivity | reflexivity]. Qed.
Lemma style_walk : forall u i a r em strong lang em' strong' lang' n T,
  start_element (s "style:text-properties") a (Q em strong lang (t_style i)) = Ok (Q em' strong' lang' (t_style i), []) ->
  pfeed u (style_events i a ++ r) (Out em strong lang n T) = pfeed [] r (Out em' strong' lang' n T).
Proof.
  intros u i a r em strong lang em' strong' lang' n T E. unfold style_events. rewrite <- !app_assoc. unfold chars. rewrite pfeed_chars. cbn [app]. rewrite pfeed_tag by reflexivity. unfold Out at 1. rewrite flush_out. cbn [bind].
  assert (G1 : gfeed (P em strong lang None false, R n T None) (Start (s "style:style") (a_style i)) = Ok (Q em strong lang (t_style i), R n T None)).
  { unfold ProofRead.gfeed. cbn [ProofRead.safe]. unfold feed_event. cbn [fst snd parser_event]. change (start_element (s "style:style") (a_style i) (P em strong lang None false)) with (@Ok (ps * list call) (Q em strong lang (t_style i), [])).
    cbn [bind foldM]. now rewrite Q_norm. }
  rewrite G1. cbn [bind]. rewrite <- !app_assoc. rewrite pfeed_chars. cbn [app]. rewrite pfeed_tag by reflexivity. rewrite style_flush. cbn [bind].
  assert (G2 : gfeed (Q em strong lang (t_style i), R n T None) (Start (s "style:text-properties") a) = Ok (Q em' strong' lang' (t_style i), R n T None)).
  { unfold ProofRead.gfeed. cbn [ProofRead.safe]. unfold feed_event. cbn [fst snd parser_event]. rewrite E. cbn [bind foldM]. now rewrite Q_norm. }
  rewrite G2. cbn [bind]. rewrite pfeed_tag by reflexivity. cbn [ProofRead.flush bind].
  assert (G3 : gfeed (Q em' strong' lang' (t_style i), R n T None) (End (s "style:text-properties")) = Ok (Q em' strong' lang' (t_style i), R n T None)) by (apply gfeed_none; [apply Q_norm | reflexivity | reflexivity]).
  rewrite G3. cbn [bind]. rewrite <- !app_assoc. rewrite pfeed_chars. cbn [app]. rewrite pfeed_tag by reflexivity. rewrite style_flush. cbn [bind].
  assert (G4 : gfeed (Q em' strong' lang' (t_style i), R n T None) (End (s "style:style")) = Ok (Out em' strong' lang' n T)).
  { unfold ProofRead.gfeed. change (ProofRead.safe (Q em' strong' lang' (t_style i), R n T None) (End (s "style:style"))) with true. cbv iota. unfold feed_event. cbn [fst snd parser_event].
    change (end_element (s "style:style") (Q em' strong' lang' (t_style i))) with (P em' strong' lang' None false, @nil call). cbn [bind foldM]. now rewrite state_norm. }
  rewrite G4. reflexivity.
Qed.
Lemma entries_walk : forall ls u i r em strong lang n T, Forall (fun x => fst (locale_codes x) <> []) ls ->
  exists u', pfeed u (entries_events i ls ++ r) (Out em strong lang n T) = pfeed u' r (Out em strong (learn_styles i ls lang) n T).
Proof.
  induction ls as [|x ls IH]; intros u i r em strong lang n T F; [now exists u|]. apply Forall_cons_iff in F as [F1 F2]. cbn [entries_events learn_styles]. rewrite <- !app_assoc.
  change (entry_events i (fst (locale_codes x)) (snd (locale_codes x))) with (style_events i (a_props (fst (locale_codes x)) (snd (locale_codes x)))).
  rewrite (style_walk u i _ _ em strong lang em strong (dset (t_style i) (locale_of (fst (locale_codes x)) (snd (locale_codes x))) lang)); [unfold chars; rewrite pfeed_chars; now apply IH|].
  destruct (fst (locale_codes x)); [congruence | reflexivity].
Qed.
Theorem proof_styles_walk : forall ls u r n T, Forall (fun x => fst (locale_codes x) <> []) ls ->
  exists u', pfeed u (proof_styles_events ls ++ r) (Out [s "Emphasis"] [s "Strong_20_Emphasis"] [] n T) =
    pfeed u' r (Out [s "Emphasis"; ITALIC ls] [s "Strong_20_Emphasis"; BOLD ls] (learn_styles 1 ls []) n T).
Proof.
  intros ls u r n T F. unfold proof_styles_events.
  match goal with |- context [Start o_styles [] :: (chars [10%N] ++ ?X) ++ [End o_styles]] => change (Start o_styles [] :: (chars [10%N] ++ X) ++ [End o_styles]) with ([Start o_styles []; Data [10%N]] ++ X ++ [End o_styles]) end.
  rewrite <- !app_assoc.
  match goal with |- context [pfeed u (?A ++ ?B) _] => destruct (walk_dull tr [s "Emphasis"] [s "Strong_20_Emphasis"] [] A u B n T eq_refl) as [u1 E1]; rewrite E1 end.
  match goal with |- context [pfeed u1 (_ ++ ?B) _] => destruct (entries_walk ls u1 1 B [s "Emphasis"] [s "Strong_20_Emphasis"] [] n T F) as [u2 E2]; rewrite E2 end.
  set (L := learn_styles 1 ls []). clearbody L.
  rewrite (style_walk u2 (I_of ls) _ _ _ _ L [s "Emphasis"; ITALIC ls] [s "Strong_20_Emphasis"] L) by reflexivity.
  unfold chars at 1. rewrite pfeed_chars.
  rewrite (style_walk _ (B_of ls) _ _ _ _ L [s "Emphasis"; ITALIC ls] [s "Strong_20_Emphasis"; BOLD ls] L) by reflexivity.
  change (chars [10%N] ++ chars (s " ") ++ [End o_styles] ++ r) with ([Data [10%N]; Data [32%N]; End o_styles] ++ r). apply walk_dull. reflexivity.
Qed.
End Walk.

(** ** What the style names mean *)
Lemma learn_other2 : forall ls i lang x, (forall k, (i <= k < i + N.of_nat (length ls))%N -> x <> t_style k) -> dget x (learn_styles i ls lang) = dget x lang.
Proof.
  induction ls as [|y ls IH]; intros i lang x Hx; [reflexivity|]. cbn [learn_styles length] in *. rewrite IH by (intros k Hk; apply Hx; lia). apply dget_dset_other. apply Hx. lia.
Qed.
Lemma language_style_bound : forall ls i t v, language_style i ls t = Some v -> exists k, v = t_style k /\ (i <= k < i + N.of_nat (length ls))%N.
Proof.
  induction ls as [|y ls IH]; intros i t v E; [discriminate|]. cbn [language_style] in E. destruct (str_eqb t (s "lang=" ++ y)).
  - exists i. split; [|cbn [length]; lia]. assert (G : Some v = Some (t_style i)) by (rewrite <- E; reflexivity). now injection G.
  - destruct (IH _ _ _ E) as [k [E1 E2]]. exists k. split; [exact E1 | cbn [length]; lia].
Qed.
Section Meaning.
Variable languages : list str.
Hypothesis locales : Forall locale_ok languages.
Hypothesis plain : Forall (Forall (fun c => plain_char c = true)) languages.
Local Notation LANG := (ManuStyles.LANG languages).
Lemma P_find : forall l, In l languages -> dget (style languages (s "lang=" ++ l)) LANG = Some l.
Proof.
  intros l Hl. exact (LANG_find languages locales plain l Hl).
Qed.
Lemma P_none : forall x, In x (plain_styles languages) -> dget x LANG = None.
Proof.
  intros x Hx. unfold ManuStyles.LANG.
  assert (G : forall c d r, is_digit d = false -> dget (c :: d :: r) (learn_styles 1 languages []) = None) by (intros c d r Hd; rewrite learn_other; [reflexivity|]; intros k _; now apply no_number).
  assert (G2 : forall k, (N.of_nat (length languages) < k)%N -> dget (t_style k) (learn_styles 1 languages []) = None).
  { intros k Hk. rewrite learn_other2; [reflexivity|]. intros j Hj E. apply t_style_inj in E. lia. }
  destruct Hx as [<- | [<- | [<- | [<- | [<- | [<- | [<- | [<- | [<- | []]]]]]]]]]; try (apply G; reflexivity).
  - rewrite ITALIC_t. apply G2. lia.
  - rewrite BOLD_t. apply G2. lia.
Qed.
Lemma P_style : forall l, In l languages -> smem (style languages (s "lang=" ++ l)) [s "Emphasis"; ITALIC languages; s "Strong_20_Emphasis"; BOLD languages] = false.
Proof.
  intros l Hl. destruct (all_locales languages locales plain) as [_ [_ F]]. destruct (learn_found languages 1 [] l Hl F) as [k [E1 E2]].
  change (style languages (s "lang=" ++ l)) with (match language_style 1 languages (s "lang=" ++ l) with Some v => v | None => [] end).
  destruct (language_style_bound _ _ _ _ E1) as [k2 [E3 E4]]. rewrite E1. apply t_style_inj in E3. subst k2. apply smem_false.
  intros [E | [E | [E | [E | []]]]]; try discriminate; [rewrite ITALIC_t in E | rewrite BOLD_t in E]; apply t_style_inj in E; lia.
Qed.
Lemma plain_par_in : forall x, In x plain_pars -> plain_par [s "Emphasis"; ITALIC languages] [s "Strong_20_Emphasis"; BOLD languages] LANG x.
Proof.
  intros x Hx. pose proof (plain_unmarked languages x Hx) as M.
  change [s "Emphasis"; ITALIC languages; s "Strong_20_Emphasis"; BOLD languages] with ([s "Emphasis"; ITALIC languages] ++ [s "Strong_20_Emphasis"; BOLD languages]) in M.
  unfold smem in M. rewrite existsb_app in M. apply orb_false_iff in M as [M1 M2].
  split; [apply P_none; do 2 right; destruct Hx as [<- | [<- | [<- | [<- | [<- | []]]]]]; [now left | right; now left | do 2 right; now left | do 3 right; now left | do 4 right; now left]|].
  split; [destruct Hx as [<- | [<- | [<- | [<- | [<- | []]]]]]; reflexivity|]. split; [destruct Hx as [<- | [<- | [<- | [<- | [<- | []]]]]]; reflexivity|]. split; assumption.
Qed.
End Meaning.
