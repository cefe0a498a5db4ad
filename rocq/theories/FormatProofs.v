(** Formatted text: the whole conversion. *)
From Coq Require Import String List NArith ZArith Bool Lia Arith.
From Verif Require Import PyStr YwText WordCount WordCountProofs OdfXml OdfXmlProofs OdtText OdtTextProofs OdtTextProofs2 SpecOdf SpecFormat
  FormatWords FormatLines FormatRun FormatWeak FormatXml FormatXml2 FormatXml3 FormatXml4 FormatXml5.
Import ListNotations.

(** ** Trailing white space *)
Lemma blanks_place : forall author l p a p', Forall (fun q => pblank q = true) l -> kread author false p l = Some (a, p') ->
  match p, p' with PW sp, PW sp' => sp = sp' | PN _ _ _, PN _ _ _ => True | _, _ => False end.
Proof.
  intros author l. induction l as [|q l IH]; intros p a p' H K; [cbn in K; injection K as _ <-; destruct p; reflexivity|].
  apply Forall_cons_iff in H as [H1 H2]. cbn [kread] in K. destruct (kstep author false p q) as [[a1 p1]|] eqn:E; [|discriminate].
  destruct (kread author false p1 l) as [[a2 p2]|] eqn:F; [|discriminate]. injection K as _ <-. specialize (IH p1 a2 p2 H2 F).
  destruct q; try discriminate; destruct p as [sp | sp ps cur]; cbn [kstep] in E; try (injection E as <- <-; exact IH).
  destruct sp; [injection E as <- <-; exact IH | discriminate].
Qed.
Lemma blanks_read : forall author l sp a p', Forall (fun q => pblank q = true) l -> kread author false (PW sp) l = Some (a, p') -> Forall blank_atom a.
Proof.
  intros author l. induction l as [|q l IH]; intros sp a p' H K; [cbn in K; injection K as <- _; constructor|].
  apply Forall_cons_iff in H as [H1 H2]. cbn [kread] in K. destruct (kstep author false (PW sp) q) as [[a1 p1]|] eqn:E; [|discriminate].
  destruct (kread author false p1 l) as [[a2 p2]|] eqn:F; [|discriminate]. injection K as <- _.
  destruct q; try discriminate; cbn [kstep] in E.
  - injection E as <- <-. constructor; [exact H1 | exact (IH _ _ _ H2 F)].
  - destruct sp; [|discriminate]. injection E as <- <-. constructor; [exact I | exact (IH _ _ _ H2 F)].
Qed.
Lemma trim_read : forall author F tail p a, Forall (fun q => pblank q = true) tail -> kread author false p (F ++ tail) = Some (a, PW []) ->
  exists out w, kread author false p F = Some (out, PW []) /\ a = out ++ w /\ Forall blank_atom w.
Proof.
  intros author F tail p a H K. rewrite kread_app in K. destruct (kread author false p F) as [[x p1]|]; [|discriminate].
  destruct (kread author false p1 tail) as [[y p2]|] eqn:E; [|discriminate]. injection K as <- ->. pose proof (blanks_place _ _ _ _ _ H E) as B.
  destruct p1 as [sp | sp ps cur]; [|contradiction]. subst sp. exists x, y. split; [reflexivity|]. split; [reflexivity|]. exact (blanks_read _ _ _ _ _ H E).
Qed.

(** ** Comment marks *)
Lemma okpair_tag : forall a b, match a with PO _ | PX _ => True | _ => False end \/ match b with PO _ | PX _ => True | _ => False end -> okpair a b = true.
Proof.
  intros a b [H | H]; [destruct a; try contradiction; reflexivity|]. destruct b; try contradiction; unfold okpair; cbn [starry]; rewrite andb_false_r; destruct a; reflexivity.
Qed.
Definition is_tag (p : piece) : bool := match p with PO _ | PX _ => true | _ => false end.
Lemma untag_cons : forall p l, untag (p :: l) = if is_tag p then untag l else p :: untag l.
Proof. intros p l. destruct p; reflexivity. Qed.
Lemma chain_untag : forall l, chain (untag l) -> chain l.
Proof.
  induction l as [|a l IH]; intro H; [exact I|]. assert (Hl : chain l).
  { apply IH. rewrite untag_cons in H. destruct (is_tag a); [exact H | now apply chain_tl in H]. }
  destruct l as [|b r]; [exact I|]. split; [|exact Hl]. destruct (is_tag a) eqn:Ta; [apply okpair_tag; left; destruct a; (discriminate || exact I)|].
  destruct (is_tag b) eqn:Tb; [apply okpair_tag; right; destruct b; (discriminate || exact I)|].
  rewrite !untag_cons, Ta, Tb in H. exact (proj1 H).
Qed.
Lemma chain_prefix : forall a b, chain (a ++ b) -> chain a.
Proof.
  induction a as [|x a IH]; intros b H; [exact I|]. destruct a as [|y a]; [exact I|]. cbn [app] in *. destruct H as [H1 H2]. split; [exact H1 | exact (IH b H2)].
Qed.
Definition untoken (k : token) : bool := match k with Opn _ | Cls _ => false | _ => true end.
Lemma untag_pieces : forall ks, untag (pieces ks) = pieces (untagged ks).
Proof.
  induction ks as [|k ks IH]; [reflexivity|]. unfold pieces in *. cbn [flat_map untagged filter]. fold (untagged ks).
  destruct k; cbn [pieces1 app flat_map]; rewrite ?untag_cons; cbn [is_tag]; rewrite ?IH; try reflexivity.
  rewrite <- app_assoc, untag_app. rewrite untag_note. cbn [app]. rewrite untag_cons. cbn [is_tag]. rewrite IH. now rewrite <- app_assoc.
Qed.
Lemma suffix_tail : forall c t, suffixb (s "/") (c :: t) = false -> suffixb (s "/") t = false /\ (t = [] -> c <> 47%N).
Proof.
  intros c t H. split.
  - destruct (suffixb (s "/") t) eqn:E; [|reflexivity]. apply suffixb_spec in E as [r Er]. rewrite <- H. symmetry. apply suffixb_spec. exists (c :: r). now rewrite Er.
  - intros -> ->. discriminate.
Qed.
Lemma chain_note : forall t r, chain (PCx :: r) -> containsb (s "/*") t = false -> containsb (s "*/") t = false -> suffixb (s "/") t = false ->
  chain (map note_piece t ++ PCx :: r).
Proof.
  induction t as [|c t IH]; intros r Hr H1 H2 H3; [exact Hr|]. apply containsb_tail in H1 as [P1 H1]. apply containsb_tail in H2 as [P2 H2].
  apply suffix_tail in H3 as [H3 H4]. specialize (IH r Hr H1 H2 H3). cbn [map app]. destruct t as [|d t].
  - cbn [map app] in *. split; [|exact IH]. unfold note_piece. destruct (N.eqb c 10); [reflexivity|]. unfold okpair. cbn [slashy starry]. rewrite andb_true_r, (proj2 (N.eqb_neq c 47)) by now apply H4. reflexivity.
  - cbn [map app] in *. split; [|exact IH]. change (s "/*") with [47; 42]%N in P1. change (s "*/") with [42; 47]%N in P2. rewrite prefix2 in P1, P2.
    unfold note_piece. destruct (N.eqb c 10); destruct (N.eqb d 10); try reflexivity; unfold okpair; cbn [slashy starry].
    + now rewrite andb_false_r.
    + rewrite (N.eqb_sym c 47), (N.eqb_sym d 42), (N.eqb_sym c 42), (N.eqb_sym d 47), P1, P2. reflexivity.
Qed.
Lemma chain_tokens : forall languages ks, forallb (token_ok languages) ks = true -> forallb untoken ks = true -> no_collision ks = true -> chain (pieces ks).
Proof.
  intro languages. induction ks as [|k ks IH]; intros H U C; [exact I|]. cbn [forallb] in H, U. apply andb_true_iff in H as [H1 H2]. apply andb_true_iff in U as [U1 U2].
  assert (C2 : no_collision ks = true) by (destruct ks as [|b ks]; [reflexivity|]; cbn [no_collision] in C; now apply andb_true_iff in C).
  assert (C1 : match ks with b :: _ => collide k b = false | [] => True end) by (destruct ks as [|b ks]; [exact I|]; cbn [no_collision] in C; apply andb_true_iff in C as [C _]; now apply negb_true_iff in C).
  specialize (IH H2 U2 C2).
  assert (G : forall p, match ks with k2 :: _ => okpair p (hd PB (pieces1 k2)) = true | [] => True end -> chain (p :: pieces ks)).
  { intros p Hp. destruct ks as [|k2 ks]; [exact I|]. unfold pieces in *. cbn [flat_map] in *.
    destruct k2; cbn [pieces1 app hd] in *; (split; [exact Hp | exact IH]). }
  unfold pieces in *. cbn [flat_map]. destruct k as [c | | t | t | w | t]; try discriminate; cbn [pieces1 app].
  - apply G. destruct ks as [|k2 ks]; [exact I|]. destruct k2 as [d | | t | t | w | t]; cbn [pieces1 hd app]; unfold okpair; cbn [slashy starry]; rewrite ?andb_false_r; try reflexivity.
    cbn [collide] in C1. apply orb_false_iff in C1 as [C1a C1b]. now rewrite C1a, C1b.
  - apply G. destruct ks; [exact I | reflexivity].
  - apply G. destruct ks; [exact I | reflexivity].
  - cbn [token_ok] in H1. unfold note_ok in H1. apply andb_true_iff in H1 as [H1 N3]. apply andb_true_iff in H1 as [H1 N2]. apply andb_true_iff in H1 as [_ N1].
    apply negb_true_iff in N1, N2, N3. rewrite <- app_assoc. cbn [app].
    assert (X : chain (map note_piece t ++ PCx :: flat_map pieces1 ks)).
    { apply chain_note; try assumption. apply G. destruct ks as [|k2 ks]; [exact I|]. destruct k2 as [d | | u | u | w | u]; cbn [pieces1 hd app]; try reflexivity.
      cbn [collide] in C1. unfold okpair. cbn [slashy starry]. rewrite C1. reflexivity. }
    destruct (map note_piece t ++ PCx :: flat_map pieces1 ks) as [|b r] eqn:E; [exact I|]. split; [reflexivity | exact X].
Qed.

(** ** Lines *)
Lemma untag_pjoin : forall ls, untag (pjoin ls) = pjoin (map untag ls).
Proof.
  induction ls as [|l ls IH]; [reflexivity|]. destruct ls as [|m ls]; [reflexivity|]. change (pjoin (l :: m :: ls)) with (l ++ PB :: pjoin (m :: ls)).
  change (pjoin (map untag (l :: m :: ls))) with (untag l ++ PB :: pjoin (map untag (m :: ls))). now rewrite untag_app, untag_cons, IH.
Qed.
Lemma pjoin_part : forall ls x, In x ls -> exists a b, pjoin ls = a ++ x ++ b.
Proof.
  induction ls as [|l ls IH]; intros x H; [contradiction|]. destruct ls as [|m ls].
  - destruct H as [-> | []]. exists [], []. cbn [pjoin app]. now rewrite app_nil_r.
  - change (pjoin (l :: m :: ls)) with (l ++ PB :: pjoin (m :: ls)). destruct H as [-> | H]; [exists [], (PB :: pjoin (m :: ls)); reflexivity|].
    destruct (IH x H) as [a [b E]]. exists (l ++ PB :: a), b. rewrite E. now rewrite <- app_assoc.
Qed.
Lemma lines_no_quote : forall l, containsb GT (render (untag l)) = false -> Forall (fun x => containsb GT (render (untag x)) = false) (plines l).
Proof.
  intros l H. apply Forall_forall. intros x Hx. destruct (containsb GT (render (untag x))) eqn:E; [|reflexivity]. rewrite <- H. symmetry.
  apply containsb_spec in E as [a [b E]]. destruct (pjoin_part _ (untag x) (in_map untag _ _ Hx)) as [c [d F]]. rewrite <- untag_pjoin, pjoin_plines in F.
  apply containsb_spec. exists (render c ++ a), (b ++ render d). rewrite F, !render_app, E. now rewrite <- !app_assoc.
Qed.
Lemma adjlines_facts : forall tags ls st, incl (map fst st) tags -> Forall (Forall (piece_ok tags)) ls ->
  Forall (Forall (piece_ok tags)) (adjlines ls st) /\ map untag (adjlines ls st) = map untag ls.
Proof.
  intros tags ls. induction ls as [|l ls IH]; intros st Hs H; [split; [constructor | reflexivity]|]. apply Forall_cons_iff in H as [H1 H2]. cbn [adjlines map].
  destruct (adjs_facts tags st l Hs H1) as [A1 [A2 A3]]. destruct (IH (snd (adjs l st))) as [I1 I2]; [now rewrite A3 | exact H2|].
  split; [constructor; assumption | now rewrite A2, I2].
Qed.
Lemma pjoin_ok : forall (P : piece -> Prop) ls, P PB -> Forall (Forall P) ls -> Forall P (pjoin ls).
Proof.
  intros P ls HB. induction ls as [|l ls IH]; intro H; [constructor|]. apply Forall_cons_iff in H as [H1 H2]. destruct ls as [|m ls]; [exact H1|].
  change (pjoin (l :: m :: ls)) with (l ++ PB :: pjoin (m :: ls)). apply Forall_app. split; [exact H1|]. constructor; [exact HB | now apply IH].
Qed.
Lemma xpiece_tokens : forall languages ks, forallb (token_ok languages) ks = true -> Forall (xpiece (tags_of languages)) (pieces ks).
Proof.
  intros languages ks H. induction ks as [|k ks IH]; [constructor|]. cbn [forallb] in H. apply andb_true_iff in H as [H1 H2]. unfold pieces in *. cbn [flat_map].
  apply Forall_app. split; [|now apply IH]. destruct k as [c | | t | t | w | t]; cbn [token_ok pieces1] in *.
  - repeat constructor. exact H1.
  - repeat constructor.
  - constructor; [now apply smem_In in H1 | constructor].
  - constructor; [now apply smem_In in H1 | constructor].
  - apply andb_true_iff in H1 as [H1 N2]. apply andb_true_iff in H1 as [H1 N1]. apply negb_true_iff in N1, N2. constructor; [|constructor]. cbn [xpiece]. split; [exact H1|].
    split; intro Hi; [apply smem_In in Hi; congruence|]. assert (T : smem w (map (app (s "/")) (tags_of languages)) = true) by now apply smem_In. congruence.
  - constructor; [exact I|]. apply Forall_app. split; [|repeat constructor]. unfold note_ok in H1. do 3 apply andb_true_iff, proj1 in H1. apply Forall_map. apply Forall_forall. intros c Hc.
    rewrite forallb_forall in H1. apply H1 in Hc. unfold note_piece. destruct (N.eqb c 10) eqn:E; [exact I|]. cbn [xpiece]. unfold note_char, char_ok in *. apply andb_true_iff in Hc as [Hx Hc].
    rewrite Hx. rewrite E. rewrite orb_false_r. exact Hc.
Qed.
Lemma tags_nodup : forall languages, NoDup languages -> NoDup (tags_of languages).
Proof.
  intros languages H. unfold tags_of. constructor; [|constructor].
  - intros [E | E]; [discriminate|]. apply in_map_iff in E as [l [E _]]. discriminate.
  - intro E. apply in_map_iff in E as [l [E _]]. discriminate.
  - apply FinFun.Injective_map_NoDup; [|exact H]. intros a b E. now apply app_inv_head in E.
Qed.
Lemma adjs_empty : forall ts, fst (adjs [] (map (fun t => (t, false)) ts)) = [].
Proof. induction ts as [|t ts IH]; [reflexivity|]. cbn [map adjs fst]. exact IH. Qed.
Lemma none_left : forall ts : list str, filter (fun _ => false) ts = [].
Proof. induction ts as [|t ts IH]; [reflexivity | exact IH]. Qed.
Lemma undress_dress : forall languages a, undress (dress languages a) = undress a.
Proof. intros languages [c sp | | c t]; reflexivity. Qed.

Section Convert.
Variables (author : str) (languages : list str).
Hypothesis names : names_ok author languages.
Let tags := tags_of languages.
Definition closed : list (str * bool) := map (fun t => (t, false)) tags.
Definition adjusted (ks : list token) : list piece := pjoin (adjlines (plines (pieces ks)) closed).
Lemma closed_fst : incl (map fst closed) tags.
Proof. unfold closed. rewrite map_map. cbn [fst]. rewrite map_id. apply incl_refl. Qed.
Let plain := tags_plain author languages names.
Let okay := FormatXml.tags_ok tags plain.
Lemma adjusted_facts : forall ks, forallb (token_ok languages) ks = true ->
  untag (adjusted ks) = untag (pieces ks) /\ Forall (piece_ok tags) (adjusted ks) /\ Forall (xpiece tags) (adjusted ks).
Proof.
  intros ks H. pose proof (xpiece_tokens languages ks H) as X.
  assert (P : Forall (piece_ok tags) (pieces ks)) by (eapply Forall_impl; [|exact X]; apply xpiece_ok).
  destruct (adjlines_facts tags (plines (pieces ks)) closed closed_fst (plines_ok tags _ P)) as [A1 A2].
  assert (U : untag (adjusted ks) = untag (pieces ks)) by (unfold adjusted; rewrite untag_pjoin, A2, <- untag_pjoin, pjoin_plines; reflexivity).
  assert (K : Forall (piece_ok tags) (adjusted ks)) by (apply pjoin_ok; [exact I | exact A1]). split; [exact U|]. split; [exact K|].
  apply Forall_forall. intros p Hp. rewrite Forall_forall in K. specialize (K p Hp). destruct (is_tag p) eqn:E; [destruct p; try discriminate; exact K|].
  assert (Hu : In p (untag (pieces ks))) by (rewrite <- U; unfold untag; apply filter_In; split; [exact Hp | destruct p; (discriminate || reflexivity)]).
  unfold untag in Hu. apply filter_In in Hu as [Hu _]. rewrite Forall_forall in X. exact (X p Hu).
Qed.
Lemma converts : forall ks, marked_up languages ks -> exists F tail, adjusted ks = F ++ tail /\ Forall (fun p => pblank p = true) tail /\ Forall (xpiece tags) F /\
  odtf_convert author languages (Some (typed ks)) false = Some (concat (wordsH author languages F)).
Proof.
  intros ks [H [C [Q T]]]. pose proof (xpiece_tokens languages ks H) as X. destruct (adjusted_facts ks H) as [U [K XA]].
  assert (P : Forall (piece_ok tags) (pieces ks)) by (eapply Forall_impl; [|exact X]; apply xpiece_ok).
  assert (Ch : chain (adjusted ks)).
  { apply chain_untag. rewrite U, untag_pieces. apply (chain_tokens languages); [| |exact C].
    - apply forallb_forall. intros k Hk. unfold untagged in Hk. apply filter_In in Hk as [Hk _]. rewrite forallb_forall in H. now apply H.
    - apply forallb_forall. intros k Hk. unfold untagged in Hk. apply filter_In in Hk as [_ Hk]. destruct k; (discriminate || reflexivity). }
  destruct (trim (adjusted ks)) as [F [tail [E1 [E2 E3]]]]. exists F, tail. split; [exact E1|]. split; [exact E3|].
  assert (XF : Forall (xpiece tags) F) by (rewrite E1 in XA; now apply Forall_app in XA). assert (CF : chain F) by (rewrite E1 in Ch; now apply chain_prefix in Ch).
  split; [exact XF|].
  assert (L : tags_lines (splitc 10 (typed ks)) closed = Some (map render (adjlines (plines (pieces ks)) closed))).
  { rewrite typed_pieces, (split_pieces tags okay _ P). apply (lines_pieces tags okay); [apply closed_fst | now apply plines_ok|]. apply lines_no_quote.
    rewrite untag_pieces, <- typed_pieces. exact Q. }
  assert (G : forall t, tags_lines (splitc 10 t) closed = Some (map render (adjlines (plines (pieces ks)) closed)) -> t <> [] ->
    odtf_convert author languages (Some t) false = Some (concat (wordsH author languages F))).
  { intros t Ht Hn. destruct t as [|c t]; [congruence|]. unfold odtf_convert. cbv zeta. rewrite split_splitc. change ([s "i"; s "b"] ++ map (fun l => s "lang=" ++ l) languages) with tags.
    fold closed. rewrite Ht. f_equal. rewrite <- render_pjoin. fold (adjusted ks). rewrite E2, (replaced author languages names F XF CF). exact (hidden_words author languages names F XF). }
  destruct ks as [|k ks].
  - assert (E0 : adjusted [] = []) by (unfold adjusted; cbn [pieces flat_map plines adjlines pjoin]; apply adjs_empty). rewrite E0 in E1. destruct F as [|x F]; [reflexivity | discriminate].
  - apply G; [exact L|]. unfold typed. cbn [flat_map]. destruct k; discriminate.
Qed.
Theorem shown_text : forall ks out, marked_up languages ks -> kread author false (PW []) (adjusted ks) = Some (out, PW []) ->
  exists w es shown_out tail, odtf_convert author languages (Some (typed ks)) false = Some w /\
    sax (s "<doc>" ++ (s "<text:p>" ++ w ++ s "</text:p>") ++ s "</doc>") = Some (Start (s "doc") [] :: es ++ [End (s "doc")]) /\
    shown es = Some (map (dress languages) shown_out) /\ out = shown_out ++ tail /\ Forall blank_atom tail.
Proof.
  intros ks out M K. destruct (converts ks M) as [F [tl [E1 [E2 [E3 E4]]]]]. rewrite E1 in K. apply trim_read in K as [o [w [K1 [K2 K3]]]]; [|exact E2].
  destruct (read_run author languages names F (PW []) o (PW []) E3 K1) as [es [[R1 [ts [R2 [R3 R4]]]] S]].
  exists (concat (wordsH author languages F)), (merge (Start text_p [] :: es ++ [End text_p])), o, w. split; [exact E4|]. split; [|split; [|split; assumption]].
  - rewrite (sax_root _ (Start text_p [] :: es ++ [End text_p])).
    + cbn [merge]. rewrite merge_end. reflexivity.
    + apply frag_para; [|lex_tag | vm_compute; intuition discriminate]. split; [exact R1|]. exists ts. split; [exact R2|]. split; [exact R3|]. intros m st more. exact (R4 m st more).
  - unfold shown. rewrite shown_merge. cbn [shown_from]. change (str_eqb text_p text_p) with true. cbv iota. pose proof (S [End text_p]) as S1. cbn [placed map] in S1. rewrite S1.
    cbn [shown_from]. change (str_eqb text_p text_span) with false. change (str_eqb text_p text_p) with true. cbv iota. cbn [option_map app]. now rewrite app_nil_r.
Qed.
Theorem characters_kept : forall ks, marked_up languages ks ->
  exists w es out tail, odtf_convert author languages (Some (typed ks)) false = Some w /\
    sax (s "<doc>" ++ (s "<text:p>" ++ w ++ s "</text:p>") ++ s "</doc>") = Some (Start (s "doc") [] :: es ++ [End (s "doc")]) /\
    shown es = Some out /\ map undress (meaning author [] ks) = map undress out ++ tail /\ Forall blank_atom tail.
Proof.
  intros ks M. pose proof M as [H [_ [_ T]]]. destruct (adjusted_facts ks H) as [U [K _]]. pose proof (tags_nodup languages (proj2 (proj2 names))) as ND.
  assert (V : vector tags (fun t => smem t []) = closed) by reflexivity.
  destruct (adjlines_weak tags (plines (pieces ks)) (fun t => smem t []) false ND (wlines_tokens languages ks [] H T)) as [A1 A2]; [discriminate|].
  rewrite V in A1, A2. fold (adjusted ks) in A1, A2.
  destruct (read_weak author tags (adjusted ks) (fun _ => false) (PW []) false ND K A1 A2) as [out R]; [cbn [stack length]; now rewrite none_left | reflexivity|].
  destruct (shown_text ks out M R) as [w [es [o [tail [S1 [S2 [S3 [S4 S5]]]]]]]]. exists w, es, (map (dress languages) o), (map undress tail).
  split; [exact S1|]. split; [exact S2|]. split; [exact S3|]. split.
  - apply kread_untag in R. cbn [strip] in R. rewrite U, (read_source author ks []) in R. injection R as R. rewrite R, S4, map_app, map_map.
    f_equal. apply map_ext. intro a. symmetry. apply undress_dress.
  - apply Forall_map. eapply Forall_impl; [|exact S5]. intros a Ha. destruct a; exact Ha.
Qed.
Theorem styles_kept : forall ks, marked_up languages ks -> nested tags [] ks ->
  exists w es out tail, odtf_convert author languages (Some (typed ks)) false = Some w /\
    sax (s "<doc>" ++ (s "<text:p>" ++ w ++ s "</text:p>") ++ s "</doc>") = Some (Start (s "doc") [] :: es ++ [End (s "doc")]) /\
    shown es = Some (map (dress languages) out) /\ meaning author [] ks = out ++ tail /\ Forall blank_atom tail.
Proof.
  intros ks M Nn. pose proof M as [H [_ [_ T]]]. pose proof (tags_nodup languages (proj2 (proj2 names))) as ND.
  destruct (klines_tokens author languages ks [] (NoDup_nil _) H T Nn) as [sp KL].
  assert (O : ordered tags (stack (PW []))) by (unfold ordered; cbn [stack]; symmetry; exact (none_left tags)).
  pose proof (adjlines_strict author tags (plines (pieces ks)) (PW []) _ (PW sp) ND (plines_no_pb _) KL I O) as R. cbn [strip stack] in R.
  change (flags tags []) with closed in R. fold (adjusted ks) in R.
  destruct (shown_text ks _ M R) as [w [es [o [tail [S1 [S2 [S3 [S4 S5]]]]]]]]. exists w, es, o, tail. tauto.
Qed.
End Convert.
