(** Exported texts: paragraphs that begin with "> " become quotations. *)
From Coq Require Import String List NArith ZArith Bool Lia Arith.
From Verif Require Import PyStr PyDict YwText YwTextProofs WordCountProofs OdfXml OdfXmlProofs OdtText OdtTextProofs OdtTextProofs2 SpecOdf SpecFormat SpecManuscript
  FormatWords FormatLines FormatRun FormatXml FormatXml2 FormatXml3 FormatXml4 FormatXml5 FormatProofs ManuText ManuClean ManuEvents OdsRoundTrip2 Manuscript.
Import ListNotations.

Definition GTB : str := s "&gt; ".
Definition blank_first (t : str) : bool := match t with c :: _ => N.eqb c 32 | [] => false end.

(** ** The replacement *)
Definition FI : str := s "First_20_line_20_indent". Definition TB : str := s "Text_20_body". Definition QU : str := s """Quotations"">".
Definition Qt (t : str) : str := replace QUOTE2 QU (replace QUOTE1 QU t).
Definition quotes (w w' : str) : Prop := forall r, Qt (w ++ r) = w' ++ Qt r.
(** no occurrence begins in w, whatever follows *)
Definition clear (p w : str) : Prop := forall q r, replace p q (w ++ r) = w ++ replace p q r.
Definition clear2 (w : str) : Prop := clear QUOTE1 w /\ clear QUOTE2 w.
Lemma clear_app : forall p a b, clear p a -> clear p b -> clear p (a ++ b).
Proof. intros p a b Ha Hb q r. rewrite <- !app_assoc, Ha, Hb. reflexivity. Qed.
Lemma clear2_app : forall a b, clear2 a -> clear2 b -> clear2 (a ++ b).
Proof. intros a b [A1 A2] [B1 B2]. split; now apply clear_app. Qed.
Lemma clear2_plain : forall w, ~ In 34%N w -> clear2 w.
Proof. intros w H. split; intros q r; [change QUOTE1 with (34%N :: tl QUOTE1) | change QUOTE2 with (34%N :: tl QUOTE2)]; now apply replace_skip. Qed.
Lemma clear_quotes : forall w, clear2 w -> quotes w w.
Proof. intros w [H1 H2] r. unfold Qt. now rewrite H1, H2. Qed.
Lemma quotes_app : forall a a' b b', quotes a a' -> quotes b b' -> quotes (a ++ b) (a' ++ b').
Proof. intros a a' b b' Ha Hb r. rewrite <- !app_assoc, Ha, Hb. reflexivity. Qed.
(** a mark in front of something *)
Lemma mark_miss : forall p q r, prefixb p (34%N :: r) = false -> replace p q (34%N :: r) = 34%N :: replace p q r.
Proof. intros. now apply replace_miss. Qed.
Definition other_name (v : str) : Prop := ~ In 34%N v /\ v <> FI /\ v <> TB.
Lemma name_prefix : forall n v r x, ~ In 34%N n -> ~ In 34%N v -> prefixb (n ++ 34%N :: x) (v ++ 34%N :: r) = true -> n = v.
Proof.
  induction n as [|c n IH]; intros v r x Hn Hv P.
  - destruct v as [|d v]; [reflexivity|]. cbn [app prefixb] in P. apply andb_true_iff in P as [P _]. apply N.eqb_eq in P. subst d. exfalso. apply Hv. now left.
  - destruct v as [|d v]; cbn [app prefixb] in P; apply andb_true_iff in P as [P1 P2]; apply N.eqb_eq in P1; [subst c; exfalso; apply Hn; now left|]. subst d. f_equal.
    apply (IH v r x); [intro Hi; apply Hn; now right | intro Hi; apply Hv; now right | exact P2].
Qed.
Lemma name_next : forall n r x, ~ In 34%N n -> prefixb (n ++ x) (n ++ r) = prefixb x r.
Proof. induction n as [|c n IH]; intros r x Hn; [reflexivity|]. cbn [app prefixb]. rewrite N.eqb_refl. cbn [andb]. apply IH. intro I. apply Hn. now right. Qed.
Lemma clear_value2 : forall v c, ~ In 34%N v -> (v <> FI /\ v <> TB) \/ c <> 62%N -> c <> 70%N -> c <> 84%N -> c <> 34%N -> clear2 (34%N :: v ++ [34%N; c]).
Proof.
  intros v c Hv N0 C1 C2 C3.
  assert (G : forall n x, ~ In 34%N n -> n <> v \/ c <> 62%N -> (match n with d :: _ => d <> c | [] => False end) -> clear (34%N :: n ++ 34%N :: 62%N :: x) (34%N :: v ++ [34%N; c])).
  { intros n x Hn Nv Hc q r. cbn [app]. rewrite <- app_assoc. cbn [app].
    rewrite replace_miss.
    2:{ cbn [prefixb]. rewrite N.eqb_refl. cbn [andb]. destruct (prefixb (n ++ 34%N :: 62%N :: x) (v ++ 34%N :: c :: r)) eqn:P; [|reflexivity]. pose proof P as P1. apply name_prefix in P1; [|assumption|assumption]. subst v. destruct Nv as [Nv | Nv]; [congruence|].
        rewrite name_next in P by exact Hn. cbn [prefixb] in P. rewrite N.eqb_refl in P. cbn [andb] in P. rewrite (proj2 (N.eqb_neq 62 c)) in P by congruence. discriminate. }
    f_equal. rewrite (replace_skip 34 (n ++ 34%N :: 62%N :: x) q v (34%N :: c :: r) Hv). rewrite <- app_assoc. cbn [app]. f_equal. rewrite replace_miss.
    2:{ cbn [prefixb]. rewrite N.eqb_refl. cbn [andb]. destruct n as [|d n]; [destruct Hc|]. cbn [app prefixb]. now rewrite (proj2 (N.eqb_neq d c)) by exact Hc. }
    f_equal. rewrite replace_miss; [reflexivity|]. cbn [prefixb]. now rewrite (proj2 (N.eqb_neq 34 c)) by congruence. }
  split; [apply (G FI (s "&gt; ")) | apply (G TB (s "&gt; "))]; try (apply no_char; reflexivity); try (cbn; congruence); (destruct N0 as [[N1 N2] | N0]; [left; intro E; symmetry in E; contradiction | now right]).
Qed.
Lemma clear_value : forall v c, other_name v -> c <> 70%N -> c <> 84%N -> c <> 34%N -> clear2 (34%N :: v ++ [34%N; c]).
Proof. intros v c [Hv N0] C1 C2 C3. apply clear_value2; tauto. Qed.

(** ** The beginning of a paragraph *)
Definition opening (st : str) : str := s "<text:p text:style-name=""" ++ st ++ s """>".
Lemma prefix_kept : forall p q u t, prefixb u t = false -> ~ In 34%N u -> prefixb u (replace (34%N :: p) (34%N :: q) t) = false.
Proof.
  intros p q u. induction u as [|c u IH]; intros t P Hu; [discriminate|]. destruct t as [|d t]; [reflexivity|].
  destruct (prefixb (34%N :: p) (d :: t)) eqn:E.
  - apply prefixb_spec in E as [r E]. rewrite E, replace_hit by discriminate. cbn [app prefixb]. rewrite (proj2 (N.eqb_neq c 34)) by (intros ->; apply Hu; now left). reflexivity.
  - rewrite replace_miss by exact E. cbn [prefixb] in *. destruct (N.eqb c d); [|reflexivity]. cbn [andb] in *. apply IH; [exact P | intro Hi; apply Hu; now right].
Qed.
Lemma value_miss : forall n v x q r, ~ In 34%N n -> ~ In 34%N v -> (match n with d :: _ => d <> 62%N | [] => False end) -> prefixb x r = false ->
  replace (34%N :: n ++ 34%N :: 62%N :: x) q (34%N :: v ++ 34%N :: 62%N :: r) = 34%N :: v ++ 34%N :: 62%N :: replace (34%N :: n ++ 34%N :: 62%N :: x) q r.
Proof.
  intros n v x q r Hn Hv Hc Px. rewrite replace_miss.
  2:{ cbn [prefixb]. rewrite N.eqb_refl. cbn [andb]. destruct (prefixb (n ++ 34%N :: 62%N :: x) (v ++ 34%N :: 62%N :: r)) eqn:P; [|reflexivity].
      pose proof (name_prefix _ _ _ _ Hn Hv P) as <-. clear - P Px. exfalso. induction n as [|c n IH]; cbn [app prefixb] in P; [rewrite !N.eqb_refl in P; cbn [andb] in P; congruence|]. apply andb_true_iff in P as [_ P]. now apply IH. }
  f_equal. rewrite (replace_skip 34 _ q v (34%N :: 62%N :: r) Hv). f_equal. rewrite replace_miss.
  2:{ cbn [prefixb]. rewrite N.eqb_refl. cbn [andb]. destruct n as [|d n]; [destruct Hc|]. cbn [app prefixb]. now rewrite (proj2 (N.eqb_neq d 62)) by exact Hc. }
  reflexivity.
Qed.
Lemma styles2 : forall st, In st [FI; TB] -> ~ In 34%N st.
Proof. intros st [<- | [<- | []]]; apply no_char; reflexivity. Qed.
Lemma open_miss : forall st r, In st [FI; TB] -> prefixb GTB r = false -> Qt (opening st ++ r) = opening st ++ Qt r.
Proof.
  intros st r Hst P. pose proof (styles2 st Hst) as Hs. unfold opening, Qt. set (a := s "<text:p text:style-name="). change (s "<text:p text:style-name=""") with (a ++ [34%N]). rewrite <- !app_assoc.
  assert (Ca : clear2 a) by (apply clear2_plain, no_char; reflexivity). destruct Ca as [C1 C2]. rewrite C1, C2. f_equal. change (s """>" ++ r) with (34%N :: 62%N :: r). cbn [app].
  rewrite (value_miss FI st GTB); [| apply no_char; reflexivity | exact Hs | discriminate | exact P].
  rewrite (value_miss TB st GTB); [reflexivity | apply no_char; reflexivity | exact Hs | discriminate|].
  apply (prefix_kept (tl QUOTE1) (tl QU)); [exact P | apply no_char; reflexivity].
Qed.
Lemma clear_QU : clear2 QU.
Proof. apply (clear_value (s "Quotations") 62%N); [split; [apply no_char; reflexivity | split; discriminate] | discriminate | discriminate | discriminate]. Qed.
Lemma open_hit : forall st r, In st [FI; TB] -> Qt (opening st ++ GTB ++ r) = opening (s "Quotations") ++ Qt r.
Proof.
  intros st r Hst. unfold opening, Qt. set (a := s "<text:p text:style-name="). change (s "<text:p text:style-name=""") with (a ++ [34%N]). rewrite <- !app_assoc.
  assert (Ca : clear2 a) by (apply clear2_plain, no_char; reflexivity). destruct Ca as [C1 C2]. rewrite C1, C2. f_equal. destruct clear_QU as [U1 U2].
  change (s """>" ++ Qt r) with (34%N :: 62%N :: Qt r). destruct Hst as [<- | [<- | []]].
  - change ([34%N] ++ FI ++ s """>" ++ GTB ++ r) with (QUOTE1 ++ r). rewrite replace_hit by discriminate. exact (U2 QU _).
  - change ([34%N] ++ TB ++ s """>" ++ GTB ++ r) with (QUOTE2 ++ r).
    assert (K : replace QUOTE1 QU (QUOTE2 ++ r) = QUOTE2 ++ replace QUOTE1 QU r).
    { change (QUOTE2 ++ r) with ((34%N :: TB ++ [34%N; 62%N]) ++ GTB ++ r). change (QUOTE2 ++ replace QUOTE1 QU r) with ((34%N :: TB ++ [34%N; 62%N]) ++ GTB ++ replace QUOTE1 QU r).
      assert (G : clear2 GTB) by (apply clear2_plain, no_char; reflexivity). rewrite <- (proj1 G). generalize (GTB ++ r). intro x. clear.
      reflexivity. }
    rewrite K, replace_hit by discriminate. reflexivity.
Qed.

(** ** Comments directly before a mark *)
Definition ncl (t : str) : Prop := containsb Q_CLOSE t = false.
Lemma ncl_skip : forall c r, c <> 60%N -> ncl r -> ncl (c :: r).
Proof. intros c r Hc Hr. unfold ncl in *. cbn [containsb]. rewrite Hr, orb_false_r. change Q_CLOSE with (60%N :: tl Q_CLOSE). cbn [prefixb]. now rewrite (proj2 (N.eqb_neq 60 c)) by congruence. Qed.
Lemma ncl_plain : forall u r, ~ In 60%N u -> ncl r -> ncl (u ++ r).
Proof. induction u as [|c u IH]; intros r Hu Hr; [exact Hr|]. cbn [app]. apply ncl_skip; [intros ->; apply Hu; now left | apply IH; [intro I; apply Hu; now right | exact Hr]]. Qed.
Definition closes (w : str) : Prop := forall r, ncl r -> ncl (w ++ r).
Lemma closes_app : forall a b, closes a -> closes b -> closes (a ++ b).
Proof. intros a b Ha Hb r Hr. rewrite <- app_assoc. apply Ha. now apply Hb. Qed.
Lemma closes_plain : forall a, ~ In 60%N a -> closes a.
Proof. intros a Ha r Hr. now apply ncl_plain. Qed.
(** every '<' is followed by something else *)
Fixpoint lt_ok (w : str) : bool := match w with [] => true | c :: r => (negb (N.eqb c 60) || match r with a :: b :: _ => negb (N.eqb a 47 && N.eqb b 111) | _ => false end) && lt_ok r end.
Lemma closes_lt : forall w, lt_ok w = true -> closes w.
Proof.
  induction w as [|c w IH]; intros H r Hr; [exact Hr|]. cbn [lt_ok] in H. apply andb_true_iff in H as [H1 H2]. apply orb_true_iff in H1 as [H1 | H1].
  - cbn [app]. apply ncl_skip; [intros ->; discriminate | now apply IH].
  - unfold ncl. cbn [app containsb]. specialize (IH H2 r Hr). unfold ncl in IH. rewrite IH, orb_false_r. destruct w as [|a [|b w]]; try discriminate. cbn [app].
    change Q_CLOSE with (60%N :: 47%N :: 111%N :: skipn 3 Q_CLOSE). cbn [prefixb]. destruct (N.eqb 60 c); [|reflexivity]. rewrite (N.eqb_sym 47 a), (N.eqb_sym 111 b). apply negb_true_iff in H1. cbn [andb].
    destruct (N.eqb a 47); [|reflexivity]. cbn [andb] in *. now rewrite H1.
Qed.

Section Words.
Variables (author : str) (languages : list str).
Hypothesis names : names_ok author languages.
Let tags := tags_of languages.
Notation hw := (hw author languages).
Notation wordsH := (wordsH author languages).
Definition seen (p : piece) : bool := match p with PH w => negb (invisible w) | _ => true end.
Definition unquote (l : list piece) : option (list piece) := match l with PC c :: PC d :: r => if (N.eqb c 62 && N.eqb d 32)%bool then Some r else None | _ => None end.
Lemma unquote_Some : forall l r, unquote l = Some r -> l = PC 62 :: PC 32 :: r.
Proof.
  intros [|[c| | | | | |] l] r E; try discriminate. destruct l as [|[d| | | | | |] l]; try discriminate. cbn [unquote] in E. destruct (N.eqb c 62) eqn:E1; [|discriminate]. destruct (N.eqb d 32) eqn:E2; [|discriminate].
  apply N.eqb_eq in E1, E2. cbn [andb] in E. injection E as ->. now subst.
Qed.
Lemma author_no : forall x, In x (s "&<>""") -> ~ In x author.
Proof. intros x Hx I. destruct names as [Ha _]. rewrite Forall_forall in Ha. specialize (Ha _ I). cbn in Hx. destruct Hx as [<- | [<- | [<- | [<- | []]]]]; discriminate. Qed.
Lemma esc5_no : forall c x, In x (s "<""") -> ~ In x (esc5 c).
Proof.
  intros c x Hx. unfold esc5. destruct (N.eqb c 38); [destruct Hx as [<- | [<- | []]]; apply no_char; reflexivity|]. destruct (N.eqb c 62); [destruct Hx as [<- | [<- | []]]; apply no_char; reflexivity|].
  destruct (N.eqb c 60) eqn:E1; [destruct Hx as [<- | [<- | []]]; apply no_char; reflexivity|]. destruct (N.eqb c 39); [destruct Hx as [<- | [<- | []]]; apply no_char; reflexivity|].
  destruct (N.eqb c 34) eqn:E2; [destruct Hx as [<- | [<- | []]]; apply no_char; reflexivity|]. intros [-> | []]. destruct Hx as [<- | [<- | []]]; discriminate.
Qed.
Lemma xesc_no : forall t x, In x (s "<""") -> ~ In x (flat_map esc5 t).
Proof. intros t x Hx I. apply in_flat_map in I as [c [_ I]]. now apply (esc5_no c x). Qed.
Lemma style_name_other : forall t, other_name (style_of languages t).
Proof.
  intro t. split; [|].
  - intro I. pose proof (style_ok languages t) as S. rewrite forallb_forall in S. specialize (S _ I). discriminate.
  - unfold style_of. destruct (str_eqb t (s "i")); [split; discriminate|]. destruct (str_eqb t (s "b")); [split; discriminate|].
    assert (G : forall ls i v, language_style i ls t = Some v -> v <> FI /\ v <> TB).
    { induction ls as [|l ls IH]; intros i v E; [discriminate|]. cbn [language_style] in E. destruct (str_eqb t (s "lang=" ++ l)); [|now apply (IH (N.succ i))]. injection E as <-. split; [discriminate|].
      change TB with (84%N :: s "ext_20_body"). change (s "T" ++ str_of_N i) with (84%N :: str_of_N i). intro E. injection E as E. assert (Hd : In 101%N (str_of_N i)) by (rewrite E; now left). apply str_of_N_digits in Hd. lia. }
    destruct (language_style 1 languages t) as [v|] eqn:E; [now apply (G languages 1%N) | split; discriminate].
Qed.
Lemma hw_clear : forall q, q <> PB -> clear2 (hw q).
Proof.
  intros q Hq. destruct q as [c | | t | t | w | |]; cbn [FormatXml5.hw xw]; try congruence.
  - apply clear2_plain, esc5_no. right. now left.
  - unfold SO. change (s "<text:span text:style-name=""") with (s "<text:span text:style-name=" ++ [34%N]). rewrite <- app_assoc. apply clear2_app; [apply clear2_plain, no_char; reflexivity|].
    apply (clear_value (style_of languages t) 62%N); [apply style_name_other | discriminate | discriminate | discriminate].
  - apply clear2_plain, no_char. reflexivity.
  - destruct (invisible w); [apply clear2_plain; intros []|]. apply clear2_plain. unfold box. intros [E | I]; [discriminate|]. apply in_app_iff in I as [I | [E | []]]; [|discriminate]. revert I. apply xesc_no. right. now left.
  - unfold AO. apply clear2_plain. rewrite !in_app_iff. intros [I | [I | I]]; [revert I; apply no_char; reflexivity | | revert I; apply no_char; reflexivity]. revert I. apply author_no. do 3 right. now left.
  - apply clear2_plain, no_char. reflexivity.
Qed.
Lemma hw_closes : forall q, q <> PB -> q <> PCx -> closes (hw q).
Proof.
  intros q Hq Hx. destruct q as [c | | t | t | w | |]; cbn [FormatXml5.hw xw]; try congruence.
  - apply closes_plain, esc5_no. now left.
  - unfold SO. apply closes_app; [apply closes_lt; reflexivity|]. apply closes_app; [|apply closes_lt; reflexivity]. apply closes_plain. intro I. pose proof (style_ok languages t) as S. rewrite forallb_forall in S. specialize (S _ I). discriminate.
  - apply closes_lt. reflexivity.
  - destruct (invisible w); [intros r Hr; exact Hr|]. apply closes_plain. unfold box. intros [E | I]; [discriminate|]. apply in_app_iff in I as [I | [E | []]]; [|discriminate]. revert I. apply xesc_no. now left.
  - unfold AO. apply closes_app; [apply closes_lt; reflexivity|]. apply closes_app; [|apply closes_lt; reflexivity]. apply closes_plain. apply author_no. right. now left.
Qed.
(** what a word begins with *)
Lemma hw_first : forall q X, q <> PB -> seen q = true -> blank_first (hw q ++ X) = true -> q = PC 32.
Proof.
  intros q X Hq Sn B. destruct q as [c | | t | t | w | |]; cbn [FormatXml5.hw xw seen] in *; try congruence; try discriminate.
  - f_equal. unfold esc5 in B. destruct (N.eqb c 38); [discriminate|]. destruct (N.eqb c 62); [discriminate|]. destruct (N.eqb c 60); [discriminate|]. destruct (N.eqb c 39); [discriminate|]. destruct (N.eqb c 34); [discriminate|]. now apply N.eqb_eq in B.
  - apply negb_true_iff in Sn. rewrite Sn in B. discriminate.
Qed.
Lemma hw_gt : forall q X, q <> PB -> seen q = true -> prefixb GTB (hw q ++ X) = true -> q = PC 62 /\ blank_first X = true.
Proof.
  intros q X Hq Sn B. destruct q as [c | | t | t | w | |]; cbn [FormatXml5.hw xw seen] in *; try congruence; try discriminate.
  - unfold esc5 in B. destruct (N.eqb c 38) eqn:E0; [discriminate|]. destruct (N.eqb c 62) eqn:E.
    + apply N.eqb_eq in E. subst c. split; [reflexivity|]. destruct X as [|d X]; [discriminate|]. change (prefixb GTB (s "&gt;" ++ d :: X)) with (N.eqb 32 d && true)%bool in B. rewrite andb_true_r, N.eqb_sym in B. exact B.
    + destruct (N.eqb c 60); [discriminate|]. destruct (N.eqb c 39); [discriminate|]. destruct (N.eqb c 34); [discriminate|]. cbn [app] in B. apply andb_true_iff in B as [B _]. apply N.eqb_eq in B. subst c. discriminate E0.
  - apply negb_true_iff in Sn. rewrite Sn in B. discriminate.
Qed.
Lemma words_first : forall l r, forallb seen l = true -> blank_first (concat (wordsH l) ++ 60%N :: r) = true -> exists l', l = PC 32 :: l'.
Proof.
  intros l r Sn B. destruct l as [|q l]; [discriminate|]. assert (C : q = PB \/ q <> PB) by (destruct q; (now left) || (right; discriminate)). destruct C as [-> | C]; [destruct l as [|[] l]; discriminate|].
  rewrite wordsH_c in B by exact C. cbn [concat forallb] in *. rewrite <- app_assoc in B. apply andb_true_iff in Sn as [Sn _]. apply hw_first in B; try assumption. subst q. now exists l.
Qed.
Lemma words_gt : forall l r, forallb seen l = true -> unquote l = None -> prefixb GTB (concat (wordsH l) ++ 60%N :: r) = false.
Proof.
  intros l r Sn U. destruct (prefixb GTB _) eqn:B; [|reflexivity]. exfalso. destruct l as [|q l]; [discriminate|]. assert (C : q = PB \/ q <> PB) by (destruct q; (now left) || (right; discriminate)). destruct C as [-> | C]; [destruct l as [|[] l]; discriminate|].
  rewrite wordsH_c in B by exact C. cbn [concat forallb] in *. rewrite <- app_assoc in B. apply andb_true_iff in Sn as [Sn Sn2]. apply hw_gt in B as [-> B]; try assumption. apply words_first in B as [l' ->]; [discriminate | exact Sn2].
Qed.

(** ** Line breaks *)
Lemma pfrag_q1 : pfrag (s "</text:p>" ++ [10%N] ++ opening (s "Quotations")) (brk_ev a_quote).
Proof.
  split; [vm_compute; intuition discriminate|]. exists ([XEnd text_p] ++ [XChar 10] ++ [XStart text_p a_quote]).
  split; [apply lexes_app; [lex_tag | apply lexes_app; lex_tag] | split; [cbn; intuition discriminate|]].
  intros m st more. cbn [app nest]. rewrite str_eqb_refl. now destruct (nest (text_p :: m :: st) true more).
Qed.
Lemma pfrag_q2 : pfrag (s "</text:p>" ++ [10%N] ++ s "<text:p text:style-name=""First_20_line_20_indent"" />" ++ [10%N] ++ opening (s "Quotations")) (brk_ev a_first ++ brk_ev a_quote).
Proof.
  split; [vm_compute; intuition discriminate|]. exists ([XEnd text_p] ++ [XChar 10] ++ [XEmpty text_p a_first] ++ [XChar 10] ++ [XStart text_p a_quote]).
  split; [repeat (apply lexes_app; [lex_tag|]); lex_tag | split; [cbn; intuition discriminate|]].
  intros m st more. cbn [app nest]. rewrite str_eqb_refl. now destruct (nest (text_p :: m :: st) true more).
Qed.
Definition L1 : str := s "</text:p>" ++ [10%N].
Definition L2 : str := s "</text:p>" ++ [10%N] ++ s "<text:p text:style-name=""First_20_line_20_indent"" />" ++ [10%N].
Lemma L1_quotes : quotes L1 L1. Proof. apply clear_quotes, clear2_plain, no_char. reflexivity. Qed.
Lemma L2_quotes : quotes L2 L2.
Proof. intro r. unfold Qt. change (L2 ++ r) with (L2 ++ r). assert (C : clear2 L2); [|destruct C as [C1 C2]; now rewrite C1, C2].
  split; intros q x; unfold L2; change (s "<text:p text:style-name=""First_20_line_20_indent"" />") with (s "<text:p text:style-name=" ++ s """First_20_line_20_indent"" />");
  rewrite <- !app_assoc; set (z := [10%N] ++ x).
  - reflexivity.
  - reflexivity.
Qed.
Lemma kread_two : forall p c d r a p', kread author false p (PC c :: PC d :: r) = Some (a, p') -> exists p2 a2, frames p2 = frames p /\ kread author false p2 r = Some (a2, p').
Proof.
  intros p c d r a p' K. destruct p as [sp | sp ps cur]; cbn [kread kstep] in K.
  - destruct (kread author false (PW sp) r) as [[x y]|] eqn:E; [|discriminate]. injection K as <- <-. exists (PW sp), x. split; [reflexivity | exact E].
  - destruct (kread author false _ r) as [[x y]|] eqn:E; [|discriminate]. injection K as <- <-. eexists. exists x. split; [|exact E]. reflexivity.
Qed.
(** the words of pieces as they are quoted, and their events *)
Definition quoted (l : list piece) (w' : str) (es : list event) : Prop := evs_of author languages l es /\
  forall r, Qt (concat (wordsH l) ++ 60%N :: r) = w' ++ Qt (60%N :: r) /\ (ncl (60%N :: r) -> ncl (w' ++ 60%N :: r)) /\
    (prefixb GTB (w' ++ 60%N :: r) = true -> unquote l <> None) /\ (blank_first (w' ++ 60%N :: r) = true -> exists l', l = PC 32 :: l').
(** no mark directly after a comment *)
Fixpoint late (l : list piece) : bool := match l with [] => true | p :: r => match p with PCx => match unquote r with Some _ => false | None => true end | _ => true end && late r end.
Lemma quoted_run : forall n l p a p', length l <= n -> Forall (xpiece tags) l -> kread author false p l = Some (a, p') -> forallb seen l = true -> late l = true ->
  exists w' es, run w' es p p' /\ quoted l w' es.
Proof.
  induction n as [|n IH]; intros l p a p' Hn H K Sn C.
  { destruct l; [|cbn in Hn; lia]. cbn [kread] in K. injection K as <- <-. exists [], []. split; [apply (run_nil author languages)|]. split; [reflexivity|]. intro r. split; [reflexivity|]. split; [tauto|]. split; discriminate. }
  destruct l as [|q l]; [cbn [kread] in K; injection K as <- <-; exists [], []; split; [apply (run_nil author languages)|]; split; [reflexivity|]; intro r; split; [reflexivity|]; split; [tauto|]; split; discriminate|].
  cbn [length] in Hn. assert (Cq : q = PB \/ q <> PB) by (destruct q; (now left) || (right; discriminate)). destruct Cq as [-> | Cq].
  - (* a line break *)
    apply Forall_inv_tail in H. cbn [forallb seen andb] in Sn. cbn [late andb] in C.
    cbn [kread] in K. destruct (kstep author false p PB) as [[a1 p1]|] eqn:E1; [|discriminate]. destruct (kread author false p1 l) as [[a3 p3]|] eqn:E3; [|discriminate]. injection K as <- <-.
    destruct (starts_pb l) eqn:Sp.
    + destruct l as [|[] l]; try discriminate. apply Forall_inv_tail in H. cbn [forallb seen andb] in Sn. cbn [late andb] in C. cbn [length] in Hn.
      cbn [kread] in E3. destruct (kstep author false p1 PB) as [[a2 p2]|] eqn:E2; [|discriminate]. destruct (kread author false p2 l) as [[a4 p4]|] eqn:E4; [|discriminate]. injection E3 as <- <-.
      destruct (unquote l) as [l2|] eqn:U.
      * apply unquote_Some in U. subst l. do 2 apply Forall_inv_tail in H. cbn [forallb seen andb] in Sn. cbn [late andb] in C. cbn [length] in Hn. apply kread_two in E4 as [p5 [a5 [F5 E5]]].
        destruct (IH l2 p5 a5 p4) as [w' [es [R1 [R2 R3]]]]; [lia | exact H | exact E5 | exact Sn | exact C|].
        destruct (shows_break author languages p a1 p1 a_first a_body E1) as [_ [Hb [_ G]]]. destruct (G _ _ E2) as [_ G2].
        exists ((L2 ++ opening (s "Quotations")) ++ w'), ((brk_ev a_first ++ brk_ev a_quote) ++ es). split; [eapply (run_app author languages); [|exact R1]; apply run_pfrag; [exact pfrag_q2 | exact Hb | now rewrite F5]|]. split.
        -- left. exists a_first, (brk_ev a_quote ++ es). split; [now left|]. split; [now rewrite <- app_assoc|]. right. split; [reflexivity|]. split; [reflexivity|]. exists es. split; [reflexivity | exact R2].
        -- intro r. destruct (R3 r) as [Q1 [Q2 _]]. split; [|split; [|split; discriminate]].
           ++ rewrite wordsH_2. rewrite !wordsH_c by discriminate. cbn [concat FormatXml5.hw xw]. change P2 with (L2 ++ opening TB). rewrite <- !app_assoc. rewrite L2_quotes. f_equal.
              change (esc5 62 ++ esc5 32 ++ concat (wordsH l2) ++ 60%N :: r) with (GTB ++ concat (wordsH l2) ++ 60%N :: r). rewrite open_hit by (right; now left). now rewrite Q1.
           ++ intro Hr. rewrite <- app_assoc. apply (closes_lt (L2 ++ opening (s "Quotations"))); [reflexivity | now apply Q2].
      * destruct (IH l p2 a4 p4) as [w' [es [R1 [R2 R3]]]]; [lia | exact H | exact E4 | exact Sn | exact C|].
        destruct (shows_break author languages p a1 p1 a_first a_body E1) as [_ [Hb [_ G]]]. destruct (G _ _ E2) as [_ G2].
        exists (P2 ++ w'), (ev2 ++ es). split; [eapply (run_app author languages); [|exact R1]; apply run_pfrag; [exact pfrag_P2 | exact Hb | exact G2]|]. split.
        -- left. exists a_first, (brk_ev a_body ++ es). split; [now left|]. split; [reflexivity|]. left. exists a_body, es. split; [now right|]. split; [reflexivity | exact R2].
        -- intro r. destruct (R3 r) as [Q1 [Q2 _]]. split; [|split; [|split; discriminate]].
           ++ rewrite wordsH_2. cbn [concat]. change P2 with (L2 ++ opening TB). rewrite <- !app_assoc. rewrite L2_quotes. f_equal. rewrite open_miss; [now rewrite Q1 | right; now left | now apply words_gt].
           ++ intro Hr. rewrite <- app_assoc. apply (closes_lt P2); [reflexivity | now apply Q2].
    + destruct (unquote l) as [l2|] eqn:U.
      * apply unquote_Some in U. subst l. do 2 apply Forall_inv_tail in H. cbn [forallb seen andb] in Sn. cbn [late andb] in C. cbn [length] in Hn. apply kread_two in E3 as [p5 [a5 [F5 E5]]].
        destruct (IH l2 p5 a5 p3) as [w' [es [R1 [R2 R3]]]]; [lia | exact H | exact E5 | exact Sn | exact C|].
        destruct (shows_break author languages p a1 p1 a_first a_body E1) as [_ [Hb [Hf _]]].
        exists ((L1 ++ opening (s "Quotations")) ++ w'), (brk_ev a_quote ++ es). split; [eapply (run_app author languages); [|exact R1]; apply run_pfrag; [exact pfrag_q1 | exact Hb | now rewrite F5]|]. split.
        -- right. split; [reflexivity|]. split; [reflexivity|]. exists es. split; [reflexivity | exact R2].
        -- intro r. destruct (R3 r) as [Q1 [Q2 _]]. split; [|split; [|split; discriminate]].
           ++ rewrite wordsH_1 by reflexivity. rewrite !wordsH_c by discriminate. cbn [concat FormatXml5.hw xw]. change P1 with (L1 ++ opening FI). rewrite <- !app_assoc. rewrite L1_quotes. f_equal.
              change (esc5 62 ++ esc5 32 ++ concat (wordsH l2) ++ 60%N :: r) with (GTB ++ concat (wordsH l2) ++ 60%N :: r). rewrite open_hit by now left. now rewrite Q1.
           ++ intro Hr. rewrite <- app_assoc. apply (closes_lt (L1 ++ opening (s "Quotations"))); [reflexivity | now apply Q2].
      * destruct (IH l p1 a3 p3) as [w' [es [R1 [R2 R3]]]]; [lia | exact H | exact E3 | exact Sn | exact C|].
        destruct (shows_break author languages p a1 p1 a_first a_body E1) as [_ [Hb [Hf _]]].
        exists (P1 ++ w'), (ev1 ++ es). split; [eapply (run_app author languages); [|exact R1]; apply run_pfrag; [exact pfrag_P1 | exact Hb | exact Hf]|]. split.
        -- left. exists a_first, es. split; [now left|]. split; [reflexivity | exact R2].
        -- intro r. destruct (R3 r) as [Q1 [Q2 _]]. split; [|split; [|split; discriminate]].
           ++ rewrite wordsH_1 by exact Sp. cbn [concat]. change P1 with (L1 ++ opening FI). rewrite <- !app_assoc. rewrite L1_quotes. f_equal. rewrite open_miss; [now rewrite Q1 | now left | now apply words_gt].
           ++ intro Hr. rewrite <- app_assoc. apply (closes_lt P1); [reflexivity | now apply Q2].
  - (* a word *)
    cbn [kread] in K. destruct (kstep author false p q) as [[a1 p1]|] eqn:E1; [|discriminate]. destruct (kread author false p1 l) as [[a3 p3]|] eqn:E3; [|discriminate]. injection K as <- <-. apply Forall_cons_iff in H as [H1 H2].
    cbn [forallb] in Sn. apply andb_true_iff in Sn as [Sn1 Sn2]. cbn [late] in C. apply andb_true_iff in C as [C0 C].
    destruct (IH l p1 a3 p3) as [w' [es [R1 [R2 R3]]]]; [lia | exact H2 | exact E3 | exact Sn2 | exact C|].
    exists (hw q ++ w'), (pev author languages q ++ es). split; [eapply (run_app author languages); [exact (step_run1 author languages names p q a1 p1 Cq H1 E1) | exact R1]|]. split; [now apply evs_c|].
    intro r. destruct (R3 r) as [Q1 [Q2 [Q3 Q4]]]. replace ((hw q ++ w') ++ 60%N :: r) with (hw q ++ w' ++ 60%N :: r) by apply app_assoc. split; [|split; [|split]].
    + rewrite wordsH_c by exact Cq. cbn [concat]. rewrite <- !app_assoc. rewrite (clear_quotes _ (hw_clear q Cq)). now rewrite Q1.
    + intro Hr. specialize (Q2 Hr). assert (Cx : q = PCx \/ q <> PCx) by (destruct q; (now left) || (right; discriminate)). destruct Cx as [-> | Cx]; [|now apply hw_closes].
      change (hw PCx) with (s "</text:p>" ++ s "</office:annotation>"). rewrite <- app_assoc. apply (closes_lt (s "</text:p>")); [reflexivity|].
      change (s "</office:annotation>" ++ w' ++ 60%N :: r) with (60%N :: s "/office:annotation>" ++ w' ++ 60%N :: r). unfold ncl. cbn [containsb]. assert (T : ncl (s "/office:annotation>" ++ w' ++ 60%N :: r)) by (apply ncl_plain; [apply no_char; reflexivity | exact Q2]).
      unfold ncl in T. rewrite T, orb_false_r. change (prefixb Q_CLOSE (60%N :: s "/office:annotation>" ++ w' ++ 60%N :: r)) with (prefixb GTB (w' ++ 60%N :: r)).
      destruct (prefixb GTB (w' ++ 60%N :: r)) eqn:P; [|reflexivity]. specialize (Q3 eq_refl). cbv iota in C0. destruct (unquote l) as [l2|] eqn:U; [discriminate | congruence].
    + intro P. apply hw_gt in P as [-> P]; try assumption. apply Q4 in P as [l' ->]. discriminate.
    + intro P. apply hw_first in P; try assumption. subst q. now exists l.
Qed.
Lemma seen_note : forall t, forallb seen (map note_piece t) = true.
Proof. induction t as [|c t IH]; [reflexivity|]. cbn [map forallb]. rewrite IH. unfold note_piece. destruct (N.eqb c 10); reflexivity. Qed.
Lemma seen_spread : forall f ks open, well_tagged open ks = true -> forallb seen (spread f open ks) = true.
Proof.
  intro f. induction ks as [|k ks IH]; intros open W; [reflexivity|]. destruct k as [c | | t | t | w | t]; cbn [well_tagged] in W.
  - cbn [spread pieces1 app forallb seen]. now apply IH.
  - destruct open as [|u [|v open]]; [| |discriminate].
    + cbn [spread app forallb seen]. now apply IH.
    + apply andb_true_iff in W as [_ W]. cbn [spread]. destruct (f u); cbn [app forallb seen]; now apply IH.
  - apply andb_true_iff in W as [_ W]. cbn [spread forallb seen]. now apply IH.
  - destruct open as [|u open]; [discriminate|]. apply andb_true_iff in W as [_ W]. cbn [spread forallb seen tl]. now apply IH.
  - apply andb_true_iff in W as [W1 W]. cbn [spread pieces1 app forallb seen]. rewrite W1. now apply IH.
  - apply andb_true_iff in W as [_ W]. cbn [spread pieces1]. rewrite forallb_app. rewrite (IH open W), andb_true_r. cbn [app forallb seen]. rewrite forallb_app, seen_note. reflexivity.
Qed.
Lemma late_notes : forall t l, late (map note_piece t ++ PCx :: l) = match unquote l with Some _ => false | None => true end && late l.
Proof. induction t as [|c t IH]; intro l; [reflexivity|]. cbn [map app late]. rewrite IH. unfold note_piece. destruct (N.eqb c 10); reflexivity. Qed.
Lemma after_tail : forall m a b, containsb m (a ++ b) = false -> containsb m b = false.
Proof. induction a as [|c a IH]; intros b C; [exact C|]. cbn [app] in C. apply containsb_tail in C as [_ C]. now apply IH. Qed.
Lemma late_spread : forall f ks open, well_tagged open ks = true -> containsb (s "*/> ") (typed ks) = false -> late (spread f open ks) = true.
Proof.
  intro f. induction ks as [|k ks IH]; intros open W C; [reflexivity|]. change (typed (k :: ks)) with (typed1 k ++ typed ks) in C. pose proof (after_tail _ _ _ C) as C2. destruct k as [c | | t | t | w | t]; cbn [well_tagged] in W.
  - cbn [spread pieces1 app late andb]. now apply IH.
  - destruct open as [|u [|v open]]; [| |discriminate].
    + cbn [spread app late andb]. now apply IH.
    + apply andb_true_iff in W as [_ W]. cbn [spread]. destruct (f u); cbn [app late andb]; now apply IH.
  - apply andb_true_iff in W as [_ W]. cbn [spread late andb]. now apply IH.
  - destruct open as [|u open]; [discriminate|]. apply andb_true_iff in W as [_ W]. cbn [spread late andb tl]. now apply IH.
  - apply andb_true_iff in W as [_ W]. cbn [spread pieces1 app late andb]. now apply IH.
  - apply andb_true_iff in W as [_ W]. cbn [spread pieces1 app late andb]. rewrite <- app_assoc. cbn [app]. rewrite late_notes. rewrite (IH open W C2), andb_true_r.
    destruct (unquote (spread f open ks)) as [l|] eqn:U; [|reflexivity]. exfalso. apply unquote_Some in U. apply head_C in U as [k1 [-> U]]. symmetry in U. apply head_C in U as [k2 [-> U]].
    change (typed1 (Com t)) with (s "/*" ++ t ++ s "*/") in C. rewrite <- !app_assoc in C. apply after_tail in C. apply after_tail in C. change (s "*/" ++ typed (Chr 62 :: Chr 32 :: k2)) with (s "*/> " ++ typed k2) in C.
    assert (containsb (s "*/> ") (s "*/> " ++ typed k2) = true); [|congruence]. apply containsb_spec. now exists [], (typed k2).
Qed.
Definition qline (ks : list token) (st : str) (ks' : list token) (st' : str) : Prop := (ks' = ks /\ st' = st) \/ (ks = Chr 62 :: Chr 32 :: ks' /\ st' = s "Quotations").
Theorem exported_quoted : forall ks, marked_up languages ks -> well_tagged [] ks = true -> rstrip (typed ks) = typed ks -> containsb (s "*/> ") (typed ks) = false ->
  exists w, odtf_convert author languages (Some (typed ks)) false = Some w /\ forall st, In st [FI; TB] -> exists ks' st' w' es,
    qline ks st ks' st' /\ run w' es (PW []) (PW []) /\ evs_of author languages (spread everywhere [] ks') es /\
    forall r, Qt (opening st ++ w ++ 60%N :: r) = opening st' ++ w' ++ Qt (60%N :: r) /\ (ncl (60%N :: r) -> ncl (w' ++ 60%N :: r)).
Proof.
  intros ks M W R C. pose proof M as [H _]. destruct (converts author languages names ks M) as [F [tail [A1 [A2 [A3 A4]]]]]. rewrite adjusted_spread in A1; [|apply names | exact H | exact W].
  pose proof (no_blank_tail ks F tail W R A1 A2) as ->. rewrite app_nil_r in A1. subst F. exists (concat (wordsH (spread everywhere [] ks))). split; [exact A4|]. clear A4 A2. intros st Hst.
  pose proof (seen_spread everywhere ks [] W) as Sn. pose proof (late_spread everywhere ks [] W C) as Lt. destruct (spread_reads author ks [] W) as [a K].
  destruct (unquote (spread everywhere [] ks)) as [l|] eqn:U.
  - apply unquote_Some in U. pose proof U as U0. apply head_C in U as [k1 [-> U]]. symmetry in U. apply head_C in U as [k2 [-> U]]. exists k2, (s "Quotations"). rewrite U0 in *. do 2 apply Forall_inv_tail in A3. cbn [forallb seen andb late] in Sn, Lt. apply kread_two in K as [p5 [a5 [F5 E5]]].
    destruct (quoted_run (length l) l p5 a5 (PW []) (le_n _) A3 E5 Sn Lt) as [w' [es [R1 [R2 R3]]]]. exists w', es. split; [now right|]. split; [|split; [now rewrite <- U|]].
    + destruct R1 as [X1 [ts [X2 [X3 X4]]]]. split; [exact X1|]. exists ts. split; [exact X2 | split; [exact X3|]]. intros m s0 more. specialize (X4 m s0 more). rewrite F5 in X4. exact X4.
    + intro r. destruct (R3 r) as [Q1 [Q2 _]]. split; [|exact Q2]. rewrite !wordsH_c by discriminate. cbn [concat FormatXml5.hw xw]. rewrite <- !app_assoc.
      change (esc5 62 ++ esc5 32 ++ concat (wordsH l) ++ 60%N :: r) with (GTB ++ concat (wordsH l) ++ 60%N :: r). rewrite open_hit by exact Hst. now rewrite Q1.
  - exists ks, st. destruct (quoted_run _ _ (PW []) a (PW []) (le_n _) A3 K Sn Lt) as [w' [es [R1 [R2 R3]]]]. exists w', es. split; [now left|]. split; [exact R1|]. split; [exact R2|].
    intro r. destruct (R3 r) as [Q1 [Q2 _]]. split; [|exact Q2]. rewrite open_miss; [now rewrite Q1 | exact Hst | now apply words_gt].
Qed.
End Words.
(** ** The regular expression for comments in front of the mark does not apply *)
Lemma lazy_none : forall t first pat, containsb pat t = false -> pat <> [] -> lazy_until first pat t = None.
Proof.
  induction t as [|c t IH]; intros first pat C Hp.
  - cbn [lazy_until]. destruct pat; [congruence|]. cbn [prefixb]. now rewrite andb_false_r.
  - apply containsb_tail in C as [C1 C2]. cbn [lazy_until]. rewrite C1, andb_false_r. destruct (N.eqb c 10); [reflexivity|]. now rewrite IH.
Qed.
Lemma containsb_skip : forall n m t, containsb m t = false -> containsb m (skipn n t) = false.
Proof. induction n as [|n IH]; intros m t C; [exact C|]. destruct t as [|c t]; [exact C|]. apply containsb_tail in C as [_ C]. now apply IH. Qed.
Lemma notes_kept : forall t, ncl t -> quote_notes 0 t = t.
Proof.
  induction t as [|c t IH]; intro C; [reflexivity|]. cbn [quote_notes]. assert (E : quoted_note (c :: t) = None).
  { unfold quoted_note. destruct (prefixb _ _); [|reflexivity]. rewrite lazy_none; [reflexivity | | discriminate]. now apply containsb_skip. }
  rewrite E. f_equal. apply IH. unfold ncl in C. now apply containsb_tail in C.
Qed.
Lemma quoting : forall t, ncl (Qt t) -> (if containsb (s "&gt; ") t then quote_notes 0 (Qt t) else t) = Qt t.
Proof.
  intros t C. destruct (containsb (s "&gt; ") t) eqn:E; [now apply notes_kept|]. unfold Qt.
  assert (G : forall a, containsb (a ++ GTB) t = false).
  { intro a. destruct (containsb (a ++ GTB) t) eqn:X; [|reflexivity]. apply containsb_spec in X as [x [y X]]. assert (containsb (s "&gt; ") t = true); [|congruence]. apply containsb_spec. exists (x ++ a), y. rewrite X, <- !app_assoc. reflexivity. }
  rewrite (replace_absent QUOTE1) by exact (G (s """First_20_line_20_indent"">")). now rewrite (replace_absent QUOTE2) by exact (G (s """Text_20_body"">")).
Qed.
