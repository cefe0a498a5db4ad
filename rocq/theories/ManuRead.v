(** Reading a manuscript: the pieces in which text is delivered do not matter. *)
From Coq Require Import String List NArith ZArith Bool Lia Arith.
From Verif Require Import PyStr PyDict NovelModel NovelOps OdfXml OdtRead SpecManuscript OdsRoundTrip3.
Import ListNotations.

(** the type of the chapters and scenes that are read: 0 for manuscripts, 1 for notes, 2 for "todo" chapters *)
Class Typ := TYPE : N.
Section Typed.
Context {typ : Typ}.
Definition H : reader := manuscript_reader TYPE.

(** ** Normal forms of states: the text read so far in one piece, no comment outside comments *)
Definition np (p : ps) : ps := match p_count p with None => set_p_comment [] p | Some _ => p end.
Definition nl (r : rs) : rs := set_r_lines [concat (r_lines r)] r.
Definition norm (st : ps * rs) : ps * rs := (np (fst st), nl (snd st)).
Definition untitled (r : rs) : bool :=
  match r_scId r, r_chId r with
  | None, Some i => match dget i (nv_chapters (r_novel r)) with Some c => match ch_title c with None => true | Some _ => false end | None => true end
  | _, _ => false
  end.
(** events after which the normal form is the same in any case *)
Definition safe (st : ps * rs) (e : event) : bool :=
  match e with
  | Data _ => negb (r_skip (snd st)) && negb (untitled (snd st))
  | End n => match p_count (fst st) with None => negb (str_eqb n (s "office:annotation")) | Some _ => true end
  | Start _ _ => true
  end.
Definition gfeed (st : ps * rs) (e : event) : res (ps * rs) :=
  if safe st e then do st1 <- feed_event H st e; Ok (norm st1) else Err NameError.


(** states with the same normal form *)
Definition sim (a b : rs) : Prop := exists L, a = set_r_lines L b /\ concat L = concat (r_lines b).
Definition rsim (x y : res rs) : Prop := match x, y with Ok a, Ok b => sim a b | Err e, Err e2 => e = e2 | _, _ => False end.
Lemma sim_nl : forall a b, sim a b -> nl a = nl b.
Proof. intros a b [L [-> E]]. destruct b. unfold nl. cbn in *. now rewrite E. Qed.
Lemma nl_sim : forall r, sim (nl r) r.
Proof. intros []. exists [concat r_lines]. split; [reflexivity|]. cbn. now rewrite app_nil_r. Qed.
Lemma sim_refl : forall r, sim r r.
Proof. intros []. now exists r_lines. Qed.
Lemma rsim_bind : forall f g k k2, rsim f g -> (forall a b, sim a b -> rsim (k a) (k2 b)) -> rsim (bind f k) (bind g k2).
Proof. intros [a|e] [b|e2] k k2 E Hk; cbn in *; try contradiction; [now apply Hk | exact E]. Qed.
Lemma sim_put : forall t a b, sim a b -> sim (put_line t a) (put_line t b).
Proof. intros t a [] [L [-> E]]. exists (L ++ [t]). split; [reflexivity|]. cbn in *. rewrite !concat_app. now rewrite E. Qed.
Lemma rsim_on_scene : forall i f a b, sim a b -> rsim (on_scene i f a) (on_scene i f b).
Proof. intros [i|] f a [] [L [-> E]]; [|reflexivity]. unfold on_scene. cbn. destruct (dindex i _); [|reflexivity]. cbn. exists L. split; [reflexivity | exact E]. Qed.
Lemma rsim_on_chapter : forall i f a b, sim a b -> rsim (on_chapter i f a) (on_chapter i f b).
Proof. intros [i|] f a [] [L [-> E]]; [|reflexivity]. unfold on_chapter. cbn. destruct (dindex i _); [|reflexivity]. cbn. exists L. split; [reflexivity | exact E]. Qed.
Definition rfields (r : rs) := (r_novel r, r_scId r, r_chId r, r_language r, r_skip r).
Lemma sim_fields : forall a b, sim a b -> rfields a = rfields b.
Proof. intros a [] [L [-> E]]. reflexivity. Qed.
Lemma sim_text : forall a b, sim a b -> concat (r_lines a) = concat (r_lines b).
Proof. intros a [] [L [-> E]]. exact E. Qed.
Lemma sim_map : forall (f : rs -> rs) a b, (forall L r, f (set_r_lines L r) = set_r_lines L (f r)) -> (forall r, r_lines (f r) = r_lines r) -> sim a b -> sim (f a) (f b).
Proof. intros f a b H1 H2 [L [-> E]]. exists L. split; [apply H1 | now rewrite H2]. Qed.
Lemma sim_comment : forall t a b, sim a b -> rsim (ms_comment t a) (ms_comment t b).
Proof.
  intros t a b S. pose proof (sim_fields _ _ S) as F. unfold rfields in F. unfold ms_comment. replace (r_scId a) with (r_scId b) by congruence.
  destruct (r_scId b) as [i|]; [|exact S]. destruct (bracketed t) as [x|]; [|now apply sim_put]. cbn [rsim].
  pose proof (rsim_on_scene (Some i) (set_sc_title (Some (strip x))) a b S) as G.
  destruct (on_scene _ _ a), (on_scene _ _ b); cbn in G; try contradiction; assumption.
Qed.
Lemma sim_data : forall t a b, sim a b -> rsim (ms_data t a) (ms_data t b).
Proof.
  intros t a b S. pose proof (sim_fields _ _ S) as F. unfold rfields in F. unfold ms_data. replace (r_skip a) with (r_skip b) by congruence.
  replace (r_scId a) with (r_scId b) by congruence. replace (r_chId a) with (r_chId b) by congruence. destruct (r_skip b).
  - cbn. apply sim_map; try reflexivity. exact S.
  - destruct (r_scId b); [destruct (isspace t); cbn; [exact S | now apply sim_put]|]. destruct (r_chId b); [now apply rsim_on_chapter | exact S].
Qed.
Lemma sim_close : forall a b, sim a b -> sim (close_language a) (close_language b).
Proof.
  intros a b S. pose proof (sim_fields _ _ S) as F. unfold rfields in F. unfold close_language. replace (r_language a) with (r_language b) by congruence.
  destruct (truthy (r_language b)); [|exact S]. apply sim_map; try reflexivity. now apply sim_put.
Qed.
Lemma sim_end : forall t a b, sim a b -> rsim (ms_end t a) (ms_end t b).
Proof.
  intros t a b S. pose proof (sim_fields _ _ S) as F. unfold rfields in F. unfold ms_end.
  replace (r_scId a) with (r_scId b) by congruence. replace (r_chId a) with (r_chId b) by congruence. destruct (r_scId b).
  - destruct (tag_in t _); [cbn; apply sim_put; now apply sim_close|]. destruct (tag_is t _); [cbn; now apply sim_put|]. destruct (tag_is t _); [cbn; now apply sim_put|].
    destruct (tag_is t _); [cbn; now apply sim_close|]. destruct (tag_is t _).
    + unfold languages. replace (r_novel a) with (r_novel b) by congruence. destruct (nv_languages (r_novel b)); [|reflexivity]. cbn [bind].
      rewrite (sim_text _ _ S). apply rsim_bind; [now apply rsim_on_scene|]. intros x y Sx. cbn. destruct Sx as [L [-> E]]. exists []. split; [destruct y; reflexivity | reflexivity].
    + destruct (tag_in t _); [cbn; now apply sim_put | exact S].
  - destruct (r_chId b); [|exact S]. destruct (tag_is t _); [|exact S]. cbn. apply sim_map; try reflexivity. exact S.
Qed.
Lemma sim_open : forall x a b, sim a b -> sim (open_language x a) (open_language x b).
Proof.
  intros x a b S. pose proof (sim_fields _ _ S) as F. unfold rfields in F. unfold open_language. destruct x as [|[[k [l|]]|] x]; try exact S.
  destruct (str_eqb k (s "lang")); [|exact S]. replace (r_novel a) with (r_novel b) by congruence. destruct (nv_languages (r_novel b)).
  - apply sim_put. destruct S as [L [-> E]]. exists L. split; [destruct b; reflexivity | destruct b; exact E].
  - apply sim_map; try reflexivity. exact S.
Qed.
Lemma sim_base : forall x t a b, sim a b -> rsim (base_start TYPE t x a) (base_start TYPE t x b).
Proof.
  intros x t a b S. pose proof (sim_fields _ _ S) as F. unfold rfields in F. unfold base_start. destruct (str_eqb t (s "div")).
  - destruct (first_attr x) as [[k v]|]; [|reflexivity]. cbn [bind]. destruct (str_eqb k (s "id")); [|exact S]. destruct v as [v|]; [|reflexivity].
    destruct (prefixb _ v).
    + destruct (number_in v) as [i|]; [|reflexivity]. cbn [bind]. apply rsim_bind; [|intros; now apply rsim_on_scene].
      replace (r_novel (set_r_scId (Some i) a)) with (r_novel (set_r_scId (Some i) b)) by (cbn; congruence). destruct (dmem i _).
      * cbn. apply sim_map; try reflexivity. exact S.
      * replace (r_chId (set_r_scId (Some i) a)) with (r_chId (set_r_scId (Some i) b)) by (cbn; congruence). apply rsim_on_chapter.
        destruct S as [L [-> E]]. exists L. split; [destruct b; reflexivity | destruct b; exact E].
    + destruct (prefixb _ v); [|exact S]. destruct (number_in v) as [i|]; [|reflexivity]. cbn [bind]. apply rsim_on_chapter.
      replace (r_novel (set_r_chId (Some i) a)) with (r_novel (set_r_chId (Some i) b)) by (cbn; congruence).
      destruct (dmem i _); destruct S as [L [-> E]]; exists L; (split; [destruct b; reflexivity | destruct b; exact E]).
  - destruct (str_eqb t (s "s")); [cbn; now apply sim_put | exact S].
Qed.
Lemma sim_body : forall x a b, sim a b -> rsim (body_tag x a) (body_tag x b).
Proof.
  intro x. unfold body_tag. induction x as [|y x IH]; intros a b S; [exact S|]. cbn [foldM]. apply rsim_bind; [|exact IH].
  unfold body_attr. destruct y as [[k v]|]; [|reflexivity]. cbn [rsim]. destruct (otruthy v); [|exact S].
  destruct S as [L [-> E]]. destruct (str_eqb k (s "language")); [exists L; split; [destruct b; reflexivity | destruct b; exact E]|].
  destruct (str_eqb k (s "country")); exists L; (split; [destruct b; reflexivity | destruct b; exact E]).
Qed.
Lemma sim_start : forall t x a b, sim a b -> rsim (ms_start TYPE t x a) (ms_start TYPE t x b).
Proof.
  intros t x a b S. unfold ms_start. apply rsim_bind; [now apply sim_base|]. clear a b S. intros a b S. pose proof (sim_fields _ _ S) as F. unfold rfields in F.
  replace (r_scId a) with (r_scId b) by congruence. destruct (r_scId b).
  - cbn [rsim]. repeat match goal with |- context [if ?x then _ else _] => destruct x end; try exact S; try now apply sim_put.
    + now apply sim_open.
    + apply sim_map; try reflexivity. exact S.
    + apply sim_open. now apply sim_put.
  - destruct (str_eqb t (s "body")); [now apply sim_body|]. destruct (str_eqb t (s "s")); [cbn; now apply sim_put | exact S].
Qed.
Lemma sim_handle : forall c a b, sim a b -> rsim (handle H a c) (handle H b c).
Proof. intros [t x | t | t | t] a b S; cbn [handle H manuscript_reader h_start h_end h_data h_comment]; [now apply sim_start | now apply sim_end | now apply sim_data | now apply sim_comment]. Qed.
Lemma sim_calls : forall cs a b, sim a b -> rsim (foldM (handle H) cs a) (foldM (handle H) cs b).
Proof. induction cs as [|c cs IH]; intros a b S; [exact S|]. cbn [foldM]. apply rsim_bind; [now apply sim_handle | exact IH]. Qed.

(** ** The parser *)
Lemma np_none : forall p, p_count p = None -> np p = set_p_comment [] p.
Proof. intros p E. unfold np. now rewrite E. Qed.
Lemma np_some : forall p k, p_count p = Some k -> np p = p.
Proof. intros p k E. unfold np. now rewrite E. Qed.
Lemma np_np : forall p, np (np p) = np p.
Proof. intros []. unfold np. cbn. destruct p_count; reflexivity. Qed.
Lemma np_count : forall p, p_count (np p) = p_count p.
Proof. intros []. unfold np. cbn. destruct p_count; reflexivity. Qed.
Definition commuting (e : event) : Prop := match e with End n => str_eqb n (s "office:annotation") = false | _ => True end.
#[local] Arguments smem : simpl never.
#[local] Arguments dget : simpl never.
#[local] Arguments dindex : simpl never.
#[local] Arguments str_eqb : simpl never.
(** without a comment, what was commented before does not matter *)
Lemma parser_comment : forall e p k, p_count p = None -> commuting e ->
  match parser_event e (set_p_comment k p), parser_event e p with
  | Ok (p1, c1), Ok (p2, c2) => c1 = c2 /\ np p1 = np p2
  | Err e1, Err e2 => e1 = e2
  | _, _ => False
  end.
Proof.
  intros e p k E C. destruct e as [n a | n | t]; cbn [parser_event].
  - unfold start_element. set (style := match dget (s "text:style-name") a with Some x => x | None => [] end). clearbody style.
    destruct p as [em strong quote lang head heading paragraph count comment blockquote list span style0]. cbn [p_count] in E. subst count.
    destruct (str_eqb n (s "text:p")).
    + cbn [p_lang p_count p_quote p_head p_list set_p_comment]. destruct (smem style quote); [|destruct (prefixb (s "Heading") style); [|destruct (dget style head); [|destruct list]]];
        unfold emphasis; cbn; destruct (smem style em); cbn; destruct (smem style strong); cbn; split; reflexivity.
    + destruct (str_eqb n (s "text:span")).
      { unfold emphasis. cbn. destruct (smem style em); cbn; destruct (smem style strong); cbn; destruct (dget style lang); cbn; split; reflexivity. }
      destruct (str_eqb n (s "text:section")); [destruct (dindex _ a); cbn; [split; reflexivity | reflexivity]|].
      destruct (str_eqb n (s "office:annotation")); [cbn; split; reflexivity|].
      destruct (str_eqb n (s "text:h")); [destruct (dget (s "text:outline-level") a); cbn; [split; reflexivity | destruct style; cbn; [reflexivity | split; reflexivity]]|].
      destruct (str_eqb n (s "text:list-item")); [cbn; split; reflexivity|].
      destruct (str_eqb n (s "style:style")).
      { cbn [set_p_comment set_p_style p_style p_head p_quote]. destruct (prefixb (s "Heading") _); [cbn; split; reflexivity|]. destruct (str_eqb _ (s "Quotations")); cbn; split; reflexivity. }
      destruct (str_eqb n (s "style:text-properties")); [|destruct (str_eqb n (s "text:s")); cbn; split; reflexivity].
      set (i1 := dget (s "fo:font-style") a). set (i2 := dget (s "fo:font-weight") a). set (i3 := dget (s "fo:language") a). clearbody i1 i2 i3.
      destruct i1 as [i1|]; [destruct (str_eqb i1 (s "italic"))|]; (destruct i2 as [i2|]; [destruct (str_eqb i2 (s "bold"))|]); cbn [set_p_comment set_p_em set_p_strong p_em p_strong p_style];
        destruct (otruthy i3); try (split; reflexivity); destruct (dindex (s "fo:language") a); cbn [bind]; try reflexivity; destruct (dindex (s "fo:country") a); cbn [bind]; try reflexivity; split; reflexivity.
  - cbn [commuting] in C. destruct p as [em strong quote lang head heading paragraph count comment blockquote list span style0]. cbn [p_count] in E. subst count. unfold end_element.
    rewrite C. destruct (str_eqb n (s "text:p")).
    { cbn. destruct blockquote; [split; reflexivity|]. destruct (otruthy heading); split; reflexivity. }
    destruct (str_eqb n (s "text:span")); [cbn; destruct span; split; reflexivity|].
    destruct (str_eqb n (s "text:section")); [cbn; split; reflexivity|]. destruct (str_eqb n (s "text:h")); [cbn; split; reflexivity|].
    destruct (str_eqb n (s "text:list-item")); [cbn; split; reflexivity|]. destruct (str_eqb n (s "style:style")); cbn; split; reflexivity.
  - destruct p as [em strong quote lang head heading paragraph count comment blockquote list span style0]. cbn [p_count] in E. subst count. unfold characters. cbn.
    destruct paragraph; [split; reflexivity|]. destruct heading; split; reflexivity.
Qed.
Lemma feed_norm : forall st e st1, safe (norm st) e = true -> feed_event H (norm st) e = Ok st1 -> exists st2, feed_event H st e = Ok st2 /\ norm st2 = norm st1.
Proof.
  intros [p r] e st1 S F. unfold feed_event in *. cbn [norm fst snd] in *.
  assert (P : match parser_event e (np p), parser_event e p with Ok (p1, c1), Ok (p2, c2) => c1 = c2 /\ np p1 = np p2 | Err e1, Err e2 => e1 = e2 | _, _ => False end).
  { destruct (p_count p) as [k|] eqn:E.
    - rewrite (np_some _ _ E). destruct (parser_event e p) as [[p1 c1]|]; [split; reflexivity | reflexivity].
    - rewrite (np_none _ E). apply parser_comment; [exact E|]. destruct e as [n a | n | t]; cbn [commuting]; try exact I. unfold safe in S. change (fst (norm (p, r))) with (np p) in S. pose proof (np_count p) as Q. rewrite E in Q. destruct (p_count (np p)); [discriminate|]. now apply negb_true_iff in S. }
  destruct (parser_event e (np p)) as [[p1 c1]|]; [|discriminate]. destruct (parser_event e p) as [[p2 c2]|]; [|contradiction]. destruct P as [<- P].
  cbn [bind] in *. pose proof (sim_calls c1 (nl r) r (nl_sim r)) as G. destruct (foldM (handle H) c1 (nl r)) as [r1|]; [|discriminate]. destruct (foldM (handle H) c1 r) as [r2|]; [|contradiction].
  cbn [bind rsim] in *. injection F as <-. exists (p2, r2). split; [reflexivity|]. unfold norm. cbn [fst snd]. rewrite P. now rewrite (sim_nl _ _ G).
Qed.

(** ** Chunks *)
Lemma norm_norm : forall st, norm (norm st) = norm st.
Proof. intros [p r]. unfold norm. cbn [fst snd]. rewrite np_np. f_equal. apply sim_nl. apply nl_sim. Qed.
Lemma white_isspace : forall t, white t = isspace t.
Proof. reflexivity. Qed.
Lemma solid_parts : forall ts, Forall (fun u => white u = false) ts -> white (concat ts) = false.
Proof.
  induction ts as [|t ts IH]; intro F; [reflexivity|]. apply Forall_cons_iff in F as [F1 F2]. specialize (IH F2). cbn [concat]. destruct t as [|c t]; [exact IH|].
  unfold white in *. cbn [app]. change (forallb is_space (c :: t ++ concat ts)) with (forallb is_space ((c :: t) ++ concat ts)). rewrite forallb_app, F1. reflexivity.
Qed.
(** feeding the pieces one by one *)
Lemma put_parts : forall ts r, Forall (fun u => white u = false) ts -> r_skip r = false -> (exists i, r_scId r = Some i) ->
  exists r2, foldM (handle H) (map CData ts) r = Ok r2 /\ r2 = set_r_lines (r_lines r ++ ts) r.
Proof.
  induction ts as [|t ts IH]; intros r F K [i E]; [exists r; split; [reflexivity | destruct r; cbn; now rewrite app_nil_r]|]. apply Forall_cons_iff in F as [F1 F2]. cbn [map foldM].
  assert (G : handle H r (CData t) = Ok (put_line t r)) by (cbn [handle H manuscript_reader h_data]; unfold ms_data; rewrite K, E; change (isspace t) with (white t); now rewrite F1).
  rewrite G. cbn [bind]. destruct (IH (put_line t r) F2) as [r2 [G1 G2]]; [exact K | exists i; exact E|]. exists r2. split; [exact G1|]. rewrite G2. destruct r. unfold put_line. cbn. now rewrite <- app_assoc.
Qed.
Lemma same_chapter : forall r i c (f : chapter -> chapter), dget i (nv_chapters (r_novel r)) = Some c -> f c = c -> on_chapter (Some i) f r = Ok r.
Proof.
  intros r i c f E F. unfold on_chapter. cbn [key bind]. unfold dindex. rewrite E. cbn [bind]. rewrite F. rewrite dset_same by exact E. destruct r as [n ? ? ? ? ? ? ? ? ? ? ? ?]. destruct n. reflexivity.
Qed.
(** text that is not in a scene changes nothing, in one piece or in several *)
Lemma heading_data : forall t r, r_skip r = false -> r_scId r = None -> untitled r = false -> handle H r (CData t) = Ok r.
Proof.
  intros t r K E U. cbn [handle H manuscript_reader h_data]. unfold ms_data. rewrite K, E. unfold untitled in U. rewrite E in U. destruct (r_chId r) as [i|]; [|reflexivity].
  destruct (dget i (nv_chapters (r_novel r))) as [c|] eqn:D; [|discriminate]. apply (same_chapter r i c); [exact D|]. destruct (ch_title c); [reflexivity | discriminate].
Qed.
Lemma heading_parts : forall ts r, r_skip r = false -> r_scId r = None -> untitled r = false -> foldM (handle H) (map CData ts) r = Ok r.
Proof. induction ts as [|t ts IH]; intros r K E U; [reflexivity|]. cbn [map foldM]. rewrite heading_data by assumption. cbn [bind]. now apply IH. Qed.
Lemma feed_parts : forall ts p, foldM (feed_event H) (map Data ts) p =
  match p_count (fst p) with
  | Some 1 => Ok (set_p_comment (p_comment (fst p) ++ concat ts) (fst p), snd p)
  | Some _ => Ok p
  | None => if p_paragraph (fst p) || match p_heading (fst p) with Some _ => true | None => false end
            then do r <- foldM (handle H) (map CData ts) (snd p); Ok (fst p, r) else Ok p
  end.
Proof.
  induction ts as [|t ts IH]; intros [p r]; cbn [fst snd].
  - cbn [map foldM concat]. rewrite app_nil_r. destruct (p_count p) as [[|[|k]]|]; try reflexivity; [destruct p; reflexivity|]. destruct (_ || _)%bool; reflexivity.
  - cbn [map foldM concat]. unfold feed_event at 1. cbn [fst snd parser_event bind]. unfold characters. destruct (p_count p) as [[|[|k]]|] eqn:E; cbn [foldM bind].
    + rewrite IH. cbn [fst snd]. now rewrite E.
    + rewrite IH. cbn [fst snd]. destruct p. cbn in *. subst. now rewrite <- app_assoc.
    + rewrite IH. cbn [fst snd]. now rewrite E.
    + destruct (p_paragraph p) eqn:B; cbn [foldM bind orb].
      * destruct (handle H r (CData t)) as [r1|]; [|reflexivity]. cbn [bind]. rewrite IH. cbn [fst snd]. rewrite E, B. reflexivity.
      * destruct (p_heading p) eqn:B2; cbn [foldM bind].
        -- destruct (handle H r (CData t)) as [r1|]; [|reflexivity]. cbn [bind]. rewrite IH. cbn [fst snd]. rewrite E, B, B2. reflexivity.
        -- rewrite IH. cbn [fst snd]. rewrite E, B, B2. reflexivity.
Qed.
Lemma gfeed_norm : forall st e st1, gfeed st e = Ok st1 -> norm st1 = st1.
Proof. intros st e st1 G. unfold gfeed in G. destruct (safe st e); [|discriminate]. destruct (feed_event H st e); [|discriminate]. cbn [bind] in G. injection G as <-. apply norm_norm. Qed.
Lemma data_parts : forall ts st st1, Forall (fun u => white u = false) ts -> gfeed (norm st) (Data (concat ts)) = Ok st1 ->
  exists st2, foldM (feed_event H) (map Data ts) st = Ok st2 /\ norm st2 = st1.
Proof.
  intros ts [p r] st1 F G. unfold gfeed in G. destruct (safe (norm (p, r)) (Data (concat ts))) eqn:S; [|discriminate].
  destruct (feed_event H (norm (p, r)) (Data (concat ts))) as [q|] eqn:Q; [|discriminate]. cbn [bind] in G. injection G as <-.
  destruct (feed_norm _ _ _ S Q) as [q2 [Q2 N2]]. rewrite <- N2. clear q Q N2.
  assert (K : r_skip r = false /\ untitled r = false).
  { unfold safe in S. apply andb_true_iff in S as [S1 S2]. apply negb_true_iff in S1, S2. destruct r. split; [exact S1 | exact S2]. }
  destruct K as [K U]. rewrite feed_parts. pose proof (feed_parts [concat ts] (p, r)) as W. cbn [map foldM] in W. rewrite Q2 in W. cbn [bind] in W. clear Q2. rename W into Q2. symmetry in Q2.
  assert (Q3 := Q2). clear Q2. cbn [fst snd] in *.
  destruct (p_count p) as [[|[|k]]|] eqn:E.
  - injection Q3 as <-. exists (p, r). split; reflexivity.
  - cbn [concat] in Q3. rewrite app_nil_r in Q3. injection Q3 as <-. eexists. split; reflexivity.
  - injection Q3 as <-. exists (p, r). split; reflexivity.
  - destruct (_ || _)%bool; [|injection Q3 as <-; exists (p, r); split; reflexivity]. destruct (r_scId r) as [i|] eqn:Ei.
    + assert (Fc : Forall (fun u => white u = false) [concat ts]) by (constructor; [now apply solid_parts | constructor]).
      destruct (put_parts [concat ts] r Fc K (ex_intro _ i Ei)) as [ra [A1 A2]]. destruct (put_parts ts r F K (ex_intro _ i Ei)) as [rb [B1 B2]].
      cbn [map foldM] in A1. rewrite A1 in Q3. cbn [bind] in Q3. injection Q3 as <-. rewrite B1. cbn [bind]. eexists. split; [reflexivity|]. unfold norm. cbn [fst snd]. f_equal.
      subst ra rb. destruct r. unfold nl. cbn. rewrite !concat_app. cbn. now rewrite app_nil_r.
    + rewrite heading_data in Q3 by assumption. rewrite heading_parts by assumption. cbn [bind] in Q3. injection Q3 as <-. eexists. split; reflexivity.
Qed.
(** the machine of normal forms, fed with text in one piece, says what any delivery leads to *)
Theorem delivered : forall es es', deliver es es' -> forall st st1, foldM gfeed es (norm st) = Ok st1 -> exists st2, foldM (feed_event H) es' st = Ok st2 /\ norm st2 = st1.
Proof.
  assert (One : forall e es es', (forall st st1, foldM gfeed es (norm st) = Ok st1 -> exists st2, foldM (feed_event H) es' st = Ok st2 /\ norm st2 = st1) ->
    forall st st1, foldM gfeed (e :: es) (norm st) = Ok st1 -> exists st2, foldM (feed_event H) (e :: es') st = Ok st2 /\ norm st2 = st1).
  { intros e es es' IH st st1 G. cbn [foldM] in *. unfold gfeed at 1 in G. destruct (safe (norm st) e) eqn:S; [|discriminate].
    destruct (feed_event H (norm st) e) as [q|] eqn:Q; [|discriminate]. cbn [bind] in G. destruct (feed_norm _ _ _ S Q) as [q2 [Q2 N2]]. rewrite <- N2 in G. rewrite Q2. cbn [bind]. now apply IH. }
  induction 1 as [|n a es es' D IH|n es es' D IH|t es es' D IH|ts es es' F D IH]; try (apply One; exact IH).
  - intros st st1 G. injection G as <-. exists st. split; reflexivity.
  - intros st st1 G. cbn [foldM] in G. destruct (gfeed (norm st) (Data (concat ts))) as [q|] eqn:Q; [|discriminate]. cbn [bind] in G.
    destruct (data_parts ts st q F Q) as [q2 [Q2 N2]]. rewrite <- N2 in G. destruct (IH q2 st1 G) as [st2 [G1 G2]]. exists st2. split; [|exact G2].
    rewrite ConfigProofs.foldM_app, Q2. exact G1.
Qed.

(** ** Text that is still to come *)
Definition flush (u : str) (st : ps * rs) : res (ps * rs) := match u with [] => Ok st | _ => gfeed st (Data u) end.
Definition pfeed (u : str) (R : list event) (st : ps * rs) : res (ps * rs) := foldM gfeed (merge (Data u :: R)) st.
Lemma merge_two : forall u t R, merge (Data u :: Data t :: R) = merge (Data (u ++ t) :: R).
Proof.
  intros u t R. cbn [merge]. destruct (merge R) as [|[n a | n | v] r]; try (destruct t as [|c t]; [rewrite app_nil_r; reflexivity | destruct u; reflexivity]). now rewrite app_assoc.
Qed.
Lemma pfeed_data : forall u t R st, pfeed u (Data t :: R) st = pfeed (u ++ t) R st.
Proof. intros. unfold pfeed. now rewrite merge_two. Qed.
Lemma merge_none : forall R, merge (Data [] :: R) = merge R.
Proof. intro R. cbn [merge]. destruct (merge R) as [|[n a | n | v] r]; reflexivity. Qed.
Definition is_data (e : event) : bool := match e with Data _ => true | _ => false end.
Lemma pfeed_tag : forall u e R st, is_data e = false -> pfeed u (e :: R) st = do st1 <- flush u st; do st2 <- gfeed st1 e; pfeed [] R st2.
Proof.
  intros u e R st D. assert (E : merge (Data u :: e :: R) = match u with [] => [] | _ => [Data u] end ++ e :: merge R) by (destruct e; try discriminate; destruct u; reflexivity).
  unfold pfeed. rewrite E. rewrite ConfigProofs.foldM_app. destruct u as [|c u]; cbn [flush foldM bind]; [destruct (gfeed st e); cbn [bind]; [now rewrite merge_none | reflexivity]|].
  destruct (gfeed st (Data (c :: u))) as [st1|]; [|reflexivity]. cbn [bind]. destruct (gfeed st1 e); cbn [bind]; [now rewrite merge_none | reflexivity].
Qed.
Lemma pfeed_end : forall u st, pfeed u [] st = flush u st.
Proof. intros u st. unfold pfeed. destruct u as [|c u]; [reflexivity|]. cbn [merge foldM flush]. now destruct (gfeed st (Data (c :: u))). Qed.
Lemma pfeed_start : forall R st, foldM gfeed (merge R) st = pfeed [] R st.
Proof. intros. unfold pfeed. now rewrite merge_none. Qed.
Lemma pfeed_chars : forall t u R st, pfeed u (map (fun c => Data [c]) t ++ R) st = pfeed (u ++ t) R st.
Proof.
  induction t as [|c t IH]; intros u R st; [now rewrite app_nil_r|]. cbn [map app]. rewrite pfeed_data, IH. now rewrite <- app_assoc.
Qed.
End Typed.
