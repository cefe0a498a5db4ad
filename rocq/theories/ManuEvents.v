(** Exported scene texts as XML: the events. *)
From Coq Require Import String List NArith ZArith Bool Lia Arith.
From Verif Require Import PyStr YwText WordCount WordCountProofs OdfXml OdfXmlProofs OdtText OdtTextProofs OdtTextProofs2 SpecOdf SpecFormat SpecManuscript
  FormatWords FormatLines FormatRun FormatXml FormatXml2 FormatXml3 FormatXml4 FormatXml5 FormatProofs ManuText.
Import ListNotations.

Section Events.
Variables (author : str) (languages : list str).
Hypothesis names : names_ok author languages.
Let tags := tags_of languages.
Let style := style_of languages.

Definition brk_ev (a : attrs) : list event := [End text_p; Data [10%N]; Start text_p a].
Definition pev (q : piece) : list event :=
  match q with
  | PC c => [Data [c]]
  | PB => []
  | PO t => [Start text_span [(style_name, style t)]]
  | PX _ => [End text_span]
  | PH w => if invisible w then [] else chars (box w)
  | PCo => ev_open author
  | PCx => [End text_p; End annotation]
  end.
Definition a_quote : attrs := [(s "text:style-name", s "Quotations")].
(** the events of pieces; at a line break a paragraph of either kind begins, or a quotation *)
Fixpoint evs_of (l : list piece) (es : list event) : Prop :=
  match l with
  | [] => es = []
  | PB :: r => (exists a es', (a = a_first \/ a = a_body) /\ es = brk_ev a ++ es' /\ evs_of r es') \/
      match r with PC c :: r1 => match r1 with PC d :: r2 => c = 62%N /\ d = 32%N /\ exists es', es = brk_ev a_quote ++ es' /\ evs_of r2 es' | _ => False end | _ => False end
  | q :: r => exists es', es = pev q ++ es' /\ evs_of r es'
  end.
Lemma evs_c : forall q r es, q <> PB -> evs_of r es -> evs_of (q :: r) (pev q ++ es).
Proof. intros q r es Hq H. destruct q; try congruence; exists es; split; (reflexivity || exact H). Qed.
Lemma step_run1 : forall p q a p', q <> PB -> xpiece tags q -> kstep author false p q = Some (a, p') -> run (hw author languages q) (pev q) p p'.
Proof.
  intros p q a p' Hq H K. destruct p as [sp | sp ps cur]; destruct q as [c | | t | t | w | |]; try congruence; cbn [kstep] in K; try discriminate.
  - injection K as <- <-. apply run_frag; [|reflexivity]. apply char_not in H. apply frag_esc5; tauto.
  - injection K as <- <-. split; [apply SO_no; right; now left|]. exists [XStart text_span [(style_name, style t)]]. split; [apply lexes_span, style_ok|]. split; [intros [E | []]; discriminate|].
    intros m st more. cbn [app]. destruct (frames_cons (PW sp) m st) as [x [y E]]. change (frames (PW (t :: sp)) ++ m :: st) with (text_span :: (frames (PW sp) ++ m :: st)). rewrite E. reflexivity.
  - destruct sp as [|u sp]; [discriminate|]. injection K as <- <-.
    split; [nope|]. exists [XEnd text_span]. split; [lex_tag|]. split; [intros [E | []]; discriminate|]. intros m st more. cbn [app].
    change (frames (PW (u :: sp)) ++ m :: st) with (text_span :: (frames (PW sp) ++ m :: st)). cbn [nest]. rewrite str_eqb_refl. reflexivity.
  - injection K as <- <-. cbn [hw pev]. destruct (invisible w); [apply (run_nil author languages)|]. cbn [xpiece] in H. destruct H as [H _].
    apply run_frag; [|reflexivity]. rewrite <- esc_box. apply frag_esc.
    + unfold box. constructor; [reflexivity|]. apply Forall_app. split; [|repeat constructor]. apply Forall_forall. intros c Hc. rewrite forallb_forall in H. apply H in Hc. unfold box_char in Hc. now apply andb_true_iff in Hc.
    + intros [E | E]; [discriminate|]. apply in_app_iff in E. destruct E as [E | [E | []]]; [|discriminate]. revert E. apply (box_no w _ H). inl.
  - injection K as <- <-. apply (run_note author languages names).
  - injection K as <- <-. apply run_frag; [|reflexivity]; apply char_not in H; apply frag_esc5; tauto.
  - injection K as <- <-.
    split; [nope|]. exists ([XEnd text_p] ++ [XEnd annotation]). split; [change (hw author languages PCx) with (s "</text:p>" ++ s "</office:annotation>"); apply lexes_app; lex_tag|]. split; [cbn; intuition discriminate|].
    intros m st more. change (frames (PN sp ps cur) ++ m :: st) with (text_p :: annotation :: (frames (PW sp) ++ m :: st)). cbn [app nest]. rewrite !str_eqb_refl.
    now destruct (nest _ true more).
Qed.
(** comments of one line *)
Lemma one_line : forall t, containsb [10%N] t = false -> map note_piece t = map PC t.
Proof.
  induction t as [|c t IH]; intro Hc; [reflexivity|]. cbn [containsb] in Hc. apply orb_false_iff in Hc as [H1 H2]. cbn [map]. rewrite (IH H2). f_equal. unfold note_piece.
  change (prefixb [10%N] (c :: t)) with (N.eqb 10 c && true)%bool in H1. rewrite andb_true_r in H1. rewrite N.eqb_sym. now rewrite H1.
Qed.
Lemma kread_note : forall t sp ps cur r, exists cur', kread author false (PN sp ps cur) (map PC t ++ r) = kread author false (PN sp ps cur') r.
Proof.
  induction t as [|c t IH]; intros sp ps cur r; [now exists cur|]. destruct (IH sp ps (cur ++ [c]) r) as [cur' E]. exists cur'. cbn [map app kread kstep]. rewrite E. now destruct (kread _ _ _ r) as [[? ?]|].
Qed.
Lemma spread_reads : forall ks open, well_tagged open ks = true -> exists a, kread author false (PW open) (spread everywhere open ks) = Some (a, PW []).
Proof.
  induction ks as [|k ks IH]; intros open W; [destruct open; [now exists [] | discriminate]|]. destruct k as [c | | t | t | w | t]; cbn [well_tagged] in W.
  - destruct (IH open W) as [a E]. cbn [spread pieces1 app kread kstep]. rewrite E. eauto.
  - destruct open as [|u [|v open]]; [| |discriminate].
    + destruct (IH [] W) as [a E]. cbn [spread pieces1 app kread kstep]. rewrite E. eauto.
    + apply andb_true_iff in W as [_ W]. destruct (IH [u] W) as [a E]. cbn [spread everywhere app kread kstep]. rewrite E. eauto.
  - apply andb_true_iff in W as [_ W]. destruct (IH (t :: open) W) as [a E]. cbn [spread app kread kstep]. rewrite E. eauto.
  - destruct open as [|u open]; [discriminate|]. apply andb_true_iff in W as [_ W]. destruct (IH open W) as [a E]. cbn [spread tl app kread kstep]. rewrite E. eauto.
  - apply andb_true_iff in W as [_ W]. destruct (IH open W) as [a E]. cbn [spread pieces1 app kread kstep]. rewrite E. eauto.
  - apply andb_true_iff in W as [W1 W]. apply andb_true_iff in W1 as [W1 _]. apply andb_true_iff in W1 as [W1 _]. apply negb_true_iff in W1. destruct (IH open W) as [a E].
    cbn [spread pieces1 app]. rewrite (one_line t W1). cbn [kread kstep]. rewrite <- app_assoc. destruct (kread_note t open [] [] ([PCx] ++ spread everywhere open ks)) as [cur' ->].
    cbn [app kread kstep]. rewrite E. eauto.
Qed.
End Events.
