(** C44: the compiled message catalogue. *)
From Coq Require Import String List NArith Bool Permutation.
From Verif Require Import PyStr PyDict YwText Template Inliner Translations SpecTrans TransProofs TransProofs2 Msgfmt SpecMo MsgfmtProofs MsgfmtMake SpecPo PoProofs PoProofs2 PoProofs3 PoProofs4.
Import ListNotations.

(** The translation script, for every template made of messages extracted from source code, every existing PO file or none, on machines of either
    byte order, whatever Python does with strings and charsets PyWriter does not write (other, charset): if a message has no translation, no
    catalogue is made; otherwise the catalogue made from the new PO file has for each message of the program (the value the running program
    looks up) its translation, and nothing else but the header; only its size can make the script fail.
    Conditions: times are plain text; messages and translations use simple escapes; no two messages stand for the same text; the message that
    is first in order is ASCII. *)
Theorem C44_catalogue : forall other charset big now potApp potVersion potTime msgs po,
  plain now -> one_line potApp -> one_line potVersion -> plain potTime -> Forall source_message msgs ->
  (forall m, In m msgs -> exists v, source_for m v) ->
  (forall m m' v, In m msgs -> In m' msgs -> source_for m v -> source_for m' v -> m = m') ->
  (forall m t, In m msgs -> known None po (quoted m) = Some t -> exists v, stands_for t v) ->
  (forall m, In m msgs -> (forall m', In m' msgs -> str_leb (quoted m) (quoted m') = true) -> ascii m) ->
  let run := translate_de other charset big now (Some (write_pot potApp potVersion potTime msgs)) po in
  exists file,
    ((exists m, In m msgs /\ known None po (quoted m) = None) /\ run = Ok (file, None)) \/
    ((forall m, In m msgs -> known None po (quoted m) <> None) /\
     exists cat, run = (do mo <- generate big cat; Ok (file, Some mo)) /\ NoDup (dkeys cat) /\
       (forall m v t tv kb tb, In m msgs -> source_for m v -> known None po (quoted m) = Some t -> stands_for t tv -> utf8_bytes v kb -> utf8_bytes tv tb -> dget kb cat = Some tb) /\
       (forall kb tb, dget kb cat = Some tb -> kb = [] \/
          exists m v t tv, In m msgs /\ source_for m v /\ known None po (quoted m) = Some t /\ stands_for t tv /\ utf8_bytes v kb /\ utf8_bytes tv tb)).
Proof.
  intros other charset big now pa pv pdt msgs po P1 P2 P3 P4 P5 P6 P7 P8 P9 run.
  destruct (run_translate other charset now pa pv pdt msgs po) as (po' & complete & E & En & C & cat & Pa & Nd & S1 & S2); [exact (conj P1 (conj P2 (conj P3 (conj P4 (conj P5 (conj P6 (conj P7 (conj P8 P9))))))))|].
  assert (R : run = if complete then do mo <- generate big cat; Ok (utf8_text po', Some mo) else Ok (utf8_text po', None)).
  { unfold run, translate_de. rewrite E. cbn [bind]. rewrite encode_utf8 by exact En. cbn [bind]. destruct complete; [|reflexivity]. unfold make. rewrite Pa. reflexivity. }
  exists (utf8_text po'). destruct complete.
  - right. split; [now apply C|]. exists cat. split; [exact R|]. split; [exact Nd|]. split.
    + intros m v t tv kb tb I V K T Kb Tb. apply utf8_bytes_text in Kb, Tb. subst. now apply (S1 m v t tv).
    + intros kb tb H. destruct (S2 kb tb H) as [H0|(m & v & t & tv & I & V & K & T & -> & ->)]; [now left|]. right. exists m, v, t, tv. repeat (split; [assumption|]).
      split; apply utf8_text_of; [now destruct (stands_value _ _ (source_quoted _ _ V)) as (_ & ? & _) | now destruct (stands_value _ _ T) as (_ & ? & _)].
  - left. split; [|exact R]. assert (X : ~ (forall m, In m msgs -> known None po (quoted m) <> None)) by (intro X; apply C in X; discriminate).
    clear - X. induction msgs as [|m l IH]; [exfalso; apply X; intros m []|]. destruct (known None po (quoted m)) eqn:K; [|exists m; split; [now left | exact K]].
    destruct IH as (m' & I & H); [|exists m'; split; [now right | exact H]]. intro Y. apply X. intros m' [<-|I]; [congruence | now apply Y].
Qed.
Print Assumptions C44_catalogue.
(** The compiled file, for a reader of .mo files *)
Theorem C44_mo : forall other charset big now potApp potVersion potTime msgs po file mo,
  plain now -> one_line potApp -> one_line potVersion -> plain potTime -> Forall source_message msgs ->
  (forall m, In m msgs -> exists v, source_for m v) ->
  (forall m m' v, In m msgs -> In m' msgs -> source_for m v -> source_for m' v -> m = m') ->
  (forall m t, In m msgs -> known None po (quoted m) = Some t -> exists v, stands_for t v) ->
  (forall m, In m msgs -> (forall m', In m' msgs -> str_leb (quoted m) (quoted m') = true) -> ascii m) ->
  translate_de other charset big now (Some (write_pot potApp potVersion potTime msgs)) po = Ok (file, Some mo) ->
  (forall m, In m msgs -> known None po (quoted m) <> None) /\
  exists l, read_mo mo = Some l /\ NoDup (map fst l) /\
    (forall m v t tv kb tb, In m msgs -> source_for m v -> known None po (quoted m) = Some t -> stands_for t tv -> utf8_bytes v kb -> utf8_bytes tv tb -> In (kb, tb) l) /\
    (forall kb tb, In (kb, tb) l -> kb = [] \/
       exists m v t tv, In m msgs /\ source_for m v /\ known None po (quoted m) = Some t /\ stands_for t tv /\ utf8_bytes v kb /\ utf8_bytes tv tb).
Proof.
  intros other charset big now pa pv pdt msgs po file mo P1 P2 P3 P4 P5 P6 P7 P8 P9 R.
  destruct (C44_catalogue other charset big now pa pv pdt msgs po P1 P2 P3 P4 P5 P6 P7 P8 P9) as (f & [(_ & Q)|(A & cat & Q & Nd & S1 & S2)]); [congruence|].
  split; [exact A|]. rewrite Q in R. destruct (generate big cat) as [mo'|] eqn:G; [|discriminate]. cbn [bind] in R. injection R as _ ->.
  destruct (generate_spec big cat mo Nd G) as (l & L & Pm & _). exists l. split; [exact L|]. split; [|split].
  - apply (Permutation_NoDup (Permutation_map fst Pm)). exact Nd.
  - intros. apply (Permutation_in _ Pm). apply dget_In. now apply (S1 m v t tv).
  - intros kb tb I. apply S2. apply In_dget; [exact Nd|]. now apply (Permutation_in _ (Permutation_sym Pm)).
Qed.
Print Assumptions C44_mo.
(** the conditions, checked *)
Fixpoint source_value (w : str) : option str :=
  match w with
  | [] => Some []
  | c :: w1 => if N.eqb c 92 then match w1 with [] => None | e :: w2 => match escape_value e with Some x => if N.eqb e 34 then None else option_map (cons x) (source_value w2) | None => None end end
               else if N.eqb c 10 || N.eqb c 13 || N.eqb c 0 || negb (scalar c) then None else option_map (cons c) (source_value w1)
  end.
Definition PO_text : str :=
  s "msgid ""File""" ++ [10%N] ++ s "msgstr ""Datei""" ++ [10%N] ++ s "msgid ""say \""hi\""\n""" ++ [10%N] ++ s "msgstr ""sag " ++ [252%N] ++ s "\t""" ++ [10%N] ++
  s "msgid """ ++ [8364%N] ++ s """" ++ [10%N] ++ s "msgstr ""Euro""" ++ [10%N].
Definition PO_msgs : list str := scan [s "print(_(""File""), _('say ""hi""\n'))"; s "x = _(""" ++ [8364%N] ++ s """)"; s "_(""File"")"].
Definition PO_run (msgs : list str) (po : option str) := translate_de (fun _ => Err ValueError) (fun _ => None) false (s "2023-01-01 10:00:00") (Some (write_pot (s "app") (s "1") (s "2023") msgs)) po.
Lemma source_value_for : forall v w, source_for w v -> source_value w = Some v.
Proof.
  intros v w H. induction H as [|c w v O H IH|e x w v I N0 H IH]; [reflexivity| |].
  - cbn [source_value]. destruct O as [[O R]| ->].
    + cbn [In] in O. rewrite !(proj2 (N.eqb_neq _ _)) by (intro; subst; apply O; tauto). rewrite (proj2 (scalar_spec c) R). cbn. now rewrite IH.
    + cbn. now rewrite IH.
  - cbn [source_value]. change (N.eqb 92 92) with true. cbn iota. rewrite (escapes_known _ _ I). rewrite (proj2 (N.eqb_neq _ _)) by exact N0. now rewrite IH.
Qed.
Lemma ordinary_b : forall c, existsb (N.eqb c) [34; 92; 10; 13; 0]%N = false -> scalar c = true -> ordinary c.
Proof.
  intros c H R. split; [|now apply scalar_spec]. intro I. assert (X : existsb (N.eqb c) [34; 92; 10; 13; 0]%N = true) by (apply existsb_exists; exists c; split; [exact I | apply N.eqb_refl]). congruence.
Qed.
Ltac in_tac := first [left; reflexivity | right; in_tac].
Ltac src_tac := repeat first [apply src_nil | apply src_escape; [in_tac | discriminate |] | apply src_char; [first [right; reflexivity | left; apply ordinary_b; reflexivity] |]].
Ltac sf_tac := repeat first [apply sf_nil | apply sf_escape; [in_tac |] | apply sf_char; [apply ordinary_b; reflexivity |]].
Example C44_instance :
  PO_msgs = [s "File"; s "say ""hi""\n"; [8364%N]; s "File"] /\
  Forall source_message PO_msgs /\
  (forall m, In m PO_msgs -> exists v, source_for m v) /\
  (forall m m' v, In m PO_msgs -> In m' PO_msgs -> source_for m v -> source_for m' v -> m = m') /\
  (forall m t, In m PO_msgs -> known None (Some PO_text) (quoted m) = Some t -> exists v, stands_for t v) /\
  (forall m, In m PO_msgs -> (forall m', In m' PO_msgs -> str_leb (quoted m) (quoted m') = true) -> ascii m) /\
  exists file mo l, PO_run PO_msgs (Some PO_text) = Ok (file, Some mo) /\ read_mo mo = Some l /\
    In (s "say ""hi""" ++ [10%N], s "sag " ++ [195; 188; 9]%N) l /\ In ([226; 130; 172]%N, s "Euro") l /\ length l = 4.
Proof.
  assert (E : PO_msgs = [s "File"; s "say ""hi""\n"; [8364%N]; s "File"]) by (vm_compute; reflexivity).
  split; [exact E|]. rewrite E. split; [|split; [|split; [|split; [|split]]]].
  - repeat (apply Forall_cons; [split; [apply one_lineb_ok; vm_compute; reflexivity | discriminate]|]). apply Forall_nil.
  - intros m [<-|[<-|[<-|[<-|[]]]]]; [exists (s "File") | exists (s "say ""hi""" ++ [10%N]) | exists [8364%N] | exists (s "File")]; cbv; src_tac.
  - intros m m' v I I' V V'. apply source_value_for in V, V'.
    destruct I as [<-|[<-|[<-|[<-|[]]]]]; destruct I' as [<-|[<-|[<-|[<-|[]]]]]; try reflexivity; rewrite <- V in V'; vm_compute in V'; discriminate V'.
  - intros m t [<-|[<-|[<-|[<-|[]]]]] K; vm_compute in K; injection K as <-; eexists; sf_tac.
  - intros m [<-|[<-|[<-|[<-|[]]]]] H; try solve [repeat (constructor; [reflexivity|]); constructor]. specialize (H (s "File") (or_introl eq_refl)). vm_compute in H. discriminate.
  - eexists. eexists. eexists. split; [vm_compute; reflexivity|]. split; [vm_compute; reflexivity|]. split; [vm_compute; tauto|]. split; [vm_compute; tauto | reflexivity].
Qed.

(** What does not hold. The first message of the file is read before the charset of the header is in force: if it is not ASCII, the program does not
    find its translation. *)
Theorem C44_first_refuted : exists m po file mo l, known None (Some po) (quoted m) = Some (s "Preis") /\ source_for m m /\
  PO_run [m] (Some po) = Ok (file, Some mo) /\ read_mo mo = Some l /\ ~ In (utf8_text m, s "Preis") l /\ In (utf8_text (utf8_text m), s "Preis") l.
Proof.
  exists [8364%N]. exists (s "msgid """ ++ [8364%N] ++ s """" ++ [10%N] ++ s "msgstr ""Preis""" ++ [10%N]). eexists. eexists. eexists. split; [vm_compute; reflexivity|]. split; [src_tac|].
  split; [vm_compute; reflexivity|]. split; [vm_compute; reflexivity|]. split; [vm_compute; intros [H|[H|[]]]; discriminate | vm_compute; tauto].
Qed.
Print Assumptions C44_first_refuted.
(** A message whose quotation marks are escaped in the source code is escaped twice in the template: its PO file cannot be compiled
    (in PO_run, Python rejects a text like ab, as it does). *)
Theorem C44_escaped_refuted : exists m po, scan [s "_(""say \""hi\"""")"] = [m] /\ known None (Some po) (quoted m) = Some (s "sag hallo") /\
  PO_run [m] (Some po) = Err ValueError.
Proof.
  exists (s "say \""hi\"""). exists (s "msgid ""say \\""hi\\""""" ++ [10%N] ++ s "msgstr ""sag hallo""" ++ [10%N]).
  split; [vm_compute; reflexivity|]. split; vm_compute; reflexivity.
Qed.
Print Assumptions C44_escaped_refuted.
(** Files written by others: after a fuzzy entry, the entries up to the next comment are dropped; after an entry with a context, the entries up to
    the next comment are put into this context. *)
Definition PO_lines (l : list str) : bytes := concat (map (fun x => x ++ [10%N]) l).
Theorem C44_fuzzy_refuted : forall other charset,
  parse other charset (PO_lines [s "#, fuzzy"; s "msgid ""a"""; s "msgstr ""A"""; []; s "msgid ""b"""; s "msgstr ""B"""]) [] = Ok [] /\
  parse other charset (PO_lines [s "#, fuzzy"; s "msgid ""a"""; s "msgstr ""A"""; s "#"; s "msgid ""b"""; s "msgstr ""B"""]) [] = Ok [(s "b", s "B")].
Proof. intros. split; vm_compute; reflexivity. Qed.
Print Assumptions C44_fuzzy_refuted.
Theorem C44_context_refuted : forall other charset,
  parse other charset (PO_lines [s "msgctxt ""menu"""; s "msgid ""a"""; s "msgstr ""A"""; []; s "msgid ""b"""; s "msgstr ""B"""]) [] =
    Ok [(s "menu" ++ [4%N] ++ s "a", s "A"); (s "menu" ++ [4%N] ++ s "b", s "B")].
Proof. intros. vm_compute. reflexivity. Qed.
Print Assumptions C44_context_refuted.
