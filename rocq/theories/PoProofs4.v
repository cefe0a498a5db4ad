(** Proofs about compiling PO files (MsgfmtMake.v): from the messages of the source code to the compiled catalogue. *)
From Coq Require Import String List NArith ZArith Bool Lia Arith Permutation.
From Verif Require Import PyStr PyDict YwText Template Inliner Translations SpecTrans TransProofs TransProofs2 Msgfmt SpecMo MsgfmtProofs MsgfmtMake SpecPo PoProofs PoProofs2 PoProofs3.
Import ListNotations.

(** * The catalogue as a dictionary *)
Lemma put_message_keys : forall qs ms, NoDup (dkeys ms) -> NoDup (dkeys (fold_left put_message qs ms)).
Proof.
  induction qs as [|q qs IH]; intros ms H; [exact H|]. cbn [fold_left]. apply IH. unfold put_message, add. destruct (negb false && truthy (utf8_text (snd q))); [now apply NoDup_dset | exact H].
Qed.
Lemma utf8_nil : forall t, utf8_text t = [] -> t = [].
Proof. intros [|c t] E; [reflexivity|]. unfold utf8_text in E. cbn [flat_map] in E. apply app_eq_nil in E as [E _]. now apply utf8_char_some in E. Qed.
Lemma truthy_utf8 : forall t, truthy (utf8_text t) = truthy t.
Proof. intros [|c t]; [reflexivity|]. destruct (utf8_text (c :: t)) eqn:E; [now apply utf8_nil in E | reflexivity]. Qed.
Lemma put_message_old : forall qs ms k, (forall q, In q qs -> truthy (snd q) = true -> utf8_text (fst q) <> k) -> dget k (fold_left put_message qs ms) = dget k ms.
Proof.
  induction qs as [|q qs IH]; intros ms k H; [reflexivity|]. cbn [fold_left]. rewrite IH by (intros; apply H; [now right | assumption]). unfold put_message, add. cbn [negb andb].
  rewrite truthy_utf8. destruct (truthy (snd q)) eqn:T; [|reflexivity]. rewrite dget_dset_other; [reflexivity|]. intro E. now apply (H q (or_introl eq_refl) T).
Qed.
Lemma put_message_new : forall qs ms v tv, NoDup (map fst qs) -> Forall (fun q => encodable (fst q)) qs -> In (v, tv) qs -> tv <> [] ->
  dget (utf8_text v) (fold_left put_message qs ms) = Some (utf8_text tv).
Proof.
  induction qs as [|q qs IH]; intros ms v tv ND En I T; [destruct I|]. cbn [map] in ND. inversion ND as [|? ? N1 N2]; subst. inversion En as [|? ? E1 E2]; subst. cbn [fold_left].
  destruct I as [->|I]; [|now apply IH]. rewrite put_message_old.
  - unfold put_message, add. cbn [negb andb fst snd]. rewrite truthy_utf8. destruct tv; [congruence|]. cbn [truthy]. apply dget_dset_same.
  - intros q I _ E. rewrite Forall_forall in E2. apply utf8_inj in E; [|now apply E2 | exact E1]. apply N1. cbn [fst]. rewrite <- E. now apply in_map.
Qed.
Lemma put_message_only : forall qs ms k b, dget k (fold_left put_message qs ms) = Some b ->
  dget k ms = Some b \/ exists v tv, In (v, tv) qs /\ k = utf8_text v /\ b = utf8_text tv /\ tv <> [].
Proof.
  induction qs as [|q qs IH]; intros ms k b H; [now left|]. cbn [fold_left] in H. apply IH in H as [H|(v & tv & I & R)]; [|right; exists v, tv; split; [now right | exact R]].
  unfold put_message, add in H. cbn [negb andb] in H. rewrite truthy_utf8 in H. destruct (truthy (snd q)) eqn:T; [|now left]. rewrite dget_dset in H.
  destruct (str_eqb k (utf8_text (fst q))) eqn:E; [|now left]. apply str_eqb_eq in E. right. exists (fst q), (snd q). split; [left; now destruct q|]. split; [exact E|]. split; [congruence|]. intro X. rewrite X in T. discriminate.
Qed.

(** * The PO file of an update run *)
Definition known_or_empty (json po : option str) (m : str) : str := match known json po m with Some t => t | None => [] end.
Lemma main_po : forall a v now json pa pv pdt msgs po, one_line a -> one_line v -> one_line now -> one_line pa -> one_line pv -> one_line pdt -> Forall source_message msgs ->
  exists json' po' complete l, main a v now true json (Some (write_pot pa pv pdt msgs)) po = Ok (json', po', complete) /\ catalogue msgs l /\
    po' = concat (header_lines a v pdt now) ++ concat (flat_map entry_lines (map (fun m => (m, known_or_empty json po m)) l)) /\
    (complete = true <-> forall m, In m l -> known json po m <> None).
Proof.
  intros a v now json pa pv pdt msgs po H1 H2 H3 H4 H5 H6 Hm.
  pose proof (read_json_says json now) as R. cbv zeta in R. set (tr1 := read_json json (new_translations now)) in *. destruct R as (Nd1 & L1 & S1).
  destruct (pot_back pa pv pdt msgs tr1 H4 H5 H6 Hm L1) as (l & E2 & C). set (tr2 := mkTr (tr_msgDict tr1) l (tr_header tr1) (created pdt)) in *.
  pose proof (read_po_says a v now po tr2 Nd1) as R. cbv zeta in R. remember (read_po a v now po tr2) as tr3 eqn:E3. destruct R as (Nd3 & L3 & S3).
  assert (Hd : tr_header tr3 = concat (header_lines a v pdt now)) by (rewrite <- header_lines_text, E3; destruct po; reflexivity).
  assert (K : forall m, present (dget m (tr_msgDict tr3)) = known json po m) by (intro m; rewrite S3; unfold known; change (tr_msgDict tr2) with (tr_msgDict tr1); now rewrite S1).
  assert (T : forall m, translation_of tr3 m = known_or_empty json po m) by (intro m; unfold translation_of, known_or_empty; rewrite <- K; destruct (dget m (tr_msgDict tr3)) as [[|c t]|]; reflexivity).
  exists (Some (write_json tr3)), (fst (write_po tr3)), (snd (write_po tr3)), l. split; [|split; [exact C|split]].
  - unfold main. fold tr1. rewrite E2. cbn [bind]. cbv zeta. rewrite <- E3. destruct (write_po tr3). reflexivity.
  - unfold write_po. cbn [fst]. rewrite Hd, L3. f_equal. change (tr_msgList tr2) with l. clear - T. induction l as [|m l IH]; [reflexivity|]. cbn [map concat flat_map]. rewrite concat_app, <- IH. f_equal.
    unfold po_entry, entry_lines. rewrite T. cbn [concat fst snd]. rewrite <- !app_assoc. reflexivity.
  - unfold write_po. cbn [snd]. rewrite forallb_forall, L3. change (tr_msgList tr2) with l. split; intros H m I; specialize (H m I); rewrite <- K in *; unfold translation_of in *; destruct (dget m (tr_msgDict tr3)) as [[|c t]|]; cbn in *; try congruence; try discriminate; reflexivity.
Qed.

(** * The run *)
Section Run.
Variables (other : str -> res str) (charset : str -> option codec) (big : bool).
Lemma one_line_plain : forall t, plain t -> one_line t.
Proof. intros t H. split; apply plain_no; (exact H || reflexivity). Qed.
Lemma quoted_ascii : forall m, ascii m -> ascii (quoted m).
Proof. intros m H. apply Forall_forall. intros c I. apply quoted_in in I as [->|I]; [reflexivity|]. unfold ascii in H. rewrite Forall_forall in H. now apply H. Qed.
Lemma ascending_first : forall m l, ascending (m :: l) -> forall m', In m' (m :: l) -> str_leb m m' = true.
Proof.
  intros m l A m' [<-|I].
  - destruct (str_leb m m) eqn:E; [reflexivity|]. apply str_leb_total in E as F. congruence.
  - unfold ascending in A. apply Sorted.Sorted_StronglySorted in A; [|intros x y z; apply str_leb_trans]. inversion A as [|? ? _ F]; subst. rewrite Forall_forall in F. now apply F.
Qed.
Lemma encodable_entries : forall ps qs, Forall2 stands2 ps qs -> encodable (concat (flat_map entry_lines ps)).
Proof.
  intros ps qs H. induction H as [|p q ps qs (W & T & _) H IH]; [constructor|]. cbn [flat_map]. rewrite concat_app. apply encodable_app; [|exact IH]. apply stands_value in W as (W & _). apply stands_value in T as (T & _).
  unfold entry_lines. cbn [concat]. repeat apply encodable_app; try assumption; apply ascii_encodable; repeat (constructor; [reflexivity|]); constructor.
Qed.
Lemma encodable_header : forall ap ver pt now, encodable ap -> plain ver -> plain pt -> plain now -> encodable (concat (header_lines ap ver pt now)).
Proof.
  intros ap ver pt now A B C D. unfold header_lines. rewrite !concat_app. apply encodable_app; [|apply encodable_app].
  - unfold comment_lines. cbn [concat]. repeat apply encodable_app; try assumption; apply ascii_encodable; repeat (constructor; [reflexivity|]); constructor.
  - pose proof (plain_fields ver pt now B C D) as P. induction P as [|a l P1 P2 IH]; [constructor|]. cbn [map concat]. apply encodable_app; [|exact IH]. unfold quoted_field.
    apply encodable_app; [apply ascii_encodable; repeat (constructor; [reflexivity|]); constructor|]. apply encodable_app; [apply ascii_encodable; now apply plain_ascii|]. apply ascii_encodable; repeat (constructor; [reflexivity|]); constructor.
  - apply ascii_encodable. repeat (constructor; [reflexivity|]). constructor.
Qed.
Lemma values_exist : forall (f : str -> str) l, (forall m, In m l -> m <> [] /\ exists v tv, stands_for m v /\ stands_for (f m) tv) ->
  exists qs, Forall2 stands2 (map (fun m => (m, f m)) l) qs.
Proof.
  intros f. induction l as [|m l IH]; intro H; [exists []; constructor|]. destruct IH as (qs & F); [intros; apply H; now right|]. destruct (H m (or_introl eq_refl)) as (N0 & v & tv & V & T).
  exists ((v, tv) :: qs). cbn [map]. constructor; [now repeat split | exact F].
Qed.
(** the catalogue says the translations *)
Definition says (msgs : list str) (po : option str) (cat : dict bytes) : Prop :=
  (forall m v t tv, In m msgs -> source_for m v -> known None po (quoted m) = Some t -> stands_for t tv -> dget (utf8_text v) cat = Some (utf8_text tv)) /\
  (forall k b, dget k cat = Some b -> k = [] \/ exists m v t tv, In m msgs /\ source_for m v /\ known None po (quoted m) = Some t /\ stands_for t tv /\ k = utf8_text v /\ b = utf8_text tv).
Definition conditions (now pa pv pdt : str) (msgs : list str) (po : option str) : Prop :=
  plain now /\ one_line pa /\ one_line pv /\ plain pdt /\ Forall source_message msgs /\
  (forall m, In m msgs -> exists v, source_for m v) /\
  (forall m m' v, In m msgs -> In m' msgs -> source_for m v -> source_for m' v -> m = m') /\
  (forall m t, In m msgs -> known None po (quoted m) = Some t -> exists v, stands_for t v) /\
  (forall m, In m msgs -> (forall m', In m' msgs -> str_leb (quoted m) (quoted m') = true) -> ascii m).
Lemma run_translate : forall now pa pv pdt msgs po, conditions now pa pv pdt msgs po ->
  exists po' complete, main (s "PyWriter") (s "unknown") now false None (Some (write_pot pa pv pdt msgs)) po = Ok (None, po', complete) /\ encodable po' /\
    (complete = true <-> forall m, In m msgs -> known None po (quoted m) <> None) /\
    exists cat, parse other charset (utf8_text po') [] = Ok cat /\ NoDup (dkeys cat) /\ says msgs po cat.
Proof.
  intros now pa pv pdt msgs po (P1 & P2 & P3 & P4 & P5 & P6 & P7 & P8 & P9).
  destruct (main_po (s "PyWriter") (s "unknown") now None pa pv pdt msgs po) as (j' & po' & complete & l & E & C & Epo & Cm); try assumption; try (now apply one_line_plain); try (apply one_lineb_ok; reflexivity).
  exists po', complete. split; [rewrite main_nojson, E; reflexivity|]. destruct C as (Nd & As & Cl).
  assert (Vals : exists qs, Forall2 stands2 (map (fun m => (m, known_or_empty None po m)) l) qs).
  { apply values_exist. intros q I. apply Cl in I as (m & I & ->). destruct (P6 m I) as (v & Sv). split.
    - rewrite Forall_forall in P5. intro X. pose proof (quoted_ok m (P5 m I)) as (_ & Y & _). contradiction.
    - exists v. unfold known_or_empty. destruct (known None po (quoted m)) as [t|] eqn:K; [|exists []; split; [now apply source_quoted | constructor]]. destruct (P8 m t I K) as (tv & T). exists tv. split; [now apply source_quoted | exact T]. }
  destruct Vals as (qs & F2).
  assert (En : encodable po').
  { rewrite Epo. apply encodable_app; [apply encodable_header; try assumption; [apply ascii_encodable; repeat (constructor; [reflexivity|]); constructor | apply plainb_ok; reflexivity] | now apply encodable_entries with (qs := qs)]. }
  split; [exact En|]. split; [|].
  { rewrite Cm. split; intros H m I; [apply H, Cl; now exists m|]. apply Cl in I as (m0 & I & ->). now apply H. }
  exists (fold_left put_message qs [([], header_value (s "unknown") pdt now)]). split; [|split].
  - rewrite Epo. apply parse_file; try assumption; [apply one_lineb_ok; reflexivity | apply plainb_ok; reflexivity|]. destruct l as [|q l]; [exact I|]. cbn [map fst].
    assert (Iq : In q (q :: l)) by now left. apply Cl in Iq as (m & Im & ->). apply quoted_ascii. apply (P9 m Im). intros m' Im'. apply (ascending_first _ _ As). apply Cl. now exists m'.
  - apply put_message_keys. cbn. constructor; [intros [] | constructor].
  - assert (Ql : forall v tv, In (v, tv) qs <-> exists m, In m l /\ stands_for m v /\ stands_for (known_or_empty None po m) tv).
    { clear - F2. induction l as [|m l IH] in qs, F2 |- *; cbn [map] in F2.
      - inversion F2; subst. intros v tv. split; [intros [] | intros (m & [] & _)].
      - inversion F2 as [|p q ps qs' (W & T & N0) F]; subst. intros v tv. cbn [fst snd] in W, T. split.
        + intros [X|X]; [subst q; exists m; split; [now left|]; split; assumption|]. apply (IH qs' F) in X as (m' & I & R). exists m'. split; [now right | exact R].
        + intros (m' & [<-|I] & V & T'); [left; destruct q as [a b]; cbn in W, T; f_equal; eapply stands_fun; eassumption | right; apply (IH qs' F); now exists m']. }
    assert (Qe : Forall (fun q : str * str => encodable (fst q)) qs) by (apply Forall_forall; intros [v tv] I; apply Ql in I as (m & _ & V & _); now apply stands_value in V).
    assert (Qn : NoDup (map fst qs)).
    { assert (D : forall m m' v, In m l -> In m' l -> stands_for m v -> stands_for m' v -> m = m').
      { intros m m' v I I' V V'. apply Cl in I as (n & I & ->). apply Cl in I' as (n' & I' & ->). destruct (P6 n I) as (w & Sn). destruct (P6 n' I') as (w' & Sn').
        pose proof (stands_fun _ _ _ (source_quoted _ _ Sn) V). pose proof (stands_fun _ _ _ (source_quoted _ _ Sn') V'). subst w w'. f_equal. now apply (P7 n n' v). }
      clear - F2 Nd D. induction l as [|m l IH] in qs, F2, Nd, D |- *; cbn [map] in F2.
      - inversion F2; subst. constructor.
      - inversion F2 as [|p q ps qs' (W & T & N0) F]; subst. inversion Nd as [|? ? N1 N2]; subst. cbn [fst] in W. cbn [map]. constructor.
        + intro I. apply in_map_iff in I as [q' [E I]]. assert (X : exists m', In m' l /\ stands_for m' (fst q')).
          { clear - F I. induction l as [|m l IH] in qs', F, I |- *; cbn [map] in F; inversion F as [|p q ps qs0 (W & T & N0) F0]; subst; [destruct I|]. destruct I as [->|I]; [exists m; split; [now left | exact W]|]. destruct (IH qs0 F0 I) as (m' & J & R). exists m'. split; [now right | exact R]. }
          destruct X as (m' & I' & V'). rewrite E in V'. apply N1. rewrite (D m m' (fst q)); [exact I' | now left | now right | exact W | exact V'].
        + apply IH; [exact N2 | exact F |]. intros a b c Ia Ib. apply D; now right. }
    split.
    + intros m v t tv I Sv K T. apply put_message_new; [exact Qn | exact Qe | |].
      * apply Ql. exists (quoted m). split; [apply Cl; now exists m|]. split; [now apply source_quoted|]. unfold known_or_empty. now rewrite K.
      * intro X. subst tv. apply stands_value in T as (_ & _ & [_ T] & _). specialize (T eq_refl). subst t. unfold known in K. destruct (before_or _ _) as [[|]|]; discriminate.
    + intros k b H. apply put_message_only in H as [H|(v & tv & I & -> & -> & N0)].
      * cbn [dget] in H. destruct (str_eqb k []) eqn:X; [left; now apply str_eqb_eq in X | discriminate].
      * right. apply Ql in I as (q & I & V & T). apply Cl in I as (m & I & ->). destruct (P6 m I) as (w & Sw). unfold known_or_empty in T. destruct (known None po (quoted m)) as [t|] eqn:K.
        -- exists m, w, t, tv. split; [exact I|]. split; [exact Sw|]. split; [exact K|]. split; [exact T|]. split; [|reflexivity]. f_equal. eapply stands_fun; [exact V | now apply source_quoted].
        -- exfalso. apply N0. eapply stands_fun; [exact T | constructor].
Qed.
End Run.
