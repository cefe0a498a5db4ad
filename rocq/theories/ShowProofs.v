(** Exported texts show what the tables of SpecShow say. *)
From Coq Require Import List NArith ZArith Bool Lia Arith.
From Verif Require Import PyStr PyDict Globals NovelModel Template SpecTemplate TemplateProofs Export SpecExport ExportProofs ExportProofs2 SpecShow.
Import ListNotations.

(** * Mappings *)
Lemma mapping_dget : forall rows m key, mapping rows = Ok m -> match dget key rows with Some r => exists v, r = Ok v /\ dget key m = Some v | None => dget key m = None end.
Proof.
  induction rows as [|[k r] rows IH]; intros m key H; cbn [mapping] in H; [injection H as <-; reflexivity|].
  destruct r as [v|]; cbn [bind] in H; [|discriminate H]. destruct (mapping rows) as [m'|] eqn:E; cbn [bind] in H; [|discriminate H]. injection H as <-.
  cbn [dget]. destruct (str_eqb key k); [now exists v|]. now apply IH.
Qed.
Definition row_ok (rows : list (str * res str)) (kp : str * (str -> Prop)) : Prop := exists v, dget (fst kp) rows = Some (Ok v) /\ snd kp v.
Lemma dget_in : forall {A} (d : dict A) k v, dget k d = Some v -> In k (map fst d).
Proof.
  induction d as [|[k' v'] d IH]; intros k v H; cbn [dget] in H; [discriminate H|]. destruct (str_eqb k k') eqn:E; [apply str_eqb_eq in E; subst; now left|right; now apply (IH _ v)].
Qed.
(** m gives every placeholder of the table a text the table allows, and nothing else *)
Definition shows (tb : table) (m : dict str) : Prop :=
  (forall key allowed, In (key, allowed) tb -> exists v, dget key m = Some v /\ allowed v) /\ (forall key v, dget key m = Some v -> In key (map fst tb)).
Lemma shown_rendered : forall tb m tpl, shows tb m -> rendered tb tpl (safe_substitute tpl m).
Proof. intros tb m tpl [H1 H2]. exists m. split; [exact H1|split; [exact H2|]]. intros segs E U. rewrite <- E. now apply substitute_segments. Qed.
Lemma gives : forall rows tb, Forall (fun x : str * res str => exists v, snd x = Ok v) rows ->
  forallb (fun k => smem k (map fst tb)) (map fst rows) = true -> Forall (row_ok rows) tb -> exists m, mapping rows = Ok m /\ shows tb m.
Proof.
  intros rows tb Ho Hk Ht. destruct (mapping_ok rows Ho) as [m Hm]. exists m. split; [exact Hm|split].
  - intros key allowed Hi. rewrite Forall_forall in Ht. destruct (Ht _ Hi) as [v [Hv Ha]]. cbn [fst snd] in *. pose proof (mapping_dget rows m key Hm) as D. rewrite Hv in D.
    destruct D as [v' [E D]]. injection E as <-. now exists v.
  - intros key v Hv. pose proof (mapping_dget rows m key Hm) as D. destruct (dget key rows) as [r|] eqn:E; [|congruence].
    apply dget_in in E. rewrite forallb_forall in Hk. apply smem_In. now apply Hk.
Qed.
Lemma fill_shown : forall (r : res (dict str)) tb, (exists m, r = Ok m /\ shows tb m) -> forall tpl, exists t, fill tpl r = Ok t /\ rendered tb tpl t.
Proof. intros r tb [m [-> Hm]] tpl. eexists. split; [reflexivity|]. now apply shown_rendered. Qed.
(** one more placeholder *)
Lemma shows_dset : forall tb m k v (allowed : str -> Prop), shows tb m -> smem k (map fst tb) = false -> allowed v -> shows ((k, allowed) :: tb) (dset k v m).
Proof.
  intros tb m k v allowed [H1 H2] Hk Hv. split.
  - intros key a [E|Hi].
    + injection E as <- <-. exists v. split; [apply dget_dset_same|exact Hv].
    + destruct (H1 _ _ Hi) as [w [Hw Ha]]. exists w. split; [|exact Ha]. rewrite dget_dset_other; [exact Hw|].
      intro E. subst key. assert (smem k (map fst tb) = true) by (apply smem_In; apply in_map_iff; now exists (k, a)). congruence.
  - intros key w Hw. rewrite dget_dset in Hw. cbn [map fst]. destruct (str_eqb key k) eqn:E; [apply str_eqb_eq in E; now left|right; now apply (H2 _ w)].
Qed.
Lemma render : forall rows tb tpl, Forall (fun x : str * res str => exists v, snd x = Ok v) rows ->
  forallb (fun k => smem k (map fst tb)) (map fst rows) = true -> Forall (row_ok rows) tb -> exists t, fill tpl (mapping rows) = Ok t /\ rendered tb tpl t.
Proof. intros rows tb tpl Ho Hk Ht. apply fill_shown. now apply gives. Qed.

Section Show.
Variables (conv : option str -> bool -> res str) (pn pp : option str) (n : novel).
Hypothesis T : forall t q, exists v, conv t q = Ok v.

Lemma verbatim_py : forall t, verbatim t (py_str t).
Proof. intros [t|]; [now left|now right]. Qed.
Lemma counter_disp : forall k, counter k (disp k).
Proof. intros [|k]; reflexivity. Qed.

Ltac rows_ok := repeat (apply Forall_cons || apply Forall_nil); cbn [snd]; first [now eexists | apply T | idtac].
Ltac row :=
  cbn [fst snd];
  match goal with
  | |- exists v, _ /\ short conv ?t v => let v := fresh in let H := fresh in destruct (T t true) as [v H]; exists v; split; [rewrite <- H; reflexivity|exact H]
  | |- exists v, _ /\ long conv ?t v => let v := fresh in let H := fresh in destruct (T t false) as [v H]; exists v; split; [rewrite <- H; reflexivity|exact H]
  | |- exists v, _ /\ verbatim ?t v => exists (py_str t); split; [reflexivity|apply verbatim_py]
  | |- exists v, _ /\ exactly ?t v => exists t; split; reflexivity
  | |- exists v, _ /\ number ?t v => eexists; split; reflexivity
  | |- exists v, _ /\ counter ?t v => exists (disp t); split; [reflexivity|apply counter_disp]
  | |- exists v, _ /\ tags (short conv) ?t v => let v := fresh in let H := fresh in destruct (T (Some (tags_text t)) true) as [v H]; exists v; split; [rewrite <- H; reflexivity|destruct t; exact H]
  | |- exists v, _ /\ tags (long conv) ?t v => let v := fresh in let H := fresh in destruct (T (Some (tags_text t)) false) as [v H]; exists v; split; [rewrite <- H; reflexivity|destruct t; exact H]
  | _ => idtac
  end.
Ltac rows := repeat (apply Forall_cons || apply Forall_nil); unfold row_ok; row.

Lemma header_shown : forall tpl, exists t, fill tpl (fileHeaderMapping conv n) = Ok t /\ rendered (header_table conv n) tpl t.
Proof. intro tpl. apply render; [rows_ok|reflexivity|unfold header_table; rows]. Qed.
Lemma chapter_shown : forall tpl i k c, dget i (nv_chapters n) = Some c -> exists t, fill tpl (chapterMapping conv pn pp n i k) = Ok t /\ rendered (chapter_table conv pn pp n i k) tpl t.
Proof.
  intros tpl i k c H. unfold chapterMapping, chapter_table, chapter_of, dindex. rewrite H. cbn [bind]. apply render; [rows_ok|reflexivity|rows].
Qed.
Lemma character_shown : forall tpl i c, dget i (nv_characters n) = Some c -> exists t, fill tpl (characterMapping conv pn pp n i) = Ok t /\ rendered (character_table conv pn pp i c) tpl t.
Proof.
  intros tpl i c H. unfold characterMapping, character_table, dindex. rewrite H. cbn [bind]. apply render; [rows_ok|reflexivity|rows].
  eexists. split; [reflexivity|]. destruct (cr_isMajor c) as [[|]|]; [left; now split|right|right]; (split; [discriminate|reflexivity]).
Qed.
Lemma world_shown : forall d tpl i w, dget i d = Some w -> exists t, fill tpl (worldMapping conv pn pp d i) = Ok t /\ rendered (world_table conv pn pp i w) tpl t.
Proof.
  intros d tpl i w H. unfold worldMapping, world_table, dindex. rewrite H. cbn [bind]. apply render; [rows_ok|reflexivity|rows].
Qed.
Lemma note_shown : forall tpl i p, dget i (nv_projectNotes n) = Some p -> exists t, fill tpl (prjNoteMapping conv pn pp n i) = Ok t /\ rendered (note_table conv pn pp i p) tpl t.
Proof.
  intros tpl i p H. unfold prjNoteMapping, note_table, dindex. rewrite H. cbn [bind]. apply render; [rows_ok|reflexivity|rows].
Qed.

(** * Scenes *)
Lemma dated_spec : forall x, dated x = true <-> has_date x.
Proof.
  intro x. unfold dated, has_date. destruct (sc_date x) as [d|].
  - destruct (str_eqb d (s "0001-01-01")) eqn:E; cbn [negb].
    + apply str_eqb_eq in E. split; [discriminate|]. intros [d' [E' D]]. injection E' as <-. now elim D.
    + split; [intros _; exists d; split; [reflexivity|intro H; apply str_eqb_eq in H; congruence]|reflexivity].
  - split; [discriminate|]. intros [d [E _]]. discriminate E.
Qed.
Lemma lasts_spec : forall t u, amount t u (lasts_unit t u).
Proof.
  intros [t|] u; unfold amount, lasts_unit; [|right; split; [now left|reflexivity]]. destruct (str_eqb t (s "0")) eqn:E.
  - apply str_eqb_eq in E. right. split; [right; now f_equal|reflexivity].
  - left. exists t. split; [reflexivity|split; [intro H; apply str_eqb_eq in H; congruence|reflexivity]].
Qed.
Lemma lasts_nil : forall t, lasts t = lasts_unit t [].
Proof. intros [t|]; unfold lasts, lasts_unit; [|reflexivity]. destruct (str_eqb t (s "0")); [reflexivity|now rewrite app_nil_r]. Qed.
Lemma before_last_spec : forall c t, match before_last c t with Some r => exists q, t = r ++ c :: q /\ ~ In c q | None => ~ In c t end.
Proof.
  induction t as [|d t IH]; cbn [before_last]; [intros []|]. destruct (before_last c t) as [r|].
  - destruct IH as [q [-> H]]. now exists q.
  - destruct (N.eqb_spec d c) as [->|D]; [now exists t|]. intros [H|H]; [congruence|contradiction].
Qed.
Lemma time_spec : forall t, time t (match t with Some t => without_seconds t | None => [] end).
Proof.
  intros [t|]; unfold time; [|left; now split]. right. unfold without_seconds. pose proof (before_last_spec 58 t) as H. destruct (before_last 58 t) as [r|].
  - left. destruct H as [q [-> H]]. now exists q.
  - now right.
Qed.
Lemma status_spec : forall z, (0 <= z <= 5)%Z -> exists t, status_text (Some z) = Ok t /\ status (Some z) t.
Proof.
  intros z H. unfold status. assert (z = 0 \/ z = 1 \/ z = 2 \/ z = 3 \/ z = 4 \/ z = 5)%Z as [->|[->|[->|[->|[->| ->]]]]] by lia; eexists; (split; [reflexivity|]); tauto.
Qed.
Lemma all_some_spec : forall {A} (l : list (option A)), match all_some l with Some r => l = map Some r | None => In None l end.
Proof.
  induction l as [|[a|] l IH]; cbn [all_some]; [reflexivity| |now left]. destruct (all_some l) as [r|]; [now rewrite IH|now right].
Qed.
Lemma known_titles : forall {A} (title : A -> option str) (d : dict A) ids,
  match mapM (fun i => do c <- dindex i d; Ok (title c)) ids with
  | Ok l => known d ids /\ (forall r, l = map Some r -> titled title d ids r) /\ (In None l -> forall r, ~ titled title d ids r) /\
            match ids, l with i :: _, v :: _ => exists c, dget i d = Some c /\ title c = v | [], [] => True | _, _ => False end
  | Err _ => ~ known d ids
  end.
Proof.
  intros A title d. induction ids as [|i ids IH]; cbn [mapM].
  - split; [intros ? []|]. split; [|split; [intros []|exact I]]. intros [|? ?] E; [constructor|discriminate E].
  - unfold dindex at 1. destruct (dget i d) as [c|] eqn:E; cbn [bind].
    + destruct (mapM (fun i => do c <- dindex i d; Ok (title c)) ids) as [l|]; cbn [bind].
      * destruct IH as [K [H1 [H2 _]]]. split; [|split; [|split]].
        -- intros j [<-|Hj]; [now exists c|now apply K].
        -- intros [|t r] H; [discriminate H|]. injection H as Ha Hb. constructor; [now exists c|now apply H1].
        -- intros [H|H] [|t r] F; [inversion F|inversion F as [|? ? ? ? [c' [E' Ht]] F']; subst|inversion F|inversion F as [|? ? ? ? Hx F']; subst].
           ++ rewrite E in E'. injection E' as <-. congruence.
           ++ now apply (H2 H r).
        -- now exists c.
      * intro K. apply IH. intros j Hj. apply K. now right.
    + intro K. destruct (K i (or_introl eq_refl)) as [c Hc]. congruence.
Qed.
Lemma titled_known : forall {A} (title : A -> option str) (d : dict A) ids r, titled title d ids r -> known d ids.
Proof. intros A title d ids r F. induction F as [|i t ids r [a [Ha _]] F IH]; intros j Hj; [destruct Hj|]. destruct Hj as [<-|Hj]; [now exists a|now apply IH]. Qed.
Lemma titles_names : forall {A} (title : A -> option str) (d : dict A) ids l,
  (forall r, l = map Some r -> titled title d ids r) -> (In None l -> forall r, ~ titled title d ids r) -> names title d (Some ids) (titles_text l).
Proof.
  intros A title d ids l H1 H2. unfold names, titles_text. pose proof (all_some_spec l) as S. destruct (all_some l) as [r|].
  - left. exists ids, r. split; [reflexivity|split; [now apply H1|reflexivity]].
  - right. split; [reflexivity|]. intros l' ts E. injection E as <-. now apply H2.
Qed.
Lemma places_spec : forall d ids, orefs_exist d ids -> exists t, scene_places d ids = Ok t /\ names we_title d ids t.
Proof.
  intros d [ids|] H; [|exists []; split; [reflexivity|right; split; [reflexivity|discriminate]]]. unfold scene_places.
  pose proof (known_titles we_title d ids) as K. destruct (mapM (fun i => do w <- dindex i d; Ok (we_title w)) ids) as [l|].
  - destruct K as [_ [H1 [H2 _]]]. cbn [bind]. eexists. split; [reflexivity|]. now apply titles_names.
  - contradiction.
Qed.
Lemma characters_spec : forall x, names cr_title (nv_characters n) (sc_characters x) (fst (scene_characters n x)) /\ viewpoint n (sc_characters x) (snd (scene_characters n x)).
Proof.
  intro x. unfold scene_characters. destruct (sc_characters x) as [ids|].
  2:{ split; right; (split; [reflexivity|discriminate]). }
  pose proof (known_titles cr_title (nv_characters n) ids) as K. destruct (mapM (fun i => do c <- dindex i (nv_characters n); Ok (cr_title c)) ids) as [[|v l]|].
  - destruct K as [_ [_ [_ K]]]. destruct ids as [|i ids]; [|destruct K]. split; [left; exists [], []; split; [reflexivity|split; [constructor|reflexivity]]|].
    right. split; [reflexivity|discriminate].
  - destruct K as [K [H1 [H2 H3]]]. destruct ids as [|i ids]; [destruct H3|]. destruct H3 as [c [Hc <-]]. cbn [fst snd]. split; [now apply titles_names|].
    left. exists i, ids, c. split; [reflexivity|split; [exact K|split; [exact Hc|apply verbatim_py]]].
  - cbn [fst snd]. split; right; (split; [reflexivity|]).
    + intros l ts E. injection E as <-. intro F. apply K. now apply (titled_known cr_title _ _ ts).
    + intros i l E. injection E as ->. exact K.
Qed.
Lemma scene_mapped : forall i k w l x, dget i (nv_scenes n) = Some x -> orefs_exist (nv_locations n) (sc_locations x) -> orefs_exist (nv_items n) (sc_items x) ->
  (exists z, sc_status x = Some z /\ (0 <= z <= 5)%Z) ->
  exists m, sceneMapping conv pn pp n i k w l = Ok m /\ shows (scene_table conv pn pp n i k w l) m.
Proof.
  intros i k w l x H Hl Hi [z [Hz Hr]]. unfold sceneMapping, scene_table, scene_of, dindex. rewrite H. cbn [bind].
  destruct (places_spec _ _ Hl) as [tl [El Nl]]. rewrite El. destruct (places_spec _ _ Hi) as [ti [Ei Ni]]. rewrite Ei. cbn [bind].
  destruct (status_spec z Hr) as [st [Es Ns]]. rewrite <- Hz in Es, Ns. pose proof (characters_spec x) as [Nc Nv]. pose proof (dated_spec x) as Hd.
  apply gives; [rows_ok|reflexivity|rows].
  - now exists st.
  - exists st. split; [rewrite <- Es; reflexivity|exact Ns].
  - eexists. split; [reflexivity|]. destruct (sc_isReactionScene x) as [[|]|]; [left; now split|right|right]; (split; [discriminate|reflexivity]).
  - eexists. split; [reflexivity|]. unfold date. destruct (dated x) eqn:E.
    + left. assert (D : has_date x) by now apply Hd. split; [exact D|]. destruct D as [d [-> _]]. reflexivity.
    + right. split; [intro D; apply Hd in D; congruence|reflexivity].
  - eexists. split; [reflexivity|]. unfold day. destruct (dated x) eqn:E; [left; split; [now apply Hd|reflexivity]|]. right.
    assert (D : ~ has_date x) by (intro D; apply Hd in D; congruence). destruct (sc_day x); [left; now split|right; now split].
  - eexists. split; [reflexivity|]. unfold date_or_day. destruct (dated x) eqn:E.
    + left. assert (D : has_date x) by now apply Hd. split; [exact D|]. destruct D as [d [-> _]]. reflexivity.
    + right. assert (D : ~ has_date x) by (intro D; apply Hd in D; congruence). destruct (sc_day x) as [d|]; [left; split; [exact D|now exists d]|right; now split].
  - eexists. split; [reflexivity|apply time_spec].
  - eexists. split; [reflexivity|rewrite lasts_nil; apply lasts_spec].
  - eexists. split; [reflexivity|rewrite lasts_nil; apply lasts_spec].
  - eexists. split; [reflexivity|rewrite lasts_nil; apply lasts_spec].
  - eexists. split; [reflexivity|]. unfold duration. do 3 eexists. repeat (split; [apply lasts_spec|]). reflexivity.
  - eexists. split; [reflexivity|exact Nc].
  - eexists. split; [reflexivity|exact Nv].
  - exists tl. split; [reflexivity|exact Nl].
  - exists ti. split; [reflexivity|exact Ni].
Qed.
Lemma scene_shown : forall tpl i k w l x, dget i (nv_scenes n) = Some x -> orefs_exist (nv_locations n) (sc_locations x) -> orefs_exist (nv_items n) (sc_items x) ->
  (exists z, sc_status x = Some z /\ (0 <= z <= 5)%Z) ->
  exists t, fill tpl (sceneMapping conv pn pp n i k w l) = Ok t /\ rendered (scene_table conv pn pp n i k w l) tpl t.
Proof. intros tpl i k w l x H Hl Hi Hz. apply fill_shown. now apply (scene_mapped i k w l x). Qed.
End Show.

(** * Whole documents *)
Lemma mapM_shown : forall {A} (f : A -> res str) (P : A -> str -> Prop) l, (forall x, In x l -> exists t, f x = Ok t /\ P x t) -> exists r, mapM f l = Ok r /\ Forall2 P l r.
Proof.
  induction l as [|x l IH]; intro H; [exists []; split; [reflexivity|constructor]|]. destruct (H x (or_introl eq_refl)) as [t [Et Pt]].
  destruct IH as [r [Er Pr]]; [intros y Hy; apply H; now right|]. cbn [mapM]. rewrite Et. cbn [bind]. rewrite Er. eexists. split; [reflexivity|now constructor].
Qed.
Lemma elements_ok : forall {A} (d : dict A) tb h tpl acc (m : str -> res (dict str)) ids, refs_exist d ids ->
  (forall i a, dget i d = Some a -> exists t, fill tpl (m i) = Ok t /\ rendered (tb i a) tpl t) ->
  exists ts, get_elements h tpl acc m ids = Ok ((if truthy h then [h] else []) ++ ts) /\ elements_shown tb d tpl (filter acc ids) ts.
Proof.
  intros A d tb h tpl acc m ids R H. unfold get_elements.
  destruct (mapM_shown (fun i => fill tpl (m i)) (fun i t => exists a, dget i d = Some a /\ rendered (tb i a) tpl t) (filter acc ids)) as [ts [E F]].
  { intros i Hi. apply filter_In in Hi as [Hi _]. destruct (R i Hi) as [a Ha]. destruct (H i a Ha) as [t [E Ht]]. exists t. split; [exact E|now exists a]. }
  rewrite E. exists ts. split; [reflexivity|exact F].
Qed.
Theorem document_shown : forall e conv pn pp n, standard e conv pn pp -> complete n ->
  exists header blocks chars locs items notes,
    get_text e n = Ok (header ++ concat blocks ++ t_characterHeading e ++ concat chars ++ t_locationHeading e ++ concat locs ++ t_itemHeading e ++ concat items ++ concat notes ++ t_fileFooter e) /\
    rendered (header_table conv n) (t_fileHeader e) header /\
    Forall2 (block_shown conv pn pp n e) (document e n) blocks /\
    elements_shown (character_table conv pn pp) (nv_characters n) (t_character e) (filter (f_character e) (nv_srtCharacters n)) chars /\
    elements_shown (world_table conv pn pp) (nv_locations n) (t_location e) (filter (f_location e) (nv_srtLocations n)) locs /\
    elements_shown (world_table conv pn pp) (nv_items n) (t_item e) (filter (f_item e) (nv_srtItems n)) items /\
    elements_shown (note_table conv pn pp) (nv_projectNotes n) (t_projectNote e) (nv_srtPrjNotes n) notes.
Proof.
  intros e conv pn pp n S C. pose proof S as [T [Sh [Sc [Ss [Sp [Sl [Si So]]]]]]].
  destruct (header_shown conv n T (t_fileHeader e)) as [h [Eh Ph]].
  destruct (mapM_shown (block_text e n) (block_shown conv pn pp n e) (document e n)) as [bs [Eb Pb]].
  { intros b Hb. apply (document_blocks e n) in Hb. destruct b as [ch k| |ch i f k w l|ch k]; cbn [block_text block_shown].
    - rewrite Sc. destruct (cn_listed n C ch Hb) as [c [Hc _]]. now apply (chapter_shown conv pn pp n T _ ch k c).
    - now eexists.
    - rewrite Ss. destruct Hb as [H1 H2]. destruct (cn_listed n C ch H1) as [c [Hc Hs]]. unfold chapter_of in H2. rewrite Hc in H2. destruct (Hs i H2) as [x Hx].
      destruct (cn_scenes n C i x Hx) as [Hl [Hi Hz]]. now apply (scene_shown conv pn pp n T _ i k w l x).
    - rewrite Sc. destruct (cn_listed n C ch Hb) as [c [Hc _]]. now apply (chapter_shown conv pn pp n T _ ch k c). }
  destruct (elements_ok (nv_characters n) (character_table conv pn pp) (t_characterHeading e) (t_character e) (f_character e) (m_character e n) (nv_srtCharacters n)) as [cs [Ec Pc]];
    [exact (cn_characters n C)|intros i a Ha; rewrite Sp; now apply character_shown|].
  destruct (elements_ok (nv_locations n) (world_table conv pn pp) (t_locationHeading e) (t_location e) (f_location e) (m_location e n) (nv_srtLocations n)) as [ls [El Pl]];
    [exact (cn_locations n C)|intros i a Ha; rewrite Sl; now apply world_shown|].
  destruct (elements_ok (nv_items n) (world_table conv pn pp) (t_itemHeading e) (t_item e) (f_item e) (m_item e n) (nv_srtItems n)) as [is [Ei Pi]];
    [exact (cn_items n C)|intros i a Ha; rewrite Si; now apply world_shown|].
  destruct (mapM_shown (fun i => fill (t_projectNote e) (m_projectNote e n i)) (fun i t => exists a, dget i (nv_projectNotes n) = Some a /\ rendered (note_table conv pn pp i a) (t_projectNote e) t) (nv_srtPrjNotes n)) as [ns [En Pn]].
  { intros i Hi. rewrite So. destruct (cn_notes n C i Hi) as [p Hp]. destruct (note_shown conv pn pp n T (t_projectNote e) i p Hp) as [t [E Ht]]. exists t. split; [exact E|now exists p]. }
  exists h, bs, cs, ls, is, ns. split; [|repeat (split; [assumption|]); assumption].
  unfold get_text, get_fileHeader. rewrite Sh, Eh. cbn [bind]. rewrite (chapters_document e n (cn_listed n C)), Eb. cbn [bind].
  unfold get_characters, get_locations, get_items, get_projectNotes. rewrite Ec. cbn [bind]. rewrite El. cbn [bind]. rewrite Ei. cbn [bind]. rewrite En. cbn [bind]. f_equal.
  assert (G : forall h : str, concat (if truthy h then [h] else []) = h) by (intros [|a r]; cbn; [reflexivity|now rewrite app_nil_r]).
  rewrite !concat_app, !G. cbn [concat]. rewrite !app_nil_r, <- !app_assoc. reflexivity.
Qed.
