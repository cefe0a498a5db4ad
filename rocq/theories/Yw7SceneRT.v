(** The scene round trip through the element tree. *)
From Coq Require Import String List NArith ZArith Bool Lia Arith.
From Verif Require Import PyStr PyDict Globals GlobalsProofs WordCount NovelModel NovelOps YwTree IsoDate Yw7Build Yw7Read YwTreeProofs Yw7SceneProofs Yw7StartProofs.
Import ListNotations.

(** dictionaries are equal if they have the same keys in the same order and the same values *)
Lemma dict_ext : forall {A} (d e : dict A), NoDup (dkeys d) -> dkeys d = dkeys e ->
  (forall k, In k (dkeys d) -> dget k d = dget k e) -> d = e.
Proof.
  intros A d. induction d as [|[k v] d IH]; intros [|[k' v'] e] Hn Hk Hv; try discriminate Hk; [reflexivity|].
  cbn [dkeys map fst] in *. injection Hk as -> Hk. inversion Hn as [|? ? Hx Hn']; subst. f_equal.
  - specialize (Hv k' (or_introl eq_refl)). cbn [dget] in Hv. rewrite str_eqb_refl in Hv. injection Hv as ->. reflexivity.
  - apply IH; [exact Hn' | exact Hk|]. intros j Hj. specialize (Hv j (or_intror Hj)). cbn [dget] in Hv.
    destruct (str_eqb j k') eqn:E; [|exact Hv]. apply str_eqb_eq in E. subst j. contradiction.
Qed.

Section S.
Variable out : str -> option str -> option str.
Hypothesis out_None : forall t, out t None = None.
Hypothesis out_nil : forall t, out t (Some []) = None.
Hypothesis out_safe : forall t v, safe v -> out t (Some v) = Some v.
Notation R := (Forall2 (settled out)).

(** ** Keyword variables *)
(** value of a keyword variable read back *)
Definition kw_out (f : str) (kw : dict (option str)) : option str :=
  match get_kw f kw with Some ((_ :: _) as v) => out f (Some (convert_from_yw v)) | _ => None end.

Lemma read_kws_one : forall names F, NoDup names ->
  fold_left (fun kw fields => fold_left (read_kw1 fields) names kw) [F]
    (fold_left (fun kw name => dset name None kw) names []) =
  map (fun f => (f, get_text f (e_kids F))) names.
Proof.
  intros names F Hn. cbn [fold_left].
  assert (H0 : forall l (d : dict (option str)), NoDup (dkeys d ++ l) -> fold_left (fun kw name => dset name None kw) l d = d ++ map (fun f => (f, None)) l).
  { induction l as [|f l IH]; intros d Hd; [symmetry; apply app_nil_r|]. cbn [fold_left map].
    rewrite dset_new; [|apply NoDup_remove_2 in Hd; rewrite in_app_iff in Hd; tauto].
    rewrite IH; [rewrite <- app_assoc; reflexivity|]. unfold dkeys in *. rewrite map_app, <- app_assoc. exact Hd. }
  rewrite (H0 names []) by exact Hn. cbn [app]. clear H0.
  assert (H1 : forall l d, (forall f, In f l -> In f (dkeys d)) -> NoDup l ->
     let d' := fold_left (read_kw1 F) l d in dkeys d' = dkeys d /\
     forall k, dget k d' = if smem k l then (match find k (e_kids F) with Some e => Some (e_text e) | None => dget k d end) else dget k d).
  { induction l as [|f l IH]; intros d Hd Hl; [split; reflexivity|]. cbn [fold_left].
    inversion Hl as [|? ? Hf Hl']; subst.
    assert (Hk : dkeys (read_kw1 F d f) = dkeys d).
    { unfold read_kw1. destruct (find f (e_kids F)); [apply dkeys_dset_in; apply Hd; left; reflexivity | reflexivity]. }
    destruct (IH (read_kw1 F d f)) as [K1 K2]; [rewrite Hk; intros g Hg; apply Hd; right; exact Hg | exact Hl'|].
    split; [rewrite K1; exact Hk|]. intro k. rewrite K2. unfold smem. cbn [existsb]. fold (smem k l).
    unfold read_kw1. destruct (str_eqb k f) eqn:E; cbn [orb].
    - apply str_eqb_eq in E. subst k. apply smem_false in Hf. rewrite Hf.
      destruct (find f (e_kids F)); [apply dget_dset_same | reflexivity].
    - assert (Hgo : dget k (match find f (e_kids F) with Some f0 => dset f (e_text f0) d | None => d end) = dget k d).
      { destruct (find f (e_kids F)); [|reflexivity]. apply dget_dset_other. apply str_eqb_neq. exact E. }
      rewrite Hgo. reflexivity. }
  assert (Hkeys : forall (g : str -> option str), dkeys (map (fun f => (f, g f)) names) = names).
  { intro g. unfold dkeys. rewrite map_map. cbn [fst]. apply map_id. }
  destruct (H1 names (map (fun f => (f, None)) names)) as [K1 K2]; [rewrite Hkeys; auto | exact Hn|].
  apply dict_ext.
  - rewrite K1, Hkeys. exact Hn.
  - rewrite K1, !Hkeys. reflexivity.
  - intros k Hk. rewrite K1, Hkeys in Hk. rewrite K2. rewrite (proj2 (smem_In k names) Hk).
    assert (Hg : forall (g : str -> option str), dget k (map (fun f => (f, g f)) names) = Some (g k)).
    { intro g. apply In_dget; [rewrite Hkeys; exact Hn|]. apply in_map_iff. exists k. auto. }
    rewrite (Hg (fun _ => None)), (Hg (fun f => get_text f (e_kids F))). unfold get_text. destruct (find k (e_kids F)); reflexivity.
Qed.

Lemma read_kws_none : forall names, NoDup names ->
  fold_left (fun kw name => dset name None kw) names [] = map (fun f => (f, None : option str)) names.
Proof.
  intros names Hn. pose proof (read_kws_one names (Elem [] None []) Hn) as H. cbn [fold_left e_kids] in H.
  assert (Hx : forall l (kw : dict (option str)), fold_left (read_kw1 (Elem [] None [])) l kw = kw).
  { induction l as [|f l IH]; intro kw; [reflexivity|]. cbn [fold_left]. unfold read_kw1 at 2. cbn. apply IH. }
  rewrite Hx in H. exact H.
Qed.

(** the fields named in [names] have no sub-elements and occur at most once *)
Definition fields_wf (names : list str) (k : list elem) : Prop :=
  uniq (s "Fields") k /\ forall F, findall (s "Fields") k = [F] -> forall f, In f names -> leaf1 f (e_kids F).

(** text of a field read back *)
Definition FG (f : str) (k : list elem) : option str := match fget f k with e :: _ => out f (e_text e) | [] => None end.

Lemma read_kws_settled : forall names all k k', NoDup names -> incl names all -> fields_wf all k -> R k k' ->
  read_kws names k' [] = map (fun f => (f, FG f k)) names.
Proof.
  intros names all k k' Hn Hi [U HF] HR. unfold read_kws. apply (R_findall out (s "Fields")) in HR.
  unfold FG, fget. destruct U as [U | [F U]]; rewrite U in *.
  - inversion HR. subst. cbn [fold_left]. apply read_kws_none. exact Hn.
  - inversion HR as [|? F' ? ? He Hnil]; subst. inversion Hnil; subst. rewrite read_kws_one by exact Hn.
    apply map_ext_in. intros f Hf. f_equal.
    rewrite (get_text_G out f (e_kids F) (e_kids F')); [reflexivity | apply settled_kids; exact He | apply (HF F eq_refl); apply Hi; exact Hf].
Qed.

Lemma eff_kw_FG : forall f kw k k1 names, fields_wf names k -> In f names -> fget f k1 = eff_kw f kw (fget f k) -> FG f k1 = kw_out f kw.
Proof.
  intros f kw k k1 names [U HF] Hf E. unfold FG, kw_out. rewrite E. unfold eff_kw.
  assert (L : fget f k = [] \/ exists x, fget f k = [leaf f x]).
  { unfold fget. destruct U as [U | [F U]]; rewrite U in *; [left; reflexivity|]. apply (HF F eq_refl f Hf). }
  destruct (get_kw f kw) as [[|c v]|]; destruct L as [L | [x L]]; rewrite L; reflexivity.
Qed.

Lemma fget_leaf : forall names f k k1 kw, fields_wf names k -> In f names -> fget f k1 = eff_kw f kw (fget f k) ->
  fget f k1 = [] \/ exists x, fget f k1 = [leaf f x].
Proof.
  intros names f k k1 kw [U HF] Hf E. rewrite E. unfold eff_kw.
  assert (L : fget f k = [] \/ exists x, fget f k = [leaf f x]).
  { unfold fget. destruct U as [U | [F U]]; rewrite U in *; [left; reflexivity|]. apply (HF F eq_refl f Hf). }
  destruct (get_kw f kw) as [[|c v]|]; destruct L as [L | [x L]]; rewrite L; first [left; reflexivity | right; eexists; reflexivity].
Qed.

(** ** References *)
Lemma R_leaves : forall i M ks, R (map (fun a => leaf i (Some a)) M) ks ->
  (forall a, In a M -> out i (Some a) = Some a) -> ks = map (fun a => leaf i (Some a)) M.
Proof.
  intros i M. induction M as [|b M IH]; intros ks He Hout; inversion He as [|? e' ? ? Hb Hr]; subst; [reflexivity|].
  cbn [map]. f_equal; [|apply IH; [exact Hr | intros c Hc; apply Hout; right; exact Hc]].
  inversion Hb; subst. unfold leaf. rewrite Hout by (left; reflexivity). reflexivity.
Qed.

Lemma read_refs_settled : forall t i known l k k', str_eqb t i = false ->
  findall t k = (match l with Some ((_ :: _) as l0) => [Elem t None (map (fun a => leaf i (Some a)) l0)] | _ => [] end) ->
  R k k' -> (forall a, In a (match l with Some l0 => l0 | None => [] end) -> out i (Some a) = Some a) ->
  read_refs t i known k' =
  match filter (fun a => smem a known) (match l with Some l0 => l0 | None => [] end) with [] => None | l1 => Some l1 end.
Proof.
  intros t i known l k k' Hti E HR Hout. unfold read_refs. rewrite find_findall.
  apply (R_findall out t) in HR. rewrite E in HR.
  destruct l as [[|a l]|]; [inversion HR; reflexivity | | inversion HR; reflexivity].
  inversion HR as [|e0 y l0 l0' He Hnil]; subst. inversion Hnil; subst. clear HR Hnil. cbn [hd_error].
  assert (Hk : e_kids y = map (fun a => leaf i (Some a)) (a :: l)).
  { apply settled_kids in He. exact (R_leaves i (a :: l) _ He Hout). }
  pose proof (settled_tag out _ _ He) as Ht. cbn [e_tag] in Ht.
  destruct y as [u x ks]. cbn [e_kids e_tag] in Hk, Ht. subst u ks. cbn [iter]. rewrite Hti. cbn [app].
  assert (Hit : flat_map (iter i) (map (fun a => leaf i (Some a)) (a :: l)) = map (fun a => leaf i (Some a)) (a :: l)).
  { generalize (a :: l) as M. induction M as [|b M IH]; [reflexivity|]. cbn [map flat_map]. rewrite IH. unfold leaf at 1. cbn [iter].
    rewrite str_eqb_refl. reflexivity. }
  rewrite Hit.
  assert (Hf : flat_map (fun x => match e_text x with Some j => if smem j known then [j] else [] | None => [] end)
            (map (fun a => leaf i (Some a)) (a :: l)) = filter (fun a => smem a known) (a :: l)).
  { generalize (a :: l) as M. induction M as [|b M IH]; [reflexivity|]. cbn [map flat_map filter e_text leaf]. rewrite IH.
    destruct (smem b known); reflexivity. }
  rewrite Hf. destruct (filter _ _); reflexivity.
Qed.

(** tags from their text *)
Definition tags_in (t : option str) : option (list str) :=
  option_map (fun t => map strip (string_to_list (Some t) semicolon)) t.

(** ** The whole scene *)
Definition scene_leaf_tags : list str :=
  [s "Title"; s "Desc"; s "SceneContent"; s "Notes"; s "Tags"; s "Field1"; s "Field2"; s "Field3"; s "Field4";
   s "LastsDays"; s "LastsHours"; s "LastsMinutes"; s "Goal"; s "Conflict"; s "Outcome"; s "ImageFile"; s "Status"].
Definition scene_uniq_tags : list str :=
  [s "Unused"; s "AppendToPrev"; s "ReactionScene"; s "SubPlot"; s "ExportWhenRTF"; s "Characters"; s "Locations"; s "Items"].
Definition scene_field_names : list str := s "Field_SceneType" :: SCN_KWVAR.

(** shape of a scene element: nothing occurs twice, text elements have no sub-elements *)
Definition scene_wf (k : list elem) : Prop :=
  (forall t, In t scene_leaf_tags -> leaf1 t k) /\ (forall t, In t scene_uniq_tags -> uniq t k) /\
  fields_wf scene_field_names k /\ start_wf k.

Definition refs_out (known : list str) (l : option (list str)) : option (list str) :=
  match filter (fun a => smem a known) (match l with Some l0 => l0 | None => [] end) with [] => None | l1 => Some l1 end.
Definition refs_in (l : option (list str)) : list str := match l with Some l0 => l0 | None => [] end.

(** words and letters of an optional text *)
Definition owc (c : option str) : nat := match c with Some t => word_count t | None => 0 end.
Definition olc (c : option str) : nat := match c with Some t => letter_count t | None => 0 end.

(** The scene read back after x has been written over an element that was read as [old] *)
Definition merged_scene (cs ls : list str) (x old : scene) : scene :=
  let start := new_start (sc_date x) (sc_time x) (sc_day x) (sc_date old, sc_time old, sc_day old) in
  {| sc_title := keep out (s "Title") (sc_title x) (sc_title old);
     sc_desc := keep out (s "Desc") (sc_desc x) (sc_desc old);
     sc_kw := map (fun f => (f, kw_out f (sc_kw x))) SCN_KWVAR;
     sc_content := keep out (s "SceneContent") (sc_content x) (sc_content old);
     sc_wordCount := owc (keep out (s "SceneContent") (sc_content x) (sc_content old));
     sc_letterCount := olc (keep out (s "SceneContent") (sc_content x) (sc_content old));
     sc_type := Some (type_or_0 (sc_type x));
     sc_doNotExport := match sc_doNotExport x with Some b => Some b | None => sc_doNotExport old end;
     sc_status := match sc_status x with Some z => Some z | None => sc_status old end;
     sc_notes := keep out (s "Notes") (sc_notes x) (sc_notes old);
     sc_tags := match sc_tags x with Some _ => tags_in (out (s "Tags") (tags_text (sc_tags x))) | None => sc_tags old end;
     sc_field1 := keep out (s "Field1") (sc_field1 x) (sc_field1 old);
     sc_field2 := keep out (s "Field2") (sc_field2 x) (sc_field2 old);
     sc_field3 := keep out (s "Field3") (sc_field3 x) (sc_field3 old);
     sc_field4 := keep out (s "Field4") (sc_field4 x) (sc_field4 old);
     sc_appendToPrev := Some (is_true (sc_appendToPrev x));
     sc_isReactionScene := Some (is_true (sc_isReactionScene x));
     sc_isSubPlot := Some (is_true (sc_isSubPlot x));
     sc_goal := keep out (s "Goal") (sc_goal x) (sc_goal old);
     sc_conflict := keep out (s "Conflict") (sc_conflict x) (sc_conflict old);
     sc_outcome := keep out (s "Outcome") (sc_outcome x) (sc_outcome old);
     sc_characters := refs_out cs (sc_characters x);
     sc_locations := refs_out ls (sc_locations x);
     sc_items := None;
     sc_date := fst (fst start); sc_time := snd (fst start); sc_day := snd start;
     sc_lastsMinutes := keep out (s "LastsMinutes") (sc_lastsMinutes x) (sc_lastsMinutes old);
     sc_lastsHours := keep out (s "LastsHours") (sc_lastsHours x) (sc_lastsHours old);
     sc_lastsDays := keep out (s "LastsDays") (sc_lastsDays x) (sc_lastsDays old);
     sc_image := keep out (s "ImageFile") (sc_image x) (sc_image old);
     sc_scnArcs := None; sc_scnMode := None |}.

(** finish_scene on the sub-elements of one scene *)
Definition finish_kids (c : option str) (k : list elem) : list elem :=
  remove (s "BelongsToChID") (remove (s "RTFFile") (remove (s "LetterCount") (remove (s "WordCount")
    (match c with None => k | Some v => set_text (s "SceneContent") (Some v) k end)))).

Lemma findall_finish : forall t c k, smem t [s "BelongsToChID"; s "RTFFile"; s "LetterCount"; s "WordCount"] = false ->
  findall t (finish_kids c k) = if str_eqb t (s "SceneContent")
    then match c with None => findall t k | Some v => match findall t k with [] => [] | e :: l => with_text (Some v) e :: l end end
    else findall t k.
Proof.
  intros t c k H. unfold smem in H. cbn [existsb] in H. rewrite !orb_false_iff in H. destruct H as (H1 & H2 & H3 & H4 & _).
  unfold finish_kids. rewrite !findall_filt. rewrite !filt_remove by (rewrite str_eqb_sym; assumption).
  destruct c as [v|].
  - destruct (str_eqb t (s "SceneContent")) eqn:E.
    + apply str_eqb_eq in E. subst t. rewrite <- !findall_filt. apply findall_set_text.
    + apply filt_set_text. rewrite str_eqb_sym. exact E.
  - destruct (str_eqb t (s "SceneContent")); reflexivity.
Qed.

Lemma str_of_N_safe : forall n, safe (str_of_N n).
Proof.
  intro n. split; [apply str_of_N_nonempty|]. apply forallb_forall. intros c Hc. apply str_of_N_digits in Hc.
  unfold safe_char, is_digit. destruct Hc as [H1 H2]. apply N.leb_le in H1, H2. rewrite H1, H2. reflexivity.
Qed.

Lemma str_of_Z_safe : forall z, safe (str_of_Z z).
Proof.
  intros [|p|p]; [split; [discriminate | reflexivity] | apply (str_of_N_safe (Npos p)) |].
  destruct (str_of_N_safe (Npos p)) as [_ H]. split; [discriminate|]. cbn [str_of_Z forallb]. rewrite H. reflexivity.
Qed.

(** the scene read from the sub-elements k, with status st and start *)
Definition scene_of (st : option Z) (start : option str * option str * option str) (cs ls is : list str) (k : list elem) : scene :=
  {| sc_title := get_text (s "Title") k;
     sc_desc := get_text (s "Desc") k;
     sc_kw := read_kws SCN_KWVAR k [];
     sc_content := get_text (s "SceneContent") k;
     sc_wordCount := owc (get_text (s "SceneContent") k);
     sc_letterCount := olc (get_text (s "SceneContent") k);
     sc_type := Some (read_scene_type k);
     sc_doNotExport := Some (read_doNotExport k);
     sc_status := st;
     sc_notes := get_text (s "Notes") k;
     sc_tags := read_tags k;
     sc_field1 := get_text (s "Field1") k;
     sc_field2 := get_text (s "Field2") k;
     sc_field3 := get_text (s "Field3") k;
     sc_field4 := get_text (s "Field4") k;
     sc_appendToPrev := Some (has (s "AppendToPrev") k);
     sc_isReactionScene := Some (has (s "ReactionScene") k);
     sc_isSubPlot := Some (has (s "SubPlot") k);
     sc_goal := get_text (s "Goal") k;
     sc_conflict := get_text (s "Conflict") k;
     sc_outcome := get_text (s "Outcome") k;
     sc_characters := read_refs (s "Characters") (s "CharID") cs k;
     sc_locations := read_refs (s "Locations") (s "LocID") ls k;
     sc_items := read_refs (s "Items") (s "ItemID") is k;
     sc_date := fst (fst start); sc_time := snd (fst start); sc_day := snd start;
     sc_lastsMinutes := get_text (s "LastsMinutes") k;
     sc_lastsHours := get_text (s "LastsHours") k;
     sc_lastsDays := get_text (s "LastsDays") k;
     sc_image := get_text (s "ImageFile") k;
     sc_scnArcs := None; sc_scnMode := None |}.

Definition read_status (k : list elem) : res (option Z) :=
  match find_text (s "Status") k with
  | None => Ok None
  | Some None => Err TypeError
  | Some (Some t) => match parse_int t with Some z => Ok (Some z) | None => Err ValueError end
  end.

Lemma read_scene_of : forall ext cs ls is k, read_scene ext cs ls is k =
  do st <- read_status k; do start <- read_start ext k; Ok (scene_of st start cs ls is k).
Proof.
  intros. unfold read_scene, read_status, find_text.
  match goal with |- bind ?a _ = bind ?b _ => assert (E : a = b) end.
  { destruct (find (s "Status") k) as [e|]; [cbn [option_map]; destruct (e_text e)|]; reflexivity. }
  rewrite E. clear E. match goal with |- bind ?a _ = bind _ _ => destruct a; [|reflexivity] end. cbn [bind].
  destruct (read_start ext k) as [[[? ?] ?]|]; [|reflexivity]. cbn [bind]. f_equal. unfold scene_of.
  destruct (get_text (s "SceneContent") k); reflexivity.
Qed.

(** IDs that survive the file *)
Definition storable_ids (t : str) (l : option (list str)) : Prop := forall a, In a (refs_in l) -> out t (Some a) = Some a.

Lemma G_keep_opt : forall t v k k1 k' k1', leaf1 t k -> findall t k1 = eff_opt t v (findall t k) -> R k k' -> R k1 k1' ->
  leaf1 t k1 /\ get_text t k1' = keep out t v (get_text t k').
Proof.
  intros t v k k1 k' k1' L E H0 H1. destruct (eff_opt_leaf out out_nil t v k k1 L E) as [L1 G1].
  split; [exact L1|]. rewrite (get_text_G out t k k' H0 L), (get_text_G out t k1 k1' H1 L1). exact G1.
Qed.

Lemma G_keep_some : forall t v k k1 k' k1', leaf1 t k -> findall t k1 = eff_some t v (findall t k) -> R k k' -> R k1 k1' ->
  leaf1 t k1 /\ get_text t k1' = keep out t v (get_text t k').
Proof.
  intros t v k k1 k' k1' L E H0 H1. destruct (eff_some_leaf out t v k k1 L E) as [L1 G1].
  split; [exact L1|]. rewrite (get_text_G out t k k' H0 L), (get_text_G out t k1 k1' H1 L1). exact G1.
Qed.

Lemma export_roundtrip : forall d k, uniq (s "ExportWhenRTF") k ->
  uniq (s "ExportWhenRTF") (build_scene_export d k) /\
  read_doNotExport (build_scene_export d k) = match d with Some b => b | None => read_doNotExport k end.
Proof.
  intros [[|]|] k U; unfold build_scene_export, read_doNotExport; [| |split; [exact U | reflexivity]].
  - set (k1 := if has (s "ExportCondSpecific") k then k else sub (s "ExportCondSpecific") None k).
    assert (E1 : findall (s "ExportWhenRTF") k1 = findall (s "ExportWhenRTF") k).
    { unfold k1. destruct (has _ k); [reflexivity|]. rewrite !findall_filt. peel. reflexivity. }
    assert (E2 : has (s "ExportCondSpecific") k1 = true).
    { unfold k1. destruct (has (s "ExportCondSpecific") k) eqn:E; [exact E|]. rewrite has_findall, findall_sub. destruct (findall (s "ExportCondSpecific") k); reflexivity. }
    assert (E3 : findall (s "ExportWhenRTF") (remove (s "ExportWhenRTF") k1) = []).
    { rewrite findall_remove, E1. destruct U as [U | [e U]]; rewrite U; reflexivity. }
    assert (E4 : has (s "ExportCondSpecific") (remove (s "ExportWhenRTF") k1) = true).
    { rewrite has_findall in *. replace (findall (s "ExportCondSpecific") (remove (s "ExportWhenRTF") k1)) with (findall (s "ExportCondSpecific") k1); [exact E2|].
      symmetry. rewrite !findall_filt. peel. reflexivity. }
    split; [left; exact E3|]. rewrite E4, (has_findall (s "ExportWhenRTF")), E3. reflexivity.
  - destruct (has (s "ExportCondSpecific") k) eqn:E1, (has (s "ExportWhenRTF") k) eqn:E2; cbn [andb negb];
      rewrite ?E1, ?E2; try (split; [exact U | reflexivity]).
    assert (E3 : findall (s "ExportWhenRTF") (sub (s "ExportWhenRTF") (Some (s "-1")) k) = [leaf (s "ExportWhenRTF") (Some (s "-1"))]).
    { rewrite has_findall in E2. rewrite findall_sub. destruct (findall (s "ExportWhenRTF") k); [reflexivity | discriminate]. }
    split; [right; eexists; exact E3|]. rewrite (has_findall (s "ExportWhenRTF")), E3. rewrite andb_false_r. reflexivity.
Qed.

Lemma build_scene_export_tags : forall x k k1, build_scene x k = Ok k1 ->
  exists k0, (forall t, In t [s "ExportCondSpecific"; s "ExportWhenRTF"] -> findall t k0 = findall t k) /\
  forall t, In t [s "ExportCondSpecific"; s "ExportWhenRTF"] -> findall t k1 = findall t (build_scene_export (sc_doNotExport x) k0).
Proof.
  intros x k k1 H. apply build_scene_inv in H. destruct H as (p & ka & kb & _ & Ha & Hs & ->). subst ka.
  eexists. split.
  2:{ intros t [<- | [<- | []]]; rewrite !findall_filt; peel; reflexivity. }
  intros t [<- | [<- | []]]; rewrite !findall_filt; peel; reflexivity.
Qed.

Lemma read_doNotExport_congr : forall k k', (forall t, In t [s "ExportCondSpecific"; s "ExportWhenRTF"] -> findall t k = findall t k') ->
  read_doNotExport k = read_doNotExport k'.
Proof.
  intros k k' H. unfold read_doNotExport. rewrite !has_findall, !H by (cbn; tauto). reflexivity.
Qed.

Lemma read_doNotExport_R : forall k k', R k k' -> read_doNotExport k' = read_doNotExport k.
Proof. intros k k' H. unfold read_doNotExport. rewrite !(R_has out _ _ _ H). reflexivity. Qed.

(** the start tags are only touched by build_scene_start *)
Lemma build_scene_start_tags : forall x k k1, build_scene x k = Ok k1 ->
  exists ka kb, build_scene_start (sc_date x) (sc_time x) (sc_day x) ka = Ok kb /\
  (forall t, In t [s "SpecificDateTime"; s "Day"; s "Hour"; s "Minute"] -> findall t ka = findall t k) /\
  (forall t, In t [s "SpecificDateTime"; s "Day"; s "Hour"; s "Minute"] -> findall t k1 = findall t kb).
Proof.
  intros x k k1 H. apply build_scene_inv in H. destruct H as (p & ka & kb & _ & Ha & Hs & ->). subst ka.
  eexists. exists kb. split; [exact Hs|]. split.
  - intros t [<- | [<- | [<- | [<- | []]]]]; rewrite !findall_filt; peel; reflexivity.
  - intros t [<- | [<- | [<- | [<- | []]]]]; rewrite !findall_filt; peel; reflexivity.
Qed.

(** every tree comes back somehow *)
Fixpoint settle (e : elem) : elem :=
  match e with
  | Elem t x [] => Elem t (out t x) []
  | Elem t x k => Elem t (if YwText.blank x then None else out t x) (map settle k)
  end.
Lemma settle_settled : forall e, settled out e (settle e).
Proof.
  fix IH 1. intros [t x [|a k]]; [constructor|].
  change (settle (Elem t x (a :: k))) with (Elem t (if YwText.blank x then None else out t x) (settle a :: map settle k)).
  constructor; [|unfold node_text; destruct (YwText.blank x); [left | right]; split; [reflexivity | exact I | reflexivity | reflexivity]]. constructor; [apply IH|].
  induction k as [|b k IHk]; [constructor|]. cbn [map]. constructor; [apply IH | exact IHk].
Qed.
Lemma R_settle : forall k, R k (map settle k).
Proof. induction k as [|e k IH]; [constructor|]. cbn [map]. constructor; [apply settle_settled | exact IH]. Qed.

Lemma start_wf_congr : forall k k', (forall t, In t [s "SpecificDateTime"; s "Day"; s "Hour"; s "Minute"] -> findall t k' = findall t k) ->
  start_wf k -> start_wf k'.
Proof.
  intros k k' E (L1 & L2 & L3 & L4 & L5). unfold start_wf, leaf1 in *. rewrite !E by (cbn; tauto). auto.
Qed.

Lemma read_start_congr : forall ext k1 k2 k1' k2',
  (forall t, In t [s "SpecificDateTime"; s "Day"; s "Hour"; s "Minute"] -> findall t k2 = findall t k1) ->
  start_wf k1 -> R k1 k1' -> R k2 k2' -> read_start ext k2' = read_start ext k1'.
Proof.
  intros ext k1 k2 k1' k2' E W R1 R2. pose proof (start_wf_congr _ _ E W) as W2.
  destruct W as (L1 & L2 & L3 & L4 & _), W2 as (M1 & M2 & M3 & M4 & _).
  rewrite !read_start_rs, !(find_text_FT out _ k1 k1' R1), !(find_text_FT out _ k2 k2' R2) by assumption.
  rewrite !E by (cbn; tauto). reflexivity.
Qed.

Theorem scene_roundtrip : forall ext cs ls is x old k0 k0' k1 k2',
  scene_wf k0 -> R k0 k0' -> read_scene ext cs ls is k0' = Ok old ->
  build_scene x k0 = Ok k1 -> R (finish_kids (sc_content x) k1) k2' ->
  start_ok (sc_date x) (sc_time x) (sc_day x) ->
  storable_ids (s "CharID") (sc_characters x) -> storable_ids (s "LocID") (sc_locations x) ->
  read_scene ext cs ls is k2' = Ok (merged_scene cs ls x old) /\ scene_wf (finish_kids (sc_content x) k1).
Proof.
  intros ext cs ls is x old k0 k0' k1 k2' (WL & WU & WF & WS) R0 Hold Hb R2 Hst Hcs Hls.
  set (k2 := finish_kids (sc_content x) k1) in *.
  assert (HF : forall t, smem t [s "BelongsToChID"; s "RTFFile"; s "LetterCount"; s "WordCount"; s "SceneContent"] = false -> findall t k2 = findall t k1).
  { intros t Ht. unfold k2. unfold smem in Ht. cbn [existsb] in Ht. rewrite !orb_false_iff in Ht. destruct Ht as (H1 & H2 & H3 & H4 & H5 & _).
    rewrite findall_finish; [rewrite H5; reflexivity|]. unfold smem. cbn [existsb]. rewrite H1, H2, H3, H4. reflexivity. }
  rewrite read_scene_of in Hold. apply bind_ok in Hold. destruct Hold as [st [Hst0 Hold]]. apply bind_ok in Hold. destruct Hold as [start [Hs0 Hold]].
  injection Hold as <-.
  (* texts *)
  assert (Htx : forall t v, In (t, v) (scene_texts x) -> leaf1 t k2 /\ get_text t k2' = keep out t v (get_text t k0')).
  { intros t v Hin. apply (G_keep_opt t v k0 k2); try assumption.
    - apply WL. unfold scene_texts, scene_leaf_tags in *. cbn [In] in Hin |- *.
      repeat match type of Hin with _ \/ _ => destruct Hin as [Hin | Hin] | False => destruct Hin end; injection Hin as <- <-; tauto.
    - rewrite HF; [apply (build_scene_texts x k0 k1 Hb t v Hin)|].
      unfold scene_texts in *. cbn [In] in Hin.
      repeat match type of Hin with _ \/ _ => destruct Hin as [Hin | Hin] | False => destruct Hin end; injection Hin as <- <-; reflexivity. }
  assert (Hti : leaf1 (s "Title") k2 /\ get_text (s "Title") k2' = keep out (s "Title") (sc_title x) (get_text (s "Title") k0')).
  { apply (G_keep_some _ _ k0 k2); try assumption; [apply WL; cbn; tauto|]. rewrite HF by reflexivity. apply build_scene_title. exact Hb. }
  assert (Hco : leaf1 (s "SceneContent") k2 /\ get_text (s "SceneContent") k2' = keep out (s "SceneContent") (sc_content x) (get_text (s "SceneContent") k0')).
  { assert (L0 : leaf1 (s "SceneContent") k0) by (apply WL; cbn; tauto).
    assert (E : findall (s "SceneContent") k2 = match sc_content x with
        | Some v => [leaf (s "SceneContent") (Some v)] | None => match findall (s "SceneContent") k0 with [] => [leaf (s "SceneContent") None] | l => l end end).
    { unfold k2. rewrite findall_finish by reflexivity. rewrite str_eqb_refl. rewrite (build_scene_content x k0 k1 Hb).
      destruct (sc_content x) as [v|]; destruct L0 as [L0 | [y L0]]; rewrite L0; reflexivity. }
    assert (L2 : leaf1 (s "SceneContent") k2).
    { unfold leaf1. rewrite E. destruct (sc_content x); destruct L0 as [L0 | [y L0]]; rewrite ?L0; eauto. }
    split; [exact L2|]. rewrite (get_text_G out _ k0 k0' R0 L0), (get_text_G out _ k2 k2' R2 L2). unfold G. rewrite E.
    destruct (sc_content x) as [v|]; [reflexivity|]. cbn [keep]. destruct L0 as [L0 | [y L0]]; rewrite L0; [apply out_None | reflexivity]. }
  assert (Hta : leaf1 (s "Tags") k2 /\ get_text (s "Tags") k2' = keep out (s "Tags") (tags_text (sc_tags x)) (get_text (s "Tags") k0')).
  { assert (L0 : leaf1 (s "Tags") k0) by (apply WL; cbn; tauto).
    destruct (build_scene_tags x k0 k1 Hb) as (k3 & E1 & E2).
    assert (L3 : leaf1 (s "Tags") k3) by (unfold leaf1; rewrite E1; exact L0).
    rewrite <- (HF (s "Tags") eq_refl) in E2.
    destruct (put_tags_leaf out out_nil (sc_tags x) k3 k2 L3 E2) as [L2 G2].
    split; [exact L2|]. rewrite (get_text_G out _ k0 k0' R0 L0), (get_text_G out _ k2 k2' R2 L2), G2. f_equal. apply G_congr. exact E1. }
  (* status *)
  assert (Hsu : leaf1 (s "Status") k2 /\ read_status k2' = Ok (match sc_status x with Some z => Some z | None => st end)).
  { assert (L0 : leaf1 (s "Status") k0) by (apply WL; cbn; tauto).
    pose proof (build_scene_status x k0 k1 Hb) as E. rewrite <- (HF (s "Status") eq_refl) in E.
    destruct (eff_some_leaf out _ _ _ _ L0 E) as [L2 _]. split; [exact L2|].
    unfold read_status in *. rewrite (find_text_FT out _ k2 k2' R2 L2), E. rewrite (find_text_FT out _ k0 k0' R0 L0) in Hst0.
    destruct (sc_status x) as [z|]; cbn [option_map eff_some].
    - assert (Hz : FT out (s "Status") (match findall (s "Status") k0 with [] => [leaf (s "Status") (Some (str_of_Z z))] | e :: l' => with_text (Some (str_of_Z z)) e :: l' end) = Some (Some (str_of_Z z))).
      { destruct L0 as [L0 | [y L0]]; rewrite L0; cbn [FT leaf with_text e_text]; rewrite out_safe by apply str_of_Z_safe; reflexivity. }
      rewrite Hz. rewrite parse_int_str_of_Z. reflexivity.
    - exact Hst0. }
  (* flags *)
  destruct (build_scene_inv x k0 k1 Hb) as (p & _ & _ & Hp & _).
  assert (Hfl : forall t b, In (t, b) (scene_flags x (fst p)) -> uniq t k2 /\ has t k2' = b).
  { intros t b Hin. pose proof (build_scene_flags x k0 k1 p Hb Hp t b Hin) as E.
    assert (Hu : uniq t k0 /\ findall t k2 = findall t k1).
    { unfold scene_flags in Hin. cbn [In] in Hin.
      repeat match type of Hin with _ \/ _ => destruct Hin as [Hin | Hin] | False => destruct Hin end; injection Hin as <- <-;
        (split; [apply WU; cbn; tauto | apply HF; reflexivity]). }
    destruct Hu as [U0 E2]. rewrite <- E2 in E. destruct (has_uniq_flag t b k0 k2 U0 E) as [U2 H2].
    split; [exact U2|]. rewrite (R_has out t k2 k2' R2). exact H2. }
  (* export *)
  destruct (build_scene_export_tags x k0 k1 Hb) as (k3 & E3 & E4).
  assert (Hex : uniq (s "ExportWhenRTF") k2 /\ read_doNotExport k2' = match sc_doNotExport x with Some b => b | None => read_doNotExport k0' end).
  { assert (U3 : uniq (s "ExportWhenRTF") k3) by (unfold uniq; rewrite E3 by (cbn; tauto); apply WU; cbn; tauto).
    destruct (export_roundtrip (sc_doNotExport x) k3 U3) as [U4 D4].
    assert (E5 : forall t, In t [s "ExportCondSpecific"; s "ExportWhenRTF"] -> findall t k2 = findall t (build_scene_export (sc_doNotExport x) k3)).
    { intros t Ht. rewrite HF; [apply E4; exact Ht|]. destruct Ht as [<- | [<- | []]]; reflexivity. }
    split; [unfold uniq; rewrite E5 by (cbn; tauto); exact U4|].
    rewrite (read_doNotExport_R k2 k2' R2), (read_doNotExport_congr _ _ E5), D4.
    rewrite (read_doNotExport_R k0 k0' R0), (read_doNotExport_congr _ _ E3). reflexivity. }
  (* start *)
  assert (Hsr : start_wf k2 /\ read_start ext k2' = Ok (new_start (sc_date x) (sc_time x) (sc_day x) start)).
  { destruct (build_scene_start_tags x k0 k1 Hb) as (ka & kb & Hab & Ea & Eb).
    assert (E2 : forall t, In t [s "SpecificDateTime"; s "Day"; s "Hour"; s "Minute"] -> findall t k2 = findall t kb).
    { intros t Ht. rewrite HF; [apply Eb; exact Ht|]. destruct Ht as [<- | [<- | [<- | [<- | []]]]]; reflexivity. }
    pose proof (start_wf_congr _ _ Ea WS) as Wa.
    destruct (start_roundtrip out out_safe ext _ _ _ ka kb (map settle kb) (map settle ka) start Wa Hst Hab (R_settle ka) (R_settle kb)) as [Hr Wb].
    { rewrite (read_start_congr ext k0 ka k0' (map settle ka) Ea WS R0 (R_settle ka)). exact Hs0. }
    split; [exact (start_wf_congr _ _ E2 Wb)|]. rewrite (read_start_congr ext kb k2 (map settle kb) k2' E2 Wb (R_settle kb) R2). exact Hr. }
  (* references *)
  destruct (build_scene_refs x k0 k1 Hb) as (Ec & El & Ei).
  rewrite <- (HF (s "Characters") eq_refl) in Ec. rewrite <- (HF (s "Locations") eq_refl) in El. rewrite <- (HF (s "Items") eq_refl) in Ei.
  assert (Htl : forall t, In t [s "Characters"; s "Locations"; s "Items"] -> tl (findall t k0) = []).
  { intros t Ht. assert (U : uniq t k0) by (apply WU; cbn in Ht |- *; tauto). destruct U as [U | [e U]]; rewrite U; reflexivity. }
  rewrite Htl in Ec by (cbn; tauto). rewrite Htl in El by (cbn; tauto). rewrite Htl in Ei by (cbn; tauto). cbn [app] in Ec, El, Ei.
  assert (Hrc : read_refs (s "Characters") (s "CharID") cs k2' = refs_out cs (sc_characters x)).
  { unfold refs_out. apply (read_refs_settled (s "Characters") (s "CharID") cs (sc_characters x) k2 k2'); [reflexivity | exact Ec | exact R2 | exact Hcs]. }
  assert (Hrl : read_refs (s "Locations") (s "LocID") ls k2' = refs_out ls (sc_locations x)).
  { unfold refs_out. apply (read_refs_settled (s "Locations") (s "LocID") ls (sc_locations x) k2 k2'); [reflexivity | exact El | exact R2 | exact Hls]. }
  assert (Hri : read_refs (s "Items") (s "ItemID") is k2' = None).
  { unfold read_refs. rewrite find_findall. pose proof (R_findall out (s "Items") _ _ R2) as Hi. rewrite Ei in Hi.
    destruct (sc_items x) as [[|a l]|]; [inversion Hi; reflexivity | | inversion Hi; reflexivity].
    inversion Hi as [|e0 y l0 l0' He Hnil]; subst. cbn [hd_error].
    pose proof (settled_tag out _ _ He) as Ht. cbn [e_tag] in Ht. apply settled_kids in He. cbn [e_kids] in He.
    assert (Hn : iter (s "ItemID") y = []).
    { destruct y as [u z ks]. cbn [e_tag e_kids] in *. subst u. cbn [iter].
      change (str_eqb (s "Items") (s "ItemID")) with false. cbn [app].
      assert (Hgo : forall M ks, R (map (fun a => leaf (s "ItmID") (Some a)) M) ks -> flat_map (iter (s "ItemID")) ks = []).
      { induction M as [|b M IH]; intros ks0 H0; inversion H0 as [|? ? ? ? Hb0 Hr0]; subst; [reflexivity|].
        cbn [flat_map]. rewrite (IH _ Hr0). inversion Hb0; subst. reflexivity. }
      exact (Hgo (a :: l) ks He). }
    rewrite Hn. reflexivity. }
  (* fields *)
  destruct (build_scene_fields x k0 k1 p Hb Hp (proj1 WF)) as (UF1 & Ety & Ekw).
  assert (EF : findall (s "Fields") k2 = findall (s "Fields") k1) by (apply HF; reflexivity).
  assert (UF2 : uniq (s "Fields") k2) by exact (uniq_congr _ _ _ EF UF1).
  assert (WF2 : fields_wf scene_field_names k2).
  { split; [exact UF2|]. intros F HFF f Hf.
    assert (Hg : fget f k2 = findall f (e_kids F)) by (unfold fget; rewrite HFF; reflexivity).
    assert (L0 : fget f k0 = [] \/ exists y, fget f k0 = [leaf f y]).
    { unfold fget. destruct WF as [U0 HW]. destruct U0 as [U0 | [F0 U0]]; rewrite U0 in *; [left; reflexivity|]. apply (HW F0 eq_refl f Hf). }
    unfold leaf1. rewrite <- Hg, (fget_congr f _ _ EF).
    destruct Hf as [<- | Hf].
    - rewrite Ety. destruct (snd p); destruct L0 as [L0 | [y L0]]; rewrite L0; first [left; reflexivity | right; eexists; reflexivity].
    - rewrite (Ekw f Hf). unfold eff_kw. destruct (get_kw f (sc_kw x)) as [[|c v]|]; destruct L0 as [L0 | [y L0]]; rewrite L0; first [left; reflexivity | right; eexists; reflexivity]. }
  assert (Hkw : read_kws SCN_KWVAR k2' [] = map (fun f => (f, kw_out f (sc_kw x))) SCN_KWVAR).
  { rewrite (read_kws_settled SCN_KWVAR scene_field_names k2 k2'); [|repeat constructor; cbn; intuition discriminate | intros f Hf; right; exact Hf | exact WF2 | exact R2].
    apply map_ext_in. intros f Hf. f_equal. apply (eff_kw_FG f (sc_kw x) k0 k2 scene_field_names WF); [right; exact Hf|].
    rewrite (fget_congr f _ _ EF). apply Ekw. exact Hf. }
  assert (Hty : read_scene_type k2' = type_or_0 (sc_type x)).
  { unfold read_scene_type. rewrite (proj2 (Hfl (s "Unused") (fst p) (or_introl eq_refl))).
    assert (Hft : fold_left (fun t fields => match find_text (s "Field_SceneType") (e_kids fields) with
             | Some (Some y) => if str_eqb y (s "1") then 1%N else if str_eqb y (s "2") then 2%N else t | _ => t end)
             (findall (s "Fields") k2') 0%N = match snd p with Some y => if str_eqb y (s "1") then 1%N else if str_eqb y (s "2") then 2%N else 0%N | None => 0%N end).
    { pose proof (R_findall out (s "Fields") _ _ R2) as HRF. unfold fget in Ety. rewrite <- EF in Ety. 
      destruct WF as [U0 HW].
      assert (L0 : match findall (s "Fields") k0 with [] => [] | F0 :: _ => findall (s "Field_SceneType") (e_kids F0) end = [] \/
                   exists y, match findall (s "Fields") k0 with [] => [] | F0 :: _ => findall (s "Field_SceneType") (e_kids F0) end = [leaf (s "Field_SceneType") y]).
      { destruct U0 as [U0 | [F0 U0]]; rewrite U0 in *; [left; reflexivity|]. apply (HW F0 eq_refl). left. reflexivity. }
      destruct UF2 as [UF2 | [F2 UF2]]; rewrite UF2 in *.
      - inversion HRF. cbn [fold_left]. destruct (snd p) as [y|] eqn:Ep; [|reflexivity].
        exfalso. destruct L0 as [L0 | [z L0]]; rewrite L0 in Ety; discriminate Ety.
      - inversion HRF as [|? F2' ? ? He Hnil]; subst. inversion Hnil; subst. cbn [fold_left].
        rewrite (find_text_FT out (s "Field_SceneType") (e_kids F2) (e_kids F2')); [|apply settled_kids; exact He | apply (proj2 WF2 F2 UF2); left; reflexivity].
        rewrite Ety. clear -Hp L0 out_None out_safe.
        assert (Hy : forall y, snd p = Some y -> safe y).
        { intros y Hy. unfold scene_type_code in Hp. repeat match type of Hp with (if ?b then _ else _) = _ => destruct b end;
            try discriminate Hp; injection Hp as <-; try discriminate Hy; injection Hy as <-; (split; [discriminate | reflexivity]). }
        destruct (snd p) as [y|]; destruct L0 as [L0 | [z L0]]; rewrite L0; cbn [tl FT with_text leaf e_text]; rewrite ?out_safe by (apply Hy; reflexivity); try reflexivity. }
    rewrite Hft. clear -Hp. unfold scene_type_code in Hp. set (ty := type_or_0 (sc_type x)) in *. clearbody ty.
    destruct (N.eqb ty 0) eqn:E0; [injection Hp as <-; apply N.eqb_eq in E0; subst; reflexivity|].
    destruct (N.eqb ty 1) eqn:E1; [injection Hp as <-; apply N.eqb_eq in E1; subst; reflexivity|].
    destruct (N.eqb ty 2) eqn:E2; [injection Hp as <-; apply N.eqb_eq in E2; subst; reflexivity|].
    destruct (N.eqb ty 3) eqn:E3; [injection Hp as <-; apply N.eqb_eq in E3; subst; reflexivity | discriminate Hp]. }
  assert (Hrt : read_tags k2' = match sc_tags x with Some _ => tags_in (out (s "Tags") (tags_text (sc_tags x))) | None => read_tags k0' end).
  { unfold read_tags. rewrite (proj2 Hta). unfold tags_text. destruct (sc_tags x) as [l|]; cbn [option_map keep]; [|reflexivity].
    unfold tags_in. destruct (out _ _); reflexivity. }
  split.
  - rewrite read_scene_of, (proj2 Hsu), (proj2 Hsr). cbn [bind]. f_equal. unfold scene_of at 1, merged_scene.
    cbn [sc_title sc_desc sc_kw sc_content sc_type sc_doNotExport sc_status sc_notes sc_tags sc_field1 sc_field2 sc_field3 sc_field4 sc_appendToPrev
      sc_isReactionScene sc_isSubPlot sc_goal sc_conflict sc_outcome sc_date sc_time sc_day sc_lastsMinutes sc_lastsHours sc_lastsDays sc_image scene_of].
    clear - Hti Hco Hkw Hty Hex Hrt Hrc Hrl Hri Htx Hfl.
    rewrite (proj2 Hti), (proj2 Hco), Hkw, Hty, (proj2 Hex), Hrt, Hrc, Hrl, Hri.
    rewrite (proj2 (Htx (s "Desc") _ ltac:(cbn [scene_texts In]; tauto))), (proj2 (Htx (s "Notes") _ ltac:(cbn [scene_texts In]; tauto))),
      (proj2 (Htx (s "Field1") _ ltac:(cbn [scene_texts In]; tauto))), (proj2 (Htx (s "Field2") _ ltac:(cbn [scene_texts In]; tauto))),
      (proj2 (Htx (s "Field3") _ ltac:(cbn [scene_texts In]; tauto))), (proj2 (Htx (s "Field4") _ ltac:(cbn [scene_texts In]; tauto))),
      (proj2 (Htx (s "LastsDays") _ ltac:(cbn [scene_texts In]; tauto))), (proj2 (Htx (s "LastsHours") _ ltac:(cbn [scene_texts In]; tauto))),
      (proj2 (Htx (s "LastsMinutes") _ ltac:(cbn [scene_texts In]; tauto))), (proj2 (Htx (s "Goal") _ ltac:(cbn [scene_texts In]; tauto))),
      (proj2 (Htx (s "Conflict") _ ltac:(cbn [scene_texts In]; tauto))), (proj2 (Htx (s "Outcome") _ ltac:(cbn [scene_texts In]; tauto))),
      (proj2 (Htx (s "ImageFile") _ ltac:(cbn [scene_texts In]; tauto))).
    rewrite (proj2 (Hfl (s "AppendToPrev") _ ltac:(cbn [scene_flags In]; tauto))), (proj2 (Hfl (s "ReactionScene") _ ltac:(cbn [scene_flags In]; tauto))),
      (proj2 (Hfl (s "SubPlot") _ ltac:(cbn [scene_flags In]; tauto))).
    destruct start as [[d0 t0] y0]. cbn [fst snd].
    replace (Some (match sc_doNotExport x with Some b => b | None => read_doNotExport k0' end))
      with (match sc_doNotExport x with Some b => Some b | None => Some (read_doNotExport k0') end) by (destruct (sc_doNotExport x); reflexivity).
    reflexivity.
  - split; [|split; [|split; [exact WF2 | exact (proj1 Hsr)]]].
    + intros t Ht. unfold scene_leaf_tags in Ht. cbn [In] in Ht.
      repeat match type of Ht with _ \/ _ => destruct Ht as [Ht | Ht] | False => destruct Ht end; subst t;
        first [exact (proj1 Hti) | exact (proj1 Hco) | exact (proj1 Hta) | exact (proj1 Hsu) |
               match goal with |- leaf1 ?t _ => exact (proj1 (Htx t _ ltac:(cbn [scene_texts In]; tauto))) end].
    + intros t Ht. unfold scene_uniq_tags in Ht. cbn [In] in Ht.
      repeat match type of Ht with _ \/ _ => destruct Ht as [Ht | Ht] | False => destruct Ht end; subst t;
        first [exact (proj1 Hex) | match goal with |- uniq ?t _ => exact (proj1 (Hfl t _ ltac:(cbn [scene_flags In]; tauto))) end | idtac].
      * unfold uniq. rewrite Ec. destruct (sc_characters x) as [[|]|]; eauto.
      * unfold uniq. rewrite El. destruct (sc_locations x) as [[|]|]; eauto.
      * unfold uniq. rewrite Ei. destruct (sc_items x) as [[|]|]; eauto.
Qed.
End S.
