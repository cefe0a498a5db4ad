(** Facts about reading project files that do not depend on how they were written. *)
From Coq Require Import String List NArith ZArith Bool Lia Arith.
From Verif Require Import PyStr PyDict Spec Globals NovelModel NovelOps YwTree IsoDate Yw7Build Yw7Read YwTreeProofs Yw7SceneProofs Yw7SceneRT Yw7ChapterRT
  Yw7ElemRT Yw7ListRT Yw7TreeInv Yw7ProjRT Yw7SecRT Yw7TreeRT YwText YwTextProofs SpecYw7 SpecText Yw7Clean.
Import ListNotations.

Lemma first_text_get : forall t k, first_text t k = get_text t k.
Proof. intros t k. unfold first_text, get_text. rewrite find_findall. unfold findall. destruct (filter _ k); reflexivity. Qed.
Lemma tag_present_has : forall t k, tag_present t k = has t k.
Proof. intros t k. unfold tag_present, has. induction k as [|e k IH]; [reflexivity|]. cbn [existsb find]. destruct (str_eqb (e_tag e) t); [reflexivity | exact IH]. Qed.
Lemma present_text_find : forall t k, present_text t k = find_text t k.
Proof. intros t k. unfold present_text, find_text. rewrite find_findall. unfold findall. destruct (filter _ k); reflexivity. Qed.
Lemma read_id_text : forall e i, read_id e = Ok i -> first_text (s "ID") (e_kids e) = Some i.
Proof.
  intros e i H. rewrite first_text_get. unfold read_id in H. unfold get_text. destruct (find (s "ID") (e_kids e)) as [x|]; [|discriminate].
  destruct (e_text x); [injection H as ->; reflexivity | discriminate].
Qed.

Lemma foldM_dset : forall {A} (rd : elem -> res A) es d d',
  foldM (fun d e => do i <- read_id e; do x <- rd e; Ok (dset i x d)) es d = Ok d' ->
  forall i, (forall e, In e es -> first_text (s "ID") (e_kids e) <> Some i) -> dget i d' = dget i d.
Proof.
  intros A rd es. induction es as [|e es IH]; intros d d' H i Hi; cbn [foldM] in H; [injection H as <-; reflexivity|].
  apply bind_ok in H. destruct H as (d1 & H1 & H). apply bind_ok in H1. destruct H1 as (j & Hj & H1). apply bind_ok in H1. destruct H1 as (x & Hx & H1). injection H1 as <-.
  rewrite (IH _ _ H i) by (intros e' He'; apply Hi; right; exact He'). apply dget_dset_other. intros ->. apply (Hi e (or_introl eq_refl)). apply read_id_text. exact Hj.
Qed.
Lemma foldM_dict : forall {A} (rd : elem -> res A) es d d', unique_ids es ->
  foldM (fun d e => do i <- read_id e; do x <- rd e; Ok (dset i x d)) es d = Ok d' ->
  forall e i, In e es -> first_text (s "ID") (e_kids e) = Some i -> exists x, rd e = Ok x /\ dget i d' = Some x.
Proof.
  intros A rd es. induction es as [|e0 es IH]; intros d d' U H e i He Hi; [destruct He|]. cbn [foldM] in H.
  apply bind_ok in H. destruct H as (d1 & H1 & H). apply bind_ok in H1. destruct H1 as (j & Hj & H1). apply bind_ok in H1. destruct H1 as (x & Hx & H1). injection H1 as <-.
  inversion U as [|? ? Hni U']; subst. destruct He as [<- | He].
  - apply read_id_text in Hj. rewrite Hj in Hi. injection Hi as ->. exists x. split; [exact Hx|]. rewrite (foldM_dset rd es _ _ H); [apply dget_dset_same|].
    intros e He E. apply Hni. rewrite Hj, <- E. apply in_map with (f := fun e => first_text (s "ID") (e_kids e)). exact He.
  - exact (IH _ _ U' H e i He Hi).
Qed.
Lemma read_into_dict : forall {A} (rd : list elem -> A) es a d st, read_into rd es (a, d) = Ok st ->
  foldM (fun d e => do i <- read_id e; do x <- Ok (rd (e_kids e)); Ok (dset i x d)) es d = Ok (snd st) /\
  Forall2 (fun e i => first_text (s "ID") (e_kids e) = Some i) es (skipn (length a) (fst st)) /\ firstn (length a) (fst st) = a.
Proof.
  intros A rd es. unfold read_into. induction es as [|e es IH]; intros a d st H; cbn [foldM] in H.
  - injection H as <-. cbn [fst snd]. rewrite skipn_all, firstn_all. repeat constructor.
  - apply bind_ok in H. destruct H as (st1 & H1 & H). apply bind_ok in H1. destruct H1 as (i & Hi & H1). injection H1 as <-. cbn [fst snd] in *.
    destruct (IH _ _ _ H) as (A1 & A2 & A3). cbn [foldM]. rewrite Hi. cbn [bind]. split; [exact A1|].
    rewrite app_length in A2, A3. cbn [List.length] in A2, A3. rewrite Nat.add_1_r in A2, A3.
    assert (E : fst st = (a ++ [i]) ++ skipn (S (List.length a)) (fst st)) by (rewrite <- A3 at 1; symmetry; apply firstn_skipn).
    rewrite E. rewrite <- app_assoc. rewrite skipn_app, skipn_all, Nat.sub_diag. cbn [skipn app]. rewrite firstn_app, firstn_all, Nat.sub_diag. cbn [firstn]. rewrite app_nil_r.
    split; [|reflexivity]. constructor; [apply read_id_text; exact Hi | exact A2].
Qed.

Definition only_type (x y : scene) : Prop := exists t, y = set_sc_type t x.
Lemma only_type_refl : forall x, only_type x x.
Proof. intro x. exists (sc_type x). destruct x. reflexivity. Qed.
Lemma only_type_set : forall x y t, only_type x y -> only_type x (set_sc_type t y).
Proof. intros x y t [u ->]. exists t. destruct x. reflexivity. Qed.
Definition types_only (d d' : dict scene) : Prop := forall i, match dget i d, dget i d' with Some x, Some y => only_type x y | None, None => True | _, _ => False end.
Lemma types_only_refl : forall d, types_only d d.
Proof. intros d i. destruct (dget i d); [apply only_type_refl | exact I]. Qed.
Lemma adjust_types : forall n n', adjust_scene_types n = Ok n' -> n' = set_nv_scenes (nv_scenes n') n /\ types_only (nv_scenes n) (nv_scenes n').
Proof.
  intros n n' H. unfold adjust_scene_types in H. apply bind_ok in H. destruct H as (scs & H & E). injection E as <-. split; [destruct n; reflexivity|].
  change (nv_scenes (set_nv_scenes scs n)) with scs. pose proof (types_only_refl (nv_scenes n)) as T0. set (d0 := nv_scenes n) in * at 1.
  assert (G : forall ids d d', types_only d0 d -> foldM (fun scs chId => do c <- dindex chId (nv_chapters n);
              match ch_type c with
              | Some 0%N => Ok scs
              | t => foldM (fun scs scId => do x <- dindex scId scs; Ok (dset scId (set_sc_type t x) scs)) (ch_srtScenes c) scs
              end) ids d = Ok d' -> types_only d0 d').
  { assert (In1 : forall (t : option N) ids d d', types_only d0 d -> foldM (fun scs scId => do x <- dindex scId scs; Ok (dset scId (set_sc_type t x) scs)) ids d = Ok d' -> types_only d0 d').
    { intros t ids. induction ids as [|j ids IH]; intros d d' T Hf; cbn [foldM] in Hf; [injection Hf as <-; exact T|].
      apply bind_ok in Hf. destruct Hf as (d1 & H1 & Hf). apply (IH d1 d'); [|exact Hf]. apply bind_ok in H1. destruct H1 as (x & Hx & H1). injection H1 as <-.
      unfold dindex in Hx. destruct (dget j d) as [y|] eqn:Ey; [|discriminate]. injection Hx as ->. intro i. rewrite dget_dset. destruct (str_eqb i j) eqn:E; [|exact (T i)].
      apply str_eqb_eq in E. subst i. pose proof (T j) as Tj. rewrite Ey in Tj. destruct (dget j d0); [apply only_type_set; exact Tj | exact Tj]. }
    intros ids. induction ids as [|j ids IH]; intros d d' T Hf; cbn [foldM] in Hf; [injection Hf as <-; exact T|].
    apply bind_ok in Hf. destruct Hf as (d1 & H1 & Hf). apply (IH d1 d'); [|exact Hf]. apply bind_ok in H1. destruct H1 as (c & Hc & H1).
    destruct (ch_type c) as [[|p]|]; [injection H1 as <-; exact T | exact (In1 _ _ _ _ T H1) | exact (In1 _ _ _ _ T H1)]. }
  exact (G _ _ _ T0 H).
Qed.

Lemma entries_find : forall t r e, find t r = Some e -> entries t r = e_kids e.
Proof. intros t r e H. unfold entries. rewrite find_findall in H. unfold findall in H. destruct (filter _ r); [discriminate|]. injection H as ->. reflexivity. Qed.

Lemma map_dget : forall (f : scene -> scene) (d : dict scene) i, dget i (map (fun p => (fst p, f (snd p))) d) = option_map f (dget i d).
Proof. intros f d i. induction d as [|[j x] d IH]; [reflexivity|]. cbn [map dget fst snd]. destruct (str_eqb i j); [reflexivity | exact IH]. Qed.

Definition raw_scenes (ext : str -> option (str * str)) (cs ls is : list str) (es : list elem) : res (dict scene) :=
  foldM (fun d e => do i <- read_id e; do x <- read_scene ext cs ls is (e_kids e); Ok (dset i x d)) es [].

Lemma read_pv_frame : forall es n, exists l c ls, read_projectvars es n = set_nv_languages ls (set_nv_countryCode c (set_nv_languageCode l n)).
Proof.
  induction es as [|e es IH]; intro n; cbn [read_projectvars].
  - exists (nv_languageCode n), (nv_countryCode n), (nv_languages n). destruct n. reflexivity.
  - assert (K : exists l c ls, n = set_nv_languages ls (set_nv_countryCode c (set_nv_languageCode l n))) by (exists (nv_languageCode n), (nv_countryCode n), (nv_languages n); destruct n; reflexivity).
    assert (S : forall n1, (exists l c ls, n1 = set_nv_languages ls (set_nv_countryCode c (set_nv_languageCode l n))) -> exists l c ls, read_projectvars es n1 = set_nv_languages ls (set_nv_countryCode c (set_nv_languageCode l n))).
    { intros n1 (l & c & ls & ->). destruct (IH (set_nv_languages ls (set_nv_countryCode c (set_nv_languageCode l n)))) as (l2 & c2 & ls2 & ->). exists l2, c2, ls2. destruct n. reflexivity. }
    destruct (find (s "Title") (e_kids e)) as [te|]; [|apply S; exact K]. destruct (e_text te) as [title|]; [|exact K].
    destruct (str_eqb title (s "Language")); [apply S; match goal with |- exists l c ls, set_nv_languageCode ?v n = _ => exists v end; exists (nv_countryCode n), (nv_languages n); destruct n; reflexivity|].
    destruct (str_eqb title (s "Country")); [apply S; exists (nv_languageCode n); match goal with |- exists c ls, set_nv_countryCode ?v n = _ => exists v end; exists (nv_languages n); destruct n; reflexivity|].
    destruct (prefixb (s "lang=") title); [|apply S; exact K].
    destruct (split (s "=") title) as [|a [|b [|c l]]]; try (apply S; exact K). apply S. exists (nv_languageCode n), (nv_countryCode n). match goal with |- exists ls, set_nv_languages ?v n = _ => exists v end. destruct n; reflexivity.
Qed.

(** the parts of a project read into a new novel *)
Record read_parts (ext : str -> option (str * str)) (r : list elem) (n' : novel) : Prop := {
  rp_project : exists p, find (s "PROJECT") r = Some p /\ forall t f, In (t, f) project_text_fields -> f n' = get_text t (e_kids p);
  rp_locations : exists e, find (s "LOCATIONS") r = Some e /\ read_into (read_world LOC_KWVAR) (e_kids e) ([], []) = Ok (nv_srtLocations n', nv_locations n');
  rp_items : exists e, find (s "ITEMS") r = Some e /\ read_into (read_world ITM_KWVAR) (e_kids e) ([], []) = Ok (nv_srtItems n', nv_items n');
  rp_characters : exists e, find (s "CHARACTERS") r = Some e /\ read_into read_character (e_kids e) ([], []) = Ok (nv_srtCharacters n', nv_characters n');
  rp_scenes : exists e scs, find (s "SCENES") r = Some e /\ raw_scenes ext (nv_srtCharacters n') (nv_srtLocations n') (nv_srtItems n') (e_kids e) = Ok scs /\
     (exists c, find (s "CHAPTERS") r = Some c /\ read_into (read_chapter scs) (e_kids c) ([], []) = Ok (nv_srtChapters n', nv_chapters n')) /\
     forall i, match dget i scs, dget i (nv_scenes n') with Some x, Some y => exists ty, y = custom_vars (set_sc_type ty x) | None, None => True | _, _ => False end
}.

Ltac unstep := repeat match goal with E : ?n = _ |- context [?n] => is_var n; rewrite E; clear E;
  repeat match goal with
  | |- context [if otruthy ?a then _ else _] => destruct (otruthy a)
  | |- context [match find ?t ?k with Some _ => set_nv_wordTarget _ _ | None => _ end] => destruct (find t k)
  | |- context [match find ?t ?k with Some _ => set_nv_wordCountStart _ _ | None => _ end] => destruct (find t k) end;
  cbn [nv_title nv_desc nv_kw nv_authorName nv_authorBio nv_fieldTitle1 nv_fieldTitle2 nv_fieldTitle3 nv_fieldTitle4 nv_wordTarget nv_wordCountStart nv_chapters nv_scenes nv_languages nv_srtChapters nv_locations nv_srtLocations nv_items nv_srtItems nv_characters nv_srtCharacters nv_projectNotes nv_srtPrjNotes nv_languageCode nv_countryCode set_nv_title set_nv_desc set_nv_kw set_nv_authorName set_nv_authorBio set_nv_fieldTitle1 set_nv_fieldTitle2 set_nv_fieldTitle3 set_nv_fieldTitle4 set_nv_wordTarget set_nv_wordCountStart set_nv_chapters set_nv_scenes set_nv_languages set_nv_srtChapters set_nv_locations set_nv_srtLocations set_nv_items set_nv_srtItems set_nv_characters set_nv_srtCharacters set_nv_projectNotes set_nv_srtPrjNotes set_nv_languageCode set_nv_countryCode new_novel] end.
Theorem read_tree_parts : forall ext r n', read_tree ext r new_novel = Ok n' -> read_parts ext r n'.
Proof.
  intros ext r n' H. unfold read_tree in H.
  apply bind_ok in H. destruct H as (n1 & HP & H).
  assert (P1 : (exists p, find (s "PROJECT") r = Some p /\ forall t f, In (t, f) project_text_fields -> f n1 = get_text t (e_kids p)) /\
     nv_locations n1 = [] /\ nv_items n1 = [] /\ nv_characters n1 = [] /\ nv_chapters n1 = [] /\ nv_scenes n1 = [] /\ nv_projectNotes n1 = []).
  { cbv beta delta [read_project] in HP. set (fp := find (s "PROJECT") r) in *. clearbody fp. destruct fp as [p|]; [|discriminate HP].
    cbv iota in HP.
    match type of HP with (let x := ?v in @?f x) = ?R => remember v as k eqn:Ek in HP; change (f k = R) in HP; cbv beta in HP end.
    repeat match type of HP with (let x := ?v in @?f x) = ?R => let y := fresh "m" in let E := fresh "E" in
      remember v as y eqn:E in HP; change (f y = R) in HP; cbv beta in HP end.
    injection HP as HP.
    split; [exists p; split; [reflexivity|]; rewrite <- Ek; intros t f Hf; repeat (destruct Hf as [Hf | Hf]; [injection Hf as <- <-; rewrite <- HP; clear HP; unstep; unfold get_text, text_or; reflexivity|]); destruct Hf
           | repeat split; rewrite <- HP; clear HP; unstep; reflexivity]. }
  clear HP. destruct P1 as ((p & Hp & Htx) & Z1 & Z2 & Z3 & Z4 & Z5 & Z6).
  apply bind_ok in H. destruct H as ([sL dL] & HL & H). rewrite Z1 in HL.
  apply bind_ok in H. destruct H as ([sI dI] & HI & H). cbn [fst snd] in H, HI.
  change (nv_items (set_nv_locations dL (set_nv_srtLocations sL n1))) with (nv_items n1) in HI. rewrite Z2 in HI.
  apply bind_ok in H. destruct H as ([sC dC] & HC & H). cbn [fst snd] in H, HC.
  match type of HC with read_list _ _ _ (nv_characters ?x) = _ => change (nv_characters x) with (nv_characters n1) in HC end. rewrite Z3 in HC.
  match type of H with context [match find (s "PROJECTVARS") r with Some e => read_projectvars (e_kids e) ?x | None => ?x end] =>
    assert (PV : exists l c ls, match find (s "PROJECTVARS") r with Some e => read_projectvars (e_kids e) x | None => x end = set_nv_languages ls (set_nv_countryCode c (set_nv_languageCode l x)));
    [destruct (find (s "PROJECTVARS") r) as [e|]; [apply read_pv_frame | exists (nv_languageCode n1), (nv_countryCode n1), (nv_languages n1); destruct n1; reflexivity]|];
    destruct PV as (pl & pc & pls & PV); rewrite PV in H; clear PV end.
  match type of H with context [set_nv_projectNotes (snd ?a) (set_nv_srtPrjNotes (fst ?a) _)] => generalize dependent a; intros [sN dN]; intros H end.
  cbn [fst snd] in H.
  apply bind_ok in H. destruct H as (n2 & HS & H). unfold read_scenes in HS.
  destruct (find (s "SCENES") r) as [eS|] eqn:FS; [|discriminate]. apply bind_ok in HS. destruct HS as (scs & HS & E). injection E as <-.
  match type of HS with foldM _ _ (nv_scenes ?x) = _ => change (nv_scenes x) with (nv_scenes n1) in HS;
     change (nv_srtCharacters x) with sC in HS; change (nv_srtLocations x) with sL in HS; change (nv_srtItems x) with sI in HS end. rewrite Z5 in HS.
  apply bind_ok in H. destruct H as ([sH dH] & HH & H). cbn [fst snd] in H.
  match type of HH with read_list _ (read_chapter (nv_scenes ?x)) _ (nv_chapters ?x) = _ => change (nv_scenes x) with scs in HH; change (nv_chapters x) with (nv_chapters n1) in HH end. rewrite Z4 in HH.
  apply bind_ok in H. destruct H as (n3 & HA & H). injection H as <-.
  destruct (adjust_types _ _ HA) as [EA TA]. 
  match type of TA with types_only (nv_scenes ?x) _ => change (nv_scenes x) with scs in TA end.
  assert (X : forall {A} t (rd : list elem -> A) a d, read_list t rd r [] = Ok (a, d) -> exists e, find t r = Some e /\ read_into rd (e_kids e) ([], []) = Ok (a, d)).
  { intros A t rd a d Hr. unfold read_list in Hr. destruct (find t r) as [e|]; [|discriminate]. exists e. split; [reflexivity | exact Hr]. }
  constructor.
  - exists p. split; [exact Hp|]. intros t f Hf. rewrite <- (Htx t f Hf). rewrite EA. repeat (destruct Hf as [Hf | Hf]; [injection Hf as <- <-; reflexivity|]). destruct Hf.
  - destruct (X _ _ _ _ _ HL) as (e & E1 & E2). exists e. split; [exact E1|]. rewrite EA. exact E2.
  - destruct (X _ _ _ _ _ HI) as (e & E1 & E2). exists e. split; [exact E1|]. rewrite EA. exact E2.
  - destruct (X _ _ _ _ _ HC) as (e & E1 & E2). exists e. split; [exact E1|]. rewrite EA. exact E2.
  - exists eS, scs. split; [exact FS|]. split; [rewrite EA; exact HS|]. split.
    + destruct (X _ _ _ _ _ HH) as (e & E1 & E2). exists e. split; [exact E1|]. rewrite EA. exact E2.
    + intro i. change (nv_scenes (set_nv_scenes ?d ?n)) with d. cbn [nv_scenes set_nv_scenes]. rewrite map_dget. specialize (TA i). destruct (dget i scs) as [x|], (dget i (nv_scenes n3)) as [y|]; try exact TA.
      destruct TA as [ty ->]. exists ty. reflexivity.
Qed.
