(** Round trip of the project data and the project variables (languages). *)
From Coq Require Import String List NArith ZArith Bool Lia Arith.
From Verif Require Import PyStr PyDict Globals GlobalsProofs WordCount NovelModel NovelOps YwTree IsoDate Yw7Build Yw7Read YwTreeProofs Yw7SceneProofs Yw7StartProofs Yw7SceneRT Yw7ListRT Yw7TreeInv.
Import ListNotations.

(** ** The project variables: only three attributes of the novel are touched *)
Definition pvs := (option str * option str * option (list str))%type.
Fixpoint read_pv (es : list elem) (st : pvs) : pvs :=
  match es with
  | [] => st
  | e :: es' =>
      let k := e_kids e in
      let '(lc, cc, ls) := st in
      match find (s "Title") k with
      | None => read_pv es' st
      | Some te =>
          match e_text te with
          | None => st
          | Some title =>
              if str_eqb title (s "Language") then read_pv es' (text_or (s "Desc") k lc, cc, ls)
              else if str_eqb title (s "Country") then read_pv es' (lc, text_or (s "Desc") k cc, ls)
              else if prefixb (s "lang=") title then
                match split (s "=") title with
                | [_; code] => read_pv es' (lc, cc, Some (match ls with Some l => l | None => [] end ++ [code]))
                | _ => read_pv es' st
                end
              else read_pv es' st
          end
      end
  end.
Definition set_pv (st : pvs) (n : novel) : novel :=
  set_nv_languages (snd st) (set_nv_countryCode (snd (fst st)) (set_nv_languageCode (fst (fst st)) n)).

Lemma read_projectvars_pv : forall es n, read_projectvars es n = set_pv (read_pv es (nv_languageCode n, nv_countryCode n, nv_languages n)) n.
Proof.
  induction es as [|e es IH]; intro n; [destruct n; reflexivity|]. cbn [read_projectvars read_pv].
  destruct (find (s "Title") (e_kids e)) as [te|]; [|apply IH].
  destruct (e_text te) as [title|]; [|destruct n; reflexivity].
  destruct (str_eqb title (s "Language")); [rewrite IH; destruct n; reflexivity|].
  destruct (str_eqb title (s "Country")); [rewrite IH; destruct n; reflexivity|].
  destruct (prefixb (s "lang=") title); [|apply IH].
  destruct (split (s "=") title) as [|x [|code [|? ?]]]; try apply IH. rewrite IH. destruct n; reflexivity.
Qed.

Lemma Forall2_len : forall {A B} (P : A -> B -> Prop) a b, Forall2 P a b -> length a = length b.
Proof. intros A B P a b H. induction H; [reflexivity | cbn; f_equal; assumption]. Qed.

(** language code of a variable with title t *)
Definition lang_of (title : str) : list str :=
  if prefixb (s "lang=") title then match split (s "=") title with [_; code] => [code] | _ => [] end else [].

Section S.
Variable out : str -> option str -> option str.
Hypothesis out_None : forall t, out t None = None.
Hypothesis out_nil : forall t, out t (Some []) = None.
Hypothesis out_safe : forall t v, safe v -> out t (Some v) = Some v.
Notation R := (Forall2 (settled out)).

(** ** PROJECT *)
Definition project_leaf_tags : list str :=
  [s "Title"; s "Desc"; s "AuthorName"; s "Bio"; s "FieldTitle1"; s "FieldTitle2"; s "FieldTitle3"; s "FieldTitle4";
   s "WordCountStart"; s "WordTarget"].
Definition project_wf (k : list elem) : Prop :=
  (forall t, In t project_leaf_tags -> leaf1 t k) /\ fields_wf PRJ_KWVAR k.

Definition project_texts (n : novel) : list (str * option str) :=
  [(s "Title", nv_title n); (s "Desc", nv_desc n); (s "AuthorName", nv_authorName n); (s "Bio", nv_authorBio n);
   (s "FieldTitle1", nv_fieldTitle1 n); (s "FieldTitle2", nv_fieldTitle2 n); (s "FieldTitle3", nv_fieldTitle3 n);
   (s "FieldTitle4", nv_fieldTitle4 n); (s "WordCountStart", option_map str_of_Z (nv_wordCountStart n));
   (s "WordTarget", option_map str_of_Z (nv_wordTarget n))].

Lemma build_project_texts : forall n k t v, In (t, v) (project_texts n) -> findall t (build_project n k) = eff_some t v (findall t k).
Proof.
  intros n k t v H. unfold project_texts in H. cbn [In] in H. unfold build_project.
  repeat (destruct H as [H | H]; [injection H as <- <-; rewrite !findall_filt; peel; rewrite <- !findall_filt, findall_put_some; f_equal; rewrite !findall_filt; peel; reflexivity|]).
  destruct H.
Qed.

Lemma prj_nodup : NoDup PRJ_KWVAR.
Proof. repeat constructor; cbn; intuition discriminate. Qed.

Lemma mk_fields_makes : makes_fields mk_fields.
Proof. unfold makes_fields, mk_fields. intros k H. rewrite findall_sub, H. reflexivity. Qed.

Lemma build_project_fields : forall n k, fields_wf PRJ_KWVAR k ->
  get_kw (s "Field_LanguageCode") (nv_kw n) = None -> get_kw (s "Field_CountryCode") (nv_kw n) = None ->
  uniq (s "Fields") (build_project n k) /\ forall f, In f PRJ_KWVAR -> fget f (build_project n k) = [].
Proof.
  intros n k [U HF] K1 K2. unfold build_project.
  match goal with |- context [put_kws mk_fields PRJ_KWVAR (nv_kw n) ?a] => set (ka := a) end.
  assert (E : findall (s "Fields") ka = findall (s "Fields") k) by (unfold ka; rewrite !findall_filt; peel; reflexivity).
  assert (Ua : uniq (s "Fields") ka) by (unfold uniq; rewrite E; exact U).
  destruct (put_kws_fields mk_fields PRJ_KWVAR (nv_kw n) ka mk_fields_makes prj_nodup Ua) as [U1 FG].
  assert (E2 : findall (s "Fields") (remove (s "SavedOn") (remove (s "SavedWith") (put_kws mk_fields PRJ_KWVAR (nv_kw n) ka))) =
               findall (s "Fields") (put_kws mk_fields PRJ_KWVAR (nv_kw n) ka)).
  { rewrite !findall_filt. rewrite !filt_remove by reflexivity. reflexivity. }
  split; [unfold uniq; rewrite E2; exact U1|].
  intros f Hf. rewrite (fget_congr f _ _ E2), FG. rewrite (proj2 (smem_In f PRJ_KWVAR) Hf).
  assert (Hk : get_kw f (nv_kw n) = None) by (cbn [PRJ_KWVAR In] in Hf; destruct Hf as [<- | [<- | []]]; assumption).
  unfold eff_kw. rewrite Hk. rewrite (fget_congr f _ _ E). unfold fget.
  destruct U as [U | [F U]]; rewrite U; [reflexivity|].
  destruct (HF F U f Hf) as [H | [x H]]; rewrite H; reflexivity.
Qed.

Lemma build_project_wf : forall n k, project_wf k ->
  get_kw (s "Field_LanguageCode") (nv_kw n) = None -> get_kw (s "Field_CountryCode") (nv_kw n) = None -> project_wf (build_project n k).
Proof.
  intros n k [HL HF] K1 K2. split.
  - intros t Ht.
    assert (exists v, In (t, v) (project_texts n)) as [v Hv].
    { cbn [project_leaf_tags In] in Ht. unfold project_texts. cbn [In].
      repeat (destruct Ht as [<- | Ht]; [eexists; eauto 12|]). destruct Ht. }
    apply (eff_some_leaf out t v k); [apply HL; exact Ht | apply build_project_texts; exact Hv].
  - destruct (build_project_fields n k HF K1 K2) as [U HG]. split; [exact U|].
    intros F HF2 f Hf. specialize (HG f Hf). unfold fget in HG. rewrite HF2 in HG. left. exact HG.
Qed.

(** the project data read from the children of PROJECT *)
Definition int_of (t : str) (k : list elem) : option Z := match find t k with Some e => Some (int_or_0 (e_text e)) | None => None end.

Lemma text_or_get : forall t k, text_or t k None = get_text t k.
Proof. reflexivity. Qed.

Definition field_code (f : str) (kw : dict (option str)) : option str := if otruthy (get_kw f kw) then get_kw f kw else None.

Definition project_novel (k : list elem) : novel :=
  mkNovel (get_text (s "Title") k) (get_text (s "Desc") k) (read_kws PRJ_KWVAR k []) (get_text (s "AuthorName") k) (get_text (s "Bio") k)
    (get_text (s "FieldTitle1") k) (get_text (s "FieldTitle2") k) (get_text (s "FieldTitle3") k) (get_text (s "FieldTitle4") k)
    (int_of (s "WordTarget") k) (int_of (s "WordCountStart") k) [] [] None [] [] [] [] [] [] [] [] []
    (field_code (s "Field_LanguageCode") (read_kws PRJ_KWVAR k [])) (field_code (s "Field_CountryCode") (read_kws PRJ_KWVAR k [])).

Lemma if_lc : forall (b : bool) v n, (if b then set_nv_languageCode v n else n) = set_nv_languageCode (if b then v else nv_languageCode n) n.
Proof. intros [|] v n; [reflexivity | destruct n; reflexivity]. Qed.
Lemma if_cc : forall (b : bool) v n, (if b then set_nv_countryCode v n else n) = set_nv_countryCode (if b then v else nv_countryCode n) n.
Proof. intros [|] v n; [reflexivity | destruct n; reflexivity]. Qed.

Lemma read_project_is : forall r k, sec (s "PROJECT") r = Some k -> read_project r new_novel = Ok (project_novel k).
Proof.
  intros r k H. unfold sec in H. cbv beta delta [read_project]. set (fp := find (s "PROJECT") r) in *. clearbody fp. destruct fp as [p|]; [|discriminate H].
  injection H as Hk. cbv iota. cbv beta delta [project_novel field_code int_of].
  match goal with |- (let x := ?v in @?f x) = ?R => change (f v = R); cbv beta end. rewrite Hk. clear Hk p.
  repeat (match goal with |- (let x := ?v in @?f x) = ?R =>
      let v' := eval cbv beta iota delta [nv_title nv_desc nv_kw nv_authorName nv_authorBio nv_fieldTitle1 nv_fieldTitle2 nv_fieldTitle3 nv_fieldTitle4 nv_wordTarget nv_wordCountStart nv_chapters nv_scenes nv_languages nv_srtChapters nv_locations nv_srtLocations nv_items nv_srtItems nv_characters nv_srtCharacters nv_projectNotes nv_srtPrjNotes nv_languageCode nv_countryCode set_nv_title set_nv_desc set_nv_kw set_nv_authorName set_nv_authorBio set_nv_fieldTitle1 set_nv_fieldTitle2 set_nv_fieldTitle3 set_nv_fieldTitle4 set_nv_wordTarget set_nv_wordCountStart set_nv_chapters set_nv_scenes set_nv_languages set_nv_srtChapters set_nv_locations set_nv_srtLocations set_nv_items set_nv_srtItems set_nv_characters set_nv_srtCharacters set_nv_projectNotes set_nv_srtPrjNotes set_nv_languageCode set_nv_countryCode new_novel] in v in change (f v' = R); cbv beta end;
    try match goal with
      | |- (let x := match find ?t ?k with Some _ => _ | None => _ end in _) = _ => destruct (find t k)
      | |- (let x := if otruthy ?a then _ else _ in _) = _ => change a with (get_kw (s "Field_LanguageCode") (read_kws PRJ_KWVAR k [])); destruct (otruthy (get_kw (s "Field_LanguageCode") (read_kws PRJ_KWVAR k [])))
    end).
  all: cbv zeta; repeat match goal with |- context [if otruthy ?a then _ else _] => destruct (otruthy a) end; reflexivity.
Qed.

Lemma int_of_settled : forall t z k k1 k' k1', leaf1 t k -> findall t k1 = eff_some t (option_map str_of_Z z) (findall t k) -> R k k' -> R k1 k1' ->
  int_of t k1' = match z with Some v => Some v | None => int_of t k' end.
Proof.
  intros t z k k1 k' k1' L E H0 H1. unfold int_of. rewrite !find_findall.
  apply (R_findall out t) in H0. apply (R_findall out t) in H1. rewrite E in H1. clear E. destruct z as [z|]; cbn [option_map eff_some] in H1.
  - assert (H2 : R [leaf t (Some (str_of_Z z))] (findall t k1')).
    { destruct L as [L | [x L]]; rewrite L in H1; exact H1. }
    inversion H2 as [|? e ? ? He Hn]; subst. inversion He; subst. cbn [hd_error e_text].
    rewrite out_safe by apply str_of_Z_safe. cbn [int_or_0]. rewrite parse_int_str_of_Z. reflexivity.
  - destruct L as [L | [x L]]; rewrite L in H0, H1; inversion H0 as [|? e ? ? He Hn]; inversion H1 as [|? e1 ? ? He1 Hn1]; subst; [reflexivity|].
    inversion He; subst. inversion He1; subst. reflexivity.
Qed.

(** the project data after writing: what was assigned, or the old value *)
Definition stored_project (n old : novel) : novel :=
  mkNovel (keep out (s "Title") (nv_title n) (nv_title old)) (keep out (s "Desc") (nv_desc n) (nv_desc old))
    (map (fun f => (f, None)) PRJ_KWVAR)
    (keep out (s "AuthorName") (nv_authorName n) (nv_authorName old)) (keep out (s "Bio") (nv_authorBio n) (nv_authorBio old))
    (keep out (s "FieldTitle1") (nv_fieldTitle1 n) (nv_fieldTitle1 old)) (keep out (s "FieldTitle2") (nv_fieldTitle2 n) (nv_fieldTitle2 old))
    (keep out (s "FieldTitle3") (nv_fieldTitle3 n) (nv_fieldTitle3 old)) (keep out (s "FieldTitle4") (nv_fieldTitle4 n) (nv_fieldTitle4 old))
    (match nv_wordTarget n with Some z => Some z | None => nv_wordTarget old end)
    (match nv_wordCountStart n with Some z => Some z | None => nv_wordCountStart old end)
    [] [] None [] [] [] [] [] [] [] [] [] None None.

Theorem project_roundtrip : forall n k k' k1', project_wf k -> R k k' -> R (build_project n k) k1' ->
  get_kw (s "Field_LanguageCode") (nv_kw n) = None -> get_kw (s "Field_CountryCode") (nv_kw n) = None ->
  project_novel k1' = stored_project n (project_novel k').
Proof.
  intros n k k' k1' [HL HF] H0 H1 K1 K2.
  assert (HT : forall t v, In (t, v) (project_texts n) -> In t project_leaf_tags -> get_text t k1' = keep out t v (get_text t k')).
  { intros t v Hv Ht. apply (G_keep_some out t v k (build_project n k)); [apply HL; exact Ht | apply build_project_texts; exact Hv | exact H0 | exact H1]. }
  assert (HK : read_kws PRJ_KWVAR k1' [] = map (fun f => (f, None)) PRJ_KWVAR).
  { destruct (build_project_wf n k (conj HL HF) K1 K2) as [_ HF1].
    rewrite (read_kws_settled out PRJ_KWVAR PRJ_KWVAR _ _ prj_nodup (incl_refl _) HF1 H1).
    apply map_ext_in. intros f Hf. f_equal. unfold FG. destruct (build_project_fields n k HF K1 K2) as [_ HG]. rewrite (HG f Hf). reflexivity. }
  unfold project_novel at 1. cbv zeta. rewrite HK.
  change (field_code (s "Field_LanguageCode") (map (fun f => (f, None)) PRJ_KWVAR)) with (@None str).
  change (field_code (s "Field_CountryCode") (map (fun f => (f, None)) PRJ_KWVAR)) with (@None str).
  unfold stored_project.
  assert (HW : int_of (s "WordCountStart") k1' = match nv_wordCountStart n with Some z => Some z | None => int_of (s "WordCountStart") k' end).
  { apply (int_of_settled _ _ k (build_project n k)); [apply HL; cbn; tauto | apply build_project_texts; cbn; tauto | exact H0 | exact H1]. }
  assert (HG : int_of (s "WordTarget") k1' = match nv_wordTarget n with Some z => Some z | None => int_of (s "WordTarget") k' end).
  { apply (int_of_settled _ _ k (build_project n k)); [apply HL; cbn; tauto | apply build_project_texts; cbn; tauto | exact H0 | exact H1]. }
  rewrite HW, HG.
  rewrite (HT (s "Title") (nv_title n)), (HT (s "Desc") (nv_desc n)), (HT (s "AuthorName") (nv_authorName n)), (HT (s "Bio") (nv_authorBio n)),
    (HT (s "FieldTitle1") (nv_fieldTitle1 n)), (HT (s "FieldTitle2") (nv_fieldTitle2 n)), (HT (s "FieldTitle3") (nv_fieldTitle3 n)), (HT (s "FieldTitle4") (nv_fieldTitle4 n))
    by (cbn; tauto).
  reflexivity.
Qed.

(** ** PROJECTVARS *)
(** a variable: one title that survives the file, at most one description *)
Definition var_ok (title : str) (e : elem) : Prop :=
  e_tag e = s "PROJECTVAR" /\ findall (s "Title") (e_kids e) = [leaf (s "Title") (Some title)] /\ leaf1 (s "Desc") (e_kids e) /\
  out (s "Title") (Some title) = Some title.
Definition vars_wf (k : list elem) (titles : list str) : Prop := Forall2 var_ok titles k.

(** reading one variable *)
Definition pv_step (title : str) (desc : option (option str)) (st : pvs) : pvs :=
  let '(lc, cc, ls) := st in
  if str_eqb title (s "Language") then (match desc with Some d => d | None => lc end, cc, ls)
  else if str_eqb title (s "Country") then (lc, match desc with Some d => d | None => cc end, ls)
  else (lc, cc, match lang_of title with [] => ls | l => Some (match ls with Some l0 => l0 | None => [] end ++ l) end).

Definition desc_of (e : elem) : option (option str) := option_map (fun d => out (s "Desc") (e_text d)) (hd_error (findall (s "Desc") (e_kids e))).

Lemma read_pv_settled : forall titles k, vars_wf k titles -> forall k' st, R k k' ->
  read_pv k' st = fold_left (fun st p => pv_step (fst p) (desc_of (snd p)) st) (combine titles k) st.
Proof.
  intros titles k H. induction H as [|t e titles k He H IH]; intros k' st HR; inversion HR as [|? e' ? k2 Hs Hr]; subst; [reflexivity|].
  cbn [read_pv combine fold_left fst snd]. destruct st as [[lc cc] ls]. destruct He as (_ & Ht & Hd & Ho).
  pose proof (settled_kids out _ _ Hs) as HK.
  assert (Ht' : find (s "Title") (e_kids e') = Some (leaf (s "Title") (Some t))).
  { pose proof (R_findall out (s "Title") _ _ HK) as HT. rewrite Ht in HT. rewrite find_findall.
    destruct (findall (s "Title") (e_kids e')) as [|y l]; inversion HT as [|? ? ? ? Hy Hn]; subst. inversion Hy; subst.
    cbn [hd_error]. unfold leaf. rewrite Ho. reflexivity. }
  rewrite Ht'. cbn [leaf e_text].
  assert (Hd' : forall old, text_or (s "Desc") (e_kids e') old = match desc_of e with Some d => d | None => old end).
  { intro old. unfold text_or, desc_of. rewrite find_findall. pose proof (R_findall out (s "Desc") _ _ HK) as HD.
    destruct Hd as [Hd | [x Hd]]; rewrite Hd in HD |- *; inversion HD as [|? y ? ? Hy Hn]; subst; [reflexivity|].
    inversion Hy; subst. reflexivity. }
  unfold pv_step. destruct (str_eqb t (s "Language")); [rewrite Hd'; apply IH; exact Hr|].
  destruct (str_eqb t (s "Country")); [rewrite Hd'; apply IH; exact Hr|].
  unfold lang_of. destruct (prefixb (s "lang=") t); [|apply IH; exact Hr].
  destruct (split (s "=") t) as [|a [|b [|c l]]]; apply IH; exact Hr.
Qed.

(** languages listed in the variables *)
Definition var_langs (titles : list str) : list str := flat_map lang_of titles.
Definition langs_opt (l : list str) : option (list str) := match l with [] => None | _ => Some l end.
Definition add_langs (ls : option (list str)) (l : list str) : option (list str) :=
  match l with [] => ls | l' => Some (match ls with Some l0 => l0 | None => [] end ++ l') end.
Lemma add_langs_app : forall ls a b, add_langs (add_langs ls a) b = add_langs ls (a ++ b).
Proof.
  intros ls a b. destruct a as [|x a]; [reflexivity|]. destruct b as [|y b]; [cbn; rewrite app_nil_r; reflexivity|].
  cbn. rewrite <- app_assoc. reflexivity.
Qed.

(** all Language variables have description d, all Country variables have description c *)
Definition descs_are (d c : option str) (p : str * elem) : Prop :=
  (fst p = s "Language" -> desc_of (snd p) = Some d) /\ (fst p = s "Country" -> desc_of (snd p) = Some c).

Lemma lang_of_title : forall t, str_eqb t (s "Language") = true \/ str_eqb t (s "Country") = true -> lang_of t = [].
Proof. intros t [H | H]; apply str_eqb_eq in H; subst t; reflexivity. Qed.

Lemma fold_pv : forall d c l lc cc ls, Forall (descs_are d c) l ->
  fold_left (fun st p => pv_step (fst p) (desc_of (snd p)) st) l (lc, cc, ls) =
  (if smem (s "Language") (map fst l) then d else lc, if smem (s "Country") (map fst l) then c else cc, add_langs ls (var_langs (map fst l))).
Proof.
  intros d c l. induction l as [|[t e] l IH]; intros lc cc ls HF; [reflexivity|]. inversion HF as [|? ? [H1 H2] HF']; subst.
  cbn [fold_left fst snd map] in *. unfold smem. cbn [existsb]. fold (smem (s "Language") (map fst l)). fold (smem (s "Country") (map fst l)).
  unfold pv_step. cbn [fst snd]. rewrite (str_eqb_sym (s "Language") t), (str_eqb_sym (s "Country") t).
  destruct (str_eqb t (s "Language")) eqn:E1.
  - apply str_eqb_eq in E1. subst t. rewrite (H1 eq_refl). change (str_eqb (s "Language") (s "Country")) with false. cbn [orb].
    rewrite IH by exact HF'. destruct (smem (s "Language") (map fst l)); reflexivity.
  - cbn [orb]. destruct (str_eqb t (s "Country")) eqn:E2.
    + apply str_eqb_eq in E2. subst t. rewrite (H2 eq_refl). cbn [orb].
      rewrite IH by exact HF'. destruct (smem (s "Country") (map fst l)); reflexivity.
    + cbn [orb]. rewrite IH by exact HF'. 
      change (var_langs (t :: map fst l)) with (lang_of t ++ var_langs (map fst l)). rewrite <- add_langs_app.
      unfold add_langs at 3. destruct (lang_of t); reflexivity.
Qed.

(** one scan step *)
Lemma scan_step : forall n st e st1 e1 t, scan_projectvar n st e = Ok (st1, e1) -> var_ok t e ->
  var_ok t e1 /\ descs_are (out (s "Desc") (nv_languageCode n)) (out (s "Desc") (nv_countryCode n)) (t, e1) /\
  ps_langs st1 = fold_left (fun l c => remove_str c l) (lang_of t) (ps_langs st) /\
  ps_hasLang st1 = (str_eqb t (s "Language") || ps_hasLang st)%bool /\ ps_hasCountry st1 = (str_eqb t (s "Country") || ps_hasCountry st)%bool.
Proof.
  intros n st e st1 e1 t H (V1 & V2 & V3 & V4). unfold scan_projectvar in H. rewrite V1 in H. change (negb (str_eqb (s "PROJECTVAR") (s "PROJECTVAR"))) with false in H. cbv iota in H.
  rewrite (find_findall (s "Title")), V2 in H. cbn [hd_error leaf e_text] in H.
  destruct (find (s "ID") (e_kids e)) as [i|]; [|discriminate].
  assert (Hd : forall v, leaf1 (s "Desc") (e_kids (on_kids (set_text (s "Desc") v) e)) /\ findall (s "Title") (e_kids (on_kids (set_text (s "Desc") v) e)) = findall (s "Title") (e_kids e)).
  { intro v. destruct e as [et ex ek]. unfold on_kids, with_kids. cbn [e_kids]. split.
    - cbn [e_kids] in V3. unfold leaf1. rewrite findall_set_text. destruct V3 as [-> | [x ->]]; [left; reflexivity | right; eexists; reflexivity].
    - rewrite !findall_filt. apply filt_set_text. reflexivity. }
  assert (Hdesc : forall v, has (s "Desc") (e_kids e) = true -> desc_of (on_kids (set_text (s "Desc") v) e) = Some (out (s "Desc") v)).
  { intros v Hh. unfold desc_of. destruct e as [et ex ek]. unfold on_kids, with_kids. cbn [e_kids] in *. rewrite findall_set_text. rewrite has_findall in Hh.
    destruct (findall (s "Desc") ek) as [|d l]; [discriminate|]. destruct d. reflexivity. }
  unfold lang_of. destruct (prefixb (s "lang=") t) eqn:Ep.
  - assert (N1 : str_eqb t (s "Language") = false) by (destruct (str_eqb t (s "Language")) eqn:E; [apply str_eqb_eq in E; subst t; discriminate | reflexivity]).
    assert (N2 : str_eqb t (s "Country") = false) by (destruct (str_eqb t (s "Country")) eqn:E; [apply str_eqb_eq in E; subst t; discriminate | reflexivity]).
    rewrite N1, N2. cbn [orb].
    assert (HD : forall e0, descs_are (out (s "Desc") (nv_languageCode n)) (out (s "Desc") (nv_countryCode n)) (t, e0)).
    { intro e0. split; cbn [fst]; intros ->; [discriminate N1 | discriminate N2]. }
    destruct (split (s "=") t) as [|a [|b [|c l]]]; injection H as <- <-; (split; [split; [exact V1 | split; [exact V2 | split; [exact V3 | exact V4]]]|]);
      (split; [apply HD|]); repeat split; reflexivity.
  - destruct (str_eqb t (s "Language")) eqn:E1.
    + destruct (has (s "Desc") (e_kids e)) eqn:Eh; [|discriminate]. injection H as <- <-. apply str_eqb_eq in E1. subst t.
      destruct (Hd (nv_languageCode n)) as [D1 D2].
      split; [split; [destruct e; exact V1 | split; [rewrite D2; exact V2 | split; [exact D1 | exact V4]]]|].
      split; [split; cbn [fst snd]; intro E; [apply Hdesc; reflexivity | discriminate E]|]. repeat split; reflexivity.
    + destruct (str_eqb t (s "Country")) eqn:E2.
      * destruct (has (s "Desc") (e_kids e)) eqn:Eh; [|discriminate]. injection H as <- <-. apply str_eqb_eq in E2. subst t.
        destruct (Hd (nv_countryCode n)) as [D1 D2].
        split; [split; [destruct e; exact V1 | split; [rewrite D2; exact V2 | split; [exact D1 | exact V4]]]|].
        split; [split; cbn [fst snd]; intro E; [discriminate E | apply Hdesc; reflexivity]|]. repeat split; reflexivity.
      * injection H as <- <-. split; [split; [exact V1 | split; [exact V2 | split; [exact V3 | exact V4]]]|].
        split; [split; cbn [fst]; intros ->; [discriminate E1 | discriminate E2]|]. repeat split; reflexivity.
Qed.

Lemma scan_all : forall n titles k, vars_wf k titles -> forall st st1 k1, scan_projectvars n st k = Ok (st1, k1) ->
  vars_wf k1 titles /\ Forall (descs_are (out (s "Desc") (nv_languageCode n)) (out (s "Desc") (nv_countryCode n))) (combine titles k1) /\
  ps_langs st1 = fold_left (fun l c => remove_str c l) (var_langs titles) (ps_langs st) /\
  ps_hasLang st1 = (smem (s "Language") titles || ps_hasLang st)%bool /\ ps_hasCountry st1 = (smem (s "Country") titles || ps_hasCountry st)%bool.
Proof.
  intros n titles k H. induction H as [|t e titles k He H IH]; intros st st1 k1 Hs; cbn [scan_projectvars] in Hs.
  - injection Hs as <- <-. repeat split; constructor.
  - apply bind_ok in Hs. destruct Hs as ([sta ea] & Ha & Hs). apply bind_ok in Hs. destruct Hs as ([stb kb] & Hb & Hs). injection Hs as <- <-.
    cbn [fst snd] in *. destruct (scan_step n st e sta ea t Ha He) as (A1 & A2 & A3 & A4 & A5).
    destruct (IH sta stb kb Hb) as (B1 & B2 & B3 & B4 & B5).
    split; [constructor; assumption|]. split; [cbn [combine]; constructor; assumption|].
    split; [unfold var_langs; cbn [flat_map]; rewrite fold_left_app, B3, A3; reflexivity|].
    unfold smem in *. cbn [existsb]. rewrite (str_eqb_sym (s "Language") t), (str_eqb_sym (s "Country") t). rewrite B4, A4, B5, A5.
    split; rewrite orb_assoc; f_equal; apply orb_comm.
Qed.

(** the titles of the variables written *)
Definition written_titles (titles : list str) (langs : list str) : list str :=
  titles ++ (if smem (s "Language") titles then [] else [s "Language"]) ++ (if smem (s "Country") titles then [] else [s "Country"]) ++
  flat_map (fun c => [s "lang=" ++ c; s "/lang=" ++ c]) langs.

Definition lang_ok (c : str) : Prop :=
  ~ In 61%N c /\ out (s "Title") (Some (s "lang=" ++ c)) = Some (s "lang=" ++ c) /\ out (s "Title") (Some (s "/lang=" ++ c)) = Some (s "/lang=" ++ c).

Lemma add_var_spec : forall d c t desc st titles,
  vars_wf (snd st) titles -> Forall (descs_are d c) (combine titles (snd st)) -> out (s "Title") (Some t) = Some t ->
  (t = s "Language" -> out (s "Desc") desc = d) -> (t = s "Country" -> out (s "Desc") desc = c) ->
  let st1 := add_projectvar t desc st in vars_wf (snd st1) (titles ++ [t]) /\ Forall (descs_are d c) (combine (titles ++ [t]) (snd st1)).
Proof.
  intros d c t desc st titles V D Ho Hd Hc st1. unfold st1, add_projectvar. cbn [snd].
  split.
  - apply Forall2_app; [exact V|]. constructor; [|constructor]. split; [reflexivity|]. split; [reflexivity|]. split; [right; eexists; reflexivity | exact Ho].
  - assert (E : forall (A B : Type) (a : list A) (b : list B) x y, length a = length b -> combine (a ++ [x]) (b ++ [y]) = combine a b ++ [(x, y)]).
    { clear. intros A B a. induction a as [|p a IH]; intros [|q b] x y H; try discriminate; [reflexivity|]. cbn. rewrite IH; [reflexivity | injection H; auto]. }
    rewrite E by (apply Forall2_len in V; exact V). apply Forall_app. split; [exact D|]. constructor; [|constructor].
    split; cbn [fst snd]; intro Ht; [rewrite <- (Hd Ht) | rewrite <- (Hc Ht)]; reflexivity.
Qed.

Lemma add_langvars_spec : forall d c langs st titles,
  vars_wf (snd st) titles -> Forall (descs_are d c) (combine titles (snd st)) -> (forall x, In x langs -> lang_ok x) ->
  let st1 := fold_left add_langvars langs st in
  vars_wf (snd st1) (titles ++ flat_map (fun c => [s "lang=" ++ c; s "/lang=" ++ c]) langs) /\
  Forall (descs_are d c) (combine (titles ++ flat_map (fun c => [s "lang=" ++ c; s "/lang=" ++ c]) langs) (snd st1)).
Proof.
  intros d c langs. induction langs as [|x langs IH]; intros st titles V D Hl; cbv zeta; cbn [fold_left flat_map].
  - rewrite app_nil_r. split; assumption.
  - destruct (Hl x (or_introl eq_refl)) as (_ & L1 & L2).
    destruct (add_var_spec d c (s "lang=" ++ x) (Some (s "<HTM <SPAN LANG=""" ++ x ++ s """> /HTM>")) st titles V D L1) as [V1 D1]; [intro E; discriminate E | intro E; discriminate E|].
    destruct (add_var_spec d c (s "/lang=" ++ x) (Some (s "<HTM </SPAN> /HTM>")) _ _ V1 D1 L2) as [V2 D2]; [intro E; discriminate E | intro E; discriminate E|].
    destruct (IH _ _ V2 D2 (fun y Hy => Hl y (or_intror Hy))) as [V3 D3].
    rewrite <- !app_assoc in V3, D3. split; [exact V3 | exact D3].
Qed.

Lemma split_lang : forall c, ~ In 61%N c -> lang_of (s "lang=" ++ c) = [c].
Proof.
  intros c H. unfold lang_of. change (prefixb (s "lang=") (s "lang=" ++ c)) with (prefixb (s "lang=") (s "lang=" ++ c)).
  assert (Hp : prefixb (s "lang=") (s "lang=" ++ c) = true) by reflexivity. rewrite Hp.
  assert (Hs : split (s "=") (s "lang=" ++ c) = [s "lang"; c]).
  { change (split (s "=") (s "lang=" ++ c)) with (split [61%N] (s "lang" ++ 61%N :: c)). rewrite split_splitc, splitc_app_sep, splitc_nosep; [reflexivity | exact H|].
    cbn. intuition discriminate. }
  rewrite Hs. reflexivity.
Qed.

Theorem vars_roundtrip : forall n ls k k1 k1' titles, vars_wf k titles -> build_projectvars n ls k = Ok k1 -> R k1 k1' ->
  (forall c, In c ls -> lang_ok c) ->
  out (s "Title") (Some (s "Language")) = Some (s "Language") -> out (s "Title") (Some (s "Country")) = Some (s "Country") ->
  let rest := fold_left (fun l c => remove_str c l) (var_langs titles) ls in
  read_pv k1' (None, None, None) =
    (out (s "Desc") (nv_languageCode n), out (s "Desc") (nv_countryCode n), langs_opt (var_langs titles ++ rest)) /\
  vars_wf k1 (written_titles titles rest).
Proof.
  intros n ls k k1 k1' titles V Hb HR Hl O1 O2 rest. unfold build_projectvars in Hb. apply bind_ok in Hb. destruct Hb as ([ps ka] & Hs & Hb).
  injection Hb as <-. destruct (scan_all n titles k V _ _ _ Hs) as (V1 & D1 & L1 & HL & HC). cbn [ps_langs ps_hasLang ps_hasCountry] in *.
  rewrite orb_false_r in HL, HC. fold rest in L1. rewrite L1, HL, HC in *. clear HL HC L1.
  set (d := out (s "Desc") (nv_languageCode n)) in *. set (c := out (s "Desc") (nv_countryCode n)) in *.
  assert (S1 : exists st1, st1 = (if smem (s "Language") titles then (ps_ids ps, ka) else add_projectvar (s "Language") (nv_languageCode n) (ps_ids ps, ka)) /\
     vars_wf (snd st1) (titles ++ (if smem (s "Language") titles then [] else [s "Language"])) /\
     Forall (descs_are d c) (combine (titles ++ (if smem (s "Language") titles then [] else [s "Language"])) (snd st1))).
  { eexists. split; [reflexivity|]. destruct (smem (s "Language") titles); [rewrite app_nil_r; split; [exact V1 | exact D1]|].
    apply (add_var_spec d c (s "Language") (nv_languageCode n) (ps_ids ps, ka) titles V1 D1 O1); [reflexivity | intro E; discriminate E]. }
  destruct S1 as (st1 & E1 & V2 & D2). rewrite <- E1 in HR |- *. clear E1.
  set (t1 := titles ++ (if smem (s "Language") titles then [] else [s "Language"])) in *.
  assert (Hc : smem (s "Country") t1 = smem (s "Country") titles).
  { unfold t1, smem. rewrite existsb_app. destruct (existsb (str_eqb (s "Language")) titles); cbn; apply orb_false_r. }
  assert (S2 : exists st2, st2 = (if smem (s "Country") titles then st1 else add_projectvar (s "Country") (nv_countryCode n) st1) /\
     vars_wf (snd st2) (t1 ++ (if smem (s "Country") titles then [] else [s "Country"])) /\
     Forall (descs_are d c) (combine (t1 ++ (if smem (s "Country") titles then [] else [s "Country"])) (snd st2))).
  { eexists. split; [reflexivity|]. destruct (smem (s "Country") titles); [rewrite app_nil_r; split; [exact V2 | exact D2]|].
    apply (add_var_spec d c (s "Country") (nv_countryCode n) st1 t1 V2 D2 O2); [intro E; discriminate E | reflexivity]. }
  destruct S2 as (st2 & E2 & V3 & D3). rewrite <- E2 in HR |- *. clear E2.
  assert (Hrest : forall x, In x rest -> lang_ok x).
  { intros x Hx. apply Hl. unfold rest in Hx. clear -Hx. revert ls Hx. generalize (var_langs titles). induction l as [|y l IH]; intros ls Hx; [exact Hx|].
    cbn [fold_left] in Hx. apply IH in Hx. clear -Hx. induction ls as [|z ls IH]; [exact Hx|]. cbn [remove_str] in Hx. destruct (str_eqb z y); [right; exact Hx|].
    destruct Hx as [Hx | Hx]; [left; exact Hx | right; apply IH; exact Hx]. }
  destruct (add_langvars_spec d c rest st2 _ V3 D3 Hrest) as [V4 D4].
  assert (Et : (t1 ++ (if smem (s "Country") titles then [] else [s "Country"])) ++ flat_map (fun c => [s "lang=" ++ c; s "/lang=" ++ c]) rest = written_titles titles rest).
  { unfold written_titles, t1. rewrite <- !app_assoc. reflexivity. }
  rewrite Et in V4, D4. split; [|exact V4].
  rewrite (read_pv_settled _ _ V4 _ _ HR), (fold_pv d c _ None None None D4).
  assert (Hf : forall (a : list str) (b : list elem), length a = length b -> map fst (combine a b) = a).
  { clear. induction a as [|x a IH]; intros [|y b] H; try discriminate; [reflexivity|]. cbn. f_equal. apply IH. injection H. auto. }
  rewrite Hf by (apply Forall2_len in V4; exact V4).
  assert (M1 : smem (s "Language") (written_titles titles rest) = true).
  { apply smem_In. unfold written_titles. destruct (smem (s "Language") titles) eqn:E; [apply smem_In in E; apply in_app_iff; left; exact E|].
    apply in_app_iff. right. apply in_app_iff. left. left. reflexivity. }
  assert (M2 : smem (s "Country") (written_titles titles rest) = true).
  { apply smem_In. unfold written_titles. destruct (smem (s "Country") titles) eqn:E; [apply smem_In in E; apply in_app_iff; left; exact E|].
    apply in_app_iff. right. apply in_app_iff. right. apply in_app_iff. left. left. reflexivity. }
  rewrite M1, M2. apply f_equal.
  assert (EL : var_langs (written_titles titles rest) = var_langs titles ++ rest).
  { unfold written_titles, var_langs. rewrite !flat_map_app. apply f_equal.
    assert (A1 : flat_map lang_of (if smem (s "Language") titles then [] else [s "Language"]) = []) by (destruct (smem (s "Language") titles); reflexivity).
    assert (A2 : flat_map lang_of (if smem (s "Country") titles then [] else [s "Country"]) = []) by (destruct (smem (s "Country") titles); reflexivity).
    rewrite A1, A2. cbn [app]. clear -Hrest. induction rest as [|x l IH]; [reflexivity|]. cbn [flat_map]. rewrite flat_map_app. cbn [flat_map].
    rewrite split_lang by (apply Hrest; left; reflexivity). change (lang_of (s "/lang=" ++ x)) with (@nil str). cbn [app]. f_equal. apply IH. intros y Hy. apply Hrest. right. exact Hy. }
  rewrite EL. unfold add_langs, langs_opt. destruct (var_langs titles ++ rest); reflexivity.
Qed.
End S.
