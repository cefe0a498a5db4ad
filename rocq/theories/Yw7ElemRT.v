(** Round trip of locations, items, characters, project notes and the project data through the element tree. *)
From Coq Require Import String List NArith ZArith Bool Lia Arith.
From Verif Require Import PyStr PyDict Globals GlobalsProofs WordCount NovelModel NovelOps YwTree IsoDate Yw7Build Yw7Read YwTreeProofs Yw7SceneProofs Yw7StartProofs Yw7SceneRT.
Import ListNotations.

Lemma findall_sub_opt : forall t v k, findall t (sub_opt t v k) = findall t k ++ match v with None => [] | Some _ => [leaf t v] end.
Proof. intros t [v|] k; [apply findall_sub | symmetry; apply app_nil_r]. Qed.

Lemma findall_sub_tags : forall v k, findall (s "Tags") (sub_tags v k) =
  findall (s "Tags") k ++ match v with None => [] | Some _ => [leaf (s "Tags") (tags_text v)] end.
Proof. intros [v|] k; [apply findall_sub | symmetry; apply app_nil_r]. Qed.

Section S.
Variable out : str -> option str -> option str.
Hypothesis out_None : forall t, out t None = None.
Hypothesis out_nil : forall t, out t (Some []) = None.
Hypothesis out_safe : forall t v, safe v -> out t (Some v) = Some v.
Notation R := (Forall2 (settled out)).

Lemma fresh_text : forall t v k k', findall t k = match v with None => [] | Some _ => [leaf t v] end -> R k k' ->
  get_text t k' = keep out t v None.
Proof.
  intros t v k k' E HR. rewrite (get_text_G out t k k' HR); [unfold G; rewrite E; destruct v; reflexivity|].
  unfold leaf1. rewrite E. destruct v; eauto.
Qed.

(** keyword variables of an element that had no <Fields> before *)
Lemma fresh_kws : forall names kw k k1 k', NoDup names -> findall (s "Fields") k = [] ->
  findall (s "Fields") k1 = findall (s "Fields") (put_kws mk_fields names kw k) -> R k1 k' ->
  read_kws names k' [] = map (fun f => (f, kw_out out f kw)) names.
Proof.
  intros names kw k k1 k' Hn E E1 HR.
  assert (U : uniq (s "Fields") k) by (left; exact E).
  destruct (put_kws_fields mk_fields names kw k mk_fields_makes Hn U) as [U1 H1].
  set (k2 := put_kws mk_fields names kw k) in *.
  assert (F0 : forall f, fget f k = []) by (intro f; unfold fget; rewrite E; reflexivity).
  assert (Fx : forall f, In f names -> fget f k1 = eff_kw f kw []).
  { intros f Hf. rewrite (fget_congr f k2 k1 E1), H1, (proj2 (smem_In f names) Hf), F0. reflexivity. }
  assert (W : fields_wf names k1).
  { split; [exact (uniq_congr _ _ _ E1 U1)|]. intros F HF f Hf.
    assert (Hg : fget f k1 = findall f (e_kids F)) by (unfold fget; rewrite HF; reflexivity).
    unfold leaf1. rewrite <- Hg, (Fx f Hf). unfold eff_kw. destruct (get_kw f kw) as [[|c v]|]; [left; reflexivity | right; eexists; reflexivity | left; reflexivity]. }
  rewrite (read_kws_settled out names names k1 k' Hn (incl_refl _) W HR).
  apply map_ext_in. intros f Hf. f_equal. unfold FG, kw_out. rewrite (Fx f Hf). unfold eff_kw.
  destruct (get_kw f kw) as [[|c v]|]; reflexivity.
Qed.

(** tags read back *)
Definition tags_out (tags : option (list str)) : option (list str) :=
  match tags with Some _ => tags_in (out (s "Tags") (tags_text tags)) | None => None end.

Definition stored_world (names : list str) (w : world) : world :=
  {| we_title := keep out (s "Title") (we_title w) None;
     we_desc := keep out (s "Desc") (we_desc w) None;
     we_kw := map (fun f => (f, kw_out out f (we_kw w))) names;
     we_image := keep out (s "ImageFile") (we_image w) None;
     we_tags := tags_out (we_tags w);
     we_aka := keep out (s "AKA") (we_aka w) None |}.

Ltac new_text := match goal with
  | |- get_text ?t ?k' = keep out ?t ?v None =>
      refine (fresh_text t v _ k' _ _); [|eassumption]; rewrite !findall_filt; peel; rewrite <- !findall_filt, findall_sub_opt;
      match goal with |- findall ?t ?a ++ _ = _ => replace (findall t a) with (@nil elem); [reflexivity|] end;
      symmetry; rewrite !findall_filt; peel; reflexivity
  end.

Lemma read_tags_fresh : forall tags k k', findall (s "Tags") k = match tags with None => [] | Some _ => [leaf (s "Tags") (tags_text tags)] end -> R k k' ->
  read_tags k' = tags_out tags.
Proof.
  intros tags k k' E HR. unfold read_tags. rewrite (fresh_text (s "Tags") (tags_text tags) k k'); [|rewrite E; destruct tags; reflexivity | exact HR].
  unfold tags_out, tags_text. destruct tags as [l|]; cbn [option_map keep]; [|reflexivity]. unfold tags_in. destruct (out _ _); reflexivity.
Qed.

Theorem world_roundtrip : forall names w id k', NoDup names ->
  R (build_world names w [leaf (s "ID") (Some id)]) k' -> read_world names k' = stored_world names w.
Proof.
  intros names w id k' Hn HR. unfold read_world, stored_world. unfold build_world in HR. cbv zeta in HR.
  assert (H1 : get_text (s "Title") k' = keep out (s "Title") (we_title w) None) by new_text.
  assert (H2 : get_text (s "Desc") k' = keep out (s "Desc") (we_desc w) None) by new_text.
  assert (H3 : get_text (s "ImageFile") k' = keep out (s "ImageFile") (we_image w) None) by new_text.
  assert (H4 : get_text (s "AKA") k' = keep out (s "AKA") (we_aka w) None) by new_text.
  assert (H5 : read_tags k' = tags_out (we_tags w)).
  { refine (read_tags_fresh _ _ k' _ _); [|eassumption]. rewrite !findall_filt; peel. rewrite <- !findall_filt, findall_sub_tags.
    match goal with |- findall ?t ?a ++ _ = _ => replace (findall t a) with (@nil elem); [reflexivity|] end.
    symmetry; rewrite !findall_filt; peel; reflexivity. }
  assert (H6 : read_kws names k' [] = map (fun f => (f, kw_out out f (we_kw w))) names).
  { refine (fresh_kws names (we_kw w) _ _ k' Hn _ _ HR).
    2:{ rewrite !findall_filt; peel1. reflexivity. }
    rewrite !findall_filt; peel. reflexivity. }
  rewrite H1, H2, H3, H4, H5, H6. reflexivity.
Qed.

Definition stored_character (c : character) : character :=
  {| cr_title := keep out (s "Title") (cr_title c) None;
     cr_desc := keep out (s "Desc") (cr_desc c) None;
     cr_kw := map (fun f => (f, kw_out out f (cr_kw c))) CRT_KWVAR;
     cr_image := keep out (s "ImageFile") (cr_image c) None;
     cr_tags := tags_out (cr_tags c);
     cr_aka := keep out (s "AKA") (cr_aka c) None;
     cr_notes := keep out (s "Notes") (cr_notes c) None;
     cr_bio := keep out (s "Bio") (cr_bio c) None;
     cr_goals := keep out (s "Goals") (cr_goals c) None;
     cr_fullName := keep out (s "FullName") (cr_fullName c) None;
     cr_isMajor := Some (is_true (cr_isMajor c)) |}.

Lemma crt_nodup : NoDup CRT_KWVAR.
Proof. repeat constructor; cbn; intuition discriminate. Qed.

Theorem character_roundtrip : forall c id k',
  R (build_character c [leaf (s "ID") (Some id)]) k' -> read_character k' = stored_character c.
Proof.
  intros c id k' HR. unfold read_character, stored_character. unfold build_character in HR. cbv zeta in HR.
  assert (H1 : get_text (s "Title") k' = keep out (s "Title") (cr_title c) None) by new_text.
  assert (H2 : get_text (s "Desc") k' = keep out (s "Desc") (cr_desc c) None) by new_text.
  assert (H3 : get_text (s "ImageFile") k' = keep out (s "ImageFile") (cr_image c) None) by new_text.
  assert (H4 : get_text (s "AKA") k' = keep out (s "AKA") (cr_aka c) None) by new_text.
  assert (H7 : get_text (s "Notes") k' = keep out (s "Notes") (cr_notes c) None) by new_text.
  assert (H8 : get_text (s "Bio") k' = keep out (s "Bio") (cr_bio c) None) by new_text.
  assert (H9 : get_text (s "Goals") k' = keep out (s "Goals") (cr_goals c) None) by new_text.
  assert (H10 : get_text (s "FullName") k' = keep out (s "FullName") (cr_fullName c) None) by new_text.
  assert (H5 : read_tags k' = tags_out (cr_tags c)).
  { refine (read_tags_fresh _ _ k' _ _); [|eassumption]. rewrite !findall_filt; peel. rewrite <- !findall_filt, findall_sub_tags.
    match goal with |- findall ?t ?a ++ _ = _ => replace (findall t a) with (@nil elem); [reflexivity|] end.
    symmetry; rewrite !findall_filt; peel; reflexivity. }
  assert (H6 : read_kws CRT_KWVAR k' [] = map (fun f => (f, kw_out out f (cr_kw c))) CRT_KWVAR).
  { refine (fresh_kws CRT_KWVAR (cr_kw c) _ _ k' crt_nodup _ _ HR).
    2:{ rewrite !findall_filt; peel1. reflexivity. }
    rewrite !findall_filt; peel. reflexivity. }
  assert (H11 : has (s "Major") k' = is_true (cr_isMajor c)).
  { rewrite (R_has out _ _ _ HR), has_findall.
    match goal with |- match findall ?t ?a with _ => _ end = _ => assert (E : findall t a = if is_true (cr_isMajor c) then [leaf (s "Major") (Some (s "-1"))] else []) end.
    { rewrite !findall_filt; peel. rewrite <- !findall_filt, findall_sub_opt.
      match goal with |- findall ?t ?a ++ _ = _ => replace (findall t a) with (@nil elem); [destruct (is_true _); reflexivity|] end.
      symmetry; rewrite !findall_filt; peel; reflexivity. }
    rewrite E. destruct (is_true _); reflexivity. }
  rewrite H1, H2, H3, H4, H5, H6, H7, H8, H9, H10, H11. reflexivity.
Qed.

Definition stored_note (x : note) : note :=
  {| pn_title := keep out (s "Title") (pn_title x) None; pn_desc := keep out (s "Desc") (pn_desc x) None; pn_kw := [] |}.

Theorem note_roundtrip : forall x id k', R (build_note x [leaf (s "ID") (Some id)]) k' ->
  mkNote (get_text (s "Title") k') (get_text (s "Desc") k') [] = stored_note x /\ has (s "Fields") k' = false.
Proof.
  intros x id k' HR. unfold build_note in HR.
  assert (H1 : get_text (s "Title") k' = keep out (s "Title") (pn_title x) None) by new_text.
  assert (H2 : get_text (s "Desc") k' = keep out (s "Desc") (pn_desc x) None) by new_text.
  split; [unfold stored_note; rewrite H1, H2; reflexivity|].
  rewrite (R_has out _ _ _ HR), has_findall.
  match goal with |- match findall ?t ?a with _ => _ end = _ => replace (findall t a) with (@nil elem); [reflexivity|] end.
  symmetry. rewrite !findall_filt; peel. reflexivity.
Qed.
End S.
