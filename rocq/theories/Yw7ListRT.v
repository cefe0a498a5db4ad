(** Lists of elements with IDs: sections of the project tree, written and read back. *)
From Coq Require Import String List NArith ZArith Bool Lia Arith.
From Verif Require Import PyStr PyDict Globals GlobalsProofs WordCount NovelModel NovelOps YwTree IsoDate Yw7Build Yw7Read YwTreeProofs Yw7SceneProofs Yw7StartProofs Yw7SceneRT.
Import ListNotations.

(** the sub-elements of a section *)
Definition sec (t : str) (r : list elem) : option (list elem) := option_map e_kids (find t r).

Lemma find_upd_same : forall t f r, (forall e, e_tag (f e) = e_tag e) -> find t (upd t f r) = option_map f (find t r).
Proof.
  intros t f r Hf. rewrite !find_findall, findall_upd by exact Hf. destruct (findall t r); reflexivity.
Qed.
Lemma find_upd_other : forall t u f r, (forall e, e_tag (f e) = e_tag e) -> str_eqb u t = false -> find u (upd t f r) = find u r.
Proof.
  intros t u f r Hf H. rewrite !find_findall, !findall_filt. rewrite filt_upd; [reflexivity | exact Hf | rewrite str_eqb_sym; exact H].
Qed.

Lemma in_section_ok : forall t e f r r', in_section t e f r = Ok r' ->
  exists k0 k1, sec t r = Some k0 /\ f k0 = Ok k1 /\ sec t r' = Some k1 /\ forall u, str_eqb u t = false -> find u r' = find u r.
Proof.
  intros t e f r r' H. unfold in_section in H. destruct (find t r) as [x|] eqn:E; [|discriminate].
  apply bind_ok in H. destruct H as [k [Hk H]]. injection H as <-.
  exists (e_kids x), k. unfold sec. rewrite E. split; [reflexivity|]. split; [exact Hk|]. split.
  - rewrite find_upd_same, E by reflexivity. reflexivity.
  - intros u Hu. apply find_upd_other; [reflexivity | exact Hu].
Qed.

Lemma sec_congr : forall t r r', find t r' = find t r -> sec t r' = sec t r.
Proof. intros t r r' H. unfold sec. rewrite H. reflexivity. Qed.

Lemma find_sub_other : forall t u x r, str_eqb u t = false -> find u (sub t x r) = find u r.
Proof. intros. rewrite !find_findall, !findall_filt. rewrite filt_sub; [reflexivity | rewrite str_eqb_sym; assumption]. Qed.
Lemma find_remove_other : forall t u r, str_eqb u t = false -> find u (remove t r) = find u r.
Proof. intros. rewrite !find_findall, !findall_filt. rewrite filt_remove; [reflexivity | rewrite str_eqb_sym; assumption]. Qed.

Lemma mapM_Forall2 : forall {A B} (f : A -> res B) l ys, mapM f l = Ok ys -> Forall2 (fun x y => f x = Ok y) l ys.
Proof.
  intros A B f l. induction l as [|x l IH]; intros ys H; cbn [mapM] in H; [injection H as <-; constructor|].
  apply bind_ok in H. destruct H as [y [Hy H]]. apply bind_ok in H. destruct H as [ys' [Hys H]]. injection H as <-.
  constructor; [exact Hy | apply IH; exact Hys].
Qed.

Lemma Forall2_mapM : forall {A B} (f : A -> res B) l ys, Forall2 (fun x y => f x = Ok y) l ys -> mapM f l = Ok ys.
Proof. intros A B f l ys H. induction H as [|x y l ys Hx H IH]; [reflexivity|]. cbn [mapM]. rewrite Hx, IH. reflexivity. Qed.

Lemma filter_none : forall {A} (f : A -> bool) l, (forall x, In x l -> f x = false) -> filter f l = [].
Proof. intros A f l. induction l as [|x l IH]; intro H; [reflexivity|]. cbn [filter]. rewrite H by (left; reflexivity). apply IH. intros y Hy. apply H. right. exact Hy. Qed.

(** all sub-elements have tag t *)
Definition only (t : str) (k : list elem) : Prop := forall e, In e k -> e_tag e = t.
Lemma only_filter : forall t k, only t k -> filter (fun e => negb (str_eqb (e_tag e) t)) k = [].
Proof. intros t k H. apply filter_none. intros e He. rewrite (H e He), str_eqb_refl. reflexivity. Qed.
Lemma only_findall : forall t k, only t k -> findall t k = k.
Proof. intros t k H. unfold findall. apply filter_all. intros e He. rewrite (H e He). apply str_eqb_refl. Qed.

(** exactly one <ID> with text i *)
Definition has_id (i : str) (k : list elem) : Prop := findall (s "ID") k = [leaf (s "ID") (Some i)].

(** each element gets its value: (ID, value) pairs for a list of elements *)
Lemma read_into_ok : forall {A} (rd : list elem -> A) (l : list (str * A)) es, 
  Forall2 (fun p e => read_id e = Ok (fst p) /\ rd (e_kids e) = snd p) l es ->
  forall (a : list str) (d : dict A), NoDup (dkeys d ++ map fst l) -> read_into rd es (a, d) = Ok (a ++ map fst l, d ++ l).
Proof.
  intros A rd l es H. induction H as [|[i v] e l es [H1 H2] H IH]; intros a d Hn.
  - cbn. rewrite !app_nil_r. reflexivity.
  - unfold read_into in *. cbn [foldM fst snd] in *. rewrite H1. cbn [bind]. rewrite H2.
    assert (Hi : ~ In i (dkeys d)).
    { cbn [map fst] in Hn. apply NoDup_remove_2 in Hn. rewrite in_app_iff in Hn. tauto. }
    rewrite (dset_new i v d Hi). rewrite IH.
    + cbn [map fst]. rewrite <- !app_assoc. reflexivity.
    + unfold dkeys in *. rewrite map_app, <- app_assoc. exact Hn.
Qed.

Section S.
Variable out : str -> option str -> option str.
Hypothesis out_None : forall t, out t None = None.
Hypothesis out_nil : forall t, out t (Some []) = None.
Hypothesis out_safe : forall t v, safe v -> out t (Some v) = Some v.
Notation R := (Forall2 (settled out)).

Definition id_ok (i : str) : Prop := out (s "ID") (Some i) = Some i.

Lemma read_id_settled : forall i e e', has_id i (e_kids e) -> settled out e e' -> id_ok i -> read_id e' = Ok i.
Proof.
  intros i e e' Hi HS Ho. unfold read_id. rewrite find_findall.
  pose proof (R_findall out (s "ID") _ _ (settled_kids out _ _ HS)) as HR. unfold has_id in Hi. rewrite Hi in HR.
  inversion HR as [|? y ? ? Hy Hn]; subst. inversion Hy; subst. cbn [hd_error e_text]. rewrite Ho. reflexivity.
Qed.

Lemma sec_settled : forall t r r', R r r' -> match sec t r with
  | None => sec t r' = None | Some k => exists k', sec t r' = Some k' /\ R k k' end.
Proof.
  intros t r r' HR. unfold sec. rewrite !find_findall. apply (R_findall out t) in HR.
  inversion HR as [|e e' ? ? He Hr]; subst; [reflexivity|]. cbn [hd_error option_map].
  exists (e_kids e'). split; [reflexivity | apply settled_kids; exact He].
Qed.

(** A list section that is rebuilt from scratch *)
Lemma rebuild_list : forall {A} t (bd : A -> list elem -> list elem) (Q : list elem -> A -> Prop) (st : A -> A) ids (d : dict A) k k1 k1',
  only t k -> (forall a i, has_id i (bd a [leaf (s "ID") (Some i)])) ->
  (forall a i k', R (bd a [leaf (s "ID") (Some i)]) k' -> Q k' (st a)) ->
  rebuild t bd ids d k = Ok k1 -> R k1 k1' -> NoDup ids -> (forall i, In i ids -> id_ok i) ->
  exists l, map fst l = ids /\ Forall2 (fun p e => read_id e = Ok (fst p) /\ Q (e_kids e) (snd p)) l k1' /\
    forall i, In i ids -> exists a, dget i d = Some a /\ dget i l = Some (st a).
Proof.
  intros A t bd Q st ids d k k1 k1' Ho Hid Hrd Hb HR Hn Hok.
  unfold rebuild in Hb. apply bind_ok in Hb. destruct Hb as [new [Hm Hb]]. rewrite (only_filter t k Ho) in Hb. injection Hb as <-. cbn [app] in HR.
  apply mapM_Forall2 in Hm.
  assert (Hg : forall ids new, Forall2 (fun i y => (do a <- dindex i d; Ok (element_with_id t i (bd a))) = Ok y) ids new ->
     forall k1', R new k1' -> (forall i, In i ids -> id_ok i) ->
     exists l, map fst l = ids /\ Forall2 (fun p e => read_id e = Ok (fst p) /\ Q (e_kids e) (snd p)) l k1' /\
       Forall (fun p => exists a, dget (fst p) d = Some a /\ snd p = st a) l).
  { clear -Hid Hrd. intros ids new H. induction H as [|i e ids new He H IH]; intros k1' HR Hok.
    - inversion HR. exists []. repeat constructor.
    - inversion HR as [|? e' ? k2 Hs Hr]; subst. apply bind_ok in He. destruct He as [a [Ha He]]. injection He as <-.
      destruct (IH k2 Hr (fun j Hj => Hok j (or_intror Hj))) as (l & L1 & L2 & L3).
      exists ((i, st a) :: l). split; [cbn [map fst]; f_equal; exact L1|]. split.
      + constructor; [|exact L2]. split.
        * apply (read_id_settled i (element_with_id t i (bd a)) e' (Hid a i) Hs). apply Hok. left. reflexivity.
        * cbn [snd]. apply (Hrd a i). exact (settled_kids out _ _ Hs).
      + constructor; [|exact L3]. exists a. split; [|reflexivity]. unfold dindex in Ha. cbn [fst].
        destruct (dget i d); [injection Ha as ->; reflexivity | discriminate]. }
  destruct (Hg ids new Hm k1' HR Hok) as (l & L1 & L2 & L3).
  exists l. split; [exact L1|]. split; [exact L2|].
  intros i Hi. rewrite <- L1 in Hi. apply in_map_iff in Hi. destruct Hi as ([j b] & <- & Hi). cbn [fst].
  rewrite Forall_forall in L3. destruct (L3 _ Hi) as (a & Ha & Hb). cbn [fst snd] in *. subst b.
  exists a. split; [exact Ha|]. apply In_dget; [unfold dkeys; rewrite L1; exact Hn | exact Hi].
Qed.

Theorem rebuild_roundtrip : forall {A} t (bd : A -> list elem -> list elem) (rd : list elem -> A) (st : A -> A) ids (d : dict A) k k1 k1',
  only t k -> (forall a i, has_id i (bd a [leaf (s "ID") (Some i)])) ->
  (forall a i k', R (bd a [leaf (s "ID") (Some i)]) k' -> rd k' = st a) ->
  rebuild t bd ids d k = Ok k1 -> R k1 k1' -> NoDup ids -> (forall i, In i ids -> id_ok i) ->
  exists d', read_into rd k1' ([], []) = Ok (ids, d') /\ dkeys d' = ids /\
    forall i, In i ids -> exists a, dget i d = Some a /\ dget i d' = Some (st a).
Proof.
  intros A t bd rd st ids d k k1 k1' Ho Hid Hrd Hb HR Hn Hok.
  destruct (rebuild_list t bd (fun k' a => rd k' = a) st ids d k k1 k1' Ho Hid Hrd Hb HR Hn Hok) as (l & L1 & L2 & L3).
  exists l. split; [|split; [exact L1 | exact L3]].
  assert (Hn' : NoDup (dkeys (@nil (str * A)) ++ map fst l)) by (cbn [app dkeys map]; rewrite L1; exact Hn).
  pose proof (read_into_ok rd l k1' L2 [] [] Hn') as H. cbn [app] in H. rewrite L1 in H. exact H.
Qed.

(** project notes are read by a loop of their own *)
Lemma read_notes_ok : forall (l : list (str * note)) es,
  Forall2 (fun p e => read_id e = Ok (fst p) /\ mkNote (get_text (s "Title") (e_kids e)) (get_text (s "Desc") (e_kids e)) [] = snd p /\
      has (s "Fields") (e_kids e) = false) l es ->
  forall (a : list str) (d : dict note), NoDup (dkeys d ++ map fst l) -> read_notes es (a, d) = (a ++ map fst l, d ++ l).
Proof.
  intros l es H. induction H as [|[i v] e l es (H1 & H2 & H3) H IH]; intros a d Hn.
  - cbn. rewrite !app_nil_r. reflexivity.
  - cbn [read_notes]. cbv zeta. unfold read_id in H1. destruct (find (s "ID") (e_kids e)) as [x|]; [|discriminate].
    destruct (e_text x) as [w|]; [|discriminate]. injection H1 as ->. cbn [fst snd] in *. rewrite H2, H3.
    assert (Hi : ~ In i (dkeys d)).
    { cbn [map fst] in Hn. apply NoDup_remove_2 in Hn. rewrite in_app_iff in Hn. tauto. }
    rewrite (dset_new i v d Hi), IH.
    + cbn [map fst]. rewrite <- !app_assoc. reflexivity.
    + unfold dkeys in *. rewrite map_app, <- app_assoc. exact Hn.
Qed.

Theorem notes_roundtrip : forall (st : note -> note) ids (d : dict note) k k1 k1',
  only (s "PROJECTNOTE") k -> (forall a i, has_id i (build_note a [leaf (s "ID") (Some i)])) ->
  (forall a i k', R (build_note a [leaf (s "ID") (Some i)]) k' ->
     mkNote (get_text (s "Title") k') (get_text (s "Desc") k') [] = st a /\ has (s "Fields") k' = false) ->
  rebuild (s "PROJECTNOTE") build_note ids d k = Ok k1 -> R k1 k1' -> NoDup ids -> (forall i, In i ids -> id_ok i) ->
  exists d', read_notes k1' ([], []) = (ids, d') /\ dkeys d' = ids /\
    forall i, In i ids -> exists a, dget i d = Some a /\ dget i d' = Some (st a).
Proof.
  intros st ids d k k1 k1' Ho Hid Hrd Hb HR Hn Hok.
  destruct (rebuild_list (s "PROJECTNOTE") build_note
     (fun k' a => mkNote (get_text (s "Title") k') (get_text (s "Desc") k') [] = a /\ has (s "Fields") k' = false)
     st ids d k k1 k1' Ho Hid Hrd Hb HR Hn Hok) as (l & L1 & L2 & L3).
  exists l. split; [|split; [exact L1 | exact L3]].
  assert (Hn' : NoDup (dkeys (@nil (str * note)) ++ map fst l)) by (cbn [app dkeys map]; rewrite L1; exact Hn).
  pose proof (read_notes_ok l k1' L2 [] [] Hn') as H. cbn [app] in H. rewrite L1 in H. exact H.
Qed.

(** ** Sections whose elements are kept: scenes and chapters *)
(** the elements of a section with their IDs *)
Definition section_ids (t : str) (k : list elem) (l : dict elem) : Prop :=
  map snd l = k /\ NoDup (map fst l) /\ Forall (fun p => e_tag (snd p) = t /\ has_id (fst p) (e_kids (snd p)) /\ id_ok (fst p)) l.

Lemma section_only : forall t k l, section_ids t k l -> only t k.
Proof.
  intros t k l (<- & _ & H) e He. apply in_map_iff in He. destruct He as (p & <- & Hp). rewrite Forall_forall in H. apply (H p Hp).
Qed.

Lemma save_elems_ok : forall t k l, section_ids t k l -> save_elems t k = Ok l.
Proof.
  intros t k l H. unfold save_elems. rewrite (only_findall t k (section_only t k l H)).
  destruct H as (<- & Hn & HF).
  assert (Hg : forall l d, NoDup (dkeys d ++ map fst l) -> Forall (fun p => e_tag (snd p) = t /\ has_id (fst p) (e_kids (snd p)) /\ id_ok (fst p)) l ->
    foldM (fun d e => match find (s "ID") (e_kids e) with
                    | None => Err AttributeError
                    | Some i => match e_text i with Some v => Ok (dset v e d) | None => Ok d end
                    end) (map snd l) d = Ok (d ++ l)).
  { clear. induction l as [|[i e] l IH]; intros d Hn HF; [cbn; rewrite app_nil_r; reflexivity|].
    inversion HF as [|? ? [_ [Hi _]] HF']; subst. cbn [fst snd] in Hi. cbn [map snd foldM]. rewrite find_findall. unfold has_id in Hi. rewrite Hi. cbn [hd_error leaf e_text bind].
    assert (Hx : ~ In i (dkeys d)).
    { cbn [map fst] in Hn. apply NoDup_remove_2 in Hn. rewrite in_app_iff in Hn. tauto. }
    rewrite dset_new by exact Hx. rewrite IH; [rewrite <- app_assoc; reflexivity | | exact HF'].
    unfold dkeys in *. rewrite map_app, <- app_assoc. exact Hn. }
  rewrite (Hg l []); [reflexivity | exact Hn | exact HF].
Qed.
End S.
