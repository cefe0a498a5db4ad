(** Project variables: what saving does to them. *)
From Coq Require Import String List NArith ZArith Bool Lia Arith.
From Verif Require Import PyStr PyDict Globals GlobalsProofs NovelModel NovelOps YwTree Yw7Build YwTreeProofs Yw7SceneProofs Yw7ListRT Yw7TreeInv SpecVars SplitterProofs ReadFrame2.
Import ListNotations.

Definition pv (e : elem) : bool := str_eqb (e_tag e) (s "PROJECTVAR").
Definition ids_of (k : list elem) : list str := flat_map (fun v => match variable_id v with Some i => [i] | None => [] end) (filter pv k).
Definition titles_of (k : list elem) : list (option str) := map variable_title (filter pv k).
Definition there (old : list (option str)) (t : str) : bool := existsb (fun o => match o with Some u => str_eqb u t | None => false end) old.
Lemma desc_kept : forall x e, e_tag (on_kids (set_text (s "Desc") x) e) = e_tag e /\ described (on_kids (set_text (s "Desc") x) e) = described e.
Proof.
  intros x e. split; [now destruct e|].
  assert (F : forall t, str_eqb t (s "Desc") = false -> find t (e_kids (on_kids (set_text (s "Desc") x) e)) = find t (e_kids e)).
  { intros t Ht. change (e_kids (on_kids (set_text (s "Desc") x) e)) with (upd (s "Desc") (with_text x) (e_kids e)). apply find_upd_other; [reflexivity | exact Ht]. }
  unfold described, variable_id, variable_title, text_at. rewrite !F by reflexivity. reflexivity.
Qed.
Lemma splitc_len : forall y, 1 <= length (splitc 61 y).
Proof. induction y as [|z y IH]; [cbn; lia|]. cbn [splitc]. destruct (N.eqb 61 z); [cbn [length]; apply le_n_S, Nat.le_0_l|]. destruct (splitc 61 y); cbn [length] in *; lia. Qed.
Lemma lang_title : forall t, prefixb (s "lang=") t = true -> forall a c, split (s "=") t = [a; c] -> t = s "lang=" ++ c /\ ~ In 61%N c.
Proof.
  intros t P a c E. apply prefixb_spec in P as [r ->]. change (s "=") with [61%N] in E. rewrite split_splitc in E. change (s "lang=" ++ r) with (s "lang" ++ 61%N :: r) in E.
  rewrite splitc_app_sep in E by (intro I; vm_compute in I; intuition discriminate). injection E as _ E.
  assert (R : r = c) by (rewrite <- (join_splitc 61 r), E; reflexivity). subst r. split; [reflexivity|]. intro I. apply in_split in I as [x [y ->]].
  assert (G : 2 <= length (splitc 61 (x ++ 61%N :: y))).
  { clear E. induction x as [|z x IH]; cbn [app splitc].
    - change (N.eqb 61 61) with true. cbv iota. pose proof (splitc_len y) as L. cbn [length]. lia.
    - destruct (N.eqb 61 z); [cbn [length]; lia|]. destruct (splitc 61 (x ++ 61%N :: y)); [cbn in IH; lia | exact IH]. }
  rewrite E in G. cbn in G. lia.
Qed.
Lemma lang_title2 : forall c, ~ In 61%N c -> split (s "=") (s "lang=" ++ c) = [s "lang"; c].
Proof.
  intros c H. change (s "=") with [61%N]. rewrite split_splitc. change (s "lang=" ++ c) with (s "lang" ++ 61%N :: c). rewrite splitc_app_sep by (intro I; vm_compute in I; intuition discriminate).
  now rewrite splitc_nosep.
Qed.
Lemma remove_filter : forall c l, NoDup l -> remove_str c l = filter (fun x => negb (str_eqb c x)) l.
Proof.
  intros c. induction l as [|y l IH]; intro D; [reflexivity|]. inversion D; subst. cbn [remove_str filter]. rewrite (str_eqb_sym c y). destruct (str_eqb y c) eqn:E; cbn [negb].
  - apply str_eqb_eq in E. subst y. symmetry. apply forallb_filter_id || idtac. revert H1. clear. induction l as [|z l IH]; intro H; [reflexivity|]. cbn [filter]. destruct (str_eqb c z) eqn:E; [apply str_eqb_eq in E; subst; destruct H; now left|]. cbn [negb]. f_equal. apply IH. intro I. apply H. now right.
  - f_equal. now apply IH.
Qed.
(** no code with an equal sign *)
Definition codes (l : list str) : Prop := NoDup l /\ Forall (fun c => ~ In 61%N c) l.
Lemma codes_filter : forall f l, codes l -> codes (filter f l).
Proof. intros f l [A B]. split; [now apply NoDup_filter | rewrite Forall_forall in *; intros x Hx; apply filter_In in Hx as [Hx _]; now apply B]. Qed.

Lemma scan_one : forall n st e st1 e1, scan_projectvar n st e = Ok (st1, e1) -> codes (ps_langs st) ->
  e_tag e1 = e_tag e /\ described e1 = described e /\ ps_ids st1 = ps_ids st ++ ids_of [e] /\
  ps_langs st1 = filter (fun l => negb (there (titles_of [e]) (s "lang=" ++ l))) (ps_langs st) /\
  ps_hasLang st1 = (ps_hasLang st || there (titles_of [e]) (s "Language"))%bool /\ ps_hasCountry st1 = (ps_hasCountry st || there (titles_of [e]) (s "Country"))%bool.
Proof.
  intros n st e st1 e1 E C. unfold scan_projectvar in E. unfold ids_of, titles_of. cbn [filter]. unfold pv. destruct (str_eqb (e_tag e) (s "PROJECTVAR")) eqn:T; cbn [negb] in E.
  2: { injection E as <- <-. cbn [flat_map map there existsb]. rewrite app_nil_r, !orb_false_r. repeat split. symmetry. clear. induction (ps_langs st) as [|x l IH]; [reflexivity | cbn [filter]; now rewrite IH]. }
  cbn [flat_map map]. unfold variable_id, variable_title, text_at.
  destruct (find (s "ID") (e_kids e)) as [i|]; [|discriminate]. destruct (find (s "Title") (e_kids e)) as [ti|]; [|discriminate]. rewrite app_nil_r. cbv zeta in E. cbn [ps_ids ps_langs ps_hasLang ps_hasCountry] in E.
  destruct (e_text ti) as [t|]; [|discriminate]. unfold there. cbn [existsb]. 
  assert (Keep : forall l, (forall c, In c l -> str_eqb t (s "lang=" ++ c) = false) -> filter (fun l0 => negb (str_eqb t (s "lang=" ++ l0) || false)) l = l).
  { induction l as [|x l IH]; intro H; [reflexivity|]. cbn [filter]. rewrite (H x (or_introl eq_refl)). cbn [orb negb]. f_equal. apply IH. intros c Hc. apply H. now right. }
  destruct C as [C1 C2]. rewrite Forall_forall in C2.
  destruct (prefixb (s "lang=") t) eqn:P.
  - assert (N1 : str_eqb t (s "Language") = false) by (apply prefixb_spec in P as [r ->]; reflexivity). assert (N2 : str_eqb t (s "Country") = false) by (apply prefixb_spec in P as [r ->]; reflexivity). rewrite N1, N2. cbn [orb]. rewrite !orb_false_r.
    destruct (split (s "=") t) as [|a [|c [|d l]]] eqn:S.
    + injection E as <- <-. cbn [ps_ids ps_langs ps_hasLang ps_hasCountry]. repeat split. rewrite Keep; [reflexivity|]. intros c Hc. destruct (str_eqb t (s "lang=" ++ c)) eqn:X; [|reflexivity]. apply str_eqb_eq in X. subst t. rewrite lang_title2 in S by now apply C2. discriminate.
    + injection E as <- <-. cbn [ps_ids ps_langs ps_hasLang ps_hasCountry]. repeat split. rewrite Keep; [reflexivity|]. intros c Hc. destruct (str_eqb t (s "lang=" ++ c)) eqn:X; [|reflexivity]. apply str_eqb_eq in X. subst t. rewrite lang_title2 in S by now apply C2. discriminate.
    + injection E as <- <-. cbn [ps_ids ps_langs ps_hasLang ps_hasCountry]. repeat split. rewrite remove_filter by exact C1. destruct (lang_title t P a c S) as [-> _]. apply filter_ext. intro x. rewrite orb_false_r. f_equal.
    + injection E as <- <-. cbn [ps_ids ps_langs ps_hasLang ps_hasCountry]. repeat split. rewrite Keep; [reflexivity|]. intros c' Hc. destruct (str_eqb t (s "lang=" ++ c')) eqn:X; [|reflexivity]. apply str_eqb_eq in X. subst t. rewrite lang_title2 in S by now apply C2. discriminate.
  - assert (K : filter (fun l0 => negb (str_eqb t (s "lang=" ++ l0) || false)) (ps_langs st) = ps_langs st).
    { apply Keep. intros c _. destruct (str_eqb t (s "lang=" ++ c)) eqn:X; [|reflexivity]. apply str_eqb_eq in X. subst t. rewrite prefixb_app in P. discriminate. }
    rewrite K. destruct (str_eqb t (s "Language")) eqn:E1.
    + apply str_eqb_eq in E1. subst t. destruct (has (s "Desc") (e_kids e)); [|discriminate]. injection E as <- <-. cbn [ps_ids ps_langs ps_hasLang ps_hasCountry]. destruct (desc_kept (nv_languageCode n) e) as [D1 D2].
      split; [exact D1|]. split; [exact D2|]. split; [reflexivity|]. split; [reflexivity|]. change (str_eqb (s "Language") (s "Country")) with false. cbn [orb]. rewrite orb_true_r, orb_false_r. split; reflexivity.
    + destruct (str_eqb t (s "Country")) eqn:E2.
      * destruct (has (s "Desc") (e_kids e)); [|discriminate]. injection E as <- <-. cbn [ps_ids ps_langs ps_hasLang ps_hasCountry]. destruct (desc_kept (nv_countryCode n) e) as [D1 D2].
        split; [exact D1|]. split; [exact D2|]. split; [reflexivity|]. split; [reflexivity|]. cbn [orb]. rewrite orb_true_r, orb_false_r. split; reflexivity.
      * injection E as <- <-. cbn [ps_ids ps_langs ps_hasLang ps_hasCountry orb]. rewrite !orb_false_r. repeat split.
Qed.
Lemma there_app : forall a b t, there (a ++ b) t = (there a t || there b t)%bool.
Proof. intros a b t. unfold there. apply existsb_app. Qed.
Lemma titles_cons : forall e k, titles_of (e :: k) = titles_of [e] ++ titles_of k.
Proof. intros e k. unfold titles_of. cbn [filter]. destruct (pv e); reflexivity. Qed.
Lemma ids_cons : forall e k, ids_of (e :: k) = ids_of [e] ++ ids_of k.
Proof. intros e k. unfold ids_of. cbn [filter]. destruct (pv e); cbn [flat_map]; [now rewrite app_nil_r | reflexivity]. Qed.
Lemma scan_all : forall n k st st1 k1, scan_projectvars n st k = Ok (st1, k1) -> codes (ps_langs st) ->
  map described (filter pv k1) = map described (filter pv k) /\ ps_ids st1 = ps_ids st ++ ids_of k /\
  ps_langs st1 = filter (fun l => negb (there (titles_of k) (s "lang=" ++ l))) (ps_langs st) /\
  ps_hasLang st1 = (ps_hasLang st || there (titles_of k) (s "Language"))%bool /\ ps_hasCountry st1 = (ps_hasCountry st || there (titles_of k) (s "Country"))%bool.
Proof.
  intro n. induction k as [|e k IH]; intros st st1 k1 E C; cbn [scan_projectvars] in E.
  - injection E as <- <-. cbn. rewrite app_nil_r, !orb_false_r. repeat split. symmetry. clear. induction (ps_langs st) as [|x l IH]; [reflexivity | cbn [filter]; now rewrite IH].
  - apply bind_ok in E as [[sa ea] [Ha E]]. apply bind_ok in E as [[sb kb] [Hb E]]. injection E as <- <-. cbn [fst snd] in *.
    destruct (scan_one n st e sa ea Ha C) as [A1 [A2 [A3 [A4 [A5 A6]]]]]. destruct (IH sa sb kb Hb) as [B1 [B2 [B3 [B4 B5]]]]; [rewrite A4; now apply codes_filter|].
    rewrite (titles_cons e k), (ids_cons e k). assert (Pv : pv ea = pv e) by (unfold pv; now rewrite A1). cbn [filter]. rewrite Pv. split; [destruct (pv e); [cbn [map]; rewrite A2, B1; reflexivity | exact B1]|].
    split; [now rewrite B2, A3, app_assoc|]. split.
    + rewrite B3, A4. clear. induction (ps_langs st) as [|x l IH]; [reflexivity|]. cbn [filter]. rewrite there_app. destruct (there (titles_of [e]) (s "lang=" ++ x)); cbn [negb orb filter]; [exact IH|]. destruct (negb (there (titles_of k) (s "lang=" ++ x))); [now rewrite IH | exact IH].
    + rewrite B4, B5, A5, A6, !there_app, !orb_assoc. split; reflexivity.
Qed.

(** ** New variables *)
Definition described_in (k : list elem) := map described (filter pv k).
Lemma ids_described : forall a b, described_in a = described_in b -> ids_of a = ids_of b /\ titles_of a = titles_of b.
Proof.
  intros a b. unfold described_in, ids_of, titles_of. generalize (filter pv a), (filter pv b). induction l as [|x l IH]; intros [|y m] E; try discriminate; [split; reflexivity|].
  cbn [map] in E. injection E as E1 E2 E3. assert (E4 : map described l = map described m) by exact E3. destruct (IH m E4) as [I1 I2]. cbn [flat_map map]. now rewrite E1, E2, I1, I2.
Qed.
(** st: the IDs in use, and the elements *)
Definition fresh_state (st : list str * list elem) : Prop := fst st = ids_of (snd st).
Lemma ids_app : forall a b, ids_of (a ++ b) = ids_of a ++ ids_of b.
Proof. intros a b. unfold ids_of. now rewrite filter_app, flat_map_app. Qed.
Lemma add_one : forall t d st, fresh_state st -> exists i, ~ In i (ids_of (snd st)) /\ fresh_state (add_projectvar t d st) /\ described_in (snd (add_projectvar t d st)) = described_in (snd st) ++ [(Some i, Some t)].
Proof.
  intros t d st F. exists (new_id (fst st)). split; [rewrite <- F; apply new_id_fresh|]. split.
  - unfold fresh_state, add_projectvar. cbn [fst snd]. rewrite ids_app, F. reflexivity.
  - unfold described_in, add_projectvar. cbn [snd]. rewrite filter_app, map_app. reflexivity.
Qed.
(** the new variables: their titles, and each ID differs from all before *)
Inductive grown : list str -> list elem -> list elem -> Prop :=
| grown_none : forall k, grown [] k k
| grown_more : forall ts t k k1 k2 i, grown ts k k1 -> ~ In i (ids_of k1) -> described_in k2 = described_in k1 ++ [(Some i, Some t)] -> grown (ts ++ [t]) k k2.
Lemma grown_ids : forall ts k k1, grown ts k k1 -> exists new, described_in k1 = described_in k ++ new /\ map snd new = map Some ts /\ Forall (fun p => fst p <> None) new /\ (NoDup (ids_of k) -> NoDup (ids_of k1)).
Proof.
  intros ts k k1 G. induction G as [k|ts t k k1 k2 i G IH Hi E]; [exists []; rewrite app_nil_r; repeat split; [constructor | tauto]|].
  destruct IH as [new [A [B [C D]]]]. exists (new ++ [(Some i, Some t)]). rewrite E, A, !map_app, B, <- app_assoc. repeat split; [apply Forall_app; split; [exact C | repeat constructor; discriminate]|].
  intro H. specialize (D H). assert (X : ids_of k2 = ids_of k1 ++ [i]).
  { unfold described_in in E. unfold ids_of. assert (Fm : forall l, flat_map (fun v => match variable_id v with Some i0 => [i0] | None => [] end) l = flat_map (fun p : option str * option str => match fst p with Some i0 => [i0] | None => [] end) (map described l)) by (induction l as [|x l IHl]; [reflexivity | cbn [flat_map map]; now rewrite IHl]).
    rewrite !Fm, E, flat_map_app. reflexivity. }
  rewrite X. apply NoDup_app_snoc || idtac. clear X E. induction (ids_of k1) as [|y l IHl]; [repeat constructor; intros []|]. inversion D; subst. cbn [app]. constructor; [rewrite in_app_iff; cbn; intros [I | [I | []]]; [tauto | subst; apply Hi; now left] | apply IHl; [intro I; apply Hi; now right | assumption]].
Qed.
Lemma grow_add : forall ts k t d st, grown ts k (snd st) -> fresh_state st -> grown (ts ++ [t]) k (snd (add_projectvar t d st)) /\ fresh_state (add_projectvar t d st).
Proof. intros ts k t d st G F. destruct (add_one t d st F) as [i [A [B C]]]. split; [now apply (grown_more ts t k (snd st) _ i) | exact B]. Qed.
Lemma grow_langs : forall ls ts k st, grown ts k (snd st) -> fresh_state st -> grown (ts ++ flat_map (fun l => [s "lang=" ++ l; s "/lang=" ++ l]) ls) k (snd (fold_left add_langvars ls st)).
Proof.
  induction ls as [|l ls IH]; intros ts k st G F; [cbn; now rewrite app_nil_r|]. cbn [fold_left flat_map]. unfold add_langvars at 2.
  destruct (grow_add ts k (s "lang=" ++ l) (Some (s "<HTM <SPAN LANG=""" ++ l ++ s """> /HTM>")) st G F) as [G1 F1].
  match type of F1 with fresh_state ?x => destruct (grow_add _ k (s "/lang=" ++ l) (Some (s "<HTM </SPAN> /HTM>")) x G1 F1) as [G2 F2] end.
  rewrite <- app_assoc in G2. specialize (IH _ k _ G2 F2). rewrite <- app_assoc in IH. exact IH.
Qed.
Lemma langs_missing : forall old ls, flat_map (fun l => [s "lang=" ++ l; s "/lang=" ++ l]) (filter (fun l => negb (there old (s "lang=" ++ l))) ls) =
  flat_map (fun l => if there old (s "lang=" ++ l) then [] else [s "lang=" ++ l; s "/lang=" ++ l]) ls.
Proof. intros old. induction ls as [|l ls IH]; [reflexivity|]. cbn [filter flat_map]. destruct (there old (s "lang=" ++ l)); cbn [negb flat_map app]; [exact IH | now rewrite IH]. Qed.
Theorem vars_built : forall n ls k k1, build_projectvars n ls k = Ok k1 -> codes ls ->
  exists new, described_in k1 = described_in k ++ new /\ map snd new = map Some (missing_titles (titles_of k) ls) /\ Forall (fun p => fst p <> None) new /\ (NoDup (ids_of k) -> NoDup (ids_of k1)).
Proof.
  intros n ls k k1 E C. unfold build_projectvars in E. apply bind_ok in E as [[ps k2] [Hs E]]. destruct (scan_all n k _ ps k2 Hs C) as [A1 [A2 [A3 [A4 A5]]]]. cbn [ps_ids ps_langs ps_hasLang ps_hasCountry app orb] in *.
  destruct (ids_described k2 k A1) as [I1 I2].
  assert (F0 : fresh_state (ps_ids ps, k2)) by (unfold fresh_state; cbn [fst snd]; now rewrite A2, I1).
  set (st1 := if ps_hasLang ps then (ps_ids ps, k2) else add_projectvar (s "Language") (nv_languageCode n) (ps_ids ps, k2)) in E.
  assert (G1 : grown (if ps_hasLang ps then [] else [s "Language"]) k2 (snd st1) /\ fresh_state st1).
  { unfold st1. destruct (ps_hasLang ps); [split; [constructor | exact F0]|]. apply (grow_add [] k2); [constructor | exact F0]. }
  clearbody st1. destruct G1 as [G1 F1]. set (st2 := if ps_hasCountry ps then st1 else add_projectvar (s "Country") (nv_countryCode n) st1) in E.
  assert (G2 : grown ((if ps_hasLang ps then [] else [s "Language"]) ++ (if ps_hasCountry ps then [] else [s "Country"])) k2 (snd st2) /\ fresh_state st2).
  { unfold st2. destruct (ps_hasCountry ps); [rewrite app_nil_r; split; assumption|]. now apply grow_add. }
  clearbody st2. destruct G2 as [G2 F2]. assert (E3 : k1 = snd (fold_left add_langvars (ps_langs ps) st2)) by (injection E as <-; reflexivity).
  destruct (grown_ids _ _ _ (grow_langs (ps_langs ps) _ k2 st2 G2 F2)) as [new [B1 [B2 [B3 B4]]]]. rewrite <- E3 in *. exists new. unfold described_in in *. rewrite A1 in B1. split; [exact B1|]. split; [|split; [exact B3 | now rewrite <- I1]].
  rewrite B2. f_equal. rewrite A3, langs_missing, A4, A5, <- app_assoc. reflexivity.
Qed.

(** ** The file *)
Lemma variables_sec : forall r, variables r = filter pv (Yw7TreeInv.or_nil (sec (s "PROJECTVARS") r)).
Proof. intro r. unfold variables, sec. destruct (find (s "PROJECTVARS") r); reflexivity. Qed.
Theorem vars_saved : forall loc dloc n old n1 r1 ls, write_tree loc dloc n old = Ok (n1, r1) -> nv_languages (prepare n) = Some ls -> codes ls ->
  let r0 := match old with Some r => r | None => [] end in
  exists new, map described (variables r1) = map described (variables r0) ++ new /\
    map snd new = map Some (if has_language (prepare n) then missing_titles (map variable_title (variables r0)) ls else []) /\ Forall (fun p => fst p <> None) new /\
    (NoDup (variable_ids r0) -> NoDup (variable_ids r1)).
Proof.
  intros loc dloc n old n1 r1 ls E L C r0.
  assert (E2 : exists r, build_tree loc dloc (prepare n) (Some r) = Ok (n1, r1) /\ variables r = variables r0) by (destruct old as [r|]; [exists r; split; [exact E | reflexivity] | exists new_root; split; [exact E | reflexivity]]).
  destruct E2 as [r [E2 V]]. unfold variable_ids. rewrite <- V. clear E V r0. destruct (build_tree_inv _ _ _ _ _ _ E2) as [_ [_ [_ [_ [_ [_ [_ [_ [H _]]]]]]]]].
  rewrite !variables_sec. destruct (has_language (prepare n)).
  - destruct H as [_ [ls' [k1 [H1 [H2 H3]]]]]. rewrite L in H1. injection H1 as <-. destruct (vars_built _ _ _ _ H2 C) as [new [A [B [D F]]]]. exists new. rewrite H3. cbn [Yw7TreeInv.or_nil]. repeat split; assumption.
  - destruct H as [_ H]. unfold sec. rewrite H. exists []. rewrite app_nil_r. repeat split; [constructor | tauto].
Qed.
