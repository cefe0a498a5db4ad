(** Proofs about paths and factories. *)
From Coq Require Import List NArith Bool Lia Arith.
From Verif Require Import PyStr PyDict NovelModel YwTree YwText FileOps FileOpsProofs FileWrite SpecFile FileWriteProofs OdfWriteProofs Converter SpecConv ConverterProofs ConverterProofs2.
Import ListNotations.

Lemma existsb_none : forall c x, ~ In c x -> existsb (N.eqb c) x = false.
Proof. intros c x H. apply not_true_is_false. intro E. apply existsb_exists in E. destruct E as (y & Hy & E). apply N.eqb_eq in E. subst y. exact (H Hy). Qed.

Lemma name_of_noslash : forall x, ~ In 47%N x -> name_of x = x.
Proof. intros [|c x] H; [reflexivity|]. cbn [name_of]. rewrite (existsb_none _ _ H). reflexivity. Qed.
Lemma name_of_app : forall a x, ~ In 47%N x -> name_of (a ++ x) = name_of a ++ x.
Proof.
  intros a x H. induction a as [|c a IH]; [exact (name_of_noslash x H)|].
  change ((c :: a) ++ x) with (c :: (a ++ x)). cbn [name_of].
  change (existsb (N.eqb 47) (c :: a ++ x)) with (existsb (N.eqb 47) ((c :: a) ++ x)). rewrite !existsb_app, (existsb_none _ _ H), !orb_false_r.
  destruct (existsb (N.eqb 47) (c :: a)) eqn:E; [|reflexivity].
  destruct (N.eqb c 47 && negb (existsb (N.eqb 47) a)) eqn:E2; [reflexivity | exact IH].
Qed.
Lemma name_of_dir : forall d x, ~ In 47%N x -> name_of (d ++ s "/" ++ x) = x.
Proof.
  intros d x H. induction d as [|c d IH].
  - cbn [app]. change (s "/" ++ x) with (47%N :: x). cbn [name_of existsb]. rewrite N.eqb_refl, (existsb_none _ _ H). reflexivity.
  - change ((c :: d) ++ s "/" ++ x) with (c :: (d ++ s "/" ++ x)). cbn [name_of].
    assert (X : existsb (N.eqb 47) (d ++ s "/" ++ x) = true) by (rewrite !existsb_app; cbn; rewrite orb_true_r; reflexivity).
    cbn [existsb]. rewrite X, orb_true_r, andb_false_r. exact IH.
Qed.
Lemma last_dot_none : forall x, ~ In 46%N x -> last_dot x = None.
Proof.
  induction x as [|c x IH]; intro H; [reflexivity|]. cbn [last_dot]. rewrite IH by (intro X; apply H; right; exact X).
  destruct (N.eqb_spec c 46) as [->|N]; [contradiction H; left; reflexivity | reflexivity].
Qed.
Lemma last_dot_app : forall a e, ~ In 46%N e -> last_dot (a ++ s "." ++ e) = Some (a, s "." ++ e).
Proof.
  intros a e H. induction a as [|c a IH].
  - change ([] ++ s "." ++ e) with (46%N :: e). cbn [last_dot]. rewrite (last_dot_none _ H). reflexivity.
  - change ((c :: a) ++ s "." ++ e) with (c :: (a ++ s "." ++ e)). cbn [last_dot]. rewrite IH. reflexivity.
Qed.

(** a file name with an extension *)
Lemma splitext_ext : forall base e, ~ In 46%N e -> ~ In 47%N e -> (exists c, In c (name_of base) /\ c <> 46%N) ->
  splitext (base ++ s "." ++ e) = (base, s "." ++ e).
Proof.
  intros base e H1 H2 (c & Hc & Hn). unfold splitext.
  assert (NS : ~ In 47%N (s "." ++ e)) by (intros [X | X]; [discriminate | exact (H2 X)]).
  rewrite (name_of_app base _ NS), (last_dot_app _ _ H1).
  assert (F : forallb (N.eqb 46) (name_of base) = false).
  { apply not_true_is_false. intro X. rewrite forallb_forall in X. specialize (X c Hc). apply N.eqb_eq in X. congruence. }
  rewrite F. f_equal. rewrite app_length, Nat.add_sub. rewrite firstn_app, Nat.sub_diag, firstn_all, app_nil_r. reflexivity.
Qed.

(** the suffix occurs at the end only *)
Definition only_at_end (x t : str) : Prop := forall a b, t = a ++ x ++ b -> b = [].

Lemma only_at_end_cons : forall x c t, only_at_end x (c :: t) -> only_at_end x t.
Proof. intros x c t H a b E. apply (H (c :: a) b). rewrite E. reflexivity. Qed.
Lemma split_end : forall x base, x <> [] -> only_at_end x (base ++ x) -> split x (base ++ x) = [base; []].
Proof.
  intros x base Hx H. induction base as [|c base IH].
  - destruct x as [|c x]; [congruence|]. unfold split. cbn [app split_go]. pose proof (prefixb_app (c :: x) []) as P. rewrite app_nil_r in P. rewrite P.
    cbn [length]. rewrite Nat.sub_succ, Nat.sub_0_r.
    assert (G : forall y : str, split_go (c :: x) (length y) y = [[]]) by (induction y as [|z y IHy]; [reflexivity | exact IHy]). rewrite G. reflexivity.
  - specialize (IH (only_at_end_cons _ _ _ H)). unfold split in *. change ((c :: base) ++ x) with (c :: (base ++ x)). cbn [split_go].
    destruct (prefixb x (c :: base ++ x)) eqn:E.
    + exfalso. apply prefixb_spec in E. destruct E as [r E]. assert (r = []) by (apply (H [] r); exact E). subst r. rewrite app_nil_r in E.
      apply (f_equal (@length N)) in E. cbn [length] in E. rewrite app_length in E. lia.
    + rewrite IH. reflexivity.
Qed.

Definition kind_ok (x : str * str) : Prop :=
  exists a e, fst x = 95%N :: a /\ snd x = s "." ++ e /\ ~ In 46%N e /\ ~ In 47%N e /\ ~ In 46%N (fst x) /\ ~ In 47%N (fst x).
Definition kind_okb (x : str * str) : bool :=
  match fst x with c :: _ => N.eqb c 95 | [] => false end &&
  match snd x with c :: e => N.eqb c 46 && negb (existsb (N.eqb 46) e) && negb (existsb (N.eqb 47) e) | [] => false end &&
  negb (existsb (N.eqb 46) (fst x)) && negb (existsb (N.eqb 47) (fst x)).
Lemma existsb_none_inv : forall c x, existsb (N.eqb c) x = false -> ~ In c x.
Proof. intros c x H Hin. assert (X : existsb (N.eqb c) x = true) by (apply existsb_exists; exists c; split; [exact Hin | apply N.eqb_refl]). congruence. Qed.
Lemma kind_okb_ok : forall x, kind_okb x = true -> kind_ok x.
Proof.
  intros [a b] H. unfold kind_okb in H. cbn [fst snd] in H. apply andb_prop in H. destruct H as [H H4]. apply andb_prop in H. destruct H as [H H3]. apply andb_prop in H. destruct H as [H1 H2].
  destruct a as [|c a]; [discriminate|]. apply N.eqb_eq in H1. subst c. destruct b as [|d e]; [discriminate|]. apply andb_prop in H2. destruct H2 as [H2 H6]. apply andb_prop in H2. destruct H2 as [H2 H5].
  apply N.eqb_eq in H2. subst d. exists a, e. apply negb_true_iff in H3, H4, H5, H6. split; [reflexivity|]. split; [reflexivity|].
  split; [apply existsb_none_inv; exact H5|]. split; [apply existsb_none_inv; exact H6|]. split; apply existsb_none_inv; assumption.
Qed.
Lemma import_kinds_ok : forall x, In x import_kinds -> kind_ok x.
Proof.
  intros x H. apply kind_okb_ok. assert (A : forallb kind_okb import_kinds = true) by (vm_compute; reflexivity). rewrite forallb_forall in A. exact (A x H).
Qed.
Lemma splitext_kind : forall x base, kind_ok x -> splitext (base ++ fst x ++ snd x) = (base ++ fst x, snd x).
Proof.
  intros [sf ex] base (a & e & E1 & E2 & N1 & N2 & N3 & N4). cbn [fst snd] in *. subst ex. rewrite app_assoc. apply splitext_ext; [exact N1 | exact N2|].
  exists 95%N. split; [|discriminate]. rewrite (name_of_app base sf N4). apply in_or_app. right. rewrite E1. left. reflexivity.
Qed.

(** C19 *)
Theorem basis_of_kind : forall x base, In x import_kinds -> only_at_end (fst x) (base ++ fst x) -> project_basis (fst x) (base ++ fst x ++ snd x) = base.
Proof.
  intros x base Hx H. pose proof (import_kinds_ok x Hx) as K. unfold project_basis. rewrite (splitext_kind x base K). cbn [fst].
  destruct K as (a & e & E1 & _). assert (NE : fst x <> []) by (rewrite E1; discriminate). rewrite (split_end _ _ NE H).
  destruct (fst x) as [|c y]; [congruence|]. cbn [removelast join]. reflexivity.
Qed.

Lemma suffixb_app_cases : forall a b t, suffixb a (t ++ b) = true -> suffixb a b = true \/ suffixb b a = true.
Proof.
  intros a b t H. apply suffixb_spec in H. destruct H as [r H]. apply app_eq_app in H. destruct H as [l [[_ H] | [_ H]]].
  - right. apply suffixb_spec. exists l. exact H.
  - left. apply suffixb_spec. exists l. exact H.
Qed.

Definition ends (x : str * str) : str := fst x ++ snd x.
Lemma first_kind : forall (l : list (str * str)) x base, In x l ->
  (forall y, In y l -> y <> x -> suffixb (ends y) (ends x) = false /\ suffixb (ends x) (ends y) = false) ->
  first (fun y => suffixb (ends y) (base ++ ends x)) l = Some x.
Proof.
  induction l as [|y l IH]; intros x base Hx H; [destruct Hx|]. cbn [first].
  assert (D : {y = x} + {y <> x}) by (decide equality; apply str_eq_dec).
  destruct D as [-> | N]; [rewrite suffixb_app; reflexivity|].
  destruct (H y (or_introl eq_refl) N) as [A B]. destruct (suffixb (ends y) (base ++ ends x)) eqn:E.
  - destruct (suffixb_app_cases _ _ _ E); congruence.
  - apply IH; [destruct Hx as [<- | Hx]; [contradiction N; reflexivity | exact Hx]|]. intros z Hz. apply H. right. exact Hz.
Qed.
Definition pair_eqb (a b : str * str) : bool := str_eqb (fst a) (fst b) && str_eqb (snd a) (snd b).
Lemma pair_eqb_neq : forall a b, a <> b -> pair_eqb a b = false.
Proof. intros [a1 a2] [b1 b2] H. apply not_true_is_false. intro E. apply andb_prop in E. destruct E as [E1 E2]. cbn [fst snd] in *. apply str_eqb_eq in E1, E2. congruence. Qed.
Lemma import_kinds_apart : forall x y, In x import_kinds -> In y import_kinds -> y <> x -> suffixb (ends y) (ends x) = false /\ suffixb (ends x) (ends y) = false.
Proof.
  intros x y Hx Hy N. assert (A : forallb (fun x => forallb (fun y => pair_eqb y x || (negb (suffixb (ends y) (ends x)) && negb (suffixb (ends x) (ends y)))) import_kinds) import_kinds = true) by (vm_compute; reflexivity).
  rewrite forallb_forall in A. specialize (A x Hx). cbv beta in A. rewrite forallb_forall in A. specialize (A y Hy). cbv beta in A. rewrite (pair_eqb_neq _ _ N) in A. cbn [orb] in A.
  apply andb_prop in A. destruct A as [A B]. apply negb_true_iff in A, B. split; assumption.
Qed.
Lemma first_map : forall {A B} (f : B -> bool) (g : A -> B) l, first f (map g l) = option_map g (first (fun x => f (g x)) l).
Proof. intros A B f g l. induction l as [|x l IH]; [reflexivity|]. cbn [map first]. destruct (f (g x)); [reflexivity | exact IH]. Qed.
Lemma first_ext : forall {A} (f g : A -> bool) l, (forall x, f x = g x) -> first f l = first g l.
Proof. intros A f g l H. induction l as [|x l IH]; [reflexivity|]. cbn [first]. rewrite H, IH. reflexivity. Qed.

Lemma import_source_kind : forall en cv x base, In cv [yw7_converter en; yw7_importer en] -> In x import_kinds ->
  import_source cv (base ++ fst x ++ snd x) = Ok (Converter.make (the_reader en x) (base ++ fst x ++ snd x)).
Proof.
  intros en cv x base Hcv Hx. assert (E : cv_import_source cv = map (the_reader en) import_kinds) by (destruct Hcv as [<- | [<- | []]]; reflexivity).
  unfold import_source. rewrite E, first_map.
  rewrite (first_ext _ (fun y => suffixb (ends y) (base ++ ends x))) by reflexivity.
  rewrite (first_kind import_kinds x base Hx (fun y Hy N => import_kinds_apart x y Hx Hy N)). reflexivity.
Qed.
Lemma export_source_kind : forall en cv x base, In cv [yw7_converter en; yw7_importer en] -> In x import_kinds -> exists e, export_source cv (base ++ fst x ++ snd x) = Err e.
Proof.
  intros en cv x base Hcv Hx. assert (E : cv_export_source cv = [the_yw7 en]) by (destruct Hcv as [<- | [<- | []]]; reflexivity).
  unfold export_source. rewrite E, (splitext_kind x base (import_kinds_ok x Hx)). cbn [first snd].
  assert (A : forallb (fun x => negb (str_eqb (s ".yw7") (snd x))) import_kinds = true) by (vm_compute; reflexivity).
  rewrite forallb_forall in A. specialize (A x Hx). apply negb_true_iff in A. change (fc_ext (the_yw7 en)) with (s ".yw7"). rewrite A. eexists. reflexivity.
Qed.

Lemma no_backslash : forall t, ~ In 92%N t -> replace (s "\") (s "/") t = t.
Proof.
  intros t H. rewrite replace_backslash. induction t as [|c t IH]; [reflexivity|]. cbn [map]. rewrite IH by (intro X; apply H; right; exact X).
  destruct (N.eqb_spec c 92) as [->|N]; [contradiction H; left; reflexivity | reflexivity].
Qed.
Lemma set_path_accepts : forall sfx ext base, ~ In 92%N (base ++ sfx ++ ext) -> set_path sfx ext (base ++ sfx ++ ext) = Some (base ++ sfx ++ ext).
Proof. intros sfx ext base H. unfold set_path. rewrite (no_backslash _ H). unfold lower. rewrite (map_app _ base). rewrite suffixb_app. reflexivity. Qed.

Lemma runs_isfile : forall {A} p (k : bool -> prog A) w r w', runs (IsFile p k) w r w' -> runs (k (present w p)) w r w'.
Proof. intros A p k w r w' R. inversion R; assumption. Qed.
Lemma crashes_isfile : forall {A} p (k : bool -> prog A) w w', crashes (IsFile p k) w w' -> w' = w \/ crashes (k (present w p)) w w'.
Proof. intros A p k w w' C. inversion C; [left; reflexivity | right; assumption]. Qed.

(** updating: the conversion is an import into the project *)
Theorem run_is_import : forall en cv x base suffix w, In cv [yw7_converter en; yw7_importer en] -> In x import_kinds -> only_at_end (fst x) (base ++ fst x) ->
  files w (base ++ fst x ++ snd x) <> None -> files w (base ++ s ".yw7") <> None ->
  let so := Converter.make (the_reader en x) (base ++ fst x ++ snd x) in let ta := Converter.make (the_yw7 en) (base ++ s ".yw7") in
  (forall r w', runs (run_converter cv (base ++ fst x ++ snd x) suffix) w r w' -> runs (import_to_yw cv so ta) w r w') /\
  (forall w', crashes (run_converter cv (base ++ fst x ++ snd x) suffix) w w' -> w' = w \/ crashes (import_to_yw cv so ta) w w').
Proof.
  intros en cv x base suffix w Hcv Hx HE Hf Hp so ta.
  assert (X1 : exists e, export_source cv (base ++ fst x ++ snd x) = Err e) by exact (export_source_kind en cv x base Hcv Hx). destruct X1 as [e X1].
  pose proof (import_source_kind en cv x base Hcv Hx) as X2.
  assert (P1 : present w (base ++ fst x ++ snd x) = true) by (unfold present; destruct (files w (base ++ fst x ++ snd x)); [reflexivity | congruence]).
  assert (P2 : present w (base ++ s ".yw7") = true) by (unfold present; destruct (files w (base ++ s ".yw7")); [reflexivity | congruence]).
  assert (ET : cv_import_target cv = [the_yw7 en]) by (destruct Hcv as [<- | [<- | []]]; reflexivity).
  assert (STEP : run_converter cv (base ++ fst x ++ snd x) suffix = IsFile (base ++ fst x ++ snd x) (fun there =>
    if negb there then Tell (s "!File not found: " ++ quoted (cv_np cv (base ++ fst x ++ snd x)) ++ s ".") (Ret (Ok None)) else
      or_tell (import_target cv (base ++ fst x ++ snd x) (fst x)) (fun target => import_to_yw cv so target))).
  { unfold run_converter. rewrite X1, X2. reflexivity. }
  assert (STEP2 : exists k, or_tell (import_target cv (base ++ fst x ++ snd x) (fst x)) (fun target => import_to_yw cv so target) = IsFile (base ++ s ".yw7") k /\ k true = import_to_yw cv so ta).
  { unfold import_target. rewrite (basis_of_kind x base Hx HE), ET. eexists. split; [reflexivity|]. reflexivity. }
  destruct STEP2 as (k & S2 & K). split.
  - intros r w' R. rewrite STEP in R. apply runs_isfile in R. rewrite P1 in R. cbn [negb] in R. rewrite S2 in R. apply runs_isfile in R. rewrite P2, K in R. exact R.
  - intros w' C. rewrite STEP in C. apply crashes_isfile in C. destruct C as [C | C]; [left; exact C|]. rewrite P1 in C. cbn [negb] in C. rewrite S2 in C. apply crashes_isfile in C.
    destruct C as [C | C]; [left; exact C|]. rewrite P2, K in C. right. exact C.
Qed.

(** importing changes the target only *)
Lemma import_frame : forall cv tmp so ta tp w, fo_path ta = Some tp -> good_reader (fo_class so) -> good_reader (fo_class ta) -> good_writer tmp (fo_class ta) ->
  wp (frame tmp tp w) (import_to_yw cv so ta) (fun r _ => forall t, r = Ok (Some t) -> t = tp) w.
Proof.
  intros cv tmp so ta tp w Et H1 H2 H3. unfold import_to_yw. cbn [wp]. split; [apply frame_same; reflexivity|]. set (w1 := log _ w). assert (E1 : files w1 = files w) by reflexivity.
  apply wp_catch. apply wp_bind. apply (wp_use _ _ _ _ _ _ (check_wp cv so ta w1)); [intros w' E; apply frame_same; congruence|].
  intros [u|e] w2 (E2 & _).
  - assert (BO : body_ok tmp tp (run t <- fc_read (fo_class ta) (path_of ta) new_novel; run r <- fc_read (fo_class so) (path_of so) (fst (fst t)); run _ <- fc_write (fo_class ta) (path_of ta) (fst (fst r)) (snd t); Ret (Ok (snd (fst r))))).
    { unfold path_of at 1 3. rewrite Et. apply body_read; [exact H2|]. intro a. apply body_read; [exact H1|]. intro b. apply (body_map _ _ _ (fun _ => snd (fst b))). apply body_write, H3. }
    assert (E12 : files w2 = files w) by congruence.
    apply (wp_use _ _ _ _ _ _ (BO w2)); [intros w' F; exact (frame_files _ _ _ _ _ E12 F)|].
    intros r w3 (F & _). apply (frame_files tmp tp w) in F; [|exact E12]. destruct r as [[|]|e]; cbn [wp].
    + split; [exact F|]. split; [exact F|]. split; [exact F|]. rewrite Et. intros t X. congruence.
    + split; [exact F|]. split; [exact F|]. rewrite Et. intros t X. congruence.
    + split; [exact F|]. split; [exact F|]. discriminate.
  - intros _. cbn [wp]. split; [apply frame_same; congruence|]. split; [apply frame_same; rewrite files_log; congruence | discriminate].
Qed.

(** a document that is not of a known kind *)
Theorem no_update : forall en cv path suffix w w', good_environment en -> In cv [yw7_converter en; yw7_importer en] ->
  (forall x, In x import_kinds -> suffixb (ends x) path = false) -> snd (splitext path) <> s ".yw7" ->
  crashes (run_converter cv path suffix) w w' -> forall q, below (en_tmp en) q = false -> files w q <> None -> files w' q = files w q.
Proof.
  intros en cv path suffix w w' GE Hcv HK HY C.
  assert (G : good_converter (en_tmp en) cv) by (apply converters_good; [exact GE | destruct Hcv as [<- | [<- | []]]; cbn; auto]).
  refine (wp_crashes (fun w' => forall q, below (en_tmp en) q = false -> files w q <> None -> files w' q = files w q) _ (fun _ _ => True) w w' _ C). clear C w'.
  assert (X1 : exists e, export_source cv path = Err e).
  { unfold export_source. assert (E : cv_export_source cv = [the_yw7 en]) by (destruct Hcv as [<- | [<- | []]]; reflexivity). rewrite E. cbn [first]. change (fc_ext (the_yw7 en)) with (s ".yw7").
    destruct (str_eqb (s ".yw7") (snd (splitext path))) eqn:EE; [apply str_eqb_eq in EE; congruence | eexists; reflexivity]. }
  assert (X2 : exists e, import_source cv path = Err e).
  { unfold import_source. assert (E : cv_import_source cv = map (the_reader en) import_kinds) by (destruct Hcv as [<- | [<- | []]]; reflexivity). rewrite E, first_map.
    destruct (first _ import_kinds) as [x|] eqn:F; [|eexists; reflexivity]. apply first_In in F. destruct F as [F1 F2]. specialize (HK x F1). change (suffixb (ends x) path = true) in F2. congruence. }
  destruct X1 as [e1 X1]. destruct X2 as [e2 X2].
  assert (NP : cv_new_project cv = Some []) by (destruct Hcv as [<- | [<- | []]]; reflexivity).
  unfold run_converter. rewrite X1, X2, NP. cbn [wp]. split; [auto|]. destruct (present w path); cbn [negb]; [|cbn [wp]; auto].
  assert (CR : forall so w1, files w1 = files w -> good_reader (fo_class so) ->
    wp (fun w' => forall q, below (en_tmp en) q = false -> files w q <> None -> files w' q = files w q)
      (create_yw7 cv None so (Converter.make (cv_yw7 cv) (fst (splitext path) ++ fc_ext (cv_yw7 cv)))) (fun _ _ => True) w1).
  { intros so w1 E1 GS. pose proof (create_nothing_wp cv (en_tmp en) None so (Converter.make (cv_yw7 cv) (fst (splitext path) ++ fc_ext (cv_yw7 cv))) w1 GS (gc_yw7 _ _ G)) as W. rewrite E1 in W. exact W. }
  unfold or_tell, make_new_project. destruct (can_import path); cbn [negb pcatch]; [|cbn [wp]; auto].
  destruct (suffixb (s ".odt") path); [|cbn [first pcatch wp]; auto].
  cbn [pcatch wp]. split; [auto|]. split.
  - intros c _. destruct (cv_content cv c) as [content|]; cbn [pcatch fst snd]; [|cbn [wp]; auto]. apply CR; [reflexivity|]. cbn [Converter.make fo_class].
    destruct (containsb (s "Heading_20_3") content); [exact (gc_outline _ _ G) | exact (gc_import _ _ G)].
  - cbn [wp]; auto.
Qed.

(** ** C20 *)
Lemma map_app_inv : forall (f : N -> N) l a b, map f l = a ++ b -> exists x y, l = x ++ y /\ map f x = a /\ map f y = b.
Proof.
  intros f l. induction l as [|c l IH]; intros a b H.
  - symmetry in H. apply app_eq_nil in H. destruct H as [-> ->]. exists [], []. repeat split.
  - destruct a as [|d a]; [exists [], (c :: l); repeat split; exact H|]. cbn [map app] in H. injection H as H1 H2. destruct (IH a b H2) as (x & y & E1 & E2 & E3).
    exists (c :: x), y. subst. repeat split.
Qed.
Theorem set_path_spec : forall sfx ext path p,
  set_path sfx ext path = Some p <-> p = map (fun c => if N.eqb c 92 then 47%N else c) path /\ exists base e, p = base ++ e /\ lower e = lower (sfx ++ ext).
Proof.
  intros sfx ext path p. unfold set_path. rewrite replace_backslash. set (p0 := map _ path). split.
  - destruct (suffixb _ _) eqn:E; [|discriminate]. intro H. injection H as <-. split; [reflexivity|]. apply suffixb_spec in E. destruct E as [r E].
    apply map_app_inv in E. destruct E as (x & y & E1 & _ & E3). exists x, y. split; assumption.
  - intros [-> (base & e & E1 & E2)]. rewrite E1. unfold lower in *. rewrite (map_app _ base), E2, suffixb_app. reflexivity.
Qed.

Lemma replace_end : forall x base, x <> [] -> only_at_end x (base ++ x) -> replace x [] (base ++ x) = base.
Proof.
  intros x base Hx H. induction base as [|c base IH].
  - cbn [app]. pose proof (replace_hit x [] [] Hx) as P. rewrite app_nil_r in P. rewrite P. reflexivity.
  - change ((c :: base) ++ x) with (c :: (base ++ x)). rewrite replace_miss; [rewrite (IH (only_at_end_cons _ _ _ H)); reflexivity|].
    apply not_true_is_false. intro E. apply prefixb_spec in E. destruct E as [r E]. assert (r = []) by (apply (H [] r); exact E). subst r. rewrite app_nil_r in E.
    apply (f_equal (@length N)) in E. cbn [length] in E. rewrite app_length in E. lia.
Qed.
Theorem project_name_spec : forall realpath quote sfx ext dir name, sfx ++ ext <> [] -> ~ In 47%N (name ++ sfx ++ ext) -> ~ In 92%N (dir ++ s "/" ++ name ++ sfx ++ ext) ->
  realpath (dir ++ s "/" ++ name ++ sfx ++ ext) = dir ++ s "/" ++ name ++ sfx ++ ext -> only_at_end (sfx ++ ext) (name ++ sfx ++ ext) ->
  project_name realpath quote sfx ext (dir ++ s "/" ++ name ++ sfx ++ ext) = Some (quote name).
Proof.
  intros realpath quote sfx ext dir name H0 H1 H2 H3 H4. unfold project_name.
  assert (E : dir ++ s "/" ++ name ++ sfx ++ ext = (dir ++ s "/" ++ name) ++ sfx ++ ext) by (rewrite <- !app_assoc; reflexivity).
  rewrite E, set_path_accepts by (rewrite <- E; exact H2). rewrite <- E, H3, (name_of_dir dir _ H1). rewrite (replace_end _ _ H0 H4). reflexivity.
Qed.

(** ** the factories *)
Theorem export_target_kind : forall en path x, In x export_kinds ->
  export_target (yw7_converter en) path (Some (Some (fst x))) = Ok (Converter.make (the_writer en x) (fst (splitext path) ++ fst x ++ snd x)).
Proof.
  intros en path x Hx. unfold export_target. change (cv_export_target (yw7_converter en)) with (map (the_writer en) export_kinds). rewrite first_map.
  assert (F : first (fun y => ostr_eqb (fc_suffix (the_writer en y)) (Some (fst x))) export_kinds = Some x).
  { rewrite (first_ext _ (fun y => str_eqb (fst y) (fst x))) by reflexivity.
    assert (A : forallb (fun x => match first (fun y => str_eqb (fst y) (fst x)) export_kinds with Some z => pair_eqb z x | None => false end) export_kinds = true) by (vm_compute; reflexivity).
    rewrite forallb_forall in A. specialize (A x Hx). cbv beta in A. destruct (first _ export_kinds) as [z|]; [|discriminate].
    destruct z as [z1 z2], x as [x1 x2]. apply andb_prop in A. cbn [fst snd] in A. destruct A as [A1 A2]. apply str_eqb_eq in A1, A2. subst. reflexivity. }
  rewrite F. reflexivity.
Qed.
Theorem export_target_unknown : forall en path sfx, ~ In sfx (map fst export_kinds) -> exists m, export_target (yw7_converter en) path (Some (Some sfx)) = Err (UserError m).
Proof.
  intros en path sfx H. unfold export_target. change (cv_export_target (yw7_converter en)) with (map (the_writer en) export_kinds). rewrite first_map.
  destruct (first _ export_kinds) as [x|] eqn:F; [|eexists; reflexivity]. exfalso. apply first_In in F. destruct F as [F1 F2]. change (str_eqb (fst x) sfx = true) in F2. apply str_eqb_eq in F2.
  apply H. rewrite <- F2. apply in_map. exact F1.
Qed.

(** run() raises only before anything else has happened *)
Lemma run_error_wp : forall cv tmp path suffix w, good_converter tmp cv ->
  wp (fun _ => True) (run_converter cv path suffix) (fun r w' => (exists e, r = Err e) -> w' = w \/ exists p, w' = log (NotRead p) w) w.
Proof.
  intros cv tmp path suffix w G. apply wp_complete; [auto|]. intros r w' R [e ->]. revert R. unfold run_converter. intro R. apply runs_isfile in R.
  assert (NOERR : forall A (y : prog A) (h : res A -> prog (option str)) w1 w2 e, (forall r w, wp (fun _ => True) (h r) (fun r _ => forall e, r <> Err e) w) -> runs (pcatch y h) w1 (Err e) w2 -> False).
  { intros A y h w1 w2 e0 Hh R0. refine (wp_runs (fun _ => True) _ (fun r _ => forall e, r <> Err e) _ _ _ _ R0 e0 eq_refl). apply wp_catch. apply wp_complete; [auto|]. intros; apply Hh. }
  assert (EXP : forall so ta w1 w2 e, runs (export_from_yw cv so ta) w1 (Err e) w2 -> False).
  { intros so ta w1 w2 e0 R0. refine (wp_runs (fun _ => True) _ (fun r _ => forall e, r <> Err e) _ _ _ _ R0 e0 eq_refl). unfold export_from_yw. cbn [wp]. split; [exact I|]. apply wp_catch. apply wp_complete; [auto|].
    intros [a|e1] w3 _; cbn [wp]; repeat (split; [exact I|]); discriminate. }
  assert (IMP : forall so ta w1 w2 e, runs (import_to_yw cv so ta) w1 (Err e) w2 -> False).
  { intros so ta w1 w2 e0 R0. refine (wp_runs (fun _ => True) _ (fun r _ => forall e, r <> Err e) _ _ _ _ R0 e0 eq_refl). unfold import_to_yw. cbn [wp]. split; [exact I|]. apply wp_catch. apply wp_complete; [auto|].
    intros [[|]|e1] w3 _; cbn [wp]; repeat (split; [exact I|]); discriminate. }
  assert (TL : forall m w1 w2 e, runs (Tell m (Ret (Ok (@None str)))) w1 (Err e) w2 -> False).
  { intros m w1 w2 e0 R0. refine (wp_runs (fun _ => True) _ (fun r _ => forall e, r <> Err e) _ _ _ _ R0 e0 eq_refl). cbn [wp]. repeat (split; [exact I|]). discriminate. }
  assert (RT : forall w1 w2 (r : res (option str)) x, runs (Ret r) w1 x w2 -> w2 = w1) by (intros w1 w2 r x R0; inversion R0; reflexivity).
  assert (TL2 : forall m w1, wp (fun _ => True) (Tell m (Ret (Ok (@None str)))) (fun r _ => forall e, r <> Err e) w1) by (intros m w1; cbn [wp]; repeat (split; [exact I|]); discriminate).
  destruct (present w path); cbn [negb] in R; [|contradiction (TL _ _ _ _ R)].
  destruct (export_source cv path) as [so|e1].
  - unfold or_tell in R. cbn [pcatch] in R. destruct (export_target cv path suffix) as [ta|[m| | | | | | | | |]]; try (left; exact (RT _ _ _ _ R)); [contradiction (EXP _ _ _ _ _ R) | contradiction (TL _ _ _ _ R)].
  - destruct (import_source cv path) as [so|e2].
    + exfalso. unfold or_tell, import_target in R. refine (wp_runs (fun _ => True) _ (fun r _ => forall e, r <> Err e) w (Err e) w' _ R e eq_refl). apply wp_catch.
      apply (wp_use _ _ _ _ _ _ (first_existing_wp _ _ _ w)); [auto|]. intros r w2 [-> [-> | (c & _ & -> & _)]].
      * apply TL2.
      * apply wp_complete; [auto|]. intros r w2 R0 e0 ->. exact (IMP _ _ _ _ _ R0).
    + destruct (cv_new_project cv) as [classes|]; [|left; exact (RT _ _ _ _ R)].
      exfalso. refine (wp_runs (fun _ => True) _ (fun r _ => forall e, r <> Err e) w (Err e) w' _ R e eq_refl). unfold or_tell.
      assert (CR : forall so w1, wp (fun _ => True) (create_yw7 cv None so (Converter.make (cv_yw7 cv) (fst (splitext path) ++ fc_ext (cv_yw7 cv)))) (fun r _ => forall e, r <> Err e) w1).
      { intros so w1. apply create_noerr. cbn [Converter.make fo_path]. destruct (gc_yw7_path _ _ G) as [X1 X2]. unfold suffix_of. rewrite X1, X2. apply yw7_path_accepted. }
      unfold make_new_project. destruct (can_import path); cbn [negb pcatch]; [|apply TL2].
      destruct (suffixb (s ".odt") path).
      * cbn [pcatch wp]. split; [exact I|].
        assert (AFTER : forall w1 (o : option str),
          wp (fun _ => True) (pcatch (match o with Some content => Ret (Ok (Converter.make (if containsb (s "Heading_20_3") content then cv_outline cv else cv_import cv) path, Converter.make (cv_yw7 cv) (fst (splitext path) ++ fc_ext (cv_yw7 cv))))
             | None => Ret (Err (UserError (s "Cannot read file: " ++ quoted (cv_np cv path) ++ s "."))) end)
             (fun r => match r with Ok a => create_yw7 cv None (fst a) (snd a) | Err (UserError m) => Tell (s "!" ++ m) (Ret (Ok None)) | Err e => Ret (Err e) end)) (fun r _ => forall e, r <> Err e) w1).
        { intros w1 [content|]; cbn [pcatch fst snd]; [apply CR | apply TL2]. }
        split; [intros c _; exact (AFTER w _) | exact (AFTER (log (NotRead path) w) None)].
      * destruct (first _ classes) as [c|]; cbn [pcatch fst snd]; [apply CR | apply TL2].
Qed.

(** deciding the guard, for instances *)
Fixpoint at_end_b (x t : str) : bool :=
  match t with [] => true | _ :: t' => (negb (prefixb x t) || Nat.eqb (length t) (length x)) && at_end_b x t' end.
Lemma at_end_b_ok : forall x t, x <> [] -> at_end_b x t = true -> only_at_end x t.
Proof.
  intros x t Hx. induction t as [|c t IH]; intros H a b E.
  - destruct a, x; try discriminate. congruence.
  - cbn [at_end_b] in H. apply andb_prop in H. destruct H as [H1 H2]. destruct a as [|d a].
    + cbn [app] in E. rewrite E, prefixb_app in H1. cbn [negb orb] in H1. apply Nat.eqb_eq in H1. rewrite app_length in H1. destruct b; [reflexivity | cbn [length] in H1; lia].
    + injection E as -> E. exact (IH H2 a b E).
Qed.
