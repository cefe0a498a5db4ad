From Coq Require Import String List NArith Bool Lia Arith.
From Verif Require Import PyStr PyDict Inliner SpecInliner.
Import ListNotations.

(** * Lines *)
Lemma firstn_app_l : forall {A} (a b : list A), firstn (length a) (a ++ b) = a.
Proof. intros A a b. rewrite firstn_app, firstn_all, Nat.sub_diag. cbn. apply app_nil_r. Qed.
Lemma import_group_sound : forall r g n, import_group g r = Some n -> exists a c t, n = g ++ a /\ r = a ++ s " import" ++ c :: t /\ n <> [] /\ c <> 10%N /\ ~ In 10%N a.
Proof.
  induction r as [|c r IH]; intros g n H; cbn [import_group] in H; [discriminate|].
  destruct (truthy g && prefixb (s " import") (c :: r) && match skipn 7 (c :: r) with d :: _ => negb (N.eqb d 10) | [] => false end) eqn:E.
  - injection H as <-. apply andb_true_iff in E as [E E3]. apply andb_true_iff in E as [E1 E2]. apply prefixb_spec in E2 as [t E2].
    rewrite E2 in E3. change (skipn 7 (s " import" ++ t)) with t in E3. destruct t as [|d t]; [discriminate|]. apply negb_true_iff, N.eqb_neq in E3.
    exists [], d, t. rewrite app_nil_r. repeat split; try assumption; [intros ->; discriminate | intros []].
  - destruct (N.eqb_spec c 10); [discriminate|]. apply IH in H as [a [d [t [-> [-> [H1 [H2 H3]]]]]]]. exists (c :: a), d, t. rewrite <- app_assoc. repeat split; try assumption.
    + now rewrite <- app_assoc in H1.
    + intros [->|I]; [congruence | contradiction].
Qed.
Lemma import_group_complete : forall a g c t, g ++ a <> [] -> c <> 10%N -> ~ In 10%N a -> exists n, import_group g (a ++ s " import" ++ c :: t) = Some n /\ length n <= length (g ++ a).
Proof.
  induction a as [|x a IH]; intros g c t H1 H2 H3.
  - rewrite app_nil_r in *. cbn [app]. exists g. split; [|lia]. destruct g as [|y g]; [congruence|]. apply N.eqb_neq in H2.
    change (s " import" ++ c :: t) with (32%N :: (s "import" ++ c :: t)). cbn [import_group truthy andb]. change (prefixb (s " import") (32%N :: s "import" ++ c :: t)) with true.
    change (skipn 7 (32%N :: s "import" ++ c :: t)) with (c :: t). cbn [andb]. now rewrite H2.
  - cbn [app import_group]. match goal with |- context[if ?b then Some g else _] => destruct b end.
    + exists g. split; [reflexivity|]. rewrite app_length. lia.
    + destruct (N.eqb_spec x 10); [subst; exfalso; apply H3; now left|]. destruct (IH (g ++ [x]) c t) as [n' [E L]].
      * destruct g; discriminate.
      * exact H2.
      * intro I. apply H3. now right.
      * exists n'. split; [exact E|]. now rewrite <- app_assoc in L.
Qed.
Lemma match_import_iff : forall line name, match_import line = Some name <-> imports_from line name.
Proof.
  assert (Sound : forall line name, match_import line = Some name -> exists c r, line = s "from " ++ name ++ s " import" ++ c :: r /\ name <> [] /\ ~ In 10%N name /\ c <> 10%N).
  { intros line name H. unfold match_import in H. destruct (prefixb (s "from ") line) eqn:E; [|discriminate]. apply prefixb_spec in E as [t ->].
    change (skipn 5 (s "from " ++ t)) with t in H. apply import_group_sound in H as [a [c [r [-> [-> [H1 [H2 H3]]]]]]]. exists c, r. now repeat split. }
  assert (Compl : forall line n c r, line = s "from " ++ n ++ s " import" ++ c :: r -> n <> [] -> ~ In 10%N n -> c <> 10%N -> exists m, match_import line = Some m /\ length m <= length n).
  { intros line n c r -> H1 H2 H3. unfold match_import. rewrite prefixb_app. change (skipn 5 (s "from " ++ n ++ s " import" ++ c :: r)) with (n ++ s " import" ++ c :: r).
    now apply (import_group_complete n [] c r). }
  intros line name. split.
  - intro H. split; [now apply Sound|]. intros n [c [r [E [H1 [H2 H3]]]]]. destruct (Compl line n c r E H1 H2 H3) as [m [Em L]]. congruence.
  - intros [[c [r [E [H1 [H2 H3]]]]] S]. destruct (Compl line name c r E H1 H2 H3) as [m [Em L]]. rewrite Em. f_equal.
    destruct (Sound line m Em) as [c' [r' [E' R]]]. specialize (S m (ex_intro _ c' (ex_intro _ r' (conj E' R)))).
    rewrite E in E'. apply app_inv_head in E'. assert (Q : firstn (length m) (name ++ s " import" ++ c :: r) = m) by (rewrite E'; apply firstn_app_l).
    assert (Q2 : firstn (length m) (name ++ s " import" ++ c :: r) = name) by (replace (length m) with (length name) by lia; apply firstn_app_l). congruence.
Qed.
Lemma package_path_join : forall n, package_path n = join [92%N; 47%N] (splitc 46 n).
Proof.
  intro n. unfold package_path. change (s ".") with [46%N]. rewrite replace_char. induction n as [|c n IH]; [reflexivity|]. cbn [flat_map splitc]. rewrite IH.
  destruct (N.eqb_spec c 46) as [->|Hc].
  - rewrite N.eqb_refl. destruct (splitc 46 n) eqn:E; [now apply splitc_nonempty in E|]. reflexivity.
  - rewrite (proj2 (N.eqb_neq 46 c)) by congruence. destruct (splitc 46 n) as [|p ps] eqn:E; [now apply splitc_nonempty in E|]. cbn [app]. destruct ps; reflexivity.
Qed.

(** * The walk through the program *)
Section Program.
Variables (files : dict str) (package packagePath : str).
Notation kind_in := (kind_in package packagePath).
Notation lines_of := (lines_of files package).

Lemma import_in : forall line name, match_import line = Some name -> containsb (s "import") line = true.
Proof.
  intros line name H. apply match_import_iff in H as [[c [r [-> _]]] _]. apply containsb_spec. exists (s "from " ++ name ++ s " "), (c :: r). now rewrite <- !app_assoc.
Qed.
Lemma lstrip_suffix : forall t, exists p, t = p ++ lstrip t.
Proof.
  unfold lstrip. induction t as [|c t [p IH]]; [now exists []|]. cbn [lstrip_by]. destruct (is_space c); [exists (c :: p); cbn; now f_equal | now exists []].
Qed.
Lemma plain_in : forall line, prefixb (s "import") (lstrip line) = true -> containsb (s "import") line = true.
Proof.
  intros line H. apply prefixb_spec in H as [t H]. destruct (lstrip_suffix line) as [p E]. rewrite H in E. apply containsb_spec. now exists p, t.
Qed.

(** one line, in a state (text, processed) *)
Definition act (fuel : nat) (line text : str) (processed : list str) (k : str -> list str -> option (res (str * list str))) : option (res (str * list str)) :=
  match kind_in line with
  | Needs m => if smem m processed then k text processed
               else match inline_module files package packagePath fuel (file_of m) text (processed ++ [m]) with
                    | Some (Ok (text, processed)) => k text processed
                    | r => r
                    end
  | Imports x => if smem x processed then k text processed else k (text ++ line) (processed ++ [x])
  | Other => k (text ++ line) processed
  end.
Fixpoint acts (fuel : nat) (lines : list str) (text : str) (processed : list str) : option (res (str * list str)) :=
  match lines with
  | [] => Some (Ok (text, processed))
  | line :: rest => act fuel line text processed (acts fuel rest)
  end.
Lemma act_eq : forall fuel line text processed k, Nat.eqb (count QUOTES line) 1 = false ->
  (if containsb (s "import") line then
    match match_import line with
    | Some name =>
        if containsb package name then
          let moduleName := packagePath ++ package_path name in
          if smem moduleName processed then k text processed
          else match inline_module files package packagePath fuel (moduleName ++ s ".py") text (processed ++ [moduleName]) with
               | Some (Ok (text, processed)) => k text processed
               | r => r
               end
        else if startswith (s "import") (lstrip line) then
          let moduleName := rstrip (replace (s "import ") [] line) in
          if smem moduleName processed then k text processed else k (text ++ line) (processed ++ [moduleName])
        else k (text ++ line) processed
    | None =>
        if startswith (s "import") (lstrip line) then
          let moduleName := rstrip (replace (s "import ") [] line) in
          if smem moduleName processed then k text processed else k (text ++ line) (processed ++ [moduleName])
        else k (text ++ line) processed
    end
  else k (text ++ line) processed) = act fuel line text processed k.
Proof.
  intros fuel line text processed k Q. unfold act, SpecInliner.kind_in, line_kind. rewrite Q. unfold kind_of. destruct (match_import line) as [name|] eqn:E.
  - rewrite (import_in line name E). destruct (containsb package name).
    + unfold module_path. rewrite package_path_join. reflexivity.
    + unfold startswith. destruct (prefixb (s "import") (lstrip line)); reflexivity.
  - unfold startswith. destruct (prefixb (s "import") (lstrip line)) eqn:P; [|destruct (containsb _ line); reflexivity]. now rewrite (plain_in line P).
Qed.
Lemma inline_acts : forall fuel file text processed, inline_module files package packagePath (S fuel) file text processed =
  match dget file files with None => Some (Err OSError) | Some _ => acts fuel (lines_of file) text processed end.
Proof.
  intros fuel file text processed. cbn [inline_module]. unfold SpecInliner.lines_of. destruct (dget file files) as [content|]; [|reflexivity].
  enough (G : forall lines doc text processed, loop package packagePath (inline_module files package packagePath fuel) file lines doc text processed = acts fuel (relevant (containsb package file) doc lines) text processed) by apply G.
  clear. induction lines as [|line rest IH]; intros doc text processed; [reflexivity|].
  cbn [relevant loop]. unfold startswith at 1. destruct (prefixb (s "# do_not_inline") line); [reflexivity|].
  destruct (Nat.eqb (count QUOTES line) 2) eqn:Q2; [rewrite orb_true_r; apply IH|]. rewrite orb_false_r.
  unfold comment. unfold startswith at 1 2. destruct (prefixb (s "#") (lstrip line) && negb (prefixb (s "#!") (lstrip line))); [apply IH|].
  destruct (Nat.eqb (count QUOTES line) 1) eqn:Q1.
  - destruct (containsb package file); [apply IH|]. cbn [acts]. unfold act, SpecInliner.kind_in, line_kind. rewrite Q1. apply IH.
  - destruct doc; [apply IH|]. destruct (containsb package file && _); [reflexivity|]. cbn [acts]. rewrite <- (act_eq fuel line text processed _ Q1).
    destruct (containsb (s "import") line); [|apply IH].
    destruct (match_import line) as [name|].
    + destruct (containsb package name).
      * cbv zeta. destruct (smem _ processed); [apply IH|]. destruct (inline_module _ _ _ fuel _ _ _) as [[[t p]|e]|]; [apply IH | reflexivity | reflexivity].
      * destruct (startswith (s "import") (lstrip line)); [|apply IH]. cbv zeta. destruct (smem _ processed); apply IH.
    + destruct (startswith (s "import") (lstrip line)); [|apply IH]. cbv zeta. destruct (smem _ processed); apply IH.
Qed.

(** ** It ends *)
Notation inline := (inline_module files package packagePath).
Definition open_files (processed : list str) : nat := length (filter (fun k => negb (smem k (map file_of processed))) (dkeys files)).
Lemma filter_le : forall {A} (f g : A -> bool) l, (forall x, f x = true -> g x = true) -> length (filter f l) <= length (filter g l).
Proof.
  intros A f g l H. induction l as [|x l IH]; [reflexivity|]. cbn [filter]. destruct (f x) eqn:E; [rewrite (H x E); cbn; lia | destruct (g x); cbn; lia].
Qed.
Lemma filter_lt : forall {A} (f g : A -> bool) l x, (forall x, f x = true -> g x = true) -> In x l -> f x = false -> g x = true -> length (filter f l) < length (filter g l).
Proof.
  intros A f g l x H. induction l as [|y l IH]; intros I F G; [destruct I|]. cbn [filter]. destruct I as [->|I].
  - rewrite F, G. pose proof (filter_le f g l H). cbn. lia.
  - specialize (IH I F G). destruct (f y) eqn:E; [rewrite (H y E); cbn; lia | destruct (g y); cbn; lia].
Qed.
Lemma open_le : forall p q, (forall x, In x p -> In x q) -> open_files q <= open_files p.
Proof.
  intros p q H. apply filter_le. intros k Hk. apply negb_true_iff, smem_false in Hk. apply negb_true_iff, smem_false. intro I. apply Hk.
  apply in_map_iff in I as [m [<- I]]. apply in_map_iff. exists m. split; [reflexivity | now apply H].
Qed.
Lemma open_lt : forall p m, ~ In m p -> In (file_of m) (dkeys files) -> open_files (p ++ [m]) < open_files p.
Proof.
  intros p m N I. apply (filter_lt _ _ _ (file_of m)).
  - intros k Hk. apply negb_true_iff, smem_false in Hk. apply negb_true_iff, smem_false. intro J. apply Hk. rewrite map_app. apply in_or_app. now left.
  - exact I.
  - apply negb_false_iff, smem_In. rewrite map_app. apply in_or_app. right. now left.
  - apply negb_true_iff, smem_false. intro J. apply in_map_iff in J as [m' [E J]]. unfold file_of in E. apply app_inv_tail in E. now subst.
Qed.
Definition ends (p : list str) (r : option (res (str * list str))) : Prop :=
  match r with Some (Ok (_, p')) => forall x, In x p -> In x p' | Some (Err _) => True | None => False end.
Lemma acts_ends : forall fuel, (forall f text p, dget f files = None /\ 1 <= fuel \/ open_files p + 2 <= fuel -> ends p (inline fuel f text p)) ->
  forall lines text p, open_files p + 1 <= fuel -> ends p (acts fuel lines text p).
Proof.
  intros fuel H. induction lines as [|line rest IH]; intros text p L; cbn [acts]; [cbn; auto|]. unfold act.
  destruct (kind_in line) as [m|x|]; [| |now apply IH].
  - destruct (smem m p) eqn:E; [now apply IH|]. apply smem_false in E.
    assert (E1 : ends (p ++ [m]) (inline fuel (file_of m) text (p ++ [m]))).
    { apply H. destruct (dget (file_of m) files) as [c|] eqn:D; [right | left; split; [reflexivity | lia]].
      assert (I : In (file_of m) (dkeys files)) by (apply dget_Some_key; eauto). pose proof (open_lt p m E I). lia. }
    destruct (inline fuel (file_of m) text (p ++ [m])) as [[[t' p']|e]|]; [|exact I|exact E1]. cbn in E1.
    assert (S : forall x, In x p -> In x p') by (intros x Hx; apply E1; apply in_or_app; now left).
    assert (E2 : ends p' (acts fuel rest t' p')) by (apply IH; pose proof (open_le p p' S); lia).
    destruct (acts fuel rest t' p') as [[[t2 p2]|e]|]; cbn in *; auto.
  - destruct (smem x p); [now apply IH|]. assert (E2 : ends (p ++ [x]) (acts fuel rest (text ++ line) (p ++ [x]))).
    { apply IH. assert (S : forall y, In y p -> In y (p ++ [x])) by (intros y Hy; apply in_or_app; now left). pose proof (open_le p (p ++ [x]) S). lia. }
    destruct (acts fuel rest (text ++ line) (p ++ [x])) as [[[t2 p2]|e]|]; cbn in *; auto. intros y Hy. apply E2. apply in_or_app. now left.
Qed.
Lemma inline_ends : forall fuel f text p, dget f files = None /\ 1 <= fuel \/ open_files p + 2 <= fuel -> ends p (inline fuel f text p).
Proof.
  induction fuel as [|fuel IH]; intros f text p H; [lia|]. rewrite inline_acts. destruct (dget f files) eqn:D; [|exact I]. destruct H as [[H _]|H]; [discriminate|].
  apply acts_ends; [exact IH | lia].
Qed.
Lemma run_ends : forall root, exists r, run files package packagePath root = Some r.
Proof.
  intro root. unfold run. assert (E : ends [] (inline (S (S (length files))) root [] [])).
  { apply inline_ends. right. enough (open_files [] <= length files) by lia. unfold open_files, dkeys. etransitivity; [apply filter_le with (g := fun _ => true); auto|]. clear. induction files as [|x l IH]; cbn; lia. }
  destruct (inline _ root [] []) as [[[t p]|e]|]; [eexists; reflexivity | eexists; reflexivity | destruct E].
Qed.

(** ** What it does *)
Definition out := list (str * str).
Inductive go : str -> list str -> list str -> list str -> out -> list str -> list str -> Prop :=
| go_nil : forall f ms xs, go f [] ms xs [] ms xs
| go_other : forall f line rest ms xs o ms' xs', kind_in line = Other -> go f rest ms xs o ms' xs' -> go f (line :: rest) ms xs ((f, line) :: o) ms' xs'
| go_import_old : forall f line x rest ms xs o ms' xs', kind_in line = Imports x -> In x xs -> go f rest ms xs o ms' xs' -> go f (line :: rest) ms xs o ms' xs'
| go_import_new : forall f line x rest ms xs o ms' xs', kind_in line = Imports x -> ~ In x xs -> go f rest ms (xs ++ [x]) o ms' xs' -> go f (line :: rest) ms xs ((f, line) :: o) ms' xs'
| go_need_old : forall f line m rest ms xs o ms' xs', kind_in line = Needs m -> In m ms -> go f rest ms xs o ms' xs' -> go f (line :: rest) ms xs o ms' xs'
| go_need_new : forall f line m rest ms xs o1 ms1 xs1 o2 ms' xs', kind_in line = Needs m -> ~ In m ms -> In (file_of m) (dkeys files) ->
    go (file_of m) (lines_of (file_of m)) (ms ++ [m]) xs o1 ms1 xs1 -> go f rest ms1 xs1 o2 ms' xs' -> go f (line :: rest) ms xs (o1 ++ o2) ms' xs'.

Notation needs := (needs files package packagePath).
Notation imports := (imports files package packagePath).
Record inv (p ms xs : list str) : Prop := {
  inv_in : forall x, In x p <-> In x ms \/ In x xs;
  inv_ms : forall m, In m ms -> exists f, needs f m;
  inv_xs : forall x, In x xs -> exists f, imports f x }.
Hypothesis Clash : no_clash files package packagePath.
Lemma acts_go : forall fuel, (forall f text p ms xs t' p', inline fuel f text p = Some (Ok (t', p')) -> inv p ms xs ->
    exists o ms' xs', In f (dkeys files) /\ go f (lines_of f) ms xs o ms' xs' /\ t' = text ++ concat (map snd o) /\ inv p' ms' xs') ->
  forall f lines text p ms xs t' p', (forall l, In l lines -> In l (lines_of f)) -> acts fuel lines text p = Some (Ok (t', p')) -> inv p ms xs ->
  exists o ms' xs', go f lines ms xs o ms' xs' /\ t' = text ++ concat (map snd o) /\ inv p' ms' xs'.
Proof.
  intros fuel H f. induction lines as [|line rest IH]; intros text p ms xs t' p' S E V; cbn [acts] in E.
  - injection E as <- <-. exists [], ms, xs. cbn. rewrite app_nil_r. split; [constructor|]. split; [reflexivity | exact V].
  - assert (S' : forall l, In l rest -> In l (lines_of f)) by (intros; apply S; now right). unfold act in E. destruct (kind_in line) as [m|x|] eqn:K.
    + assert (Nm : needs f m) by (exists line; split; [apply S; now left | exact K]).
      destruct (smem m p) eqn:M.
      * apply smem_In, (inv_in _ _ _ V) in M. destruct M as [M|M]; [|destruct (inv_xs _ _ _ V m M) as [g Hg]; destruct (Clash f g m Nm Hg)].
        destruct (IH _ _ _ _ _ _ S' E V) as [o [ms' [xs' [G R]]]]. exists o, ms', xs'. split; [now apply (go_need_old f line m) | exact R].
      * apply smem_false in M. destruct (inline fuel (file_of m) text (p ++ [m])) as [[[t1 p1]|e]|] eqn:I1; [|discriminate|discriminate].
        assert (V1 : inv (p ++ [m]) (ms ++ [m]) xs).
        { split.
          - intro x. rewrite !in_app_iff, (inv_in _ _ _ V x). cbn. tauto.
          - intros y Hy. apply in_app_or in Hy as [Hy|[<-|[]]]; [now apply (inv_ms _ _ _ V) | eauto].
          - apply (inv_xs _ _ _ V). }
        destruct (H _ _ _ _ _ _ _ I1 V1) as [o1 [ms1 [xs1 [In1 [G1 [-> W1]]]]]]. destruct (IH _ _ _ _ _ _ S' E W1) as [o2 [ms2 [xs2 [G2 [-> W2]]]]].
        exists (o1 ++ o2), ms2, xs2. split; [|split; [now rewrite map_app, concat_app, <- app_assoc | exact W2]].
        apply (go_need_new f line m rest ms xs o1 ms1 xs1 o2); try assumption. intro J. apply M. apply (inv_in _ _ _ V). now left.
    + assert (Nx : imports f x) by (exists line; split; [apply S; now left | exact K]).
      destruct (smem x p) eqn:M.
      * apply smem_In, (inv_in _ _ _ V) in M. destruct M as [M|M]; [destruct (inv_ms _ _ _ V x M) as [g Hg]; destruct (Clash g f x Hg Nx)|].
        destruct (IH _ _ _ _ _ _ S' E V) as [o [ms' [xs' [G R]]]]. exists o, ms', xs'. split; [now apply (go_import_old f line x) | exact R].
      * apply smem_false in M. assert (V1 : inv (p ++ [x]) ms (xs ++ [x])).
        { split.
          - intro y. rewrite !in_app_iff, (inv_in _ _ _ V y). cbn. tauto.
          - apply (inv_ms _ _ _ V).
          - intros y Hy. apply in_app_or in Hy as [Hy|[<-|[]]]; [now apply (inv_xs _ _ _ V) | eauto]. }
        destruct (IH _ _ _ _ _ _ S' E V1) as [o [ms' [xs' [G [-> W]]]]]. exists ((f, line) :: o), ms', xs'. split; [|split; [cbn; now rewrite <- app_assoc | exact W]].
        apply (go_import_new f line x); try assumption. intro J. apply M. apply (inv_in _ _ _ V). now right.
    + destruct (IH _ _ _ _ _ _ S' E V) as [o [ms' [xs' [G [-> W]]]]]. exists ((f, line) :: o), ms', xs'. split; [now constructor|]. split; [cbn; now rewrite <- app_assoc | exact W].
Qed.
Lemma inline_go : forall fuel f text p ms xs t' p', inline fuel f text p = Some (Ok (t', p')) -> inv p ms xs ->
    exists o ms' xs', In f (dkeys files) /\ go f (lines_of f) ms xs o ms' xs' /\ t' = text ++ concat (map snd o) /\ inv p' ms' xs'.
Proof.
  induction fuel as [|fuel IH]; intros f text p ms xs t' p' E V; [discriminate|]. rewrite inline_acts in E. destruct (dget f files) eqn:D; [|discriminate].
  destruct (acts_go fuel IH f _ _ _ _ _ _ _ (fun l Hl => Hl) E V) as [o [ms' [xs' R]]]. exists o, ms', xs'. split; [apply dget_Some_key; eauto | exact R].
Qed.
Lemma run_go : forall root text, run files package packagePath root = Some (Ok text) -> exists o ms xs, In root (dkeys files) /\ go root (lines_of root) [] [] o ms xs /\ text = concat (map snd o).
Proof.
  intros root text H. unfold run in H. destruct (inline _ root [] []) as [[[t p]|e]|] eqn:E; try discriminate. injection H as <-.
  assert (V : inv [] [] []) by (split; cbn; [tauto | intros ? [] | intros ? []]).
  destruct (inline_go _ _ _ _ _ _ _ _ E V) as [o [ms [xs [I [G [-> _]]]]]]. now exists o, ms, xs.
Qed.

(** *** the modules *)
Lemma go_mods : forall f lines ms xs o ms' xs', go f lines ms xs o ms' xs' -> exists M, ms' = ms ++ M /\ (NoDup ms -> NoDup ms').
Proof.
  intros f lines ms xs o ms' xs' G. induction G as [| | | | |f line m rest ms xs o1 ms1 xs1 o2 ms' xs' K N I G1 [M1 [-> D1]] G2 [M2 [-> D2]]]; auto.
  - exists []. rewrite app_nil_r. auto.
  - exists (m :: M1 ++ M2). rewrite <- !app_assoc in *. cbn [app] in *. split; [reflexivity|]. intro Nd. apply D2, D1. rewrite <- (rev_involutive (ms ++ [m])), rev_app_distr. apply NoDup_rev.
    cbn. constructor; [now rewrite <- in_rev | now apply NoDup_rev].
Qed.
Lemma go_closed : forall f lines ms xs o ms' xs', go f lines ms xs o ms' xs' ->
  (forall l m, In l lines -> kind_in l = Needs m -> In m ms') /\ (forall m, In m ms' -> In m ms \/ In (file_of m) (dkeys files) /\ forall m', needs (file_of m) m' -> In m' ms').
Proof.
  intros f lines ms xs o ms' xs' G. induction G as [f ms xs|f line rest ms xs o ms' xs' K G [A B]|f line x rest ms xs o ms' xs' K I G [A B]|f line x rest ms xs o ms' xs' K I G [A B]|f line m rest ms xs o ms' xs' K I G [A B]|
      f line m rest ms xs o1 ms1 xs1 o2 ms' xs' K N I G1 [A1 B1] G2 [A2 B2]].
  - split; [intros l m [] | auto].
  - split; [|exact B]. intros l m [<-|H] Hk; [congruence | eauto].
  - split; [|exact B]. intros l m [<-|H] Hk; [congruence | eauto].
  - split; [|exact B]. intros l m [<-|H] Hk; [congruence | eauto].
  - split; [|exact B]. intros l m' [<-|H] Hk; [|eauto]. replace m' with m by congruence. destruct (go_mods _ _ _ _ _ _ _ G) as [M [-> _]]. apply in_or_app. now left.
  - destruct (go_mods _ _ _ _ _ _ _ G1) as [M1 [E1 _]]. destruct (go_mods _ _ _ _ _ _ _ G2) as [M2 [E2 _]]. split.
    + intros l m' [<-|H] Hk; [|eauto]. replace m' with m by congruence. subst. rewrite <- !app_assoc. apply in_or_app. right. now left.
    + intros m' H. destruct (B2 m' H) as [H1|H1]; [|now right]. destruct (B1 m' H1) as [H2|[J H2]].
      * apply in_app_or in H2 as [H2|[<-|[]]]; [now left|]. right. split; [exact I|]. intros m' [l [Hl Hk]]. subst ms'. apply in_or_app. left. now apply (A1 l m').
      * right. split; [exact J|]. intros m2 Hm2. subst ms'. apply in_or_app. left. now apply H2.
Qed.
Lemma go_reach : forall root f lines ms xs o ms' xs', go f lines ms xs o ms' xs' -> (forall l m, In l lines -> kind_in l = Needs m -> needed files package packagePath root m) ->
  (forall m, In m ms -> needed files package packagePath root m) -> forall m, In m ms' -> needed files package packagePath root m.
Proof.
  intros root f lines ms xs o ms' xs' G. induction G as [| | | | |f line m rest ms xs o1 ms1 xs1 o2 ms' xs' K N I G1 IH1 G2 IH2]; intros L P; auto.
  1-4: apply IHG; auto; intros l m' Hl; apply L; now right.
  assert (Nm : needed files package packagePath root m) by (apply (L line); [now left | exact K]).
  apply IH2; [intros l m' Hl; apply L; now right|]. apply IH1.
  - intros l m' Hl Hk. apply (nd_step _ _ _ _ m m' Nm). now exists l.
  - intros m' H. apply in_app_or in H as [H|[<-|[]]]; auto.
Qed.

(** *** the lines *)
Notation other := (other package packagePath).
Notation plain := (plain package packagePath).
Lemma file_of_inj : forall a b, file_of a = file_of b -> a = b.
Proof. intros a b. apply app_inv_tail. Qed.
Lemma go_tags : forall f lines ms xs o ms' xs', go f lines ms xs o ms' xs' -> forall M, ms' = ms ++ M -> forall t, In t (map fst o) -> t = f \/ exists m, In m M /\ t = file_of m.
Proof.
  intros f lines ms xs o ms' xs' G. induction G as [f ms xs|f line rest ms xs o ms' xs' K G IH|f line x rest ms xs o ms' xs' K I G IH|f line x rest ms xs o ms' xs' K I G IH|f line m rest ms xs o ms' xs' K I G IH|
      f line m rest ms xs o1 ms1 xs1 o2 ms' xs' K N I G1 IH1 G2 IH2]; intros M E t Ht.
  - destruct Ht.
  - destruct Ht as [<-|Ht]; [now left | eauto].
  - eauto.
  - destruct Ht as [<-|Ht]; [now left | eauto].
  - eauto.
  - destruct (go_mods _ _ _ _ _ _ _ G1) as [M1 [E1 _]]. destruct (go_mods _ _ _ _ _ _ _ G2) as [M2 [E2 _]].
    assert (EM : M = m :: M1 ++ M2) by (rewrite E2, E1 in E; rewrite <- !app_assoc in E; apply app_inv_head in E; now symmetry). subst M.
    rewrite map_app in Ht. apply in_app_or in Ht as [Ht|Ht].
    + destruct (IH1 M1 E1 t Ht) as [->|[m' [Hm ->]]]; right; [exists m; split; [now left | reflexivity]|]. exists m'. split; [right; apply in_or_app; now left | reflexivity].
    + destruct (IH2 M2 E2 t Ht) as [->|[m' [Hm ->]]]; [now left|]. right. exists m'. split; [right; apply in_or_app; now right | reflexivity].
Qed.
Lemma from_app : forall f a b, from_file f (a ++ b) = from_file f a ++ from_file f b.
Proof. intros f a b. unfold from_file. now rewrite filter_app, map_app. Qed.
Lemma from_none : forall f o, ~ In f (map fst o) -> from_file f o = [].
Proof.
  intros f o H. unfold from_file. induction o as [|[g l] o IH]; [reflexivity|]. cbn [filter fst]. destruct (str_eqb g f) eqn:E; [|apply IH; intro; apply H; now right].
  apply str_eqb_eq in E. subst. destruct H. now left.
Qed.
Lemma from_same : forall f l o, from_file f ((f, l) :: o) = l :: from_file f o.
Proof. intros f l o. unfold from_file. cbn [filter fst]. now rewrite str_eqb_refl. Qed.
Lemma from_other : forall f g l o, g <> f -> from_file f ((g, l) :: o) = from_file f o.
Proof. intros f g l o H. unfold from_file. cbn [filter fst]. apply str_eqb_neq in H. now rewrite H. Qed.
Lemma nodup_split : forall (a b : list str), NoDup (a ++ b) -> NoDup a /\ NoDup b /\ forall x, In x a -> ~ In x b.
Proof.
  induction a as [|x a IH]; intros b H; cbn in *; [split; [constructor|]; split; [exact H | intros ? []]|]. inversion H as [|? ? H1 H2]; subst. destruct (IH b H2) as [A [B C]].
  split; [constructor; [intro; apply H1, in_or_app; now left | exact A]|]. split; [exact B|]. intros y [<-|Hy]; [intro; apply H1, in_or_app; now right | now apply C].
Qed.
Lemma other_true : forall l, kind_in l = Other -> other l = true.
Proof. intros l H. unfold SpecInliner.other. now rewrite H. Qed.
Lemma other_import : forall l x, kind_in l = Imports x -> other l = false.
Proof. intros l x H. unfold SpecInliner.other. now rewrite H. Qed.
Lemma other_need : forall l x, kind_in l = Needs x -> other l = false.
Proof. intros l x H. unfold SpecInliner.other. now rewrite H. Qed.
(** the lines of each file, without imports *)
Lemma go_lines : forall f lines ms xs o ms' xs', go f lines ms xs o ms' xs' -> forall M, ms' = ms ++ M -> NoDup ms' -> ~ In f (map file_of M) ->
  filter other (from_file f o) = filter other lines /\ forall m, In m M -> filter other (from_file (file_of m) o) = filter other (lines_of (file_of m)).
Proof.
  intros f lines ms xs o ms' xs' G. induction G as [f ms xs|f line rest ms xs o ms' xs' K G IH|f line x rest ms xs o ms' xs' K I G IH|f line x rest ms xs o ms' xs' K I G IH|f line m rest ms xs o ms' xs' K I G IH|
      f line m rest ms xs o1 ms1 xs1 o2 ms' xs' K N I G1 IH1 G2 IH2]; intros M E Nd Nf.
  - assert (M = []) as -> by (destruct M; [reflexivity|]; apply (f_equal (@length str)) in E; rewrite app_length in E; cbn in E; lia). split; [reflexivity | intros m []].
  - destruct (IH M E Nd Nf) as [A B]. split.
    + rewrite from_same. cbn [filter]. rewrite (other_true _ K). now rewrite A.
    + intros m Hm. rewrite from_other; [now apply B|]. intros ->. apply Nf. now apply in_map.
  - destruct (IH M E Nd Nf) as [A B]. split; [|exact B]. cbn [filter]. rewrite (other_import _ _ K). exact A.
  - destruct (IH M E Nd Nf) as [A B]. split.
    + rewrite from_same. cbn [filter]. rewrite (other_import _ _ K). exact A.
    + intros m Hm. rewrite from_other; [now apply B|]. intros ->. apply Nf. now apply in_map.
  - destruct (IH M E Nd Nf) as [A B]. split; [|exact B]. cbn [filter]. rewrite (other_need _ _ K). exact A.
  - destruct (go_mods _ _ _ _ _ _ _ G1) as [M1 [E1 _]]. destruct (go_mods _ _ _ _ _ _ _ G2) as [M2 [E2 _]].
    assert (EM : M = m :: M1 ++ M2) by (rewrite E2, E1 in E; rewrite <- !app_assoc in E; apply app_inv_head in E; now symmetry). subst M. cbn [map] in Nf. rewrite map_app in Nf.
    assert (N0 : NoDup (ms ++ m :: M1 ++ M2)) by (now rewrite <- E).
    destruct (nodup_split _ _ N0) as [_ [N1 _]]. inversion N1 as [|? ? N2 N3]; subst. destruct (nodup_split _ _ N3) as [_ [_ N4]].
    assert (D1 : NoDup ((ms ++ [m]) ++ M1)) by (rewrite <- app_assoc; cbn; replace (ms ++ m :: M1 ++ M2) with ((ms ++ m :: M1) ++ M2) in N0 by (now rewrite <- app_assoc); now apply nodup_split in N0).
    assert (F1 : ~ In (file_of m) (map file_of M1)).
    { intro J. apply in_map_iff in J as [m' [Em J]]. apply file_of_inj in Em. subst. apply N2. apply in_or_app. now left. }
    assert (F2 : ~ In f (map file_of M2)) by (intro J; apply Nf; right; apply in_or_app; now right).
    destruct (IH1 M1 eq_refl D1 F1) as [A1 B1]. assert (EE : ms ++ m :: M1 ++ M2 = ((ms ++ [m]) ++ M1) ++ M2) by (now rewrite <- !app_assoc). destruct (IH2 M2 EE Nd F2) as [A2 B2].
    pose proof (go_tags _ _ _ _ _ _ _ G1 M1 eq_refl) as T1. pose proof (go_tags _ _ _ _ _ _ _ G2 M2 EE) as T2.
    assert (O1 : from_file f o1 = []).
    { apply from_none. intro J. destruct (T1 f J) as [->|[m' [Hm ->]]]; apply Nf; [now left | right; apply in_or_app; left; now apply in_map]. }
    assert (O2 : forall m', In m' (m :: M1) -> from_file (file_of m') o2 = []).
    { intros m' Hm. apply from_none. intro J. destruct (T2 _ J) as [<-|[m2 [Hm2 Ef]]].
      - apply Nf. destruct Hm as [->|Hm]; [now left | right; apply in_or_app; left; now apply in_map].
      - apply file_of_inj in Ef. subst m2. destruct Hm as [->|Hm]; [apply N2; apply in_or_app; now right | now apply (N4 m')]. }
    split.
    + rewrite from_app, O1. cbn [app filter]. rewrite (other_need _ _ K). exact A2.
    + intros m' Hm. rewrite from_app, filter_app. destruct Hm as [<-|Hm].
      * rewrite (O2 m) by (now left). rewrite app_nil_r. exact A1.
      * apply in_app_or in Hm as [Hm|Hm].
        -- rewrite (O2 m') by (now right). rewrite app_nil_r. now apply B1.
        -- rewrite (from_none (file_of m') o1), B2 by (exact Hm || (intro J; destruct (T1 _ J) as [Ef|[m2 [Hm2 Ef]]]; apply file_of_inj in Ef; subst;
             [apply N2; apply in_or_app; now right | now apply (N4 m2)])). reflexivity.
Qed.

(** *** plain imports *)
Definition names_of (o : out) : list str := flat_map (fun p => match kind_in (snd p) with Imports x => [x] | _ => [] end) o.
Lemma names_app : forall a b, names_of (a ++ b) = names_of a ++ names_of b.
Proof. intros. unfold names_of. apply flat_map_app. Qed.
Lemma go_imports : forall f lines ms xs o ms' xs', go f lines ms xs o ms' xs' -> xs' = xs ++ names_of o /\ (NoDup xs -> NoDup xs').
Proof.
  intros f lines ms xs o ms' xs' G. induction G as [f ms xs|f line rest ms xs o ms' xs' K G [A B]|f line x rest ms xs o ms' xs' K I G [A B]|f line x rest ms xs o ms' xs' K I G [A B]|f line m rest ms xs o ms' xs' K I G [A B]|
      f line m rest ms xs o1 ms1 xs1 o2 ms' xs' K N I G1 [A1 B1] G2 [A2 B2]].
  - cbn. now rewrite app_nil_r.
  - split; [|exact B]. unfold names_of. cbn [flat_map snd]. rewrite K. exact A.
  - now split.
  - split.
    + unfold names_of. cbn [flat_map snd]. rewrite K. cbn [app]. rewrite A, <- app_assoc. reflexivity.
    + intro Nd. apply B. rewrite <- (rev_involutive (xs ++ [x])), rev_app_distr. apply NoDup_rev. cbn. constructor; [now rewrite <- in_rev | now apply NoDup_rev].
  - now split.
  - split; [rewrite A2, A1, names_app, <- app_assoc; reflexivity | auto].
Qed.
Lemma go_imports_all : forall f lines ms xs o ms' xs', go f lines ms xs o ms' xs' -> (forall l x, In l lines -> kind_in l = Imports x -> In x xs') /\
  forall M, ms' = ms ++ M -> forall m x, In m M -> imports (file_of m) x -> In x xs'.
Proof.
  intros f lines ms xs o ms' xs' G. induction G as [f ms xs|f line rest ms xs o ms' xs' K G [A B]|f line x rest ms xs o ms' xs' K I G [A B]|f line x rest ms xs o ms' xs' K I G [A B]|f line m rest ms xs o ms' xs' K I G [A B]|
      f line m rest ms xs o1 ms1 xs1 o2 ms' xs' K N I G1 [A1 B1] G2 [A2 B2]].
  - split; [intros l x []|]. intros M E m x Hm. apply (f_equal (@length str)) in E. rewrite app_length in E. destruct M; [destruct Hm | cbn in E; lia].
  - split; [|exact B]. intros l x [<-|H] Hk; [congruence | eauto].
  - split; [|exact B]. intros l y [<-|H] Hk; [|eauto]. replace y with x by congruence. destruct (go_imports _ _ _ _ _ _ _ G) as [-> _]. apply in_or_app. now left.
  - split; [|exact B]. intros l y [<-|H] Hk; [|eauto]. replace y with x by congruence. destruct (go_imports _ _ _ _ _ _ _ G) as [-> _]. apply in_or_app. left. apply in_or_app. right. now left.
  - split; [|exact B]. intros l x [<-|H] Hk; [congruence | eauto].
  - destruct (go_mods _ _ _ _ _ _ _ G1) as [M1 [E1 _]]. destruct (go_mods _ _ _ _ _ _ _ G2) as [M2 [E2 _]]. destruct (go_imports _ _ _ _ _ _ _ G2) as [X2 _].
    split; [intros l x [<-|H] Hk; [congruence | eauto]|]. intros M E m' x Hm Hx.
    assert (EM : M = m :: M1 ++ M2) by (rewrite E2, E1 in E; rewrite <- !app_assoc in E; apply app_inv_head in E; now symmetry). subst M.
    destruct Hm as [<-|Hm].
    + destruct Hx as [l [Hl Hk]]. rewrite X2. apply in_or_app. left. now apply (A1 l x).
    + apply in_app_or in Hm as [Hm|Hm]; [|now apply (B2 M2 E2 m' x)]. rewrite X2. apply in_or_app. left. now apply (B1 M1 E1 m' x).
Qed.
Lemma go_source : forall f lines ms xs o ms' xs', go f lines ms xs o ms' xs' -> (forall l, In l lines -> In l (lines_of f)) ->
  forall g l, In (g, l) o -> In l (lines_of g) /\ forall m, kind_in l <> Needs m.
Proof.
  intros f lines ms xs o ms' xs' G. induction G as [f ms xs|f line rest ms xs o ms' xs' K G IH|f line x rest ms xs o ms' xs' K I G IH|f line x rest ms xs o ms' xs' K I G IH|f line m rest ms xs o ms' xs' K I G IH|
      f line m rest ms xs o1 ms1 xs1 o2 ms' xs' K N I G1 IH1 G2 IH2]; intros S g l H.
  - destruct H.
  - destruct H as [E|H]; [injection E as <- <-; split; [apply S; now left | congruence]|]. apply IH; [intros; apply S; now right | exact H].
  - apply IH; [intros; apply S; now right | exact H].
  - destruct H as [E|H]; [injection E as <- <-; split; [apply S; now left | congruence]|]. apply IH; [intros; apply S; now right | exact H].
  - apply IH; [intros; apply S; now right | exact H].
  - apply in_app_or in H as [H|H]; [now apply IH1 | apply IH2; [intros; apply S; now right | exact H]].
Qed.
Lemma plain_count : forall x o, NoDup (names_of o) -> length (filter (plain x) (map snd o)) = if smem x (names_of o) then 1 else 0.
Proof.
  intros x o. induction o as [|[g l] o IH]; intro Nd; [reflexivity|]. cbn [map snd filter]. unfold names_of in *. cbn [flat_map snd] in *. unfold SpecInliner.plain at 1.
  destruct (kind_in l) as [m|y|]; try (now apply IH). cbn [app] in Nd. inversion Nd as [|? ? N1 N2]; subst. unfold smem. cbn [app existsb]. destruct (str_eqb y x) eqn:E.
  - apply str_eqb_eq in E. subst. rewrite str_eqb_refl. cbn [length orb]. rewrite IH by exact N2. apply smem_false in N1. now rewrite N1.
  - apply str_eqb_neq in E. rewrite (proj2 (str_eqb_neq x y)) by congruence. cbn [orb]. now apply IH.
Qed.

(** *** the order *)
Notation needed := (needed files package packagePath).
Lemma go_reach_new : forall root f lines ms xs o ms' xs', go f lines ms xs o ms' xs' -> (forall l m, In l lines -> kind_in l = Needs m -> needed root m) ->
  forall M, ms' = ms ++ M -> forall m, In m M -> needed root m.
Proof.
  intros root f lines ms xs o ms' xs' G. induction G as [f ms xs|f line rest ms xs o ms' xs' K G IH|f line x rest ms xs o ms' xs' K I G IH|f line x rest ms xs o ms' xs' K I G IH|f line m rest ms xs o ms' xs' K I G IH|
      f line m rest ms xs o1 ms1 xs1 o2 ms' xs' K N I G1 IH1 G2 IH2]; intros L M E m' Hm.
  - apply (f_equal (@length str)) in E. rewrite app_length in E. destruct M; [destruct Hm | cbn in E; lia].
  - apply (IH (fun l q Hl => L l q (or_intror Hl)) M E m' Hm).
  - apply (IH (fun l q Hl => L l q (or_intror Hl)) M E m' Hm).
  - apply (IH (fun l q Hl => L l q (or_intror Hl)) M E m' Hm).
  - apply (IH (fun l q Hl => L l q (or_intror Hl)) M E m' Hm).
  - destruct (go_mods _ _ _ _ _ _ _ G1) as [M1 [E1 _]]. destruct (go_mods _ _ _ _ _ _ _ G2) as [M2 [E2 _]].
    assert (EM : M = m :: M1 ++ M2) by (rewrite E2, E1 in E; rewrite <- !app_assoc in E; apply app_inv_head in E; now symmetry). subst M.
    assert (Nm : needed root m) by (apply (L line); [now left | exact K]). destruct Hm as [<-|Hm]; [exact Nm|]. apply in_app_or in Hm as [Hm|Hm].
    + apply (IH1) with (M := M1); [|exact E1|exact Hm]. intros l q Hl Hk. apply (nd_step _ _ _ _ m q Nm). now exists l.
    + apply (IH2) with (M := M2); [|exact E2|exact Hm]. intros l q Hl. apply L. now right.
Qed.
Lemma needed_trans : forall a m b, needed a m -> needed (file_of m) b -> needed a b.
Proof.
  intros a m b H1 H2. induction H2 as [b H|b c H IH K]; [now apply (nd_step _ _ _ _ m) | now apply (nd_step _ _ _ _ b)].
Qed.
Definition ordered (o : out) (g : str) (lines : list str) : Prop :=
  forall a l b m, lines = a ++ l :: b -> kind_in l = Needs m -> ~ cyclic files package packagePath m ->
  exists o1 o2, o = o1 ++ o2 /\ filter other (from_file g o1) = filter other a /\ from_file (file_of m) o2 = [].
Lemma go_order : forall f lines ms xs o ms' xs', go f lines ms xs o ms' xs' -> (forall l, In l lines -> In l (lines_of f)) ->
  forall M, ms' = ms ++ M -> NoDup ms' -> ~ In f (map file_of M) ->
  ordered o f lines /\ forall m, In m M -> ordered o (file_of m) (lines_of (file_of m)).
Proof.
  assert (Cons : forall f line rest o p, ordered o f rest -> filter other (from_file f p) = filter other [line] -> (forall m, kind_in line = Needs m -> ~ cyclic files package packagePath m -> from_file (file_of m) o = []) -> ordered (p ++ o) f (line :: rest)).
  { intros f line rest o p H F L a l b m E K C. destruct a as [|a0 a]; cbn [app] in E.
    - injection E as -> ->. exists p, o. split; [reflexivity|]. split; [|now apply L]. rewrite F. cbn [filter]. now rewrite (other_need l m K).
    - injection E as -> ->. destruct (H a l b m eq_refl K C) as [o1 [o2 [-> [A B]]]]. exists (p ++ o1), o2. split; [now rewrite app_assoc|]. split; [|exact B].
      rewrite from_app, filter_app, F, A. cbn [filter]. destruct (other a0); reflexivity. }
  assert (Pre : forall g lines o p, ordered o g lines -> from_file g p = [] -> ordered (p ++ o) g lines).
  { intros g lines o p H F a l b m E K C. destruct (H a l b m E K C) as [o1 [o2 [-> [A B]]]]. exists (p ++ o1), o2. split; [now rewrite app_assoc|]. split; [|exact B]. now rewrite from_app, F. }
  intros f lines ms xs o ms' xs' G. induction G as [f ms xs|f line rest ms xs o ms' xs' K G IH|f line x rest ms xs o ms' xs' K I G IH|f line x rest ms xs o ms' xs' K I G IH|f line m rest ms xs o ms' xs' K I G IH|
      f line m rest ms xs o1 ms1 xs1 o2 ms' xs' K N I G1 IH1 G2 IH2]; intros S M E Nd Nf.
  - assert (M = []) as -> by (destruct M; [reflexivity|]; apply (f_equal (@length str)) in E; rewrite app_length in E; cbn in E; lia). split; [|intros m []].
    intros a l b m Ea. destruct a; discriminate.
  - destruct (IH (fun l Hl => S l (or_intror Hl)) M E Nd Nf) as [A B]. split.
    + apply (Cons f line rest o [(f, line)] A); [rewrite from_same; reflexivity | congruence].
    + intros m Hm. apply (Pre (file_of m) _ o [(f, line)] (B m Hm)). rewrite from_other; [reflexivity|]. intros ->. apply Nf. now apply in_map.
  - destruct (IH (fun l Hl => S l (or_intror Hl)) M E Nd Nf) as [A B]. split; [|exact B].
    apply (Cons f line rest o [] A); [cbn [filter]; now rewrite (other_import line x K) | congruence].
  - destruct (IH (fun l Hl => S l (or_intror Hl)) M E Nd Nf) as [A B]. split.
    + apply (Cons f line rest o [(f, line)] A); [rewrite from_same; reflexivity | congruence].
    + intros m Hm. apply (Pre (file_of m) _ o [(f, line)] (B m Hm)). rewrite from_other; [reflexivity|]. intros ->. apply Nf. now apply in_map.
  - destruct (IH (fun l Hl => S l (or_intror Hl)) M E Nd Nf) as [A B]. split; [|exact B].
    apply (Cons f line rest o [] A); [cbn [filter]; now rewrite (other_need line m K)|]. intros m' K' C. assert (m' = m) as -> by congruence. apply from_none. intro J.
    destruct (go_tags _ _ _ _ _ _ _ G M E _ J) as [Ef|[m2 [Hm2 Ef]]].
    + apply C. apply nd_root. rewrite Ef. exists line. split; [apply S; now left | exact K].
    + apply file_of_inj in Ef. subst m2 ms'. destruct (nodup_split _ _ Nd) as [_ [_ D]]. now apply (D m).
  - destruct (go_mods _ _ _ _ _ _ _ G1) as [M1 [E1 _]]. destruct (go_mods _ _ _ _ _ _ _ G2) as [M2 [E2 _]].
    assert (EM : M = m :: M1 ++ M2) by (rewrite E2, E1 in E; rewrite <- !app_assoc in E; apply app_inv_head in E; now symmetry). subst M. cbn [map] in Nf. rewrite map_app in Nf.
    assert (D0 : NoDup (ms1 ++ M2)) by (now rewrite <- E2). destruct (nodup_split _ _ D0) as [D1 [_ D2]].
    assert (D3 : NoDup (ms ++ m :: M1)) by (rewrite E1, <- app_assoc in D1; exact D1). destruct (nodup_split _ _ D3) as [_ [D4 _]]. inversion D4 as [|? ? D5 _]; subst x l.
    assert (F1 : ~ In (file_of m) (map file_of M1)) by (intro J; apply in_map_iff in J as [m' [Em J]]; apply file_of_inj in Em; now subst).
    assert (F2 : ~ In f (map file_of M2)) by (intro J; apply Nf; right; apply in_or_app; now right).
    destruct (IH1 (fun l Hl => Hl) M1 E1 D1 F1) as [A1 B1]. destruct (IH2 (fun l Hl => S l (or_intror Hl)) M2 E2 Nd F2) as [A2 B2].
    pose proof (go_tags _ _ _ _ _ _ _ G1 M1 E1) as T1. pose proof (go_tags _ _ _ _ _ _ _ G2 M2 E2) as T2.
    assert (In1 : forall q, In q (m :: M1) -> In q ms1) by (intros q Hq; rewrite E1, <- app_assoc; apply in_or_app; right; exact Hq).
    assert (Nfm : needs f m) by (exists line; split; [apply S; now left | exact K]).
    assert (O1 : from_file f o1 = []).
    { apply from_none. intro J. destruct (T1 f J) as [->|[m' [Hm ->]]]; apply Nf; [now left | right; apply in_or_app; left; now apply in_map]. }
    (* what f needs is not written by the rest *)
    assert (R2 : forall q, In q ms1 -> needed f q -> ~ cyclic files package packagePath q -> from_file (file_of q) o2 = []).
    { intros q Hq Rq C. apply from_none. intro J. destruct (T2 _ J) as [Ef|[m2 [Hm2 Ef]]]; [apply C; unfold cyclic; now rewrite Ef | apply file_of_inj in Ef; subst m2; now apply (D2 q)]. }
    assert (Post : forall g lines, (forall l q, In l lines -> kind_in l = Needs q -> In q ms1 /\ needed f q) -> ordered o1 g lines -> ordered (o1 ++ o2) g lines).
    { intros g lines HQ H a l b q Ea Kq C. destruct (H a l b q Ea Kq C) as [p1 [p2 [-> [A B]]]]. exists p1, (p2 ++ o2). split; [now rewrite app_assoc|]. split; [exact A|].
      destruct (HQ l q) as [Q1 Q2]; [subst; apply in_or_app; right; now left | exact Kq|]. rewrite from_app, B, (R2 q Q1 Q2 C). reflexivity. }
    destruct (go_closed _ _ _ _ _ _ _ G1) as [Cl1 Cl2].
    assert (Rm : forall q, needed (file_of m) q -> needed f q) by (intros q Hq; apply (needed_trans f m q); [now apply nd_root | exact Hq]).
    split.
    + apply Cons; [exact A2 | rewrite O1; cbn [filter]; now rewrite (other_need line m K)|]. intros q Kq C. assert (q = m) as -> by congruence. apply R2; [apply In1; now left | now apply nd_root | exact C].
    + intros q Hq. destruct Hq as [<-|Hq]; [|apply in_app_or in Hq as [Hq|Hq]].
      * apply Post; [|exact A1]. intros l q Hl Kq. split; [now apply (Cl1 l q)|]. apply Rm. apply nd_root. now exists l.
      * apply Post; [|now apply B1]. intros l r Hl Kr. assert (Nq : needs (file_of q) r) by (now exists l). split.
        -- destruct (Cl2 q (In1 q (or_intror Hq))) as [J|[_ J]]; [|now apply J]. exfalso. apply in_app_or in J as [J|[J|[]]].
           ++ destruct (nodup_split _ _ D3) as [_ [_ D6]]. apply (D6 q J). now right.
           ++ subst. contradiction.
        -- apply Rm. apply (nd_step _ _ _ _ q); [|exact Nq]. apply (go_reach_new (file_of m) _ _ _ _ _ _ _ G1) with (M := M1); [|exact E1|exact Hq]. intros l' q' Hl' Kq'. apply nd_root. now exists l'.
      * apply Pre; [now apply B2|]. apply from_none. intro J. apply (D2 q); [|exact Hq]. destruct (T1 _ J) as [Ef|[m2 [Hm2 Ef]]]; apply file_of_inj in Ef; subst; apply In1; [now left | now right].
Qed.
End Program.

(** ** Failures *)
Lemma acts_err : forall files package packagePath fuel, (forall f text p e, inline_module files package packagePath fuel f text p = Some (Err e) ->
    e = OSError /\ (dget f files = None \/ exists m, needed files package packagePath f m /\ dget (file_of m) files = None)) ->
  forall f lines text p e, (forall l, In l lines -> In l (lines_of files package f)) -> acts files package packagePath fuel lines text p = Some (Err e) ->
  e = OSError /\ exists m, needed files package packagePath f m /\ dget (file_of m) files = None.
Proof.
  intros files package packagePath fuel H f. induction lines as [|line rest IH]; intros text p e S E; cbn [acts] in E; [discriminate|].
  assert (S' : forall l, In l rest -> In l (lines_of files package f)) by (intros; apply S; now right). unfold act in E. destruct (kind_in package packagePath line) as [m|x|] eqn:K.
  - assert (Nm : needed files package packagePath f m) by (apply nd_root; exists line; split; [apply S; now left | exact K]).
    destruct (smem m p); [now apply (IH text p e)|]. destruct (inline_module files package packagePath fuel (file_of m) text (p ++ [m])) as [[[t1 p1]|e1]|] eqn:I1; [now apply (IH t1 p1 e) | | discriminate].
    injection E as <-. destruct (H _ _ _ _ I1) as [-> [D|[q [Q1 Q2]]]]; (split; [reflexivity|]); [now exists m|]. exists q. split; [|exact Q2]. now apply (needed_trans files package packagePath f m).
  - destruct (smem x p); [now apply (IH text p e) | now apply (IH (text ++ line) (p ++ [x]) e)].
  - now apply (IH (text ++ line) p e).
Qed.
Lemma inline_err : forall files package packagePath fuel f text p e, inline_module files package packagePath fuel f text p = Some (Err e) ->
  e = OSError /\ (dget f files = None \/ exists m, needed files package packagePath f m /\ dget (file_of m) files = None).
Proof.
  intros files package packagePath. induction fuel as [|fuel IH]; intros f text p e E; [discriminate|]. rewrite inline_acts in E. destruct (dget f files) eqn:D.
  - destruct (acts_err files package packagePath fuel IH f _ _ _ _ (fun l Hl => Hl) E) as [-> Q]. split; [reflexivity | now right].
  - injection E as <-. split; [reflexivity | now left].
Qed.
Lemma run_err : forall files package packagePath root e, run files package packagePath root = Some (Err e) ->
  e = OSError /\ (dget root files = None \/ exists m, needed files package packagePath root m /\ dget (file_of m) files = None).
Proof.
  intros files package packagePath root e H. unfold run in H. destruct (inline_module _ _ _ _ root [] []) as [[[t p]|e']|] eqn:E; try discriminate. injection H as <-.
  now apply inline_err in E.
Qed.

(** ** The result *)
Lemma run_result : forall files package packagePath root text, run files package packagePath root = Some (Ok text) -> no_clash files package packagePath ->
  (forall m, needed files package packagePath root m -> root <> file_of m) ->
  exists (o : list (str * str)) (mods : list str),
    text = concat (map snd o) /\ NoDup mods /\ (forall m, In m mods <-> needed files package packagePath root m) /\
    (forall m, In m mods -> exists content, dget (file_of m) files = Some content) /\
    (forall f line, In (f, line) o -> included root mods f /\ In line (lines_of files package f) /\ forall m, kind_in package packagePath line <> Needs m) /\
    (forall f, included root mods f -> filter (other package packagePath) (from_file f o) = filter (other package packagePath) (lines_of files package f)) /\
    (forall x, (exists f, included root mods f /\ imports files package packagePath f x) -> length (filter (plain package packagePath x) (map snd o)) = 1) /\
    (forall f a line b m, included root mods f -> lines_of files package f = a ++ line :: b -> kind_in package packagePath line = Needs m ->
      ~ cyclic files package packagePath m ->
      exists o1 o2, o = o1 ++ o2 /\ filter (other package packagePath) (from_file f o1) = filter (other package packagePath) a /\ from_file (file_of m) o2 = []).
Proof.
  intros files package packagePath root text H Cl R. destruct (run_go files package packagePath Cl root text H) as [o [ms [xs [Ir [G ->]]]]]. exists o, ms.
  destruct (go_mods _ _ _ _ _ _ _ _ _ _ G) as [M [E Nd]]. cbn [app] in E. subst M. assert (Nm : NoDup ms) by (apply Nd; constructor).
  destruct (go_closed _ _ _ _ _ _ _ _ _ _ G) as [C1 C2].
  assert (Reach : forall m, In m ms -> needed files package packagePath root m).
  { apply (go_reach files package packagePath root _ _ _ _ _ _ _ G); [|intros m []]. intros l m Hl K. apply nd_root. now exists l. }
  assert (Nf : ~ In root (map file_of ms)) by (intro J; apply in_map_iff in J as [m [Em J]]; apply (R m); [now apply Reach | now symmetry]).
  assert (Src : forall l, In l (lines_of files package root) -> In l (lines_of files package root)) by auto.
  split; [reflexivity|]. split; [exact Nm|]. split; [|split; [|split; [|split; [|split]]]].
  - intro m. split; [apply Reach|]. intro N. induction N as [m [l [Hl K]]|m m' N IH K]; [now apply (C1 l m)|]. destruct (C2 m IH) as [[]|[_ J]]. now apply J.
  - intros m Hm. destruct (C2 m Hm) as [[]|[J _]]. now apply dget_Some_key.
  - intros f line Hl. split; [|now apply (go_source files package packagePath _ _ _ _ _ _ _ G Src)].
    apply (go_tags files package packagePath _ _ _ _ _ _ _ G ms eq_refl). apply in_map_iff. now exists (f, line).
  - destruct (go_lines files package packagePath _ _ _ _ _ _ _ G ms eq_refl Nm Nf) as [A B]. intros f [->|[m [Hm ->]]]; [exact A | now apply B].
  - intros x [f [If Hx]]. destruct (go_imports files package packagePath _ _ _ _ _ _ _ G) as [X Dx]. cbn [app] in X. assert (Nx : NoDup xs) by (apply Dx; constructor). rewrite X in Nx.
    rewrite (plain_count package packagePath x o Nx). assert (I : In x (names_of package packagePath o)); [|apply smem_In in I; now rewrite I]. rewrite <- X.
    destruct (go_imports_all files package packagePath _ _ _ _ _ _ _ G) as [A B]. destruct If as [->|[m [Hm ->]]]; [destruct Hx as [l [Hl K]]; now apply (A l x) | now apply (B ms eq_refl m x)].
  - destruct (go_order files package packagePath _ _ _ _ _ _ _ G Src ms eq_refl Nm Nf) as [A B]. intros f a line b m [->|[m' [Hm ->]]] E K C; [now apply (A a line b m E K C) | now apply (B m' Hm a line b m E K C)].
Qed.
