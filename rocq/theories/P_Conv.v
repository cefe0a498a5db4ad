(** Property theorems about conversions: C17, C18, C19, C20.
    The converters are yw7_converter, yw7_exporter, yw7_importer with arbitrary document contents, environment, files and user answers. *)
From Coq Require Import List NArith ZArith Bool Lia Arith.
From Verif Require Import PyStr PyDict NovelModel YwTree Yw7Build Yw7Read YwText SpecYw7 FileOps FileOpsProofs FileWrite SpecFile FileWriteProofs OdfWriteProofs FileExec Converter SpecConv ConverterProofs ConverterProofs2 ConverterProofs3 NewProject P_Yw7 P_File.
Import ListNotations.

(** * C17 *)
(** At every moment of a conversion: an existing file (outside of the temporary directory) that has changed is the file that the
    user agreed to overwrite, or the backup of it *)
Theorem C17_consent : forall en cv path suffix w w' q es, good_environment en -> In cv [yw7_converter en; yw7_exporter en; yw7_importer en] ->
  crashes (run_converter cv path suffix) w w' -> happened w w' es ->
  below (en_tmp en) q = false -> files w q <> None -> files w' q <> files w q ->
  exists t, (q = t \/ q = t ++ s ".bak") /\ files w t <> None /\
    In (s "Overwrite existing file """ ++ cv_np cv t ++ s """?", true) (questions es).
Proof.
  intros en cv path suffix w w' q es GE Hcv C He Hb Hq Hd.
  destruct (wp_crashes _ _ _ _ _ (run_wp cv (en_tmp en) path suffix w (converters_good en cv GE Hcv)) C) as (es2 & H2 & X). unfold happened in He, H2. rewrite He in H2. apply app_inv_head in H2. subst es2.
  destruct (X q Hb Hd) as (t & Ht & Q). exists t. assert (N : files w t <> None) by (destruct Ht as [<- | [_ N]]; assumption). split; [destruct Ht as [Ht | [Ht _]]; [left | right]; exact Ht|]. split; [exact N|].
  specialize (Q N). unfold overwrite_question, quoted in Q. rewrite <- !app_assoc in Q. exact Q.
Qed.
Print Assumptions C17_consent.
(** If the answer is no, nothing is written and an error is shown *)
Theorem C17_refused : forall en cv path suffix w w' r es qu, good_environment en -> In cv [yw7_converter en; yw7_exporter en; yw7_importer en] ->
  runs (run_converter cv path suffix) w r w' -> happened w w' es -> In (qu, false) (questions es) ->
  files w' = files w /\ status_messages es = [s "!Action canceled by user."].
Proof.
  intros en cv path suffix w w' r es qu GE Hcv R He Hq.
  destruct (wp_runs _ _ _ _ _ _ (run_wp cv (en_tmp en) path suffix w (converters_good en cv GE Hcv)) R) as ((es2 & H2 & X) & NE). unfold happened in He, H2. rewrite He in H2. apply app_inv_head in H2. subst es2.
  destruct r as [nf|e].
  - destruct X as (m & M & Y & _). destruct Y as (_ & -> & F); [exists qu; exact Hq|]. split; assumption.
  - exfalso. revert R. clear X.
    (* an exception is raised only before any question *)
    intro R. assert (W : wp (fun _ => True) (run_converter cv path suffix) (fun r w' => (exists e, r = Err e) -> w' = w \/ exists p, w' = log (NotRead p) w) w).
    { apply (run_error_wp cv (en_tmp en)). exact (converters_good en cv GE Hcv). }
    destruct (wp_runs _ _ _ _ _ _ W R (ex_intro _ e eq_refl)) as [-> | [p ->]]; cbn [events log] in He.
    + rewrite <- (app_nil_r (events w)) in He at 1. apply app_inv_head in He. subst es. exact Hq.
    + apply app_inv_head in He. subst es. exact Hq.
Qed.
Print Assumptions C17_refused.
(** Creating a project changes no existing file at all *)
Theorem C17_create : forall en cv newFile source target w w' q, good_environment en ->
  good_reader (fo_class source) -> fo_class target = the_yw7 en ->
  crashes (create_yw7 cv newFile source target) w w' -> below (en_tmp en) q = false -> files w q <> None -> files w' q = files w q.
Proof.
  intros en cv newFile source target w w' q GE GS GT C Hb Hq.
  assert (GW : good_writer (en_tmp en) (fo_class target)) by (rewrite GT; exact (yw7_writer_good _ _ _ _ _ _)).
  exact (wp_crashes _ _ _ _ _ (create_nothing_wp cv (en_tmp en) newFile source target w GS GW) C q Hb Hq).
Qed.
Print Assumptions C17_create.

(** * C18 *)
(** A conversion that ends: exactly one message; it starts with '!' and no new file is set, or it names the new file, which exists, and
    nothing else but its backup was changed.  An exception gets out only of a converter without import function, or if the keyword
    argument is missing *)
Theorem C18_outcome : forall en cv path suffix w w' r es, good_environment en -> In cv [yw7_converter en; yw7_exporter en; yw7_importer en] ->
  runs (run_converter cv path suffix) w r w' -> happened w w' es ->
  match r with
  | Ok None => exists m, status_messages es = [s "!" ++ m]
  | Ok (Some t) => status_messages es = [s "File written: """ ++ cv_np cv t ++ s """."] /\
      (below (en_tmp en) t = false -> files w' t <> None) /\
      (forall q, q <> t -> q <> t ++ s ".bak" -> below (en_tmp en) q = false -> files w' q = files w q)
  | Err _ => cv_new_project cv = None \/ suffix = None
  end.
Proof.
  intros en cv path suffix w w' r es GE Hcv R He.
  destruct (wp_runs _ _ _ _ _ _ (run_wp cv (en_tmp en) path suffix w (converters_good en cv GE Hcv)) R) as ((es2 & H2 & X) & NE). unfold happened in He, H2. rewrite He in H2. apply app_inv_head in H2. subst es2.
  destruct r as [[t|]|e]; [| |exact (NE e eq_refl)].
  - destruct X as (m & M & _ & Y1 & Y2 & Y3). rewrite M, Y1. unfold quoted. rewrite <- !app_assoc. split; [reflexivity|]. split; [exact Y2|].
    intros q N1 N2. apply Y3. intros [Z | [Z | []]]; [apply N1 | apply N2]; symmetry; exact Z.
  - destruct X as (m & M & _ & Y). apply prefixb_spec in Y. destruct Y as [r Y]. exists r. rewrite M, Y. reflexivity.
Qed.
Print Assumptions C18_outcome.
(** what the message is depends on the outcome of the steps: a failure at any step is reported with its text *)
Theorem C18_export : forall cv so ta w w' r, runs (export_from_yw cv so ta) w r w' ->
  exists x w1, runs (run _ <- check cv so ta; convert so ta) (log (Announced (input_output cv so ta)) w) x w1 /\
    match x with
    | Ok _ => r = Ok (fo_path ta) /\ w' = log (Status (written cv ta)) w1
    | Err e => r = Ok None /\ w' = log (Status (s "!" ++ str_of cv e)) w1
    end.
Proof.
  intros cv so ta w w' r R. revert R. unfold export_from_yw. intro R.
  refine (wp_runs (fun _ => True) _ (fun r w' => exists x w1, runs (run _ <- check cv so ta; convert so ta) (log (Announced (input_output cv so ta)) w) x w1 /\
    match x with Ok _ => r = Ok (fo_path ta) /\ w' = log (Status (written cv ta)) w1 | Err e => r = Ok None /\ w' = log (Status (s "!" ++ str_of cv e)) w1 end) w r w' _ R).
  cbn [wp]. split; [exact I|]. apply wp_catch. apply wp_complete; [auto|]. intros x w1 RX. destruct x as [a|e]; cbn [wp]; repeat (split; [exact I|]).
  - exists (Ok a), w1. split; [exact RX|]. split; reflexivity.
  - exists (Err e), w1. split; [exact RX|]. split; reflexivity.
Qed.
Print Assumptions C18_export.

(** a sample environment: documents are their own text *)
Definition V_env : environment := {|
  en_np := fun p => p; en_str := fun _ => s "Exception"; en_content := fun t => Some t;
  en_ent := fun t => s "&" ++ t; en_ext := fun _ => None; en_loc := None; en_dloc := None;
  en_zip := fun n c => s "(" ++ n ++ s ":" ++ c ++ s ")"; en_ending := s "#"; en_tmp := s "/tmp/x";
  en_desc := fun x => s "document " ++ x;
  en_read := fun _ _ n => Ok (n, true);
  en_text := fun _ n => Ok (join (s ",") (dkeys (nv_scenes n)));
  en_parts := fun _ _ => [(s "mimetype", s "M")]; en_names := fun _ => [s "mimetype"; s "content.xml"] |}.
Lemma smem_not_In : forall x (l : list str), smem x l = false -> ~ In x l.
Proof. intros x l H Hin. apply smem_In in Hin. congruence. Qed.
Lemma V_good : good_environment V_env.
Proof.
  intros k n. split.
  - cbn [V_env en_parts map fst]. apply NoDup_cons; [apply smem_not_In; vm_compute; reflexivity|]. apply NoDup_cons; [apply smem_not_In; vm_compute; reflexivity|].
    apply NoDup_cons; [intros [] | apply NoDup_nil].
  - intros x Hx. cbn [V_env en_names en_parts map fst] in *. destruct Hx as [<- | [<- | []]]; [right; right; left | right; left]; reflexivity.
Qed.
Definition V_text : str := Eval vm_compute in match perform F_save [] (F_disk (s "/other")) with (_, w) => match files w F_path with Some t => t | None => [] end end.
Definition V_disk (more : list (str * str)) : fsys := {| files := fun q => if str_eqb q F_path then Some V_text else dget q more; events := [] |}.

(** exporting over an existing document, with consent; without; the disk is full *)
Example C17_instance : exists w', runs (run_converter (yw7_converter V_env) F_path (Some (Some (s "_manuscript")))) (V_disk [(s "/home/me/novel_manuscript.odt", s "old")]) (Ok (Some (s "/home/me/novel_manuscript.odt"))) w' /\ files w' (s "/home/me/novel_manuscript.odt") = Some (s "(mimetype:M)(content.xml:5)#") /\ questions (events w') = [(s "Overwrite existing file ""/home/me/novel_manuscript.odt""?", true)].
Proof. eexists. split; [refine (perform_is _ [] _ _ _ _); vm_compute; reflexivity | split; vm_compute; reflexivity]. Qed.
Example C17_refused_instance : exists w', runs (run_converter (yw7_converter V_env) F_path (Some (Some (s "_manuscript")))) (V_disk [(s "/home/me/novel_manuscript.odt", s "old")]) (Ok None) w' /\ status_messages (events w') = [s "!Action canceled by user."] /\ questions (events w') = [(s "Overwrite existing file ""/home/me/novel_manuscript.odt""?", false)].
Proof. eexists. split; [refine (perform_is _ [false] _ _ _ _); vm_compute; reflexivity | split; vm_compute; reflexivity]. Qed.
Example C18_instance : exists w', runs (run_converter (yw7_converter V_env) F_path (Some (Some (s "_manuscript")))) (V_disk [(s "/home/me/novel_manuscript.odt", s "old")]) (Ok None) w' /\ status_messages (events w') = [s "!Cannot create file: ""/home/me/novel_manuscript.odt""."] /\ files w' (s "/home/me/novel_manuscript.odt") = Some (s "old").
Proof. eexists. split; [refine (perform_is _ ([true; true; true; true; true; true; true; true; true] ++ [true; true] ++ [false]) _ _ _ _); vm_compute; reflexivity | split; vm_compute; reflexivity]. Qed.

(** The claim is false: create_yw7 called directly keeps the old value of newFile when it fails *)
Theorem C18_create_refuted : exists cv so ta w w', runs (create_yw7 cv (Some (s "/old.yw7")) so ta) w (Ok (Some (s "/old.yw7"))) w' /\ status_messages (events w') = [s "!File already exists: ""/home/me/novel.yw7""."].
Proof.
  exists (yw7_converter V_env), (Converter.make (the_import V_env) (s "/home/me/novel.odt")), (Converter.make (the_yw7 V_env) F_path), (V_disk []). eexists.
  split; [refine (perform_is _ [] _ _ _ _); vm_compute; reflexivity | vm_compute; reflexivity].
Qed.
Print Assumptions C18_create_refuted.
(** and the exporter, given a file that is not a project, raises an exception and reports nothing *)
Theorem C18_exporter_refuted : exists w', runs (run_converter (yw7_exporter V_env) (s "/home/me/novel.odt") (Some (Some []))) (V_disk [(s "/home/me/novel.odt", s "x")]) (Err AttributeError) w' /\ status_messages (events w') = [].
Proof. eexists. split; [refine (perform_is _ [] _ _ _ _); vm_compute; reflexivity | vm_compute; reflexivity]. Qed.
Print Assumptions C18_exporter_refuted.

(** * C19 *)
(** the document made of the project path [base] and a known suffix updates base.yw7: this is the only file changed, at any moment, with
    its backup, and the new file announced.  Guard: the suffix text occurs at the end only *)
Theorem C19_target : forall en cv x base suffix w, good_environment en -> In cv [yw7_converter en; yw7_importer en] -> In x import_kinds ->
  (forall a b, base ++ fst x = a ++ fst x ++ b -> b = []) ->
  ~ In 92%N base ->
  files w (base ++ fst x ++ snd x) <> None -> files w (base ++ s ".yw7") <> None ->
  (forall w', crashes (run_converter cv (base ++ fst x ++ snd x) suffix) w w' ->
     forall q, q <> base ++ s ".yw7" -> q <> base ++ s ".yw7.bak" -> below (en_tmp en) q = false -> files w' q = files w q) /\ (forall t w', runs (run_converter cv (base ++ fst x ++ snd x) suffix) w (Ok (Some t)) w' -> t = base ++ s ".yw7").
Proof.
  intros en cv x base suffix w GE Hcv Hx HE HB Hf Hp.
  destruct (run_is_import en cv x base suffix w Hcv Hx HE Hf Hp) as [RI CI].
  assert (ET : fo_path (Converter.make (the_yw7 en) (base ++ s ".yw7")) = Some (base ++ s ".yw7")).
  { cbn [Converter.make fo_path]. change (suffix_of (the_yw7 en)) with (@nil N). change (fc_ext (the_yw7 en)) with (s ".yw7").
    refine (set_path_accepts [] (s ".yw7") base _). intro X. apply in_app_or in X. destruct X as [X | X]; [exact (HB X)|]. apply (existsb_none_inv 92%N (s ".yw7")) in X; [destruct X | vm_compute; reflexivity]. }
  assert (W : wp (frame (en_tmp en) (base ++ s ".yw7") w) (import_to_yw cv (Converter.make (the_reader en x) (base ++ fst x ++ snd x)) (Converter.make (the_yw7 en) (base ++ s ".yw7"))) (fun r _ => forall t, r = Ok (Some t) -> t = base ++ s ".yw7") w).
  { apply import_frame; [exact ET | exact (reader_good _ _ _ _) | exact (yw7_reader_good _ _ _ _ _) | exact (yw7_writer_good _ _ _ _ _ _)]. }
  split.
  - intros w' C q N1 N2 Hb. destruct (CI w' C) as [-> | C2]; [reflexivity|]. destruct (wp_crashes _ _ _ _ _ W C2) as [F _]. apply F; [|exact Hb].
    intros [Y | [Y | []]]; [apply N1; symmetry; exact Y | apply N2; rewrite <- Y; unfold bak; rewrite <- app_assoc; reflexivity].
  - intros t w' R. exact (wp_runs _ _ _ _ _ _ W (RI _ _ R) t eq_refl).
Qed.
Print Assumptions C19_target.
(** a document that does not end in a known suffix (and is not a project) changes no existing file *)
Theorem C19_no_update : forall en cv path suffix w w', good_environment en -> In cv [yw7_converter en; yw7_importer en] ->
  (forall x, In x import_kinds -> forall base, path <> base ++ fst x ++ snd x) -> snd (splitext path) <> s ".yw7" ->
  crashes (run_converter cv path suffix) w w' -> forall q, below (en_tmp en) q = false -> files w q <> None -> files w' q = files w q.
Proof.
  intros en cv path suffix w w' GE Hcv HK. apply no_update; [exact GE | exact Hcv|]. intros x Hx. apply not_true_is_false. intro E. apply suffixb_spec in E. destruct E as [r E]. exact (HK x Hx r E).
Qed.
Print Assumptions C19_no_update.
Example C19_instance : exists w', runs (run_converter (yw7_converter V_env) (s "/home/me/novel_notes.odt") None) (V_disk [(s "/home/me/novel_notes.odt", s "x")]) (Ok (Some F_path)) w' /\
  status_messages (events w') = [s "File written: ""/home/me/novel.yw7""."] /\ (forall a b, s "/home/me/novel" ++ s "_notes" = a ++ s "_notes" ++ b -> b = []).
Proof.
  eexists. split; [refine (perform_is _ [] _ _ _ _); vm_compute; reflexivity | split; [vm_compute; reflexivity|]].
  apply (at_end_b_ok (s "_notes")); [discriminate | vm_compute; reflexivity].
Qed.
(** The claim is false if the suffix text occurs elsewhere in the path: the example in the source code's own comment, and a directory name *)
Theorem C19_name_refuted : exists w', runs (run_converter (yw7_converter V_env) (s "/home/test_notes_notes.odt") None) (V_disk [(s "/home/test_notes_notes.odt", s "x"); (s "/home/test_notes.yw7", V_text); (s "/home/test.yw7", V_text)]) (Ok (Some (s "/home/test.yw7"))) w'.
Proof. eexists. refine (perform_is _ [] _ _ _ _); vm_compute; reflexivity. Qed.
Print Assumptions C19_name_refuted.
Theorem C19_directory_refuted : exists w', runs (run_converter (yw7_converter V_env) (s "/my_notes/novel_notes.odt") None) (V_disk [(s "/my_notes/novel_notes.odt", s "x"); (s "/my_notes/novel.yw7", V_text)]) (Ok None) w' /\
  status_messages (events w') = [s "!No yWriter project to write."].
Proof. eexists. split; [refine (perform_is _ [] _ _ _ _); vm_compute; reflexivity | vm_compute; reflexivity]. Qed.
Print Assumptions C19_directory_refuted.

(** * C20 *)
(** A path is accepted exactly if it ends with suffix and extension, ignoring case; separators are normalized *)
Theorem C20_accepted : forall suffix ext path p,
  set_path suffix ext path = Some p <-> p = map (fun c => if N.eqb c 92 then 47%N else c) path /\ exists base e, p = base ++ e /\ lower e = lower (suffix ++ ext).
Proof. exact set_path_spec. Qed.
Print Assumptions C20_accepted.
(** the project name is the (quoted) file name without suffix and extension.  Guards: these occur exactly as given, at the end only *)
Theorem C20_name : forall realpath quote suffix ext dir name, suffix ++ ext <> [] -> ~ In 47%N (name ++ suffix ++ ext) -> ~ In 92%N (dir ++ s "/" ++ name ++ suffix ++ ext) ->
  realpath (dir ++ s "/" ++ name ++ suffix ++ ext) = dir ++ s "/" ++ name ++ suffix ++ ext ->
  (forall a b, name ++ suffix ++ ext = a ++ (suffix ++ ext) ++ b -> b = []) ->
  project_name realpath quote suffix ext (dir ++ s "/" ++ name ++ suffix ++ ext) = Some (quote name).
Proof. exact project_name_spec. Qed.
Print Assumptions C20_name.
Theorem C20_name_refuted :
  project_name (fun x => x) (fun x => x) [] (s ".yw7") (s "/home/me/x.yw7.yw7") = Some (s "x") /\
  project_name (fun x => x) (fun x => x) [] (s ".yw7") (s "/home/me/novel.YW7") = Some (s "novel.YW7").
Proof. split; vm_compute; reflexivity. Qed.
Print Assumptions C20_name_refuted.
(** the factories *)
Theorem C20_export_target : forall en path x, In x export_kinds ->
  export_target (yw7_converter en) path (Some (Some (fst x))) = Ok (Converter.make (the_writer en x) (fst (splitext path) ++ fst x ++ snd x)).
Proof. exact export_target_kind. Qed.
Print Assumptions C20_export_target.
Theorem C20_export_target_unknown : forall en path suffix, (forall x, In x export_kinds -> suffix <> fst x) -> exists m, export_target (yw7_converter en) path (Some (Some suffix)) = Err (UserError m).
Proof. intros en path suffix H. apply export_target_unknown. intro X. apply in_map_iff in X. destruct X as (x & E & Hx). exact (H x Hx (eq_sym E)). Qed.
Print Assumptions C20_export_target_unknown.
Theorem C20_import_source : forall en cv x base, In cv [yw7_converter en; yw7_importer en] -> In x import_kinds ->
  import_source cv (base ++ fst x ++ snd x) = Ok (Converter.make (the_reader en x) (base ++ fst x ++ snd x)).
Proof. exact import_source_kind. Qed.
Print Assumptions C20_import_source.
Theorem C20_import_source_unknown : forall en cv path, In cv [yw7_converter en; yw7_importer en] -> (forall x, In x import_kinds -> forall base, path <> base ++ fst x ++ snd x) ->
  exists m, import_source cv path = Err (UserError m).
Proof.
  intros en cv path Hcv HK. unfold import_source. assert (E : cv_import_source cv = map (the_reader en) import_kinds) by (destruct Hcv as [<- | [<- | []]]; reflexivity). rewrite E, first_map.
  destruct (first _ import_kinds) as [x|] eqn:F; [|eexists; reflexivity]. exfalso. apply first_In in F. destruct F as [F1 F2]. change (suffixb (ends x) path = true) in F2. apply suffixb_spec in F2. destruct F2 as [r F2]. exact (HK x F1 r F2).
Qed.
Print Assumptions C20_import_source_unknown.
(** a file with an extension is taken for a project exactly if this is .yw7 *)
Theorem C20_export_source : forall en cv base e, In cv [yw7_converter en; yw7_exporter en; yw7_importer en] -> ~ In 46%N e -> ~ In 47%N e -> (exists c, In c (name_of base) /\ c <> 46%N) ->
  (e = s "yw7" -> export_source cv (base ++ s "." ++ e) = Ok (Converter.make (the_yw7 en) (base ++ s ".yw7"))) /\
  (e <> s "yw7" -> exists m, export_source cv (base ++ s "." ++ e) = Err (UserError m)).
Proof.
  intros en cv base e Hcv H1 H2 H3. assert (E : cv_export_source cv = [the_yw7 en]) by (destruct Hcv as [<- | [<- | [<- | []]]]; reflexivity).
  unfold export_source. rewrite E, (splitext_ext base e H1 H2 H3). cbn [first snd]. change (fc_ext (the_yw7 en)) with (s "." ++ s "yw7"). split.
  - intros ->. rewrite str_eqb_refl. reflexivity.
  - intro N. destruct (str_eqb (s "." ++ s "yw7") (s "." ++ e)) eqn:EE; [|eexists; reflexivity]. apply str_eqb_eq in EE. apply app_inv_head in EE. congruence.
Qed.
Print Assumptions C20_export_source.
(** A document whose name ends with the suffix of the cross references or of the brief synopsis is not made a project: nothing happens but the message *)
Theorem C20_not_written_back : forall en cv base x e suffix w w' r, In cv [yw7_converter en; yw7_importer en] -> In x [s "_xref"; s "_brf_synopsis"] ->
  ~ In 46%N e -> ~ In 47%N e -> e <> s "yw7" -> files w (base ++ x ++ s "." ++ e) <> None ->
  runs (run_converter cv (base ++ x ++ s "." ++ e) suffix) w r w' ->
  r = Ok None /\ w' = log (Status (s "!This document is not meant to be written back.")) w.
Proof. exact (fun en cv base x e suffix w w' r Hcv => refused en cv Hcv base x e suffix w w' r). Qed.
Print Assumptions C20_not_written_back.
(** Any other text document without known suffix makes a new project beside it: an outline if it has a heading of level 3, else work in progress
    (unless it cannot be read) *)
Theorem C20_new_project : forall en cv base suffix w w' r z content, In cv [yw7_converter en; yw7_importer en] -> (exists c, In c (name_of base) /\ c <> 46%N) ->
  (forall x b, In x [s "_xref"; s "_brf_synopsis"] -> base <> b ++ x) -> (forall x, In x import_kinds -> forall b, base ++ s ".odt" <> b ++ fst x ++ snd x) ->
  files w (base ++ s ".odt") = Some z -> en_content en z = Some content -> runs (run_converter cv (base ++ s ".odt") suffix) w r w' ->
  (let source := Converter.make (if containsb (s "Heading_20_3") content then the_outline en else the_import en) (base ++ s ".odt") in
   runs (create_yw7 cv None source (Converter.make (the_yw7 en) (base ++ s ".yw7"))) w r w') \/
  (r = Ok None /\ exists m, w' = log (Status (s "!Cannot read file: " ++ m)) (log (NotRead (base ++ s ".odt")) w)).
Proof. exact (fun en cv base suffix w w' r z content Hcv => created en cv Hcv base suffix w w' r z content). Qed.
Print Assumptions C20_new_project.
Example C20_refusal : exists w', runs (run_converter (yw7_converter V_env) (s "/home/me/novel_xref.odt") None) (V_disk [(s "/home/me/novel_xref.odt", s "x")]) (Ok None) w' /\
  status_messages (events w') = [s "!This document is not meant to be written back."].
Proof. eexists. split; [refine (perform_is _ [] _ _ _ _); vm_compute; reflexivity | vm_compute; reflexivity]. Qed.
Example C20_instance : In (s "_xref", s ".odt") export_kinds /\ (exists c, In c (name_of (s "/a.b/novel")) /\ c <> 46%N) /\
  export_target (yw7_converter V_env) (s "/a.b/novel.yw7") (Some (Some (s "_xref"))) = Ok (Converter.make (the_writer V_env (s "_xref", s ".odt")) (s "/a.b/novel_xref.odt")).
Proof.
  assert (X : In (s "_xref", s ".odt") export_kinds) by (unfold export_kinds; do 14 right; left; reflexivity).
  split; [exact X|]. split; [exists 110%N; split; [left; reflexivity | discriminate]|]. exact (export_target_kind V_env (s "/a.b/novel.yw7") (s "_xref", s ".odt") X).
Qed.
