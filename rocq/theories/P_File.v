(** Property theorems about writing files: C14, C15, C16.
    Only statements, [exact] or short combinations, assumptions and instances.  All theorems hold for every behaviour of
    the file system allowed by FileOps.v: any operation may fail, writes may be torn. *)
From Coq Require Import List NArith ZArith Bool Lia Arith.
From Verif Require Import PyStr PyDict NovelModel YwTree Yw7Build Yw7Read YwText SpecYw7 Yw7Repr3 FileOps FileOpsProofs FileWrite SpecFile FileWriteProofs OdfWriteProofs FileExec P_Yw7.
Import ListNotations.

(** * C14 *)
Theorem C14_project_crash : forall np ent loc dloc p n old w w' c,
  crashes (yw7_write np ent loc dloc p n old) w w' -> files w p = Some c -> on_disk p c w' /\ only_at [p; p ++ s ".bak"] w w'.
Proof. intros np ent loc dloc p n old w w' c C E. destruct (wp_crashes _ _ _ _ _ (yw7_write_wp np ent loc dloc p n old w) C) as [(H1 & H2 & _) _]. exact (conj (H2 c E) H1). Qed.
Print Assumptions C14_project_crash.
Theorem C14_project_success : forall np ent loc dloc p n old w w' n1 r1,
  runs (yw7_write np ent loc dloc p n old) w (Ok (n1, r1)) w' ->
  exists text, write_text ent loc dloc n old = Ok (n1, r1, text) /\ files w' p = Some text /\ (forall c, files w p = Some c -> files w' (p ++ s ".bak") = Some c).
Proof.
  intros np ent loc dloc p n old w w' n1 r1 R. destruct (wp_runs _ _ _ _ _ _ (yw7_write_wp np ent loc dloc p n old w) R) as (es & _ & A & B & _ & D).
  exists (text_at w' p). split; [exact A|]. split; [unfold text_at; destruct (files w' p); [reflexivity | contradiction (B eq_refl)]|].
  intros c Hc. rewrite Hc in D. exact D.
Qed.
Print Assumptions C14_project_success.
(** what was saved is what a later reading finds *)
Theorem C14_saved_is_read : forall np ent ext loc dloc p n w w1 r1 n1 w2 n',
  representable n -> locale_text loc -> locale_text dloc -> runs (yw7_write np ent loc dloc p n None) w (Ok (n1, r1)) w1 ->
  runs (yw7_read ext p new_novel) w1 (Ok n') w2 -> same_story n n' /\ same_world_data n n'.
Proof.
  intros np ent ext loc dloc p n w w1 r1 n1 w2 n' R L1 L2 W Rd. destruct (C14_project_success _ _ _ _ _ _ _ _ _ _ _ W) as (t & Ht & Hf & _).
  destruct (wp_runs _ _ _ _ _ _ (yw7_read_wp ext p new_novel w1) Rd) as (_ & _ & _ & H). destruct (H n' eq_refl) as (t' & Ht' & Hr). assert (t' = t) by congruence. subst t'.
  destruct (representable_roundtrip ent ext loc dloc n n1 r1 t R L1 L2 Ht) as (_ & n2 & A & B & C & _). assert (n2 = n') by congruence. subst n2. exact (conj B C).
Qed.
Print Assumptions C14_saved_is_read.
(** documents: template-based text files *)
Theorem C14_export_crash : forall np text p w w' c,
  crashes (export_write np text p) w w' -> files w p = Some c -> on_disk p c w' /\ only_at [p; p ++ s ".bak"] w w'.
Proof.
  intros np text p w w' c C E. assert (W : wp (save_inv p w) (export_write np text p) (fun _ _ => True) w).
  { unfold export_write. apply wp_bind. split; [apply save_inv_start|]. destruct text as [t|e]; [|auto]. exact (wp_mono _ _ _ _ _ (fun _ _ _ => I) (save_text_wp np p t w)). }
  destruct (wp_crashes _ _ _ _ _ W C) as (H1 & H2 & _). exact (conj (H2 c E) H1).
Qed.
Print Assumptions C14_export_crash.
Theorem C14_export_success : forall np text p w w', runs (export_write np text p) w (Ok tt) w' -> exists t, text = Ok t /\ files w' p = Some t.
Proof.
  intros np text p w w' R.
  assert (W : wp (save_inv p w) (export_write np text p) (fun r w' => r = Ok tt -> exists t, text = Ok t /\ files w' p = Some t) w).
  { unfold export_write. apply wp_bind. split; [apply save_inv_start|]. destruct text as [t|e]; [|discriminate].
    refine (wp_mono _ _ _ _ _ _ (save_text_wp np p t w)). intros r w2 (es & _ & H) E. subst r. exists t. split; [reflexivity | exact (proj1 (proj2 H))]. }
  exact (wp_runs _ _ _ _ _ _ W R eq_refl).
Qed.
Print Assumptions C14_export_success.
(** OpenDocument files; tmp is the temporary directory *)
Theorem C14_document_crash : forall np zip ending tmp parts names text p w w' c,
  below tmp p = false -> below tmp (p ++ s ".bak") = false -> NoDup (s "content.xml" :: s "content.xml.bak" :: map fst parts) ->
  (forall x, In x names -> x = s "META-INF" \/ x = s "content.xml" \/ In x (map fst parts)) ->
  crashes (odf_write np zip ending tmp parts names text p) w w' -> files w p = Some c -> on_disk p c w' /\ only_at_or_below tmp [p; p ++ s ".bak"] w w'.
Proof.
  intros np zip ending tmp parts names text p w w' c H1 H2 H3 H4 C E. destruct (wp_crashes _ _ _ _ _ (odf_write_wp np zip ending tmp parts names text p H1 H2 H3 H4 w) C) as (A & B & _).
  split; [exact (B c E)|]. intros q Hq Hb. exact (A q Hb Hq).
Qed.
Print Assumptions C14_document_crash.
Theorem C14_document_success : forall np zip ending tmp parts names text p w w',
  below tmp p = false -> below tmp (p ++ s ".bak") = false -> NoDup (s "content.xml" :: s "content.xml.bak" :: map fst parts) ->
  (forall x, In x names -> x = s "META-INF" \/ x = s "content.xml" \/ In x (map fst parts)) ->
  runs (odf_write np zip ending tmp parts names text p) w (Ok tt) w' ->
  exists t, text = Ok t /\ files w' p = Some (flat_map (fun x => zip x (if str_eqb x (s "META-INF") then [] else match dget x ((s "content.xml", t) :: parts) with Some u => u | None => [] end)) names ++ ending).
Proof.
  intros np zip ending tmp parts names text p w w' H1 H2 H3 H4 R. destruct (wp_runs _ _ _ _ _ _ (odf_write_wp np zip ending tmp parts names text p H1 H2 H3 H4 w) R) as (es & _ & t & A & B & _).
  exists t. exact (conj A B).
Qed.
Print Assumptions C14_document_success.

(** instances: a file with text "old" *)
Definition F_path : str := s "/home/me/novel.yw7".
Definition F_doc : str := s "/home/me/novel_proof.odt".
Definition F_disk (p : str) : fsys := {| files := fun q => if str_eqb q p then Some (s "old") else None; events := [] |}.
Definition F_parts : list (str * str) := [(s "mimetype", s "M"); (s "meta.xml", s "X")].
Definition F_names : list str := [s "META-INF"; s "content.xml"; s "mimetype"].
Definition F_zip (x t : str) : str := s "(" ++ x ++ s ":" ++ t ++ s ")".
Definition F_write : prog unit := odf_write (fun x => x) F_zip (s "#") (s "/tmp/odf_1.tmp") F_parts F_names (Ok (s "C")) F_doc.
Example C14_document_instance : exists w', runs F_write (F_disk F_doc) (Ok tt) w' /\ files w' F_doc = Some (s "(META-INF:)(content.xml:C)(mimetype:M)#") /\ files w' (F_doc ++ s ".bak") = Some (s "old").
Proof. exists (snd (perform F_write [] (F_disk F_doc))). split; [refine (perform_is _ [] _ _ _ _); vm_compute; reflexivity | split; vm_compute; reflexivity]. Qed.
Example C14_document_hypotheses : below (s "/tmp/odf_1.tmp") F_doc = false /\ NoDup (s "content.xml" :: s "content.xml.bak" :: map fst F_parts) /\
  (forall x, In x F_names -> x = s "META-INF" \/ x = s "content.xml" \/ In x (map fst F_parts)).
Proof. split; [vm_compute; reflexivity|]. split; [repeat constructor; cbn; intuition discriminate|]. intros x [<- | [<- | [<- | []]]]; auto. right. right. left. reflexivity. Qed.
(** a crash in the middle of saving: the project file is a fragment, the old version is there *)
Definition F_save : prog (novel * list elem) := yw7_write (fun x => x) (fun x => s "&" ++ x) None None F_path Y_small None.
Example C14_project_instance : exists w', crashes F_save (F_disk F_path) w' /\ files w' F_path = Some (s "<YWR") /\ files w' (F_path ++ s ".bak") = Some (s "old").
Proof.
  destruct (write_tree None None Y_small None) as [[n1 r1]|] eqn:E; [|vm_compute in E; discriminate].
  eexists. unfold F_save, yw7_write. rewrite E. split.
  - apply c_isfile. change (present (F_disk F_path) (lock F_path)) with false. cbn [pbind snd]. unfold save_text, back_up. cbn [pbind].
    apply c_isfile. change (present (F_disk F_path) F_path) with true. unfold op_replace, or_raise, write_file, op_open, op_put. cbn [pbind pcatch].
    apply (c_replace _ _ _ _ (s "old")); [vm_compute; reflexivity|]. cbn [pbind pcatch]. apply c_open. cbn [pbind pcatch].
    apply (c_torn _ _ (s "<YWR") (skipn 4 (tree_text r1))). vm_compute in E. injection E as <- <-. vm_compute. reflexivity.
  - split; vm_compute; reflexivity.
Qed.
Example C14_saved_is_read_instance : exists n1 r1 w1 n' w2, runs F_save (F_disk (s "/other")) (Ok (n1, r1)) w1 /\ runs (yw7_read (fun _ => None) F_path new_novel) w1 (Ok n') w2 /\ dkeys (nv_scenes n') = [s "5"].
Proof.
  assert (H : match perform F_save [] (F_disk (s "/other")) with (Ok _, w1) => match perform (yw7_read (fun _ => None) F_path new_novel) [] w1 with (Ok n', _) => dkeys (nv_scenes n') = [s "5"] | _ => False end | _ => False end) by (vm_compute; reflexivity).
  destruct (perform F_save [] (F_disk (s "/other"))) as [[[n1 r1]|e] w1] eqn:E1; [|destruct H]. destruct (perform (yw7_read (fun _ => None) F_path new_novel) [] w1) as [[n'|e] w2] eqn:E2; [|destruct H].
  exists n1, r1, w1, n', w2. split; [exact (perform_is _ _ _ _ _ E1)|]. split; [exact (perform_is _ _ _ _ _ E2) | exact H].
Qed.

(** * C15 *)
(** A failed export: the old file is in place, unless putting it back failed, too *)
Theorem C15_export_fails : forall np text p w w' e es c,
  runs (export_write np text p) w (Err e) w' -> files w p = Some c -> happened w w' es -> ~ In (NotRenamed (p ++ s ".bak") p) es -> files w' p = Some c.
Proof.
  intros np text p w w' e es c R E Hes Hn.
  assert (W : wp (save_inv p w) (export_write np text p) (fun r w' => forall e, r = Err e -> exists es, events w' = events w ++ es /\ forall c, files w p = Some c -> files w' p = Some c \/ In (NotRenamed (bak p) p) es) w).
  { unfold export_write. apply wp_bind. split; [apply save_inv_start|]. destruct text as [t|e'].
    - refine (wp_mono _ _ _ _ _ _ (save_text_wp np p t w)). intros r w2 (es2 & H1 & H) e2 E2. subst r. exists es2. split; [exact H1|]. intros d Hd. destruct (proj1 H d Hd) as [X | [X _]]; auto.
    - intros _ e2 _. exists []. split; [rewrite app_nil_r; reflexivity | auto]. }
  destruct (wp_runs _ _ _ _ _ _ W R e eq_refl) as (es2 & H1 & H2). unfold happened in Hes. rewrite Hes in H1. apply app_inv_head in H1. subst es2.
  destruct (H2 c E) as [X | X]; [exact X | contradiction (Hn X)].
Qed.
Print Assumptions C15_export_fails.
(** the same for documents; here also changing the working directory can fail *)
Theorem C15_document_fails : forall np zip ending tmp parts names text p w w' e es c,
  below tmp p = false -> below tmp (p ++ s ".bak") = false -> NoDup (s "content.xml" :: s "content.xml.bak" :: map fst parts) ->
  (forall x, In x names -> x = s "META-INF" \/ x = s "content.xml" \/ In x (map fst parts)) ->
  runs (odf_write np zip ending tmp parts names text p) w (Err e) w' -> files w p = Some c -> happened w w' es ->
  ~ In (NotRenamed (p ++ s ".bak") p) es -> ~ In Trouble es -> files w' p = Some c.
Proof.
  intros np zip ending tmp parts names text p w w' e es c H1 H2 H3 H4 R E Hes Hn Ht. destruct (wp_runs _ _ _ _ _ _ (odf_write_wp np zip ending tmp parts names text p H1 H2 H3 H4 w) R) as (es2 & A & B).
  unfold happened in Hes. rewrite Hes in A. apply app_inv_head in A. subst es2. destruct (B c E) as [X | [_ [X | X]]]; [exact X | contradiction (Hn X) | contradiction (Ht X)].
Qed.
Print Assumptions C15_document_fails.
(** a failed save of a project: the old file is in place if the first pass of writing was not completed; otherwise it is still there as .bak *)
Theorem C15_project_fails : forall np ent loc dloc p n old w w' e es c,
  runs (yw7_write np ent loc dloc p n old) w (Err e) w' -> files w p = Some c -> happened w w' es ->
  on_disk p c w' /\ (~ In (NotRenamed (p ++ s ".bak") p) es -> ~ In (Wrote p) es -> files w' p = Some c).
Proof.
  intros np ent loc dloc p n old w w' e es c R E Hes. destruct (wp_runs _ _ _ _ _ _ (yw7_write_wp np ent loc dloc p n old w) R) as (es2 & A & _ & B).
  unfold happened in Hes. rewrite Hes in A. apply app_inv_head in A. subst es2. destruct (B c E) as [X | [Y [X | X]]].
  - split; [left; exact X | intros _ _; exact X].
  - split; [right; exact Y | intros H; contradiction (H X)].
  - split; [right; exact Y | intros _ H; contradiction (H X)].
Qed.
Print Assumptions C15_project_fails.
(** The claim is false of projects: when the second pass fails (here: the file cannot be opened), the project file is not the old one *)
Theorem C15_project_refuted : exists e w', runs F_save (F_disk F_path) (Err e) w' /\ files (F_disk F_path) F_path = Some (s "old") /\
  ~ In (NotRenamed (F_path ++ s ".bak") F_path) (events w') /\ files w' F_path <> Some (s "old").
Proof.
  (* back up, open, write, read, open fails *)
  assert (H : match perform F_save [true; true; true; true; false] (F_disk F_path) with
    | (Err _, w') => existsb (fun e => match e with NotRenamed _ _ => true | _ => false end) (events w') = false /\ files w' F_path <> Some (s "old") | _ => False end)
    by (vm_compute; split; [reflexivity | discriminate]).
  destruct (perform F_save [true; true; true; true; false] (F_disk F_path)) as [[x|e] w'] eqn:E; [destruct H|]. exists e, w'. split; [exact (perform_is _ _ _ _ _ E)|]. split; [vm_compute; reflexivity|].
  destruct H as [H1 H2]. split; [|exact H2]. intro Hin. assert (X : existsb (fun e => match e with NotRenamed _ _ => true | _ => false end) (events w') = true) by (apply existsb_exists; eexists; split; [exact Hin | reflexivity]). congruence.
Qed.
Print Assumptions C15_project_refuted.
(** and of documents: when going back to the working directory fails, the old document is not put back *)
Theorem C15_document_refuted : exists e w', runs F_write (F_disk F_doc) (Err e) w' /\ files (F_disk F_doc) F_doc = Some (s "old") /\ files w' F_doc <> Some (s "old").
Proof.
  (* 2 mkdir, 2 parts and the content written (open and write each), getcwd, backup, open, chdir, ... *)
  assert (H : match perform F_write ([true; true] ++ [true; true; true; true] ++ [true; true] ++ [true] ++ [true] ++ [true] ++ [false] ++ [true] ++ [false]) (F_disk F_doc) with
    | (Err _, w') => files w' F_doc <> Some (s "old") | _ => False end) by (vm_compute; discriminate).
  destruct (perform F_write _ (F_disk F_doc)) as [[x|e] w'] eqn:E; [destruct H|]. exists e, w'. split; [exact (perform_is _ _ _ _ _ E)|]. split; [vm_compute; reflexivity | exact H].
Qed.
Print Assumptions C15_document_refuted.
(** the theorems above apply to real failures: the disk is full while exporting *)
Example C15_instance : exists e w', runs (export_write (fun x => x) (Ok (s "new text")) F_doc) (F_disk F_doc) (Err e) w' /\
  events w' = [Renamed F_doc (bak F_doc); Opened F_doc; NotWritten F_doc; Renamed (bak F_doc) F_doc] /\ files w' F_doc = Some (s "old").
Proof. do 2 eexists. split; [refine (perform_is _ [true; true; false; true] _ _ _ _); reflexivity | split; vm_compute; reflexivity]. Qed.

(** * C16 *)
Theorem C16_locked_write : forall np ent loc dloc p n old w, files w (p ++ s ".lock") <> None ->
  (forall r w', runs (yw7_write np ent loc dloc p n old) w r w' -> r = Err locked_error /\ files w' = files w) /\
  (forall w', crashes (yw7_write np ent loc dloc p n old) w w' -> files w' = files w).
Proof.
  intros np ent loc dloc p n old w HL. pose proof (yw7_write_wp np ent loc dloc p n old w) as W. split.
  - intros r w' R. destruct (wp_runs _ _ _ _ _ _ W R) as (es & _ & H). destruct r as [[n1 r1]|e]; [destruct H as (_ & _ & H & _); contradiction (HL H)|].
    destruct (proj1 H HL) as [-> ->]. split; reflexivity.
  - intros w' C. destruct (wp_crashes _ _ _ _ _ W C) as [_ H]. rewrite (H HL). reflexivity.
Qed.
Print Assumptions C16_locked_write.
Theorem C16_locked_read : forall ext p n w, files w (p ++ s ".lock") <> None ->
  (forall r w', runs (yw7_read ext p n) w r w' -> r = Err locked_error /\ files w' = files w) /\
  (forall w', crashes (yw7_read ext p n) w w' -> files w' = files w).
Proof.
  intros ext p n w HL. pose proof (yw7_read_wp ext p n w) as W. split.
  - intros r w' R. destruct (wp_runs _ _ _ _ _ _ W R) as (A & _ & B & _). exact (conj (B HL) A).
  - intros w' C. exact (wp_crashes _ _ _ _ _ W C).
Qed.
Print Assumptions C16_locked_read.
(** reading never changes a file *)
Theorem C16_read_changes_nothing : forall ext p n w r w', runs (yw7_read ext p n) w r w' -> files w' = files w.
Proof. intros ext p n w r w' R. exact (proj1 (wp_runs _ _ _ _ _ _ (yw7_read_wp ext p n w) R)). Qed.
Print Assumptions C16_read_changes_nothing.
Example C16_instance : exists w', runs F_save (F_disk (lock F_path)) (Err locked_error) w' /\ files (F_disk (lock F_path)) (F_path ++ s ".lock") <> None.
Proof. eexists. split; [refine (perform_is _ [] _ _ _ _); vm_compute; reflexivity | vm_compute; discriminate]. Qed.
