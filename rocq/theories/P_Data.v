(** C41: the XML data files. *)
From Coq Require Import String List NArith ZArith Bool Lia Arith.
From Verif Require Import PyStr PyDict NovelModel YwTree Yw7Build Yw7Read YwText SpecYw7 FileOps FileOpsProofs FileExec SpecFile FileWrite Converter DataFiles SpecData DataProofs DataProofs2 P_Yw7.
Import ListNotations.

(** After a successful export of a representable novel, the three files exist and contain exactly its characters, locations and
    items, with all their texts; the project was not locked. *)
Theorem C41_contents : forall np ent denied loc dloc p n w w' n1 r1, representable n -> locale_text loc -> locale_text dloc ->
  runs (data_write np ent denied loc dloc p n None) w (Ok (n1, r1)) w' ->
  files w (p ++ s ".lock") = None /\
  (exists text, files w' (fst (splitext p) ++ s "_Characters.xml") = Some text /\ holds_characters n text) /\
  (exists text, files w' (fst (splitext p) ++ s "_Locations.xml") = Some text /\ holds_locations n text) /\
  (exists text, files w' (fst (splitext p) ++ s "_Items.xml") = Some text /\ holds_items n text).
Proof.
  intros np ent denied loc dloc p n w w' n1 r1 Rn L1 L2 H.
  destruct (wp_runs _ _ _ _ _ _ (data_write_wp np ent denied loc dloc p n None w) H n1 r1 eq_refl) as (Hw & Lk & (F1 & _) & (F2 & _) & F3 & _).
  destruct (tree_holds ent (match nv_chapters n with [] => true | _ => false end) loc dloc n n1 r1 Rn L1 L2 Hw) as ((x1 & X1 & H1) & (x2 & X2 & H2) & (x3 & X3 & H3)).
  unfold finished in F1, F2, F3. rewrite X1 in F1. rewrite X2 in F2. rewrite X3 in F3. cbn [option_map] in F1, F2, F3.
  split; [exact Lk|]. split; [eexists; split; [exact F1 | exact H1]|]. split; eexists; split; [exact F2 | exact H2 | exact F3 | exact H3].
Qed.
Print Assumptions C41_contents.
(** No other file is touched at any moment, whatever fails and whenever the process ends. *)
Theorem C41_only : forall np ent denied loc dloc p n old w w', crashes (data_write np ent denied loc dloc p n old) w w' ->
  only_at [fst (splitext p) ++ s "_Characters.xml"; fst (splitext p) ++ s "_Locations.xml"; fst (splitext p) ++ s "_Items.xml"] w w'.
Proof. intros np ent denied loc dloc p n old w w' H. exact (wp_crashes _ _ _ _ _ (data_write_wp np ent denied loc dloc p n old w) H). Qed.
Print Assumptions C41_only.

(** An instance: the sample novel of P_Yw7 is exported; all operations succeed. *)
Example C41_instance : exists n1 r1 w', runs (data_write (fun x => x) (fun x => s "&" ++ x) (fun _ => true) None None (s "my.yw7") Y_novel None) (mkSys (fun _ => None) []) (Ok (n1, r1)) w' /\
  present w' (s "my_Characters.xml") = true /\ present w' (s "my_Locations.xml") = true /\ present w' (s "my_Items.xml") = true /\ present w' (s "my.yw7") = false.
Proof. eexists. eexists. eexists. split; [apply (perform_is _ []); vm_compute; reflexivity|]. vm_compute. repeat split. Qed.

(** There is no backup: if writing a file fails, its old contents are lost, and the files written before are new. *)
Theorem C41_failure_refuted : exists np ent denied loc dloc p n w w' e, runs (data_write np ent denied loc dloc p n None) w (Err e) w' /\
  files w (s "my_Characters.xml") = Some (s "old characters") /\ files w (s "my_Locations.xml") = Some (s "old locations") /\
  files w' (s "my_Characters.xml") <> files w (s "my_Characters.xml") /\ files w' (s "my_Locations.xml") = Some (s "<LO") /\
  forall q c, files w' q = Some c -> c <> s "old locations".
Proof.
  exists (fun x => x), (fun x => s "&" ++ x), (fun _ => true), None, None, (s "my.yw7"), Y_novel,
    (mkSys (fun q => if str_eqb q (s "my_Characters.xml") then Some (s "old characters") else if str_eqb q (s "my_Locations.xml") then Some (s "old locations") else None) []).
  eexists. eexists. split; [apply (perform_is _ [true; true; true; false]); vm_compute; reflexivity|].
  split; [reflexivity|]. split; [reflexivity|]. split; [intro H; vm_compute in H; discriminate H|]. split; [vm_compute; reflexivity|].
  intros q c H E. subst c. cbn [files] in H.
  repeat match type of H with context [if ?f q ?x then _ else _] =>
    change (f q x) with (str_eqb q x) in H; let E := fresh in destruct (str_eqb q x) eqn:E; [apply str_eqb_eq in E; subst q; vm_compute in H; discriminate H|] end.
  vm_compute in H. discriminate H.
Qed.
Print Assumptions C41_failure_refuted.
(** A failure other than a missing permission is not reported as an error of the application. *)
Theorem C41_report_refuted : exists np ent denied loc dloc p n w w', runs (data_write np ent denied loc dloc p n None) w (Err OSError) w' /\ representable n.
Proof.
  exists (fun x => x), (fun x => s "&" ++ x), (fun _ => false), None, None, (s "my.yw7"), Y_novel, (mkSys (fun _ => None) []).
  eexists. split; [apply (perform_is _ [false]); vm_compute; reflexivity | exact Y_representable].
Qed.
Print Assumptions C41_report_refuted.
