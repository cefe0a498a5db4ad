(** Proofs about converters. *)
From Coq Require Import List NArith Bool Lia Arith.
From Verif Require Import PyStr PyDict NovelModel YwTree YwText FileOps FileOpsProofs FileWrite SpecFile FileWriteProofs OdfWriteProofs Converter SpecConv.
Import ListNotations.

(** ** from executions to the calculus *)
Lemma wp_complete : forall {A} (I : fsys -> Prop) (x : prog A) (Q : res A -> fsys -> Prop) w,
  (forall w', crashes x w w' -> I w') -> (forall r w', runs x w r w' -> Q r w') -> wp I x Q w.
Proof.
  intros A I x Q. induction x as [r|p k IH|p k IH|a b k IH|p k IH|p d k IH|p k IH|k IH|q k IH|m k IH|m k IH|m k IH]; intros w HI HQ;
    cbn [wp]; (split; [apply HI; constructor|]).
  - apply HQ. constructor.
  - apply IH; [intros w' C; apply HI; constructor; exact C | intros r w' R; apply HQ; constructor; exact R].
  - split.
    + intros c Hc. apply IH; [intros w' C; apply HI; apply (c_read _ _ _ c); assumption | intros r w' R; apply HQ; apply (r_read _ _ _ c); assumption].
    + apply IH; [intros w' C; apply HI; apply c_read_fails; assumption | intros r w' R; apply HQ; apply r_read_fails; assumption].
  - split.
    + intros c Hc. apply IH; [intros w' C; apply HI; apply (c_replace _ _ _ _ c); assumption | intros r w' R; apply HQ; apply (r_replace _ _ _ _ c); assumption].
    + apply IH; [intros w' C; apply HI; apply c_replace_fails; assumption | intros r w' R; apply HQ; apply r_replace_fails; assumption].
  - split.
    + apply IH; [intros w' C; apply HI; apply c_open; assumption | intros r w' R; apply HQ; apply r_open; assumption].
    + apply IH; [intros w' C; apply HI; apply c_open_fails; assumption | intros r w' R; apply HQ; apply r_open_fails; assumption].
  - split.
    + apply IH; [intros w' C; apply HI; apply c_put; assumption | intros r w' R; apply HQ; apply r_put; assumption].
    + intros d1 d2 E. split; [apply HI; apply (c_torn _ _ _ d2); exact E|].
      apply IH; [intros w' C; apply HI; apply (c_put_fails _ _ d1 d2); assumption | intros r w' R; apply HQ; apply (r_put_fails _ _ d1 d2); assumption].
  - intros w1 E1 E2. apply IH; [intros w' C; apply HI; apply (c_rmtree _ _ _ w1); assumption | intros r w' R; apply HQ; apply (r_rmtree _ _ _ w1); assumption].
  - split.
    + apply IH; [intros w' C; apply HI; apply c_other; assumption | intros r w' R; apply HQ; apply r_other; assumption].
    + apply IH; [intros w' C; apply HI; apply c_other_fails; assumption | intros r w' R; apply HQ; apply r_other_fails; assumption].
  - intro b. apply IH; [intros w' C; apply HI; apply (c_ask _ b); assumption | intros r w' R; apply HQ; apply (r_ask _ b); assumption].
  - apply IH; [intros w' C; apply HI; constructor; exact C | intros r w' R; apply HQ; constructor; exact R].
  - apply IH; [intros w' C; apply HI; constructor; exact C | intros r w' R; apply HQ; constructor; exact R].
  - apply IH; [intros w' C; apply HI; constructor; exact C | intros r w' R; apply HQ; constructor; exact R].
Qed.

(** events are only added *)
Lemma crashes_events : forall {A} (x : prog A) w w', crashes x w w' -> exists es, happened w w' es.
Proof.
  unfold happened. intros A x w w' C. induction C; cbn [events log set_file] in *;
    try (exists []; rewrite app_nil_r; reflexivity);
    try (destruct IHC as [es IHC]; try rewrite <- app_assoc in IHC; try (eexists; exact IHC)).
  - exists es. congruence.
  - exists []. rewrite app_nil_r. exact H.
Qed.

(** ** programs that do not talk to the user *)
Fixpoint quiet {A} (x : prog A) : Prop :=
  match x with
  | Ret _ => True
  | IsFile _ k => forall b, quiet (k b)
  | ReadFile _ k => forall b, quiet (k b)
  | Replace _ _ k | OpenW _ k | Put _ _ k | Other k => forall b, quiet (k b)
  | RmTree _ k => quiet k
  | Ask _ _ | Tell _ _ | What _ _ | Warn _ _ => False
  end.
Lemma quiet_bind : forall {A B} (x : prog A) (f : A -> prog B), quiet x -> (forall a, quiet (f a)) -> quiet (pbind x f).
Proof.
  intros A B x f H Hf. induction x as [r|p k IH|p k IH|a b k IH|p k IH|p d k IH|p k IH|k IH|q k IH|m k IH|m k IH|m k IH]; cbn [quiet pbind] in *; try contradiction; auto.
  destruct r; [apply Hf | exact I].
Qed.
Lemma quiet_catch : forall {A B} (x : prog A) (f : res A -> prog B), quiet x -> (forall a, quiet (f a)) -> quiet (pcatch x f).
Proof.
  intros A B x f H Hf. induction x as [r|p k IH|p k IH|a b k IH|p k IH|p d k IH|p k IH|k IH|q k IH|m k IH|m k IH|m k IH]; cbn [quiet pcatch] in *; try contradiction; auto.
Qed.
Lemma quiet_silent : forall {A} (x : prog A), quiet x -> silent x.
Proof.
  unfold silent, happened. intros A x H w r w' R. induction R; cbn [quiet] in H; try contradiction.
  - exists []. rewrite app_nil_r. split; reflexivity.
  - apply IHR; auto.
  - apply IHR; auto.
  - destruct IHR as (es & E & F); [auto|]. eexists. cbn [events log set_file] in E. rewrite <- app_assoc in E. split; [exact E | exact F].
  - destruct IHR as (es & E & F); [auto|]. eexists. cbn [events log set_file] in E. rewrite <- app_assoc in E. split; [exact E | exact F].
  - destruct IHR as (es & E & F); [auto|]. eexists. cbn [events log set_file] in E. rewrite <- app_assoc in E. split; [exact E | exact F].
  - destruct IHR as (es & E & F); [auto|]. eexists. cbn [events log set_file] in E. rewrite <- app_assoc in E. split; [exact E | exact F].
  - destruct IHR as (es & E & F); [auto|]. eexists. cbn [events log set_file] in E. rewrite <- app_assoc in E. split; [exact E | exact F].
  - destruct IHR as (es & E & F); [auto|]. eexists. cbn [events log set_file] in E. rewrite <- app_assoc in E. split; [exact E | exact F].
  - destruct IHR as (es & E & F); [auto|]. eexists. cbn [events log set_file] in E. rewrite <- app_assoc in E. split; [exact E | exact F].
  - destruct IHR as (es & E & F); [auto|]. exists es. rewrite E. split; [congruence | exact F].
  - apply IHR; auto.
  - destruct IHR as (es & E & F); [auto|]. eexists. cbn [events log set_file] in E. rewrite <- app_assoc in E. split; [exact E | exact F].
Qed.

Lemma quiet_or_raise : forall {A} (x : prog A) e, quiet x -> quiet (or_raise x e).
Proof. intros A x e H. apply quiet_catch; [exact H|]. intros [a|e']; exact I. Qed.
Lemma quiet_write_file : forall p t, quiet (write_file p t).
Proof. intros p t. apply quiet_bind; [intro b; exact I | intros a b; exact I]. Qed.
Lemma quiet_back_up : forall np p, quiet (back_up np p).
Proof. intros np p [|]; [|exact I]. apply quiet_bind; [apply quiet_or_raise; intro b; exact I | intro a; exact I]. Qed.
Lemma quiet_save_text : forall np p t, quiet (save_text np p t).
Proof.
  intros np p t. apply quiet_bind; [apply quiet_back_up|]. intro b. apply quiet_catch; [apply quiet_write_file|]. intros [a|e]; [exact I|].
  apply quiet_bind; [destruct b; [intro x; exact I | exact I] | intro a; exact I].
Qed.
Lemma quiet_yw7_write : forall np ent loc dloc p n old, quiet (yw7_write np ent loc dloc p n old).
Proof.
  intros np ent loc dloc p n old [|]; [exact I|]. apply quiet_bind; [exact I|]. intro nr. apply quiet_bind; [apply quiet_save_text|]. intros _.
  apply quiet_bind; [|intro a; exact I]. apply quiet_bind; [intro b; exact I|]. intro t. apply quiet_or_raise, quiet_write_file.
Qed.
Lemma quiet_yw7_read_with : forall {A} (f : str -> res A) p, quiet (yw7_read_with f p).
Proof.
  intros A f p [|]; [exact I|]. intros [t|e]; [exact I|]. intros [t|e2]; [exact I|]. intros [t|e3]; [destruct (parse_xml t); exact I | exact I].
Qed.
Lemma quiet_write_files : forall l, quiet (write_files l).
Proof. induction l as [|[p t] l IH]; cbn [write_files]; [exact I|]. apply quiet_bind; [apply quiet_or_raise, quiet_write_file | intros _; exact IH]. Qed.
Lemma quiet_zip_files : forall zip tmp p names, quiet (zip_files zip tmp p names).
Proof.
  intros zip tmp p names. induction names as [|x l IH]; cbn [zip_files]; [exact I|]. apply quiet_bind.
  - destruct (str_eqb x (s "META-INF")); [apply quiet_bind; [intro b; exact I | intro a; exact I] | intro b; exact I].
  - intro t. apply quiet_bind; [intro b; exact I | intros _; exact IH].
Qed.
Lemma quiet_odf_write : forall np zip ending tmp parts names text p, quiet (odf_write np zip ending tmp parts names text p).
Proof.
  intros np zip ending tmp parts names text p. unfold odf_write. apply quiet_bind.
  { cbn [set_up quiet]. apply quiet_bind; [apply quiet_or_raise; apply quiet_bind; [intro b; exact I | intros a b; exact I] | intros _; apply quiet_write_files]. }
  intros _. apply quiet_bind; [apply quiet_bind; [exact I | intro t; apply quiet_save_text]|]. intros _.
  apply quiet_bind; [intro b; exact I|]. intros _. apply quiet_bind; [apply quiet_back_up|]. intro b. apply quiet_catch.
  - apply quiet_bind; [intro x; exact I|]. intros _. apply quiet_catch; [apply quiet_bind; [intro x; exact I | intros _; apply quiet_zip_files]|].
    intro r. apply quiet_bind; [intro x; exact I | intros _; exact I].
  - intros [a|e]; (apply quiet_bind; [intro x; exact I|]); intros _; [exact I|].
    apply quiet_bind; [destruct b; [intro x; exact I | exact I] | intros _; exact I].
Qed.

(** ** where a program writes *)
Fixpoint touches {A} (P : str -> Prop) (x : prog A) : Prop :=
  match x with
  | Ret _ => True
  | IsFile _ k => forall b, touches P (k b)
  | ReadFile _ k => forall b, touches P (k b)
  | Replace a b k => P a /\ P b /\ forall b, touches P (k b)
  | OpenW p k => P p /\ forall b, touches P (k b)
  | Put p _ k => P p /\ forall b, touches P (k b)
  | Other k => forall b, touches P (k b)
  | RmTree d k => (forall q, below d q = true -> P q) /\ touches P k
  | Ask _ k => forall b, touches P (k b)
  | Tell _ k | What _ k | Warn _ k => touches P k
  end.
Lemma touches_bind : forall {A B} P (x : prog A) (f : A -> prog B), touches P x -> (forall a, touches P (f a)) -> touches P (pbind x f).
Proof.
  intros A B P x f H Hf. induction x as [r|p k IH|p k IH|a b k IH|p k IH|p d k IH|p k IH|k IH|q k IH|m k IH|m k IH|m k IH]; cbn [touches pbind] in *; intuition auto.
  destruct r; [apply Hf | exact I].
Qed.
Lemma touches_catch : forall {A B} P (x : prog A) (f : res A -> prog B), touches P x -> (forall a, touches P (f a)) -> touches P (pcatch x f).
Proof.
  intros A B P x f H Hf. induction x as [r|p k IH|p k IH|a b k IH|p k IH|p d k IH|p k IH|k IH|q k IH|m k IH|m k IH|m k IH]; cbn [touches pcatch] in *; intuition auto.
Qed.
Lemma touches_frame : forall {A} (P : str -> Prop) (x : prog A) w w', touches P x -> crashes x w w' -> forall q, ~ P q -> files w' q = files w q.
Proof.
  intros A P x w w' H C q Hq. induction C; cbn [touches] in H; auto.
  - rewrite IHC by apply H. rewrite files_log, !files_other; [reflexivity| |]; intros ->; apply Hq; apply H.
  - rewrite IHC by apply H. reflexivity.
  - rewrite IHC by apply H. rewrite files_log, files_other; [reflexivity|]. intros ->. apply Hq, H.
  - rewrite IHC by apply H. reflexivity.
  - rewrite IHC by apply H. rewrite files_log, files_other; [reflexivity|]. intros ->. apply Hq, H.
  - rewrite files_other; [reflexivity|]. intros ->. apply Hq, H.
  - rewrite IHC by apply H. rewrite files_log, files_other; [reflexivity|]. intros ->. apply Hq, H.
  - rewrite IHC by apply H. apply H1. destruct (below p q) eqn:E; [|reflexivity]. contradiction (Hq (proj1 H q E)).
  - apply H1. destruct (below p q) eqn:E; [|reflexivity]. contradiction (Hq (proj1 H q E)).
Qed.
Lemma touches_or_raise : forall {A} P (x : prog A) e, touches P x -> touches P (or_raise x e).
Proof. intros A P x e H. apply touches_catch; [exact H|]. intros [a|e']; exact I. Qed.
Lemma touches_write_file : forall (P : str -> Prop) p t, P p -> touches P (write_file p t).
Proof. intros P p t H. apply touches_bind; [split; [exact H | intro b; exact I] | intros a; split; [exact H | intro b; exact I]]. Qed.
Lemma touches_back_up : forall (P : str -> Prop) np p, P p -> P (bak p) -> touches P (back_up np p).
Proof. intros P np p H H2 [|]; [|exact I]. apply touches_bind; [apply touches_or_raise; cbn; auto | intro a; exact I]. Qed.
Lemma touches_save_text : forall (P : str -> Prop) np p t, P p -> P (bak p) -> touches P (save_text np p t).
Proof.
  intros P np p t H H2. apply touches_bind; [apply touches_back_up; assumption|]. intro b. apply touches_catch; [apply touches_write_file, H|]. intros [a|e]; [exact I|].
  apply touches_bind; [destruct b; [cbn; auto | exact I] | intro a; exact I].
Qed.
Lemma touches_write_files : forall (P : str -> Prop) l, (forall x, In x l -> P (fst x)) -> touches P (write_files l).
Proof.
  induction l as [|[p t] l IH]; intro H; cbn [write_files]; [exact I|]. apply touches_bind; [apply touches_or_raise, touches_write_file; exact (H _ (or_introl eq_refl))|].
  intros _. apply IH. intros x Hx. apply H. right. exact Hx.
Qed.
Lemma touches_zip_files : forall (P : str -> Prop) zip tmp p names, P p -> touches P (zip_files zip tmp p names).
Proof.
  intros P zip tmp p names H. induction names as [|x l IH]; cbn [zip_files]; [exact I|]. apply touches_bind.
  - destruct (str_eqb x (s "META-INF")); [apply touches_bind; [intro b; exact I | intro a; exact I] | intro b; exact I].
  - intro t. apply touches_bind; [split; [exact H | intro b; exact I] | intros _; exact IH].
Qed.
Lemma touches_odf_write : forall (P : str -> Prop) np zip ending tmp parts names text p, P p -> P (bak p) -> (forall q, below tmp q = true -> P q) ->
  touches P (odf_write np zip ending tmp parts names text p).
Proof.
  intros P np zip ending tmp parts names text p H H2 H3. unfold odf_write. apply touches_bind.
  { cbn [set_up touches]. split; [exact H3|]. apply touches_bind; [apply touches_or_raise; apply touches_bind; [intro b; exact I | intros a b; exact I]|].
    intros _. apply touches_write_files. intros x Hx. apply in_map_iff in Hx. destruct Hx as ([a b] & <- & _). cbn [fst]. apply H3. apply below_app. }
  intros _. apply touches_bind.
  { apply touches_bind; [exact I|]. intro t. apply touches_save_text; apply H3; unfold bak; rewrite <- ?app_assoc; apply (below_app tmp). }
  intros _. apply touches_bind; [intro b; exact I|]. intros _. apply touches_bind; [apply touches_back_up; assumption|]. intro b. apply touches_catch.
  - apply touches_bind; [split; [exact H | intro x; exact I]|]. intros _. apply touches_catch; [apply touches_bind; [intro x; exact I | intros _; apply touches_zip_files, H]|].
    intro r. apply touches_bind; [split; [exact H | intro x; exact I] | intros _; exact I].
  - intros [a|e]; (apply touches_bind; [intro x; exact I|]); intros _; [split; [exact H3 | exact I]|].
    apply touches_bind; [destruct b; [cbn; auto | exact I] | intros _; exact I].
Qed.

Lemma below_bak : forall tmp p, below tmp (bak p) = below tmp p.
Proof.
  intros tmp p. destruct (below tmp p) eqn:E.
  - unfold below in *. apply prefixb_spec in E. destruct E as [r E]. apply prefixb_spec. exists (r ++ s ".bak"). unfold bak. rewrite E, <- !app_assoc. reflexivity.
  - unfold below in *. apply not_true_is_false. intro H. apply prefixb_spec in H. destruct H as [r H]. unfold bak in H.
    assert (L : length (tmp ++ s "/") <= length p \/ length p < length (tmp ++ s "/")) by lia. destruct L as [L|L].
    + assert (X : prefixb (tmp ++ s "/") p = true).
      { rewrite <- (prefixb_app_long _ _ (s ".bak") L). apply prefixb_spec. exists r. exact H. }
      congruence.
    + (* the slash would be in ".bak" *)
      assert (G : In 47%N (s ".bak")); [|cbn in G; intuition discriminate].
      apply (f_equal (fun l => nth (length tmp) l 0%N)) in H. rewrite app_length in L. cbn [length s] in L.
      rewrite (app_nth2 p) in H by (cbn in L; lia). rewrite <- app_assoc, (app_nth2 tmp) in H by lia. rewrite Nat.sub_diag in H. cbn [s app nth map] in H.
      assert (G : nth (length tmp - length p) (s ".bak") 0%N = 47%N) by exact H.
      destruct (le_lt_dec (length (s ".bak")) (length tmp - length p)) as [X|X]; [rewrite nth_overflow in G by exact X; discriminate|].
      rewrite <- G. apply nth_In. exact X.
Qed.

(** ** the classes *)
Fixpoint readonly {A} (x : prog A) : Prop :=
  match x with
  | Ret _ => True
  | IsFile _ k => forall b, readonly (k b)
  | ReadFile _ k => forall b, readonly (k b)
  | Replace _ _ _ | OpenW _ _ | Put _ _ _ | RmTree _ _ => False
  | Other k => forall b, readonly (k b)
  | Ask _ k => forall b, readonly (k b)
  | Tell _ k | What _ k | Warn _ k => readonly k
  end.
Lemma readonly_files : forall {A} (x : prog A) w w', readonly x -> crashes x w w' -> files w' = files w.
Proof. intros A x w w' H C. induction C; cbn [readonly] in H; try contradiction; auto; (rewrite IHC by auto; reflexivity). Qed.
Lemma readonly_bind : forall {A B} (x : prog A) (f : A -> prog B), readonly x -> (forall a, readonly (f a)) -> readonly (pbind x f).
Proof.
  intros A B x f H Hf. induction x as [r|p k IH|p k IH|a b k IH|p k IH|p d k IH|p k IH|k IH|q k IH|m k IH|m k IH|m k IH]; cbn [readonly pbind] in *; try contradiction; auto.
  destruct r; [apply Hf | exact I].
Qed.

Lemma yw7_reader_good : forall np ent ext loc dloc, good_reader (yw7_class np ent ext loc dloc).
Proof.
  intros np ent ext loc dloc p n. cbn [yw7_class fc_read]. split.
  - apply quiet_silent, quiet_bind; [apply quiet_yw7_read_with | intro a; exact I].
  - intros w w'. apply readonly_files. apply readonly_bind; [|intro a; exact I]. unfold yw7_load, yw7_read_with. cbn [readonly].
    intros [|]; [exact I|]. intros [t|e]; [exact I|]. intros [t|e2]; [exact I|]. intros [t|e3]; [destruct (parse_xml t); exact I | exact I].
Qed.
Lemma yw7_writer_good : forall tmp np ent ext loc dloc, good_writer tmp (yw7_class np ent ext loc dloc).
Proof.
  intros tmp np ent ext loc dloc p n m. cbn [yw7_class fc_write].
  assert (W : forall w, wp (fun w' => save_inv p w w') (run _ <- yw7_write np ent loc dloc p n m; Ret (Ok tt)) (fun r w' => r = Ok tt -> files w' p <> None) w).
  { intro w. apply wp_bind. apply (wp_use _ _ _ _ _ _ (wp_inv_post _ _ _ _ (yw7_write_wp np ent loc dloc p n m w))); [intros w' H; exact (proj1 H)|].
    intros [[n1 r1]|e] w' (HI & es & _ & H); [split; [exact (proj1 HI)|]; intros _; exact (proj1 (proj2 H)) | discriminate]. }
  split; [apply quiet_silent, quiet_bind; [apply quiet_yw7_write | intro a; exact I]|]. split.
  - intros w w' C. destruct (wp_crashes _ _ _ _ _ (W w) C) as (H1 & _ & H3). split; [intros q Hq _; exact (H1 q Hq) | intros _ Hn; exact (H3 Hn)].
  - intros w w' R _. exact (wp_runs _ _ _ _ _ _ (W w) R eq_refl).
Qed.
Lemma reader_good : forall desc suffix ext f, good_reader (reader_class desc suffix ext f).
Proof.
  intros desc suffix ext f p n. cbn [reader_class fc_read]. split.
  - apply quiet_silent, quiet_bind; [intro b; exact I|]. intro t. apply quiet_bind; [exact I | intro r; exact I].
  - intros w w'. apply readonly_files. apply readonly_bind; [intro b; exact I|]. intro t. apply readonly_bind; [exact I | intro r; exact I].
Qed.
Lemma writer_good : forall np zip ending tmp desc suffix ext names parts f,
  (forall n, NoDup (s "content.xml" :: s "content.xml.bak" :: map fst (parts n)) /\
    forall x, In x names -> x = s "META-INF" \/ x = s "content.xml" \/ In x (map fst (parts n))) ->
  good_writer tmp (writer_class np zip ending tmp desc suffix ext names parts f).
Proof.
  intros np zip ending tmp desc suffix ext names parts f H p n m. cbn [writer_class fc_write]. destruct (H n) as [ND HN].
  split; [apply quiet_silent, quiet_odf_write|]. split.
  - intros w w' C. split.
    + intros q Hq Hb. refine (touches_frame (fun q => In q [p; bak p] \/ below tmp q = true) _ w w' _ C q _).
      * apply touches_odf_write; cbn; auto.
      * intros [X | X]; [exact (Hq X) | congruence].
    + intros HpT Hn. assert (HbT : below tmp (bak p) = false) by (rewrite below_bak; exact HpT).
      destruct (wp_crashes _ _ _ _ _ (odf_write_wp np zip ending tmp (parts n) names (f n) p HpT HbT ND HN w) C) as (_ & _ & X). exact (X Hn).
  - intros w w' R HpT. assert (HbT : below tmp (bak p) = false) by (rewrite below_bak; exact HpT).
    destruct (wp_runs _ _ _ _ _ _ (odf_write_wp np zip ending tmp (parts n) names (f n) p HpT HbT ND HN w) R) as (es & _ & t & _ & X & _). congruence.
Qed.

Lemma Forall_map_all : forall {A B} (P : B -> Prop) (f : A -> B) l, (forall x, P (f x)) -> Forall P (map f l).
Proof. intros A B P f l H. induction l; constructor; auto. Qed.
Theorem converters_good : forall en cv, good_environment en -> In cv [yw7_converter en; yw7_exporter en; yw7_importer en] -> good_converter (en_tmp en) cv.
Proof.
  intros en cv H Hcv. assert (WG : forall x, good_writer (en_tmp en) (the_writer en x)) by (intro x; apply writer_good; intro n; apply H).
  assert (RG : forall x, good_reader (the_reader en x)) by (intro x; apply reader_good).
  assert (Y1 : Forall good_reader [the_yw7 en]) by (constructor; [exact (yw7_reader_good _ _ _ _ _) | constructor]).
  assert (YW : good_writer (en_tmp en) (the_yw7 en)) by exact (yw7_writer_good _ _ _ _ _ _).
  assert (Y2 : Forall (good_writer (en_tmp en)) [the_yw7 en]) by (constructor; [exact YW | constructor]).
  assert (O : good_reader (the_outline en)) by exact (reader_good _ _ _ _). assert (M : good_reader (the_import en)) by exact (reader_good _ _ _ _).
  assert (X1 : Forall (good_writer (en_tmp en)) (map (the_writer en) export_kinds)) by exact (Forall_map_all _ _ _ WG).
  assert (X2 : Forall good_reader (map (the_reader en) import_kinds)) by exact (Forall_map_all _ _ _ RG).
  assert (N1 : forall l, Some (@nil fclass) = Some l -> Forall good_reader l) by (intros l E; injection E as <-; constructor).
  assert (N2 : forall l, @None (list fclass) = Some l -> Forall good_reader l) by discriminate.
  destruct Hcv as [E | [E | [E | []]]]; rewrite <- E.
  - exact (Build_good_converter (en_tmp en) (yw7_converter en) Y1 X1 X2 Y1 Y2 N1 YW (conj eq_refl eq_refl) O M).
  - exact (Build_good_converter (en_tmp en) (yw7_exporter en) Y1 X1 (Forall_nil _) (Forall_nil _) (Forall_nil _) N2 YW (conj eq_refl eq_refl) O M).
  - exact (Build_good_converter (en_tmp en) (yw7_importer en) Y1 (Forall_nil _) X2 Y1 Y2 N1 YW (conj eq_refl eq_refl) O M).
Qed.
