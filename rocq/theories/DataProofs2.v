(** The data files, continued. *)
From Coq Require Import String List NArith ZArith Bool Lia Arith.
From Verif Require Import PyStr PyDict NovelModel YwTree Yw7Build Yw7Read YwText YwTextProofs YwTreeProofs Yw7SceneProofs Yw7ListRT Yw7ElemRT Yw7TreeInv Yw7TreeRT Yw7Clean Yw7Clean2 SpecYw7 Yw7Repr Yw7Repr2 Yw7Repr3
  FileOps FileOpsProofs SpecFile FileWrite FileWriteProofs Converter DataFiles SpecData DataProofs.
Import ListNotations.

Lemma find_tag : forall t r e, find t r = Some e -> e_tag e = t /\ In e r.
Proof.
  intros t r e H. rewrite find_findall in H. assert (I : In e (findall t r)) by (destruct (findall t r); [discriminate | injection H as ->; left; reflexivity]).
  unfold findall in I. apply filter_In in I as [I E]. apply str_eqb_eq in E. split; [congruence | exact I].
Qed.
Lemma tail_is : forall t r e, find t r = Some e -> exists j, tail_of t r = nl j.
Proof.
  intros t r e H. induction r as [|a r IH]; [discriminate|]. cbn [tail_of]. unfold find in H. cbn in H. destruct (str_eqb (e_tag a) t).
  - destruct r; [exists 0 | exists 1]; reflexivity.
  - apply IH. exact H.
Qed.
(** a rebuilt section *)
Lemma section_holds : forall {A} ent nc t t1 (bd : A -> list elem -> list elem) rd (Q : A -> Prop) (P : A -> A -> Prop) st ids (d : dict A) k1 r1,
  (forall a i, has_id i (bd a [leaf (s "ID") (Some i)])) ->
  (forall a i k', Forall2 (settled out_text) (bd a [leaf (s "ID") (Some i)]) k' -> rd k' = st a) ->
  listed Q ids d -> (forall a, Q a -> P a (st a)) -> kc r1 ->
  rebuild t1 bd ids d [] = Ok k1 -> sec t r1 = Some k1 ->
  exists x, section_text t r1 = Some x /\ holds t rd P ids d (postprocess ent nc x).
Proof.
  intros A ent nc t t1 bd rd Q P st ids d k1 r1 Hid Hrd HL HP K Hb Hs. unfold sec in Hs. destruct (find t r1) as [e|] eqn:F; [|discriminate]. injection Hs as Hk.
  destruct (find_tag _ _ _ F) as [Ht Hi]. destruct (tail_is _ _ _ F) as (j & Ej). exists (ser 1 e ++ nl j). split; [unfold section_text; rewrite F, Ej; reflexivity|].
  assert (Ce : clean e) by (exact (proj1 (Forall_forall _ _) K e Hi)).
  destruct (section_parses ent nc 1 j e Ce) as (e' & Hp & Hse).
  destruct (rebuild_roundtrip out_text t1 bd rd st ids d [] k1 (e_kids e')) as (d' & D1 & D2 & D3).
  - intros x [].
  - exact Hid.
  - exact Hrd.
  - exact Hb.
  - rewrite <- Hk. exact (settled_kids out_text _ _ Hse).
  - apply (proj1 HL).
  - intros i Hin. apply (ids_text_ok ids (proj1 HL)). exact Hin.
  - exists e', ids, d'. split; [exact Hp|]. pose proof (settled_tag out_text _ _ Hse) as Et. rewrite Ht in Et. split; [exact Et|]. split.
    + unfold read_list, find. cbn. assert (Eq : str_eqb (e_tag e') t = true) by (rewrite Et; apply str_eqb_refl).
      match goal with |- match (if ?b then _ else _) with _ => _ end = _ => replace b with true by (symmetry; exact Eq) end. exact D1.
    + apply (listing_same Q P st ids d ids d' HL HP). split; [reflexivity|]. split; [exact D2 | exact D3].
Qed.
Theorem tree_holds : forall ent nc loc dloc n n1 r1, representable n -> locale_text loc -> locale_text dloc -> write_tree loc dloc n None = Ok (n1, r1) ->
  (exists x, section_text (s "CHARACTERS") r1 = Some x /\ holds_characters n (postprocess ent nc x)) /\
  (exists x, section_text (s "LOCATIONS") r1 = Some x /\ holds_locations n (postprocess ent nc x)) /\
  (exists x, section_text (s "ITEMS") r1 = Some x /\ holds_items n (postprocess ent nc x)).
Proof.
  intros ent nc loc dloc n n1 r1 Rn L1 L2 Hw. unfold write_tree in Hw. rewrite build_tree_new in Hw.
  assert (K : kc r1).
  { refine (build_tree_clean loc dloc (prepare n) new_root n1 r1 (locale_ok _ L1) (locale_ok _ L2) _ _ (prepared_texts n Rn) new_root_clean _ Hw).
    - destruct (prepare_shape n) as (ls & sc & kw & -> & _). apply text_long; [reflexivity | exact (re_code n Rn)].
    - destruct (prepare_shape n) as (ls & sc & kw & -> & _). apply text_long; [reflexivity | exact (re_country n Rn)].
    - intros k E. injection E as <-. intros e []. }
  destruct (build_tree_inv loc dloc (prepare n) new_root n1 r1 Hw) as (_ & _ & _ & (kL & kL1 & L0 & B1 & S1) & (kI & kI1 & I0 & B2 & S2) & (kC & kC1 & C0 & B3 & S3) & _).
  assert (E : forall t, In t [s "LOCATIONS"; s "ITEMS"; s "CHARACTERS"] -> forall k, sec t new_root = Some k -> k = []).
  { intros t Hin k Hk. cbn in Hin. destruct Hin as [<- | [<- | [<- | []]]]; vm_compute in Hk; congruence. }
  rewrite (E _ (or_introl eq_refl) _ L0) in B1. rewrite (E _ (or_intror (or_introl eq_refl)) _ I0) in B2. rewrite (E _ (or_intror (or_intror (or_introl eq_refl))) _ C0) in B3.
  destruct (prepare_shape n) as (ls & sc & kw & Ep & _). rewrite Ep in B1, B2, B3. clear Ep.
  destruct Rn. split; [|split].
  - refine (section_holds ent nc (s "CHARACTERS") (s "CHARACTER") build_character read_character _ _ (stored_character out_text) _ _ kC1 r1 _ _ re_characters character_same K B3 S3).
    + intros a i. unfold has_id. rewrite character_id. reflexivity.
    + intros a i k' Hk. apply (character_roundtrip out_text a i k'). exact Hk.
  - refine (section_holds ent nc (s "LOCATIONS") (s "LOCATION") (build_world LOC_KWVAR) (read_world LOC_KWVAR) _ _ (stored_world out_text LOC_KWVAR) _ _ kL1 r1 _ _ re_locations world_same K B1 S1).
    + intros a i. unfold has_id. rewrite world_id. reflexivity.
    + intros a i k' Hk. apply (world_roundtrip out_text LOC_KWVAR a i k'); [repeat constructor; intros [] | exact Hk].
  - refine (section_holds ent nc (s "ITEMS") (s "ITEM") (build_world ITM_KWVAR) (read_world ITM_KWVAR) _ _ (stored_world out_text ITM_KWVAR) _ _ kI1 r1 _ _ re_items world_same K B2 S2).
    + intros a i. unfold has_id. rewrite world_id. reflexivity.
    + intros a i k' Hk. apply (world_roundtrip out_text ITM_KWVAR a i k'); [repeat constructor; intros [] | exact Hk].
Qed.

(** ** The files *)
Lemma write_only : forall l p t w0 w, In p l -> only_at l w0 w ->
  wp (only_at l w0) (write_file p t) (fun r w' => only_at l w0 w' /\ (forall q, q <> p -> files w' q = files w q) /\ (r = Ok tt -> files w' p = Some t)) w.
Proof.
  intros l p t w0 w Hp H. unfold write_file, op_open, op_put. cbn [pbind wp].
  assert (O1 : only_at l w0 (log (Opened p) (FileOps.set_file p (Some []) w))) by (apply only_log, only_set; assumption).
  split; [exact H|]. split; [split; [exact O1|]; split|].
  - split; [apply only_log, only_set; assumption|]. split; [apply only_log, only_set; assumption|]. split.
    + intros q Hq. rewrite files_log, files_other, files_log, files_other by exact Hq. reflexivity.
    + intros _. rewrite files_log, files_same, text_log, text_set. reflexivity.
  - intros d1 d2 _. split; [apply only_set; assumption|]. split; [apply only_log, only_set; assumption|]. split; [apply only_log, only_set; assumption|]. split; [|discriminate].
    intros q Hq. rewrite files_log, files_other, files_log, files_other by exact Hq. reflexivity.
  - split; [apply only_log; exact H|]. split; [apply only_log; exact H|]. split; [reflexivity | discriminate].
Qed.
Definition step_post (l : list str) (w0 w : fsys) (p : str) (t : option str) (r : res unit) (w' : fsys) : Prop :=
  only_at l w0 w' /\ (forall q, q <> p -> files w' q = files w q) /\ (r = Ok tt -> t <> None /\ files w' p = t).
Lemma put_section_wp : forall np denied l p t rr w0 w, In p l -> only_at l w0 w -> wp (only_at l w0) (put_section np denied p t rr) (step_post l w0 w p (section_text t rr)) w.
Proof.
  intros np denied l p t rr w0 w Hp H. unfold put_section. destruct (section_text t rr) as [x|].
  - apply wp_or_raise. eapply wp_mono; [|exact (write_only l p x w0 w Hp H)]. intros [[]|e] w' (A & B & C).
    + split; [exact A|]. split; [exact A|]. split; [exact B|]. intros _. split; [discriminate | exact (C eq_refl)].
    + split; [exact A|]. split; [exact A|]. split; [exact B | discriminate].
  - unfold op_open. cbn [pbind wp]. split; [exact H|]. split.
    + assert (O : only_at l w0 (log (Opened p) (FileOps.set_file p (Some []) w))) by (apply only_log, only_set; assumption). split; [exact O|]. split; [exact O|]. split; [|discriminate].
      intros q Hq. rewrite files_log, files_other by exact Hq. reflexivity.
    + assert (O : only_at l w0 (log (NotWritten p) w)) by (apply only_log; exact H). split; [exact O|]. split; [exact O|]. split; [reflexivity | discriminate].
Qed.
Lemma finish_section_wp : forall np ent nc l p w0 w, In p l -> only_at l w0 w ->
  wp (only_at l w0) (postprocess_file np ent nc p) (step_post l w0 w p (option_map (postprocess ent nc) (files w p))) w.
Proof.
  intros np ent nc l p w0 w Hp H. unfold postprocess_file, op_read. cbn [pbind wp]. split; [exact H|]. split.
  - intros c Hc. rewrite Hc. cbn [option_map]. apply wp_or_raise. eapply wp_mono; [|exact (write_only l p _ w0 w Hp H)]. intros [[]|e] w' (A & B & C).
    + split; [exact A|]. split; [exact A|]. split; [exact B|]. intros _. split; [discriminate | exact (C eq_refl)].
    + split; [exact A|]. split; [exact A|]. split; [exact B | discriminate].
  - assert (O : only_at l w0 (log (NotRead p) w)) by (apply only_log; exact H). split; [exact O|]. split; [exact O|]. split; [reflexivity | discriminate].
Qed.
Lemma path_neq : forall p a b, str_eqb (s "_" ++ a ++ s ".xml") (s "_" ++ b ++ s ".xml") = false -> data_path p a <> data_path p b.
Proof. intros p a b H E. unfold data_path in E. apply app_inv_head in E. rewrite E, str_eqb_refl in H. discriminate. Qed.
Definition data_paths (p : str) : list str := [data_path p (s "Characters"); data_path p (s "Locations"); data_path p (s "Items")].
Definition finished (ent : str -> str) (nc : bool) (t : str) (r : list elem) : option str := option_map (postprocess ent nc) (section_text t r).
Theorem data_write_wp : forall np ent denied loc dloc p n old w,
  wp (only_at (data_paths p) w) (data_write np ent denied loc dloc p n old)
    (fun r w' => forall n1 r1, r = Ok (n1, r1) -> write_tree loc dloc n old = Ok (n1, r1) /\ files w (lock p) = None /\
      let nc := match nv_chapters n with [] => true | _ => false end in
      (files w' (data_path p (s "Characters")) = finished ent nc (s "CHARACTERS") r1 /\ section_text (s "CHARACTERS") r1 <> None) /\
      (files w' (data_path p (s "Locations")) = finished ent nc (s "LOCATIONS") r1 /\ section_text (s "LOCATIONS") r1 <> None) /\
      (files w' (data_path p (s "Items")) = finished ent nc (s "ITEMS") r1 /\ section_text (s "ITEMS") r1 <> None)) w.
Proof.
  intros np ent denied loc dloc p n old w. pose proof (only_refl (data_paths p) w) as O. unfold data_write. cbn [wp]. split; [exact O|]. unfold present.
  destruct (files w (lock p)) eqn:Lk; [split; [exact O | discriminate]|].
  set (nc := match nv_chapters n with [] => true | _ => false end). set (pc := data_path p (s "Characters")). set (pl := data_path p (s "Locations")). set (pi := data_path p (s "Items")).
  assert (N1 : pl <> pc) by (apply path_neq; reflexivity). assert (N2 : pi <> pc) by (apply path_neq; reflexivity). assert (N3 : pi <> pl) by (apply path_neq; reflexivity).
  assert (I1 : In pc (data_paths p)) by (left; reflexivity). assert (I2 : In pl (data_paths p)) by (right; left; reflexivity). assert (I3 : In pi (data_paths p)) by (right; right; left; reflexivity).
  apply wp_bind. cbn [wp]. split; [exact O|]. destruct (write_tree loc dloc n old) as [[n1 r1]|e]; [|discriminate]. cbn [snd].
  apply wp_bind. unfold put_sections. fold pc pl pi. apply wp_bind. eapply wp_mono; [|exact (put_section_wp np denied _ pc (s "CHARACTERS") r1 w w I1 O)].
  intros [[]|e] w1 (A1 & B1 & C1); [|intros; discriminate]. specialize (C1 eq_refl) as [C1 D1].
  apply wp_bind. eapply wp_mono; [|exact (put_section_wp np denied _ pl (s "LOCATIONS") r1 w w1 I2 A1)].
  intros [[]|e] w2 (A2 & B2 & C2); [|intros; discriminate]. specialize (C2 eq_refl) as [C2 D2].
  eapply wp_mono; [|exact (put_section_wp np denied _ pi (s "ITEMS") r1 w w2 I3 A2)].
  intros [[]|e] w3 (A3 & B3 & C3); [|intros; discriminate]. specialize (C3 eq_refl) as [C3 D3].
  apply wp_bind. unfold finish_sections. fold pc pl pi. apply wp_bind. eapply wp_mono; [|exact (finish_section_wp np ent nc _ pc w w3 I1 A3)].
  intros [[]|e] w4 (A4 & B4 & C4); [|intros; discriminate]. specialize (C4 eq_refl) as [C4 D4].
  apply wp_bind. eapply wp_mono; [|exact (finish_section_wp np ent nc _ pl w w4 I2 A4)].
  intros [[]|e] w5 (A5 & B5 & C5); [|intros; discriminate]. specialize (C5 eq_refl) as [C5 D5].
  eapply wp_mono; [|exact (finish_section_wp np ent nc _ pi w w5 I3 A5)].
  intros [[]|e] w6 (A6 & B6 & C6); [|intros; discriminate]. specialize (C6 eq_refl) as [C6 D6].
  cbn [wp]. split; [exact A6|]. intros n1' r1' E. injection E as <- <-. split; [reflexivity|]. split; [reflexivity|]. cbv zeta. unfold finished. fold nc. rewrite <- D1, <- D2, <- D3.
  split; [split; [|rewrite D1; exact C1]|split; (split; [|rewrite ?D2, ?D3; assumption])].
  - rewrite (B6 pc) by congruence. rewrite (B5 pc) by congruence. rewrite D4. rewrite (B3 pc) by congruence. rewrite (B2 pc) by congruence. reflexivity.
  - rewrite (B6 pl) by congruence. rewrite D5. rewrite (B4 pl) by congruence. rewrite (B3 pl) by congruence. reflexivity.
  - rewrite D6. rewrite (B5 pi) by congruence. rewrite (B4 pi) by congruence. reflexivity.
Qed.
