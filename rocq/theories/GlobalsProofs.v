(** Proofs about Globals.v *)
From Coq Require Import List NArith Bool Lia Arith.
From Coq Require FinFun.
From Verif Require Import PyStr PyDict Globals Spec.
Import ListNotations.

(** ** create_id *)

Lemma create_id_loop_sound : forall fuel i elements r,
  create_id_loop fuel i elements = Some r ->
  exists j, r = str_of_N j /\ (i <= j)%N /\ ~ In r elements /\
            forall k, (i <= k < j)%N -> In (str_of_N k) elements.
Proof.
  induction fuel as [|f IH]; intros i elements r H; [discriminate|].
  cbn [create_id_loop] in H. destruct (smem (str_of_N i) elements) eqn:E.
  - apply IH in H as [j [Hr [Hj [Hn Hk]]]]. exists j. repeat split; [exact Hr | lia | exact Hn |].
    intros k Hk'. destruct (N.eq_dec k i) as [-> | Hne].
    + apply smem_In. exact E.
    + apply Hk. lia.
  - injection H as <-. exists i. repeat split; [lia | apply smem_false; exact E | intros k Hk; lia].
Qed.

Lemma create_id_loop_fail : forall fuel i elements,
  create_id_loop fuel i elements = None ->
  forall k, (k < fuel)%nat -> In (str_of_N (i + N.of_nat k)) elements.
Proof.
  induction fuel as [|f IH]; intros i elements H k Hk; [lia|].
  cbn [create_id_loop] in H. destruct (smem (str_of_N i) elements) eqn:E; [|discriminate].
  destruct k as [|k].
  - rewrite N.add_0_r. apply smem_In. exact E.
  - replace (i + N.of_nat (S k))%N with (N.succ i + N.of_nat k)%N by lia. apply IH; [exact H | lia].
Qed.

Lemma create_id_total : forall elements, exists r, create_id elements = Some r.
Proof.
  intro elements. unfold create_id.
  destruct (create_id_loop (S (length elements)) 1 elements) as [r|] eqn:E; [exists r; reflexivity|].
  exfalso. pose proof (create_id_loop_fail _ _ _ E) as H.
  set (l := map (fun k => str_of_N (1 + N.of_nat k)) (seq 0 (S (length elements)))).
  assert (Hnd : NoDup l).
  { unfold l. apply FinFun.Injective_map_NoDup; [|apply seq_NoDup].
    intros a b Hab. apply str_of_N_inj in Hab. lia. }
  assert (Hincl : incl l elements).
  { intros x Hx. unfold l in Hx. apply in_map_iff in Hx as [k [<- Hk]]. apply in_seq in Hk. apply H. lia. }
  pose proof (NoDup_incl_length Hnd Hincl) as Hlen.
  unfold l in Hlen. rewrite map_length, seq_length in Hlen. lia.
Qed.

Lemma create_id_spec : forall elements, exists n,
  create_id elements = Some (str_of_N n) /\ (1 <= n)%N /\ ~ In (str_of_N n) elements /\
  forall k, (1 <= k < n)%N -> In (str_of_N k) elements.
Proof.
  intro elements. destruct (create_id_total elements) as [r Hr].
  pose proof (create_id_loop_sound _ _ _ _ Hr) as [j [-> [Hj [Hn Hk]]]].
  exists j. auto.
Qed.


Lemma new_id_fresh : forall elements, ~ In (new_id elements) elements.
Proof.
  intro elements. unfold new_id. destruct (create_id_spec elements) as [n [-> [_ [H _]]]]. exact H.
Qed.

(** ** string_to_list *)

Lemma s2l_step_in : forall acc e x,
  In x (s2l_step acc e) <-> In x acc \/ (x = strip e /\ x <> []).
Proof.
  intros acc e x. unfold s2l_step. destruct (truthy (strip e)) eqn:Et; cbn [andb].
  - destruct (smem (strip e) acc) eqn:Em; cbn [negb].
    + apply smem_In in Em. split; [tauto | intros [H | [-> _]]; assumption].
    + rewrite in_app_iff. cbn [In]. apply truthy_true in Et. split.
      * intros [H | [<- | []]]; auto.
      * intros [H | [-> _]]; auto.
  - assert (Hs : strip e = []).
    { destruct (strip e) as [|c t]; [reflexivity | discriminate]. }
    split; [tauto | intros [H | [-> Hn]]; [exact H | congruence]].
Qed.

Lemma s2l_step_nodup : forall acc e, NoDup acc -> NoDup (s2l_step acc e).
Proof.
  intros acc e H. unfold s2l_step. destruct (truthy (strip e)); cbn [andb]; [|exact H].
  destruct (smem (strip e) acc) eqn:Em; cbn [negb]; [exact H|].
  apply smem_false in Em. apply (NoDup_Add (a:=strip e) (l:=acc)).
  - rewrite <- (app_nil_r acc) at 1. apply Add_app.
  - split; assumption.
Qed.

Lemma s2l_fold_in : forall l acc x,
  In x (fold_left s2l_step l acc) <-> In x acc \/ (x <> [] /\ exists e, In e l /\ x = strip e).
Proof.
  induction l as [|e l IH]; intros acc x; cbn [fold_left].
  - split; [tauto | intros [H | [_ [e [[] _]]]]; exact H].
  - rewrite IH, s2l_step_in. split.
    + intros [[H | [-> Hn]] | [Hn [e' [He' ->]]]]; [tauto | | ].
      * right. split; [exact Hn | exists e; split; [left|]; reflexivity].
      * right. split; [exact Hn | exists e'; split; [right; exact He' | reflexivity]].
    + intros [H | [Hn [e' [[<- | He'] ->]]]]; [tauto | tauto |].
      right. split; [exact Hn | exists e'; split; [exact He' | reflexivity]].
Qed.

Lemma s2l_fold_nodup : forall l acc, NoDup acc -> NoDup (fold_left s2l_step l acc).
Proof.
  induction l as [|e l IH]; intros acc H; cbn [fold_left]; [exact H|].
  apply IH. apply s2l_step_nodup. exact H.
Qed.

(** declarative first-occurrence de-duplication *)
Fixpoint dedup (seen l : list str) : list str :=
  match l with
  | [] => []
  | x :: l' => if smem x seen then dedup seen l' else x :: dedup (seen ++ [x]) l'
  end.

Lemma s2l_fold_dedup : forall l acc,
  fold_left s2l_step l acc = acc ++ dedup acc (filter truthy (map strip l)).
Proof.
  induction l as [|e l IH]; intro acc; cbn [fold_left map filter].
  - rewrite app_nil_r. reflexivity.
  - rewrite IH. unfold s2l_step. destruct (truthy (strip e)); cbn [andb dedup]; [|reflexivity].
    destruct (smem (strip e) acc); cbn [negb]; [reflexivity|].
    rewrite <- app_assoc. reflexivity.
Qed.

Lemma dedup_id : forall l seen, NoDup l -> (forall x, In x l -> ~ In x seen) -> dedup seen l = l.
Proof.
  induction l as [|x l IH]; intros seen Hn H; [reflexivity|].
  inversion Hn as [|? ? Hx Hl]; subst. cbn [dedup].
  assert (E : smem x seen = false) by (apply smem_false; apply H; left; reflexivity).
  rewrite E. f_equal. apply IH; [exact Hl|].
  intros y Hy Hs. apply in_app_or in Hs as [Hs | [<- | []]].
  - apply (H y); [right; exact Hy | exact Hs].
  - contradiction.
Qed.

Lemma filter_all : forall {A} (f : A -> bool) l, (forall x, In x l -> f x = true) -> filter f l = l.
Proof.
  induction l as [|x l IH]; intro H; [reflexivity|]. cbn [filter].
  rewrite (H x) by (left; reflexivity). f_equal. apply IH. intros y Hy. apply H. right; exact Hy.
Qed.

Lemma map_id_on : forall {A} (f : A -> A) l, (forall x, In x l -> f x = x) -> map f l = l.
Proof.
  induction l as [|x l IH]; intro H; [reflexivity|]. cbn [map].
  rewrite (H x) by (left; reflexivity). f_equal. apply IH. intros y Hy. apply H. right; exact Hy.
Qed.

Lemma string_to_list_eq : forall t c,
  string_to_list (Some t) [c] = dedup [] (filter truthy (map strip (splitc c t))).
Proof. intros t c. unfold string_to_list. rewrite split_splitc, s2l_fold_dedup. reflexivity. Qed.

Lemma string_to_list_in : forall t c x,
  In x (string_to_list (Some t) [c]) <-> x <> [] /\ exists e, In e (splitc c t) /\ x = strip e.
Proof.
  intros t c x. unfold string_to_list. rewrite split_splitc, s2l_fold_in. cbn [In]. tauto.
Qed.

Lemma string_to_list_nodup : forall t d, NoDup (string_to_list t d).
Proof.
  intros [t|] [|c d]; unfold string_to_list; try constructor. apply s2l_fold_nodup. constructor.
Qed.

Lemma string_list_roundtrip : forall c l,
  NoDup l -> (forall x, In x l -> x <> [] /\ stripped x /\ ~ In c x) ->
  string_to_list (Some (list_to_string (Some l) [c])) [c] = l.
Proof.
  intros c l Hn H. rewrite string_to_list_eq. cbn [list_to_string].
  destruct l as [|a l].
  - reflexivity.
  - rewrite splitc_join; [| discriminate | intros x Hx; apply (H x Hx)].
    rewrite map_id_on by (intros x Hx; apply strip_by_id; apply (H x Hx)).
    rewrite filter_all by (intros x Hx; apply truthy_true; apply (H x Hx)).
    apply dedup_id; [exact Hn | intros x _ []].
Qed.

Lemma string_to_list_elem : forall t c x,
  In x (string_to_list (Some t) [c]) -> x <> [] /\ stripped x /\ ~ In c x.
Proof.
  intros t c x H. apply string_to_list_in in H as [Hn [e [He ->]]].
  split; [exact Hn|]. split; [apply strip_by_stripped|].
  intro Hc. apply strip_by_In in Hc. exact (splitc_pieces c t e He Hc).
Qed.

Lemma string_to_list_idem : forall t c,
  string_to_list (Some (list_to_string (Some (string_to_list (Some t) [c])) [c])) [c] = string_to_list (Some t) [c].
Proof.
  intros t c. apply string_list_roundtrip; [apply string_to_list_nodup | apply string_to_list_elem].
Qed.

(** ** forms used by the property theorems *)
Lemma dedup_first_occ0 : forall l acc, dedup acc l = Spec.first_occ acc l.
Proof.
  induction l as [|x l IH]; intro acc; cbn [dedup Spec.first_occ]; [reflexivity|].
  destruct (in_dec str_eq_dec x acc) as [Hi | Hn].
  - apply smem_In in Hi. rewrite Hi. apply IH.
  - apply smem_false in Hn. rewrite Hn. rewrite IH. reflexivity.
Qed.

Lemma string_to_list_pieces : forall t c, exists ps,
  ps <> [] /\ t = join [c] ps /\ (forall p, In p ps -> ~ In c p) /\
  string_to_list (Some t) [c] = Spec.first_occ [] (filter truthy (map strip ps)).
Proof.
  intros t c. exists (splitc c t). split; [apply splitc_nonempty|].
  split; [symmetry; apply join_splitc|]. split; [intros p Hp; exact (splitc_pieces c t p Hp)|].
  rewrite string_to_list_eq. apply dedup_first_occ0.
Qed.

Lemma strip_unique : forall t, exists p q, t = p ++ strip t ++ q /\
  forallb is_space p = true /\ forallb is_space q = true /\ stripped (strip t).
Proof.
  intro t. destruct (strip_by_decomp is_space t) as [p [q [H1 [H2 H3]]]].
  exists p, q. split; [exact H1|]. split; [exact H2|]. split; [exact H3|]. apply strip_by_stripped.
Qed.

Lemma new_id_append : forall {A} (d : dict A) v, dset (new_id (dkeys d)) v d = d ++ [(new_id (dkeys d), v)].
Proof. intros A d v. apply dset_new, new_id_fresh. Qed.
