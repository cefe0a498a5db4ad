From Coq Require Import String List NArith ZArith Bool Lia Arith Sorting.Permutation.
From Verif Require Import PyStr PyDict NovelModel NovelOps SpecNovel SpecSplit OdfXml OdtRead SpecRead ReadFrame.
Import ListNotations.

Ltac okstep H := match type of H with
  | bind ?x _ = Ok _ => let y := fresh "y" in let E := fresh "E" in destruct x as [y|] eqn:E; [cbn [bind] in H | discriminate H]
  end.
Lemma ok_eq : forall {A} (a b : A), Ok a = Ok b -> a = b.
Proof. intros A a b H. now injection H. Qed.

(** the parser: sections give div calls, and nothing else does *)
Definition div_of (v : str) : call := CStart (s "div") [Some (s "id", Some v)].
Definition section_of (e : event) : list str := section_names [e].
Lemma in_app_case : forall {A} (x : A) l m, In x (l ++ m) -> In x l \/ In x m.
Proof. intros. now apply in_app_or. Qed.
Lemma emphasis_calls : forall style p c, In c (snd (emphasis style p)) -> c = CStart (s "em") [None] \/ c = CStart (s "strong") [None].
Proof.
  intros style p c H. unfold emphasis in H. destruct (smem style (p_em p)); cbn [snd fst p_strong set_p_span] in H; destruct (smem style (p_strong p)); cbn in H; intuition.
Qed.
Lemma h_not_div : forall x, s "h" ++ x <> s "div".
Proof. intros x H. discriminate. Qed.
(** the heading tags the parser knows *)
Definition head_ok (p : ps) : Prop := Forall (fun kv => exists x, snd kv = s "h" ++ x) (p_head p).
Lemma dset_forall : forall {A} (P : str * A -> Prop) k v d, P (k, v) -> Forall P d -> (forall k' w, P (k, w) -> P (k', w)) -> Forall P (dset k v d).
Proof.
  intros A P k v d Hv Hd Hk. induction Hd as [|[j w] d Hw Hd IH]; cbn [dset]; [now repeat constructor|]. destruct (str_eqb k j) eqn:E; constructor; auto.
Qed.
Lemma parser_calls : forall e p p' calls, parser_event e p = Ok (p', calls) -> head_ok p -> head_ok p' /\
  forall tag a, In (CStart tag a) calls -> tag = s "div" -> exists v, In v (section_of e) /\ a = [Some (s "id", Some v)].
Proof.
  intros e p p' calls H Hp. destruct e as [name a|name|t]; cbn [parser_event] in H.
  - unfold start_element in H. set (style := match dget (s "text:style-name") a with Some x => x | None => [] end) in *.
    destruct (str_eqb name (s "text:p")) eqn:E1.
    { match type of H with (let '(_, _) := ?m in _) = _ => destruct m as [p1 c1] eqn:M end. destruct (emphasis style p1) as [p2 c2] eqn:Em. apply ok_eq in H. injection H as <- <-.
      assert (G1 : head_ok p1 /\ forall tag a', In (CStart tag a') c1 -> tag <> s "div").
      { destruct (p_count p); [injection M as <- <-; split; [exact Hp | intros ? ? []]|]. destruct (smem style (p_quote p)); [injection M as <- <-; split; [exact Hp | intros tag a' [I|[]]; injection I as <- _; discriminate]|].
        destruct (prefixb (s "Heading") style); [injection M as <- <-; split; [exact Hp | intros tag a' [I|[]]; injection I as <- _; apply h_not_div]|].
        destruct (dget style (p_head p)) as [h|] eqn:D.
        - injection M as <- <-. split; [exact Hp|]. intros tag a' [I|[]]. injection I as <- _. unfold head_ok in Hp. rewrite Forall_forall in Hp. apply dget_In in D. destruct (Hp _ D) as [x Hx]. cbn [snd] in Hx. rewrite Hx. apply h_not_div.
        - destruct (p_list p); injection M as <- <-; (split; [exact Hp | intros tag a' [I|[]]; injection I as <- _; discriminate]). }
      split.
      - unfold emphasis in Em. destruct (smem style (p_em p1)); cbn [p_strong set_p_span] in Em; destruct (smem style (p_strong p1)); injection Em as <- _; apply G1.
      - intros tag a' I -> . exfalso. apply in_app_case in I as [I|I]; [now apply (proj2 G1) in I|]. pose proof (emphasis_calls style p1 (CStart (s "div") a')) as Ec. rewrite Em in Ec. destruct (Ec I); discriminate. }
    destruct (str_eqb name (s "text:span")) eqn:E2.
    { destruct (emphasis style p) as [p2 c2] eqn:Em. assert (Hp2 : head_ok p2) by (unfold emphasis in Em; destruct (smem style (p_em p)); cbn [p_strong set_p_span] in Em; destruct (smem style (p_strong p)); injection Em as <- _; exact Hp).
      pose proof (emphasis_calls style p) as Ec. rewrite Em in Ec. cbn [snd] in Ec.
      destruct (dget style (p_lang p2)); apply ok_eq in H; injection H as <- <-; (split; [exact Hp2|]).
      - intros tag a' I ->. exfalso. apply in_app_case in I as [I|[I|[]]]; [destruct (Ec _ I); discriminate | discriminate].
      - intros tag a' I ->. exfalso. destruct (Ec _ I); discriminate. }
    destruct (str_eqb name (s "text:section")) eqn:E3.
    { unfold dindex in H. destruct (dget (s "text:name") a) as [v|] eqn:D; [|discriminate]. cbn [bind] in H. apply ok_eq in H. injection H as <- <-. split; [exact Hp|]. intros tag a' [I|[]] _. injection I as _ <-. exists v. split; [|reflexivity].
      unfold section_of, section_names. cbn [flat_map]. rewrite E3, D. now left. }
    destruct (str_eqb name (s "office:annotation")); [apply ok_eq in H; injection H as <- <-; split; [exact Hp | intros ? ? []]|].
    destruct (str_eqb name (s "text:h")).
    { okstep H. apply ok_eq in H. injection H as <- <-. split; [exact Hp|]. intros tag a' [I|[]] ->. exfalso. injection I as I _. destruct (dget (s "text:outline-level") a); [apply ok_eq in E; subst y; now apply h_not_div in I|].
      destruct style; [discriminate|]. apply ok_eq in E. subst y. now apply h_not_div in I. }
    destruct (str_eqb name (s "text:list-item")); [apply ok_eq in H; injection H as <- <-; split; [exact Hp | intros ? ? []]|].
    destruct (str_eqb name (s "style:style")).
    { match type of H with (if ?b then _ else _) = _ => destruct b end.
      - apply ok_eq in H. injection H as <- <-. split; [|intros ? ? []]. unfold head_ok. cbn [p_head set_p_head set_p_style p_style]. destruct (dget (s "style:name") a); cbn [enter_style]; [|exact Hp].
        apply dset_forall; [cbn; eauto | exact Hp | cbn; auto].
      - match type of H with (if ?b then _ else _) = _ => destruct b end; apply ok_eq in H; injection H as <- <-; (split; [exact Hp | intros ? ? []]). }
    destruct (str_eqb name (s "style:text-properties")).
    { set (p1 := match dget (s "fo:font-style") a with Some x => if str_eqb x (s "italic") then set_p_em (add_style (p_style p) (p_em p)) p else p | None => p end) in *.
      assert (H1 : head_ok p1) by (unfold p1; destruct (dget (s "fo:font-style") a) as [x|]; [destruct (str_eqb x (s "italic"))|]; exact Hp).
      set (p2 := match dget (s "fo:font-weight") a with Some x => if str_eqb x (s "bold") then set_p_strong (add_style (p_style p1) (p_strong p1)) p1 else p1 | None => p1 end) in *.
      assert (H2 : head_ok p2) by (unfold p2; destruct (dget (s "fo:font-weight") a) as [x|]; [destruct (str_eqb x (s "bold"))|]; exact H1).
      destruct (otruthy (dget (s "fo:language") a)); [|apply ok_eq in H; injection H as <- <-; split; [exact H2 | intros ? ? []]].
      okstep H. okstep H. apply ok_eq in H. injection H as <- <-. split; [exact H2 | intros ? ? []]. }
    destruct (str_eqb name (s "text:s")); apply ok_eq in H; injection H as <- <-; (split; [exact Hp|]); [intros tag a' [I|[]] ->; discriminate | intros ? ? []].
  - apply ok_eq in H. unfold end_element in H. 
    assert (G : forall c, In c calls -> forall tag a, c <> CStart tag a).
    { revert H. destruct (str_eqb name (s "text:p")).
      - destruct (p_count p); [intro H; injection H as <- <-; intros ? []|]. assert (Sp : forall c, In c (map (fun t => CEnd (Some t)) (p_span p)) -> forall tag a, c <> CStart tag a) by (intros c I tag a E; subst; apply in_map_iff in I as [t [I _]]; discriminate).
        destruct (p_blockquote (set_p_span [] p)); [|destruct (otruthy (p_heading (set_p_span [] p)))]; intro H; injection H as <- <-; intros c I tag a; (apply in_app_case in I as [I|[<-|[]]]; [now apply Sp | discriminate]).
      - destruct (str_eqb name (s "text:span")); [destruct (p_span p); intro H; injection H as <- <-; intros c I; [destruct I | destruct I as [<-|[]]; discriminate]|].
        destruct (str_eqb name (s "text:section")); [intro H; injection H as <- <-; intros c [<-|[]]; discriminate|].
        destruct (str_eqb name (s "office:annotation")); [intro H; injection H as <- <-; intros c [<-|[]]; discriminate|].
        destruct (str_eqb name (s "text:h")); [intro H; injection H as <- <-; intros c [<-|[]]; discriminate|].
        destruct (str_eqb name (s "text:list-item")); [intro H; injection H as <- <-; intros c []|]. destruct (str_eqb name (s "style:style")); intro H; injection H as <- <-; intros c []. }
    split; [|intros tag a I _; exfalso; exact (G _ I tag a eq_refl)].
    revert H. destruct (str_eqb name (s "text:p")); [destruct (p_count p); [|destruct (p_blockquote (set_p_span [] p)); [|destruct (otruthy (p_heading (set_p_span [] p)))]]; intro H; injection H as <- _; exact Hp|].
    destruct (str_eqb name (s "text:span")); [destruct (p_span p); intro H; injection H as <- _; exact Hp|].
    destruct (str_eqb name (s "text:section")); [intro H; injection H as <- _; exact Hp|]. destruct (str_eqb name (s "office:annotation")); [intro H; injection H as <- _; exact Hp|].
    destruct (str_eqb name (s "text:h")); [intro H; injection H as <- _; exact Hp|]. destruct (str_eqb name (s "text:list-item")); [intro H; injection H as <- _; exact Hp|]. destruct (str_eqb name (s "style:style")); intro H; injection H as <- _; exact Hp.
  - apply ok_eq in H. unfold characters in H. destruct (p_count p) as [[|[|k]]|]; [| | |destruct (p_paragraph p); [|destruct (p_heading p)]]; injection H as <- <-; (split; [exact Hp|]); intros tag a I; cbn in I; intuition discriminate.
Qed.
