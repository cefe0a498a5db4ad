(** The loops of the formatting (odt_w_formatted.py 89-93) end. *)
From Coq Require Import String List NArith ZArith Bool Lia Arith.
From Verif Require Import PyStr OdtText OdtTextProofs FormatWords.
Import ListNotations.

Definition bare_tag (t : str) : Prop := ~ In 91%N t /\ match t with c :: _ => c <> 47%N | [] => True end.
Lemma count_le : forall sub t k, count_go sub k t <= length t.
Proof.
  intros sub t. induction t as [|c t IH]; intro k; [apply Nat.le_0_l|]. cbn [count_go length]. destruct k as [|k]; [|specialize (IH k); lia].
  destruct (prefixb sub (c :: t)); [specialize (IH (length sub - 1)) | specialize (IH 0)]; lia.
Qed.
Lemma prefixb_len : forall p t, prefixb p t = true -> length p <= length t.
Proof. intros p t H. apply prefixb_spec in H as [r ->]. rewrite app_length. lia. Qed.
(** no occurrence of [p begins in a and ends in [q *)
Lemma straddle : forall p a q, ~ In 91%N p -> a <> [] -> prefixb (91%N :: p) (a ++ 91%N :: q) = prefixb (91%N :: p) a.
Proof.
  intros p a q Hp Ha. destruct (prefixb (91%N :: p) a) eqn:E.
  - apply prefixb_spec in E as [r ->]. rewrite <- app_assoc. apply prefixb_app.
  - destruct (prefixb (91%N :: p) (a ++ 91%N :: q)) eqn:F; [|reflexivity]. exfalso. apply prefixb_spec in F as [r F].
    assert (L : length a < length (91%N :: p)).
    { destruct (Nat.lt_ge_cases (length a) (length (91%N :: p))) as [L | L]; [exact L|]. exfalso.
      assert (X : prefixb (91%N :: p) a = true); [|congruence]. apply prefixb_spec. exists (skipn (length (91%N :: p)) a).
      assert (Y : firstn (length (91%N :: p)) (a ++ 91%N :: q) = 91%N :: p) by (rewrite F, firstn_app, firstn_all, Nat.sub_diag, app_nil_r; reflexivity).
      rewrite firstn_app in Y. replace (length (91%N :: p) - length a) with 0 in Y by lia. rewrite app_nil_r in Y. rewrite <- Y at 1. rewrite <- (firstn_skipn (length (91%N :: p)) a) at 1. reflexivity. }
    assert (Nt : nth_error (a ++ 91%N :: q) (length a) = Some 91%N) by (rewrite nth_error_app2 by lia; now rewrite Nat.sub_diag).
    rewrite F in Nt. rewrite nth_error_app1 in Nt by exact L. destruct a as [|x a]; [congruence|]. cbn [length nth_error] in Nt. apply nth_error_In in Nt. contradiction.
Qed.
Lemma count_snoc : forall p q a k, ~ In 91%N p -> ~ In 91%N q -> k <= length a -> count_go (91%N :: p) k (a ++ 91%N :: q) = count_go (91%N :: p) k a + count (91%N :: p) (91%N :: q).
Proof.
  intros p q a. induction a as [|x a IH]; intros k Hp Hq Hk.
  - cbn [length] in Hk. replace k with 0 by lia. reflexivity.
  - cbn [app count_go]. destruct k as [|k]; [|apply IH; [exact Hp | exact Hq | cbn [length] in Hk; lia]].
    change (x :: a ++ 91%N :: q) with ((x :: a) ++ 91%N :: q). rewrite straddle by (assumption || discriminate).
    destruct (prefixb (91%N :: p) (x :: a)) eqn:E; [|apply IH; [exact Hp | exact Hq | lia]].
    apply prefixb_len in E. rewrite IH; [reflexivity | exact Hp | exact Hq|]. cbn [length] in *. lia.
Qed.
Lemma count_self : forall p, count (91%N :: p) (91%N :: p) = 1.
Proof. intro p. pose proof (count_hit (91%N :: p) [] ltac:(discriminate)) as H. rewrite app_nil_r in H. rewrite H. reflexivity. Qed.
Lemma count_none : forall p q, ~ In 91%N q -> prefixb p q = false -> count (91%N :: p) (91%N :: q) = 0.
Proof.
  intros p q Hq H. rewrite count_miss by (cbn [prefixb]; now rewrite N.eqb_refl). pose proof (count_skip 91%N p q [] Hq) as C. rewrite app_nil_r in C. rewrite C. reflexivity.
Qed.
Section Tag.
Variable t : str.
Hypothesis bare : bare_tag t.
Lemma no_open : ~ In 91%N (t ++ s "]") /\ ~ In 91%N (s "/" ++ t ++ s "]").
Proof. destruct bare as [H _]. split; rewrite ?in_app_iff; intros K; repeat destruct K as [K | K]; try contradiction; try discriminate. Qed.
Lemma apart_tags : prefixb (t ++ s "]") (s "/" ++ t ++ s "]") = false /\ forall r, prefixb (s "/" ++ t ++ s "]") (t ++ s "]" ++ r) = false.
Proof.
  destruct bare as [_ H]. destruct t as [|c u]; [split; reflexivity|]. split; [|intro r]; change (s "/") with [47%N]; cbn [app prefixb].
  - apply N.eqb_neq in H. now rewrite H.
  - rewrite (proj2 (N.eqb_neq 47 c)) by congruence. reflexivity.
Qed.
Lemma close_counts : forall line, count (opening t) (line ++ closing t) = count (opening t) line /\ count (closing t) (line ++ closing t) = S (count (closing t) line).
Proof.
  intro line. destruct no_open as [N1 N2]. unfold opening, closing. change (s "[" ++ t ++ s "]") with (91%N :: (t ++ s "]")). change (s "[/" ++ t ++ s "]") with (91%N :: (s "/" ++ t ++ s "]")).
  unfold count. rewrite !count_snoc by (assumption || lia). rewrite count_self, (count_none _ _ N2 (proj1 apart_tags)). lia.
Qed.
Lemma open_counts : forall line, count (closing t) (opening t ++ line) = count (closing t) line /\ count (opening t) (opening t ++ line) = S (count (opening t) line).
Proof.
  intro line. destruct no_open as [N1 N2]. split; [|apply count_hit; discriminate].
  unfold opening, closing. change (s "[" ++ t ++ s "]") with (91%N :: (t ++ s "]")). change (s "[/" ++ t ++ s "]") with (91%N :: (s "/" ++ t ++ s "]")).
  cbn [app]. rewrite count_miss; [now apply count_skip|]. cbn [prefixb]. rewrite N.eqb_refl. cbn [andb]. rewrite <- app_assoc. apply apart_tags.
Qed.
Lemma close_ends : forall fuel line, count (opening t) line - count (closing t) line < fuel -> exists l b, close_line fuel t line = Some (l, b) /\ count (opening t) l <= count (closing t) l.
Proof.
  induction fuel as [|fuel IH]; intros line H; [lia|]. cbn [close_line]. destruct (Nat.ltb_spec (count (closing t) line) (count (opening t) line)) as [L | L].
  - destruct (close_counts line) as [C1 C2]. destruct (IH (line ++ closing t)) as [l [b [E F]]]; [rewrite C1, C2; lia|]. rewrite E. exists l, true. split; [reflexivity | exact F].
  - exists line, false. split; [reflexivity | lia].
Qed.
Lemma open_ends : forall fuel line, count (closing t) line - count (opening t) line < fuel -> exists l, open_line fuel t line = Some l.
Proof.
  induction fuel as [|fuel IH]; intros line H; [lia|]. cbn [open_line]. destruct (Nat.ltb_spec (count (opening t) line) (count (closing t) line)) as [L | L]; [|now eexists].
  destruct (open_counts line) as [C1 C2]. apply IH. rewrite C1, C2. lia.
Qed.
Lemma tag_ends : forall line b, exists r, tag_line line t b = Some r.
Proof.
  intros line b. unfold tag_line. cbv zeta. match goal with |- context [close_line (S (length ?l)) t ?l] => destruct (close_ends (S (length l)) l) as [l1 [b1 [E _]]] end.
  - match goal with |- count ?o ?l - _ < _ => pose proof (count_le o l 0) as L end. unfold count at 1. lia.
  - rewrite E. destruct (open_ends (S (length l1)) l1) as [l2 E2]; [pose proof (count_le (closing t) l1 0) as L; unfold count at 1; lia|]. rewrite E2. now eexists.
Qed.
End Tag.
Lemma line_ends : forall st line, Forall (fun p => bare_tag (fst p)) st -> exists l st', tags_line line st = Some (l, st') /\ map fst st' = map fst st.
Proof.
  induction st as [|[t b] st IH]; intros line H; [exists line, []; split; reflexivity|]. apply Forall_cons_iff in H as [H1 H2]. cbn [tags_line].
  destruct (tag_ends t H1 line b) as [[l1 b1] E]. rewrite E. destruct (IH l1 H2) as [l2 [st2 [E2 E3]]]. rewrite E2. exists l2, ((t, b1) :: st2). split; [reflexivity|]. cbn [map fst]. now rewrite E3.
Qed.
Lemma lines_end : forall ls st, Forall (fun p => bare_tag (fst p)) st -> exists r, tags_lines ls st = Some r.
Proof.
  induction ls as [|l ls IH]; intros st H; [now eexists|]. cbn [tags_lines]. destruct (line_ends st l H) as [l2 [st2 [E1 E2]]]. rewrite E1. destruct (IH st2) as [r E]; [|rewrite E; now eexists].
  rewrite <- (Forall_map fst) in *. now rewrite E2.
Qed.
Theorem conversion_ends : forall author languages text quick, Forall (fun l => ~ In 91%N l) languages -> odtf_convert author languages text quick <> None.
Proof.
  intros author languages text quick H. destruct text as [[|c t]|]; try discriminate. unfold odtf_convert. cbv zeta. destruct quick; [discriminate|].
  match goal with |- context [tags_lines ?a ?b] => destruct (lines_end a b) as [r E] end; [|rewrite E; discriminate].
  apply Forall_map. cbn [fst]. constructor; [split; [intros [K | []]; discriminate | discriminate]|]. constructor; [split; [intros [K | []]; discriminate | discriminate]|].
  apply Forall_map. eapply Forall_impl; [|exact H]. intros l Hl. split; [|discriminate]. intro K. apply in_app_iff in K. destruct K as [K | K]; [revert K; vm_compute; intuition discriminate | contradiction].
Qed.
