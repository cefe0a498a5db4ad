(** A text that can be lexed can be lexed in front of anything. *)
From Coq Require Import String List NArith ZArith Bool Lia Arith.
From Verif Require Import PyStr PyDict YwTree YwText YwTextProofs OdfXml OdfXmlProofs.
Import ListNotations.

Lemma span_len_le : forall f m t, span_len f m t <= length t.
Proof. induction m as [|m IH]; intros [|c t]; cbn; try lia. destruct (f c); [specialize (IH t); lia | lia]. Qed.
Lemma span_len_ext : forall f t r, span_len f (length t) t < length t -> span_len f (length (t ++ r)) (t ++ r) = span_len f (length t) t.
Proof.
  intros f t r. induction t as [|c t IH]; intro H; [cbn in H; lia|]. cbn [app length span_len] in *. destruct (f c); [|reflexivity]. rewrite IH by lia. reflexivity.
Qed.
Lemma skipn_ext : forall {A} n (t r : list A), n <= length t -> skipn n (t ++ r) = skipn n t ++ r.
Proof. intros A n t r H. rewrite skipn_app. now replace (n - length t) with 0 by lia. Qed.
Lemma firstn_ext : forall {A} n (t r : list A), n <= length t -> firstn n (t ++ r) = firstn n t.
Proof. intros A n t r H. rewrite firstn_app. replace (n - length t) with 0 by lia. now rewrite firstn_O, app_nil_r. Qed.
Lemma take_name_ext : forall t name n r2, take_name t = Some (name, n, r2) -> r2 <> [] ->
  length t = n + length r2 /\ 0 < n /\ forall rest, take_name (t ++ rest) = Some (name, n, r2 ++ rest).
Proof.
  intros t name n r2 H Hr. unfold take_name in *. pose proof (span_len_le xname_char (length t) t) as L.
  destruct (xname_ok (firstn (span_len xname_char (length t) t) t)) eqn:E; [|discriminate]. injection H as <- <- <-.
  set (k := span_len xname_char (length t) t) in *.
  assert (K : k < length t). { destruct (Nat.eq_dec k (length t)) as [X|X]; [|lia]. exfalso. apply Hr. rewrite X. apply skipn_all. }
  split; [rewrite skipn_length; lia|]. split.
  - destruct k; [|lia]. discriminate.
  - intro rest. unfold k in K. rewrite (span_len_ext _ t rest K). fold k. rewrite firstn_ext by lia. rewrite E, skipn_ext by lia. reflexivity.
Qed.
Lemma take_entity_ext : forall t v n, take_entity t = Some (v, n) -> 0 < n <= length t /\ forall rest, take_entity (t ++ rest) = Some (v, n).
Proof.
  intros t v n H. unfold take_entity, look_entity, entities in H.
  repeat match type of H with context[prefixb ?p t] => let E := fresh in destruct (prefixb p t) eqn:E;
    [apply prefixb_spec in E as [r ->]; injection H as <- <-; split; [rewrite app_length; cbn; lia | intro; reflexivity] |] end. discriminate.
Qed.
Lemma take_value_ext : forall f q t v k r, take_value f q t = Some (v, k, r) ->
  length t = k + length r /\ 0 < k /\ forall f' rest, f <= f' -> take_value f' q (t ++ rest) = Some (v, k, r ++ rest).
Proof.
  induction f as [|f IH]; intros q t v k r H; [discriminate|]. destruct t as [|c t]; [discriminate|]. cbn [take_value] in H.
  destruct (N.eqb c q) eqn:E1.
  { injection H as <- <- <-. split; [reflexivity|]. split; [lia|]. intros [|f'] rest L; [lia|]. cbn [app take_value]. now rewrite E1. }
  destruct (N.eqb c 60) eqn:E2; [discriminate|]. destruct (N.eqb c 38) eqn:E3.
  - destruct (take_entity (c :: t)) as [[v1 n]|] eqn:Et; [|discriminate]. destruct (take_entity_ext _ _ _ Et) as [Ln Ex].
    destruct (take_value f q (skipn n (c :: t))) as [[[x k1] r1]|] eqn:Ev; [|discriminate]. injection H as <- <- <-.
    destruct (IH _ _ _ _ _ Ev) as [I1 [I2 I3]]. rewrite skipn_length in I1. split; [lia|]. split; [lia|].
    intros [|f'] rest L; [lia|]. cbn [app take_value]. rewrite E1, E2, E3. rewrite (Ex rest : take_entity (c :: t ++ rest) = _).
    change (c :: t ++ rest) with ((c :: t) ++ rest). rewrite skipn_ext by lia. rewrite I3 by lia. reflexivity.
  - destruct (xml_char c) eqn:E4; [|discriminate]. destruct (take_value f q t) as [[[x k1] r1]|] eqn:Ev; [|discriminate]. injection H as <- <- <-.
    destruct (IH _ _ _ _ _ Ev) as [I1 [I2 I3]]. cbn [length]. split; [lia|]. split; [lia|].
    intros [|f'] rest L; [lia|]. cbn [app take_value]. rewrite E1, E2, E3, E4. rewrite I3 by lia. reflexivity.
Qed.

(** the tests of take_attrs without patterns on numbers *)
Definition two (A : Type) (x : str) (a b : A) (c : A) : A :=
  match x with 62%N :: _ => a | 47%N :: 62%N :: _ => b | _ => c end.
Definition gt1 (x : str) : bool := match x with c :: _ => N.eqb c 62 | [] => false end.
Definition gt2 (x : str) : bool := match x with c :: d :: _ => N.eqb c 47 && N.eqb d 62 | _ => false end.
Lemma two_eq : forall A x a b c, two A x a b c = if gt1 x then a else if gt2 x then b else c.
Proof.
  intros A x a b c. unfold two, gt1, gt2. destruct x as [|d x]; [reflexivity|].
  destruct (N.eqb_spec d 62) as [->|H1]; [reflexivity|]. destruct (N.eqb_spec d 47) as [->|H2].
  - destruct x as [|e x]; [reflexivity|]. cbn [andb]. destruct (N.eqb_spec e 62) as [->|H3]; [reflexivity|].
    destruct e as [|p]; [reflexivity|]. do 6 (destruct p as [p|p|]; try reflexivity). all: congruence.
  - destruct x as [|e x]; cbn [andb]; (destruct d as [|p]; [reflexivity|]; do 6 (destruct p as [p|p|]; try reflexivity)); congruence.
Qed.
Definition eq_quote (x : str) : option (N * str) := match x with c :: q :: r1 => if N.eqb c 61 then Some (q, r1) else None | _ => None end.
Definition attr_step (go : str -> option (attrs * bool * nat)) (w : nat) (r : str) : option (attrs * bool * nat) :=
  if 0 <? w then
    match take_name r with
    | Some (name, n, x) =>
        match eq_quote x with
        | Some (q, r1) => if (N.eqb q 34 || N.eqb q 39)%bool then
            match take_value (length r1) q r1 with
            | Some (v, k, r2) => match go r2 with Some (a, e, m) => if smem name (map fst a) then None else Some ((name, v) :: a, e, w + n + 2 + k + m) | None => None end
            | None => None end else None
        | None => None
        end
    | None => None
    end
  else None.
Lemma take_attrs_eq : forall f t, take_attrs (S f) t = let w := span_len xml_space (length t) t in
  if gt1 (skipn w t) then Some ([], false, w + 1) else if gt2 (skipn w t) then Some ([], true, w + 2) else attr_step (take_attrs f) w (skipn w t).
Proof.
  intros f t. cbv zeta. rewrite <- two_eq. cbn [take_attrs]. set (w := span_len xml_space (length t) t). set (r := skipn w t).
  assert (S : attr_step (take_attrs f) w r =
    if 0 <? w then
            match take_name r with
            | Some (name, n, 61%N :: q :: r1) =>
                if (N.eqb q 34 || N.eqb q 39)%bool then
                  match take_value (length r1) q r1 with
                  | Some (v, k, r2) =>
                      match take_attrs f r2 with
                      | Some (a, e, m) => if smem name (map fst a) then None else Some ((name, v) :: a, e, w + n + 2 + k + m)
                      | None => None
                      end
                  | None => None
                  end
                else None
            | _ => None
            end
          else None).
  { unfold attr_step. destruct (0 <? w); [|reflexivity]. destruct (take_name r) as [[[name n] x]|]; [|reflexivity]. unfold eq_quote.
    destruct x as [|c [|q r1]]; [reflexivity| |].
    - destruct c as [|p]; [reflexivity|]. do 6 (destruct p as [p|p|]; try reflexivity).
    - destruct (N.eqb_spec c 61) as [->|H]; [reflexivity|]. destruct c as [|p]; [reflexivity|]. do 6 (destruct p as [p|p|]; try reflexivity). all: congruence. }
  rewrite S. unfold two. clearbody r. clear S.
  destruct r as [|d x]; [reflexivity|]. destruct d as [|p]; [reflexivity|]. do 6 (destruct p as [p|p|]; try reflexivity).
Qed.
Lemma gt1_ext : forall x r, gt1 x = true -> gt1 (x ++ r) = true.
Proof. intros [|c x] r H; [discriminate | exact H]. Qed.
Lemma gt2_ext : forall x r, gt2 x = true -> gt2 (x ++ r) = true /\ gt1 (x ++ r) = false.
Proof. intros [|c [|d x]] r H; try discriminate. cbn in *. split; [exact H|]. apply andb_true_iff in H as [H _]. apply N.eqb_eq in H. now subst. Qed.
Lemma take_name_head : forall r x, take_name r = Some x -> exists c r', r = c :: r' /\ name_start c = true.
Proof.
  intros r x H. unfold take_name in H. destruct r as [|c r]; [discriminate|]. exists c, r. split; [reflexivity|].
  set (k := span_len xname_char (length (c :: r)) (c :: r)) in *. destruct (xname_ok (firstn k (c :: r))) eqn:E; [|discriminate].
  destruct k; [discriminate|]. cbn in E. apply andb_true_iff in E as [E _]. exact E.
Qed.
Lemma name_start_tests : forall c x, name_start c = true -> gt1 (c :: x) = false /\ gt2 (c :: x) = false.
Proof.
  intros c x H. cbn. destruct (N.eqb_spec c 62) as [->|]; [discriminate|]. split; [reflexivity|]. destruct x; [reflexivity|].
  destruct (N.eqb_spec c 47) as [->|]; [discriminate | reflexivity].
Qed.
Lemma span_nonempty : forall f t, skipn (span_len f (length t) t) t <> [] -> span_len f (length t) t < length t.
Proof.
  intros f t H. pose proof (span_len_le f (length t) t). destruct (Nat.eq_dec (span_len f (length t) t) (length t)) as [X|X]; [|lia]. rewrite X, skipn_all in H. congruence.
Qed.
Lemma take_attrs_ext : forall f t a e m, take_attrs f t = Some (a, e, m) ->
  0 < m <= length t /\ forall f' rest, f <= f' -> take_attrs f' (t ++ rest) = Some (a, e, m).
Proof.
  induction f as [|f IH]; intros t a e m H; [discriminate|]. rewrite take_attrs_eq in H. cbv zeta in H. set (w := span_len xml_space (length t) t) in *.
  pose proof (span_len_le xml_space (length t) t) as Lw. fold w in Lw.
  destruct (gt1 (skipn w t)) eqn:G1.
  - assert (K : w < length t) by (apply (span_nonempty xml_space t); fold w; destruct (skipn w t); discriminate).
    injection H as <- <- <-. split; [lia|]. intros [|f'] rest L; [lia|]. rewrite take_attrs_eq. cbv zeta. rewrite (span_len_ext _ _ _ K). fold w. rewrite skipn_ext by lia.
    now rewrite gt1_ext.
  - destruct (gt2 (skipn w t)) eqn:G2.
    + assert (K : w + 2 <= length t). { pose proof (skipn_length w t) as Q. destruct (skipn w t) as [|c [|d x]]; try discriminate. cbn in Q. lia. }
      injection H as <- <- <-. split; [lia|]. intros [|f'] rest L; [lia|]. rewrite take_attrs_eq. cbv zeta. assert (K' : w < length t) by lia. rewrite (span_len_ext _ _ _ K'). fold w. rewrite skipn_ext by lia.
      destruct (gt2_ext _ rest G2) as [-> ->]. reflexivity.
    + unfold attr_step in H. destruct (0 <? w) eqn:W; [|discriminate]. destruct (take_name (skipn w t)) as [[[name n] x]|] eqn:Tn; [|discriminate].
      destruct (eq_quote x) as [[q r1]|] eqn:Eq; [|discriminate]. destruct (N.eqb q 34 || N.eqb q 39)%bool eqn:Q; [|discriminate].
      destruct (take_value (length r1) q r1) as [[[v k] r2]|] eqn:Tv; [|discriminate]. destruct (take_attrs f r2) as [[[a2 e2] m2]|] eqn:Ta; [|discriminate].
      destruct (smem name (map fst a2)) eqn:Sm; [discriminate|]. injection H as <- <- <-.
      assert (Ex : exists c, x = c :: q :: r1 /\ N.eqb c 61 = true).
      { unfold eq_quote in Eq. destruct x as [|c [|q' r']]; try discriminate. destruct (N.eqb c 61) eqn:Ec; [|discriminate]. injection Eq as -> ->. now exists c. }
      destruct Ex as [c [-> Ec]]. destruct (take_name_ext _ _ _ _ Tn ltac:(discriminate)) as [T1 [T2 T3]].
      destruct (take_value_ext _ _ _ _ _ _ Tv) as [V1 [V2 V3]]. destruct (IH _ _ _ _ Ta) as [A1 A2].
      pose proof (skipn_length w t) as Sl. cbn [length] in T1.
      split; [lia|]. intros [|f'] rest L; [lia|]. rewrite take_attrs_eq. cbv zeta. assert (K' : w < length t) by lia. rewrite (span_len_ext _ _ _ K'). fold w. rewrite skipn_ext by lia.
      destruct (take_name_head _ _ Tn) as [d [r' [Er Hd]]]. assert (Ed : gt1 (skipn w t ++ rest) = false /\ gt2 (skipn w t ++ rest) = false) by (rewrite Er; cbn [app]; exact (name_start_tests d (r' ++ rest) Hd)). destruct Ed as [-> ->].
      unfold attr_step. rewrite W, T3. cbn [app eq_quote]. rewrite Ec, Q. rewrite V3 by (rewrite app_length; lia). rewrite A2 by lia. rewrite Sm. reflexivity.
Qed.

Lemma before_ext : forall p t x, before p t = Some x -> length x + length p <= length t /\ forall rest, before p (t ++ rest) = Some x.
Proof.
  intros p. induction t as [|c t IH]; intros x H; cbn [before] in H.
  - destruct (prefixb p []) eqn:E; [|discriminate]. injection H as <-. apply prefixb_spec in E as [r E]. destruct p; [|discriminate]. split; [cbn; lia|].
    intro rest. destruct rest; reflexivity.
  - destruct (prefixb p (c :: t)) eqn:E.
    + injection H as <-. pose proof E as E0. apply prefixb_spec in E0 as [r E0]. split; [rewrite E0, app_length; cbn; lia|]. intro rest. rewrite E0. rewrite <- app_assoc.
      pose proof (prefixb_app p (r ++ rest)) as P. destruct (p ++ r ++ rest); cbn [before]; now rewrite P.
    + destruct (before p t) as [y|] eqn:Eb; [|discriminate]. injection H as <-. destruct (IH y eq_refl) as [I1 I2]. split; [cbn; lia|]. intro rest. cbn [app before].
      assert (P : prefixb p (c :: t ++ rest) = false).
      { change (c :: t ++ rest) with ((c :: t) ++ rest). rewrite prefixb_app_long; [exact E | cbn; lia]. }
      rewrite P, I2. reflexivity.
Qed.

(** the tests of xlook *)
Definition slash (r : str) : bool := match r with c :: _ => N.eqb c 47 | [] => false end.
Definition look_tag (r : str) : option (xtok * nat) :=
  if slash r then
    match take_name (tl r) with
    | Some (name, n, r2) => let w := span_len xml_space (length r2) r2 in if gt1 (skipn w r2) then Some (XEnd name, 2 + n + w + 1) else None
    | None => None
    end
  else match take_name r with
    | Some (name, n, r2) => match take_attrs (length r2) r2 with Some (a, e, m) => Some (if e then XEmpty name a else XStart name a, 1 + n + m) | None => None end
    | None => None
    end.
Lemma xlook_eq : forall c r, xlook (c :: r) =
  if N.eqb c 60 then
    if prefixb (s "![CDATA[") r then match before (s "]]>") (skipn 8 r) with Some x => if forallb xml_char x then Some (XText x, 9 + length x + 3) else None | None => None end
    else look_tag r
  else if N.eqb c 38 then match take_entity (c :: r) with Some (v, n) => Some (XText v, n) | None => None end
  else if xml_char c then Some (XChar c, 1) else None.
Proof.
  intros c r. unfold xlook. destruct (N.eqb c 60); [|reflexivity]. destruct (prefixb (s "![CDATA[") r); [reflexivity|]. unfold look_tag, slash.
  destruct r as [|d r]; [reflexivity|]. destruct (N.eqb_spec d 47) as [->|H].
  - cbn [tl]. destruct (take_name r) as [[[name n] r2]|]; [|reflexivity]. cbv zeta. set (w := span_len xml_space (length r2) r2).
    unfold gt1. destruct (skipn w r2) as [|e x]; [reflexivity|]. destruct (N.eqb_spec e 62) as [->|H]; [reflexivity|].
    destruct e as [|p]; [reflexivity|]. do 6 (destruct p as [p|p|]; try reflexivity). all: congruence.
  - destruct d as [|p]; [reflexivity|]. do 6 (destruct p as [p|p|]; try reflexivity). all: congruence.
Qed.
Lemma look_tag_ext : forall r k n, look_tag r = Some (k, n) -> 1 < n <= S (length r) /\ forall rest, look_tag (r ++ rest) = Some (k, n).
Proof.
  intros r k n H. unfold look_tag in *. destruct (slash r) eqn:Sl.
  - destruct r as [|c r]; [discriminate|]. cbn [tl app slash] in *. destruct (take_name r) as [[[name m] r2]|] eqn:T; [|discriminate]. cbv zeta in *.
    set (w := span_len xml_space (length r2) r2) in *. destruct (gt1 (skipn w r2)) eqn:G; [|discriminate]. injection H as <- <-.
    assert (K : w < length r2) by (apply (span_nonempty xml_space r2); fold w; destruct (skipn w r2); discriminate).
    destruct (take_name_ext _ _ _ _ T) as [T1 [T2 T3]]; [intros ->; cbn in K; lia|]. cbn [length]. split; [lia|]. intro rest. rewrite Sl, T3. cbv zeta.
    rewrite (span_len_ext _ _ _ K). fold w. rewrite skipn_ext by lia. rewrite gt1_ext by exact G. reflexivity.
  - destruct (take_name r) as [[[name m] r2]|] eqn:T; [|discriminate]. destruct (take_attrs (length r2) r2) as [[[a e] m2]|] eqn:Ta; [|discriminate]. injection H as <- <-.
    destruct (take_attrs_ext _ _ _ _ _ Ta) as [A1 A2]. destruct (take_name_ext _ _ _ _ T) as [T1 [T2 T3]]; [intros ->; cbn in A1; lia|]. split; [lia|].
    intro rest. assert (Sl' : slash (r ++ rest) = false) by (destruct r; [cbn in T1; lia | exact Sl]). rewrite Sl', T3. rewrite A2 by (rewrite app_length; lia). reflexivity.
Qed.
Lemma xlook_ext : forall t k n, xlook t = Some (k, n) -> 0 < n <= length t /\ forall rest, xlook (t ++ rest) = Some (k, n).
Proof.
  intros [|c r] k n H; [discriminate|]. rewrite xlook_eq in H. cbn [length].
  destruct (N.eqb c 60) eqn:E1.
  - destruct (prefixb (s "![CDATA[") r) eqn:P.
    + apply prefixb_spec in P as [r' ->]. change (skipn 8 (s "![CDATA[" ++ r')) with r' in H. destruct (before (s "]]>") r') as [x|] eqn:B; [|discriminate].
      destruct (forallb xml_char x) eqn:F; [|discriminate]. injection H as <- <-. destruct (before_ext _ _ _ B) as [B1 B2]. change (length (s "]]>")) with 3 in B1.
      split; [rewrite app_length; change (length (s "![CDATA[")) with 8; lia|]. intro rest. cbn [app]. rewrite xlook_eq, E1. rewrite <- app_assoc. rewrite prefixb_app.
      change (skipn 8 (s "![CDATA[" ++ r' ++ rest)) with (r' ++ rest). rewrite B2, F. reflexivity.
    + destruct (look_tag_ext _ _ _ H) as [L1 L2]. split; [lia|]. intro rest. cbn [app]. rewrite xlook_eq, E1.
      assert (P' : prefixb (s "![CDATA[") (r ++ rest) = false).
      { destruct r as [|d r]; [discriminate|]. assert (D : N.eqb 33 d = false).
        { unfold look_tag in H. cbn [slash tl] in H. destruct (N.eqb_spec 33 d) as [<-|]; [|reflexivity]. exfalso. cbn [N.eqb Pos.eqb] in H.
          destruct (take_name (33%N :: r)) as [y|] eqn:T; [|discriminate]. destruct (take_name_head _ _ T) as [c' [r' [E H']]]. injection E as <- _. discriminate. }
        change (s "![CDATA[") with (33%N :: s "[CDATA["). cbn [app prefixb]. now rewrite D. }
      rewrite P'. apply L2.
  - destruct (N.eqb c 38) eqn:E2.
    + destruct (take_entity (c :: r)) as [[v m]|] eqn:T; [|discriminate]. injection H as <- <-. destruct (take_entity_ext _ _ _ T) as [T1 T2]. cbn [length] in T1. split; [exact T1|].
      intro rest. cbn [app]. rewrite xlook_eq, E1, E2. change (c :: r ++ rest) with ((c :: r) ++ rest). now rewrite T2.
    + destruct (xml_char c) eqn:E3; [|discriminate]. injection H as <- <-. split; [lia|]. intro rest. cbn [app]. rewrite xlook_eq, E1, E2, E3. reflexivity.
Qed.
Lemma xlex_go_ext : forall t sk ts rest, sk <= length t -> xlex_go sk t = Some ts -> xlex_go sk (t ++ rest) = option_map (app ts) (xlex_go 0 rest).
Proof.
  induction t as [|c t IH]; intros sk ts rest L H.
  - cbn in L. replace sk with 0 by lia. injection H as <-. cbn [app]. symmetry. now apply option_map_id.
  - destruct sk as [|sk].
    + cbn [app xlex_go] in *. destruct (xlook (c :: t)) as [[k n]|] eqn:E; [|discriminate]. destruct (xlook_ext _ _ _ E) as [L1 L2].
      rewrite (L2 rest : xlook (c :: t ++ rest) = _). destruct (xlex_go (pred n) t) as [us|] eqn:G; [|discriminate]. injection H as <-.
      cbn [length] in L1. assert (Lp : pred n <= length t) by lia. rewrite (IH _ _ rest Lp G). destruct (xlex_go 0 rest); reflexivity.
    + cbn [app xlex_go length] in *. apply IH; [lia | exact H].
Qed.
Theorem xlex_lexes : forall t ts, xlex t = Some ts -> lexes t ts.
Proof. intros t ts H rest. apply xlex_go_ext; [lia | exact H]. Qed.
