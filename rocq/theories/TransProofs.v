From Coq Require Import String List NArith Bool Lia Arith Sorting.Permutation Sorting.Sorted.
From Verif Require Import PyStr PyDict Globals GlobalsProofs YwText YwTextProofs Template Inliner Translations SpecTrans.
Import ListNotations.

(** * Sorting *)
Lemma insert_perm : forall {A} (key : A -> str) x l, Permutation (insert key x l) (x :: l).
Proof.
  intros A key x l. induction l as [|y l IH]; [reflexivity|]. cbn [insert]. destruct (str_leb (key x) (key y)); [reflexivity|]. rewrite IH. apply perm_swap.
Qed.
Lemma sorted_perm : forall {A} (key : A -> str) l, Permutation (sorted key l) l.
Proof. intros A key l. induction l as [|x l IH]; [reflexivity|]. cbn [sorted]. rewrite insert_perm. now constructor. Qed.
Definition le (a b : str) : Prop := str_leb a b = true.
Lemma str_leb_total : forall a b, str_leb a b = false -> str_leb b a = true.
Proof.
  induction a as [|x a IH]; intros [|y b] H; cbn in *; try discriminate; try reflexivity. destruct (N.ltb_spec x y); [discriminate|]. destruct (N.ltb_spec y x); [reflexivity|]. now apply IH.
Qed.
Lemma str_leb_trans : forall a b c, str_leb a b = true -> str_leb b c = true -> str_leb a c = true.
Proof.
  induction a as [|x a IH]; intros [|y b] [|z c] H1 H2; cbn in *; try discriminate; try reflexivity.
  destruct (N.ltb_spec x y), (N.ltb_spec y z), (N.ltb_spec x z); try lia; try reflexivity; destruct (N.ltb_spec y x), (N.ltb_spec z y), (N.ltb_spec z x); try lia; try discriminate. now apply (IH b).
Qed.
Lemma insert_sorted : forall x l, Sorted le l -> Sorted le (insert (fun x => x) x l).
Proof.
  intros x l H. induction H as [|y l H IH Hd]; [repeat constructor|]. cbn [insert]. destruct (str_leb x y) eqn:E; [constructor; [now constructor | constructor; exact E]|].
  constructor; [exact IH|]. apply str_leb_total in E. destruct l as [|z l]; cbn [insert]; [constructor; exact E|]. destruct (str_leb x z); constructor; [exact E | now inversion Hd].
Qed.
Lemma sorted_sorted : forall l, Sorted le (sorted (fun x => x) l).
Proof. induction l as [|x l IH]; [constructor|]. cbn [sorted]. now apply insert_sorted. Qed.

(** * JSON *)
Lemma scan_ctl : forall c rest, (c < 32)%N -> scanstring (json_char c ++ rest) = put c (scanstring rest).
Proof.
  intros c rest H. assert (I : In c (map N.of_nat (seq 0 32))) by (apply in_map_iff; exists (N.to_nat c); split; [apply N2Nat.id|]; apply in_seq; lia).
  change (map N.of_nat (seq 0 32)) with [0;1;2;3;4;5;6;7;8;9;10;11;12;13;14;15;16;17;18;19;20;21;22;23;24;25;26;27;28;29;30;31]%N in I.
  cbn [In] in I. repeat (destruct I as [<-|I]; [cbn; destruct rest as [|a [|b rest]]; reflexivity|]). destruct I.
Qed.
Lemma scan_char : forall c rest, scanstring (json_char c ++ rest) = put c (scanstring rest).
Proof.
  intros c rest. destruct (N.ltb_spec c 32) as [H|H]; [now apply scan_ctl|]. unfold json_char.
  destruct (N.eqb_spec c 34) as [->|N1]; [reflexivity|]. destruct (N.eqb_spec c 92) as [->|N2]; [reflexivity|].
  rewrite !(proj2 (N.eqb_neq c _)) by lia. rewrite (proj2 (N.ltb_ge c 32)) by exact H. cbn [app scanstring].
  rewrite (proj2 (N.eqb_neq c 34)), (proj2 (N.eqb_neq c 92)), (proj2 (N.ltb_ge c 32)) by assumption. reflexivity.
Qed.
Lemma scan_string : forall t rest, scanstring (flat_map json_char t ++ 34%N :: rest) = Some (t, rest).
Proof.
  induction t as [|c t IH]; intro rest; [reflexivity|]. cbn [flat_map]. rewrite <- app_assoc, scan_char, IH. reflexivity.
Qed.
Definition SEP : str := s "," ++ [10%N] ++ s "  ".
Lemma json_item_head : forall p, json_item p = 34%N :: flat_map json_char (fst p) ++ 34%N :: 58%N :: 32%N :: 34%N :: flat_map json_char (snd p) ++ [34%N].
Proof. intros [k v]. unfold json_item, json_string. cbn [fst snd app]. now rewrite <- !app_assoc. Qed.
Lemma sk_colon : forall x, skip_space (58%N :: x) = 58%N :: x.
Proof. reflexivity. Qed.
Lemma sk_quote : forall x, skip_space (32%N :: 34%N :: x) = 34%N :: x.
Proof. reflexivity. Qed.
Lemma sk_brace : forall x, skip_space (10%N :: 125%N :: x) = 125%N :: x.
Proof. reflexivity. Qed.
Lemma sk_comma : forall x, skip_space (44%N :: x) = 44%N :: x.
Proof. reflexivity. Qed.
Lemma sk_line : forall x, skip_space (10%N :: 32%N :: 32%N :: 34%N :: x) = 34%N :: x.
Proof. reflexivity. Qed.
Lemma members_one : forall fuel p d t, members (S fuel) (json_item p ++ t) d =
  match skip_space t with
  | e :: t => if N.eqb e 125 then Some (dset (fst p) (snd p) d, t) else if N.eqb e 44 then members fuel (skip_space t) (dset (fst p) (snd p) d) else None
  | [] => None
  end.
Proof.
  intros fuel p d t. rewrite json_item_head. cbn [app]. rewrite <- app_assoc. cbn [app]. rewrite <- app_assoc. cbn [app members N.eqb Pos.eqb negb].
  rewrite scan_string, sk_colon. cbn [N.eqb Pos.eqb negb]. rewrite sk_quote. cbn [N.eqb Pos.eqb negb]. rewrite scan_string. reflexivity.
Qed.
Lemma items_head : forall p l, exists x, join SEP (map json_item (p :: l)) = 34%N :: x.
Proof.
  intros p l. destruct l as [|q l]; cbn [map]; [cbn [join] | rewrite join_cons by discriminate]; rewrite json_item_head; cbn [app]; eauto.
Qed.
Lemma members_items : forall l fuel d rest, l <> [] -> length l <= fuel ->
  members fuel (join SEP (map json_item l) ++ 10%N :: 125%N :: rest) d = Some (fold_left (fun acc p => dset (fst p) (snd p) acc) l d, rest).
Proof.
  induction l as [|p l IH]; intros fuel d rest Hn Hf; [congruence|]. destruct fuel as [|fuel]; [cbn in Hf; lia|]. destruct l as [|p2 l].
  - cbn [map join]. rewrite members_one, sk_brace. reflexivity.
  - change (map json_item (p :: p2 :: l)) with (json_item p :: map json_item (p2 :: l)). rewrite join_cons by discriminate. rewrite <- !app_assoc, members_one. unfold SEP at 1. cbn [s app]. 
    destruct (items_head p2 l) as [x E]. change (s ",") with [44%N]. change (s "  ") with [32%N; 32%N]. cbn [app]. rewrite sk_comma. cbn [N.eqb Pos.eqb]. 
    rewrite E. cbn [app]. rewrite sk_line. change (34%N :: x ++ 10%N :: 125%N :: rest) with ((34%N :: x) ++ 10%N :: 125%N :: rest). rewrite <- E.
    rewrite IH by (try discriminate; cbn in *; lia). reflexivity.
Qed.
Lemma join_len : forall l, length l <= length (join SEP (map json_item l)).
Proof.
  induction l as [|p l IH]; [cbn; lia|]. destruct l as [|q l]; [cbn [map join]; rewrite json_item_head; cbn; lia|].
  change (map json_item (p :: q :: l)) with (json_item p :: map json_item (q :: l)). rewrite join_cons by discriminate. rewrite !app_length. rewrite json_item_head. cbn [length] in *. lia.
Qed.
Lemma sorted_nil : forall {A} (key : A -> str) l, sorted key l = [] -> l = [].
Proof. intros A key l H. pose proof (sorted_perm key l) as P. rewrite H in P. now apply Permutation_nil in P. Qed.
Lemma json_load_text : forall d, json_load (json_text d) = Some (fold_left (fun acc p => dset (fst p) (snd p) acc) (sorted fst d) []).
Proof.
  intro d. unfold json_text. destruct d as [|p d]; [reflexivity|]. destruct (sorted fst (p :: d)) as [|q l] eqn:E; [apply sorted_nil in E; discriminate|].
  fold SEP. set (J := join SEP (map json_item (q :: l))). assert (HJ : exists x, J = 34%N :: x) by apply items_head. assert (LJ : length (q :: l) <= length J) by apply join_len.
  change (s "{" ++ [10%N] ++ s "  " ++ J ++ [10%N] ++ s "}") with (123%N :: 10%N :: 32%N :: 32%N :: J ++ [10%N; 125%N]).
  unfold json_load. change (skip_space (123%N :: 10%N :: 32%N :: 32%N :: J ++ [10%N; 125%N])) with (123%N :: 10%N :: 32%N :: 32%N :: J ++ [10%N; 125%N]). cbn [N.eqb Pos.eqb negb].
  destruct HJ as [x HJ]. pose proof (members_items (q :: l) (length (10%N :: 32%N :: 32%N :: J ++ [10%N; 125%N])) [] []) as M. fold J in M. rewrite HJ in *.
  cbn [app]. rewrite sk_line. cbn [N.eqb Pos.eqb]. cbn [app] in M. rewrite M; [reflexivity | discriminate|]. cbn [length] in *. rewrite app_length. lia.
Qed.

(** dictionaries *)
Lemma dget_perm : forall {A} (l l' : dict A), Permutation l l' -> NoDup (dkeys l) -> forall k, dget k l = dget k l'.
Proof.
  intros A l l' P Nd k. assert (Nd' : NoDup (dkeys l')) by (apply (Permutation_NoDup (l := dkeys l)); [now apply Permutation_map | exact Nd]).
  destruct (dget k l) as [v|] eqn:E.
  - symmetry. apply In_dget; [exact Nd'|]. apply (Permutation_in _ P). now apply dget_In.
  - symmetry. apply dget_None. intro I. apply dget_None in E. apply E. apply (Permutation_in k (Permutation_sym (Permutation_map fst P))). exact I.
Qed.
Lemma dget_fold : forall (l : dict str) d k, NoDup (dkeys l) -> dget k (fold_left (fun acc p => dset (fst p) (snd p) acc) l d) = match dget k l with Some v => Some v | None => dget k d end.
Proof.
  induction l as [|[j v] l IH]; intros d k Nd; [reflexivity|]. cbn [fold_left fst snd]. inversion Nd as [|? ? N1 N2]; subst. rewrite IH by exact N2. cbn [dget]. rewrite dget_dset.
  destruct (str_eqb k j) eqn:E; [|reflexivity]. apply str_eqb_eq in E. subst. assert (D : dget j l = None) by (now apply dget_None). now rewrite D.
Qed.
Lemma fold_nodup : forall (l : dict str) d, NoDup (dkeys d) -> NoDup (dkeys (fold_left (fun acc p => dset (fst p) (snd p) acc) l d)).
Proof. induction l as [|[j v] l IH]; intros d Nd; [exact Nd|]. cbn [fold_left]. apply IH. now apply NoDup_dset. Qed.
Lemma sorted_get : forall (d : dict str) k, NoDup (dkeys d) -> dget k (sorted fst d) = dget k d.
Proof. intros d k Nd. symmetry. apply dget_perm; [symmetry; apply sorted_perm | exact Nd]. Qed.
Lemma sorted_keys : forall (d : dict str), NoDup (dkeys d) -> NoDup (dkeys (sorted fst d)).
Proof. intros d Nd. apply (Permutation_NoDup (l := dkeys d)); [apply Permutation_map; symmetry; apply sorted_perm | exact Nd]. Qed.
Lemma filter_keys : forall (f : str * str -> bool) d, NoDup (dkeys d) -> NoDup (dkeys (filter f d)).
Proof.
  intros f d Nd. induction d as [|[k v] d IH]; [constructor|]. inversion Nd as [|? ? N1 N2]; subst. cbn [filter]. destruct (f (k, v)); [|now apply IH].
  constructor; [|now apply IH]. intro I. apply N1. apply in_map_iff in I as [[k' v'] [E I]]. apply filter_In in I as [I _]. apply in_map_iff. now exists (k', v').
Qed.
Lemma present_get : forall d k, NoDup (dkeys d) -> dget k (filter (fun p : str * str => truthy (snd p)) d) = present (dget k d).
Proof.
  intros d k Nd. induction d as [|[j v] d IH]; [reflexivity|]. inversion Nd as [|? ? N1 N2]; subst. cbn [filter dget snd]. destruct (str_eqb k j) eqn:E.
  - apply str_eqb_eq in E. subst. destruct v as [|c v]; cbn [truthy].
    + rewrite IH by exact N2. assert (D : dget j d = None) by (now apply dget_None). now rewrite D.
    + cbn [dget]. now rewrite str_eqb_refl.
  - destruct (truthy v); cbn [dget]; [rewrite E|]; now apply IH.
Qed.
(** no line ends but line feeds *)
Lemma json_no_cr : forall t, ~ In 13%N (flat_map json_char t).
Proof.
  intros t H. apply in_flat_map in H as [c [_ H]]. destruct (N.ltb_spec c 32) as [L|L].
  - assert (I : In c (map N.of_nat (seq 0 32))) by (apply in_map_iff; exists (N.to_nat c); split; [apply N2Nat.id|]; apply in_seq; lia).
    change (map N.of_nat (seq 0 32)) with [0;1;2;3;4;5;6;7;8;9;10;11;12;13;14;15;16;17;18;19;20;21;22;23;24;25;26;27;28;29;30;31]%N in I.
    cbn [In] in I. repeat (destruct I as [<-|I]; [cbn in H; intuition discriminate|]). destruct I.
  - unfold json_char in H. rewrite (proj2 (N.ltb_ge c 32)) in H by exact L. repeat match type of H with context[N.eqb c ?k] => destruct (N.eqb_spec c k) end; cbn in H; intuition (try lia; try discriminate).
Qed.
Lemma json_text_no_cr : forall d, ~ In 13%N (json_text d).
Proof.
  assert (Js : forall t, ~ In 13%N (json_string t)) by (intros t H; unfold json_string in H; cbn [app] in H; destruct H as [H|H]; [discriminate|]; apply in_app_or in H as [H|[H|[]]]; [now apply json_no_cr in H | discriminate]).
  assert (Ji : forall p, ~ In 13%N (json_item p)).
  { intros p H. unfold json_item in H. apply in_app_or in H as [H|H]; [now apply Js in H|]. apply in_app_or in H as [H|H]; [cbn in H; intuition discriminate | now apply Js in H]. }
  assert (Jj : forall l, ~ In 13%N (join SEP (map json_item l))).
  { induction l as [|p l IH]; [intros []|]. destruct l as [|q l]; [apply Ji|]. change (map json_item (p :: q :: l)) with (json_item p :: map json_item (q :: l)). rewrite join_cons by discriminate.
    intro H. apply in_app_or in H as [H|H]; [now apply Ji in H|]. apply in_app_or in H as [H|H]; [cbn in H; intuition discriminate | now apply IH]. }
  intros d H. unfold json_text in H. destruct d as [|p d]; [cbn in H; intuition discriminate|]. fold SEP in H.
  apply in_app_or in H as [H|H]; [cbn in H; intuition discriminate|]. apply in_app_or in H as [H|H]; [cbn in H; intuition discriminate|].
  apply in_app_or in H as [H|H]; [cbn in H; intuition discriminate|]. apply in_app_or in H as [H|H]; [now apply Jj in H|]. cbn in H. intuition discriminate.
Qed.
Lemma json_back : forall tr tr0 k, NoDup (dkeys (tr_msgDict tr)) ->
  dget k (tr_msgDict (read_json (Some (write_json tr)) tr0)) = before_or (present (dget k (tr_msgDict tr))) (dget k (tr_msgDict tr0)).
Proof.
  intros tr tr0 k Nd. unfold read_json, write_json. rewrite unl_id by apply json_text_no_cr. rewrite json_load_text. cbn [tr_msgDict].
  set (d := filter _ (tr_msgDict tr)). assert (Nf : NoDup (dkeys d)) by (now apply filter_keys).
  rewrite dget_fold by (apply fold_nodup; constructor). rewrite dget_fold by (now apply sorted_keys). rewrite sorted_get by exact Nf. unfold d. rewrite present_get by exact Nd.
  destruct (present (dget k (tr_msgDict tr))); reflexivity.
Qed.

(** * PO files *)
Lemma readlines_line : forall a b, ~ In 10%N a -> readlines (a ++ 10%N :: b) = (a ++ [10%N]) :: readlines b.
Proof.
  induction a as [|c a IH]; intros b H; [reflexivity|]. cbn [app readlines]. rewrite (proj2 (N.eqb_neq c 10)) by (intros ->; apply H; now left).
  rewrite IH by (intro; apply H; now right). reflexivity.
Qed.
Lemma readlines_app : forall h t, readlines ((h ++ [10%N]) ++ t) = readlines (h ++ [10%N]) ++ readlines t.
Proof.
  induction h as [|c h IH]; intro t; [reflexivity|]. cbn [app readlines]. destruct (N.eqb c 10); [rewrite IH; reflexivity|]. rewrite IH.
  destruct (readlines (h ++ [10%N])) as [|l ls] eqn:E; [|reflexivity]. destruct h as [|d h]; [discriminate|]. cbn [app readlines] in E. destruct (N.eqb d 10); [discriminate|]. destruct (readlines (h ++ [10%N])); discriminate.
Qed.
Lemma strip_line : forall c k d, is_space c = false -> is_space d = false -> strip ((c :: k ++ [d]) ++ [10%N]) = c :: k ++ [d].
Proof.
  intros c k d Hc Hd. unfold strip, strip_by. cbn [app lstrip_by]. rewrite Hc. unfold rstrip_by.
  assert (E : rev (c :: (k ++ [d]) ++ [10%N]) = 10%N :: d :: rev (c :: k)) by (cbn [rev]; rewrite !rev_app_distr; reflexivity). rewrite E.
  assert (E2 : lstrip_by is_space (10%N :: d :: rev (c :: k)) = d :: rev (c :: k)) by (cbn [lstrip_by]; change (is_space 10) with true; cbv iota; now rewrite Hd).
  rewrite E2. cbn [rev]. rewrite rev_app_distr, rev_involutive. reflexivity.
Qed.
Lemma extract_msg : forall p m, extract_text p (p ++ m ++ [34%N]) = m.
Proof.
  intros p m. unfold extract_text. rewrite skipn_len. rewrite !app_length. cbn [length]. replace (length p + (length m + 1) - 1 - length p) with (length m) by lia. apply firstn_len.
Qed.
Definition id_line (m : str) : str := MSGID ++ m ++ [34%N].
Definition str_line (t : str) : str := MSGSTR ++ t ++ [34%N].
Lemma entry_lines : forall tr m rest, ~ In 10%N m -> ~ In 10%N (translation_of tr m) ->
  map strip (readlines (po_entry tr m ++ rest)) = id_line m :: str_line (translation_of tr m) :: [] :: map strip (readlines rest).
Proof.
  intros tr m rest Hm Ht. unfold po_entry. set (t := translation_of tr m) in *.
  assert (E : (MSGID ++ m ++ [34; 10]%N ++ MSGSTR ++ t ++ [34; 10; 10]%N) ++ rest = id_line m ++ 10%N :: str_line t ++ 10%N :: [] ++ 10%N :: rest).
  { unfold id_line, str_line. repeat (rewrite <- app_assoc; cbn [app]). reflexivity. }
  rewrite E. assert (N1 : ~ In 10%N (id_line m)) by (intro H; unfold id_line in H; apply in_app_or in H as [H|H]; [cbn in H; intuition discriminate|]; apply in_app_or in H as [H|[H|[]]]; [contradiction | discriminate]).
  assert (N2 : ~ In 10%N (str_line t)) by (intro H; unfold str_line in H; apply in_app_or in H as [H|H]; [cbn in H; intuition discriminate|]; apply in_app_or in H as [H|[H|[]]]; [contradiction | discriminate]).
  rewrite readlines_line by exact N1. rewrite readlines_line by exact N2. rewrite readlines_line by (intros []). cbn [map].
  f_equal; [|f_equal].
  - unfold id_line. change (MSGID ++ m ++ [34%N]) with (109%N :: (s "sgid """ ++ m ++ [34%N])). rewrite app_assoc. now apply strip_line.
  - unfold str_line. change (MSGSTR ++ t ++ [34%N]) with (109%N :: (s "sgstr """ ++ t ++ [34%N])). rewrite app_assoc. now apply strip_line.
Qed.
Lemma entries_lines : forall tr ms, (forall m, In m ms -> ~ In 10%N m /\ ~ In 10%N (translation_of tr m)) ->
  map strip (readlines (concat (map (po_entry tr) ms))) = flat_map (fun m => [id_line m; str_line (translation_of tr m); []]) ms.
Proof.
  intros tr ms. induction ms as [|m ms IH]; intro H; [reflexivity|]. cbn [map concat flat_map]. destruct (H m (or_introl eq_refl)) as [H1 H2].
  rewrite (entry_lines tr m _ H1 H2), IH by (intros; apply H; now right). reflexivity.
Qed.
Lemma fold_header : forall ls message d, (forall l r, In l ls -> l = MSGID ++ r -> exists r', r = 34%N :: r') -> fold_left po_line ls (true, message, d) = (true, message, d).
Proof.
  induction ls as [|l ls IH]; intros message d H; [reflexivity|]. cbn [fold_left]. assert (E : po_line (true, message, d) l = (true, message, d)).
  { unfold po_line. destruct (prefixb (MSGID ++ [34%N]) l) eqn:P; [reflexivity|]. destruct (prefixb MSGID l) eqn:Q; [|reflexivity]. exfalso. apply prefixb_spec in Q as [r ->].
    destruct (H _ r (or_introl eq_refl) eq_refl) as [r' ->]. change (MSGID ++ 34%N :: r') with ((MSGID ++ [34%N]) ++ r') in P. now rewrite prefixb_app in P. }
  rewrite E. apply IH. intros l0 r I Er. exact (H l0 r (or_intror I) Er).
Qed.
Lemma po_step : forall h m t message d, message_ok m -> fold_left po_line [id_line m; str_line t; []] (h, message, d) = (false, m, if truthy t then dset m t d else d).
Proof.
  intros h m t message d [_ [N1 N2]]. cbn [fold_left].
  assert (P1 : prefixb (MSGID ++ [34%N]) (id_line m) = false).
  { destruct (prefixb (MSGID ++ [34%N]) (id_line m)) eqn:P; [|reflexivity]. exfalso. apply prefixb_spec in P as [r E]. unfold id_line in E. rewrite <- app_assoc in E. apply app_inv_head in E.
    destruct m as [|c m]; [congruence|]. cbn [app] in E. injection E as -> _. now apply (N2 m). }
  assert (P2 : prefixb MSGID (id_line m) = true) by (unfold id_line; apply prefixb_app).
  assert (S1 : po_line (h, message, d) (id_line m) = (false, m, d)).
  { unfold po_line. rewrite P1. assert (H : (if h then negb (prefixb MSGID (id_line m)) else h) = false) by (rewrite P2; destruct h; reflexivity). rewrite H, P2. cbv iota. unfold id_line. now rewrite extract_msg. }
  rewrite S1.
  assert (S2 : po_line (false, m, d) (str_line t) = (false, m, if truthy t then dset m t d else d)).
  { unfold po_line. change (prefixb (MSGID ++ [34%N]) (str_line t)) with false. cbv iota. change (prefixb MSGID (str_line t)) with false. change (prefixb MSGSTR (str_line t)) with true. cbv iota.
    unfold str_line. now rewrite extract_msg. }
  rewrite S2. reflexivity.
Qed.
Definition po_dict (tr : translations) (ms : list str) (d : dict str) : dict str :=
  fold_left (fun d m => if truthy (translation_of tr m) then dset m (translation_of tr m) d else d) ms d.
Lemma po_fold : forall tr ms h message d, Forall message_ok ms -> snd (fold_left po_line (flat_map (fun m => [id_line m; str_line (translation_of tr m); []]) ms) (h, message, d)) = po_dict tr ms d.
Proof.
  intros tr ms. induction ms as [|m ms IH]; intros h message d H; [reflexivity|]. inversion H; subst. cbn [flat_map]. rewrite fold_left_app, po_step by assumption. cbn [po_dict fold_left]. now apply IH.
Qed.
Lemma po_get : forall tr ms d m, dget m (po_dict tr ms d) = before_or (po_says ms (tr_msgDict tr) m) (dget m d).
Proof.
  intros tr ms. unfold po_says. induction ms as [|x ms IH]; intros d m; [reflexivity|]. unfold po_dict in *. cbn [fold_left]. rewrite IH. unfold smem. cbn [existsb]. fold (smem m ms).
  unfold translation_of. destruct (str_eqb m x) eqn:E; cbn [orb].
  - apply str_eqb_eq in E. subst x. destruct (dget m (tr_msgDict tr)) as [[|c t]|] eqn:D; cbn [truthy present].
    + destruct (smem m ms); reflexivity.
    + rewrite dget_dset_same. destruct (smem m ms); reflexivity.
    + destruct (smem m ms); reflexivity.
  - apply str_eqb_neq in E. destruct (match dget x (tr_msgDict tr) with Some t => t | None => [] end) as [|c t]; cbn [truthy]; [reflexivity|]. rewrite dget_dset_other by exact E. reflexivity.
Qed.
Lemma po_no_cr : forall tr ms, (forall m, In m ms -> ~ In 13%N m /\ ~ In 13%N (translation_of tr m)) -> ~ In 13%N (concat (map (po_entry tr) ms)).
Proof.
  intros tr ms H I. apply in_concat in I as [e [He I]]. apply in_map_iff in He as [m [<- Hm]]. destruct (H m Hm) as [H1 H2]. unfold po_entry in I.
  repeat (apply in_app_or in I as [I|I]; [try contradiction; cbn in I; intuition discriminate|]). cbn in I. intuition discriminate.
Qed.
Lemma po_back : forall app appVersion now tr tr0 k, header_ok (tr_header tr) -> Forall message_ok (tr_msgList tr) -> (forall m, In m (tr_msgList tr) -> one_line (translation_of tr m)) ->
  dget k (tr_msgDict (read_po app appVersion now (Some (fst (write_po tr))) tr0)) = before_or (po_says (tr_msgList tr) (tr_msgDict tr) k) (dget k (tr_msgDict tr0)).
Proof.
  intros app appVersion now tr tr0 k (H1 & [h' H2] & H3) M T. unfold read_po, write_po. cbn [fst tr_msgDict]. unfold file_lines. rewrite Forall_forall in M.
  rewrite unl_id by (intro I; apply in_app_or in I as [I|I]; [contradiction|]; revert I; apply po_no_cr; intros m Hm; split; [now apply M | now apply T]).
  unfold file_lines in H3. rewrite unl_id in H3 by exact H1. rewrite H2 in *. rewrite readlines_app, map_app, fold_left_app. rewrite fold_header by exact H3.
  rewrite entries_lines by (intros m Hm; split; [now apply M | now apply T]). rewrite po_fold by (now apply Forall_forall). apply po_get.
Qed.

(** * Quotation marks *)
Lemma escaped_quoted : forall m, escaped m = quoted m.
Proof. intro m. unfold escaped. change (s """") with [34%N]. rewrite replace_char. induction m as [|c m IH]; [reflexivity|]. unfold quoted. cbn [flat_map]. fold (quoted m). rewrite IH, N.eqb_sym. destruct (N.eqb c 34); reflexivity. Qed.
Lemma quoted_in : forall c m, In c (quoted m) -> c = 92%N \/ In c m.
Proof. intros c m H. unfold quoted in H. apply in_flat_map in H as [x [I H]]. destruct (N.eqb x 34) eqn:E; cbn in H; [apply N.eqb_eq in E; subst|]; intuition (subst; auto). Qed.
Lemma quoted_ok : forall m, source_message m -> message_ok (quoted m).
Proof.
  intros m [[H1 H2] Hn]. repeat split; [intro I; apply quoted_in in I as [I|I]; [discriminate | contradiction] | intro I; apply quoted_in in I as [I|I]; [discriminate | contradiction] | |].
  - destruct m as [|c m]; [congruence|]. unfold quoted. cbn [flat_map]. destruct (N.eqb c 34); discriminate.
  - intros r E. destruct m as [|c m]; [congruence|]. unfold quoted in E. cbn [flat_map] in E. destruct (N.eqb_spec c 34); cbn [app] in E; injection E; congruence.
Qed.
Fixpoint unquoted (m : str) : str := match m with c :: ((d :: r) as t) => if N.eqb c 92 && N.eqb d 34 then 34%N :: unquoted r else c :: unquoted t | _ => m end.
(** * Headers *)
Lemma strip_head : forall c x, is_space c = false -> exists y, strip (c :: x) = c :: y.
Proof.
  intros c x H. unfold strip, strip_by. cbn [lstrip_by]. rewrite H. unfold rstrip_by. cbn [rev].
  assert (G : forall z, exists y, lstrip_by is_space (z ++ [c]) = y ++ [c]).
  { induction z as [|d z IH]; [exists []; cbn; now rewrite H|]. cbn [app lstrip_by]. destruct (is_space d); [exact IH | now exists (d :: z)]. }
  destruct (G (rev x)) as [y ->]. rewrite rev_app_distr. cbn [rev app]. now exists (rev y).
Qed.
Definition other_line (l : str) : Prop := exists c x, l = c :: x /\ is_space c = false /\ c <> 109%N.
Lemma other_no_msg : forall l p, other_line l -> prefixb (109%N :: p) (strip l) = false.
Proof.
  intros l p (c & x & -> & Hs & Hc). destruct (strip_head c x Hs) as [y ->]. cbn [prefixb]. now rewrite (proj2 (N.eqb_neq 109 c)) by congruence.
Qed.

Lemma po_header_text : forall app v dt pc, safe_substitute poHeader [(s "app", app); (s "appVersion", v); (s "datetime", dt); (s "pot_creation", pc)] =
  concat (map (fun l => l ++ [10%N]) [s "# " ++ app ++ s " Dictionary (English-German)"; s "# Copyright (C) 2022 Peter Triesberger"; s "#"; s "msgid """""; s "msgstr """"";
    s """Project-Id-Version: " ++ v ++ s "\n"""; pc; s """PO-Revision-Date: " ++ dt ++ s "\n"""; s """Last-Translator: Peter Triesberger\n"""; s """Language: de\n"""; s """MIME-Version: 1.0\n""";
    s """Content-Type: text/plain; charset=UTF-8\n"""; s """Content-Transfer-Encoding: 8bit\n"""; []; []]).
Proof. intros. cbn [map concat]. rewrite <- !app_assoc. vm_compute. reflexivity. Qed.
Lemma pot_header_text : forall app v dt, safe_substitute potHeader [(s "app", app); (s "appVersion", v); (s "datetime", dt); (s "version", s "0.3")] =
  concat (map (fun l => l ++ [10%N]) [s "# " ++ app ++ s " Dictionary"; s "# Copyright (C) 2022 Peter Triesberger"; s "#"; s "msgid """""; s "msgstr """"";
    s """Project-Id-Version: " ++ v ++ s "\n"""; s """POT-Creation-Date: " ++ dt ++ s "\n"""; s """PO-Revision-Date: YEAR-MO-DA HO:MI+ZONE\n"""; s """Last-Translator: FULL NAME <EMAIL@ADDRESS>\n"""; s """Language: LANGUAGE\n""";
    s """MIME-Version: 1.0\n"""; s """Content-Type: text/plain; charset=UTF-8\n"""; s """Content-Transfer-Encoding: 8bit\n"""; s """Generated-By: PyWriter pgettext.py 0.3\n"""; []]).
Proof. intros. cbn [map concat]. rewrite <- !app_assoc. vm_compute. reflexivity. Qed.
Lemma lines_back : forall ls, Forall (fun l => ~ In 10%N l) ls -> readlines (concat (map (fun l => l ++ [10%N]) ls)) = map (fun l => l ++ [10%N]) ls.
Proof.
  induction ls as [|l ls IH]; intro H; [reflexivity|]. inversion H; subst. cbn [map concat]. rewrite <- app_assoc. cbn [app]. rewrite readlines_line by assumption. now rewrite IH.
Qed.
Lemma one_line_app : forall a b, one_line a -> one_line b -> one_line (a ++ b).
Proof. intros a b [A1 A2] [B1 B2]. split; intro H; apply in_app_or in H as [H|H]; contradiction. Qed.
Definition one_lineb (t : str) : bool := forallb (fun c => negb (N.eqb c 10) && negb (N.eqb c 13)) t.
Lemma one_lineb_ok : forall t, one_lineb t = true -> one_line t.
Proof. intros t H. unfold one_lineb in H. rewrite forallb_forall in H. split; intro I; apply H in I; discriminate. Qed.
Ltac one_line_tac := repeat apply one_line_app; first [assumption | apply one_lineb_ok; vm_compute; reflexivity].
Definition safe_line (l : str) : Prop := forall r, strip (l ++ [10%N]) = MSGID ++ r -> exists r', r = 34%N :: r'.
Lemma other_safe : forall l, other_line l -> safe_line l.
Proof.
  intros l (c & x & -> & Hs & Hc) r E. exfalso. assert (O : other_line ((c :: x) ++ [10%N])) by (exists c, (x ++ [10%N]); auto).
  pose proof (other_no_msg _ (s "sgid """) O) as P. rewrite E in P. change (109%N :: s "sgid """) with MSGID in P. rewrite prefixb_app in P. discriminate.
Qed.
Lemma empty_safe : safe_line (s "msgid """"").
Proof. intros r E. assert (V : strip (s "msgid """"" ++ [10%N]) = MSGID ++ [34%N]) by (vm_compute; reflexivity). rewrite V in E. apply app_inv_head in E. subst. now exists []. Qed.
Lemma no_prefix_safe : forall l, prefixb MSGID (strip (l ++ [10%N])) = false -> safe_line l.
Proof. intros l P r E. rewrite E, prefixb_app in P. discriminate. Qed.
Ltac other_tac := match goal with |- other_line ?l => let v := eval hnf in l in change l with v; cbn [app]; eexists; eexists; split; [reflexivity|]; split; [vm_compute; reflexivity | discriminate] end.
Ltac safe_tac := first [apply empty_safe | apply no_prefix_safe; vm_compute; reflexivity | apply other_safe; other_tac | apply other_safe; assumption].
Lemma lines_header_ok : forall ls l, Forall one_line (ls ++ [l]) -> Forall safe_line (ls ++ [l]) -> header_ok (concat (map (fun l => l ++ [10%N]) (ls ++ [l]))).
Proof.
  intros ls l O S. assert (C : ~ In 13%N (concat (map (fun l => l ++ [10%N]) (ls ++ [l])))).
  { intro I. apply in_concat in I as [x [Hx I]]. apply in_map_iff in Hx as [y [<- Hy]]. rewrite Forall_forall in O. apply O in Hy. apply in_app_or in I as [I|[I|[]]]; [now apply Hy | discriminate]. }
  split; [exact C|]. split.
  - exists (concat (map (fun l => l ++ [10%N]) ls) ++ l). rewrite map_app, concat_app. cbn [map concat]. rewrite app_nil_r. now rewrite app_assoc.
  - intros x r I E. unfold file_lines in I. rewrite unl_id in I by exact C. rewrite lines_back in I by (apply Forall_forall; intros y Hy; rewrite Forall_forall in O; now apply O).
    rewrite map_map in I. apply in_map_iff in I as [y [E2 Hy]]. rewrite Forall_forall in S. apply (S y Hy r). now rewrite E2.
Qed.
Lemma po_header_ok : forall ap v dt pc, one_line ap -> one_line v -> one_line dt -> one_line pc -> other_line pc ->
  header_ok (safe_substitute poHeader [(s "app", ap); (s "appVersion", v); (s "datetime", dt); (s "pot_creation", pc)]).
Proof.
  intros ap v dt pc H1 H2 H3 H4 H5. rewrite po_header_text.
  match goal with |- header_ok (concat (map ?f [?a;?b;?c;?d;?e;?g;?h;?i;?j;?k;?l;?m;?n;?o;?p])) => change (header_ok (concat (map f ([a;b;c;d;e;g;h;i;j;k;l;m;n;o] ++ [p])))) end.
  apply lines_header_ok; cbn [app]; repeat apply Forall_cons; try apply Forall_nil; first [one_line_tac | safe_tac].
Qed.
(** * POT files *)
Lemma pot_line_skip : forall pc l, prefixb MSGID l = false -> prefixb (s """POT-Creation-Date") l = false -> pot_line (true, pc, []) l = (true, pc, []).
Proof. intros pc l H1 H2. unfold pot_line. rewrite H1, H2. destruct (prefixb (MSGID ++ [34%N]) l); reflexivity. Qed.
Definition created (dt : str) : str := s """POT-Creation-Date: " ++ dt ++ s "\n""".
Lemma strip_q : forall a v, strip ((34%N :: a ++ v ++ s "\n""") ++ [10%N]) = 34%N :: a ++ v ++ s "\n""".
Proof.
  intros a v. assert (E : a ++ v ++ s "\n""" = (a ++ v ++ s "\n") ++ [34%N]) by (rewrite <- !app_assoc; reflexivity). rewrite E. apply strip_line; reflexivity.
Qed.
Lemma pot_header_fold : forall a0 v dt pc0, one_line a0 -> one_line v -> one_line dt ->
  let h := safe_substitute potHeader [(s "app", a0); (s "appVersion", v); (s "datetime", dt); (s "version", s "0.3")] in
  ~ In 13%N h /\ (exists h', h = h' ++ [10%N]) /\ fold_left pot_line (map strip (readlines h)) (true, pc0, []) = (true, created dt, []).
Proof.
  intros a0 v dt pc0 H1 H2 H3 h. unfold h. rewrite pot_header_text.
  match goal with |- context[concat (map ?f [?a;?b;?c;?d;?e;?g;?h;?i;?j;?k;?l;?m;?n;?o;?p])] => set (ls := [a;b;c;d;e;g;h;i;j;k;l;m;n;o]); change [a;b;c;d;e;g;h;i;j;k;l;m;n;o;p] with (ls ++ [p]) end.
  assert (O : Forall one_line (ls ++ [[]])) by (unfold ls; cbn [app]; repeat apply Forall_cons; try apply Forall_nil; one_line_tac).
  split; [|split].
  - intro I. apply in_concat in I as [x [Hx I]]. apply in_map_iff in Hx as [y [<- Hy]]. rewrite Forall_forall in O. apply O in Hy. apply in_app_or in I as [I|[I|[]]]; [now apply Hy | discriminate].
  - exists (concat (map (fun l => l ++ [10%N]) ls)). rewrite map_app, concat_app. reflexivity.
  - rewrite lines_back by (apply Forall_forall; intros y Hy; rewrite Forall_forall in O; now apply O). unfold ls. cbn [map app fold_left].
    set (L1 := strip ((s "# " ++ a0 ++ s " Dictionary") ++ [10%N])).
    assert (E1 : pot_line (true, pc0, []) L1 = (true, pc0, [])).
    { unfold L1. change ((s "# " ++ a0 ++ s " Dictionary") ++ [10%N]) with (35%N :: (32%N :: a0 ++ s " Dictionary") ++ [10%N]). destruct (strip_head 35 ((32%N :: a0 ++ s " Dictionary") ++ [10%N]) eq_refl) as [y ->]. now apply pot_line_skip. }
    rewrite E1. change (s """Project-Id-Version: " ++ v ++ s "\n""") with (34%N :: s "Project-Id-Version: " ++ v ++ s "\n"""). rewrite strip_q.
    change (s """POT-Creation-Date: " ++ dt ++ s "\n""") with (34%N :: s "POT-Creation-Date: " ++ dt ++ s "\n"""). rewrite strip_q.
    clear. vm_compute. reflexivity.
Qed.
Lemma pot_entry_lines : forall m rest, ~ In 10%N (escaped m) ->
  map strip (readlines (pot_entry m ++ rest)) = [] :: id_line (escaped m) :: (s "msgstr """"") :: map strip (readlines rest).
Proof.
  intros m rest H. unfold pot_entry. set (q := escaped m) in *.
  assert (E : ([10%N] ++ MSGID ++ q ++ [34; 10]%N ++ s "msgstr """"" ++ [10%N]) ++ rest = [] ++ 10%N :: id_line q ++ 10%N :: s "msgstr """"" ++ 10%N :: rest).
  { unfold id_line. repeat (rewrite <- app_assoc; cbn [app]). reflexivity. }
  assert (N1 : ~ In 10%N (id_line q)) by (intro I; unfold id_line in I; apply in_app_or in I as [I|I]; [cbn in I; intuition discriminate|]; apply in_app_or in I as [I|[I|[]]]; [contradiction | discriminate]).
  rewrite E. rewrite readlines_line by (intros []). rewrite readlines_line by exact N1. rewrite readlines_line by (cbn; intuition discriminate). cbn [map]. f_equal. f_equal.
  unfold id_line. change (MSGID ++ q ++ [34%N]) with (109%N :: (s "sgid """ ++ q ++ [34%N])). rewrite app_assoc. now apply strip_line.
Qed.
Lemma pot_entry_fold : forall h pc l q, message_ok q -> exists l', fold_left pot_line [[]; id_line q; s "msgstr """""] (h, pc, l) = (false, pc, l') /\ Permutation l' (l ++ [q]).
Proof.
  intros h pc l q [_ [N1 N2]]. cbn [fold_left].
  assert (P1 : prefixb (MSGID ++ [34%N]) (id_line q) = false).
  { destruct (prefixb (MSGID ++ [34%N]) (id_line q)) eqn:P; [|reflexivity]. exfalso. apply prefixb_spec in P as [r E]. unfold id_line in E. rewrite <- app_assoc in E. apply app_inv_head in E.
    destruct q as [|c q]; [congruence|]. cbn [app] in E. injection E as -> _. now apply (N2 q). }
  assert (P2 : prefixb MSGID (id_line q) = true) by (unfold id_line; apply prefixb_app).
  assert (S1 : pot_line (h, pc, l) [] = (h, pc, sorted (fun x => x) l)) by (unfold pot_line; cbn [prefixb]; destruct h; reflexivity). rewrite S1.
  set (l1 := sorted (fun x : str => x) l).
  assert (S2 : pot_line (h, pc, l1) (id_line q) = (false, pc, sorted (fun x => x) (l1 ++ [q]))).
  { unfold pot_line. rewrite P1. assert (P3 : prefixb (s """POT-Creation-Date") (id_line q) = false) by reflexivity. rewrite P2, P3. destruct h; cbn [negb andb]; unfold id_line; now rewrite extract_msg. }
  rewrite S2. set (l2 := sorted (fun x : str => x) (l1 ++ [q])).
  assert (S3 : pot_line (false, pc, l2) (s "msgstr """"") = (false, pc, sorted (fun x => x) l2)) by reflexivity. rewrite S3.
  eexists. split; [reflexivity|]. unfold l2, l1. rewrite !sorted_perm. reflexivity.
Qed.
Lemma pot_entries_fold : forall ms h pc l, Forall source_message ms -> exists h' l', fold_left pot_line (map strip (readlines (concat (map pot_entry ms)))) (h, pc, l) = (h', pc, l') /\
  Permutation l' (l ++ map quoted ms).
Proof.
  induction ms as [|m ms IH]; intros h pc l H; [exists h, l; rewrite app_nil_r; split; reflexivity|]. inversion H as [|? ? H1 H2]; subst. cbn [map concat].
  pose proof (quoted_ok m H1) as Q. rewrite pot_entry_lines by (rewrite escaped_quoted; apply Q). rewrite escaped_quoted.
  destruct (pot_entry_fold h pc l (quoted m) Q) as [l1 [E P]].
  match goal with |- context[fold_left pot_line (?a :: ?b :: ?c :: ?r) ?st] => change (fold_left pot_line (a :: b :: c :: r) st) with (fold_left pot_line r (fold_left pot_line [a; b; c] st)) end. rewrite E.
  destruct (IH false pc l1 H2) as (h' & l' & E2 & P2). exists h', l'. split; [exact E2|]. rewrite P2, P. now rewrite <- app_assoc.
Qed.
Lemma quoted_head : forall m r, quoted m <> 34%N :: r.
Proof. intros [|c m] r H; [discriminate|]. unfold quoted in H. cbn [flat_map] in H. destruct (N.eqb_spec c 34); cbn [app] in H; injection H; congruence. Qed.
Lemma quoted_cons : forall c m, quoted (c :: m) = (if N.eqb c 34 then [92%N; 34%N] else [c]) ++ quoted m.
Proof. reflexivity. Qed.
Lemma quoted_inj : forall a b, quoted a = quoted b -> a = b.
Proof.
  induction a as [|c a IH]; intros [|d b] H; [reflexivity | rewrite quoted_cons in H; destruct (N.eqb d 34); discriminate | rewrite quoted_cons in H; destruct (N.eqb c 34); discriminate |].
  rewrite !quoted_cons in H. destruct (N.eqb_spec c 34) as [->|C], (N.eqb_spec d 34) as [->|D]; cbn [app] in H.
  - injection H as H. f_equal. now apply IH.
  - injection H as _ H. symmetry in H. now apply quoted_head in H.
  - injection H as _ H. now apply quoted_head in H.
  - injection H as -> H. f_equal. now apply IH.
Qed.
Lemma distinct_in : forall x l, In x (distinct l) <-> In x l.
Proof.
  intros x l. induction l as [|y l IH]; [reflexivity|]. cbn [distinct]. destruct (smem y l) eqn:E; [|cbn [In]; now rewrite IH]. rewrite IH. split; [now right|]. intros [->|H]; [now apply smem_In | exact H].
Qed.
Lemma distinct_nodup : forall l, NoDup (distinct l).
Proof.
  induction l as [|y l IH]; [constructor|]. cbn [distinct]. destruct (smem y l) eqn:E; [exact IH|]. constructor; [|exact IH]. rewrite distinct_in. intro H. apply smem_In in H. congruence.
Qed.
Lemma pot_line_sorted : forall st l, Sorted le (snd (pot_line st l)).
Proof. intros [[h pc] ms] l. unfold pot_line. destruct (if prefixb (MSGID ++ [34%N]) l then (h, pc) else _) as [h' pc']. apply sorted_sorted. Qed.
Lemma pot_fold_sorted : forall ls st, Sorted le (snd st) -> Sorted le (snd (fold_left pot_line ls st)).
Proof. induction ls as [|l ls IH]; intros st H; [exact H|]. cbn [fold_left]. apply IH. apply pot_line_sorted. Qed.
Lemma pot_back : forall a0 v dt msgs tr, one_line a0 -> one_line v -> one_line dt -> Forall source_message msgs -> tr_msgList tr = [] ->
  exists l, read_pot (Some (write_pot a0 v dt msgs)) tr = Ok (mkTr (tr_msgDict tr) l (tr_header tr) (created dt)) /\ catalogue msgs l.
Proof.
  intros a0 v dt msgs tr H1 H2 H3 H E0. unfold read_pot, write_pot. rewrite E0.
  destruct (pot_header_fold a0 v dt (tr_potCreation tr) H1 H2 H3) as (C & [h' Eh] & F). set (h := safe_substitute potHeader _) in *. set (ms := sorted (fun x : str => x) (distinct msgs)).
  assert (Hm : Forall source_message ms). { apply Forall_forall. intros x Hx. rewrite Forall_forall in H. apply H. apply distinct_in. unfold ms in Hx. apply (Permutation_in x (sorted_perm (fun x : str => x) _)) in Hx. exact Hx. }
  assert (C2 : ~ In 13%N (h ++ concat (map pot_entry ms))).
  { intro I. apply in_app_or in I as [I|I]; [contradiction|]. apply in_concat in I as [e [He I]]. apply in_map_iff in He as [m [<- Hi]]. rewrite Forall_forall in Hm. apply Hm in Hi. unfold pot_entry in I. rewrite escaped_quoted in I.
    apply quoted_ok in Hi. destruct Hi as [[_ Hi] _].
    repeat (apply in_app_or in I as [I|I]; [try contradiction; cbn in I; intuition discriminate|]). cbn in I. intuition discriminate. }
  unfold file_lines. rewrite unl_id by exact C2. rewrite Eh in *. rewrite readlines_app, map_app, fold_left_app, F.
  destruct (pot_entries_fold ms true (created dt) [] Hm) as (hh & l & E & P).
  pose proof (pot_fold_sorted (map strip (readlines (concat (map pot_entry ms)))) (true, created dt, []) (Sorted_nil _)) as S. rewrite E in S. cbn [snd] in S.
  rewrite E. exists l. split; [reflexivity|]. cbn [app] in P. split; [|split].
  - apply (Permutation_NoDup (Permutation_sym P)). apply FinFun.Injective_map_NoDup; [exact quoted_inj|]. apply (Permutation_NoDup (l := distinct msgs)); [symmetry; apply sorted_perm | apply distinct_nodup].
  - exact S.
  - intro q. split.
    + intro I. apply (Permutation_in _ P) in I. apply in_map_iff in I as [m [<- I]]. exists m. split; [|reflexivity]. apply distinct_in. apply (Permutation_in m (sorted_perm (fun x : str => x) _)) in I. exact I.
    + intros (m & I & ->). apply (Permutation_in _ (Permutation_sym P)). apply in_map. apply (Permutation_in m (Permutation_sym (sorted_perm (fun x : str => x) _))). now apply distinct_in.
Qed.
