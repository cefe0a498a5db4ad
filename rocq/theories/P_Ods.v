(** Property theorems about reading spreadsheets: C25, C26. *)
From Coq Require Import String List NArith ZArith Bool Lia Arith.
From Verif Require Import PyStr PyDict Globals NovelModel YwText OdfXml OdtText Export OdsRead SpecOds OdsProofs.
Import ListNotations.

(** * C25 *)
(** The rows of the first table that do not begin with an empty cell, in order; each with its first k columns, repeated cells expanded. *)
Theorem C25_table : forall root table k, table_of root table -> Forall well_formed (rows_of table) -> 0 < k ->
  exists rs, get_rows root k = Ok rs /\ Forall2 (row_result k) (filter counts (rows_of table)) rs.
Proof. exact table_read. Qed.
Print Assumptions C25_table.
Theorem C25_table_exact : forall root table k, table_of root table -> Forall well_formed (rows_of table) -> 0 < k -> Forall (fits k) (rows_of table) ->
  get_rows root k = Ok (map (fun cells => firstn k (expanded cells)) (filter counts (rows_of table))).
Proof.
  intros root table k T W K F. destruct (table_read root table k T W K) as [rs [E R]]. rewrite E. f_equal.
  assert (F' : Forall (fits k) (filter counts (rows_of table))) by (apply Forall_forall; intros c Hc; apply filter_In in Hc as [Hc _]; rewrite Forall_forall in F; now apply F).
  clear -F' R. induction R as [|c r l rs [H1 [H2 H3]] R IH]; [reflexivity|]. inversion F'; subst. cbn [map]. f_equal; [now apply H3 | now apply IH].
Qed.
Print Assumptions C25_table_exact.
(** Documents without a table, and repetitions that are no numbers, are not reported as "Error". *)
Theorem C25_no_table_refuted : forall root k, (forall t, ~ table_of root t) -> get_rows root k = Err AttributeError.
Proof. exact no_table. Qed.
Print Assumptions C25_no_table_refuted.

Definition sheet (rows : list (list node)) : node :=
  Elt (s "office:document-content") [] [Elt (s "office:body") [] [Elt (s "office:spreadsheet") []
    [Elt (s "table:table") [] (map (fun cells => Elt (s "table:table-row") [] cells) rows)]]].
Definition c_text (t : str) : node := Elt (s "table:table-cell") [] [Elt (s "text:p") [] [Txt t]].
Definition c_many (count t : str) : node := Elt (s "table:table-cell") [(s "table:number-columns-repeated", count)] [Elt (s "text:p") [] [Txt t]].
Definition c_empty (count : str) : node := Elt (s "table:table-cell") [(s "table:number-columns-repeated", count)] [].

(** A repeated cell that fills the row, followed by another one: the row gets a cell too many. *)
Theorem C25_excess_refuted : exists root table cells k r, table_of root table /\ rows_of table = [cells] /\ well_formed cells /\
  get_rows root k = Ok [r] /\ length r = S k.
Proof.
  set (cells := [c_text (s "ItID:1"); c_empty (s "4"); c_empty (s "1019")]).
  exists (sheet [cells]), (Elt (s "table:table") [] [Elt (s "table:table-row") [] cells]), cells, 5, [s "ItID:1"; []; []; []; []; []].
  split; [|split; [vm_compute; reflexivity|split; [|split; [vm_compute; reflexivity | reflexivity]]]].
  - exists (Elt (s "office:body") [] [Elt (s "office:spreadsheet") [] [Elt (s "table:table") [] [Elt (s "table:table-row") [] cells]]]),
      (Elt (s "office:spreadsheet") [] [Elt (s "table:table") [] [Elt (s "table:table-row") [] cells]]).
    repeat split; exists []; vm_compute; reflexivity.
  - repeat constructor; vm_compute; discriminate.
Qed.
Print Assumptions C25_excess_refuted.
Theorem C25_bad_count_refuted : get_rows (sheet [[c_many (s "x") (s "a"); c_text (s "b")]]) 5 = Err ValueError.
Proof. vm_compute. reflexivity. Qed.
Print Assumptions C25_bad_count_refuted.

Example C25_instance : Forall (fits 5) [[c_text (s "Title"); c_many (s "2") (s "x"); c_empty (s "1021")]; [c_text (s "b")]] /\
  get_rows (sheet [[c_text (s "Title"); c_many (s "2") (s "x"); c_empty (s "1021")]; [c_empty (s "1024")]; [c_text (s "b")]]) 5 =
    Ok [[s "Title"; s "x"; s "x"; s ""; s ""]; [s "b"]].
Proof.
  split; [|vm_compute; reflexivity]. repeat constructor; intros l1 c l2 E H1 H2.
  - destruct l1 as [|a [|b [|d [|e l1]]]]; cbn [app] in E; inversion E; subst; try reflexivity; exfalso; vm_compute in H2; lia.
  - destruct l1 as [|a l1]; [now inversion E|]. cbn [app] in E. inversion E. destruct l1; discriminate.
Qed.

(** * C26 *)
(** A table with a row of another length is rejected, whatever the novel; so is a file that is not XML. *)
Theorem C26_wrong_structure : forall rd k mark content root rows r n, list_reader rd k mark -> tree_of content = Some root -> get_rows root k = Ok rows ->
  In r rows -> length r <> k -> rd content n = Err (UserError (s "Wrong table structure.")).
Proof.
  intros rd k mark content root rows r n R T G I L. apply (reader_fails rd k mark content n _ R). unfold read_table. rewrite T, G. cbn [bind]. exact (check_wrong k rows r I L).
Qed.
Print Assumptions C26_wrong_structure.
(** What is accepted updates exactly the listed elements, and the lists get the order of the table. *)
Theorem C26_characters : forall content n n', read_charlist content n = Ok n' ->
  exists rows ps, read_table content 10 = Ok rows /\ listed (s "CrID:") rows ps /\ nv_srtCharacters n' = map fst ps /\
    updated new_character character_from ps (nv_characters n) (nv_characters n') /\
    n' = set_nv_srtCharacters (nv_srtCharacters n') (set_nv_characters (nv_characters n') n).
Proof. exact charlist_ok. Qed.
Print Assumptions C26_characters.
Theorem C26_locations : forall content n n', read_loclist content n = Ok n' ->
  exists rows ps, read_table content 5 = Ok rows /\ listed (s "LcID:") rows ps /\ nv_srtLocations n' = map fst ps /\
    updated new_world world_from ps (nv_locations n) (nv_locations n') /\
    n' = set_nv_srtLocations (nv_srtLocations n') (set_nv_locations (nv_locations n') n).
Proof. exact loclist_ok. Qed.
Print Assumptions C26_locations.
Theorem C26_items : forall content n n', read_itemlist content n = Ok n' ->
  exists rows ps, read_table content 5 = Ok rows /\ listed (s "ItID:") rows ps /\ nv_srtItems n' = map fst ps /\
    updated new_world world_from ps (nv_items n) (nv_items n') /\
    n' = set_nv_srtItems (nv_srtItems n') (set_nv_items (nv_items n') n).
Proof. exact itemlist_ok. Qed.
Print Assumptions C26_items.
Theorem C26_scenes : forall content n n', read_scenelist content n = Ok n' ->
  exists rows ps, read_table content 21 = Ok rows /\ listed (s "ScID:") rows ps /\
    updated new_scene scene_from ps (nv_scenes n) (nv_scenes n') /\ n' = set_nv_scenes (nv_scenes n') n.
Proof. exact scenelist_ok. Qed.
Print Assumptions C26_scenes.
(** the rows accepted are those of the document, all of the right length *)
Theorem C26_rows : forall content k rows, read_table content k = Ok rows ->
  (exists root, tree_of content = Some root /\ get_rows root k = Ok rows) /\ Forall (fun r => length r = k) rows.
Proof.
  intros content k rows H. unfold read_table in H. destruct (tree_of content) as [root|]; [|discriminate].
  destruct (get_rows root k) as [rs|] eqn:E; cbn [bind] in H; [|discriminate]. unfold check_rows in H. destruct (forallb (fun r => Nat.eqb (length r) k) rs) eqn:F; [|discriminate]. injection H as <-.
  split; [now exists root|]. rewrite forallb_forall in F. apply Forall_forall. intros r Hr. now apply Nat.eqb_eq, F.
Qed.
Print Assumptions C26_rows.
(** Reading succeeds exactly if no row has the mark without a number ... *)
Theorem C26_accepted : forall rd k mark content n rows, list_reader rd k mark -> read_table content k = Ok rows -> Forall (fun r => ~ broken mark r) rows ->
  exists n', rd content n = Ok n'.
Proof. exact reader_total. Qed.
Print Assumptions C26_accepted.
(** ... otherwise an AttributeError escapes: the program does not report "Error". *)
Theorem C26_broken_row_refuted : forall rd k mark content n rows r rows', list_reader rd k mark -> read_table content k = Ok (rows ++ r :: rows') ->
  Forall (fun r => ~ broken mark r) rows -> broken mark r -> rd content n = Err AttributeError.
Proof. exact reader_broken. Qed.
Print Assumptions C26_broken_row_refuted.

Definition ods_text (rows : str) : str := s "<office:document-content><office:body><office:spreadsheet><table:table>" ++ rows ++ s "</table:table></office:spreadsheet></office:body></office:document-content>".
Definition ods_cell (t : str) : str := s "<table:table-cell><text:p>" ++ t ++ s "</text:p></table:table-cell>".
Definition ods_row (l : list str) : str := s "<table:table-row>" ++ concat (map ods_cell l) ++ s "</table:table-row>".
(** The title row is not looked at: a table with any title row, even with the columns named in another order, is accepted. *)
Theorem C26_title_row_refuted : forall n, exists n',
  read_itemlist (ods_text (ods_row [s "ID"; s "Tags"; s "Aka"; s "Description"; s "Name"] ++ ods_row [s "ItID:1"; s "red, round"; s "the Ball"; s "A thing"; s "Ball"])) n = Ok n' /\
  dget (s "1") (nv_items n') = Some (world_cells [s "ItID:1"; s "red, round"; s "the Ball"; s "A thing"; s "Ball"] (match dget (s "1") (nv_items n) with Some w => w | None => new_world end)).
Proof.
  intro n. assert (E : read_table (ods_text (ods_row [s "ID"; s "Tags"; s "Aka"; s "Description"; s "Name"] ++ ods_row [s "ItID:1"; s "red, round"; s "the Ball"; s "A thing"; s "Ball"])) 5
    = Ok [[s "ID"; s "Tags"; s "Aka"; s "Description"; s "Name"]; [s "ItID:1"; s "red, round"; s "the Ball"; s "A thing"; s "Ball"]]) by (vm_compute; reflexivity).
  unfold read_itemlist. rewrite E. cbn [bind foldM]. unfold world_row at 1. change (containsb (s "ItID:") (cell 0 [s "ID"; s "Tags"; s "Aka"; s "Description"; s "Name"])) with false. cbn [bind].
  unfold world_row at 1. change (containsb (s "ItID:") (cell 0 [s "ItID:1"; s "red, round"; s "the Ball"; s "A thing"; s "Ball"])) with true. cbv iota.
  change (search_id (s "ItID:") (cell 0 [s "ItID:1"; s "red, round"; s "the Ball"; s "A thing"; s "Ball"])) with (Some (s "1")). cbn [need bind fst snd app]. eexists. split; [reflexivity|].
  destruct n. exact (dget_dset_same _ _ _).
Qed.
Print Assumptions C26_title_row_refuted.
(** A table read from the excess row of C25 is rejected although it has 5 columns. *)
Theorem C26_excess_refuted : forall n, read_itemlist (ods_text (s "<table:table-row>" ++ ods_cell (s "ItID:1") ++
    s "<table:table-cell table:number-columns-repeated=""4""><text:p>x</text:p></table:table-cell><table:table-cell/></table:table-row>")) n = Err (UserError (s "Wrong table structure.")).
Proof. intro n. apply (reader_fails read_itemlist 5 (s "ItID:") _ n _ lr_item). vm_compute. reflexivity. Qed.
Print Assumptions C26_excess_refuted.

Definition c26_doc : str := Eval vm_compute in ods_text (ods_row [s "ID"; s "Name"; s "Description"; s "Aka"; s "Tags"] ++ ods_row [s "LcID:7"; s "Home"; s ""; s "nest"; s "warm, dry"] ++ ods_row [s "LcID:3"; s "Sea"; s "deep "; s ""; s ""]).
Definition c26_novel : novel := set_nv_locations [(s "3", new_world); (s "5", mkWorld (Some (s "Hill")) None [] None None None)] new_novel.
Example C26_instance : exists n', read_loclist c26_doc c26_novel = Ok n' /\ nv_srtLocations n' = [s "7"; s "3"] /\ dkeys (nv_locations n') = [s "3"; s "5"; s "7"] /\
  dget (s "3") (nv_locations n') = Some (mkWorld (Some (s "Sea")) (Some (s "deep")) [] None None None) /\
  dget (s "7") (nv_locations n') = Some (mkWorld (Some (s "Home")) None [] None (Some [s "warm"; s "dry"]) (Some (s "nest"))) /\
  dget (s "5") (nv_locations n') = dget (s "5") (nv_locations c26_novel).
Proof. eexists. split; [vm_compute; reflexivity|]. repeat split. Qed.
