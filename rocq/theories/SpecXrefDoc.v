(** The paragraphs of the cross reference document, as a program sees them that reads it as XML. *)
From Coq Require Import List NArith ZArith Bool.
From Verif Require Import SpecExport PyStr PyDict NovelModel SpecNovel SpecTemplate OdfXml SpecOdf SpecDesc SpecXref.
Import ListNotations.

(** ** Headings and paragraphs with their character data: open is the one being read *)
Definition is_paragraph (n : str) : bool := str_eqb n (s "text:h") || str_eqb n (s "text:p").
Fixpoint paragraphs (open : option (str * str)) (es : list event) : list (str * str) :=
  match es with
  | [] => []
  | Start n _ :: es => if is_paragraph n then paragraphs (Some (n, [])) es else paragraphs open es
  | Data d :: es => match open with Some (n, t) => paragraphs (Some (n, t ++ d)) es | None => paragraphs None es end
  | End n :: es =>
      match open with
      | Some (m, t) => if str_eqb n m then (m, t) :: paragraphs None es else paragraphs open es
      | None => paragraphs None es
      end
  end.

(** ** What they are for a novel *)
Definition text_of (t : option str) : str := match t with Some t => t | None => [] end.
Definition title_of {A} (title : A -> option str) (d : dict A) (i : str) : str := match dget i d with Some a => text_of (title a) | None => [] end.
Section Xref.
Variable n : novel.
Definition Heading (t : str) : str * str := (s "text:h", t ++ s ":").
Definition Para (t : str) : str * str := (s "text:p", t).
Definition scene_paragraph (i : str) : str * str :=
  Para ([10%N] ++ str_of_N (N.of_nat (position i (all_scenes n))) ++ s " (Ch " ++ str_of_N (N.of_nat (position (its_chapter n i) (nv_srtChapters n))) ++ s ") " ++
        text_of (sc_title (scene_of n i)) ++
        match sc_type (scene_of n i) with Some 1%N => s " (Notes)" | Some 2%N => s " (ToDo)" | Some 3%N => s " (Unused)" | _ => [] end ++ [10%N]).
Definition character_paragraph (i : str) : str * str :=
  Para ([10%N] ++ title_of cr_title (nv_characters n) i ++ s " " ++ title_of cr_fullName (nv_characters n) i ++ [10%N]).
Definition world_paragraph (d : dict world) (i : str) : str * str := Para ([10%N] ++ title_of we_title d i ++ [10%N]).
Definition group (heading : str) (entries : list (str * str)) : list (str * str) := match entries with [] => [] | _ => Heading heading :: entries end.
Definition xref_paragraphs : list (str * str) :=
  [Para (text_of (nv_title n)); Para (text_of (nv_authorName n))] ++
  flat_map (fun i => group (s "Scenes with Character " ++ title_of cr_title (nv_characters n) i) (map scene_paragraph (references sc_characters n i (all_scenes n)))) (firsts (nv_srtCharacters n)) ++
  flat_map (fun i => group (s "Scenes with Location " ++ title_of we_title (nv_locations n) i) (map scene_paragraph (references sc_locations n i (all_scenes n)))) (firsts (nv_srtLocations n)) ++
  flat_map (fun i => group (s "Scenes with Item " ++ title_of we_title (nv_items n) i) (map scene_paragraph (references sc_items n i (all_scenes n)))) (firsts (nv_srtItems n)) ++
  flat_map (fun t => group (s "Scenes tagged " ++ t) (map scene_paragraph (references sc_tags n t (all_scenes n)))) (firsts (flat_map (scene_refs sc_tags n) (all_scenes n))) ++
  flat_map (fun t => group (s "Characters tagged " ++ t) (map character_paragraph (tagged cr_tags (nv_characters n) t (nv_srtCharacters n))))
    (firsts (flat_map (elem_tags cr_tags (nv_characters n)) (nv_srtCharacters n))) ++
  flat_map (fun t => group (s "Locations tagged " ++ t) (map (world_paragraph (nv_locations n)) (tagged we_tags (nv_locations n) t (nv_srtLocations n))))
    (firsts (flat_map (elem_tags we_tags (nv_locations n)) (nv_srtLocations n))) ++
  flat_map (fun t => group (s "Items tagged " ++ t) (map (world_paragraph (nv_items n)) (tagged we_tags (nv_items n) t (nv_srtItems n))))
    (firsts (flat_map (elem_tags we_tags (nv_items n)) (nv_srtItems n))).

(** Texts that XML can carry; IDs of letters and digits; tags without the characters that begin and end markup *)
Definition plain_id (i : str) : Prop := forallb letter_or_digit i = true.
Definition plain_tag (t : str) : Prop := writable t /\ Forall (fun c => c <> 38%N /\ c <> 60%N /\ c <> 62%N) t.
Record printable (projectName : option str) : Prop := {
  pr_name : headline projectName /\ ~ In 10%N (text_of projectName);
  pr_title : headline (nv_title n) /\ headline (nv_authorName n);
  pr_scenes : forall i x, dget i (nv_scenes n) = Some x -> plain_id i /\ headline (sc_title x);
  pr_characters : forall i c, dget i (nv_characters n) = Some c -> plain_id i /\ headline (cr_title c) /\ headline (cr_fullName c);
  pr_locations : forall i w, dget i (nv_locations n) = Some w -> plain_id i /\ headline (we_title w);
  pr_items : forall i w, dget i (nv_items n) = Some w -> plain_id i /\ headline (we_title w);
  pr_tags : forall t, In t (flat_map (scene_refs sc_tags n) (all_scenes n)) \/ In t (flat_map (elem_tags cr_tags (nv_characters n)) (nv_srtCharacters n)) \/
     In t (flat_map (elem_tags we_tags (nv_locations n)) (nv_srtLocations n)) \/ In t (flat_map (elem_tags we_tags (nv_items n)) (nv_srtItems n)) -> plain_tag t }.
End Xref.
