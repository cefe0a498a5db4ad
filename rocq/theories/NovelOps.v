(** Model of src/pywriter/model/novel.py: Novel.get_languages, Novel.check_locale,
    and of the sceneContent setter of src/pywriter/model/scene.py *)
From Coq Require Import List NArith ZArith Bool Lia Arith.
From Verif Require Import PyStr PyDict NovelModel WordCount.
Import ListNotations.

(** scene.py 221-230: the sceneContent setter *)
Definition set_sceneContent (text : str) (x : scene) : scene :=
  set_sc_letterCount (letter_count text) (set_sc_wordCount (word_count text) (set_sc_content (Some text) x)).

(** (.*?)\] : the characters up to the first ']' in the same line, and the text behind it *)
Fixpoint upto_bracket (t : str) : option (str * str) :=
  match t with
  | [] => None
  | c :: t' =>
      if N.eqb c 93 then Some ([], t')
      else if N.eqb c nl then None
      else match upto_bracket t' with
           | Some (g, r) => Some (c :: g, r)
           | None => None
           end
  end.

(** novel.py 12: LANGUAGE_TAG = \[lang=(.*?)\] matched at the start of t: group 1 and the remaining text *)
Definition lang_at (t : str) : option (str * str) :=
  if prefixb (s "[lang=") t then upto_bracket (skipn 6 t) else None.

(** LANGUAGE_TAG.search(t): leftmost match *)
Fixpoint lang_search (t : str) : option (str * str) :=
  match lang_at t with
  | Some r => Some r
  | None => match t with [] => None | _ :: t' => lang_search t' end
  end.

(** novel.py 147-159: the generator languages(text); the while loop runs on fuel *)
Fixpoint languages_of (fuel : nat) (t : str) : list str :=
  match fuel with
  | O => []
  | S k => match lang_search t with
           | Some (g, r) => g :: languages_of k r
           | None => []
           end
  end.

(** novel.py 165-167 *)
Definition add_language (ls : list str) (l : str) : list str := if smem l ls then ls else ls ++ [l].

(** novel.py 162-167: loop body for one scene *)
Definition scene_languages (ls : list str) (x : scene) : list str :=
  match sc_content x with
  | Some (c :: t) => fold_left add_language (languages_of (length (c :: t)) (c :: t)) ls
  | _ => ls
  end.

(** novel.py 138-167 Novel.get_languages *)
Definition get_languages (n : novel) : novel :=
  set_nv_languages (Some (fold_left scene_languages (map snd (nv_scenes n)) [])) n.

(** x.split('_') assigned to a pair of variables: succeeds for exactly two parts *)
Definition locale_pair (x : option str) : option (str * str) :=
  match x with
  | Some t => match split (s "_") t with [a; b] => Some (a, b) | _ => None end
  | None => None
  end.

(** novel.py 169-197 Novel.check_locale.  [loc] is locale.getlocale()[0], [dloc] is
    locale.getdefaultlocale()[0]; [None] stands for anything that is not a string. *)
Definition check_locale (loc dloc : option str) (n : novel) : res novel :=
  if negb (otruthy (nv_languageCode n)) then
    match locale_pair loc with
    | Some (l, c) => Ok (set_nv_countryCode (Some c) (set_nv_languageCode (Some l) n))
    | None => match locale_pair dloc with
              | Some (l, c) => Ok (set_nv_countryCode (Some c) (set_nv_languageCode (Some l) n))
              | None => Err ValueError
              end
    end
  else
    let plausible :=
      match nv_languageCode n, nv_countryCode n with
      | Some l, Some c => Nat.eqb (length l) 2 && Nat.eqb (length c) 2
      | _, _ => false                      (* len(None) raises TypeError, caught at 192-194 *)
      end in
    if plausible then Ok n
    else Ok (set_nv_countryCode (Some (s "none")) (set_nv_languageCode (Some (s "zxx")) n)).
