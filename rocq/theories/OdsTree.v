(** Trees and their events: generic lemmas for documents built from templates. *)
From Coq Require Import String List NArith ZArith Bool Lia Arith.
From Verif Require Import PyStr PyDict YwText YwTextProofs OdfXml OdfXmlProofs SpecOdf OdsRead.
Import ListNotations.

(** * Events of trees *)
Fixpoint ev (x : node) : list event :=
  match x with
  | Txt t => [Data t]
  | Elt n a k => Start n a :: (fix go (l : list node) : list event := match l with [] => [] | y :: l' => ev y ++ go l' end) k ++ [End n]
  end.
Fixpoint evs (l : list node) : list event := match l with [] => [] | y :: l' => ev y ++ evs l' end.
Lemma ev_elt : forall n a k, ev (Elt n a k) = Start n a :: evs k ++ [End n].
Proof. reflexivity. Qed.
Lemma evs_app : forall a b, evs (a ++ b) = evs a ++ evs b.
Proof. induction a as [|x a IH]; intro b; [reflexivity|]. cbn [app evs]. now rewrite IH, app_assoc. Qed.
Lemma node_ind2 : forall (P : node -> Prop) (Q : list node -> Prop), (forall t, P (Txt t)) -> (forall n a k, Q k -> P (Elt n a k)) -> Q [] -> (forall x l, P x -> Q l -> Q (x :: l)) ->
  (forall x, P x) /\ (forall l, Q l).
Proof.
  intros P Q HT HE HN HC.
  assert (G : forall x, P x).
  { fix F 1. intros [t|n a k]; [apply HT|]. apply HE. induction k as [|y k IH]; [exact HN|]. apply HC; [apply F | exact IH]. }
  split; [exact G|]. induction l as [|y l IH]; [exact HN | apply HC; [apply G | exact IH]].
Qed.

(** * Adjacent texts *)
Definition cons_txt (t : str) (r : list node) : list node :=
  match r with Txt u :: r' => Txt (t ++ u) :: r' | _ => match t with [] => r | _ => Txt t :: r end end.
Fixpoint norm (x : node) : node :=
  match x with
  | Txt t => Txt t
  | Elt n a k => Elt n a ((fix go (l : list node) : list node :=
      match l with [] => [] | Txt t :: l' => cons_txt t (go l') | y :: l' => norm y :: go l' end) k)
  end.
Fixpoint norms (l : list node) : list node := match l with [] => [] | Txt t :: l' => cons_txt t (norms l') | y :: l' => norm y :: norms l' end.
Lemma norm_elt : forall n a k, norm (Elt n a k) = Elt n a (norms k).
Proof. reflexivity. Qed.

Lemma merge_evs : (forall x n a k, x = Elt n a k -> forall r, merge (ev x ++ r) = ev (norm x) ++ merge r) /\
  (forall l n r, merge (evs l ++ End n :: r) = evs (norms l) ++ End n :: merge r).
Proof.
  apply (node_ind2 (fun x => forall n a k, x = Elt n a k -> forall r, merge (ev x ++ r) = ev (norm x) ++ merge r)
           (fun l => forall n r, merge (evs l ++ End n :: r) = evs (norms l) ++ End n :: merge r)).
  - intros t n a k H. discriminate.
  - intros n a k IH n' a' k' _ r. rewrite norm_elt, !ev_elt. cbn [app merge]. rewrite <- !app_assoc. cbn [app]. now rewrite IH.
  - reflexivity.
  - intros x l IHx IHl n r. destruct x as [t|m a k].
    + cbn [evs ev app merge norms]. rewrite IHl. unfold cons_txt. destruct (norms l) as [|[u|m b j] l']; cbn [evs app].
      * destruct t; reflexivity.
      * reflexivity.
      * rewrite ev_elt. destruct t; cbn [evs app]; rewrite ?ev_elt; reflexivity.
    + cbn [evs norms]. rewrite <- app_assoc, (IHx m a k eq_refl), IHl, app_assoc. reflexivity.
Qed.

Lemma ev_pos : forall x, 0 < length (ev x).
Proof. intros [t|n a k]; [cbn; lia | rewrite ev_elt; cbn; lia]. Qed.
Lemma siblings_evs : forall fuel l n r, length (evs l) < fuel -> siblings fuel (evs l ++ End n :: r) = Some (l, r).
Proof.
  induction fuel as [|f IH]; intros l n r H; [lia|]. destruct l as [|[t|m a k] l]; cbn [evs] in *.
  - reflexivity.
  - cbn [ev app siblings length] in *. rewrite IH by lia. reflexivity.
  - rewrite ev_elt in *. cbn [app siblings length] in *. rewrite app_length in H. cbn in H. rewrite app_length in H. cbn in H.
    rewrite <- !app_assoc. cbn [app]. rewrite (IH k m _) by lia. rewrite IH by lia. reflexivity.
Qed.
Lemma siblings_root : forall n a k fuel, length (ev (Elt n a k)) < fuel -> siblings fuel (ev (Elt n a k)) = Some ([Elt n a k], []).
Proof.
  intros n a k fuel H. rewrite ev_elt in *. cbn [length] in H. rewrite app_length in H. cbn in H. destruct fuel as [|f]; [lia|]. cbn [siblings].
  rewrite siblings_evs by lia. destruct f; [lia|]. reflexivity.
Qed.

(** * What reading a table sees of the texts between the elements *)
Lemma filter_cons_txt : forall name t r, filter (named name) (cons_txt t r) = filter (named name) r.
Proof. intros name t r. unfold cons_txt. destruct r as [|[u|m b j] r]; [destruct t; reflexivity | reflexivity | destruct t; reflexivity]. Qed.
Lemma named_norm : forall name x, named name (norm x) = named name x.
Proof. intros name [t|n a k]; [reflexivity | now rewrite norm_elt]. Qed.
Lemma filter_norms : forall name l, filter (named name) (norms l) = map norm (filter (named name) l).
Proof.
  intros name l. induction l as [|[t|n a k] l IH]; [reflexivity| |].
  - cbn [norms filter named]. now rewrite filter_cons_txt.
  - cbn [norms filter]. rewrite named_norm. destruct (named name (Elt n a k)); cbn [map]; now rewrite IH.
Qed.
Lemma findall_norm : forall name x, findall name (norm x) = map norm (findall name x).
Proof. intros name [t|n a k]; [reflexivity|]. unfold findall. rewrite norm_elt. cbn [kids_of]. apply filter_norms. Qed.
Lemma find_norm : forall name x, find name (norm x) = option_map norm (find name x).
Proof. intros name x. unfold find. rewrite findall_norm. now destruct (findall name x). Qed.
Fixpoint itertexts (l : list node) : str := match l with [] => [] | y :: l' => itertext y ++ itertexts l' end.
Lemma itertext_elt : forall n a k, itertext (Elt n a k) = itertexts k.
Proof. reflexivity. Qed.
Lemma itertexts_app : forall a b, itertexts (a ++ b) = itertexts a ++ itertexts b.
Proof. induction a as [|x a IH]; intro b; [reflexivity|]. cbn [app itertexts]. now rewrite IH, app_assoc. Qed.
Lemma itertexts_cons_txt : forall t r, itertexts (cons_txt t r) = t ++ itertexts r.
Proof. intros t r. unfold cons_txt. destruct r as [|[u|m b j] r]; [destruct t; reflexivity | cbn [itertexts itertext]; now rewrite app_assoc | destruct t; reflexivity]. Qed.
Lemma itertext_norm : (forall x, itertext (norm x) = itertext x) /\ (forall l, itertexts (norms l) = itertexts l).
Proof.
  apply node_ind2.
  - reflexivity.
  - intros n a k IH. now rewrite norm_elt, !itertext_elt.
  - reflexivity.
  - intros [t|n a k] l H1 H2; cbn [norms itertexts]; [rewrite itertexts_cons_txt; now rewrite H2 | now rewrite H1, H2].
Qed.
Lemma attribute_norm : forall name x, attribute name (norm x) = attribute name x.
Proof. intros name [t|n a k]; [reflexivity | now rewrite norm_elt]. Qed.
Lemma cell_text_norm : forall x, cell_text (norm x) = cell_text x.
Proof.
  intro x. unfold cell_text. rewrite findall_norm. destruct (findall (s "text:p") x) as [|p ps]; [reflexivity|]. cbn [map]. f_equal. f_equal. f_equal; [apply (proj1 itertext_norm)|].
  rewrite map_map. apply map_ext. apply (proj1 itertext_norm).
Qed.
Lemma row_cells_norm : forall k l cells i, row_cells k cells i (map norm l) = row_cells k cells i l.
Proof.
  induction l as [|c l IH]; intros cells i; [reflexivity|]. cbn [map row_cells]. rewrite cell_text_norm, attribute_norm.
  destruct (cell_text c) as [t|]; [|destruct (0 <? i); [|reflexivity]]; (destruct (k <=? S i); [reflexivity|]); (destruct (attribute REPEATED c) as [[|d v]|]; [apply IH | destruct (parse_int (d :: v)); [apply IH | reflexivity] | apply IH]).
Qed.
Lemma mapM_ext : forall {A B} (f g : A -> res B) l, (forall x, f x = g x) -> mapM f l = mapM g l.
Proof. intros A B f g l H. induction l as [|x l IH]; [reflexivity|]. cbn [mapM]. now rewrite H, IH. Qed.
Lemma mapM_map' : forall {A B C} (g : A -> B) (f : B -> res C) l, mapM f (map g l) = mapM (fun x => f (g x)) l.
Proof. induction l as [|x l IH]; [reflexivity|]. cbn. now rewrite IH. Qed.
Lemma get_rows_norm : forall x k, get_rows (norm x) k = get_rows x k.
Proof.
  intros x k. unfold get_rows. rewrite find_norm. destruct (find (s "office:body") x) as [b|]; [|reflexivity]. cbn [option_map need bind].
  rewrite find_norm. destruct (find (s "office:spreadsheet") b) as [sh|]; [|reflexivity]. cbn [option_map need bind].
  rewrite find_norm. destruct (find (s "table:table") sh) as [t|]; [|reflexivity]. cbn [option_map need bind].
  rewrite findall_norm, mapM_map'. f_equal. apply mapM_ext. intro r. rewrite findall_norm. apply row_cells_norm.
Qed.

(** * Contexts *)
Record frame := mkFrame { f_pre : list node; f_name : str; f_attrs : attrs; f_post : list node }.
Fixpoint plug (fs : list frame) (l : list node) : list node :=
  match fs with [] => l | f :: fs' => f_pre f ++ Elt (f_name f) (f_attrs f) (plug fs' l) :: f_post f end.
Fixpoint opens (fs : list frame) : list event := match fs with [] => [] | f :: fs' => evs (f_pre f) ++ Start (f_name f) (f_attrs f) :: opens fs' end.
Fixpoint closes (fs : list frame) : list event := match fs with [] => [] | f :: fs' => closes fs' ++ End (f_name f) :: evs (f_post f) end.
Lemma evs_plug : forall fs l, evs (plug fs l) = opens fs ++ evs l ++ closes fs.
Proof.
  induction fs as [|f fs IH]; intro l; cbn [plug opens closes]; [now rewrite app_nil_r|].
  rewrite evs_app. cbn [evs]. rewrite ev_elt, IH. rewrite <- ?app_assoc. cbn [app]. rewrite <- ?app_assoc. cbn [app]. rewrite <- ?app_assoc. reflexivity.
Qed.

(** the frames that a sequence of events leaves open: computed for concrete headers; st is the stack, the innermost element first, with the reversed siblings *)
Fixpoint open_frames (es : list event) (st : list (list node * str * attrs)) (cur : list node) : list (list node * str * attrs) * list node :=
  match es with
  | [] => (rev st, rev cur)
  | Data t :: r => open_frames r st (Txt t :: cur)
  | Start n a :: r => open_frames r ((rev cur, n, a) :: st) []
  | End _ :: r => match st with (pre, n, a) :: st' => open_frames r st' (Elt n a (rev cur) :: rev pre) | [] => (rev st, rev cur) end
  end.

(** * Nesting in steps *)
Fixpoint nest_run (st : list str) (seen : bool) (ts : list xtok) : option (list event * list str * bool) :=
  match ts with
  | [] => Some ([], st, seen)
  | k :: ts' =>
      let go es st seen := match nest_run st seen ts' with Some (r, st', seen') => Some (es ++ r, st', seen') | None => None end in
      match k with
      | XStart n a => match st, seen with [], true => None | _, _ => go [Start n a] (n :: st) true end
      | XEmpty n a => match st, seen with [], true => None | _, _ => go [Start n a; End n] st true end
      | XEnd n => match st with m :: st' => if str_eqb n m then go [End n] st' seen else None | [] => None end
      | XChar c => match st with [] => if xml_space c then go [] [] seen else None | _ => go [Data [c]] st seen end
      | XText t => match st with [] => None | _ => go [Data t] st seen end
      end
  end.
Lemma nest_app : forall ts st seen us, nest st seen (ts ++ us) = match nest_run st seen ts with Some (es, st', seen') => option_map (app es) (nest st' seen' us) | None => None end.
Proof.
  induction ts as [|k ts IH]; intros st seen us; cbn [app nest_run].
  - now rewrite option_map_id.
  - destruct k as [n a|n a|n|c|t]; cbn [nest].
    + destruct st as [|m st]; [destruct seen; [reflexivity|]|]; rewrite IH; destruct (nest_run _ _ ts) as [[[es st'] seen']|]; try reflexivity; cbn [app]; destruct (nest st' seen' us); reflexivity.
    + destruct st as [|m st]; [destruct seen; [reflexivity|]|]; rewrite IH; destruct (nest_run _ _ ts) as [[[es st'] seen']|]; try reflexivity; cbn [app]; destruct (nest st' seen' us); reflexivity.
    + destruct st as [|m st]; [reflexivity|]. destruct (str_eqb n m); [|reflexivity]. rewrite IH; destruct (nest_run _ _ ts) as [[[es st'] seen']|]; try reflexivity; cbn [app]; destruct (nest st' seen' us); reflexivity.
    + destruct st as [|m st]; [destruct (xml_space c); [|reflexivity]|]; rewrite IH; destruct (nest_run _ _ ts) as [[[es st'] seen']|]; try reflexivity; cbn [app]; destruct (nest st' seen' us); reflexivity.
    + destruct st as [|m st]; [reflexivity|]. rewrite IH; destruct (nest_run _ _ ts) as [[[es st'] seen']|]; try reflexivity; cbn [app]; destruct (nest st' seen' us); reflexivity.
Qed.

(** * Token by token *)
Fixpoint pieces_of (fuel : nat) (t : str) : list (str * xtok) :=
  match fuel, t with
  | S f, _ :: _ => match xlook t with Some (k, n) => (firstn n t, k) :: pieces_of f (skipn n t) | None => [] end
  | _, _ => []
  end.
Lemma lexes_pieces : forall ps : list (str * xtok), Forall (fun p => lexes (fst p) [snd p]) ps -> lexes (concat (map fst ps)) (map snd ps).
Proof.
  induction ps as [|p ps IH]; intro H; [exact lexes_nil|]. inversion H; subst. cbn [map concat]. change (snd p :: map snd ps) with ([snd p] ++ map snd ps). apply lexes_app; [assumption | now apply IH].
Qed.
Ltac lex_pieces := repeat (apply Forall_cons; [cbn [fst snd]; lex_tag|]); apply Forall_nil.

(** * Documents *)
Definition not_gt (k : xtok) : bool := match k with XChar c => negb (N.eqb c 62) | _ => true end.
Lemma not_gt_in : forall ts, forallb not_gt ts = true -> ~ In (XChar 62) ts.
Proof. intros ts H I. rewrite forallb_forall in H. specialize (H _ I). discriminate. Qed.
(** a document: a head that leaves frames open, balanced parts, and a foot that closes them *)
Theorem document : forall D head foot fs cur post0 th tf nodes w pre n a post fs',
  (forall r, skip_declaration (D ++ r) = Some r) -> ~ In 13%N (D ++ head ++ foot) ->
  lexes head th -> lexes foot tf -> forallb not_gt th = true -> forallb not_gt tf = true ->
  fs = mkFrame pre n a post :: fs' -> pre = [] -> post = [] ->
  nest_run [] false th = Some (opens fs ++ evs cur, rev (map f_name fs), true) -> nest_run (rev (map f_name fs)) true tf = Some (evs post0 ++ closes fs, [], true) ->
  frag w (evs nodes) ->
  tree_of (D ++ head ++ w ++ foot) = Some (norm (Elt n a (plug fs' (cur ++ nodes ++ post0)))).
Proof.
  intros D head foot fs cur post0 th tf nodes w pre n a post fs' HD Hcr Lh Lf Gh Gf Efs Epre Epost Nh Nf Fw.
  destruct Fw as [Wcr [tw [Lw [Gw Nw]]]].
  assert (Hw : ~ In 13%N (D ++ head ++ w ++ foot)).
  { rewrite !in_app_iff in *. tauto. }
  assert (S : sax (D ++ head ++ w ++ foot) = Some (merge (evs (plug fs (cur ++ nodes ++ post0))))).
  { unfold sax. rewrite unl_id by exact Hw. rewrite HD.
    assert (L : xlex (head ++ w ++ foot) = Some (th ++ tw ++ tf)) by (apply lexes_full; apply lexes_app; [exact Lh|]; now apply lexes_app).
    rewrite L. rewrite no_cdata_end_ok.
    2:{ rewrite !in_app_iff. pose proof (not_gt_in _ Gh). pose proof (not_gt_in _ Gf). tauto. }
    rewrite nest_app, Nh. assert (Hst : exists m st, rev (map f_name fs) = m :: st).
    { subst fs. cbn [map rev]. destruct (rev (map f_name fs')); eexists; eexists; reflexivity. }
    destruct Hst as [m [st Est]]. rewrite Est in *. rewrite (Nw m st tf). rewrite <- (app_nil_r tf), nest_app, Nf. cbn [nest option_map].
    rewrite evs_plug, !evs_app, app_nil_r, <- !app_assoc. reflexivity. }
  unfold tree_of. rewrite S. subst fs pre post. cbn [plug f_pre f_name f_attrs f_post app]. cbn [evs]. rewrite app_nil_r.
  rewrite <- (app_nil_r (ev (Elt n a (plug fs' (cur ++ nodes ++ post0))))). rewrite ((proj1 merge_evs) _ n a _ eq_refl). cbn [merge]. rewrite app_nil_r. rewrite norm_elt, siblings_root by lia. reflexivity.
Qed.
Lemma find_plug : forall name n a f fs l, forallb (fun x => negb (named name x)) (f_pre f) = true -> str_eqb (f_name f) name = true ->
  find name (Elt n a (plug (f :: fs) l)) = Some (Elt (f_name f) (f_attrs f) (plug fs l)).
Proof.
  intros name n a f fs l H1 H2. unfold find, findall. cbn [kids_of plug]. rewrite filter_app.
  assert (E : filter (named name) (f_pre f) = []).
  { induction (f_pre f) as [|x r IH]; [reflexivity|]. cbn [forallb filter] in *. apply andb_true_iff in H1 as [H1 H3]. destruct (named name x); [discriminate | now apply IH]. }
  rewrite E. cbn [app filter named]. rewrite H2. reflexivity.
Qed.
