(** The scenes that are written into a document of the normal scenes. *)
From Coq Require Import List NArith Bool.
From Verif Require Import PyStr PyDict NovelModel NovelOps Export SpecExport SpecRetext.
Import ListNotations.

(** the scene is in the document *)
Definition written (c : chapter) (dne : bool) (x : scene) : Prop :=
  is_type (sc_type x) 2 = false /\ is_type (sc_type x) 1 = false /\ is_type (sc_type x) 3 = false /\ is_type (ch_type c) 3 = false /\ (flag (sc_doNotExport x) || dne)%bool = false /\ raw_code x = false.
(** the scenes of a chapter that are in the document *)
Definition in_chapter (n : novel) (k i : str) : Prop := In i (ch_srtScenes (chapter_of n k)) /\ scene_kind n k i = Normal /\ raw_code (scene_of n i) = false.
Lemma kind_dec : forall t, (t = Some 2%N \/ t = Some 1%N \/ t = Some 3%N) \/ (is_type t 2 = false /\ is_type t 1 = false /\ is_type t 3 = false).
Proof. intros [t|]; [|right; repeat split]. unfold is_type. destruct (N.eqb_spec t 2); [subst; tauto|]. destruct (N.eqb_spec t 1); [subst; tauto|]. destruct (N.eqb_spec t 3); [subst; tauto|]. right. repeat split. Qed.
Lemma in_written : forall n k i c, dget k (nv_chapters n) = Some c -> in_chapter n k i -> In i (ch_srtScenes c) /\ written c (hidden_chapter n c) (scene_of n i).
Proof.
  intros n k i c Hc [A [B C]]. unfold scene_kind in B. unfold chapter_of in A, B. rewrite Hc in A, B. split; [exact A|]. unfold written. unfold hidden_scene in B. unfold flag.
  destruct (kind_dec (sc_type (scene_of n i))) as [[Et | [Et | Et]] | [S1 [S2 S3]]]; [rewrite Et in B; discriminate B | rewrite Et in B; discriminate B | rewrite Et in B; discriminate B|]. rewrite S1, S2, S3. split; [reflexivity|]. split; [reflexivity|]. split; [reflexivity|].
  assert (B2 : match ch_type c with Some 3%N => Unused | _ => if (match sc_doNotExport (scene_of n i) with Some b => b | None => false end || hidden_chapter n c)%bool then Hidden else Normal end = Normal).
  { refine (eq_trans _ B). destruct (sc_type (scene_of n i)) as [t|]; [|reflexivity]. cbn [is_type] in S1, S2, S3. apply N.eqb_neq in S1, S2, S3. destruct t as [|[[p|p|]|[p|p|]|]]; first [reflexivity | exfalso; congruence]. }
  clear B. rename B2 into B. destruct (kind_dec (ch_type c)) as [[Et | [Et | Et]] | [_ [_ Et]]]; [| | rewrite Et in B; discriminate B |].
  - rewrite Et in B |- *. split; [reflexivity|]. split; [|exact C]. destruct (sc_doNotExport (scene_of n i)) as [[|]|]; cbn [orb] in *; destruct (hidden_chapter n c); try discriminate B; reflexivity.
  - rewrite Et in B |- *. split; [reflexivity|]. split; [|exact C]. destruct (sc_doNotExport (scene_of n i)) as [[|]|]; cbn [orb] in *; destruct (hidden_chapter n c); try discriminate B; reflexivity.
  - rewrite Et. split; [reflexivity|]. split; [|exact C].
    assert (B2 : (if (match sc_doNotExport (scene_of n i) with Some b => b | None => false end || hidden_chapter n c)%bool then Hidden else Normal) = Normal).
    { refine (eq_trans _ B). destruct (ch_type c) as [t|]; [|reflexivity]. cbn [is_type] in Et. apply N.eqb_neq in Et. destruct t as [|[[p|p|]|[p|p|]|]]; first [reflexivity | exfalso; congruence]. }
    destruct (sc_doNotExport (scene_of n i)) as [[|]|]; cbn [orb] in *; destruct (hidden_chapter n c); try discriminate B2; reflexivity.
Qed.
