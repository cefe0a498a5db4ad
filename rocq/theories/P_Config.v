(** Property theorems about configuration files: C31.  [xform] is str.lower in the program; the theorems hold for any function. *)
From Coq Require Import List NArith Bool.
From Verif Require Import PyStr PyDict YwText Config SpecConfig ConfigProofs.
Import ListNotations.

(** Saving and reading again, into a configuration with the same names and any values, restores everything.  Guards: names and values fit
    into an INI file, and names do not differ in case only *)
Theorem C31_roundtrip : forall xform c c0 t,
  (forall k v, In (k, v) (settings c) -> plain_key (xform k) /\ xform (xform k) = xform k /\ plain_value v) ->
  (forall k v, In (k, v) (options c) -> plain_key (xform k) /\ xform (xform k) = xform k) ->
  NoDup (map xform (dkeys (settings c))) -> NoDup (map xform (dkeys (options c))) ->
  dkeys (settings c0) = dkeys (settings c) -> dkeys (options c0) = dkeys (options c) ->
  config_write xform c = Ok t -> config_read xform (Some t) c0 = Ok c.
Proof. exact config_roundtrip. Qed.
Print Assumptions C31_roundtrip.
(** saving does not fail under these guards *)
Theorem C31_write_succeeds : forall xform c, (forall k v, In (k, v) (settings c) -> ~ In 37%N v) -> NoDup (map xform (dkeys (settings c))) -> NoDup (map xform (dkeys (options c))) ->
  exists t, config_write xform c = Ok t.
Proof.
  intros xform c HS NS NO. unfold config_write.
  assert (NS' : NoDup (dkeys (renamed xform (settings c)))) by (unfold dkeys, renamed in *; rewrite map_map in *; exact NS).
  assert (NO' : NoDup (dkeys (renamed xform (map (fun kv => (fst kv, yes_no (snd kv))) (options c))))) by (unfold dkeys, renamed in *; rewrite !map_map in *; exact NO).
  rewrite (set_all_ok xform _ (fun kv H => HS (fst kv) (snd kv) (eq_ind _ (fun x => In x (settings c)) H _ (surjective_pairing kv))) NS').
  rewrite (set_all_ok xform (map (fun kv => (fst kv, yes_no (snd kv))) (options c))); [|intros [k v] H; apply in_map_iff in H; destruct H as ([k0 v0] & E & _); injection E as <- <-; apply yes_no_plain | exact NO'].
  destruct (settings c); destruct (options c); eexists; reflexivity.
Qed.
Print Assumptions C31_write_succeeds.
(** Whatever is in the file: reading adds and removes no setting or option, and one whose name is not given a value in any line of the
    file keeps its value *)
Theorem C31_frame : forall xform file c c', config_read xform file c = Ok c' ->
  dkeys (settings c') = dkeys (settings c) /\ dkeys (options c') = dkeys (options c) /\
  forall k, (forall t l a d b, file = Some t -> In l (file_lines (unl t)) -> strip l = a ++ d :: b -> d = 61%N \/ d = 58%N -> ~ In 61%N a -> ~ In 58%N a -> xform (rstrip a) <> xform k) ->
    (NoDup (dkeys (settings c)) -> dget k (settings c') = dget k (settings c)) /\ (NoDup (dkeys (options c)) -> dget k (options c') = dget k (options c)).
Proof.
  intros xform file c c' H. destruct (config_read_frame _ _ _ _ H) as (A & B & C). split; [exact A|]. split; [exact B|]. intros k HK. apply C.
  intros t E (l & a & d & b & H1 & H2 & H3 & H4 & H5 & H6). exact (HK t l a d b E H1 H2 H3 H4 H5 (eq_sym H6)).
Qed.
Print Assumptions C31_frame.
Theorem C31_missing_file : forall xform c, config_read xform None c = Ok c.
Proof. reflexivity. Qed.
Print Assumptions C31_missing_file.

Definition G_cfg : configuration := {| settings := [(s "Root dir", s "/home/me: x = y"); (s "note", s "line one" ++ [10; 10]%N ++ s "line three")]; options := [(s "Backup", true); (s "lock", false)] |}.
Definition G_old : configuration := {| settings := [(s "Root dir", s "?"); (s "note", s "")]; options := [(s "Backup", false); (s "lock", true)] |}.
Example C31_instance : exists t, config_write lower G_cfg = Ok t /\ config_read lower (Some t) G_old = Ok G_cfg /\
  (forall k v, In (k, v) (settings G_cfg) -> plain_key (lower k) /\ lower (lower k) = lower k /\ plain_value v) /\ NoDup (map lower (dkeys (settings G_cfg))).
Proof.
  eexists. split; [vm_compute; reflexivity|]. split; [vm_compute; reflexivity|]. split.
  - intros k v H. cbn [G_cfg settings] in H. assert (K : plain_key (lower k) /\ lower (lower k) = lower k).
    { destruct H as [H | [H | []]]; injection H as <- <-; (split; [|vm_compute; reflexivity]); (split; [vm_compute; discriminate|]); (split; [split; vm_compute; reflexivity|]); (split; [split; intro X; cbv in X; intuition discriminate|]);
        (split; [intro X; cbv in X; intuition discriminate|]); (split; [intro X; cbv in X; intuition discriminate|]); cbv; repeat split; discriminate. }
    destruct K as [K1 K2]. split; [exact K1|]. split; [exact K2|]. clear K1 K2.
    destruct H as [H | [H | []]]; injection H as <- <-; (split; [intros l Hl; vm_compute in Hl; repeat (destruct Hl as [<- | Hl]; [split; vm_compute; try reflexivity; exact I|]); destruct Hl|]);
      (split; [intros l Hl; vm_compute in Hl; repeat (destruct Hl as [<- | Hl]; [vm_compute; reflexivity|]); destruct Hl|]); (split; [vm_compute; reflexivity|]); split; intro X; cbv in X; intuition discriminate.
  - apply NoDup_cons; [intros [X | []]; vm_compute in X; discriminate|]. apply NoDup_cons; [intros [] | apply NoDup_nil].
Qed.

(** Without the guards the claim is false: *)
(** a percent sign *)
Theorem C31_percent_refuted : config_write lower {| settings := [(s "zoom", s "100%")]; options := [] |} = Err ValueError.
Proof. vm_compute. reflexivity. Qed.
Print Assumptions C31_percent_refuted.
(** space at the beginning, a line starting with '#', names that differ in case only *)
Theorem C31_value_refuted : forall v r, In (v, r) [(s " x", s "x"); (s "a" ++ [10%N] ++ s "#b", s "a"); (s "%(k)s", s "")] -> exists t,
  config_write lower {| settings := [(s "k", v)]; options := [] |} = Ok t /\ config_read lower (Some t) {| settings := [(s "k", v)]; options := [] |} <> Ok {| settings := [(s "k", v)]; options := [] |}.
Proof.
  intros v r [H | [H | [H | []]]]; injection H as <- <-; eexists; (split; [vm_compute; reflexivity | vm_compute; discriminate]).
Qed.
Print Assumptions C31_value_refuted.
Theorem C31_case_refuted : exists t, config_write lower {| settings := [(s "Key", s "1"); (s "key", s "2")]; options := [] |} = Ok t /\
  config_read lower (Some t) {| settings := [(s "Key", s "1"); (s "key", s "2")]; options := [] |} = Ok {| settings := [(s "Key", s "2"); (s "key", s "2")]; options := [] |}.
Proof. eexists. split; vm_compute; reflexivity. Qed.
Print Assumptions C31_case_refuted.
