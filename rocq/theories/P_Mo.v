(** Property theorems about message catalogues: C32 *)
From Coq Require Import List NArith Bool Permutation Sorted.
From Verif Require Import PyStr PyDict Msgfmt SpecMo MsgfmtProofs.
Import ListNotations.

(** A reader of GNU .mo files finds in the generated file exactly the messages with their translations, sorted, on machines of either byte order *)
Theorem C32_mo_file : forall big messages file, NoDup (dkeys messages) -> generate big messages = Ok file ->
  exists l, read_mo file = Some l /\ Permutation messages l /\ StronglySorted bytes_lt (map fst l).
Proof. exact generate_spec. Qed.
Print Assumptions C32_mo_file.
(** Generation succeeds for every catalogue smaller than 2 GB *)
Theorem C32_succeeds : forall big messages, NoDup (dkeys messages) ->
  (N.of_nat (28 + 16 * length messages + list_sum (map (fun p => length (fst p) + 1 + (length (snd p) + 1)) messages))%nat < 2147483648)%N ->
  exists file, generate big messages = Ok file.
Proof. exact generate_succeeds. Qed.
Print Assumptions C32_succeeds.
(** What is recorded while the catalogue is built: a translation that is not fuzzy and not empty, under its context; later ones win;
    messages stay distinct *)
Theorem C32_add : forall ctxt id t fuzzy m k, NoDup (dkeys m) ->
  NoDup (dkeys (add ctxt id t fuzzy m)) /\
  dget k (add ctxt id t fuzzy m) =
    if negb fuzzy && truthy t && str_eqb k (match ctxt with None => id | Some c => c ++ 4%N :: id end) then Some t else dget k m.
Proof.
  intros ctxt id t fuzzy m k ND. unfold add. destruct (negb fuzzy && truthy t); cbn [andb]; [|split; [exact ND | reflexivity]].
  destruct ctxt; (split; [apply NoDup_dset; exact ND | apply dget_dset]).
Qed.
Print Assumptions C32_add.

Definition G_messages : dict bytes := [(s "Yes", s "Ja"); (s "", s "Content-Type: x"); (s "No", [78; 101; 105; 110]%N); (s "Yesterday", s "Gestern")].
Example C32_instance : forall big : bool, exists file, generate big G_messages = Ok file /\
  read_mo file = Some [(s "", s "Content-Type: x"); (s "No", s "Nein"); (s "Yes", s "Ja"); (s "Yesterday", s "Gestern")].
Proof. intros [|]; eexists; (split; [vm_compute; reflexivity | vm_compute; reflexivity]). Qed.
Example C32_instance_nodup : NoDup (dkeys G_messages).
Proof. repeat (constructor; [intro X; cbn in X; intuition discriminate|]). constructor. Qed.
