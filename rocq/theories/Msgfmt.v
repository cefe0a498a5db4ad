(** Model of src/msgfmt.py 48-96: add and generate.  Byte strings are lists of numbers. *)
From Coq Require Import List NArith Bool Lia Arith.
From Verif Require Import PyStr PyDict.
Import ListNotations.

Definition bytes := list N.

(** bytes < bytes (lexicographic), used by sorted() *)
Fixpoint bytes_ltb (a b : bytes) : bool :=
  match a, b with
  | _, [] => false
  | [], _ :: _ => true
  | x :: a', y :: b' => if N.ltb x y then true else if N.eqb x y then bytes_ltb a' b' else false
  end.
(** sorted(list): stable; written as insertion sort *)
Fixpoint insert_key (k : bytes) (l : list bytes) : list bytes :=
  match l with
  | [] => [k]
  | x :: l' => if bytes_ltb x k then x :: insert_key k l' else k :: x :: l'
  end.
Definition sorted_keys (l : list bytes) : list bytes := fold_right insert_key [] l.

(** msgfmt.py 48-55 add: MESSAGES is passed and returned; b"%b\x04%b" % (ctxt, id) *)
Definition add (ctxt : option bytes) (id str : bytes) (fuzzy : bool) (messages : dict bytes) : dict bytes :=
  if negb fuzzy && truthy str then
    match ctxt with
    | None => dset id str messages
    | Some c => dset (c ++ 4%N :: id) str messages
    end
  else messages.

(** struct.pack and array.array("i"): native 4-byte signed integers; values from 2^31 on are an error.  [big]: byte order of the machine *)
Definition word_bytes (big : bool) (n : N) : bytes :=
  let l := [n mod 256; (n / 256) mod 256; (n / 65536) mod 256; (n / 16777216) mod 256]%N in if big then rev l else l.
Definition pack_int (big : bool) (n : N) : res bytes :=
  if (n <? 2147483648)%N then Ok (word_bytes big n) else Err ValueError (* stands for struct.error and OverflowError *).
Fixpoint pack_ints (big : bool) (l : list N) : res bytes :=
  match l with
  | [] => Ok []
  | n :: l' => do a <- pack_int big n; do b <- pack_ints big l'; Ok (a ++ b)
  end.
Definition blen (b : bytes) : N := N.of_nat (length b).

(** msgfmt.py 63-70: for id in keys: offsets, ids, strs *)
Record tables := { offs : list (N * N * N * N); ids : bytes; strs : bytes }.
Definition add_entry (messages : dict bytes) (t : tables) (id : bytes) : res tables :=
  do str <- dindex id messages;
  Ok {| offs := offs t ++ [(blen (ids t), blen id, blen (strs t), blen str)]; ids := ids t ++ id ++ [0%N]; strs := strs t ++ str ++ [0%N] |}.

(** msgfmt.py 58-96 generate *)
Definition generate (big : bool) (messages : dict bytes) : res bytes :=
  let keys := sorted_keys (dkeys messages) in
  do t <- foldM (add_entry messages) keys {| offs := []; ids := []; strs := [] |};
  let nk := N.of_nat (length keys) in
  let keystart := (7 * 4 + 16 * nk)%N in
  let valuestart := (keystart + blen (ids t))%N in
  let koffsets := flat_map (fun o => match o with (o1, l1, o2, l2) => [l1; (o1 + keystart)%N] end) (offs t) in
  let voffsets := flat_map (fun o => match o with (o1, l1, o2, l2) => [l2; (o2 + valuestart)%N] end) (offs t) in
  do head <- pack_ints big [0%N; nk; (7 * 4)%N; (7 * 4 + nk * 8)%N; 0%N; 0%N];
  do index <- pack_ints big (koffsets ++ voffsets);
  Ok (word_bytes big 2500072158%N ++ head ++ index ++ ids t ++ strs t).
