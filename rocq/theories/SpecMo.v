(** The GNU .mo file format (https://www.gnu.org/software/gettext/manual/html_node/MO-Files.html), as a reader.  Independent of the program. *)
From Coq Require Import List NArith Bool.
Import ListNotations.

(** the 32-bit word at a byte offset *)
Definition le_word (l : list N) : option N :=
  match l with
  | b0 :: b1 :: b2 :: b3 :: _ => Some (b0 + 256 * b1 + 65536 * b2 + 16777216 * b3)%N
  | _ => None
  end.
Definition be_word (l : list N) : option N :=
  match l with
  | b0 :: b1 :: b2 :: b3 :: _ => Some (b3 + 256 * b2 + 65536 * b1 + 16777216 * b0)%N
  | _ => None
  end.
Definition word_at (big : bool) (file : list N) (off : N) : option N :=
  (if big then be_word else le_word) (skipn (N.to_nat off) file).
(** the string of a given length at an offset, which has to lie in the file and to be followed by a NUL *)
Definition string_at (file : list N) (len off : N) : option (list N) :=
  let rest := skipn (N.to_nat off) file in
  match nth_error rest (N.to_nat len) with
  | Some 0%N => Some (firstn (N.to_nat len) rest)
  | _ => None
  end.
(** entry i of the table at tab: length and offset of a string *)
Definition entry_at (big : bool) (file : list N) (tab : N) (i : nat) : option (list N) :=
  match word_at big file (tab + 8 * N.of_nat i)%N, word_at big file (tab + 8 * N.of_nat i + 4)%N with
  | Some len, Some off => string_at file len off
  | _, _ => None
  end.
Definition MAGIC : N := 2500072158%N.     (* 0x950412de *)
(** byte order from the magic number *)
Definition byte_order (file : list N) : option bool :=
  match le_word file with
  | Some w => if N.eqb w MAGIC then Some false
              else match be_word file with Some v => if N.eqb v MAGIC then Some true else None | None => None end
  | None => None
  end.
(** all messages with their translations, in the order of the file; revision 0 *)
Fixpoint all_some {A} (l : list (option A)) : option (list A) :=
  match l with
  | [] => Some []
  | Some x :: l' => match all_some l' with Some r => Some (x :: r) | None => None end
  | None :: _ => None
  end.
Definition read_mo (file : list N) : option (list (list N * list N)) :=
  match byte_order file with
  | None => None
  | Some big =>
      match word_at big file 4, word_at big file 8, word_at big file 12, word_at big file 16 with
      | Some 0%N, Some n, Some o, Some t =>
          all_some (map (fun i => match entry_at big file o i, entry_at big file t i with Some a, Some b => Some (a, b) | _, _ => None end)
                        (seq 0 (N.to_nat n)))
      | _, _, _, _ => None
      end
  end.
(** byte-wise order *)
Inductive bytes_lt : list N -> list N -> Prop :=
| lt_nil : forall y b, bytes_lt [] (y :: b)
| lt_head : forall x y a b, (x < y)%N -> bytes_lt (x :: a) (y :: b)
| lt_tail : forall x a b, bytes_lt a b -> bytes_lt (x :: a) (x :: b).
