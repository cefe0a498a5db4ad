(** PO files: what a quoted text stands for (GNU gettext manual, "The Format of PO Files"; the escapes are those of C).  Independent of the program. *)
From Coq Require Import String List NArith Bool.
From Verif Require Import PyStr.
Import ListNotations.

(** a letter after a backslash, and the character it stands for *)
Definition escapes : list (N * N) := [(92, 92); (39, 39); (34, 34); (97, 7); (98, 8); (102, 12); (110, 10); (114, 13); (116, 9); (118, 11)]%N.
(** characters that stand for themselves: any but the quotation mark, the backslash, the ends of line, NUL, and surrogates *)
Definition ordinary (c : N) : Prop := ~ In c [34; 92; 10; 13; 0]%N /\ ((c < 55296)%N \/ (57344 <= c < 1114112)%N).
(** w, between quotation marks, stands for v *)
Inductive stands_for : str -> str -> Prop :=
| sf_nil : stands_for [] []
| sf_char : forall c w v, ordinary c -> stands_for w v -> stands_for (c :: w) (c :: v)
| sf_escape : forall e x w v, In (e, x) escapes -> stands_for w v -> stands_for (92%N :: e :: w) (x :: v).
(** the same for the text between the quotation marks of a source code string, where a quotation mark of the other kind stands for itself;
    the escape for the quotation mark is not among them *)
Inductive source_for : str -> str -> Prop :=
| src_nil : source_for [] []
| src_char : forall c w v, ordinary c \/ c = 34%N -> source_for w v -> source_for (c :: w) (c :: v)
| src_escape : forall e x w v, In (e, x) escapes -> e <> 34%N -> source_for w v -> source_for (92%N :: e :: w) (x :: v).
Definition ascii (t : str) : Prop := Forall (fun c => (c < 128)%N) t.
(** printable ASCII text without quotation mark and backslash *)
Definition plain (t : str) : Prop := Forall (fun c => (32 <= c <= 126)%N /\ c <> 34%N /\ c <> 92%N) t.
(** text that can be encoded *)
Definition encodable (t : str) : Prop := Forall (fun c => (c < 55296)%N \/ (57344 <= c < 1114112)%N) t.
(** UTF-8 (RFC 3629), one character *)
Inductive utf8_of : N -> list N -> Prop :=
| u1 : forall c, (c < 128)%N -> utf8_of c [c]
| u2 : forall a b, (2 <= a < 32)%N -> (b < 64)%N -> utf8_of (a * 64 + b) [192 + a; 128 + b]%N
| u3 : forall a b c, (a < 16)%N -> (b < 64)%N -> (c < 64)%N -> (2048 <= a * 4096 + b * 64 + c)%N -> utf8_of (a * 4096 + b * 64 + c) [224 + a; 128 + b; 128 + c]%N
| u4 : forall a b c d, (a < 8)%N -> (b < 64)%N -> (c < 64)%N -> (d < 64)%N -> (65536 <= a * 262144 + b * 4096 + c * 64 + d < 1114112)%N ->
    utf8_of (a * 262144 + b * 4096 + c * 64 + d) [240 + a; 128 + b; 128 + c; 128 + d]%N.
(** the bytes of a text *)
Inductive utf8_bytes : str -> list N -> Prop :=
| ub_nil : utf8_bytes [] []
| ub_cons : forall c b t bs, utf8_of c b -> utf8_bytes t bs -> utf8_bytes (c :: t) (b ++ bs).
