(** datetime.fromisoformat / isoformat of the Python standard library, for date-times without time zone. *)
From Coq Require Import List NArith ZArith Bool Lia Arith.
From Verif Require Import PyStr PyDict.
Import ListNotations.

(** exactly n decimal digits *)
Fixpoint all_digits (t : str) : bool := match t with [] => true | c :: t' => is_digit c && all_digits t' end.
Definition num (t : str) : N := fold_left (fun a c => (10 * a + (c - 48))%N) t 0%N.

Definition leap (y : N) : bool :=
  ((y mod 4 =? 0)%N && negb (y mod 100 =? 0)%N) || (y mod 400 =? 0)%N.
Definition days_in_month (y m : N) : N :=
  if (m =? 2)%N then (if leap y then 29 else 28)%N
  else if existsb (N.eqb m) [4; 6; 9; 11]%N then 30%N else 31%N.

(** YYYY-MM-DD, a date of the calendar (years 1..9999) *)
Definition valid_date (t : str) : bool :=
  match t with
  | [y1; y2; y3; y4; h1; m1; m2; h2; d1; d2] =>
      all_digits [y1; y2; y3; y4; m1; m2; d1; d2] && (h1 =? 45)%N && (h2 =? 45)%N &&
      let y := num [y1; y2; y3; y4] in let m := num [m1; m2] in let d := num [d1; d2] in
      (1 <=? y)%N && (1 <=? m)%N && (m <=? 12)%N && (1 <=? d)%N && (d <=? days_in_month y m)%N
  | _ => false
  end.

(** hh:mm:ss, a time of the day *)
Definition valid_time (t : str) : bool :=
  match t with
  | [h1; h2; c1; m1; m2; c2; s1; s2] =>
      all_digits [h1; h2; m1; m2; s1; s2] && (c1 =? 58)%N && (c2 =? 58)%N &&
      (num [h1; h2] <? 24)%N && (num [m1; m2] <? 60)%N && (num [s1; s2] <? 60)%N
  | _ => false
  end.

(** The time part of a naive ISO string, in the form isoformat() prints it: hh, hh:mm, hh:mm:ss, and
    hh:mm:ss.ffffff or hh:mm:ss.fff (printed with six digits, and not at all if zero). *)
Definition iso_time (t : str) : option str :=
  let ok x := if valid_time x then Some x else None in
  match t with
  | [] => Some (s "00:00:00")
  | _ =>
    match length t with
    | 2 => ok (t ++ s ":00:00")
    | 5 => ok (t ++ s ":00")
    | 8 => ok t
    | 12 | 15 =>
        let f := skipn 9 t ++ (if Nat.eqb (length t) 12 then s "000" else []) in
        if prefixb (s ".") (skipn 8 t) && all_digits f && valid_time (firstn 8 t) then
          Some (if (num f =? 0)%N then firstn 8 t else firstn 8 t ++ s "." ++ f)
        else None
    | _ => None
    end
  end.

(** datetime.fromisoformat(t).isoformat().split('T') for a date-time without zone: (date, time).
    Any single character may separate date and time.  [ext] is the behaviour for all the other strings
    accepted by some Python versions (time zone offsets; since 3.11 further ISO 8601 forms): an arbitrary
    function, [None] meaning that ValueError is raised.  All the theorems quantify over it. *)
Definition iso_naive (t : str) : option (str * str) :=
  if valid_date (firstn 10 t) then
    match skipn 10 t with
    | [] => Some (firstn 10 t, s "00:00:00")
    | _ :: [] => None
    | _ :: u => option_map (fun v => (firstn 10 t, v)) (iso_time u)
    end
  else None.
Definition fromiso (ext : str -> option (str * str)) (t : str) : option (str * str) :=
  match iso_naive t with Some p => Some p | None => ext t end.

Lemma valid_date_len : forall d, valid_date d = true -> length d = 10.
Proof.
  intros d H. do 10 (destruct d as [|? d]; [discriminate H|]). destruct d; [reflexivity | discriminate H].
Qed.

Lemma valid_time_len : forall d, valid_time d = true -> length d = 8.
Proof.
  intros d H. do 8 (destruct d as [|? d]; [discriminate H|]). destruct d; [reflexivity | discriminate H].
Qed.

Lemma iso_naive_date : forall t d v, iso_naive t = Some (d, v) -> valid_date d = true.
Proof.
  intros t d v H. unfold iso_naive in H. destruct (valid_date (firstn 10 t)) eqn:E; [|discriminate].
  destruct (skipn 10 t) as [|c [|c2 u]].
  - injection H as <- <-. exact E.
  - discriminate.
  - destruct (iso_time (c2 :: u)); [|discriminate]. injection H as <- <-. exact E.
Qed.

Lemma fromiso_valid : forall ext d v sep, valid_date d = true -> valid_time v = true ->
  fromiso ext (d ++ sep :: v) = Some (d, v).
Proof.
  intros ext d v sep Hd Hv. pose proof (valid_date_len d Hd) as Ld. pose proof (valid_time_len v Hv) as Lv.
  unfold fromiso, iso_naive.
  rewrite firstn_app, Ld, Nat.sub_diag, (firstn_all2 d) by lia. cbn [firstn]. rewrite app_nil_r, Hd.
  rewrite skipn_app, Ld, Nat.sub_diag, (skipn_all2 d) by lia. cbn [skipn app].
  destruct v as [|c v]; [discriminate Lv|]. unfold iso_time. rewrite Lv, Hv. reflexivity.
Qed.
