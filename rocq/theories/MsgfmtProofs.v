(** Proofs about Msgfmt.v *)
From Coq Require Import List NArith Bool Lia Arith Permutation Sorted.
From Verif Require Import PyStr PyDict Msgfmt SpecMo.
Import ListNotations.

(** ** the order of byte strings *)
Lemma bytes_ltb_spec : forall a b, bytes_ltb a b = true <-> bytes_lt a b.
Proof.
  induction a as [|x a IH]; intros [|y b]; cbn [bytes_ltb].
  - split; [discriminate | intro H; inversion H].
  - split; [intros _; constructor | reflexivity].
  - split; [discriminate | intro H; inversion H].
  - destruct (N.ltb_spec x y) as [L|L].
    + split; [intros _; apply lt_head; exact L | reflexivity].
    + destruct (N.eqb_spec x y) as [->|Hne].
      * rewrite IH. split; [apply lt_tail|]. intro H. inversion H as [|? ? ? ? L'|]; subst; [lia | assumption].
      * split; [discriminate|]. intro H. inversion H; subst; [lia | contradiction].
Qed.
Lemma bytes_lt_trans : forall a b c, bytes_lt a b -> bytes_lt b c -> bytes_lt a c.
Proof.
  intros a b c H. revert c. induction H as [y b|x y a b L|x a b H IH]; intros c H2; inversion H2; subst.
  - constructor.
  - constructor.
  - apply lt_head. lia.
  - apply lt_head. exact L.
  - apply lt_head. assumption.
  - apply lt_tail. apply IH. assumption.
Qed.
Lemma bytes_lt_total : forall a b, bytes_lt a b \/ a = b \/ bytes_lt b a.
Proof.
  induction a as [|x a IH]; intros [|y b]; [auto | left; constructor | right; right; constructor |].
  destruct (N.lt_trichotomy x y) as [H|[->|H]]; [left; apply lt_head; exact H | | right; right; apply lt_head; exact H].
  destruct (IH b) as [H|[->|H]]; [left; apply lt_tail; exact H | auto | right; right; apply lt_tail; exact H].
Qed.

Lemma insert_key_perm : forall k l, Permutation (k :: l) (insert_key k l).
Proof.
  intros k l. induction l as [|x l IH]; [apply Permutation_refl|]. cbn [insert_key]. destruct (bytes_ltb x k); [|apply Permutation_refl].
  eapply Permutation_trans; [apply perm_swap|]. apply perm_skip. exact IH.
Qed.
Lemma sorted_keys_perm : forall l, Permutation l (sorted_keys l).
Proof.
  unfold sorted_keys. induction l as [|x l IH]; [apply Permutation_refl|]. cbn [fold_right].
  eapply Permutation_trans; [apply perm_skip; exact IH | apply insert_key_perm].
Qed.
Lemma insert_key_sorted : forall k l, ~ In k l -> StronglySorted bytes_lt l -> StronglySorted bytes_lt (insert_key k l).
Proof.
  intros k l. induction l as [|x l IH]; intros Hn H; cbn [insert_key]; [constructor; constructor|].
  inversion H as [|? ? H1 H2]; subst. destruct (bytes_ltb x k) eqn:E.
  - apply bytes_ltb_spec in E. constructor; [apply IH; [intro X; apply Hn; right; exact X | exact H1]|].
    apply Forall_forall. intros y Hy. apply (Permutation_in _ (Permutation_sym (insert_key_perm k l))) in Hy. destruct Hy as [<-|Hy]; [exact E|].
    rewrite Forall_forall in H2. exact (H2 y Hy).
  - assert (L : bytes_lt k x).
    { destruct (bytes_lt_total k x) as [L|[L|L]]; [exact L | exfalso; apply Hn; left; symmetry; exact L | apply bytes_ltb_spec in L; congruence]. }
    constructor; [exact H|]. constructor; [exact L|]. apply Forall_forall. intros y Hy. rewrite Forall_forall in H2. exact (bytes_lt_trans _ _ _ L (H2 y Hy)).
Qed.
Lemma sorted_keys_sorted : forall l, NoDup l -> StronglySorted bytes_lt (sorted_keys l).
Proof.
  unfold sorted_keys. induction l as [|x l IH]; intro H; [constructor|]. inversion H; subst. cbn [fold_right]. apply insert_key_sorted; [|apply IH; assumption].
  intro X. apply (Permutation_in _ (Permutation_sym (sorted_keys_perm l))) in X. contradiction.
Qed.

(** ** words *)
Definition enc (big : bool) (l : list N) : bytes := flat_map (word_bytes big) l.
Lemma word_bytes_length : forall big n, length (word_bytes big n) = 4.
Proof. intros [|] n; reflexivity. Qed.
Lemma enc_length : forall big l, length (enc big l) = 4 * length l.
Proof. intros big l. induction l as [|n l IH]; [reflexivity|]. unfold enc in *. cbn [flat_map]. rewrite app_length, word_bytes_length, IH. cbn [length]. lia. Qed.
Lemma pack_ints_enc : forall big l b, pack_ints big l = Ok b -> b = enc big l /\ Forall (fun n => (n < 2147483648)%N) l.
Proof.
  intros big l. induction l as [|n l IH]; intros b H; cbn [pack_ints] in H.
  - injection H as <-. split; [reflexivity | constructor].
  - apply bind_ok in H as (a & Ha & H). apply bind_ok in H as (c & Hc & H). injection H as <-.
    unfold pack_int in Ha. destruct (N.ltb_spec n 2147483648) as [L|]; [|discriminate]. injection Ha as <-.
    destruct (IH c Hc) as [-> F]. split; [reflexivity | constructor; assumption].
Qed.
Lemma enc_pack_ints : forall big l, Forall (fun n => (n < 2147483648)%N) l -> pack_ints big l = Ok (enc big l).
Proof.
  intros big l H. induction H as [|n l L H IH]; [reflexivity|]. cbn [pack_ints]. unfold pack_int. destruct (N.ltb_spec n 2147483648); [|lia].
  cbn [bind]. rewrite IH. reflexivity.
Qed.
Lemma word_value : forall n, (n < 4294967296)%N ->
  (n mod 256 + 256 * ((n / 256) mod 256) + 65536 * ((n / 65536) mod 256) + 16777216 * ((n / 16777216) mod 256))%N = n.
Proof.
  intros n H.
  replace (n / 65536)%N with (n / 256 / 256)%N by (rewrite N.div_div by discriminate; reflexivity).
  replace (n / 16777216)%N with (n / 256 / 256 / 256)%N by (rewrite !N.div_div by discriminate; reflexivity).
  pose proof (N.div_mod n 256 ltac:(discriminate)) as E0. pose proof (N.div_mod (n / 256) 256 ltac:(discriminate)) as E1.
  pose proof (N.div_mod (n / 256 / 256) 256 ltac:(discriminate)) as E2.
  assert (E3 : ((n / 256 / 256 / 256) mod 256 = n / 256 / 256 / 256)%N).
  { apply N.mod_small. rewrite !N.div_div by discriminate. apply N.div_lt_upper_bound; [discriminate | exact H]. }
  rewrite E3. lia.
Qed.
Lemma word_at_bytes : forall (big : bool) n (rest : list N), (n < 4294967296)%N -> (if big then be_word else le_word) (word_bytes big n ++ rest) = Some n.
Proof. intros [|] n rest H; cbn [word_bytes rev app be_word le_word]; f_equal; apply word_value; exact H. Qed.

Lemma skipn_enc : forall big l i rest, i <= length l -> skipn (4 * i) (enc big l ++ rest) = enc big (skipn i l) ++ rest.
Proof.
  intros big l i rest. revert l. induction i as [|i IH]; intros l H; [reflexivity|]. destruct l as [|n l]; [cbn in H; lia|].
  unfold enc at 1. cbn [flat_map skipn]. rewrite <- app_assoc. replace (4 * S i) with (4 + 4 * i) by lia.
  rewrite skipn_app, word_bytes_length. rewrite skipn_all2 by (rewrite word_bytes_length; lia). cbn [app]. replace (4 + 4 * i - 4) with (4 * i) by lia.
  apply IH. cbn in H. lia.
Qed.
Lemma word_at_enc : forall big l rest i off n, nth_error l i = Some n -> (n < 4294967296)%N -> off = N.of_nat (4 * i) ->
  word_at big (enc big l ++ rest) off = Some n.
Proof.
  intros big l rest i off n H L ->. unfold word_at. rewrite Nnat.Nat2N.id.
  assert (Hi : i < length l) by (apply nth_error_Some; congruence). rewrite skipn_enc by lia.
  apply nth_error_split in H as (a & b & -> & Ha). rewrite skipn_app, <- Ha, Nat.sub_diag, skipn_all. cbn [app skipn]. unfold enc. cbn [flat_map]. rewrite <- app_assoc.
  apply word_at_bytes. exact L.
Qed.

Lemma string_at_spec : forall a k b len off, len = N.of_nat (length k) -> off = N.of_nat (length a) -> string_at (a ++ k ++ 0%N :: b) len off = Some k.
Proof.
  intros a k b len off -> ->. unfold string_at. rewrite !Nnat.Nat2N.id, skipn_app, skipn_all, Nat.sub_diag. cbn [app skipn]. rewrite nth_error_app2 by lia.
  rewrite Nat.sub_diag. cbn [nth_error]. rewrite firstn_app, firstn_all, Nat.sub_diag. cbn [firstn]. rewrite app_nil_r. reflexivity.
Qed.

Lemma nth_flat2 : forall {A} (f g : A -> N) l i, nth_error (flat_map (fun o => [f o; g o]) l) (2 * i) = option_map f (nth_error l i) /\
  nth_error (flat_map (fun o => [f o; g o]) l) (2 * i + 1) = option_map g (nth_error l i).
Proof.
  intros A f g l. induction l as [|o l IH]; intros i.
  - split; destruct i; reflexivity.
  - destruct i as [|i]; [split; reflexivity|]. replace (2 * S i) with (S (S (2 * i))) by lia. cbn [flat_map app nth_error Nat.add]. apply IH.
Qed.
Lemma len_flat2 : forall {A} (f g : A -> N) l, length (flat_map (fun o => [f o; g o]) l) = 2 * length l.
Proof. intros. induction l as [|o l IH]; [reflexivity|]. cbn [flat_map app length]. rewrite IH. lia. Qed.

Lemma all_some_seq : forall {A} (P : list A) f, (forall i p, nth_error P i = Some p -> f i = Some p) -> all_some (map f (seq 0 (length P))) = Some P.
Proof.
  intros A P f H. assert (G : forall Q n, (forall i p, nth_error Q i = Some p -> f (n + i) = Some p) -> all_some (map f (seq n (length Q))) = Some Q).
  { induction Q as [|q Q IH]; intros n HQ; [reflexivity|]. cbn [length seq map all_some]. rewrite <- (Nat.add_0_r n) at 1. rewrite (HQ 0 q eq_refl).
    rewrite (IH (S n)); [reflexivity|]. intros i p Hp. replace (S n + i) with (n + S i) by lia. apply HQ. exact Hp. }
  apply (G P 0). exact H.
Qed.

(** ** the tables *)
Definition Inv (P : list (bytes * bytes)) (t : tables) : Prop :=
  length (offs t) = length P /\
  forall i k v, nth_error P i = Some (k, v) -> exists a b c d,
    nth_error (offs t) i = Some (blen a, blen k, blen c, blen v) /\ ids t = a ++ k ++ 0%N :: b /\ strs t = c ++ v ++ 0%N :: d.
Lemma add_entry_inv : forall m P t id t', Inv P t -> add_entry m t id = Ok t' -> exists v, dget id m = Some v /\ Inv (P ++ [(id, v)]) t'.
Proof.
  intros m P t id t' [HL H] E. unfold add_entry, dindex in E. destruct (dget id m) as [v|]; [|discriminate]. injection E as <-.
  exists v. split; [reflexivity|]. split; [cbn; rewrite !app_length, HL; reflexivity|].
  intros i k w Hi. cbn [offs ids strs]. destruct (Nat.lt_ge_cases i (length P)) as [L|L].
  - rewrite nth_error_app1 in Hi by exact L. destruct (H i k w Hi) as (a & b & c & d & H1 & H2 & H3).
    exists a, (b ++ id ++ [0%N]), c, (d ++ v ++ [0%N]). rewrite nth_error_app1 by (rewrite HL; exact L). split; [exact H1|].
    rewrite H2, H3. rewrite <- !app_assoc. split; reflexivity.
  - rewrite nth_error_app2 in Hi by exact L. destruct (i - length P) as [|j] eqn:Ej; [|destruct j; discriminate]. injection Hi as <- <-.
    exists (ids t), [], (strs t), []. rewrite nth_error_app2 by (rewrite HL; exact L). rewrite HL, Ej. repeat split.
Qed.
Lemma fold_inv : forall m keys t P t', Inv P t -> foldM (add_entry m) keys t = Ok t' ->
  exists Q, map fst Q = keys /\ (forall k v, In (k, v) Q -> dget k m = Some v) /\ Inv (P ++ Q) t'.
Proof.
  intros m keys. induction keys as [|k keys IH]; intros t P t' H E; cbn [foldM] in E.
  - injection E as <-. exists []. rewrite app_nil_r. split; [reflexivity|]. split; [intros k v [] | exact H].
  - apply bind_ok in E as (t1 & E1 & E). destruct (add_entry_inv _ _ _ _ _ H E1) as (v & Hv & H1).
    destruct (IH _ _ _ H1 E) as (Q & HQ1 & HQ2 & HQ3). exists ((k, v) :: Q). rewrite <- app_assoc in HQ3. split; [cbn; now rewrite HQ1|]. split; [|exact HQ3].
    intros k0 v0 [X|X]; [injection X as <- <-; exact Hv | exact (HQ2 _ _ X)].
Qed.
Lemma fold_ok : forall m keys t, (forall k, In k keys -> In k (dkeys m)) -> exists t', foldM (add_entry m) keys t = Ok t'.
Proof.
  intros m keys. induction keys as [|k keys IH]; intros t H; [exists t; reflexivity|]. cbn [foldM].
  destruct (proj1 (dget_Some_key k m) (H k (or_introl eq_refl))) as [v Hv].
  unfold add_entry at 1, dindex. rewrite Hv. cbn [bind]. apply IH. intros k0 H0. apply H. right. exact H0.
Qed.

Lemma pairs_perm : forall (m : dict bytes) keys (Q : list (bytes * bytes)), NoDup (dkeys m) -> Permutation (dkeys m) keys -> map fst Q = keys ->
  (forall k v, In (k, v) Q -> dget k m = Some v) -> Permutation m Q.
Proof.
  intros m keys Q ND HP HK HQ. set (f := fun k : bytes => (k, match dget k m with Some v => v | None => [] end)).
  assert (E1 : Q = map f keys).
  { rewrite <- HK, map_map. rewrite <- (map_id Q) at 1. apply map_ext_in. intros [k v] H. cbn. unfold f. rewrite (HQ k v H). reflexivity. }
  assert (E2 : m = map f (dkeys m)).
  { unfold dkeys. rewrite map_map. rewrite <- (map_id m) at 1. apply map_ext_in. intros [k v] H. cbn. unfold f. rewrite (In_dget k v m ND H). reflexivity. }
  rewrite E1. rewrite E2 at 1. apply Permutation_map. exact HP.
Qed.

Definition words (nk ks vs : N) (o : list (N * N * N * N)) : list N :=
  [2500072158; 0; nk; 28; (28 + nk * 8); 0; 0]%N ++
  flat_map (fun o => match o with (o1, l1, o2, l2) => [l1; (o1 + ks)%N] end) o ++
  flat_map (fun o => match o with (o1, l1, o2, l2) => [l2; (o2 + vs)%N] end) o.

Lemma flat_map_pairs : forall (o : list (N * N * N * N)) ks vs,
  flat_map (fun o => match o with (o1, l1, o2, l2) => [l1; (o1 + ks)%N] end) o = flat_map (fun o => [snd (fst (fst o)); (fst (fst (fst o)) + ks)%N]) o /\
  flat_map (fun o => match o with (o1, l1, o2, l2) => [l2; (o2 + vs)%N] end) o = flat_map (fun o => [snd o; (snd (fst o) + vs)%N]) o.
Proof. intros. split; apply flat_map_ext; intros [[[a b] c] d]; reflexivity. Qed.

Lemma read_words : forall big P nk ks vs o idb strb,
  nk = N.of_nat (length P) -> ks = (28 + 16 * nk)%N -> vs = (ks + blen idb)%N -> length o = length P ->
  Forall (fun n => (n < 4294967296)%N) (words nk ks vs o) ->
  (forall i k v, nth_error P i = Some (k, v) -> exists a b c d,
    nth_error o i = Some (blen a, blen k, blen c, blen v) /\ idb = a ++ k ++ 0%N :: b /\ strb = c ++ v ++ 0%N :: d) ->
  read_mo (enc big (words nk ks vs o) ++ idb ++ strb) = Some P.
Proof.
  intros big P nk ks vs o idb strb Hnk Hks Hvs Ho HF HP. remember (words nk ks vs o) as W eqn:HW.
  assert (HWl : length W = 7 + 4 * length P).
  { rewrite HW. unfold words. destruct (flat_map_pairs o ks vs) as [-> ->]. rewrite !app_length, !len_flat2, Ho. cbn [length]. lia. }
  assert (HE : length (enc big W) = 28 + 16 * length P) by (rewrite enc_length, HWl; lia).
  assert (RD : forall i n off, nth_error W i = Some n -> off = N.of_nat (4 * i) -> word_at big (enc big W ++ idb ++ strb) off = Some n).
  { intros i n off H E. apply (word_at_enc big W (idb ++ strb) i off n H); [|exact E]. rewrite Forall_forall in HF. apply HF. exact (nth_error_In _ _ H). }
  assert (BO : byte_order (enc big W ++ idb ++ strb) = Some big) by (rewrite HW; destruct big; reflexivity).
  unfold read_mo. rewrite BO.
  rewrite (RD 1 0%N 4%N) by (try rewrite HW; reflexivity). rewrite (RD 2 nk 8%N) by (try rewrite HW; reflexivity).
  rewrite (RD 3 28%N 12%N) by (try rewrite HW; reflexivity). rewrite (RD 4 (28 + nk * 8)%N 16%N) by (try rewrite HW; reflexivity).
  rewrite Hnk, Nnat.Nat2N.id. apply all_some_seq. intros i [k v] Hi.
  destruct (HP i k v Hi) as (a & b & c & d & H1 & H2 & H3).
  assert (Li : i < length P) by (apply nth_error_Some; intro X; discriminate (eq_trans (eq_sym X) Hi)).
  destruct (flat_map_pairs o ks vs) as [FK FV].
  set (fk := fun o : N * N * N * N => snd (fst (fst o))) in *. set (gk := fun o : N * N * N * N => (fst (fst (fst o)) + ks)%N) in *.
  set (fv := fun o : N * N * N * N => snd o) in *. set (gv := fun o : N * N * N * N => (snd (fst o) + vs)%N) in *.
  assert (HW' : W = [2500072158; 0; nk; 28; (28 + nk * 8); 0; 0]%N ++ flat_map (fun o => [fk o; gk o]) o ++ flat_map (fun o => [fv o; gv o]) o)
    by (rewrite HW; unfold words; rewrite FK, FV; reflexivity).
  destruct (nth_flat2 fk gk o i) as [K1 K2]. destruct (nth_flat2 fv gv o i) as [V1 V2]. rewrite H1 in K1, K2, V1, V2. cbn [option_map] in *.
  assert (LK : length (flat_map (fun o => [fk o; gk o]) o) = 2 * length P) by (rewrite len_flat2, Ho; reflexivity).
  assert (N1 : nth_error W (7 + 2 * i) = Some (blen k)).
  { rewrite HW', nth_error_app2 by (cbn [length]; lia). cbn [length]. replace (7 + 2 * i - 7) with (2 * i) by lia. rewrite nth_error_app1 by lia. exact K1. }
  assert (N2 : nth_error W (7 + (2 * i + 1)) = Some (blen a + ks)%N).
  { rewrite HW', nth_error_app2 by (cbn [length]; lia). cbn [length]. replace (7 + (2 * i + 1) - 7) with (2 * i + 1) by lia. rewrite nth_error_app1 by lia. exact K2. }
  assert (N3 : nth_error W (7 + 2 * length P + 2 * i) = Some (blen v)).
  { rewrite HW', nth_error_app2 by (cbn [length]; lia). cbn [length]. rewrite nth_error_app2 by lia. rewrite LK. replace (7 + 2 * length P + 2 * i - 7 - 2 * length P) with (2 * i) by lia. exact V1. }
  assert (N4 : nth_error W (7 + 2 * length P + (2 * i + 1)) = Some (blen c + vs)%N).
  { rewrite HW', nth_error_app2 by (cbn [length]; lia). cbn [length]. rewrite nth_error_app2 by lia. rewrite LK. replace (7 + 2 * length P + (2 * i + 1) - 7 - 2 * length P) with (2 * i + 1) by lia. exact V2. }
  assert (A1 : entry_at big (enc big W ++ idb ++ strb) 28 i = Some k).
  { unfold entry_at. rewrite (RD _ _ (28 + 8 * N.of_nat i)%N N1) by lia. rewrite (RD _ _ (28 + 8 * N.of_nat i + 4)%N N2) by lia.
    rewrite H2. replace (enc big W ++ (a ++ k ++ 0%N :: b) ++ strb) with ((enc big W ++ a) ++ k ++ 0%N :: (b ++ strb)) by (rewrite <- !app_assoc; reflexivity).
    apply string_at_spec; [reflexivity|]. rewrite app_length, HE. unfold blen. lia. }
  assert (A2 : entry_at big (enc big W ++ idb ++ strb) (28 + nk * 8) i = Some v).
  { unfold entry_at. rewrite (RD _ _ (28 + nk * 8 + 8 * N.of_nat i)%N N3) by lia. rewrite (RD _ _ (28 + nk * 8 + 8 * N.of_nat i + 4)%N N4) by lia.
    rewrite H3. replace (enc big W ++ idb ++ c ++ v ++ 0%N :: d) with ((enc big W ++ idb ++ c) ++ v ++ 0%N :: d) by (rewrite <- !app_assoc; reflexivity).
    apply string_at_spec; [reflexivity|]. rewrite !app_length, HE. unfold blen in *. lia. }
  rewrite <- Hnk, A1, A2. reflexivity.
Qed.

Theorem generate_spec : forall big m file, NoDup (dkeys m) -> generate big m = Ok file ->
  exists l, read_mo file = Some l /\ Permutation m l /\ StronglySorted bytes_lt (map fst l).
Proof.
  intros big m file ND H. unfold generate in H. apply bind_ok in H as (t & Ht & H). cbv zeta in H.
  apply bind_ok in H as (hd & Hhd & H). apply bind_ok in H as (ix & Hix & H). injection H as <-.
  assert (I0 : Inv [] {| offs := []; ids := []; strs := [] |}) by (split; [reflexivity | intros [|i] k v X; discriminate X]).
  destruct (fold_inv m _ _ [] t I0 Ht) as (Q & HK & HG & HL & HI).
  cbn [app] in *. exists Q. apply pack_ints_enc in Hhd as [-> F1]. apply pack_ints_enc in Hix as [-> F2]. split; [|split].
  - assert (EL : length (sorted_keys (dkeys m)) = length Q) by (rewrite <- HK, map_length; reflexivity). rewrite EL in *.
    set (nk := N.of_nat (length Q)) in *. set (ks := (7 * 4 + 16 * nk)%N) in *. set (vs := (ks + blen (ids t))%N) in *.
    replace (word_bytes big 2500072158 ++ enc big [0%N; nk; (7 * 4)%N; (7 * 4 + nk * 8)%N; 0%N; 0%N] ++ _ ++ ids t ++ strs t)
      with (enc big (words nk ks vs (offs t)) ++ ids t ++ strs t).
    + apply read_words; try reflexivity; [exact HL | | exact HI].
      unfold words. apply Forall_app. split; [|apply Forall_impl with (2 := F2); intros x Hx; lia].
      assert (F1' : Forall (fun n => (n < 4294967296)%N) [0%N; nk; (7 * 4)%N; (7 * 4 + nk * 8)%N; 0%N; 0%N]) by (apply Forall_impl with (2 := F1); intros x Hx; lia).
      constructor; [reflexivity | exact F1'].
    + unfold words, enc. rewrite !flat_map_app. cbn [flat_map]. rewrite <- !app_assoc. reflexivity.
  - exact (pairs_perm m _ Q ND (sorted_keys_perm (dkeys m)) HK HG).
  - pose proof (sorted_keys_sorted _ ND) as S. rewrite <- HK in S. exact S.
Qed.

(** ** success *)
Definition strings_size (l : list (bytes * bytes)) : nat := list_sum (map (fun p => length (fst p) + 1 + (length (snd p) + 1)) l).
Lemma strings_size_perm : forall l l', Permutation l l' -> strings_size l = strings_size l'.
Proof. intros l l' H. unfold strings_size. induction H; cbn [map list_sum fold_right] in *; unfold list_sum in *; cbn [fold_right]; lia. Qed.
Lemma strings_size_snoc : forall P k v, strings_size (P ++ [(k, v)]) = strings_size P + (length k + 1 + (length v + 1)).
Proof. intros. unfold strings_size. rewrite map_app, list_sum_app. f_equal. cbn [map list_sum fold_right fst snd]. apply Nat.add_0_r. Qed.
Definition Len (P : list (bytes * bytes)) (t : tables) : Prop := length (ids t) + length (strs t) = strings_size P.
Lemma fold_len : forall m keys t P t', Len P t -> foldM (add_entry m) keys t = Ok t' ->
  exists Q, map fst Q = keys /\ (forall k v, In (k, v) Q -> dget k m = Some v) /\ Len (P ++ Q) t'.
Proof.
  intros m keys. induction keys as [|k keys IH]; intros t P t' H E; cbn [foldM] in E.
  - injection E as <-. exists []. rewrite app_nil_r. split; [reflexivity|]. split; [intros k v [] | exact H].
  - apply bind_ok in E as (t1 & E1 & E). unfold add_entry, dindex in E1. destruct (dget k m) as [v|] eqn:Hv; [|discriminate]. injection E1 as <-.
    assert (H1 : Len (P ++ [(k, v)]) {| offs := offs t ++ [(blen (ids t), blen k, blen (strs t), blen v)]; ids := ids t ++ k ++ [0%N]; strs := strs t ++ v ++ [0%N] |}).
    { unfold Len in *. cbn [ids strs]. rewrite strings_size_snoc, <- H. rewrite !app_length. cbn. lia. }
    destruct (IH _ _ _ H1 E) as (Q & HQ1 & HQ2 & HQ3). exists ((k, v) :: Q). rewrite <- app_assoc in HQ3. split; [cbn; now rewrite HQ1|]. split; [|exact HQ3].
    intros k0 v0 [X|X]; [injection X as <- <-; exact Hv | exact (HQ2 _ _ X)].
Qed.
Theorem generate_succeeds : forall big m, NoDup (dkeys m) -> (N.of_nat (28 + 16 * length m + strings_size m) < 2147483648)%N ->
  exists file, generate big m = Ok file.
Proof.
  intros big m ND HS.
  assert (HKs : forall k, In k (sorted_keys (dkeys m)) -> In k (dkeys m)) by (intros k; apply Permutation_in, Permutation_sym, sorted_keys_perm).
  destruct (fold_ok m _ {| offs := []; ids := []; strs := [] |} HKs) as [t Ht].
  unfold generate. rewrite Ht. cbn [bind]. cbv zeta.
  assert (I0 : Inv [] {| offs := []; ids := []; strs := [] |}) by (split; [reflexivity | intros [|i] k v X; discriminate X]).
  destruct (fold_inv m _ _ [] t I0 Ht) as (Q & HK & HG & HL & HI).
  destruct (fold_len m _ _ [] t (eq_refl : Len [] {| offs := []; ids := []; strs := [] |}) Ht) as (Q' & HK' & HG' & HLen). cbn [app] in *.
  pose proof (pairs_perm m _ Q' ND (sorted_keys_perm (dkeys m)) HK' HG') as HP'. unfold Len in HLen. rewrite <- (strings_size_perm _ _ HP') in HLen.
  pose proof (pairs_perm m _ Q ND (sorted_keys_perm (dkeys m)) HK HG) as HP.
  assert (EL : length (sorted_keys (dkeys m)) = length m) by (rewrite <- (Permutation_length (sorted_keys_perm (dkeys m))); unfold dkeys; apply map_length).
  rewrite EL. pose proof (Permutation_length HP) as HLm.
  rewrite enc_pack_ints; [cbn [bind]|].
  2:{ repeat constructor; lia. }
  rewrite enc_pack_ints; [cbn [bind]; eexists; reflexivity|].
  assert (B : forall o1 l1 o2 l2, In (o1, l1, o2, l2) (offs t) -> (o1 <= blen (ids t) /\ l1 <= blen (ids t) /\ o2 <= blen (strs t) /\ l2 <= blen (strs t))%N).
  { intros o1 l1 o2 l2 H. apply In_nth_error in H as [i Hi].
    assert (Li : i < length Q) by (rewrite <- HL; apply nth_error_Some; intro X; rewrite X in Hi; discriminate).
    destruct (nth_error Q i) as [[k v]|] eqn:E; [|apply nth_error_None in E; lia]. destruct (HI i k v E) as (a & b & c & d & H1 & H2 & H3). rewrite H1 in Hi. injection Hi as <- <- <- <-.
    unfold blen. rewrite H2, H3, !app_length. cbn [length]. lia. }
  apply Forall_app. split; apply Forall_forall; intros x Hx; apply in_flat_map in Hx as ([[[o1 l1] o2] l2] & Ho & Hx); apply B in Ho; unfold blen in *;
    destruct Hx as [<-|[<-|[]]]; lia.
Qed.
