(** Proof library: octet/integer conversions, writers ([emits]) and readers. No
    definition here is part of the model; [emits]/[runs] are proof notions only. *)
From Coq Require Import List Arith NArith ZArith Bool String Lia ZifyBool ZifyNat ZifyN.
From Verif Require Import ByteCrate Types CcmModel Spec.
Import ListNotations.
Open Scope N_scope.
Ltac Zify.zify_post_hook ::= Z.div_mod_to_equations.

(** * Lists *)

Lemma firstn_app_exact {A} (a b : list A) : firstn (List.length a) (a ++ b) = a.
Proof. rewrite firstn_app, firstn_all, Nat.sub_diag. cbn. apply app_nil_r. Qed.
Lemma skipn_app_exact {A} (a b : list A) : skipn (List.length a) (a ++ b) = b.
Proof. rewrite skipn_app, skipn_all, Nat.sub_diag. reflexivity. Qed.
Lemma firstn_app_exact' {A} n (a b : list A) : n = List.length a -> firstn n (a ++ b) = a.
Proof. intros ->; apply firstn_app_exact. Qed.
Lemma skipn_app_exact' {A} n (a b : list A) : n = List.length a -> skipn n (a ++ b) = b.
Proof. intros ->; apply skipn_app_exact. Qed.
Lemma skipn_skipn' {A} a b (l : list A) : skipn a (skipn b l) = skipn (b + a) l.
Proof.
  revert l; induction b as [|b IH]; intros l; [reflexivity|].
  destruct l as [|x l]; cbn [skipn Nat.add]; [apply skipn_nil|apply IH].
Qed.
Lemma firstn_add {A} a b (l : list A) : firstn (a + b) l = firstn a l ++ firstn b (skipn a l).
Proof.
  revert l; induction a as [|a IH]; intros l; [reflexivity|].
  destruct l as [|x l]; cbn [skipn Nat.add firstn app]; [now rewrite firstn_nil|].
  now rewrite IH.
Qed.

Definition slice (bs : list N) (a b : nat) : list N := firstn (b - a) (skipn a bs).
Lemma slice_app bs a b c : (a <= b)%nat -> (b <= c)%nat ->
  slice bs a b ++ slice bs b c = slice bs a c.
Proof.
  intros Hab Hbc. unfold slice.
  replace (c - a)%nat with ((b - a) + (c - b))%nat by lia.
  rewrite firstn_add, skipn_skipn'. do 3 f_equal. lia.
Qed.
Lemma slice_length bs a b : (a <= b)%nat -> (b <= List.length bs)%nat ->
  List.length (slice bs a b) = (b - a)%nat.
Proof. intros. unfold slice. rewrite firstn_length, skipn_length. lia. Qed.
Lemma slice_0 bs n : slice bs 0 n = firstn n bs.
Proof. unfold slice. now rewrite Nat.sub_0_r. Qed.
Lemma slice_nil bs a : slice bs a a = [].
Proof. unfold slice. now rewrite Nat.sub_diag. Qed.

(** * Octets *)

Lemma octets_nil : octets [].
Proof. constructor. Qed.
Lemma octets_app a b : octets (a ++ b) <-> octets a /\ octets b.
Proof. apply Forall_app. Qed.
Lemma octets_cons x a : octets (x :: a) <-> x < 256 /\ octets a.
Proof. apply Forall_cons_iff. Qed.
Lemma octets_firstn n a : octets a -> octets (firstn n a).
Proof. intros H. rewrite <- (firstn_skipn n a) in H. now apply octets_app in H. Qed.
Lemma octets_skipn n a : octets a -> octets (skipn n a).
Proof. intros H. rewrite <- (firstn_skipn n a) in H. now apply octets_app in H. Qed.
Lemma octets_slice bs a b : octets bs -> octets (slice bs a b).
Proof. intros. now apply octets_firstn, octets_skipn. Qed.
Lemma octets_rev a : octets a -> octets (rev a).
Proof. apply Forall_rev. Qed.
Lemma octets_repeat0 n : octets (repeat 0 n).
Proof. induction n; cbn; constructor; [lia|assumption]. Qed.

(** * Integers *)

Lemma le_bytes_le n v : le_bytes n v = le n v.
Proof.
  revert v; induction n as [|n IH]; intros v; [reflexivity|].
  cbn [le_bytes]. rewrite IH. unfold le.
  cbn [List.seq map]. f_equal.
  - cbn. now rewrite N.div_1_r.
  - rewrite <- seq_shift, map_map. apply map_ext. intros i.
    rewrite Nat2N.inj_succ, N.pow_succ_r', N.div_div by (try apply N.pow_nonzero; lia).
    reflexivity.
Qed.
Lemma num_bytes_spec e n v : num_bytes e n v = in_order e n v.
Proof. destruct e; cbn; unfold be; now rewrite le_bytes_le. Qed.
Lemma le_length n v : List.length (le n v) = n.
Proof. unfold le. now rewrite map_length, seq_length. Qed.
Lemma be_length n v : List.length (be n v) = n.
Proof. unfold be. now rewrite rev_length, le_length. Qed.
Lemma in_order_length e n v : List.length (in_order e n v) = n.
Proof. destruct e; [apply le_length|apply be_length]. Qed.
Lemma octets_le n v : octets (le n v).
Proof. apply Forall_forall. intros x Hx. apply in_map_iff in Hx. destruct Hx as (i & <- & _). lia. Qed.
Lemma octets_in_order e n v : octets (in_order e n v).
Proof. destruct e; [|apply octets_rev]; apply octets_le. Qed.

Lemma le_S n v : le (S n) v = v mod 256 :: le n (v / 256).
Proof. now rewrite <- !le_bytes_le. Qed.
Lemma le_0 v : le 0 v = [].
Proof. reflexivity. Qed.
Lemma le_val_le n v : le_val (le n v) = v mod 256 ^ N.of_nat n.
Proof.
  revert v; induction n as [|n IH]; intros v.
  - now rewrite N.mod_1_r.
  - rewrite le_S. cbn [le_val]. rewrite IH, Nat2N.inj_succ, N.pow_succ_r'.
    rewrite N.mod_mul_r by (try apply N.pow_nonzero; lia). reflexivity.
Qed.
Lemma le_val_small n v : v < 256 ^ N.of_nat n -> le_val (le n v) = v.
Proof. intros. rewrite le_val_le. now apply N.mod_small. Qed.
Lemma le_le_val bs : octets bs -> le (List.length bs) (le_val bs) = bs.
Proof.
  induction bs as [|b r IH]; intros H; [reflexivity|].
  apply octets_cons in H. destruct H as [Hb Hr].
  cbn [List.length le_val]. rewrite le_S. f_equal; [lia|].
  replace ((b + 256 * le_val r) / 256) with (le_val r) by lia. auto.
Qed.
Lemma le_val_bound bs : octets bs -> le_val bs < 256 ^ N.of_nat (List.length bs).
Proof.
  induction bs as [|b r IH]; intros H; [cbn; lia|].
  apply octets_cons in H. destruct H as [Hb Hr]. specialize (IH Hr).
  cbn [List.length le_val]. rewrite Nat2N.inj_succ, N.pow_succ_r'. lia.
Qed.
Lemma num_val_in_order e n v : v < 256 ^ N.of_nat n -> num_val e (in_order e n v) = v.
Proof.
  destruct e; cbn; [apply le_val_small|]. unfold be. rewrite rev_involutive. apply le_val_small.
Qed.
Lemma in_order_num_val e bs n : octets bs -> List.length bs = n ->
  in_order e n (num_val e bs) = bs.
Proof.
  intros Hb <-. destruct e; cbn; [now apply le_le_val|].
  unfold be. rewrite <- (rev_length bs).
  rewrite le_le_val by now apply octets_rev. apply rev_involutive.
Qed.
Lemma num_val_bound e bs n : octets bs -> List.length bs = n -> num_val e bs < 256 ^ N.of_nat n.
Proof.
  intros Hb <-. destruct e; cbn; [now apply le_val_bound|].
  rewrite <- (rev_length bs). apply le_val_bound. now apply octets_rev.
Qed.

(** Bit operations as arithmetic. *)
Lemma land_ones_mod a k : N.land a (N.ones k) = a mod 2 ^ k.
Proof. apply N.land_ones. Qed.
Lemma shiftr_land_field w mask off k :
  N.shiftr mask off = N.ones k -> N.shiftr (N.land w mask) off = w / 2 ^ off mod 2 ^ k.
Proof.
  intros H. rewrite N.shiftr_land, H, N.land_ones, N.shiftr_div_pow2. reflexivity.
Qed.
Lemma lor_add a b k : a < 2 ^ k -> N.lor a (b * 2 ^ k) = a + b * 2 ^ k.
Proof.
  intros Ha.
  assert (Hd : N.land a (b * 2 ^ k) = 0).
  { apply N.bits_inj. intros i. rewrite N.land_spec, N.bits_0.
    destruct (N.ltb_spec i k) as [Hi|Hi].
    - now rewrite N.mul_pow2_bits_low, andb_false_r by assumption.
    - destruct (N.eq_dec a 0) as [->|Hz]; [now rewrite N.bits_0|].
      rewrite (N.bits_above_log2 a i); [reflexivity|].
      apply N.log2_lt_pow2 in Ha; lia. }
  rewrite <- N.lxor_lor by assumption. symmetry. now apply N.add_nocarry_lxor.
Qed.

(** Exhaustive check over octets. *)
Definition all_octets : list N := map N.of_nat (List.seq 0 256).
Lemma all_octets_in b : b < 256 -> In b all_octets.
Proof.
  intros H. unfold all_octets. rewrite <- (N2Nat.id b). apply in_map.
  apply in_seq. lia.
Qed.
Lemma octet_sweep (P : N -> bool) : forallb P all_octets = true -> forall b, b < 256 -> P b = true.
Proof. intros H b Hb. rewrite forallb_forall in H. apply H. now apply all_octets_in. Qed.

(** * Writers *)

Definition result_of (st : bres unit) (n : nat) : bres nat :=
  match st with Ok _ => Ok n | Err e => Err e | Panic => Panic end.

(** The writer [w] puts exactly [bs] at the start of the slice and then ends with [st]; when
    the slice is shorter than [bs] it reports Incomplete having put some prefix of [bs]. *)
Definition emits (w : writer) (bs : list N) (st : bres unit) : Prop :=
  forall buf,
    ((List.length bs <= List.length buf)%nat ->
       w buf = (result_of st (List.length bs), bs ++ skipn (List.length bs) buf)) /\
    ((List.length buf < List.length bs)%nat ->
       exists k, (k <= List.length buf)%nat /\
         w buf = (Err Incomplete, firstn k bs ++ skipn k buf)).

(** Same for a writer body started at some offset. *)
Definition runs (m : wm unit) (bs : list N) (st : bres unit) : Prop :=
  forall buf off, (off <= List.length buf)%nat ->
    ((off + List.length bs <= List.length buf)%nat ->
       exists off', (st = Ok tt -> off' = (off + List.length bs)%nat) /\
         m (buf, off) =
         (st, (firstn off buf ++ bs ++ skipn (off + List.length bs) buf, off'))) /\
    ((List.length buf < off + List.length bs)%nat ->
       exists k off', (off + k <= List.length buf)%nat /\
         m (buf, off) =
         (Err Incomplete, (firstn off buf ++ firstn k bs ++ skipn (off + k) buf, off'))).

Lemma runs_ret : runs (wret tt) [] (Ok tt).
Proof.
  intros buf off Hoff. cbn [List.length]. rewrite Nat.add_0_r. split; intros H; [|lia].
  exists off. split; [reflexivity|]. cbn. now rewrite firstn_skipn.
Qed.
Lemma runs_err e : runs (werr e) [] (Err e).
Proof.
  intros buf off Hoff. cbn [List.length]. rewrite Nat.add_0_r. split; intros H; [|lia].
  exists off. split; [reflexivity|]. cbn. now rewrite firstn_skipn.
Qed.
Lemma runs_panic : runs wpanic [] Panic.
Proof.
  intros buf off Hoff. cbn [List.length]. rewrite Nat.add_0_r. split; intros H; [|lia].
  exists off. split; [reflexivity|]. cbn. now rewrite firstn_skipn.
Qed.

Lemma runs_write w bs st : emits w bs st -> runs (write_with w) bs st.
Proof.
  intros Hw buf off Hoff. unfold write_with.
  replace (List.length buf <? off)%nat with false by lia.
  destruct (Hw (skipn off buf)) as [H1 H2]. rewrite skipn_length in H1, H2. split.
  - intros H. rewrite H1 by lia. rewrite skipn_skipn'.
    destruct st as [[]|e|]; cbn [result_of]; eexists; (split; [intros He; try discriminate He; reflexivity|reflexivity]).
  - intros H. destruct H2 as (k & Hk & E); [lia|]. rewrite E, skipn_skipn'.
    exists k, off. split; [lia|reflexivity].
Qed.

Lemma runs_seq m k b1 b2 st : runs m b1 (Ok tt) -> runs k b2 st -> runs (m >> k) (b1 ++ b2) st.
Proof.
  intros Hm Hk buf off Hoff. unfold wseq, wbind. rewrite app_length.
  destruct (Hm buf off Hoff) as [M1 M2].
  destruct (Nat.le_gt_cases (off + List.length b1) (List.length buf)) as [Hb|Hb].
  - destruct (M1 Hb) as (o1 & Ho1 & E1). rewrite E1. specialize (Ho1 eq_refl). subst o1.
    set (buf1 := firstn off buf ++ b1 ++ skipn (off + List.length b1) buf).
    assert (L1 : List.length buf1 = List.length buf).
    { unfold buf1. rewrite !app_length, firstn_length, skipn_length. lia. }
    assert (F1 : firstn (off + List.length b1) buf1 = firstn off buf ++ b1).
    { unfold buf1. rewrite app_assoc. apply firstn_app_exact'.
      rewrite app_length, firstn_length. lia. }
    assert (S1 : forall n, skipn (off + List.length b1 + n) buf1
                           = skipn (off + List.length b1 + n) buf).
    { intros n. rewrite <- (skipn_skipn' n (off + List.length b1) buf1).
      rewrite <- (skipn_skipn' n (off + List.length b1) buf). f_equal.
      unfold buf1. rewrite app_assoc. apply skipn_app_exact'.
      rewrite app_length, firstn_length. lia. }
    destruct (Hk buf1 (off + List.length b1)%nat ltac:(lia)) as [K1 K2].
    split; intros H.
    + destruct K1 as (o2 & Ho2 & E2); [lia|]. exists o2. split; [intros ->; rewrite Ho2 by reflexivity; lia|].
      rewrite E2, F1, S1. rewrite Nat.add_assoc, <- !app_assoc. reflexivity.
    + destruct K2 as (n & o2 & Hn & E2); [lia|]. exists (List.length b1 + n)%nat, o2.
      split; [lia|]. rewrite E2, F1, S1. rewrite firstn_add, firstn_app_exact, skipn_app_exact.
      rewrite Nat.add_assoc, <- !app_assoc. reflexivity.
  - destruct (M2 Hb) as (n & o1 & Hn & E1). rewrite E1. split; intros H; [lia|].
    exists n, o1. split; [lia|]. rewrite (firstn_app n b1 b2).
    replace (n - List.length b1)%nat with 0%nat by lia. cbn [firstn]. now rewrite app_nil_r.
Qed.

Lemma runs_seq_fail m k b1 st : st <> Ok tt -> runs m b1 st -> runs (m >> k) b1 st.
Proof.
  intros Hst Hm buf off Hoff. unfold wseq, wbind.
  destruct (Hm buf off Hoff) as [M1 M2]. split; intros H.
  - destruct (M1 H) as (o & Ho & E). exists o. split; [assumption|]. rewrite E.
    destruct st as [[]|e|]; [contradiction|reflexivity|reflexivity].
  - destruct (M2 H) as (n & o & Hn & E). exists n, o. split; [assumption|]. now rewrite E.
Qed.

Lemma emits_body m bs st : runs m bs st -> emits (try_write_body m) bs st.
Proof.
  intros Hm buf. unfold try_write_body. destruct (Hm buf 0%nat ltac:(lia)) as [M1 M2].
  cbn [firstn app Nat.add] in M1, M2. split; intros H.
  - destruct (M1 H) as (o & Ho & E). rewrite E.
    destruct st as [[]|e|]; cbn; [rewrite Ho by reflexivity|..]; reflexivity.
  - destruct (M2 H) as (k & o & Hk & E). rewrite E. exists k. split; [assumption|reflexivity].
Qed.

Lemma emits_slice data : emits (write_slice data) data (Ok tt).
Proof.
  intros buf. unfold write_slice. split; intros H.
  - replace (_ <? _)%nat with false by lia. reflexivity.
  - replace (_ <? _)%nat with true by lia. exists 0%nat. split; [lia|reflexivity].
Qed.
Lemma emits_num n e v : emits (write_num n e v) (in_order e n v) (Ok tt).
Proof.
  intros buf. unfold write_num. rewrite in_order_length, num_bytes_spec. split; intros H.
  - replace (_ <? _)%nat with false by lia. reflexivity.
  - replace (_ <? _)%nat with true by lia. exists 0%nat. split; [lia|reflexivity].
Qed.
Lemma emits_u8 v : v < 256 -> emits (write_u8 v) [v] (Ok tt).
Proof.
  intros Hv. unfold write_u8. replace [v] with (in_order LE 1 v); [apply emits_num|].
  cbn [in_order]. rewrite le_S, le_0. f_equal. now apply N.mod_small.
Qed.
Lemma emits_eq w bs bs' st : emits w bs st -> bs = bs' -> emits w bs' st.
Proof. now intros H <-. Qed.
Lemma runs_eq m bs bs' st : runs m bs st -> bs = bs' -> runs m bs' st.
Proof. now intros H <-. Qed.
Lemma runs_seq_nil m k b st : runs m [] (Ok tt) -> runs k b st -> runs (m >> k) b st.
Proof. intros Hm Hk. apply (runs_seq m k [] b); assumption. Qed.

(** * Readers *)

Lemma read_with_eq {A} (rd : reader A) bs off : (off <= List.length bs)%nat ->
  read_with rd bs off =
  match rd (skipn off bs) with
  | Ok (v, n) => Ok (v, (off + n)%nat)
  | Err e => Err e
  | Panic => Panic
  end.
Proof.
  intros H. unfold read_with. replace (_ <? _)%nat with false by lia.
  destruct (rd (skipn off bs)) as [[v n]|e|]; reflexivity.
Qed.

Lemma read_num_eq n e bs :
  read_num n e bs = if (n <=? List.length bs)%nat then Ok (num_val e (firstn n bs), n)
                    else Err Incomplete.
Proof.
  unfold read_num, check_len. destruct (Nat.leb_spec n (List.length bs)) as [H|H].
  - replace (_ <? _) with false by lia. reflexivity.
  - replace (_ <? _) with true by lia. reflexivity.
Qed.

Lemma read_num_at n e bs off : (off <= List.length bs)%nat ->
  read_with (read_num n e) bs off =
  if (off + n <=? List.length bs)%nat
  then Ok (num_val e (slice bs off (off + n)), (off + n)%nat)
  else Err Incomplete.
Proof.
  intros H. rewrite read_with_eq, read_num_eq, skipn_length by assumption.
  unfold slice. replace (off + n - off)%nat with n by lia.
  destruct (Nat.leb_spec n (List.length bs - off)) as [H1|H1];
    destruct (Nat.leb_spec (off + n) (List.length bs)) as [H2|H2]; try lia; reflexivity.
Qed.

Lemma read_step {A} (rd : reader A) bs off enc tail v :
  (off <= List.length bs)%nat -> skipn off bs = enc ++ tail ->
  rd (enc ++ tail) = Ok (v, List.length enc) ->
  read_with rd bs off = Ok (v, (off + List.length enc)%nat) /\
  (off + List.length enc <= List.length bs)%nat /\
  skipn (off + List.length enc) bs = tail.
Proof.
  intros Ho Hs Hr. rewrite read_with_eq, Hs, Hr by assumption. split; [reflexivity|].
  assert (L : (List.length bs - off = List.length enc + List.length tail)%nat).
  { rewrite <- skipn_length, Hs, app_length. reflexivity. }
  split; [lia|]. rewrite <- skipn_skipn', Hs. apply skipn_app_exact.
Qed.

Lemma read_num_complete n e v tail : v < 256 ^ N.of_nat n ->
  read_num n e (in_order e n v ++ tail) = Ok (v, List.length (in_order e n v)).
Proof.
  intros Hv. rewrite read_num_eq, app_length, in_order_length.
  replace (_ <=? _)%nat with true by lia.
  rewrite firstn_app_exact' by now rewrite in_order_length.
  now rewrite num_val_in_order.
Qed.

(** Soundness inversion of a read at an offset. *)
Lemma read_with_inv {A} (rd : reader A) bs off v off' :
  read_with rd bs off = Ok (v, off') ->
  (off <= List.length bs)%nat /\
  exists n, off' = (off + n)%nat /\ rd (skipn off bs) = Ok (v, n).
Proof.
  unfold read_with. destruct (Nat.ltb_spec (List.length bs) off) as [H|H]; [discriminate|].
  destruct (rd (skipn off bs)) as [[v0 n]|e|]; cbn; try discriminate.
  intros [= -> <-]. split; [lia|]. exists n. auto.
Qed.

Lemma read_num_inv n e bs off v off' : octets bs ->
  read_with (read_num n e) bs off = Ok (v, off') ->
  off' = (off + n)%nat /\ (off' <= List.length bs)%nat /\
  slice bs off off' = in_order e n v /\ v < 256 ^ N.of_nat n.
Proof.
  intros Hb H. destruct (read_with_inv _ _ _ _ _ H) as (Ho & m & -> & Hr).
  rewrite read_num_eq, skipn_length in Hr.
  destruct (Nat.leb_spec n (List.length bs - off)) as [Hl|Hl]; [|discriminate].
  injection Hr as <- <-.
  assert (L : List.length (firstn n (skipn off bs)) = n).
  { rewrite firstn_length, skipn_length. lia. }
  split; [reflexivity|]. split; [lia|]. split.
  - unfold slice. replace (off + n - off)%nat with n by lia.
    rewrite in_order_num_val; auto. now apply octets_firstn, octets_skipn.
  - apply num_val_bound; auto. now apply octets_firstn, octets_skipn.
Qed.

(** Result shape of a reader that never panics and never reports a bad offset. *)
Lemma obind_ok {E A B} (x : outcome E A) (f : A -> outcome E B) r :
  obind x f = Ok r -> exists a, x = Ok a /\ f a = Ok r.
Proof. destruct x; cbn; intros; try discriminate. eauto. Qed.

Ltac inv_bind H :=
  let a := fresh "a" in let E := fresh "E" in let H' := fresh "H" in
  apply obind_ok in H; destruct H as (a & E & H'); rename H' into H.
