(** C101: the order of arrival. *)
From Coq Require Import List Arith NArith ZArith Bool String Lia Sorting.Sorted Sorting.Permutation ZifyBool ZifyNat ZifyN.
From Verif Require Import ByteCrate Types HeaderModel BeaconModel CommandModel CcmModel FrameModel
  Spec ProofLib HeaderProofs HeaderReadProofs FrameProofs RepoTests Aes128 CcmProofs
  SecSpec SecureProofs PropSecure PropReceive HistorySpec PropHistory PropReconfig.
Import ListNotations.
Open Scope N_scope.
Open Scope list_scope.

(** * Specification *)

Section Spec.
Context {K D : Type} (c : cfg) (E : block_cipher K) (dl : DeviceLookup D) (resolve : Address -> option N).

(** The octets that arrive are, with the context used, the secured frame [f] of device [x]: from some state of the device
    store they are accepted as that. *)
Definition fits (x : N) (y : arrival K) (f : Frame) : Prop :=
  exists ds n s, fst (try_read_and_unsecure c E (a_bytes y) (a_ctx y) dl ds) = Ok (f, n) /\
    auxiliary_security_header (header f) <> None /\ source (header f) = Some s /\ resolve s = Some x.
Definition heard (x : N) (ys : list (arrival K)) (f : Frame) : Prop := exists y, In y ys /\ fits x y f.
(** Where additions are not checked for overflow, nothing with the last counter is heard (see C35). *)
Definition never_the_last (x : N) (ys : list (arrival K)) : Prop :=
  overflow_checks c = true \/ forall f, heard x ys f -> counter_in f <> 0xFFFFFFFF.
End Spec.

(** The octets [b1] are somewhere before the octets [b2]. *)
Definition before (b1 b2 : list N) (l : list (list N * Frame)) : Prop :=
  exists l1 l2 l3, map fst l = l1 ++ b1 :: l2 ++ b2 :: l3.

(** * Proofs *)

Section Receiver.
Context {K D : Type} (c : cfg) (E : block_cipher K).
Hypothesis HE : cipher_ok E.
Variables (dl : DeviceLookup D) (resolve : Address -> option N) (get : D -> N -> DeviceDescriptor).
Hypothesis Hstore : device_store dl resolve get.

Lemma accepted_fits x (y : arrival K) ds r bs' ctx' ds' f : try_read_and_unsecure c E (a_bytes y) (a_ctx y) dl ds = (r, (bs', ctx', ds')) ->
  accepted_for resolve x {| r_arrival := y; r_result := r |} = Some f -> fits c E dl resolve x y f.
Proof using Type.
  intros R H. apply accepted_for_spec in H. destruct H as (n & a & s & Er & Ha & Hs & Hx). cbn [r_result] in Er. subst r.
  exists ds, n, s. rewrite R, Ha. repeat split; try assumption. discriminate.
Qed.

Lemma step_at x (y : arrival K) ds r bs' ctx' ds' : octets (a_bytes y) ->
  try_read_and_unsecure c E (a_bytes y) (a_ctx y) dl ds = (r, (bs', ctx', ds')) ->
  match accepted_for resolve x {| r_arrival := y; r_result := r |} with
  | None => get ds' x = get ds x
  | Some f =>
      u32_ok (counter_in f) /\ dev_frame_counter (get ds x) <= counter_in f /\
      (counter_in f = last_counter -> overflow_checks c = false) /\
      get ds' x = {| dev_frame_counter := counter_after (counter_in f); dev_exempt := dev_exempt (get ds x) |}
  end.
Proof using HE Hstore. destruct y as [ctx bs]. intros Hb R. exact (step_store c E HE dl resolve get Hstore bs ctx ds r bs' ctx' ds' x Hb R). Qed.

Lemma fits_bound x (y : arrival K) f : octets (a_bytes y) -> fits c E dl resolve x y f ->
  (overflow_checks c = true \/ counter_in f <> 0xFFFFFFFF) -> counter_in f < 0xFFFFFFFF.
Proof using HE Hstore.
  intros Hb (ds & n & s & R & Ha & Hs & Hx) Hn.
  destruct (try_read_and_unsecure c E (a_bytes y) (a_ctx y) dl ds) as [r [[bs' ctx'] ds']] eqn:R'. cbn [fst] in R. subst r.
  pose proof (step_at x y ds _ _ _ _ Hb R') as S.
  assert (A : accepted_for resolve x {| r_arrival := y; r_result := Ok (f, n) |} = Some f).
  { destruct (auxiliary_security_header (header f)) as [a|] eqn:Ea; [|now destruct Ha]. apply accepted_for_spec. exists n, a, s. auto. }
  rewrite A in S. destruct S as (Hu & _ & Ho & _). unfold u32_ok in Hu. change (2 ^ 32) with 4294967296 in Hu.
  destruct (N.eq_dec (counter_in f) last_counter) as [X|X].
  - specialize (Ho X). destruct Hn as [Hn|Hn]; [congruence|]. change last_counter with 0xFFFFFFFF in X. contradiction.
  - change last_counter with 4294967295 in X. lia.
Qed.

Lemma fits_accepted x (y : arrival K) f : octets (a_bytes y) -> fits c E dl resolve x y f -> counter_in f < 0xFFFFFFFF ->
  forall ds, dev_frame_counter (get ds x) <= counter_in f -> exists n bs' ctx' ds',
    try_read_and_unsecure c E (a_bytes y) (a_ctx y) dl ds = (Ok (f, n), (bs', ctx', ds')).
Proof using HE Hstore.
  intros Hb (ds0 & n & s & R & Ha & Hs & Hx) Hl ds Hle.
  assert (X : fst (try_read_and_unsecure c E (a_bytes y) (a_ctx y) dl ds) = Ok (f, n)).
  { apply (C81_accepted_again_iff c E HE get (a_bytes y) (a_ctx y) dl resolve ds0 ds f n s x Hb Hstore R Ha Hs Hx). split; [exact Hle|lia]. }
  destruct (try_read_and_unsecure c E (a_bytes y) (a_ctx y) dl ds) as [r [[bs' ctx'] ds']]. cbn [fst] in X. subst r. eauto 6.
Qed.

Lemma fits_header x (y : arrival K) f : octets (a_bytes y) -> fits c E dl resolve x y f -> exists n, try_read_header c (a_bytes y) = Ok (header f, n).
Proof using HE.
  intros Hb (ds & n & s & R & Ha & _).
  destruct (auxiliary_security_header (header f)) as [a|] eqn:Ea; [|now destruct Ha].
  destruct (try_read_and_unsecure c E (a_bytes y) (a_ctx y) dl ds) as [r [[bs' ctx'] ds']] eqn:R'. cbn [fst] in R. subst r.
  apply (C32_accepted_iff c E HE _ _ _ _ f n bs' ctx' ds' a Hb Ea) in R'.
  destruct R' as (sc & eui & key & d & put & r7 & rs & _ & _ & Hd & _ & _ & _ & Hrs & Eb & _).
  exists (header_len (header f)). rewrite Eb. now apply try_read_header_complete.
Qed.

(** What octets fit as is one frame. *)
Lemma fits_unique x (y : arrival K) f g : octets (a_bytes y) ->
  (overflow_checks c = true \/ counter_in f <> 0xFFFFFFFF) -> fits c E dl resolve x y f -> fits c E dl resolve x y g -> f = g.
Proof using HE Hstore.
  intros Hb Hn Ff Fg. pose proof (fits_bound x y f Hb Ff Hn) as Bf.
  destruct (fits_header x y f Hb Ff) as (n1 & H1). destruct (fits_header x y g Hb Fg) as (n2 & H2).
  assert (Eh : header f = header g) by congruence.
  assert (Ec : counter_in f = counter_in g) by (unfold counter_in; now rewrite Eh).
  destruct Fg as (ds & n & s & R & Ha & Hs & Hx).
  assert (Hle : dev_frame_counter (get ds x) <= counter_in f).
  { rewrite Ec. destruct (try_read_and_unsecure c E (a_bytes y) (a_ctx y) dl ds) as [r [[bs' ctx'] ds']] eqn:R'. cbn [fst] in R. subst r.
    pose proof (step_at x y ds _ _ _ _ Hb R') as S.
    assert (A : accepted_for resolve x {| r_arrival := y; r_result := Ok (g, n) |} = Some g).
    { destruct (auxiliary_security_header (header g)) as [a|] eqn:Ea; [|now destruct Ha]. apply accepted_for_spec. exists n, a, s. auto. }
    rewrite A in S. apply S. }
  destruct (fits_accepted x y f Hb Ff Bf ds Hle) as (m & bs' & ctx' & ds' & X). rewrite X in R. cbn [fst] in R. congruence.
Qed.

Lemma one_reception x (y : arrival K) ds r bs' ctx' ds' : octets (a_bytes y) -> never_the_last c E dl resolve x [y] ->
  try_read_and_unsecure c E (a_bytes y) (a_ctx y) dl ds = (r, (bs', ctx', ds')) ->
  forall f, accepted_for resolve x {| r_arrival := y; r_result := r |} = Some f
    <-> fits c E dl resolve x y f /\ dev_frame_counter (get ds x) <= counter_in f.
Proof using HE Hstore.
  intros Hb Hn R f. split.
  - intros H. split; [eapply accepted_fits; eassumption|]. pose proof (step_at x y ds _ _ _ _ Hb R) as S. rewrite H in S. apply S.
  - intros (Hf & Hle).
    assert (Hn' : overflow_checks c = true \/ counter_in f <> 0xFFFFFFFF).
    { destruct Hn as [Hn|Hn]; [now left|right]. apply Hn. exists y. split; [now left|exact Hf]. }
    pose proof (fits_bound x y f Hb Hf Hn') as B.
    destruct (fits_accepted x y f Hb Hf B ds Hle) as (n & b1 & c1 & d1 & X). rewrite X in R. injection R as <- <- <- <-.
    destruct Hf as (_ & _ & s & _ & Ha & Hs & Hx).
    destruct (auxiliary_security_header (header f)) as [a|] eqn:Ea; [|now destruct Ha]. apply accepted_for_spec. exists n, a, s. auto.
Qed.

(** The counter stored after one reception. *)
Lemma counter_after_one x (y : arrival K) ds r bs' ctx' ds' : octets (a_bytes y) -> never_the_last c E dl resolve x [y] ->
  try_read_and_unsecure c E (a_bytes y) (a_ctx y) dl ds = (r, (bs', ctx', ds')) ->
  dev_exempt (get ds' x) = dev_exempt (get ds x) /\
  dev_frame_counter (get ds x) <= dev_frame_counter (get ds' x) /\
  (forall f, fits c E dl resolve x y f -> counter_in f < dev_frame_counter (get ds' x)) /\
  (dev_frame_counter (get ds' x) = dev_frame_counter (get ds x) \/
   exists f, fits c E dl resolve x y f /\ dev_frame_counter (get ds x) <= counter_in f /\ dev_frame_counter (get ds' x) = counter_in f + 1).
Proof using HE Hstore.
  intros Hb Hn R. pose proof (one_reception x y ds _ _ _ _ Hb Hn R) as One. pose proof (step_at x y ds _ _ _ _ Hb R) as S.
  assert (Hn' : forall f, fits c E dl resolve x y f -> overflow_checks c = true \/ counter_in f <> 0xFFFFFFFF).
  { intros f Hf. destruct Hn as [Hn|Hn]; [now left|right]. apply Hn. exists y. split; [now left|exact Hf]. }
  destruct (accepted_for resolve x _) as [g|].
  - destruct (proj1 (One g) eq_refl) as (Hg & Hle). destruct S as (Hu & _ & _ & S). rewrite S. cbn [dev_exempt dev_frame_counter].
    pose proof (fits_bound x y g Hb Hg (Hn' g Hg)) as B. rewrite counter_after_eq by exact Hu.
    destruct (N.eqb_spec (counter_in g) last_counter) as [X|X]; [change last_counter with 4294967295 in X; lia|].
    repeat split; [lia| |right; exists g; auto].
    intros f Hf. rewrite (fits_unique x y f g Hb (Hn' f Hf) Hf Hg). lia.
  - rewrite S. repeat split; [lia| |now left]. intros f Hf.
    destruct (N.lt_ge_cases (counter_in f) (dev_frame_counter (get ds x))) as [X|X]; [exact X|].
    specialize (proj2 (One f) (conj Hf X)). discriminate.
Qed.

Lemma never_cons x y ys : never_the_last (K := K) c E dl resolve x (y :: ys) ->
  never_the_last c E dl resolve x [y] /\ never_the_last c E dl resolve x ys.
Proof using Type.
  intros [H|H]; [split; now left|]. split; right; intros f (z & Hz & Hf); apply H; exists z; split; try exact Hf.
  - destruct Hz as [->|[]]. now left.
  - now right.
Qed.

(** Exactly these are accepted for a device: the octets that fit a frame of it with a counter not below the one stored at
    the start and above those of everything heard from it before. *)
Theorem C101_exactly_the_newer_ones : forall arrivals ds log ds' x, arrivals_ok arrivals ->
  never_the_last c E dl resolve x arrivals -> receive_all c E dl ds arrivals = (log, ds') ->
  forall i y r f, nth_error arrivals i = Some y -> nth_error log i = Some r ->
  (accepted_for resolve x r = Some f <->
   fits c E dl resolve x y f /\ dev_frame_counter (get ds x) <= counter_in f /\
   forall g, heard c E dl resolve x (firstn i arrivals) g -> counter_in g < counter_in f).
Proof using HE Hstore.
  induction arrivals as [|y0 rest IH]; intros ds log ds' x Ho Hn H i y r f Hy Hr; [destruct i; discriminate|].
  inversion Ho as [|? ? Hb Ho']; subst. apply never_cons in Hn. destruct Hn as (Hn1 & Hn2).
  cbn [receive_all] in H. destruct (try_read_and_unsecure c E (a_bytes y0) (a_ctx y0) dl ds) as [r0 [[bs' ctx'] ds1]] eqn:R.
  destruct (receive_all c E dl ds1 rest) as [log2 ds2] eqn:S. injection H as <- <-.
  destruct i as [|i]; cbn [nth_error] in Hy, Hr.
  - injection Hy as <-. injection Hr as <-. rewrite (one_reception x y0 ds _ _ _ _ Hb Hn1 R f). split.
    + intros (F1 & F2). repeat split; try assumption. intros g (z & Hz & _). destruct Hz.
    + intros (F1 & F2 & _). auto.
  - rewrite (IH ds1 log2 ds2 x Ho' Hn2 S i y r f Hy Hr). cbn [firstn].
    destruct (counter_after_one x y0 ds _ _ _ _ Hb Hn1 R) as (_ & M1 & M2 & M3). split.
    + intros (F1 & F2 & F3). split; [exact F1|]. split; [lia|]. intros g (z & [<-|Hz] & Hg).
      * specialize (M2 g Hg). lia.
      * apply F3. exists z. auto.
    + intros (F1 & F2 & F3). split; [exact F1|]. split.
      * destruct M3 as [M3|(g & Hg & _ & M3)]; [lia|]. specialize (F3 g (ex_intro _ y0 (conj (or_introl eq_refl) Hg))). lia.
      * intros g (z & Hz & Hg). apply F3. exists z. split; [now right|exact Hg].
Qed.

(** The counter stored in the end is the larger of the one at the start and one more than the largest heard. *)
Theorem C101_stored_counter : forall arrivals ds log ds' x, arrivals_ok arrivals ->
  never_the_last c E dl resolve x arrivals -> receive_all c E dl ds arrivals = (log, ds') ->
  dev_exempt (get ds' x) = dev_exempt (get ds x) /\
  dev_frame_counter (get ds x) <= dev_frame_counter (get ds' x) /\
  (forall g, heard c E dl resolve x arrivals g -> counter_in g < dev_frame_counter (get ds' x)) /\
  (dev_frame_counter (get ds' x) = dev_frame_counter (get ds x) \/
   exists g, heard c E dl resolve x arrivals g /\ dev_frame_counter (get ds' x) = counter_in g + 1).
Proof using HE Hstore.
  induction arrivals as [|y0 rest IH]; intros ds log ds' x Ho Hn H.
  { cbn in H. injection H as <- <-. repeat split; [lia| |now left]. intros g (z & [] & _). }
  inversion Ho as [|? ? Hb Ho']; subst. apply never_cons in Hn. destruct Hn as (Hn1 & Hn2).
  cbn [receive_all] in H. destruct (try_read_and_unsecure c E (a_bytes y0) (a_ctx y0) dl ds) as [r0 [[bs' ctx'] ds1]] eqn:R.
  destruct (receive_all c E dl ds1 rest) as [log2 ds2] eqn:S. injection H as <- <-.
  destruct (IH ds1 log2 ds2 x Ho' Hn2 S) as (I0 & I1 & I2 & I3).
  destruct (counter_after_one x y0 ds _ _ _ _ Hb Hn1 R) as (M0 & M1 & M2 & M3).
  split; [congruence|]. split; [lia|]. split.
  - intros g (z & [<-|Hz] & Hg); [specialize (M2 g Hg); lia|]. apply I2. exists z. auto.
  - destruct I3 as [I3|(g & (z & Hz & Hg) & I3)].
    + destruct M3 as [M3|(g & Hg & _ & M3)]; [left; congruence|]. right. exists g. split; [exists y0; split; [now left|exact Hg]|congruence].
    + right. exists g. split; [exists z; split; [now right|exact Hg]|exact I3].
Qed.

(** So neither the order in which octets arrive nor how often matters for what is stored in the end. *)
Theorem C101_order_leaves_no_trace : forall arrivals1 arrivals2 ds log1 ds1 log2 ds2 x, arrivals_ok arrivals1 ->
  never_the_last c E dl resolve x arrivals1 -> (forall y, In y arrivals1 <-> In y arrivals2) ->
  receive_all c E dl ds arrivals1 = (log1, ds1) -> receive_all c E dl ds arrivals2 = (log2, ds2) ->
  get ds1 x = get ds2 x.
Proof using HE Hstore.
  intros a1 a2 ds log1 ds1 log2 ds2 x Ho Hn Same R1 R2.
  assert (Ho2 : arrivals_ok a2).
  { apply Forall_forall. intros y Hy. unfold arrivals_ok in Ho. rewrite Forall_forall in Ho. apply Ho. now apply Same. }
  assert (He : forall g, heard c E dl resolve x a1 g <-> heard c E dl resolve x a2 g).
  { intros g. split; intros (y & Hy & Hg); exists y; (split; [now apply Same|exact Hg]). }
  assert (Hn2 : never_the_last c E dl resolve x a2).
  { destruct Hn as [Hn|Hn]; [now left|right]. intros f Hf. apply Hn. now apply He. }
  destruct (C101_stored_counter a1 ds log1 ds1 x Ho Hn R1) as (E1 & L1 & U1 & C1).
  destruct (C101_stored_counter a2 ds log2 ds2 x Ho2 Hn2 R2) as (E2 & L2 & U2 & C2).
  assert (dev_frame_counter (get ds1 x) = dev_frame_counter (get ds2 x)).
  { apply N.le_antisymm.
    - destruct C1 as [C1|(g & Hg & C1)]; [lia|]. apply He in Hg. specialize (U2 g Hg). lia.
    - destruct C2 as [C2|(g & Hg & C2)]; [lia|]. apply He in Hg. specialize (U1 g Hg). lia. }
  destruct (get ds1 x) as [m1 e1], (get ds2 x) as [m2 e2]. cbn in *. congruence.
Qed.

(** The frame with the largest counter gets through, whatever the order. *)
Theorem C101_newest_gets_through : forall arrivals ds log ds' x f, arrivals_ok arrivals ->
  never_the_last c E dl resolve x arrivals -> receive_all c E dl ds arrivals = (log, ds') ->
  heard c E dl resolve x arrivals f -> dev_frame_counter (get ds x) <= counter_in f ->
  (forall g, heard c E dl resolve x arrivals g -> counter_in g < counter_in f \/ g = f) ->
  exists bs, In (bs, f) (accepted resolve x log).
Proof using HE Hstore.
  induction arrivals as [|y0 rest IH]; intros ds log ds' x f Ho Hn H (y & Hy & Hf) Hle Hmax; [destruct Hy|].
  inversion Ho as [|? ? Hb Ho']; subst. pose proof (never_cons _ _ _ Hn) as (Hn1 & Hn2).
  cbn [receive_all] in H. destruct (try_read_and_unsecure c E (a_bytes y0) (a_ctx y0) dl ds) as [r0 [[bs' ctx'] ds1]] eqn:R.
  destruct (receive_all c E dl ds1 rest) as [log2 ds2] eqn:S. injection H as <- <-.
  rewrite accepted_cons. cbn [r_arrival].
  pose proof (one_reception x y0 ds _ _ _ _ Hb Hn1 R) as One. pose proof (step_at x y0 ds _ _ _ _ Hb R) as St.
  destruct (accepted_for resolve x _) as [g|] eqn:Ea.
  - destruct (proj1 (One g) eq_refl) as (Hg & Hg2).
    destruct (Hmax g (ex_intro _ y0 (conj (or_introl eq_refl) Hg))) as [Hlt| ->]; [|exists (a_bytes y0); now left].
    destruct Hy as [<-|Hy].
    { exfalso. assert (Hn' : overflow_checks c = true \/ counter_in g <> 0xFFFFFFFF).
      { destruct Hn1 as [Hn1|Hn1]; [now left|right]. apply Hn1. exists y0. split; [now left|exact Hg]. }
      rewrite (fits_unique x y0 g f Hb Hn' Hg Hf) in Hlt. lia. }
    destruct (IH ds1 log2 ds2 x f Ho' Hn2 S) as (bs & Hbs).
    + exists y. auto.
    + destruct (counter_after_one x y0 ds _ _ _ _ Hb Hn1 R) as (_ & _ & _ & [M|(h & Hh & _ & M)]); [lia|].
      destruct (Hmax h (ex_intro _ y0 (conj (or_introl eq_refl) Hh))) as [X| ->]; [lia|].
      assert (Hn' : overflow_checks c = true \/ counter_in g <> 0xFFFFFFFF).
      { destruct Hn1 as [Hn1|Hn1]; [now left|right]. apply Hn1. exists y0. split; [now left|exact Hg]. }
      rewrite (fits_unique x y0 g f Hb Hn' Hg Hh) in Hlt. lia.
    + intros h (z & Hz & Hh). apply Hmax. exists z. split; [now right|exact Hh].
    + exists bs. right. exact Hbs.
  - destruct Hy as [<-|Hy]; [specialize (proj2 (One f) (conj Hf Hle)); discriminate|].
    destruct (IH ds1 log2 ds2 x f Ho' Hn2 S) as (bs & Hbs).
    + exists y. auto.
    + now rewrite St.
    + intros h (z & Hz & Hh). apply Hmax. exists z. split; [now right|exact Hh].
    + exists bs. exact Hbs.
Qed.

(** Hearing any of it again changes nothing. *)
Theorem C101_heard_again : forall arrivals ds log ds' again log2 ds2 x, arrivals_ok arrivals ->
  never_the_last c E dl resolve x arrivals -> receive_all c E dl ds arrivals = (log, ds') ->
  (forall y, In y again -> In y arrivals) -> receive_all c E dl ds' again = (log2, ds2) ->
  accepted resolve x log2 = [] /\ get ds2 x = get ds' x.
Proof using HE Hstore.
  intros arrivals ds log ds' again log2 ds2 x Ho Hn H Sub H2.
  destruct (C101_stored_counter arrivals ds log ds' x Ho Hn H) as (_ & _ & U & _).
  clear H. revert log2 ds2 ds' U H2. induction again as [|y again IH]; intros log2 ds2 ds' U H2.
  { cbn in H2. injection H2 as <- <-. auto. }
  cbn [receive_all] in H2. destruct (try_read_and_unsecure c E (a_bytes y) (a_ctx y) dl ds') as [r0 [[bs' ctx'] ds1]] eqn:R.
  destruct (receive_all c E dl ds1 again) as [log3 ds3] eqn:S. injection H2 as <- <-.
  assert (Hin : In y arrivals) by (apply Sub; now left).
  assert (Hb : octets (a_bytes y)) by (unfold arrivals_ok in Ho; rewrite Forall_forall in Ho; auto).
  pose proof (step_at x y ds' _ _ _ _ Hb R) as St. rewrite accepted_cons.
  destruct (accepted_for resolve x _) as [g|] eqn:Ea.
  - exfalso. pose proof (accepted_fits x y ds' _ _ _ _ g R Ea) as Hg. destruct St as (_ & Hle & _).
    specialize (U g (ex_intro _ y (conj Hin Hg))). lia.
  - cbn [List.app]. rewrite <- St. apply IH; [intros z Hz; apply Sub; now right| |exact S]. intros g Hg. rewrite St. now apply U.
Qed.
End Receiver.

Section Group.
Context {K D1 D2 : Type} (c : cfg) (E : block_cipher K).
Hypothesis HE : cipher_ok E.

Lemma accepted_headers {D} (dl : DeviceLookup D) resolve x arrivals : forall ds log ds', arrivals_ok arrivals ->
  receive_all c E dl ds arrivals = (log, ds') ->
  Forall (fun p => exists n, try_read_header c (fst p) = Ok (header (snd p), n)) (accepted (K := K) resolve x log).
Proof using HE.
  induction arrivals as [|y rest IH]; intros ds log ds' Ho H; [cbn in H; injection H as <- <-; constructor|].
  inversion Ho as [|? ? Hb Ho']; subst. cbn [receive_all] in H.
  destruct (try_read_and_unsecure c E (a_bytes y) (a_ctx y) dl ds) as [r0 [[bs' ctx'] ds1]] eqn:R.
  destruct (receive_all c E dl ds1 rest) as [log2 ds2] eqn:S. injection H as <- <-. rewrite accepted_cons. cbn [r_arrival].
  destruct (accepted_for resolve x _) as [g|] eqn:Ea; cbn [List.app]; [|eauto].
  constructor; [|eauto]. cbn [fst snd]. eapply fits_header; [exact HE|exact Hb|]. eapply accepted_fits; eassumption.
Qed.

(** Two receivers that accept the same two frames of a device accept them in the same order, whatever each of them is sent in
    between, in whatever order, and whatever their stores and keys are. *)
Theorem C101_receivers_agree_on_the_order : forall (dl1 : DeviceLookup D1) resolve1 get1 (dl2 : DeviceLookup D2) resolve2 get2
    arrivals1 arrivals2 ds1 log1 ds1' ds2 log2 ds2' x1 x2 b1 b2,
  device_store dl1 resolve1 get1 -> device_store dl2 resolve2 get2 -> arrivals_ok arrivals1 -> arrivals_ok arrivals2 ->
  receive_all c E dl1 ds1 arrivals1 = (log1, ds1') -> receive_all c E dl2 ds2 arrivals2 = (log2, ds2') ->
  overflow_checks c = true \/ Forall (fun fc => fc <> 0xFFFFFFFF) (counters (accepted resolve1 x1 log1) ++ counters (accepted resolve2 x2 log2)) ->
  before b1 b2 (accepted resolve1 x1 log1) -> ~ before b2 b1 (accepted resolve2 x2 log2).
Proof using HE.
  intros dl1 resolve1 get1 dl2 resolve2 get2 arrivals1 arrivals2 ds1 log1 ds1' ds2 log2 ds2' x1 x2 b1 b2 S1 S2 O1 O2 R1 R2 Hc B1 B2.
  assert (Lt : forall D (dl : DeviceLookup D) resolve get arrivals ds log ds' x b b',
    device_store dl resolve get -> arrivals_ok arrivals -> receive_all c E dl ds arrivals = (log, ds') ->
    overflow_checks c = true \/ Forall (fun fc => fc <> 0xFFFFFFFF) (counters (accepted resolve x log)) ->
    before b b' (accepted resolve x log) ->
    exists h n h' n' a a', try_read_header c b = Ok (h, n) /\ try_read_header c b' = Ok (h', n') /\
      auxiliary_security_header h = a /\ auxiliary_security_header h' = a' /\
      match a with Some a => frame_counter a | None => 0 end < match a' with Some a => frame_counter a | None => 0 end).
  { intros D dl resolve get arrivals ds log ds' x b b' Hs Ho R Hn (l1 & l2 & l3 & Eq).
    destruct (C34_accepted_counters_increase c E HE dl resolve get Hs arrivals ds log ds' x Ho R Hn) as (So & _).
    pose proof (accepted_headers dl resolve x arrivals ds log ds' Ho R) as Hd.
    apply map_eq_app in Eq. destruct Eq as (p1 & q1 & E1 & <- & Eq). apply map_eq_cons in Eq. destruct Eq as (u & q2 & -> & <- & Eq).
    apply map_eq_app in Eq. destruct Eq as (p2 & q3 & -> & <- & Eq). apply map_eq_cons in Eq. destruct Eq as (v & q4 & -> & <- & _).
    rewrite E1 in So, Hd. apply Forall_app in Hd. destruct Hd as (_ & Hd). inversion Hd as [|? ? (n & Hu) Hd']; subst.
    apply Forall_app in Hd'. destruct Hd' as (_ & Hd'). inversion Hd' as [|? ? (n' & Hv) _]; subst.
    exists (header (snd u)), n, (header (snd v)), n', (auxiliary_security_header (header (snd u))), (auxiliary_security_header (header (snd v))).
    repeat (split; [first [assumption|reflexivity]|]).
    unfold counters in So. rewrite map_app in So. clear - So. induction p1 as [|z p1 IH]; cbn in So; [|apply IH; now inversion So].
    inversion So as [|? ? _ F]; subst. rewrite map_app in F. apply Forall_app in F. destruct F as (_ & F). cbn in F. inversion F as [|? ? X _]; subst. exact X. }
  assert (Hc1 : overflow_checks c = true \/ Forall (fun fc => fc <> 0xFFFFFFFF) (counters (accepted resolve1 x1 log1)))
    by (destruct Hc as [Hc|Hc]; [now left|right; apply Forall_app in Hc; apply Hc]).
  assert (Hc2 : overflow_checks c = true \/ Forall (fun fc => fc <> 0xFFFFFFFF) (counters (accepted resolve2 x2 log2)))
    by (destruct Hc as [Hc|Hc]; [now left|right; apply Forall_app in Hc; apply Hc]).
  destruct (Lt _ _ _ _ _ _ _ _ x1 b1 b2 S1 O1 R1 Hc1 B1) as (h & n & h' & n' & a & a' & H1 & H2 & A1 & A2 & L1).
  destruct (Lt _ _ _ _ _ _ _ _ x2 b2 b1 S2 O2 R2 Hc2 B2) as (h2 & m & h2' & m' & a2 & a2' & H3 & H4 & A3 & A4 & L2).
  assert (h2 = h') by congruence. assert (h2' = h) by congruence. subst. lia.
Qed.
End Group.

(** * Concrete cases *)

Definition in_order (is : list nat) : list (arrival (list N)) := map (fun i => arrives (sent_bytes i)) is.
Definition run (is : list nat) := receive_all host aes_cipher (known_lookup [5; 1]) two_devices (in_order is).
Lemma map_three {B} (g : nat -> B) u v w : map g [0; 1; 2]%nat = [u; v; w] -> g 0%nat = u /\ g 1%nat = v /\ g 2%nat = w.
Proof. cbn. intros H. injection H as -> -> ->. auto. Qed.
Lemma map_two {A B} (g : A -> B) a b u v : map g [a; b] = [u; v] -> g a = u /\ g b = v.
Proof. cbn. intros H. injection H as -> ->. auto. Qed.
Definition reading_of (bs : list N) : option (bool * option Address * N) :=
  match fst (try_read_and_unsecure host aes_cipher bs (aes_ctx 7 0) (known_lookup [5; 1]) two_devices) with
  | Ok (f, _) => Some (is_some (auxiliary_security_header (header f)), source (header f), counter_in f)
  | _ => None
  end.
Lemma readings : map (fun i => reading_of (sent_bytes i)) [0; 1; 2]%nat = map (fun n => Some (true, Some (Extended 0x111 1), n)) [41; 44; 45].
Proof. vm_compute. reflexivity. Qed.
Lemma reading_fits bs n : reading_of bs = Some (true, Some (Extended 0x111 1), n) -> exists f,
     fits host aes_cipher (known_lookup [5; 1]) (known_resolve [5; 1]) 1 (arrives bs) f /\ counter_in f = n.
Proof.
  unfold reading_of, fits, arrives. cbn [a_bytes a_ctx]. generalize (aes_ctx 7 0) two_devices. generalize (known_lookup [5; 1]). generalize aes_cipher.
  intros E dl ctx ds Y. destruct (fst (try_read_and_unsecure host E bs ctx dl ds)) as [[f m]|e|] eqn:R; [|discriminate Y|discriminate Y].
  injection Y as Ya Ys Yc. exists f. split; [|exact Yc]. exists ds, m, (Extended 0x111 1). split; [exact R|].
  split; [|split; [exact Ys|reflexivity]]. destruct (auxiliary_security_header (header f)); [intros Z; discriminate Z|discriminate Ya].
Qed.
Example four_orders :
  (forall is, never_the_last host aes_cipher (known_lookup [5; 1]) (known_resolve [5; 1]) 1 (in_order is)) /\
  (forall i, In i [0%nat; 1%nat; 2%nat] -> exists f,
     fits host aes_cipher (known_lookup [5; 1]) (known_resolve [5; 1]) 1 (arrives (sent_bytes i)) f /\ counter_in f = nth i [41; 44; 45] 0) /\
  map (fun is => map (fun p => counter_in (snd p)) (accepted (known_resolve [5; 1]) 1 (fst (run is))))
    [[0; 1; 2]; [2; 1; 0]; [1; 2; 0; 1; 2]; [0; 2; 2; 1]]%nat = [[41; 44; 45]; [45]; [44; 45]; [41; 45]] /\
  map (fun is => proj1_sig (snd (run is))) [[0; 1; 2]; [2; 1; 0]; [1; 2; 0; 1; 2]; [0; 2; 2; 1]]%nat = repeat [(5, dev 9); (1, dev 46)] 4.
Proof.
  split; [intros is; left; reflexivity|]. split.
  - pose proof readings as X. apply map_three in X. destruct X as (X0 & X1 & X2).
    intros i [<-|[<-|[<-|[]]]]; [exact (reading_fits _ _ X0)|exact (reading_fits _ _ X1)|exact (reading_fits _ _ X2)].
  - split; vm_compute; reflexivity.
Qed.

(** Where additions are not checked, a frame with the last counter makes the order matter. *)
Theorem C101_last_counter_refuted : exists (arrivals1 arrivals2 : list (arrival (list N))) (ds : known [1]),
  arrivals_ok arrivals1 /\ Permutation arrivals1 arrivals2 /\
  known_get (snd (receive_all release aes_cipher (known_lookup [1]) ds arrivals1)) 1
  <> known_get (snd (receive_all release aes_cipher (known_lookup [1]) ds arrivals2)) 1.
Proof.
  exists [arrives last_bytes; arrives (sent_bytes 0)], [arrives (sent_bytes 0); arrives last_bytes], (one_device 40).
  split; [apply arrivals_octets; vm_compute; reflexivity|]. split; [apply perm_swap|].
  assert (X : map (fun l => dev_frame_counter (known_get (snd (receive_all release aes_cipher (known_lookup [1]) (one_device 40) l)) 1))
    [[arrives last_bytes; arrives (sent_bytes 0)]; [arrives (sent_bytes 0); arrives last_bytes]] = [42; 0]) by (vm_compute; reflexivity).
  apply map_two in X. destruct X as (X1 & X2). intros Z. rewrite Z in X1. rewrite X2 in X1. discriminate X1.
Qed.

Print Assumptions C101_exactly_the_newer_ones.
Print Assumptions C101_stored_counter.
Print Assumptions C101_order_leaves_no_trace.
Print Assumptions C101_newest_gets_through.
Print Assumptions C101_heard_again.
Print Assumptions C101_receivers_agree_on_the_order.
Print Assumptions four_orders.
Print Assumptions C101_last_counter_refuted.
