(** Properties C28, C32, C33, C36 - C39 and the receiving halves of C42, C44, C47. *)
From Coq Require Import List Arith NArith ZArith Bool String Lia ZifyBool ZifyNat ZifyN.
From Verif Require Import ByteCrate Types HeaderModel BeaconModel CommandModel CcmModel FrameModel
  Spec SecSpec ProofLib HeaderProofs HeaderReadProofs BeaconProofs CommandProofs FrameProofs CcmProofs
  SecureProofs RepoTests Aes128 AesProofs PropHeader PropContent PropFrame PropSecure.
Import ListNotations.
Open Scope N_scope.
Open Scope list_scope.
Ltac Zify.zify_post_hook ::= Z.div_mod_to_equations.

Section Receive.
Context {K D : Type} (c : cfg) (E : block_cipher K).
Hypothesis HE : cipher_ok E.
Implicit Types (sc : SecurityContext K) (dl : DeviceLookup D) (ds : D).

(** * What [receive] comes to *)

Lemma authenticated_level l : authenticated l = true <-> level_is_none l = false /\ level_is_enc l = false.
Proof. destruct l; cbn; split; intros H; try destruct H; auto; discriminate. Qed.

Lemma admitted_receive oc sc dl ds h a eui key d put rest : admitted sc dl ds h a eui key d put ->
  receive E oc sc dl ds h a rest
  = let l := security_level (control a) in
    let fc := frame_counter a in
    let set v := put {| dev_frame_counter := v; dev_exempt := dev_exempt d |} in
    if (List.length rest <? tag_len l)%nat then (Panic, rest, put d)
    else
      let n := (List.length rest - tag_len l)%nat in
      let data := firstn n rest in
      let tag := skipn n rest in
      let plain := secured_payload E key l eui fc data in
      if same_octets (secured_tag E key l eui fc plain) tag
         && negb (encrypting l && (2 ^ 16 <=? N.of_nat n))
      then if fc =? last_counter
           then if oc then (Panic, plain ++ tag, put d) else (Ok plain, plain ++ tag, set 0)
           else (Ok plain, plain ++ tag, set (fc + 1))
      else (Err TransformationError, (if encrypting l then on_auth_failure E key (mac_nonce eui (frame_counter a) l) data else data) ++ tag, put d).
Proof.
  intros (_ & Ht & Hv & Hl & Hk & (s & Hs & Hd) & Hm & Hc). unfold receive, is_data.
  apply authenticated_level in Hl. destruct Hl as [El Ee].
  rewrite Ht, El, Ee, Hk, Hs, Hd. cbn [negb].
  replace (match version h with Ieee802154_2003 => true | _ => false end) with false by (destruct (version h); congruence).
  replace (dev_frame_counter d =? last_counter) with false by (symmetry; now apply N.eqb_neq).
  replace (frame_counter a <? dev_frame_counter d) with false by (symmetry; now apply N.ltb_ge).
  reflexivity.
Qed.

(** Either the frame is admitted to verification, or it is refused with the buffer untouched. *)
Lemma admitted_dec oc sc dl ds h a rest : auxiliary_security_header h = Some a ->
  (exists eui key d put, admitted sc dl ds h a eui key d put) \/
  exists e ds', receive E oc sc dl ds h a rest = (Err e, rest, ds') /\
    In e [NotImplemented; UnsupportedLegacy; UnsupportedSecurity; UnavailableKey; NoSourceAddress;
          UnavailableDevice; CounterError] /\
    (lawful_lookup dl -> ds' = ds).
Proof.
  intros Ha. unfold receive, is_data.
  destruct (frame_type h) eqn:Ht; cbn [negb];
    try (right; exists NotImplemented, ds; cbn [In]; tauto).
  destruct (version h) eqn:Hv;
    [right; exists UnsupportedLegacy, ds; cbn [In]; tauto|..].
  1,2: destruct (level_is_none (security_level (control a))) eqn:El;
    [right; exists UnsupportedSecurity, ds; cbn [In]; tauto|];
    (destruct (sc_key_provider sc SrcAddrMode (key_identifier a) (source h)) as [[eui key]|] eqn:Hk;
    [|right; exists UnavailableKey, ds; cbn [In]; tauto]);
    (destruct (source h) as [s|] eqn:Hs; [|right; exists NoSourceAddress, ds; cbn [In]; tauto]);
    (destruct (dl SrcAddrMode s ds) as [ds'|d put] eqn:Hd;
    [right; exists UnavailableDevice, ds'; cbn [In]; repeat split; [tauto|];
     intros L; specialize (L s ds); now rewrite Hd in L|]);
    (destruct ((dev_frame_counter d =? last_counter) || (frame_counter a <? dev_frame_counter d)) eqn:Hc;
    [right; exists CounterError, (put d); cbn [In]; repeat split; [tauto|];
     intros L; specialize (L s ds); now rewrite Hd in L|]);
    (destruct (level_is_enc (security_level (control a))) eqn:Ee;
    [right; exists NotImplemented, (put d); cbn [In]; repeat split; [tauto|];
     intros L; specialize (L s ds); now rewrite Hd in L|]);
    left; exists eui, key, d, put; apply orb_false_iff in Hc; destruct Hc as [Hc1 Hc2];
    apply N.eqb_neq in Hc1; apply N.ltb_ge in Hc2;
    (split; [assumption|]); (split; [assumption|]); (split; [congruence|]);
    (split; [now apply authenticated_level|]); (split; [congruence|]); eauto.
Qed.

Lemma verifies_test key l eui fc rest : octets rest -> (tag_len l <= List.length rest)%nat ->
  let n := (List.length rest - tag_len l)%nat in
  let plain := secured_payload E key l eui fc (firstn n rest) in
  (same_octets (secured_tag E key l eui fc plain) (skipn n rest)
     && negb (encrypting l && (2 ^ 16 <=? N.of_nat n)) = true <-> verifies E key l eui fc rest plain) /\
  (forall p, verifies E key l eui fc rest p -> p = plain).
Proof.
  intros Ho Hl n plain.
  assert (U : forall p, verifies E key l eui fc rest p -> p = plain).
  { intros p [V _]. unfold plain, n. rewrite V. rewrite firstn_app_exact'.
    - now rewrite secured_payload_involutive.
    - rewrite app_length, secured_payload_length, secured_tag_length. lia. }
  split; [|exact U]. unfold verifies. rewrite andb_true_iff, same_octets_eq.
  assert (Lp : List.length plain = n).
  { unfold plain. rewrite secured_payload_length, firstn_length. unfold n. lia. }
  rewrite Lp. split.
  - intros [T L]. split.
    + rewrite T. unfold plain. rewrite secured_payload_involutive. now rewrite firstn_skipn.
    + intros Ec. rewrite Ec in L. cbn [andb] in L. apply negb_true_iff in L. now apply N.leb_gt in L.
  - intros [V L]. split.
    + apply (f_equal (skipn n)) in V. rewrite skipn_app_exact' in V by (rewrite secured_payload_length; lia). now symmetry.
    + apply negb_true_iff. destruct (encrypting l); [|reflexivity]. cbn [andb]. apply N.leb_gt. now apply L.
Qed.

Lemma verifies_long key l eui fc rest p : verifies E key l eui fc rest p ->
  List.length rest = (List.length p + tag_len l)%nat.
Proof. intros [-> _]. now rewrite app_length, secured_payload_length, secured_tag_length. Qed.

Definition counter_after (fc : N) : N := (fc + 1) mod 2 ^ 32.
Lemma counter_after_eq fc : u32_ok fc -> counter_after fc = if fc =? last_counter then 0 else fc + 1.
Proof.
  intros H. unfold counter_after, u32_ok in *. destruct (N.eqb_spec fc last_counter) as [->|Hn]; [reflexivity|].
  apply N.mod_small. change last_counter with 4294967295 in Hn. change (2 ^ 32) with 4294967296 in *. lia.
Qed.

Lemma receive_ok_iff oc sc dl ds h a rest p rest' ds' : octets rest -> u32_ok (frame_counter a) ->
  auxiliary_security_header h = Some a ->
  (receive E oc sc dl ds h a rest = (Ok p, rest', ds') <->
   exists eui key d put, admitted sc dl ds h a eui key d put /\
     verifies E key (security_level (control a)) eui (frame_counter a) rest p /\
     (frame_counter a = last_counter -> oc = false) /\
     rest' = p ++ secured_tag E key (security_level (control a)) eui (frame_counter a) p /\
     ds' = put {| dev_frame_counter := counter_after (frame_counter a); dev_exempt := dev_exempt d |}).
Proof.
  intros Ho Hfc Ha. set (l := security_level (control a)).
  split.
  - intros R. destruct (admitted_dec oc sc dl ds h a rest Ha) as [(eui & key & d & put & A)|(e & s & X & _)];
      [|congruence].
    exists eui, key, d, put. split; [exact A|].
    rewrite (admitted_receive oc _ _ _ _ _ _ _ _ _ rest A) in R. cbv zeta in R. fold l in R.
    destruct (Nat.ltb_spec (List.length rest) (tag_len l)) as [|L]; [discriminate|].
    destruct (verifies_test key l eui (frame_counter a) rest Ho L) as [V _]. cbv zeta in V.
    destruct (same_octets _ _ && _); [|discriminate]. pose proof (proj1 V eq_refl) as V1. clear V.
    set (plain := secured_payload _ _ _ _ _ _) in *.
    assert (T : skipn (List.length rest - tag_len l) rest = secured_tag E key l eui (frame_counter a) plain).
    { destruct V1 as [V1 _]. apply (f_equal (skipn (List.length rest - tag_len l))) in V1.
      rewrite skipn_app_exact' in V1; [exact V1|].
      unfold plain. rewrite !secured_payload_length, firstn_length. lia. }
    rewrite T in R. rewrite counter_after_eq by assumption.
    destruct (N.eqb_spec (frame_counter a) last_counter) as [Ec|Ec].
    + destruct oc; [discriminate|]. injection R as <- <- <-. auto 6.
    + injection R as <- <- <-. repeat split; try apply V1; try tauto.
  - intros (eui & key & d & put & A & V & Hoc & -> & ->).
    rewrite (admitted_receive oc _ _ _ _ _ _ _ _ _ rest A). cbv zeta. fold l. fold l in V.
    pose proof (verifies_long _ _ _ _ _ _ V) as Lv.
    replace (List.length rest <? tag_len l)%nat with false by (symmetry; apply Nat.ltb_ge; lia).
    destruct (verifies_test key l eui (frame_counter a) rest Ho ltac:(lia)) as [VT U]. cbv zeta in VT, U.
    rewrite <- (U p V) in *. rewrite (proj2 VT V).
    assert (T : skipn (List.length rest - tag_len l) rest = secured_tag E key l eui (frame_counter a) p).
    { destruct V as [V _]. rewrite V at 2. apply skipn_app_exact'. rewrite secured_payload_length. lia. }
    rewrite T, counter_after_eq by assumption.
    destruct (N.eqb_spec (frame_counter a) last_counter) as [Ec|Ec]; [|reflexivity].
    now rewrite (Hoc Ec).
Qed.

Lemma receive_panic_iff oc sc dl ds h a rest : octets rest -> auxiliary_security_header h = Some a ->
  (fst (fst (receive E oc sc dl ds h a rest)) = Panic <->
   exists eui key d put, admitted sc dl ds h a eui key d put /\
     ((List.length rest < tag_len (security_level (control a)))%nat \/
      oc = true /\ frame_counter a = last_counter /\
      exists p, verifies E key (security_level (control a)) eui (frame_counter a) rest p)).
Proof.
  intros Ho Ha. set (l := security_level (control a)). split.
  - intros R. destruct (admitted_dec oc sc dl ds h a rest Ha) as [(eui & key & d & put & A)|(e & s & X & _)];
      [|rewrite X in R; discriminate].
    exists eui, key, d, put. split; [exact A|].
    rewrite (admitted_receive oc _ _ _ _ _ _ _ _ _ rest A) in R. cbv zeta in R. fold l in R.
    destruct (Nat.ltb_spec (List.length rest) (tag_len l)) as [L|L]; [now left|right].
    destruct (verifies_test key l eui (frame_counter a) rest Ho L) as [V _]. cbv zeta in V.
    destruct (same_octets _ _ && _); [|discriminate]. pose proof (proj1 V eq_refl) as V1.
    destruct (N.eqb_spec (frame_counter a) last_counter) as [Ec|Ec]; [|discriminate].
    destruct oc; [|discriminate]. eauto.
  - intros (eui & key & d & put & A & H).
    rewrite (admitted_receive oc _ _ _ _ _ _ _ _ _ rest A). cbv zeta. fold l.
    destruct H as [L|(-> & Ec & p & V)].
    + now replace (List.length rest <? tag_len l)%nat with true by (symmetry; apply Nat.ltb_lt; lia).
    + fold l in V. pose proof (verifies_long _ _ _ _ _ _ V) as Lv.
      replace (List.length rest <? tag_len l)%nat with false by (symmetry; apply Nat.ltb_ge; lia).
      destruct (verifies_test key l eui (frame_counter a) rest Ho ltac:(lia)) as [VT U]. cbv zeta in VT, U.
      rewrite <- (U p V) in *. rewrite (proj2 VT V). now rewrite Ec.
Qed.

(** When it does not accept: store untouched, buffer of the same length. *)
Lemma receive_fail oc sc dl ds h a rest r rest' ds' : octets rest -> auxiliary_security_header h = Some a ->
  receive E oc sc dl ds h a rest = (r, rest', ds') ->
  List.length rest' = List.length rest /\
  (match r with Ok _ => False | _ => True end -> lawful_lookup dl -> ds' = ds) /\
  (forall e, r = Err e -> e <> TransformationError -> rest' = rest) /\
  (forall e, r = Err e -> encrypting (security_level (control a)) = false -> rest' = rest) /\
  (forall e, r = Err e -> In e [NotImplemented; UnsupportedLegacy; UnsupportedSecurity; UnavailableKey; NoSourceAddress;
          UnavailableDevice; CounterError; TransformationError]).
Proof.
  intros Ho Ha R. destruct (admitted_dec oc sc dl ds h a rest Ha) as [(eui & key & d & put & A)|(e & s & X & I & Y)].
  2:{ rewrite X in R. injection R as <- <- <-. repeat split; try tauto. intros e' He. injection He as <-.
      cbn [In] in *. tauto. }
  rewrite (admitted_receive oc _ _ _ _ _ _ _ _ _ rest A) in R. cbv zeta in R.
  set (l := security_level (control a)) in *.
  assert (Pd : lawful_lookup dl -> put d = ds).
  { intros L. destruct A as (_ & _ & _ & _ & _ & (s & _ & Hd) & _). specialize (L s ds). now rewrite Hd in L. }
  destruct (Nat.ltb_spec (List.length rest) (tag_len l)) as [L|L].
  { injection R as <- <- <-. repeat split; auto; discriminate. }
  destruct (same_octets _ _ && _).
  - destruct (frame_counter a =? last_counter); [destruct oc|]; injection R as <- <- <-;
      rewrite app_length, secured_payload_length, firstn_length, skipn_length;
      (split; [lia|]); (split; [|repeat split; discriminate]); auto; contradiction.
  - injection R as <- <- <-. split; [|split; [auto|]].
    + rewrite app_length, skipn_length. destruct HE as [_ HF].
      destruct (encrypting l); rewrite ?HF, firstn_length; lia.
    + split; [|split].
      * intros e He Hne. congruence.
      * intros e _ He. rewrite He. apply firstn_skipn.
      * intros e He. injection He as <-. cbn [In]. tauto.
Qed.

(** * The whole reader *)

(** ** C38 Unsecured frames are read alike by both readers *)
Lemma read_plain_eq bs ctx dl ds h n : octets bs -> try_read_header c bs = Ok (h, n) ->
  auxiliary_security_header h = None ->
  try_read_and_unsecure c E bs ctx dl ds = (lift_sec (try_read_frame c Footer_None bs), (bs, ctx, ds)).
Proof.
  intros Hb EH Ha. unfold try_read_and_unsecure, try_read_frame.
  rewrite (read_with_eq (try_read_header c)) by lia. cbn [skipn]. rewrite EH. cbn [obind].
  destruct (read_with (try_read_content h) bs (0 + n)) as [[ct o]|e|]; cbn [obind lift_sec]; [|reflexivity..].
  unfold has_security. rewrite Ha.
  destruct (usize_sub c (N.of_nat (List.length bs)) (N.of_nat o)) as [len|e|] eqn:Eu; cbn [obind lift_sec];
    [|reflexivity..].
  assert (Ez : usize_sub c len (N.of_nat 0) = Ok len).
  { unfold usize_sub. change (N.of_nat 0) with 0. replace (0 <=? len) with true by (symmetry; apply N.leb_le; lia).
    f_equal. lia. }
  rewrite Ez. cbn [obind].
  destruct (read_with (read_bytes len) bs o) as [[p o']|e|]; reflexivity.
Qed.

Theorem C38_unsecured_read_alike : forall bs ctx dl ds, octets bs ->
  field (input_word bs) 3 1 = 0 ->
  try_read_and_unsecure c E bs ctx dl ds
  = (match try_read_frame c Footer_None bs with
     | Ok x => Ok x
     | Err e => Err (WriteError e)
     | Panic => Panic
     end, (bs, ctx, ds)).
Proof.
  intros bs ctx dl ds Hb Hbit.
  change (match try_read_frame c Footer_None bs with Ok x => Ok x | Err e => Err (WriteError e) | Panic => Panic end)
    with (lift_sec (try_read_frame c Footer_None bs)).
  destruct (try_read_header c bs) as [[h n]|e|] eqn:EH.
  - apply (read_plain_eq bs ctx dl ds h n Hb EH).
    destruct (header_need_eq c bs h n Hb EH) as (_ & _ & Es). rewrite Hbit in Es.
    apply has_security_none. now destruct (has_security h).
  - unfold try_read_and_unsecure, try_read_frame.
    rewrite (read_with_eq (try_read_header c)) by lia. cbn [skipn]. rewrite EH. reflexivity.
  - exfalso. now apply (C04_header_decode_never_panics c bs).
Qed.

(** * Secured frames *)

Lemma read_explicit bs h n ct k m sc dl ds : octets bs -> m = Footer_Explicit ->
  try_read_header c bs = Ok (h, n) -> try_read_content h (skipn n bs) = Ok (ct, k) ->
  auxiliary_security_header h <> None ->
  try_read_and_unsecure c E bs (ser_ctx m sc) dl ds = (Panic, (bs, ser_ctx m sc, ds)).
Proof.
  intros Hb -> EH EC Ha.
  pose proof (try_read_header_len c bs h n EH) as Ln.
  pose proof (try_read_content_len h (skipn n bs) ct k (octets_skipn n bs Hb) EC) as Lk. rewrite skipn_length in Lk.
  unfold try_read_and_unsecure.
  rewrite (read_with_eq (try_read_header c)) by lia. cbn [skipn]. rewrite EH. cbn [obind].
  replace (0 + n)%nat with n by lia. rewrite read_with_eq by lia. rewrite EC. cbn [obind].
  unfold has_security. destruct (auxiliary_security_header h) as [a|]; [|congruence].
  cbn [ser_ctx security_ctx footer_mode].
  replace (n + k <=? List.length bs)%nat with true by (symmetry; apply Nat.leb_le; lia).
  cbn [unsecure_frame]. now rewrite firstn_skipn.
Qed.

(** ** C39 (reading half) Missing security context is an error *)
Theorem C39_read_without_context : forall bs h n ct k m dl ds, octets bs ->
  try_read_header c bs = Ok (h, n) -> try_read_content h (skipn n bs) = Ok (ct, k) ->
  auxiliary_security_header h <> None ->
  try_read_and_unsecure c E bs (FrameSerDesContext_no_security m) dl ds
  = (Err InvalidSecContext, (bs, FrameSerDesContext_no_security m, ds)).
Proof.
  intros bs h n ct k m dl ds Hb EH EC Ha.
  pose proof (try_read_header_len c bs h n EH) as Ln.
  unfold try_read_and_unsecure.
  rewrite (read_with_eq (try_read_header c)) by lia. cbn [skipn]. rewrite EH. cbn [obind].
  replace (0 + n)%nat with n by lia. rewrite read_with_eq by lia. rewrite EC. cbn [obind].
  unfold has_security. destruct (auxiliary_security_header h) as [a|]; [|congruence]. reflexivity.
Qed.

(** The reader, case by case. *)
Lemma read_cases bs ctx dl ds : octets bs ->
  (exists e, try_read_and_unsecure c E bs ctx dl ds = (Err (WriteError e), (bs, ctx, ds)) /\
     (try_read_header c bs = Err e \/
      exists h n, try_read_header c bs = Ok (h, n) /\ try_read_content h (skipn n bs) = Err e)) \/
  (exists h n, try_read_header c bs = Ok (h, n) /\ auxiliary_security_header h = None /\
     exists f, header f = h /\ try_read_frame c Footer_None bs = Ok (f, List.length bs) /\
     try_read_and_unsecure c E bs ctx dl ds = (Ok (f, List.length bs), (bs, ctx, ds))) \/
  (exists h n ct k a, try_read_header c bs = Ok (h, n) /\ try_read_content h (skipn n bs) = Ok (ct, k) /\
     (n + k <= List.length bs)%nat /\ auxiliary_security_header h = Some a /\ u32_ok (frame_counter a) /\
     match security_ctx ctx with
     | None => try_read_and_unsecure c E bs ctx dl ds = (Err InvalidSecContext, (bs, ctx, ds))
     | Some sc =>
         match footer_mode ctx with
         | Footer_Explicit => try_read_and_unsecure c E bs ctx dl ds = (Panic, (bs, ctx, ds))
         | Footer_None =>
             try_read_and_unsecure c E bs ctx dl ds
             = let '(r, rest', ds') := receive E (overflow_checks c) sc dl ds h a (skipn (n + k) bs) in
               (match r with
                | Ok p => Ok ({| header := h; content := ct; payload := p; footer := (0, 0) |},
                              (List.length bs - tag_len (security_level (control a)))%nat)
                | Err e => Err e | Panic => Panic end,
                (firstn (n + k) bs ++ rest', ctx, ds'))
         end
     end).
Proof.
  intros Hb. destruct (try_read_header c bs) as [[h n]|e|] eqn:EH.
  2:{ left. exists e. split; [|now left]. unfold try_read_and_unsecure.
      rewrite (read_with_eq (try_read_header c)) by lia. cbn [skipn]. now rewrite EH. }
  2:{ exfalso. now apply (C04_header_decode_never_panics c bs). }
  pose proof (try_read_header_len c bs h n EH) as Ln.
  destruct (try_read_content h (skipn n bs)) as [[ct k]|e|] eqn:EC.
  - pose proof (try_read_content_len h (skipn n bs) ct k (octets_skipn n bs Hb) EC) as Lk. rewrite skipn_length in Lk.
    destruct (auxiliary_security_header h) as [a|] eqn:Ha.
    + right. right. exists h, n, ct, k, a. repeat (split; [first [reflexivity|assumption|lia]|]).
      split.
      { apply try_read_header_sound in EH; [|assumption]. destruct EH as (_ & ((_ & _ & _ & Hx) & _) & _).
        rewrite Ha in Hx. apply Hx. }
      destruct ctx as [m [sc|]]; cbn [security_ctx footer_mode].
      * destruct m.
        -- apply (read_and_unsecure_eq c E HE bs h n ct k a sc dl ds); assumption.
        -- apply (read_explicit bs h n ct k Footer_Explicit sc dl ds); try assumption; congruence.
      * apply (C39_read_without_context bs h n ct k m dl ds); try assumption; congruence.
    + right. left. exists h, n. repeat (split; [first [reflexivity|assumption]|]).
      pose proof (read_plain_eq bs ctx dl ds h n Hb EH Ha) as X.
      unfold try_read_frame in X |- *.
      rewrite (read_with_eq (try_read_header c)) in X |- * by lia. cbn [skipn] in X |- *. rewrite EH in X |- *.
      cbn [obind] in X |- *. replace (0 + n)%nat with n in X |- * by lia.
      rewrite read_with_eq in X |- * by lia. rewrite EC in X |- *. cbn [obind] in X |- *.
      unfold has_security in X |- *. rewrite Ha in X |- *.
      rewrite usize_sub_le in X |- * by lia. cbn [obind] in X |- *.
      rewrite read_bytes_at in X |- * by lia. cbn [obind lift_sec] in X |- *.
      replace (n + k + (List.length bs - (n + k)))%nat with (List.length bs) in X |- * by lia.
      eexists. split; [|split; [reflexivity|exact X]]. reflexivity.
  - left. exists e. split; [|right; eauto]. unfold try_read_and_unsecure.
    rewrite (read_with_eq (try_read_header c)) by lia. cbn [skipn]. rewrite EH. cbn [obind].
    replace (0 + n)%nat with n by lia. rewrite read_with_eq by lia. now rewrite EC.
  - exfalso. pose proof (try_read_content_fate h (skipn n bs) (octets_skipn n bs Hb)) as F.
    destruct (content_verdict (frame_type h) (skipn n bs)); [congruence|]. destruct F as [x F]. congruence.
Qed.


(** ** C32 Nothing is accepted without a valid tag *)

(** Exactly when a secured frame is accepted, and what is then left in context, buffer and
    device store: the input must be the header, the secured payload and its tag. *)
Theorem C32_accepted_iff : forall bs ctx dl ds f n bs' ctx' ds' a, octets bs ->
  auxiliary_security_header (header f) = Some a ->
  let l := security_level (control a) in
  let fc := frame_counter a in
  (try_read_and_unsecure c E bs ctx dl ds = (Ok (f, n), (bs', ctx', ds')) <->
   exists sc eui key d put r7 rs,
     ctx = ser_ctx Footer_None sc /\ ctx' = ctx /\
     header_decoded (header f) /\ content f = FC_Data /\ footer f = (0, 0) /\
     admitted sc dl ds (header f) a eui key d put /\
     rs < 8 /\
     bs = wire_header LE (native c) r7 rs (header f)
          ++ secured_payload E key l eui fc (payload f) ++ secured_tag E key l eui fc (payload f) /\
     (encrypting l = true -> N.of_nat (List.length (payload f)) < 2 ^ 16) /\
     (fc = last_counter -> overflow_checks c = false) /\
     n = (header_len (header f) + List.length (payload f))%nat /\
     bs' = wire_header LE (native c) r7 rs (header f)
           ++ payload f ++ secured_tag E key l eui fc (payload f) /\
     ds' = put {| dev_frame_counter := counter_after fc; dev_exempt := dev_exempt d |}).
Proof.
  intros bs ctx dl ds f n bs' ctx' ds' a Hb Ha. cbv zeta. split.
  - intros R. destruct (read_cases bs ctx dl ds Hb) as
      [(e & X & _)|[(h & n1 & _ & Hh & g & Eg & _ & X)|(h & n1 & ct & k & b & EH & EC & Lnk & Hh & Hfc & X)]].
    + rewrite X in R. discriminate.
    + rewrite X in R. apply pair_equal_spec in R. destruct R as [R _]. apply Ok_inj in R. destruct R as [-> _].
      congruence.
    + destruct ctx as [m [sc|]]; cbn [security_ctx footer_mode] in X; [|rewrite X in R; discriminate].
      destruct m; [|rewrite X in R; discriminate].
      destruct (receive E (overflow_checks c) sc dl ds h b (skipn (n1 + k) bs)) as [[r rest'] ds1] eqn:ER.
      rewrite X in R. clear X. destruct r as [p|e|]; try discriminate.
      apply pair_equal_spec in R. destruct R as [R1 R2]. apply Ok_inj in R1. destruct R1 as [<- <-].
      apply triple_inj in R2. destruct R2 as (<- & <- & <-). cbn [header content payload footer] in *.
      assert (b = a) by congruence. subst b.
      apply receive_ok_iff in ER; [|now apply octets_skipn|assumption|assumption].
      destruct ER as (eui & key & d & put & A & V & Hoc & -> & ->).
      pose proof A as (_ & Ht & _).
      destruct (try_read_header_sound c bs h n1 Hb EH) as (Ln & Hd & r7 & rs & Hrs & W).
      rewrite try_read_content_eq, Ht in EC. apply Ok_inj in EC. destruct EC as [<- <-].
      rewrite Nat.add_0_r in *.
      assert (En : n1 = header_len h).
      { rewrite <- (wire_header_length LE (native c) r7 rs h), <- W, firstn_length. lia. }
      exists sc, eui, key, d, put, r7, rs. repeat (split; [first [reflexivity|assumption]|]).
      pose proof (verifies_long _ _ _ _ _ _ V) as Lv. rewrite skipn_length in Lv.
      destruct V as [V V2].
      split; [rewrite <- V, <- W; now rewrite firstn_skipn|].
      split; [exact V2|]. split; [exact Hoc|]. split; [lia|]. split; [now rewrite W|reflexivity].
  - intros (sc & eui & key & d & put & r7 & rs & -> & -> & Hd & Ec & Ef & A & Hrs & Eb & Hl & Hoc & -> & -> & ->).
    pose proof A as (_ & Ht & _).
    assert (EH : try_read_header c bs = Ok (header f, header_len (header f)))
      by (rewrite Eb; now apply try_read_header_complete).
    assert (EC : try_read_content (header f) (skipn (header_len (header f)) bs) = Ok (FC_Data, 0%nat))
      by (rewrite try_read_content_eq, Ht; reflexivity).
    assert (Lh := wire_header_length LE (native c) r7 rs (header f)).
    assert (Sk : skipn (header_len (header f) + 0) bs
      = secured_payload E key (security_level (control a)) eui (frame_counter a) (payload f)
        ++ secured_tag E key (security_level (control a)) eui (frame_counter a) (payload f)).
    { rewrite Nat.add_0_r, Eb. now apply skipn_app_exact'. }
    assert (Fi : firstn (header_len (header f) + 0) bs = wire_header LE (native c) r7 rs (header f)).
    { rewrite Nat.add_0_r, Eb. now apply firstn_app_exact'. }
    assert (Lb : List.length bs = (header_len (header f) + (List.length (payload f) + tag_len (security_level (control a))))%nat).
    { rewrite Eb, !app_length, Lh, secured_payload_length, secured_tag_length. reflexivity. }
    rewrite (read_and_unsecure_eq c E HE bs (header f) (header_len (header f)) FC_Data 0 a sc dl ds);
      try assumption; try lia.
    assert (Hfc : u32_ok (frame_counter a)).
    { destruct Hd as ((_ & _ & _ & Hx) & _). rewrite Ha in Hx. apply Hx. }
    assert (ER : receive E (overflow_checks c) sc dl ds (header f) a (skipn (header_len (header f) + 0) bs)
      = (Ok (payload f),
         payload f ++ secured_tag E key (security_level (control a)) eui (frame_counter a) (payload f),
         put {| dev_frame_counter := counter_after (frame_counter a); dev_exempt := dev_exempt d |})).
    { apply receive_ok_iff; [now apply octets_skipn|assumption|assumption|].
      exists eui, key, d, put. split; [exact A|]. split; [split; [exact Sk|exact Hl]|]. auto. }
    rewrite ER, Fi, Lb. f_equal. f_equal. f_equal.
    + destruct f; cbn in *. congruence.
    + lia.
Qed.

(** The security-relevant half of it, from right to left through the input. *)
Theorem C32_accepted_has_valid_tag : forall bs ctx dl ds f n r, octets bs ->
  try_read_and_unsecure c E bs ctx dl ds = (Ok (f, n), r) ->
  field (input_word bs) 3 1 = 1 ->
  exists sc a s eui key d put,
    security_ctx ctx = Some sc /\
    auxiliary_security_header (header f) = Some a /\ source (header f) = Some s /\
    sc_key_provider sc SrcAddrMode (key_identifier a) (Some s) = Some (eui, key) /\
    dl SrcAddrMode s ds = DevFound d put /\
    dev_frame_counter d <= frame_counter a /\ dev_frame_counter d <> 0xFFFFFFFF /\
    authenticated (security_level (control a)) = true /\
    let l := security_level (control a) in
    skipn n bs = secured_tag E key l eui (frame_counter a) (payload f) /\
    List.length (skipn n bs) = mic_octet_size l /\
    skipn (header_len (header f)) (firstn n bs) = secured_payload E key l eui (frame_counter a) (payload f).
Proof.
  intros bs ctx dl ds f n [[bs' ctx'] ds'] Hb R Hbit.
  destruct (auxiliary_security_header (header f)) as [a|] eqn:Ha.
  - apply (C32_accepted_iff bs ctx dl ds f n bs' ctx' ds' a Hb Ha) in R.
    destruct R as (sc & eui & key & d & put & r7 & rs & -> & _ & Hd & Ec & Ef & A & Hrs & Eb & Hl & Hoc & -> & _ & _).
    destruct A as (_ & Ht & Hv & Hau & Hk & (s & Hs & Hdl) & Hm & Hc).
    exists sc, a, s, eui, key, d, put. rewrite Hs in Hk.
    repeat (split; [first [reflexivity|assumption]|]).
    set (P := secured_payload E key (security_level (control a)) eui (frame_counter a) (payload f)) in *.
    set (T := secured_tag E key (security_level (control a)) eui (frame_counter a) (payload f)) in *.
    assert (LP : List.length P = List.length (payload f)) by apply secured_payload_length.
    assert (Lh := wire_header_length LE (native c) r7 rs (header f)).
    assert (Sk : skipn (header_len (header f) + List.length (payload f)) bs = T).
    { rewrite Eb, app_assoc. apply skipn_app_exact'. rewrite app_length. lia. }
    cbv zeta. rewrite Sk. split; [reflexivity|]. split.
    + unfold T. rewrite secured_tag_length. now destruct (security_level (control a)).
    + rewrite Eb, app_assoc. rewrite firstn_app_exact' by (rewrite app_length; lia). now apply skipn_app_exact'.
  - exfalso. destruct (read_cases bs ctx dl ds Hb) as
      [(e & X & _)|[(h & n1 & EH & Hh & g & Eg & _ & X)|(h & n1 & ct & k & b & EH & EC & Lnk & Hh & Hfc & X)]].
    + rewrite X in R. discriminate.
    + destruct (header_need_eq c bs h n1 Hb EH) as (_ & _ & Es & _). rewrite Hbit in Es.
      unfold has_security in Es. rewrite Hh in Es. discriminate.
    + destruct (security_ctx ctx) as [sc|]; [|rewrite X in R; discriminate].
      destruct (footer_mode ctx); [|rewrite X in R; discriminate].
      destruct (receive E (overflow_checks c) sc dl ds h b (skipn (n1 + k) bs)) as [[[p|e|] rest'] ds1];
        rewrite X in R; try discriminate.
      apply pair_equal_spec in R. destruct R as [R _]. apply Ok_inj in R. destruct R as [<- _].
      cbn [header] in Ha. congruence.
Qed.


(** ** C33 Rejected frames do not move the replay window *)

Lemma firstn_app_same {A} n (xs ys : list A) : (n <= List.length xs)%nat -> firstn n (firstn n xs ++ ys) = firstn n xs.
Proof. intros H. apply firstn_app_exact'. rewrite firstn_length. lia. Qed.

(** The security context is never changed by reading. *)
Theorem C33_context_never_changes : forall bs ctx dl ds, octets bs ->
  snd (fst (snd (try_read_and_unsecure c E bs ctx dl ds))) = ctx.
Proof.
  intros bs ctx dl ds Hb. destruct (read_cases bs ctx dl ds Hb) as
    [(e & X & _)|[(h & n1 & _ & Hh & g & Eg & _ & X)|(h & n1 & ct & k & b & EH & EC & Lnk & Hh & Hfc & X)]].
  1,2: now rewrite X.
  destruct (security_ctx ctx) as [sc|]; [|now rewrite X].
  destruct (footer_mode ctx); [|now rewrite X].
  destruct (receive E (overflow_checks c) sc dl ds h b (skipn (n1 + k) bs)) as [[r rest'] ds1].
  now rewrite X.
Qed.

(** Whatever is not accepted - errors and panics alike - leaves the device store as it was. The
    buffer keeps its length and its header; it is unchanged unless verification failed (or the
    counter overflowed) at an encrypting level. *)
Theorem C33_rejected_changes_nothing : forall bs ctx dl ds r bs' ctx' ds', octets bs ->
  lawful_lookup dl ->
  try_read_and_unsecure c E bs ctx dl ds = (r, (bs', ctx', ds')) ->
  (forall x, r <> Ok x) ->
  ds' = ds /\ ctx' = ctx /\ List.length bs' = List.length bs /\
  (forall h n, try_read_header c bs = Ok (h, n) -> firstn n bs' = firstn n bs) /\
  (forall e, r = Err e -> e <> TransformationError -> bs' = bs) /\
  (forall h n a e, try_read_header c bs = Ok (h, n) -> auxiliary_security_header h = Some a ->
     r = Err e -> encrypting (security_level (control a)) = false -> bs' = bs).
Proof.
  intros bs ctx dl ds r bs' ctx' ds' Hb HL R Hr.
  destruct (read_cases bs ctx dl ds Hb) as
    [(e & X & _)|[(h & n1 & _ & Hh & g & Eg & _ & X)|(h & n1 & ct & k & b & EH & EC & Lnk & Hh & Hfc & X)]].
  1,2: rewrite X in R; apply pair_equal_spec in R; destruct R as [R1 R2];
    apply triple_inj in R2; destruct R2 as (<- & <- & <-); auto 10.
  destruct (security_ctx ctx) as [sc|].
  2:{ rewrite X in R. apply pair_equal_spec in R. destruct R as [R1 R2].
      apply triple_inj in R2. destruct R2 as (<- & <- & <-). auto 10. }
  destruct (footer_mode ctx).
  2:{ rewrite X in R. apply pair_equal_spec in R. destruct R as [R1 R2].
      apply triple_inj in R2. destruct R2 as (<- & <- & <-). auto 10. }
  destruct (receive E (overflow_checks c) sc dl ds h b (skipn (n1 + k) bs)) as [[r1 rest'] ds1] eqn:ER.
  rewrite X in R. clear X. apply pair_equal_spec in R. destruct R as [R1 R2].
  apply triple_inj in R2. destruct R2 as (<- & <- & <-).
  apply receive_fail in ER; [|now apply octets_skipn|assumption].
  destruct ER as (L & D0 & B1 & B2 & _). rewrite skipn_length in L.
  assert (Hr1 : match r1 with Ok _ => False | _ => True end).
  { destruct r1; auto. subst r. now apply (Hr _ eq_refl). }
  split; [now apply D0|]. split; [reflexivity|].
  split; [rewrite app_length, firstn_length; lia|].
  assert (Same : rest' = skipn (n1 + k) bs -> firstn (n1 + k) bs ++ rest' = bs).
  { intros ->. apply firstn_skipn. }
  split; [|split].
  - intros h' n' EH'. assert (n' = n1) by congruence. subst n'.
    rewrite firstn_app, firstn_firstn, firstn_length.
    replace (n1 - Nat.min (n1 + k) (List.length bs))%nat with 0%nat by lia. cbn [firstn].
    rewrite app_nil_r. f_equal. lia.
  - intros e He Hne. apply Same. apply (B1 e); [|assumption]. destruct r1; congruence.
  - intros h' n' a' e EH' Ha' He Hl. apply Same.
    assert (h' = h) by congruence. subst h'. assert (a' = b) by congruence. subst a'.
    apply (B2 e); [|assumption]. destruct r1; congruence.
Qed.

(** Accepting changes one descriptor: the one the lookup returned, and in it only the frame
    counter (the [exempt] flag is put back as it was). *)
Theorem C33_accepted_sets_counter : forall bs ctx dl ds f n bs' ctx' ds' a, octets bs ->
  try_read_and_unsecure c E bs ctx dl ds = (Ok (f, n), (bs', ctx', ds')) ->
  auxiliary_security_header (header f) = Some a ->
  ctx' = ctx /\
  exists s d put, source (header f) = Some s /\ dl SrcAddrMode s ds = DevFound d put /\
    dev_frame_counter d <= frame_counter a /\
    ds' = put {| dev_frame_counter := (frame_counter a + 1) mod 2 ^ 32; dev_exempt := dev_exempt d |}.
Proof.
  intros bs ctx dl ds f n bs' ctx' ds' a Hb R Ha.
  apply (C32_accepted_iff bs ctx dl ds f n bs' ctx' ds' a Hb Ha) in R.
  destruct R as (sc & eui & key & d & put & r7 & rs & -> & -> & Hd & Ec & Ef & A & Hrs & Eb & Hl & Hoc & -> & _ & ->).
  destruct A as (_ & Ht & Hv & Hau & Hk & (s & Hs & Hdl) & Hm & Hc).
  split; [reflexivity|]. exists s, d, put. auto.
Qed.

(** Accepting an unsecured frame changes nothing at all. *)
Theorem C33_unsecured_changes_nothing : forall bs ctx dl ds f n bs' ctx' ds', octets bs ->
  try_read_and_unsecure c E bs ctx dl ds = (Ok (f, n), (bs', ctx', ds')) ->
  auxiliary_security_header (header f) = None -> bs' = bs /\ ctx' = ctx /\ ds' = ds.
Proof.
  intros bs ctx dl ds f n bs' ctx' ds' Hb R Ha.
  destruct (read_cases bs ctx dl ds Hb) as
    [(e & X & _)|[(h & n1 & _ & Hh & g & Eg & _ & X)|(h & n1 & ct & k & b & EH & EC & Lnk & Hh & Hfc & X)]].
  - rewrite X in R. discriminate.
  - rewrite X in R. apply pair_equal_spec in R. destruct R as [_ R2].
    apply triple_inj in R2. destruct R2 as (<- & <- & <-). auto.
  - exfalso. destruct (security_ctx ctx) as [sc|]; [|rewrite X in R; discriminate].
    destruct (footer_mode ctx); [|rewrite X in R; discriminate].
    destruct (receive E (overflow_checks c) sc dl ds h b (skipn (n1 + k) bs)) as [[[p|e|] rest'] ds1];
      rewrite X in R; try discriminate.
    apply pair_equal_spec in R. destruct R as [R _]. apply Ok_inj in R. destruct R as [<- _].
    cbn [header] in Ha. congruence.
Qed.

(** ** C36 Receiving panics only in characterised cases *)
Theorem C36_receive_panics_iff : forall bs ctx dl ds, octets bs ->
  (fst (try_read_and_unsecure c E bs ctx dl ds) = Panic <->
   exists h n ct k a sc,
     try_read_header c bs = Ok (h, n) /\ try_read_content h (skipn n bs) = Ok (ct, k) /\
     auxiliary_security_header h = Some a /\ security_ctx ctx = Some sc /\
     (footer_mode ctx = Footer_Explicit \/
      exists eui key d put, admitted sc dl ds h a eui key d put /\
        let l := security_level (control a) in
        let rest := skipn n bs in
        ((List.length rest < tag_len l)%nat \/
         overflow_checks c = true /\ frame_counter a = last_counter /\
         exists p, verifies E key l eui (frame_counter a) rest p))).
Proof.
  intros bs ctx dl ds Hb. split.
  - intros R. destruct (read_cases bs ctx dl ds Hb) as
      [(e & X & _)|[(h & n1 & _ & Hh & g & Eg & _ & X)|(h & n1 & ct & k & b & EH & EC & Lnk & Hh & Hfc & X)]].
    1,2: rewrite X in R; discriminate.
    destruct (security_ctx ctx) as [sc|] eqn:Es; [|rewrite X in R; discriminate].
    exists h, n1, ct, k, b, sc. repeat (split; [assumption||reflexivity|]).
    destruct (footer_mode ctx); [right|now left].
    assert (P : fst (fst (receive E (overflow_checks c) sc dl ds h b (skipn (n1 + k) bs))) = Panic).
    { rewrite X in R. destruct (receive E (overflow_checks c) sc dl ds h b (skipn (n1 + k) bs)) as [[[p|e|] rest'] ds1];
        cbn [fst] in *; try discriminate. reflexivity. }
    apply receive_panic_iff in P; [|now apply octets_skipn|assumption].
    destruct P as (eui & key & d & put & A & P). exists eui, key, d, put. split; [exact A|].
    assert (k = 0)%nat.
    { destruct A as (_ & Ht & _). rewrite try_read_content_eq, Ht in EC. apply Ok_inj in EC. now symmetry. }
    subst k. rewrite Nat.add_0_r in P. exact P.
  - intros (h & n & ct & k & a & sc & EH & EC & Ha & Es & H).
    destruct ctx as [m osc]. cbn [security_ctx footer_mode] in *. subst osc. destruct m.
    + destruct H as [H|(eui & key & d & put & A & H)]; [discriminate|].
      assert (k = 0)%nat.
      { destruct A as (_ & Ht & _). rewrite try_read_content_eq, Ht in EC. apply Ok_inj in EC. now symmetry. }
      subst k.
      change {| footer_mode := Footer_None; security_ctx := Some sc |} with (ser_ctx Footer_None sc).
      rewrite (read_and_unsecure_eq c E HE bs h n ct 0 a sc dl ds) by assumption.
      assert (P : fst (fst (receive E (overflow_checks c) sc dl ds h a (skipn (n + 0) bs))) = Panic).
      { apply receive_panic_iff; [now apply octets_skipn|assumption|]. rewrite Nat.add_0_r. eauto 6. }
      destruct (receive E (overflow_checks c) sc dl ds h a (skipn (n + 0) bs)) as [[r1 rest'] ds1].
      cbn [fst] in P. subst r1. reflexivity.
    + change {| footer_mode := Footer_Explicit; security_ctx := Some sc |} with (ser_ctx Footer_Explicit sc).
      rewrite (read_explicit bs h n ct k Footer_Explicit sc dl ds); try assumption; try congruence. reflexivity.
Qed.

(** In particular: any header whose source has a key and a device, followed by fewer octets than
    the tag, brings the receiver down - in every build, without knowing the key. *)
Theorem C36_short_frame_panics : forall sc dl ds h a eui key d put r7 rs rest,
  header_decoded h -> rs < 8 -> octets rest -> admitted sc dl ds h a eui key d put ->
  (List.length rest < tag_len (security_level (control a)))%nat ->
  fst (try_read_and_unsecure c E (wire_header LE (native c) r7 rs h ++ rest) (ser_ctx Footer_None sc) dl ds) = Panic.
Proof.
  intros sc dl ds h a eui key d put r7 rs rest Hd Hrs Ho A L.
  assert (Hb : octets (wire_header LE (native c) r7 rs h ++ rest)).
  { apply octets_app. split; [|exact Ho]. apply octets_wire_header; [exact Hrs|apply Hd]. }
  apply C36_receive_panics_iff; [exact Hb|]. pose proof A as (Ha & Ht & _).
  assert (Sk : skipn (header_len h) (wire_header LE (native c) r7 rs h ++ rest) = rest)
    by (apply skipn_app_exact'; now rewrite wire_header_length).
  exists h, (header_len h), FC_Data, 0%nat, a, sc.
  split; [now apply try_read_header_complete|]. split; [now rewrite try_read_content_eq, Ht|].
  split; [exact Ha|]. split; [reflexivity|]. right. exists eui, key, d, put. split; [exact A|].
  cbv zeta. rewrite Sk. now left.
Qed.

(** ** C37 The header of a secured frame is not authenticated *)

(** If a secured frame is accepted, then so is the same secured payload and tag behind any other
    data-frame header that names the same source and carries the same auxiliary security header -
    whatever its flags, version, sequence number and destination. *)
Theorem C37_header_not_authenticated : forall bs ctx dl ds f n bs' ctx' ds' a, octets bs ->
  try_read_and_unsecure c E bs ctx dl ds = (Ok (f, n), (bs', ctx', ds')) ->
  auxiliary_security_header (header f) = Some a ->
  forall h2 r7 rs, header_decoded h2 -> rs < 8 ->
  frame_type h2 = Data_t -> version h2 <> Ieee802154_2003 ->
  source h2 = source (header f) -> auxiliary_security_header h2 = Some a ->
  exists bs2',
  try_read_and_unsecure c E (wire_header LE (native c) r7 rs h2 ++ skipn (header_len (header f)) bs) ctx dl ds
  = (Ok ({| header := h2; content := FC_Data; payload := payload f; footer := (0, 0) |},
         (header_len h2 + List.length (payload f))%nat), (bs2', ctx, ds')).
Proof.
  intros bs ctx dl ds f n bs' ctx' ds' a Hb R Ha h2 r7 rs Hd2 Hrs Ht2 Hv2 Hs2 Ha2.
  apply (C32_accepted_iff bs ctx dl ds f n bs' ctx' ds' a Hb Ha) in R.
  destruct R as (sc & eui & key & d & put & r7' & rs' & -> & -> & Hd & Ec & Ef & A & Hrs' & Eb & Hl & Hoc & -> & _ & ->).
  assert (Sk : skipn (header_len (header f)) bs
      = secured_payload E key (security_level (control a)) eui (frame_counter a) (payload f)
        ++ secured_tag E key (security_level (control a)) eui (frame_counter a) (payload f)).
  { rewrite Eb. apply skipn_app_exact'. now rewrite wire_header_length. }
  rewrite Sk. eexists.
  eapply (C32_accepted_iff _ (ser_ctx Footer_None sc) dl ds
    {| header := h2; content := FC_Data; payload := payload f; footer := (0, 0) |}); cbn [header payload].
  - apply octets_app. split; [apply octets_wire_header; [exact Hrs|apply Hd2]|].
    rewrite <- Sk. now apply octets_skipn.
  - exact Ha2.
  - exists sc, eui, key, d, put, r7, rs. cbn [header payload content footer].
    destruct A as (_ & Ht & Hv & Hau & Hk & (s & Hs & Hdl) & Hm & Hc).
    repeat (split; [first [reflexivity|assumption]|]).
    split; [|repeat (split; [first [reflexivity|assumption]|]); reflexivity].
    unfold admitted. rewrite Hs2. repeat (split; [first [reflexivity|assumption]|]). eauto.
Qed.

(** ** C39 (reading half, continued) *)
Theorem C39_secured_never_read_without_context : forall bs ctx dl ds x, octets bs ->
  security_ctx ctx = None -> field (input_word bs) 3 1 = 1 ->
  fst (try_read_and_unsecure c E bs ctx dl ds) <> Ok x.
Proof.
  intros bs ctx dl ds [f n] Hb Hc Hbit R.
  destruct (try_read_and_unsecure c E bs ctx dl ds) as [r0 r1] eqn:X. cbn [fst] in R. subst r0.
  destruct (C32_accepted_has_valid_tag bs ctx dl ds f n r1 Hb X Hbit) as (sc & _ & _ & _ & _ & _ & _ & H & _).
  congruence.
Qed.

(** ** C42 (receiving) Security level semantics *)
Theorem C42_unprotected_never_accepted : forall bs ctx dl ds f n r a, octets bs ->
  try_read_and_unsecure c E bs ctx dl ds = (Ok (f, n), r) ->
  auxiliary_security_header (header f) = Some a ->
  security_level (control a) <> SL_None /\ security_level (control a) <> SL_ENC.
Proof.
  intros bs ctx dl ds f n [[bs' ctx'] ds'] a Hb R Ha.
  apply (C32_accepted_iff bs ctx dl ds f n bs' ctx' ds' a Hb Ha) in R.
  destruct R as (sc & eui & key & d & put & r7' & rs' & _ & _ & _ & _ & _ & A & _).
  destruct A as (_ & _ & _ & Hau & _). split; intros X; rewrite X in Hau; discriminate.
Qed.

Theorem C42_level_none_refused : forall bs h n a sc dl ds, octets bs ->
  try_read_header c bs = Ok (h, n) -> auxiliary_security_header h = Some a ->
  frame_type h = Data_t -> version h <> Ieee802154_2003 -> security_level (control a) = SL_None ->
  try_read_and_unsecure c E bs (ser_ctx Footer_None sc) dl ds
  = (Err UnsupportedSecurity, (bs, ser_ctx Footer_None sc, ds)).
Proof.
  intros bs h n a sc dl ds Hb EH Ha Ht Hv Hl.
  rewrite (read_and_unsecure_eq c E HE bs h n FC_Data 0 a sc dl ds);
    [|assumption..|now rewrite try_read_content_eq, Ht|assumption].
  unfold receive, is_data. rewrite Ht, Hl. cbn [negb level_is_none].
  replace (match version h with Ieee802154_2003 => true | _ => false end) with false by (destruct (version h); congruence).
  now rewrite firstn_skipn.
Qed.

(** Encryption without authentication is refused, once key, device and counter are in order. *)
Theorem C42_level_enc_refused : forall bs h n a sc dl ds s eui key d put, octets bs ->
  try_read_header c bs = Ok (h, n) -> auxiliary_security_header h = Some a ->
  frame_type h = Data_t -> version h <> Ieee802154_2003 -> security_level (control a) = SL_ENC ->
  source h = Some s ->
  sc_key_provider sc SrcAddrMode (key_identifier a) (Some s) = Some (eui, key) ->
  dl SrcAddrMode s ds = DevFound d put -> dev_frame_counter d <= frame_counter a ->
  dev_frame_counter d <> last_counter ->
  try_read_and_unsecure c E bs (ser_ctx Footer_None sc) dl ds
  = (Err NotImplemented, (bs, ser_ctx Footer_None sc, put d)).
Proof.
  intros bs h n a sc dl ds s eui key d put Hb EH Ha Ht Hv Hl Hs Hk Hd Hc Hm.
  rewrite (read_and_unsecure_eq c E HE bs h n FC_Data 0 a sc dl ds);
    [|assumption..|now rewrite try_read_content_eq, Ht|assumption].
  unfold receive, is_data. rewrite Ht, Hl, Hs, Hk, Hd. cbn [negb level_is_none level_is_enc].
  replace (match version h with Ieee802154_2003 => true | _ => false end) with false by (destruct (version h); congruence).
  replace (dev_frame_counter d =? last_counter) with false by (symmetry; now apply N.eqb_neq).
  replace (frame_counter a <? dev_frame_counter d) with false by (symmetry; now apply N.ltb_ge).
  cbn [orb]. now rewrite firstn_skipn.
Qed.

(** ** C44 (unsecuring) Key and device lookups use the right end *)

(** Two receivers whose key providers agree at (source mode, received key identifier, received
    source) and whose device lookups agree at (source mode, received source) do the same - even
    if the receivers' own EUI-64 and frame counter differ. *)
Theorem C44_unsecuring_queries : forall bs m sc1 sc2 dl1 dl2 ds, octets bs ->
  (forall h n a, try_read_header c bs = Ok (h, n) -> auxiliary_security_header h = Some a ->
     sc_key_provider sc1 SrcAddrMode (key_identifier a) (source h)
     = sc_key_provider sc2 SrcAddrMode (key_identifier a) (source h) /\
     forall s, source h = Some s -> dl1 SrcAddrMode s ds = dl2 SrcAddrMode s ds) ->
  let r1 := try_read_and_unsecure c E bs (ser_ctx m sc1) dl1 ds in
  let r2 := try_read_and_unsecure c E bs (ser_ctx m sc2) dl2 ds in
  fst r1 = fst r2 /\ fst (fst (snd r1)) = fst (fst (snd r2)) /\ snd (snd r1) = snd (snd r2).
Proof.
  intros bs m sc1 sc2 dl1 dl2 ds Hb H. cbv zeta.
  destruct (try_read_header c bs) as [[h n]|e|] eqn:EH.
  2:{ unfold try_read_and_unsecure. rewrite (read_with_eq (try_read_header c)) by lia. cbn [skipn]. rewrite EH. auto. }
  2:{ exfalso. now apply (C04_header_decode_never_panics c bs). }
  destruct (auxiliary_security_header h) as [a|] eqn:Ha.
  2:{ rewrite !(read_plain_eq bs _ _ ds h n Hb EH Ha). auto. }
  destruct (H h n a eq_refl Ha) as [Hk Hd].
  destruct (try_read_content h (skipn n bs)) as [[ct k]|e|] eqn:EC.
  2,3: pose proof (try_read_header_len c bs h n EH) as Ln;
    unfold try_read_and_unsecure; rewrite (read_with_eq (try_read_header c)) by lia; cbn [skipn]; rewrite EH; cbn [obind];
    replace (0 + n)%nat with n by lia; rewrite read_with_eq by lia; rewrite EC; auto.
  destruct m.
  2:{ rewrite !(read_explicit bs h n ct k Footer_Explicit _ _ ds); try assumption; try congruence; auto. }
  rewrite (read_and_unsecure_eq c E HE bs h n ct k a sc1 dl1 ds), (read_and_unsecure_eq c E HE bs h n ct k a sc2 dl2 ds)
    by assumption.
  assert (X : receive E (overflow_checks c) sc1 dl1 ds h a (skipn (n + k) bs)
            = receive E (overflow_checks c) sc2 dl2 ds h a (skipn (n + k) bs)).
  { unfold receive. rewrite Hk. destruct (source h) as [s|]; [|reflexivity]. now rewrite (Hd s eq_refl). }
  rewrite X. destruct (receive E (overflow_checks c) sc2 dl2 ds h a (skipn (n + k) bs)) as [[r rest'] ds1]. auto.
Qed.

(** ** C47 (receiving) *)
Definition decode_errors : list byte_error :=
  [Incomplete; BadInput "InvalidFrameVersion"; BadInput "InvalidFrameType";
   BadInput "InvalidAddressMode"; BadInput "InvalidValue"].
Theorem C47_receive_errors : forall bs ctx dl ds e, octets bs ->
  fst (try_read_and_unsecure c E bs ctx dl ds) = Err e ->
  (exists e', e = WriteError e' /\ In e' decode_errors) \/
  In e [InvalidSecContext; NotImplemented; UnsupportedLegacy; UnsupportedSecurity; UnavailableKey; NoSourceAddress;
        UnavailableDevice; CounterError; TransformationError].
Proof.
  intros bs ctx dl ds e Hb R.
  destruct (read_cases bs ctx dl ds Hb) as
    [(e' & X & Y)|[(h & n1 & _ & Hh & g & Eg & _ & X)|(h & n1 & ct & k & b & EH & EC & Lnk & Hh & Hfc & X)]].
  - left. rewrite X in R. cbn [fst] in R. injection R as <-. exists e'. split; [reflexivity|].
    destruct Y as [Y|(h & n & EH & Y)].
    + pose proof (C04_header_decode_verdict c bs) as V. destruct (header_verdict bs) as [e1|] eqn:EV.
      2:{ destruct V as [x V]. congruence. }
      assert (e1 = e') by congruence. subst e1. unfold header_verdict in EV.
      repeat match type of EV with (if ?x then _ else _) = _ =>
        destruct x; [injection EV as <-; cbn [In decode_errors]; tauto|] end. discriminate.
    + pose proof (try_read_content_fate h (skipn n bs) (octets_skipn n bs Hb)) as V.
      destruct (content_verdict (frame_type h) (skipn n bs)) as [e1|] eqn:EV.
      2:{ destruct V as [x V]. congruence. }
      assert (e1 = e') by congruence. subst e1. unfold content_verdict in EV.
      destruct (frame_type h); try discriminate.
      * destruct (_ <? _)%nat; [|discriminate]. injection EV as <-. cbn [In decode_errors]. tauto.
      * unfold command_verdict in EV. destruct (skipn n bs); [injection EV as <-; cbn [In decode_errors]; tauto|].
        repeat match type of EV with (if ?x then _ else _) = _ =>
          destruct x; [injection EV as <-; cbn [In decode_errors]; tauto|] end. discriminate.
  - rewrite X in R. discriminate.
  - right. destruct (security_ctx ctx) as [sc|].
    2:{ rewrite X in R. cbn [fst] in R. injection R as <-. cbn [In]. tauto. }
    destruct (footer_mode ctx); [|rewrite X in R; discriminate].
    destruct (receive E (overflow_checks c) sc dl ds h b (skipn (n1 + k) bs)) as [[r rest'] ds1] eqn:ER.
    rewrite X in R. cbn [fst] in R. destruct r as [p|e1|]; try discriminate. injection R as <-.
    apply receive_fail in ER; [|now apply octets_skipn|assumption].
    destruct ER as (_ & _ & _ & _ & I). specialize (I e1 eq_refl). cbn [In] in *. tauto.
Qed.

End Receive.

(** ** C28 Secured round trip *)

(** [c1] is the sender's build, [c2] the receiver's; both hosts are little endian (see C41). *)
Theorem C28_secured_round_trip : forall K D (E : block_cipher K) c1 c2 f a sc buf n ctx' buf' rsc
    (dl : DeviceLookup D) ds s eui key d put,
  cipher_ok E -> native c1 = LE -> native c2 = LE ->
  frame_ok f -> u32_ok (sc_frame_counter sc) -> frame_consistent f ->
  version (header f) <> Ieee802154_2003 ->
  auxiliary_security_header (header f) = Some a ->
  authenticated (security_level (control a)) = true ->
  let fc := sc_frame_counter sc in
  (* the write succeeds *)
  try_write_frame c1 E f (ser_ctx Footer_None sc) buf = (Ok n, (ctx', buf')) ->
  (* the receiver finds the sender's key and EUI-64, and a counter that is not ahead *)
  source (header_sent fc (header f)) = Some s ->
  sc_key_provider sc DstAddrMode (key_identifier a) (destination (header f)) = Some (eui, key) ->
  sc_key_provider rsc SrcAddrMode (key_identifier a) (Some s) = Some (sc_euid sc, key) ->
  dl SrcAddrMode s ds = DevFound d put -> dev_frame_counter d <= fc ->
  exists bs',
  try_read_and_unsecure c2 E (firstn n buf') (ser_ctx Footer_None rsc) dl ds
  = (Ok (frame_sent Footer_None fc f, (n - tag_len (security_level (control a)))%nat),
     (bs', ser_ctx Footer_None rsc,
      put {| dev_frame_counter := fc + 1; dev_exempt := dev_exempt d |})).
Proof.
  intros K D E c1 c2 f a sc buf n ctx' buf' rsc dl ds s eui key d put HE N1 N2 Hok Hfc Hcon Hv Ha Hl fc W Hs Hk Hrk Hd Hc.
  destruct (write_ok_inv c1 E HE f Footer_None sc buf n ctx' buf' Hok Hfc W) as (bs & used & P & Lb & En & Ectx & Eb & F).
  apply plan_ok in P. rewrite Ha in P. destruct P as (Hca & _ & Ht & Lest & P).
  destruct (level_is_none _) eqn:El; [destruct (security_level (control a)); discriminate|].
  destruct P as (_ & Hlast & _ & eui' & key' & Hk' & Ebs).
  assert (key' = key) by congruence. subst key'. fold fc in Ebs, Hlast.
  rewrite F. set (l := security_level (control a)) in *.
  assert (Ect : content f = FC_Data).
  { unfold frame_consistent in Hcon. rewrite Ht in Hcon. destruct (content f); try discriminate. reflexivity. }
  assert (Ew : bs = wire_header LE (native c2) false 0 (header_sent fc (header f))
                    ++ secured_payload E key l (sc_euid sc) fc (payload f) ++ secured_tag E key l (sc_euid sc) fc (payload f)).
  { rewrite Ebs. unfold wire_front. rewrite Ect, N1, N2. cbn [wire_content]. now rewrite app_nil_r. }
  set (a' := {| control := {| security_level := l; key_id_mode := mode_of_key (key_identifier a) |};
                frame_counter := fc; key_identifier := key_identifier a |}).
  assert (Ha' : auxiliary_security_header (header_sent fc (header f)) = Some a').
  { unfold header_sent. cbn [auxiliary_security_header]. rewrite Ha. reflexivity. }
  assert (Hob : octets bs).
  { rewrite Ebs. apply octets_app. split; [now apply octets_front|]. destruct Hok as (_ & _ & Hp & _).
    apply octets_app. split; [now apply octets_secured_payload|now apply octets_secured_tag]. }
  eexists.
  eapply (C32_accepted_iff c2 E HE bs (ser_ctx Footer_None rsc) dl ds (frame_sent Footer_None fc f) _ _ _ _ a');
    [exact Hob|exact Ha'|].
  exists rsc, (sc_euid sc), key, d, put, false, 0. cbn [frame_sent header content payload footer].
  change (security_level (control a')) with l. change (frame_counter a') with fc.
  split; [reflexivity|]. split; [reflexivity|].
  split; [apply header_sent_decoded; [apply Hok|now apply compression_ok_iff|exact Hfc]|].
  split; [exact Ect|]. split; [reflexivity|].
  split. { split; [exact Ha'|]. split; [exact Ht|]. split; [exact Hv|]. split; [exact Hl|].
           split; [now rewrite Hs|]. split; [exists s; auto|]. split; [|exact Hc].
           change (frame_counter a') with fc in *. change last_counter with 4294967295 in *. unfold u32_ok in Hfc.
           change (2 ^ 32) with 4294967296 in Hfc. fold fc in Hfc. lia. }
  split; [reflexivity|]. split; [exact Ew|].
  split. { intros _. unfold length_estimate in Lest. change (2 ^ 16) with 65536. lia. }
  split; [intros X; contradiction|].
  split. { rewrite En, Ew, !app_length, wire_header_length, secured_payload_length, secured_tag_length. fold l. lia. }
  split; [reflexivity|].
  f_equal. f_equal. rewrite counter_after_eq by assumption.
  now replace (fc =? last_counter) with false by (symmetry; now apply N.eqb_neq).
Qed.

(** ** Concrete cases: the hypotheses above are met *)

(** [doc_bytes] (the frame of the crate's documentation, secured with AES-128) is accepted; so is
    its secured payload behind a header with other flags, sequence number and destination. *)
Definition forged_bytes : list N :=
  [0x79; 0xec; 0x03; 0x11; 0x1; 0xff; 0xee; 0xdd; 0xcc; 0xbb; 0xaa; 0x99; 0x88] ++ skipn 15 doc_bytes.

Theorem C37_header_authenticated_refuted : exists f g n1 n2 r1 r2,
  octets doc_bytes /\ octets forged_bytes /\
  try_read_and_unsecure host aes_cipher doc_bytes (aes_ctx 1 1) basic_dev_lookup (dev 0) = (Ok (f, n1), r1) /\
  try_read_and_unsecure host aes_cipher forged_bytes (aes_ctx 1 1) basic_dev_lookup (dev 0) = (Ok (g, n2), r2) /\
  payload f = payload g /\ snd r1 = snd r2 /\
  auxiliary_security_header (header f) <> None /\
  seq (header f) <> seq (header g) /\ destination (header f) <> destination (header g) /\
  ack_request (header f) <> ack_request (header g) /\ frame_pending (header f) <> frame_pending (header g).
Proof.
  do 6 eexists. split; [repeat constructor|]. split; [repeat constructor|].
  split; [vm_compute; reflexivity|]. split; [vm_compute; reflexivity|].
  vm_compute. repeat split; discriminate.
Qed.

(** C36: the header of [doc_bytes] followed by up to 15 arbitrary octets panics, in debug and in
    release builds. *)
Definition release : cfg := {| overflow_checks := false; native := LE; usize_bits := 64 |}.
Theorem C36_unauthenticated_panic : forall c junk, native c = LE -> octets junk -> (List.length junk < 16)%nat ->
  fst (try_read_and_unsecure c aes_cipher (firstn 37 doc_bytes ++ junk) (aes_ctx 1 1) basic_dev_lookup (dev 0)) = Panic.
Proof.
  intros c junk Hn Ho Hl.
  destruct (C03_header_decode_exact host (firstn 37 doc_bytes)
     (match try_read_header host (firstn 37 doc_bytes) with Ok (h, _) => h | _ => header doc_frame end) 37
     ltac:(repeat constructor)) as [X _].
  assert (E0 : try_read_header host (firstn 37 doc_bytes)
    = Ok (match try_read_header host (firstn 37 doc_bytes) with Ok (h, _) => h | _ => header doc_frame end, 37%nat))
    by (vm_compute; reflexivity).
  destruct (X E0) as (Hd & _ & r7 & rs & Hrs & Ew). clear X E0.
  change (firstn 37 (firstn 37 doc_bytes)) with (firstn 37 doc_bytes) in Ew.
  rewrite Ew. set (h := match try_read_header host (firstn 37 doc_bytes) with Ok (h, _) => h | _ => header doc_frame end) in *.
  change (native host) with LE.
  assert (A : admitted (SecurityContext_new 1 1 static_key_lookup) basic_dev_lookup (dev 0) h
    {| control := {| security_level := SL_ENCMIC128; key_id_mode := KIM_KeySource8 |}; frame_counter := 0;
       key_identifier := Some {| key_source := Some (KS_Long 0xAA); key_index := 48 |} |}
    1 (repeat 0 16) (dev 0) (fun d => d)).
  2:{ pose proof (C36_short_frame_panics c aes_cipher aes_cipher_ok _ _ _ _ _ _ _ _ _ r7 rs junk Hd Hrs Ho A Hl) as P.
      rewrite Hn in P. exact P. }
  unfold admitted.
  split; [vm_compute; reflexivity|]. split; [vm_compute; reflexivity|]. split; [vm_compute; discriminate|].
  split; [reflexivity|]. split; [vm_compute; reflexivity|].
  split; [eexists; split; vm_compute; reflexivity|]. split; [discriminate|]. apply N.le_refl.
Qed.

Definition what_happened (r : outcome SecurityError (Frame * nat) * (list N * FrameSerDesContext (list N) * DeviceDescriptor))
  : outcome SecurityError (list N * nat) * N :=
  (match fst r with Ok (f, n) => Ok (payload f, n) | Err e => Err e | Panic => Panic end,
   dev_frame_counter (snd (snd r))).

Definition flip_octet (i : nat) (bs : list N) : list N := firstn i bs ++ N.lxor (octet bs i) 1 :: skipn (S i) bs.
Definition sent_frame (l : SecurityLevel) : list N :=
  written_bytes (try_write_frame host aes_cipher (level_frame l true [1;2;3]) (aes_ctx 1 41) (repeat 0 60)).

(** A lookup as an application would write it: descriptors by extended address. *)
Definition table := list (N * DeviceDescriptor).
Fixpoint table_put (x : N) (d : DeviceDescriptor) (t : table) : table :=
  match t with
  | [] => []
  | (y, e) :: r => if x =? y then (y, d) :: r else (y, e) :: table_put x d r
  end.
Fixpoint table_get (x : N) (t : table) : option DeviceDescriptor :=
  match t with
  | [] => None
  | (y, e) :: r => if x =? y then Some e else table_get x r
  end.
Definition table_lookup : DeviceLookup table := fun _ a t =>
  match a with
  | Extended _ x => match table_get x t with Some d => DevFound d (fun d' => table_put x d' t) | None => DevMissing t end
  | Short _ _ => DevMissing t
  end.
Lemma table_put_same x d t : table_get x t = Some d -> table_put x d t = t.
Proof.
  induction t as [|[y e] r IH]; [reflexivity|]. cbn. destruct (N.eqb_spec x y).
  - intros H. injection H as ->. reflexivity.
  - intros H. now rewrite IH.
Qed.
Example table_lookup_lawful : lawful_lookup table_lookup.
Proof.
  intros [p x|p x] t; cbn; [reflexivity|]. destruct (table_get x t) eqn:E; [|reflexivity]. now apply table_put_same.
Qed.
Example basic_lookup_lawful : lawful_lookup basic_dev_lookup.
Proof. intros a d. reflexivity. Qed.

Example receiving :
  (* every authenticated level is accepted once the counter is not ahead, with a new counter *)
  map (fun l => what_happened (try_read_and_unsecure host aes_cipher (sent_frame l) (aes_ctx 7 0) basic_dev_lookup (dev 41)))
    [SL_None; SL_MIC32; SL_MIC64; SL_MIC128; SL_ENCMIC32; SL_ENCMIC64; SL_ENCMIC128]
  = [(Err UnsupportedSecurity, 41); (Ok ([1;2;3], 30%nat), 42); (Ok ([1;2;3], 30%nat), 42); (Ok ([1;2;3], 30%nat), 42);
     (Ok ([1;2;3], 30%nat), 42); (Ok ([1;2;3], 30%nat), 42); (Ok ([1;2;3], 30%nat), 42)] /\
  (* a device counter ahead; a changed payload, tag, counter octet; no context; unknown device; short address *)
  what_happened (try_read_and_unsecure host aes_cipher (sent_frame SL_MIC32) (aes_ctx 7 0) basic_dev_lookup (dev 42))
    = (Err CounterError, 42) /\
  map (fun i => what_happened (try_read_and_unsecure host aes_cipher (flip_octet i (sent_frame SL_ENCMIC64)) (aes_ctx 7 0)
                                 basic_dev_lookup (dev 41))) [27; 30; 37]%nat
    = [(Err TransformationError, 41); (Err TransformationError, 41); (Err TransformationError, 41)] /\
  fst (try_read_and_unsecure host aes_cipher (sent_frame SL_MIC32) (FrameSerDesContext_no_security Footer_None) basic_dev_lookup (dev 41))
    = Err InvalidSecContext /\
  fst (try_read_and_unsecure host aes_cipher (sent_frame SL_MIC32) (aes_ctx 7 0) table_lookup [(5, dev 0); (2, dev 0)])
    = Err UnavailableDevice /\
  fst (try_read_and_unsecure host aes_cipher (sent_frame SL_MIC32) (keyless_ctx 0) basic_dev_lookup (dev 41))
    = Err UnavailableKey /\
  snd (snd (try_read_and_unsecure host aes_cipher (sent_frame SL_MIC32) (aes_ctx 7 0) table_lookup [(5, dev 0); (1, dev 3)]))
    = [(5, dev 0); (1, dev 42)] /\
  (* explicit footer: panic *)
  fst (try_read_and_unsecure host aes_cipher (sent_frame SL_MIC32)
        {| footer_mode := Footer_Explicit; security_ctx := security_ctx (aes_ctx 7 0) |} basic_dev_lookup (dev 41)) = Panic.
Proof. vm_compute. repeat split. Qed.

Print Assumptions C28_secured_round_trip.
Print Assumptions C32_accepted_iff.
Print Assumptions C32_accepted_has_valid_tag.
Print Assumptions C33_context_never_changes.
Print Assumptions C33_rejected_changes_nothing.
Print Assumptions C33_accepted_sets_counter.
Print Assumptions C33_unsecured_changes_nothing.
Print Assumptions C36_receive_panics_iff.
Print Assumptions C36_short_frame_panics.
Print Assumptions C36_unauthenticated_panic.
Print Assumptions C37_header_not_authenticated.
Print Assumptions C37_header_authenticated_refuted.
Print Assumptions C38_unsecured_read_alike.
Print Assumptions C39_read_without_context.
Print Assumptions C39_secured_never_read_without_context.
Print Assumptions C42_unprotected_never_accepted.
Print Assumptions C42_level_none_refused.
Print Assumptions C42_level_enc_refused.
Print Assumptions C44_unsecuring_queries.
Print Assumptions C47_receive_errors.
