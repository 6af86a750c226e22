(** Property C75: what [==] says about frames, headers, beacons and commands. *)
From Coq Require Import List Arith NArith ZArith Bool String Lia ZifyBool ZifyNat ZifyN.
From Verif Require Import ByteCrate Types HeaderModel BeaconModel CommandModel CcmModel FrameModel EqModel
  Spec SecSpec ProofLib HeaderProofs HeaderReadProofs BeaconProofs CommandProofs FrameProofs CcmProofs
  SecureProofs RepoTests Aes128 AesProofs PropHeader PropContent PropFrame PropSecure PropReceive.
Import ListNotations.
Open Scope N_scope.
Open Scope list_scope.

(** ** The derived [==] decides equality *)

Definition decides {A} (eq : A -> A -> bool) : Prop := forall x y, eq x y = true <-> x = y.

Lemma decides_option A (eq : A -> A -> bool) : decides eq -> decides (option_eqb eq).
Proof.
  intros H [x|] [y|]; cbn; try (split; congruence). rewrite (H x y). split; congruence.
Qed.
Lemma decides_slice A (eq : A -> A -> bool) : decides eq -> decides (slice_eqb eq).
Proof.
  intros H x. induction x as [|a x IH]; intros [|b y]; cbn; try (split; congruence).
  rewrite andb_true_iff, (H a b), (IH y). split; [intros [-> ->]; reflexivity|intros [=]; auto].
Qed.
Lemma decides_N : decides N.eqb. Proof. intros x y. apply N.eqb_eq. Qed.
Lemma decides_nat : decides Nat.eqb. Proof. intros x y. apply Nat.eqb_eq. Qed.
Lemma decides_bool : decides Bool.eqb. Proof. intros x y. apply Bool.eqb_true_iff. Qed.

Ltac enum := intros x y; destruct x, y; cbn; split; congruence.
Lemma decides_frame_type : decides frame_type_eqb. Proof. enum. Qed.
Lemma decides_frame_version : decides frame_version_eqb. Proof. enum. Qed.
Lemma decides_security_level : decides security_level_eqb. Proof. enum. Qed.
Lemma decides_key_id_mode : decides key_id_mode_eqb. Proof. enum. Qed.
Lemma decides_direction : decides direction_eqb. Proof. enum. Qed.
Lemma decides_association_status : decides association_status_eqb. Proof. enum. Qed.
Lemma decides_disassociation_reason : decides disassociation_reason_eqb. Proof. enum. Qed.

Lemma decides_address : decides address_eqb.
Proof.
  intros [p a|p a] [q b|q b]; cbn; try (split; congruence);
    rewrite andb_true_iff, !N.eqb_eq; (split; [intros [-> ->]; reflexivity|intros [=]; auto]).
Qed.
Lemma decides_key_source : decides key_source_eqb.
Proof. intros [a|a] [b|b]; cbn; try (split; congruence); rewrite N.eqb_eq; split; congruence. Qed.
Lemma decides_beacon_order : decides beacon_order_eqb.
Proof. intros [a|] [b|]; cbn; try (split; congruence); rewrite N.eqb_eq; split; congruence. Qed.
Lemma decides_superframe_order : decides superframe_order_eqb.
Proof. intros [a|] [b|]; cbn; try (split; congruence); rewrite N.eqb_eq; split; congruence. Qed.

Lemma decides_security_control : decides security_control_eqb.
Proof.
  intros [a b] [a' b']. unfold security_control_eqb. cbn. rewrite andb_true_iff, (decides_security_level a a'), (decides_key_id_mode b b').
  split; [intros [-> ->]; reflexivity|intros [=]; auto].
Qed.
Lemma decides_key_identifier : decides key_identifier_eqb.
Proof.
  intros [a b] [a' b']. unfold key_identifier_eqb. cbn.
  rewrite andb_true_iff, (decides_option _ _ decides_key_source a a'), N.eqb_eq.
  split; [intros [-> ->]; reflexivity|intros [=]; auto].
Qed.
Lemma decides_aux_header : decides aux_header_eqb.
Proof.
  intros [a b d] [a' b' d']. unfold aux_header_eqb. cbn.
  rewrite !andb_true_iff, (decides_security_control a a'), N.eqb_eq, (decides_option _ _ decides_key_identifier d d').
  split; [intros [[-> ->] ->]; reflexivity|intros [=]; auto].
Qed.
Lemma decides_header : decides header_eqb.
Proof.
  intros x y. unfold header_eqb.
  rewrite !andb_true_iff, (decides_frame_type _ _), !(decides_bool _ _), (decides_frame_version _ _), N.eqb_eq,
    !(decides_option _ _ decides_address _ _), (decides_option _ _ decides_aux_header _ _).
  destruct x, y; cbn. split; [intros [[[[[[[[[[-> ->] ->] ->] ->] ->] ->] ->] ->] ->] ->]; reflexivity|].
  intros [=]; subst; repeat split.
Qed.
Lemma decides_superframe : decides superframe_eqb.
Proof.
  intros x y. unfold superframe_eqb.
  rewrite !andb_true_iff, (decides_beacon_order _ _), (decides_superframe_order _ _), !(decides_bool _ _), N.eqb_eq.
  destruct x, y; cbn. split; [intros [[[[[-> ->] ->] ->] ->] ->]; reflexivity|].
  intros [=]; subst; repeat split.
Qed.
Lemma decides_gts_descriptor : decides gts_descriptor_eqb.
Proof.
  intros x y. unfold gts_descriptor_eqb. rewrite !andb_true_iff, !N.eqb_eq, (decides_direction _ _).
  destruct x, y; cbn. split; [intros [[[-> ->] ->] ->]; reflexivity|].
  intros [=]; subst; repeat split.
Qed.
Lemma decides_gts_information : decides gts_information_eqb.
Proof.
  intros x y. unfold gts_information_eqb.
  rewrite !andb_true_iff, (decides_bool _ _), Nat.eqb_eq, (decides_slice _ _ decides_gts_descriptor _ _).
  destruct x, y; cbn. split; [intros [[-> ->] ->]; reflexivity|].
  intros [=]; subst; repeat split.
Qed.
Lemma decides_pending : decides pending_eqb.
Proof.
  intros x y. unfold pending_eqb.
  rewrite !andb_true_iff, !Nat.eqb_eq, !(decides_slice _ _ decides_N _ _).
  destruct x, y; cbn. split; [intros [[[-> ->] ->] ->]; reflexivity|].
  intros [=]; subst; repeat split.
Qed.
Lemma decides_beacon : decides beacon_eqb.
Proof.
  intros x y. unfold beacon_eqb.
  rewrite !andb_true_iff, (decides_superframe _ _), (decides_gts_information _ _), (decides_pending _ _).
  destruct x, y; cbn. split; [intros [[-> ->] ->]; reflexivity|].
  intros [=]; subst; repeat split.
Qed.
Lemma decides_capability : decides capability_eqb.
Proof.
  intros x y. unfold capability_eqb. rewrite !andb_true_iff, !(decides_bool _ _).
  destruct x, y; cbn. split; [intros [[[[-> ->] ->] ->] ->]; reflexivity|].
  intros [=]; subst; repeat split.
Qed.
Lemma decides_realignment : decides realignment_eqb.
Proof.
  intros x y. unfold realignment_eqb. rewrite !andb_true_iff, !N.eqb_eq, (decides_option _ _ decides_N _ _).
  destruct x, y; cbn. split; [intros [[[[-> ->] ->] ->] ->]; reflexivity|].
  intros [=]; subst; repeat split.
Qed.
Lemma decides_gtsc : decides gtsc_eqb.
Proof.
  intros x y. unfold gtsc_eqb. rewrite !andb_true_iff, !N.eqb_eq, !(decides_bool _ _).
  destruct x, y; cbn. split; [intros [[-> ->] ->]; reflexivity|].
  intros [=]; subst; repeat split.
Qed.
Lemma decides_command : decides command_eqb.
Proof.
  intros x y. destruct x, y; cbn; try (split; congruence);
    rewrite ?andb_true_iff, ?N.eqb_eq, ?(decides_capability _ _), ?(decides_association_status _ _),
      ?(decides_disassociation_reason _ _), ?(decides_realignment _ _), ?(decides_gtsc _ _);
    (split; [first [intros [-> ->]; reflexivity|intros ->; reflexivity]|intros [=]; subst; auto]).
Qed.
Lemma decides_content : decides content_eqb.
Proof.
  intros x y. destruct x, y; cbn; try (split; congruence);
    rewrite ?(decides_beacon _ _), ?(decides_command _ _); split; congruence.
Qed.
Lemma decides_frame : decides frame_eqb.
Proof.
  intros x y. unfold frame_eqb.
  rewrite !andb_true_iff, (decides_header _ _), (decides_content _ _), (decides_slice _ _ decides_N _ _), !N.eqb_eq.
  destruct x as [h c p [f1 f2]], y as [h' c' p' [f1' f2']]; cbn.
  split; [intros [[[-> ->] ->] [-> ->]]; reflexivity|].
  intros [=]; subst; repeat split.
Qed.

(** ** C75 What [==] says *)

(** [==] on frames, headers, contents and the values inside them holds exactly for equal values: it
    misses no field and looks at nothing else, so in particular it is reflexive, symmetric and
    transitive, as [Eq] promises. *)
Theorem C75_eq_decides_equality :
  (forall x y, frame_eqb x y = true <-> x = y) /\
  (forall x y, header_eqb x y = true <-> x = y) /\
  (forall x y, address_eqb x y = true <-> x = y) /\
  (forall x y, aux_header_eqb x y = true <-> x = y) /\
  (forall x y, content_eqb x y = true <-> x = y) /\
  (forall x y, beacon_eqb x y = true <-> x = y) /\
  (forall x y, command_eqb x y = true <-> x = y).
Proof.
  repeat split; intros H; subst;
    try (now apply decides_frame); try (now apply decides_header); try (now apply decides_address);
    try (now apply decides_aux_header); try (now apply decides_content); try (now apply decides_beacon);
    now apply decides_command.
Qed.

Lemma gts_by_slots g : gts_reachable g ->
  gts_slots_slice g = Ok (active_slots g) /\ List.length (active_slots g) = gts_slot_count g /\
  gts_slots g = active_slots g ++ repeat GtsDescriptor_new (7 - gts_slot_count g).
Proof.
  intros (C & slots & L & _ & Es). rewrite (active_reachable g slots L Es). repeat split; [|assumption|assumption].
  unfold gts_slots_slice, slice_to. rewrite Es, app_length, repeat_length.
  replace (gts_slot_count g <=? _)%nat with true by lia.
  now rewrite <- L, firstn_app, firstn_all, Nat.sub_diag, firstn_O, app_nil_r.
Qed.

Lemma pending_by_lists p : pending_reachable p ->
  short_addresses_slice p = Ok (shorts_of p) /\ List.length (shorts_of p) = short_address_count p /\
  short_addresses p = shorts_of p ++ repeat short_broadcast (7 - short_address_count p) /\
  extended_addresses_slice p = Ok (extendeds_of p) /\ List.length (extendeds_of p) = extended_address_count p /\
  extended_addresses p = extendeds_of p ++ repeat extended_broadcast (7 - extended_address_count p).
Proof.
  intros (C & C' & (l & L & _ & El) & (l' & L' & _ & El')).
  assert (S : shorts_of p = l).
  { unfold shorts_of. now rewrite El, <- L, firstn_app, firstn_all, Nat.sub_diag, firstn_O, app_nil_r. }
  assert (X : extendeds_of p = l').
  { unfold extendeds_of. now rewrite El', <- L', firstn_app, firstn_all, Nat.sub_diag, firstn_O, app_nil_r. }
  rewrite S, X. unfold short_addresses_slice, extended_addresses_slice, slice_to.
  fold (shorts_of p). fold (extendeds_of p). rewrite S, X.
  rewrite El, El', !app_length, !repeat_length.
  replace (short_address_count p <=? _)%nat with true by lia.
  replace (extended_address_count p <=? _)%nat with true by lia. auto 10.
Qed.

(** Two beacons are [==] exactly when everything a program can see of them is: the unused parts of
    the arrays, which [==] also compares, never make a difference. *)
Theorem C75_beacon_eq_is_what_is_seen : forall b1 b2, beacon_from_api b1 -> beacon_from_api b2 ->
  (beacon_eqb b1 b2 = true <->
   superframe_spec b1 = superframe_spec b2 /\
   gts_permit (guaranteed_time_slot_info b1) = gts_permit (guaranteed_time_slot_info b2) /\
   gts_slots_slice (guaranteed_time_slot_info b1) = gts_slots_slice (guaranteed_time_slot_info b2) /\
   short_addresses_slice (pending_address b1) = short_addresses_slice (pending_address b2) /\
   extended_addresses_slice (pending_address b1) = extended_addresses_slice (pending_address b2)).
Proof.
  intros b1 b2 H1 H2. apply C13_beacon_api_values in H1, H2.
  rewrite (decides_beacon b1 b2). split; [intros ->; repeat split|].
  intros (S & P & G & X & Y).
  destruct H1 as (_ & G1 & P1), H2 as (_ & G2 & P2).
  apply gts_by_slots in G1, G2. apply pending_by_lists in P1, P2.
  destruct G1 as (G1 & G1l & G1e), G2 as (G2 & G2l & G2e).
  destruct P1 as (A1 & A1l & A1e & B1 & B1l & B1e), P2 as (A2 & A2l & A2e & B2 & B2l & B2e).
  rewrite G1, G2 in G. rewrite A1, A2 in X. rewrite B1, B2 in Y.
  assert (G' : active_slots (guaranteed_time_slot_info b1) = active_slots (guaranteed_time_slot_info b2)) by congruence.
  assert (X' : shorts_of (pending_address b1) = shorts_of (pending_address b2)) by congruence.
  assert (Y' : extendeds_of (pending_address b1) = extendeds_of (pending_address b2)) by congruence.
  assert (N1 : gts_slot_count (guaranteed_time_slot_info b1) = gts_slot_count (guaranteed_time_slot_info b2)) by congruence.
  assert (N2 : short_address_count (pending_address b1) = short_address_count (pending_address b2)) by congruence.
  assert (N3 : extended_address_count (pending_address b1) = extended_address_count (pending_address b2)) by congruence.
  assert (L1 : gts_slots (guaranteed_time_slot_info b1) = gts_slots (guaranteed_time_slot_info b2))
    by (rewrite G1e, G2e, G', N1; reflexivity).
  assert (L2 : short_addresses (pending_address b1) = short_addresses (pending_address b2))
    by (rewrite A1e, A2e, X', N2; reflexivity).
  assert (L3 : extended_addresses (pending_address b1) = extended_addresses (pending_address b2))
    by (rewrite B1e, B2e, Y', N3; reflexivity).
  clear - S P N1 N2 N3 L1 L2 L3.
  destruct b1 as [s1 [] []], b2 as [s2 [] []]. cbn in *. subst. reflexivity.
Qed.

(** Two decoded beacons are [==] exactly when they are encoded by the same octets. *)
Theorem C75_beacon_eq_is_same_octets : forall b1 b2 buf1 buf2 n1 n2 buf1' buf2',
  beacon_canonical b1 -> beacon_canonical b2 ->
  try_write_beacon b1 buf1 = (Ok n1, buf1') -> try_write_beacon b2 buf2 = (Ok n2, buf2') ->
  (beacon_eqb b1 b2 = true <-> firstn n1 buf1' = firstn n2 buf2').
Proof.
  intros b1 b2 buf1 buf2 n1 n2 buf1' buf2' C1 C2 W1 W2. rewrite (decides_beacon b1 b2). split.
  - intros ->.
    assert (Hok : beacon_ok b2) by (destruct C2 as (C2 & C2'); split; [now apply superframe_canonical_ok|exact C2']).
    destruct (encodes_ok _ _ _ _ _ (emits_encodes _ _ (emits_beacon b2 Hok)) W1) as (-> & -> & _).
    destruct (encodes_ok _ _ _ _ _ (emits_encodes _ _ (emits_beacon b2 Hok)) W2) as (-> & -> & _).
    reflexivity.
  - intros E. pose proof (C13_beacon_round_trip b1 buf1 n1 buf1' [] C1 W1) as R1.
    pose proof (C13_beacon_round_trip b2 buf2 n2 buf2' [] C2 W2) as R2.
    rewrite E in R1. congruence.
Qed.

(** ** C75 When what is read back is [==] to what was written *)

(** The parts of a header a receiver cannot recover. *)
Definition recoverable (h : Header) : Prop :=
  seq_no_suppress h = false /\ ie_present h = false /\
  (forall s d, source h = Some s -> destination h = Some d -> pan_id_compress h = true -> pan_id s = pan_id d).

Lemma with_pan_same s p : with_pan s p = s <-> pan_id s = p.
Proof. destruct s as [q x|q x]; cbn; split; congruence. Qed.

Lemma header_sent_same fc h :
  header_sent fc h = h <-> recoverable h /\
    forall a, auxiliary_security_header h = Some a ->
      frame_counter a = fc /\ key_id_mode (control a) = mode_of_key (key_identifier a).
Proof.
  unfold header_sent, recoverable. destruct h as [t fp ar pc sn ie v q d s a]. cbn. split.
  - intros H.
    pose proof (f_equal seq_no_suppress H) as H1. pose proof (f_equal ie_present H) as H2.
    pose proof (f_equal source H) as H3. pose proof (f_equal auxiliary_security_header H) as H4.
    cbn in H1, H2, H3, H4. clear H. split; [split; [congruence|split; [congruence|]]|].
    + intros s0 d0 Es Ed Ep. rewrite Es, Ed, Ep in H3. apply with_pan_same. congruence.
    + intros a0 Ea. rewrite Ea in H4. assert (H5 := f_equal (fun o => match o with Some z => z | None => a0 end) H4).
      cbn in H5. split; rewrite <- H5; reflexivity.
  - intros ((-> & -> & Hp) & Ha). f_equal.
    + destruct s as [s|]; [|reflexivity]. destruct d as [d|]; [|reflexivity]. destruct pc; [|reflexivity].
      f_equal. apply with_pan_same. now apply Hp.
    + destruct a as [[[l m] cnt k]|]; [|reflexivity]. cbn. destruct (Ha _ eq_refl) as (E1 & E2). cbn in E1, E2. now subst.
Qed.

(** Writing a frame and reading it back gives a frame that is [==] to it exactly when the two flags
    the encoder does not support are clear, the PAN identifiers agree if they are compressed and, if
    the footer is not sent, the footer was zero. *)
Theorem C75_round_trip_eq : forall K (E : block_cipher K) c m f buf n buf', cfg_ok c -> frame_ok f ->
  content_canonical (content f) -> frame_consistent f ->
  (content_open_ended (content f) = true -> m = Footer_None /\ payload f = []) ->
  write_plain c E f m buf = (Ok n, buf') ->
  exists g, try_read_frame c m (firstn n buf') = Ok (g, n) /\
    (frame_eqb g f = true <-> recoverable (header f) /\ (m = Footer_None -> footer f = (0, 0))).
Proof.
  intros K E c m f buf n buf' Hc Hok Hcan Hcons Hopen W.
  assert (Hn : auxiliary_security_header (header f) = None).
  { destruct (auxiliary_security_header (header f)) eqn:Ea; [|reflexivity]. exfalso.
    destruct (C39_write_without_context c E f m buf Hok ltac:(congruence)) as [e He].
    unfold write_plain in W. rewrite He in W. discriminate. }
  exists (frame_sent m 0 f). split.
  - destruct m.
    + eapply C20_frame_round_trip_none; try eassumption. intros Ho. now apply Hopen.
    + eapply C21_frame_round_trip_explicit; try eassumption.
      destruct (content_open_ended (content f)); [|reflexivity]. now destruct (Hopen eq_refl).
  - rewrite (decides_frame _ _). unfold frame_sent. destruct f as [h ct p ft]. cbn [header content payload footer] in *.
    split.
    + intros [=]. assert (Hh : header_sent 0 h = h) by assumption. apply header_sent_same in Hh. split; [tauto|]. intros ->. congruence.
    + intros (R & F). f_equal; [|destruct m; [now rewrite F|reflexivity]].
      apply header_sent_same. split; [exact R|]. rewrite Hn. discriminate.
Qed.

(** A secured frame read back is [==] to the one written only when, on top of that, the frame was
    given the counter it was sent with (AuxiliarySecurityHeader::new gives 0) and the key
    identifier mode that its key identifier implies. *)
Theorem C75_secured_round_trip_eq : forall K D (E : block_cipher K) c1 c2 f a sc buf n ctx' buf' rsc
    (dl : DeviceLookup D) ds s eui key d put,
  cipher_ok E -> native c1 = LE -> native c2 = LE ->
  frame_ok f -> u32_ok (sc_frame_counter sc) -> frame_consistent f ->
  version (header f) <> Ieee802154_2003 ->
  auxiliary_security_header (header f) = Some a ->
  authenticated (security_level (control a)) = true ->
  try_write_frame c1 E f (ser_ctx Footer_None sc) buf = (Ok n, (ctx', buf')) ->
  source (header_sent (sc_frame_counter sc) (header f)) = Some s ->
  sc_key_provider sc DstAddrMode (key_identifier a) (destination (header f)) = Some (eui, key) ->
  sc_key_provider rsc SrcAddrMode (key_identifier a) (Some s) = Some (sc_euid sc, key) ->
  dl SrcAddrMode s ds = DevFound d put -> dev_frame_counter d <= sc_frame_counter sc ->
  exists g k, fst (try_read_and_unsecure c2 E (firstn n buf') (ser_ctx Footer_None rsc) dl ds) = Ok (g, k) /\
    (frame_eqb g f = true <->
     recoverable (header f) /\ footer f = (0, 0) /\ frame_counter a = sc_frame_counter sc /\
     key_id_mode (control a) = mode_of_key (key_identifier a)).
Proof.
  intros K D E c1 c2 f a sc buf n ctx' buf' rsc dl ds s eui key d put HE L1 L2 Hok Hu Hcons Hv Ha Hau W Hs Hk Hk' Hd Hle.
  destruct (C28_secured_round_trip K D E c1 c2 f a sc buf n ctx' buf' rsc dl ds s eui key d put
              HE L1 L2 Hok Hu Hcons Hv Ha Hau W Hs Hk Hk' Hd Hle) as (bs' & R).
  rewrite R. do 2 eexists. split; [reflexivity|].
  rewrite (decides_frame _ _). unfold frame_sent. destruct f as [h ct p ft]. cbn [header content payload footer] in *.
  split.
  - intros [=]. assert (Hh : header_sent (sc_frame_counter sc) h = h) by assumption.
    apply header_sent_same in Hh. destruct Hh as (R1 & R2). destruct (R2 a Ha) as (R3 & R4). split; [exact R1|]. split; [congruence|]. split; [exact R3|exact R4].
  - intros (R1 & R2 & R3 & R4). f_equal; [|now rewrite R2].
    apply header_sent_same. split; [exact R1|]. intros a0 Ha0. assert (a0 = a) by congruence. subst a0. auto.
Qed.

(** ** Non-vacuity *)

(** Beacons that differ in one address only; and the sample frame, whose footer is not zero and
    whose source is in another PAN than its destination, although compression is on. *)
Example beacons_compared :
  beacon_eqb sample_beacon sample_beacon = true /\
  beacon_from_api sample_beacon /\
  let other := {| superframe_spec := superframe_spec sample_beacon;
                  guaranteed_time_slot_info := guaranteed_time_slot_info sample_beacon;
                  pending_address := PendingAddress_new |} in
  beacon_from_api other /\ beacon_eqb sample_beacon other = false.
Proof.
  split; [vm_compute; reflexivity|]. split; [exact (proj1 sample_beacon_ok)|]. cbv zeta. split; [|vm_compute; reflexivity].
  destruct (proj1 (C13_beacon_api_values _) (proj1 sample_beacon_ok)) as (A & B & _).
  apply beacon_api_build; [exact A|now apply C10_gts_api_values|constructor].
Qed.

(** A secured frame made with [new] is [==] to what is read back only if it is the first sent. *)
Example first_frame_only :
  let f := {| header := mk_header Data_t false false false Ieee802154_2006
                 (Some (Extended 0x1234 2)) (Some (Extended 0x1234 1)) 9
                 (Some (AuxiliarySecurityHeader_new (SecurityControl_new SL_ENCMIC32) None));
              content := FC_Data; payload := [1; 2; 3]; footer := (0, 0) |} in
  let trip fc :=
    let '(r, (_, buf)) := try_write_frame host aes_cipher f (aes_ctx 1 fc) (repeat 0 64) in
    match r with
    | Ok n =>
        match try_read_and_unsecure host aes_cipher (firstn n buf) (aes_ctx 7 0) basic_dev_lookup (dev 0) with
        | (Ok (g, _), _) => Some (frame_eqb g f)
        | _ => None
        end
    | _ => None
    end in
  trip 0 = Some true /\ trip 7 = Some false.
Proof. vm_compute. split; reflexivity. Qed.

(** A security header made by [new] is written with the context's frame counter; what is read back
    [==] it only for the first frame of a context that starts at 0, without key identifier
    ([SecurityControl::new] records no key identifier mode). *)
Theorem C75_new_security_header_eq : forall c l k fc buf n buf', native c = LE -> opt_ok key_identifier_ok k -> u32_ok fc ->
  try_write_aux c (AuxiliarySecurityHeader_new (SecurityControl_new l) k) fc buf = (Ok n, buf') ->
  get_frame_counter (AuxiliarySecurityHeader_new (SecurityControl_new l) k) = 0 /\
  exists a, try_read_aux c buf' = Ok (a, n) /\
    (aux_header_eqb a (AuxiliarySecurityHeader_new (SecurityControl_new l) k) = true <-> fc = 0 /\ k = None).
Proof.
  intros c l k fc buf n buf' Hn Hk Hfc W. split; [reflexivity|].
  assert (W' : try_write_aux c (AuxiliarySecurityHeader_new_unsafe (SecurityControl_new l) k 0) fc buf = (Ok n, buf')) by exact W.
  pose proof (emits_encodes _ _ (emits_aux c (AuxiliarySecurityHeader_new_unsafe (SecurityControl_new l) k 0) fc Hk)) as EW.
  destruct (encodes_ok _ _ _ _ _ EW W') as (-> & _ & -> & _).
  exists (aux_sent fc (AuxiliarySecurityHeader_new_unsafe (SecurityControl_new l) k 0)). split.
  - pose proof (try_read_aux_complete c 0 (aux_sent fc (AuxiliarySecurityHeader_new_unsafe (SecurityControl_new l) k 0))
      (skipn (List.length (wire_aux (native c) (native c) 0 (aux_sent fc (AuxiliarySecurityHeader_new_unsafe (SecurityControl_new l) k 0)))) buf)
      eq_refl (conj Hfc Hk) eq_refl) as X.
    rewrite Hn in *. rewrite X. unfold aux_octet_size. rewrite wire_aux_length. reflexivity.
  - rewrite (proj1 (proj2 (proj2 (proj2 C75_eq_decides_equality)))).
    unfold aux_sent, AuxiliarySecurityHeader_new, AuxiliarySecurityHeader_new_unsafe, SecurityControl_new. cbn [control frame_counter key_identifier security_level].
    split.
    + intros [= X Y]. split; [exact Y|]. destruct k as [[[[]|] ?]|]; first [discriminate X|reflexivity].
    + intros [-> ->]. reflexivity.
Qed.
Example new_security_header_case :
  fst (try_write_aux host (AuxiliarySecurityHeader_new (SecurityControl_new SL_MIC64) None) 0 (repeat 7 6)) = Ok 5%nat /\
  fst (try_write_aux host (AuxiliarySecurityHeader_new (SecurityControl_new SL_MIC64) None) 9 (repeat 7 6)) = Ok 5%nat.
Proof. vm_compute. split; reflexivity. Qed.

Print Assumptions C75_new_security_header_eq.
Print Assumptions C75_eq_decides_equality.
Print Assumptions C75_beacon_eq_is_what_is_seen.
Print Assumptions C75_beacon_eq_is_same_octets.
Print Assumptions C75_round_trip_eq.
Print Assumptions C75_secured_round_trip_eq.
