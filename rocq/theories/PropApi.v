(** Properties C62, C63: constructors and defaults; errors and their conversions. *)
From Coq Require Import List Arith NArith ZArith Bool String Lia ZifyBool ZifyNat ZifyN.
From Verif Require Import ByteCrate Types HeaderModel BeaconModel CommandModel CcmModel FrameModel
  Spec SecSpec ProofLib HeaderProofs HeaderReadProofs BeaconProofs CommandProofs FrameProofs CcmProofs
  SecureProofs RepoTests Aes128 AesProofs PropHeader PropContent PropFrame PropSecure PropReceive PropCodec PropDefault.
Import ListNotations.
Open Scope N_scope.
Open Scope list_scope.
Ltac Zify.zify_post_hook ::= Z.div_mod_to_equations.

(** ** C62 Constructors and defaults *)
Section Api.
Context {K : Type} (c : cfg) (E : block_cipher K).
Hypothesis HE : cipher_ok E.

(** The default footer mode has no footer: when reading, the payload reaches to the end of the
    input and the footer is zero; when writing, the footer of the value is not sent. *)
Theorem C62_default_footer_read : forall bs f n, octets bs -> cfg_ok c ->
  try_read_frame c FooterMode_default bs = Ok (f, n) ->
  n = List.length bs /\ footer f = (0, 0) /\
  exists front, bs = front ++ payload f /\
    List.length front = (header_len (header f) + List.length (wire_content br_zero mr_zero (content f)))%nat.
Proof.
  intros bs f n Hb Hc R. apply C19_frame_read_exact in R; [|assumption|assumption].
  destruct R as (-> & _ & _ & _ & _ & _ & Hf & r7 & br & mr & Hr & Eb).
  split; [reflexivity|]. split; [now apply Hf|].
  cbn [FooterMode_default wire_footer] in Eb. rewrite app_nil_r, app_assoc in Eb.
  eexists. split; [exact Eb|]. rewrite app_length, wire_header_length. f_equal.
  unfold wire_content, wire_beacon, wire_command. destruct (content f) as [b| | |cmd| | |]; try reflexivity.
  - rewrite !app_length. unfold wire_superframe, wire_gts, wire_pending. cbn [List.length].
    rewrite !app_length. cbn [List.length]. destruct (active_slots _); reflexivity.
  - destruct cmd; reflexivity.
Qed.
Theorem C62_default_footer_write : forall f, frame_ok f ->
  auxiliary_security_header (header f) = None -> compression_allowed (header f) ->
  encodes_as (write_plain c E f FooterMode_default)
    (wire_header LE LE false 0 (header_sent 0 (header f)) ++ wire_content br_zero mr_zero (content f) ++ payload f).
Proof.
  intros f Hf Ha Hc. pose proof (C18_plain_frame_layout c E f FooterMode_default Hf Ha Hc) as W.
  unfold wire_frame in W. cbn [FooterMode_default wire_footer] in W. rewrite app_nil_r in W. exact W.
Qed.

(** A frame whose security header was made with [AuxiliarySecurityHeader::new] for level [l] and
    key [k], written with a context made by the constructors from an EUI-64, a counter and a key
    provider, carries exactly these: read back, its header has the level, the key identifier and
    the context's counter (not the one in the value), and the key, nonce and octets are those of
    the provider, the EUI-64 and the counter. *)
Theorem C62_constructed_secured_frame : forall f l k eui fc kp buf n r buf', native c = LE ->
  frame_ok f -> u32_ok fc -> authenticated l = true ->
  auxiliary_security_header (header f) = Some (AuxiliarySecurityHeader_new (SecurityControl_new l) k) ->
  try_write_frame c E f (FrameSerDesContext_new Footer_None (Some (SecurityContext_new eui fc kp))) buf = (Ok n, (r, buf')) ->
  (exists h a, try_read_header c buf' = Ok (h, header_len h) /\ auxiliary_security_header h = Some a /\
     security_level (control a) = l /\ key_identifier a = k /\ get_frame_counter a = fc) /\
  exists eui' key, kp DstAddrMode k (destination (header f)) = Some (eui', key) /\
    firstn n buf' =
      wire_front (native c) fc f ++ secured_payload E key l eui fc (payload f) ++ secured_tag E key l eui fc (payload f) /\
    r = FrameSerDesContext_new Footer_None (Some (SecurityContext_new eui (fc + 1) kp)).
Proof.
  intros f l k eui fc kp buf n r buf' Hn Hok Hfc Hl Ha W.
  set (sc := SecurityContext_new eui fc kp) in *.
  change (FrameSerDesContext_new Footer_None (Some sc)) with (ser_ctx Footer_None sc) in W.
  destruct (C27_secured_frame_layout c E HE f Footer_None sc _ buf n r buf' Hok Hfc Ha Hl W)
    as (eui' & key & Hk & F & En & _ & Er).
  cbn [sc SecurityContext_new sc_euid sc_frame_counter sc_key_provider control key_identifier AuxiliarySecurityHeader_new
    SecurityControl_new security_level] in *.
  split.
  - destruct (write_ok_inv c E HE f Footer_None sc buf n r buf' Hok Hfc W) as (bs & used & P & _).
    apply plan_ok in P. destruct P as (Hc & _).
    assert (D : header_decoded (header_sent fc (header f))).
    { apply header_sent_decoded; [apply Hok|now apply compression_ok_iff|exact Hfc]. }
    exists (header_sent fc (header f)). eexists. split; [|split; [cbn [header_sent auxiliary_security_header]; rewrite Ha; reflexivity|]].
    + pose proof (fun t => try_read_header_complete c false 0 (header_sent fc (header f)) t eq_refl D) as X.
      rewrite Hn in F, X. rewrite <- (firstn_skipn n buf'), F, <- !app_assoc. exact (X _).
    + cbn. auto.
  - exists eui', key. split; [exact Hk|]. split; [|exact Er].
    rewrite F. unfold wire_front. now rewrite app_assoc.
Qed.

(** A frame without a security header is written the same way whatever security context is given
    (without an explicit footer: see C40), and the context is left alone. *)
Theorem C62_unsecured_write_ignores_context : forall f sc buf, frame_ok f -> auxiliary_security_header (header f) = None ->
  try_write_frame c E f (FrameSerDesContext_new Footer_None (Some sc)) buf
  = (fst (write_plain c E f Footer_None buf),
     (FrameSerDesContext_new Footer_None (Some sc), snd (write_plain c E f Footer_None buf))).
Proof.
  intros f sc buf Hok Ha. unfold write_plain, try_write_frame, FrameSerDesContext_new, FrameSerDesContext_no_security.
  cbn [footer_mode security_ctx].
  assert (Hs : has_security (header f) = false) by (unfold has_security; now rewrite Ha).
  assert (Eh : try_write_header (K := K) c (header f) (Some sc) = try_write_header (K := K) c (header f) None).
  { unfold try_write_header. now rewrite Hs. }
  pose proof (runs_front c f sc (proj1 Hok) (proj1 (proj2 Hok)) buf 0%nat ltac:(lia)) as RF. rewrite Eh in *.
  destruct ((write_with (try_write_header (K := K) c (header f) None) >> write_with (try_write_content (content f))) (buf, 0%nat))
    as [[[]|e|] [b2 o2]]; try reflexivity.
  assert (L : (o2 <= List.length b2)%nat).
  { destruct RF as [R1 R2].
    destruct (Nat.le_gt_cases (0 + List.length (if compression_ok (header f) then wire_front (native c) (sc_frame_counter sc) f
     else le 2 (control_word false (header_sent (sc_frame_counter sc) (header f))) ++ [seq (header f)])) (List.length buf)) as [L|L].
    - destruct (R1 L) as (o & Ho & X). injection X as X1 X2 X3. subst.
      rewrite Ho by congruence. rewrite !app_length, skipn_length. cbn [firstn List.length]. lia.
    - destruct (R2 L) as (k & o & _ & X). discriminate. }
  replace (o2 <=? List.length b2)%nat with true by lia.
  cbn [secure_frame]. rewrite Hs. rewrite firstn_skipn.
  destruct (write_tail f Footer_None false (b2, o2)) as [[[]|e|] [b3 o3]]; reflexivity.
Qed.

(** [SecurityContext::no_security] has counter 0 and no key: a frame that asks for protection is
    refused for lack of a key; its octets in clear, with counter 0, are left in the buffer. *)
Theorem C62_no_security_context : forall f a buf, frame_ok f ->
  auxiliary_security_header (header f) = Some a -> security_level (control a) <> SL_None ->
  frame_type (header f) = Data_t -> compression_allowed (header f) -> (length_estimate f a <= 127)%nat ->
  let clear := wire_front (native c) 0 f ++ payload f in
  (List.length clear <= List.length buf)%nat ->
  exists sc', try_write_frame c E f (FrameSerDesContext_new Footer_None (Some SecurityContext_no_security)) buf
  = (Err (security_error_into UnavailableKey),
     (FrameSerDesContext_new Footer_None (Some sc'), clear ++ skipn (List.length clear) buf)) /\
  sc_frame_counter sc' = 1 /\ sc_euid sc' = 0 /\ forall m k d, sc_key_provider sc' m k d = None.
Proof.
  intros f a buf Hok Ha Hl Ht Hc Hest clear Lb. exists (advanced SecurityContext_no_security).
  split; [|cbn; auto].
  exact (C51_default_keys_write_fails c E HE f SecurityContext_no_security a buf Hok eq_refl eq_refl Ha Hl Ht Hc Hest Lb).
Qed.

End Api.

(** ** C63 Errors and their conversions *)

(** A decoding error without the number it carries. *)
Definition kind_of (e : DecodeError) : DecodeError :=
  match e with
  | InvalidFrameType _ => InvalidFrameType 0
  | InvalidAddressMode _ => InvalidAddressMode 0
  | InvalidFrameVersion _ => InvalidFrameVersion 0
  | InvalidSecurityLevel _ => InvalidSecurityLevel 0
  | InvalidKeyIdentifierMode _ => InvalidKeyIdentifierMode 0
  | e => e
  end.

(** Converted to the error type of the byte crate, different kinds of decoding errors stay
    different, the one for missing octets is [Incomplete] and no other is. *)
Theorem C63_decode_errors_kept_apart : forall e1 e2,
  (decode_error_into e1 = decode_error_into e2 <-> kind_of e1 = kind_of e2) /\
  (decode_error_into e1 = Incomplete <-> e1 = NotEnoughBytes) /\
  (forall n, decode_error_into e1 <> BadOffset n).
Proof.
  intros e1 e2. split; [|split].
  - destruct e1, e2; cbn; split; intros H; (reflexivity || discriminate).
  - destruct e1; cbn; split; intros H; (reflexivity || discriminate).
  - destruct e1; discriminate.
Qed.
Theorem C63_encode_errors_kept_apart : forall e1 e2,
  (encode_error_into e1 = encode_error_into e2 <-> e1 = e2) /\ exists text, encode_error_into e1 = BadInput text.
Proof.
  intros e1 e2. split; [destruct e1, e2; cbn; split; intros H; (reflexivity || discriminate)|].
  destruct e1; cbn; eauto.
Qed.
(** A writing error passed through the security error type comes back as it was; all others stay
    different from each other, and none turns into [Incomplete]. *)
Theorem C63_security_errors_kept_apart : forall e1 e2,
  (forall b, security_error_into (WriteError b) = b) /\
  ((forall b, e1 <> WriteError b) ->
   (exists text, security_error_into e1 = BadInput text) /\
   ((forall b, e2 <> WriteError b) -> (security_error_into e1 = security_error_into e2 <-> e1 = e2))).
Proof.
  intros e1 e2. split; [reflexivity|]. intros H1. split.
  - destruct e1; cbn; eauto. exfalso. now apply (H1 e).
  - intros H2. destruct e1; try (exfalso; now apply (H1 e)); destruct e2; try (exfalso; now apply (H2 e));
      cbn; split; intros H; (reflexivity || discriminate).
Qed.

(** The text an application finds in the converted error names the error: it is the name of the
    variant, with two exceptions. *)
Definition decode_error_name (e : DecodeError) : option string :=
  match e with
  | NotEnoughBytes => None
  | InvalidFrameType _ => Some "InvalidFrameType"
  | SecurityEnabled => Some "SecurityEnabled (use Frame::try_read_and_unsecure)"
  | InvalidAddressMode _ => Some "InvalidAddressMode"
  | InvalidFrameVersion _ => Some "InvalidFrameVersion"
  | InvalidSecurityLevel _ => Some "InvalidSecurityLevel"
  | InvalidKeyIdentifierMode _ => Some "InvalidKeyIdentifierMode"
  | MissingSecurityCtx_d => Some "MissingSecurityCtx"
  | AuxSecHeaderAbsent_d => Some "AuxSecHeaderAbsent"
  | InvalidValue => Some "InvalidValue"
  end%string.
Definition encode_error_name (e : EncodeError) : string :=
  match e with
  | WriteError_e => "WriteError"
  | MissingSecurityCtx => "MissingSecurityCtx"
  | DisallowedPanIdCompress => "DisallowedPanIdCompress"
  | UnknownError => "UnknownError"
  end%string.
Definition security_error_name (e : SecurityError) : option string :=
  match e with
  | SecurityNotEnabled => Some "SecurityNotEnabled"
  | InvalidSecContext => Some "InvalidSecContext"
  | FrameTooLong => Some "FrameTooLong"
  | CounterError => Some "CounterError"
  | UnavailableKey => Some "UnavailableKey"
  | KeyFailure => Some "KeyFailure"
  | NoSourceAddress => Some "NoSourceAddress"
  | NoDestinationAddress => Some "NoDstAddress"
  | TransformationError => Some "TransformationError"
  | WriteError _ => None
  | TagWriteError => Some "TagWriteError"
  | NotImplemented => Some "NotImplemented"
  | AuxSecHeaderAbsent => Some "AuxSecHeaderAbsent"
  | KeyIdentifierMismatch => Some "KeyIdentifierMismatch"
  | UnsupportedLegacy => Some "UnsupportedLegacy"
  | UnsupportedSecurity => Some "UnsupportedSecurity"
  | UnavailableDevice => Some "UnavailableDevice"
  | KeyLookupAddressTypeMismatch => Some "KeyLookupAddressTypeMismatch"
  end%string.
Theorem C63_messages_name_the_error :
  (forall e, decode_error_into e = match decode_error_name e with Some t => BadInput t | None => Incomplete end) /\
  (forall e, encode_error_into e = BadInput (encode_error_name e)) /\
  (forall e t, security_error_name e = Some t -> security_error_into e = BadInput t).
Proof.
  split; [|split].
  - intros []; reflexivity.
  - intros []; reflexivity.
  - intros [] t H; try discriminate; injection H as <-; reflexivity.
Qed.

(** Which errors each entry point can return. *)
Definition reading_error (e : byte_error) : Prop :=
  In e (map decode_error_into
    [NotEnoughBytes; InvalidFrameType 4; InvalidAddressMode 0; InvalidFrameVersion 3; InvalidValue]).
Section Errors.
Context {K D : Type} (c : cfg) (E : block_cipher K).
Hypothesis HE : cipher_ok E.

Lemma header_verdict_error bs e : header_verdict bs = Some e -> reading_error e.
Proof.
  unfold header_verdict, reading_error. cbv zeta. intros H.
  repeat match type of H with (if ?b then _ else _) = _ => destruct b end;
    try discriminate; injection H as <-; cbn; tauto.
Qed.
Lemma content_verdict_error t bs e : content_verdict t bs = Some e -> reading_error e.
Proof.
  unfold content_verdict, command_verdict, reading_error. intros H. destruct t; try discriminate.
  - destruct (_ <? _)%nat; [injection H as <-; cbn; tauto|discriminate].
  - destruct bs as [|id r]; [injection H as <-; cbn; tauto|].
    repeat match type of H with (if ?b then _ else _) = _ => destruct b end;
      try discriminate; injection H as <-; cbn; tauto.
Qed.
Lemma header_error bs e : try_read_header c bs = Err e -> reading_error e.
Proof.
  intros H. pose proof (try_read_header_fate c bs) as F. destruct (header_verdict bs) as [x|] eqn:V.
  - replace e with x by congruence. now apply header_verdict_error in V.
  - destruct F as (h & F). congruence.
Qed.
Lemma content_error h bs e : octets bs -> try_read_content h bs = Err e -> reading_error e.
Proof.
  intros Hb H. pose proof (try_read_content_fate h bs Hb) as F. destruct (content_verdict (frame_type h) bs) as [x|] eqn:V.
  - replace e with x by congruence. now apply content_verdict_error in V.
  - destruct F as (y & F). congruence.
Qed.

Theorem C63_read_errors : forall m bs e, octets bs -> cfg_ok c ->
  try_read_frame c m bs = Err e -> reading_error e \/ e = decode_error_into SecurityEnabled.
Proof.
  intros m bs e Hb Hc R. pose proof (C23_frame_read_verdict c m bs Hb Hc) as F.
  assert (V : frame_verdict (overflow_checks c) m bs = Err e).
  { destruct (frame_verdict _ _ _) as [n|x|]; [destruct F as [f F]| |]; congruence. }
  unfold frame_verdict in V. cbv zeta in V.
  destruct (header_verdict bs) eqn:V1; [left; apply (header_verdict_error bs); congruence|].
  destruct (content_verdict _ _) eqn:V2; [left; eapply content_verdict_error; rewrite V2; congruence|].
  destruct (_ =? 1); [right; cbn; congruence|]. left. destruct m; [discriminate|].
  destruct (_ <? _)%nat; [|discriminate]. destruct (overflow_checks c); [discriminate|]. injection V as <-. now left.
Qed.

Theorem C63_write_errors : forall f m sc buf e r, frame_ok f ->
  (forall s, sc = Some s -> u32_ok (sc_frame_counter s)) ->
  try_write_frame c E f (FrameSerDesContext_new m sc) buf = (Err e, r) ->
  e = Incomplete \/ e = encode_error_into DisallowedPanIdCompress \/
  match sc with
  | None => e = encode_error_into MissingSecurityCtx
  | Some _ => In e (map security_error_into [NotImplemented; FrameTooLong; CounterError; UnavailableKey])
  end.
Proof.
  intros f m [sc|] buf e r Hok Hfc W.
  - specialize (Hfc sc eq_refl). change (FrameSerDesContext_new m (Some sc)) with (ser_ctx m sc) in W.
    destruct (write_plan E (native c) m sc f) as [[bs st] used] eqn:P.
    pose proof (C27_secured_write_exact c E HE f m sc bs st used Hok Hfc P buf) as X.
    destruct (_ <=? _)%nat in X.
    + rewrite X in W. apply pair_equal_spec in W. destruct W as [W _]. destruct st as [|x|]; try discriminate.
      injection W as ->. assert (S : snd (fst (write_plan E (native c) m sc f)) = Err e) by now rewrite P.
      clear -S. unfold write_plan in S. cbv zeta in S.
      repeat match type of S with
             | context [if ?b then _ else _] => destruct b
             | context [match ?x with _ => _ end] => destruct x
             end; cbn in S; try discriminate; injection S as <-; cbn; tauto.
    + destruct X as (k & _ & _ & _ & X). rewrite X in W. left. congruence.
  - change (FrameSerDesContext_new m None) with (FrameSerDesContext_no_security (K := K) m) in W.
    assert (W' : fst (write_plain c E f m buf) = Err e) by (unfold write_plain; now rewrite W).
    rewrite C26_plain_write_decision, C02_header_write_decision in W' by apply Hok || assumption.
    repeat match type of W' with
           | context [if ?b then _ else _] => destruct b
           | context [match ?x with _ => _ end] => destruct x
           end; try discriminate; injection W' as <-; cbn; auto.
Qed.

Theorem C63_receive_errors : forall bs ctx (dl : DeviceLookup D) ds e r, octets bs ->
  try_read_and_unsecure c E bs ctx dl ds = (Err e, r) ->
  (exists b, e = WriteError b /\ reading_error b) \/
  In e [InvalidSecContext; NotImplemented; UnsupportedLegacy; UnsupportedSecurity; UnavailableKey;
        NoSourceAddress; UnavailableDevice; CounterError; TransformationError].
Proof.
  intros bs ctx dl ds e r Hb R.
  destruct (read_cases c E HE bs ctx dl ds Hb) as
    [(x & X & Y)|[(h & n1 & EH & Hh & g & Eg & _ & X)|(h & n1 & ct & k & b & EH & EC & Lnk & Hh & Hfc & X)]].
  - left. exists x. split; [congruence|]. destruct Y as [Y|(h & n & _ & Y)].
    + now apply header_error in Y.
    + apply content_error in Y; [exact Y|now apply octets_skipn].
  - rewrite X in R. discriminate.
  - right. destruct (security_ctx ctx) as [sc|]; [|rewrite X in R; apply pair_equal_spec in R; destruct R as [R _]; injection R as <-; now left].
    destruct (footer_mode ctx); [|rewrite X in R; discriminate].
    destruct (receive E (overflow_checks c) sc dl ds h b (skipn (n1 + k) bs)) as [[r1 rest'] ds1] eqn:V.
    rewrite X in R. apply pair_equal_spec in R. destruct R as [R _]. destruct r1 as [|x|]; try discriminate.
    injection R as ->. assert (S : fst (fst (receive E (overflow_checks c) sc dl ds h b (skipn (n1 + k) bs))) = Err e) by now rewrite V.
    clear -S. unfold receive in S. cbv zeta in S.
    repeat match type of S with
           | context [if ?b then _ else _] => destruct b
           | context [match ?x with _ => _ end] => destruct x
           end; cbn [fst] in S; try discriminate; injection S as <-; cbn; tauto.
Qed.

End Errors.

(** ** C62, beacons: what the parts made by the [new] functions are. *)

(** Information made by [GuaranteedTimeSlotInformation::new] lists no slots and does not permit
    any; by [PendingAddress::new], no addresses. On the air each is a single zero octet (0x80 once
    the program permits time slots), which also reads back as the value [new] made; a beacon made
    of them is its superframe specification and two zero octets. A descriptor made by
    [GuaranteedTimeSlotDescriptor::new] is for the broadcast address, slot 0, length 0, receiving. *)
Theorem C62_new_beacon_parts : forall s tail, superframe_ok s ->
  (gts_slots_slice GtsInformation_new = Ok [] /\ gts_permit GtsInformation_new = false /\
   short_addresses_slice PendingAddress_new = Ok [] /\ extended_addresses_slice PendingAddress_new = Ok []) /\
  encodes_as (try_write_gts_information GtsInformation_new) [0x00] /\
  encodes_as (try_write_gts_information {| gts_permit := true; gts_slot_count := gts_slot_count GtsInformation_new;
                                           gts_slots := gts_slots GtsInformation_new |}) [0x80] /\
  encodes_as (try_write_pending PendingAddress_new) [0x00] /\
  encodes_as (try_write_beacon {| superframe_spec := s; guaranteed_time_slot_info := GtsInformation_new;
                                  pending_address := PendingAddress_new |})
             (wire_superframe false s ++ [0x00; 0x00]) /\
  try_read_gts_information (0x00 :: tail) = Ok (GtsInformation_new, 1%nat) /\
  try_read_pending (0x00 :: tail) = Ok (PendingAddress_new, 1%nat) /\
  (encodes_as (try_write_gts_descriptor GtsDescriptor_new) [0xFF; 0xFF; 0x00] /\
   direction_transmit GtsDescriptor_new = false).
Proof.
  intros s tail Hs. split; [repeat split|].
  split; [exact (C10_gts_write _ gts_api_new)|].
  split; [exact (C10_gts_write _ (gts_api_permit _ true gts_api_new))|].
  split; [exact (C12_pending_write _ pending_api_new)|].
  split; [exact (proj1 (C13_beacon_write _ (beacon_api_build _ _ _ Hs gts_api_new pending_api_new)))|].
  split. { apply (try_read_gts_complete 0 0 GtsInformation_new tail); [|reflexivity|reflexivity|now left].
           exact (proj1 (C10_gts_api_values _) gts_api_new). }
  split. { apply (try_read_pending_complete false false PendingAddress_new tail).
           exact (proj1 (C12_pending_api_values _) pending_api_new). }
  split; [|reflexivity].
  apply (C52_gts_descriptor_write GtsDescriptor_new). repeat split.
Qed.

(** ** Concrete cases *)
Example default_footer_case :
  try_read_frame host FooterMode_default [0x41; 0x88; 1; 2; 3; 4; 5; 6; 7; 9; 9; 9]
  = try_read_frame host Footer_None [0x41; 0x88; 1; 2; 3; 4; 5; 6; 7; 9; 9; 9] /\
  (exists f, try_read_frame host FooterMode_default [0x41; 0x88; 1; 2; 3; 4; 5; 6; 7; 9; 9; 9] = Ok (f, 12%nat) /\
     payload f = [9; 9; 9]).
Proof. split; [reflexivity|]. eexists. split; vm_compute; reflexivity. Qed.
Definition constructed (l : SecurityLevel) : Frame :=
  {| header := mk_header Data_t false false true Ieee802154_2006
        (Some (Extended 0x111 0x02)) (Some (Extended 0x111 0x01)) 3
        (Some (AuxiliarySecurityHeader_new (SecurityControl_new l) (Some {| key_source := Some (KS_Short 77); key_index := 4 |})));
     content := FC_Data; payload := [1; 2; 3]; footer := (0, 0) |}.
Example constructed_case :
  let w := try_write_frame host aes_cipher (constructed SL_ENCMIC32)
             (FrameSerDesContext_new Footer_None (Some (SecurityContext_new 1 900 (key_of 5)))) (repeat 0 60) in
  fst w = Ok 38%nat /\
  (exists h n a, try_read_header host (snd (snd w)) = Ok (h, n) /\ auxiliary_security_header h = Some a /\ frame_counter a = 900 /\
     key_identifier a = Some {| key_source := Some (KS_Short 77); key_index := 4 |}).
Proof.
  cbv zeta. split; [vm_compute; reflexivity|]. do 3 eexists. vm_compute. repeat split.
Qed.
Example no_security_case :
  counter_left (try_write_frame host aes_cipher (constructed SL_MIC32)
     (FrameSerDesContext_new Footer_None (Some SecurityContext_no_security)) (repeat 0 60)) = (Err (BadInput "UnavailableKey"), Some 1).
Proof. vm_compute. reflexivity. Qed.
Print Assumptions C62_new_beacon_parts.
Print Assumptions C62_default_footer_read.
Print Assumptions C62_default_footer_write.
Print Assumptions C62_constructed_secured_frame.
Print Assumptions C62_unsecured_write_ignores_context.
Print Assumptions C62_no_security_context.
Print Assumptions C63_decode_errors_kept_apart.
Print Assumptions C63_encode_errors_kept_apart.
Print Assumptions C63_security_errors_kept_apart.
Print Assumptions C63_read_errors.
Print Assumptions C63_write_errors.
Print Assumptions C63_receive_errors.
