(** Specification: wire formats as arithmetic on octets, value ranges, and the CCM
    transformation. Nothing here uses the model's readers, writers, masks or shifts;
    only the data types (Types.v), [cfg]/[endian] (ByteCrate.v) and the cipher
    interface (CcmModel.v) are shared with the model. *)
From Coq Require Import List Arith NArith Bool String.
From Verif Require Import ByteCrate Types CcmModel.
Import ListNotations.
Open Scope N_scope.
Open Scope list_scope.

(** * Octets and integers *)

(** A string of octets (Rust's [u8]). *)
Definition octets (bs : list N) : Prop := Forall (fun b => b < 256) bs.

Definition u8_ok (v : N) : Prop := v < 2 ^ 8.
Definition u16_ok (v : N) : Prop := v < 2 ^ 16.
Definition u32_ok (v : N) : Prop := v < 2 ^ 32.
Definition u64_ok (v : N) : Prop := v < 2 ^ 64.

(** [size] octets of [v], least significant first / most significant first. *)
Definition le (size : nat) (v : N) : list N :=
  map (fun i => v / 256 ^ N.of_nat i mod 256) (List.seq 0 size).
Definition be (size : nat) (v : N) : list N := rev (le size v).
Definition in_order (e : endian) (size : nat) (v : N) : list N :=
  match e with LE => le size v | BE => be size v end.

Definition flag (b : bool) : N := if b then 1 else 0.

(** * MAC header (IEEE 802.15.4-2011 5.2.1) *)

Definition type_code (t : FrameType) : N :=
  match t with
  | Beacon_t => 0 | Data_t => 1 | Acknowledgement_t => 2 | MacCommand_t => 3
  | Multipurpose_t => 5 | FragOrFragAck_t => 6 | Extended_t => 7
  end.

Definition version_code (v : FrameVersion) : N :=
  match v with Ieee802154_2003 => 0 | Ieee802154_2006 => 1 | Ieee802154 => 2 end.

Definition addr_mode_code (a : option Address) : N :=
  match a with None => 0 | Some (Short _ _) => 2 | Some (Extended _ _) => 3 end.

Definition level_code (l : SecurityLevel) : N :=
  match l with
  | SL_None => 0 | SL_MIC32 => 1 | SL_MIC64 => 2 | SL_MIC128 => 3
  | SL_ENC => 4 | SL_ENCMIC32 => 5 | SL_ENCMIC64 => 6 | SL_ENCMIC128 => 7
  end.

(** Tag octets of a level. *)
Definition tag_len (l : SecurityLevel) : nat :=
  match l with
  | SL_None | SL_ENC => 0
  | SL_MIC32 | SL_ENCMIC32 => 4
  | SL_MIC64 | SL_ENCMIC64 => 8
  | SL_MIC128 | SL_ENCMIC128 => 16
  end%nat.

(** Key identifier mode a key identifier is sent with. *)
Definition mode_of_key (k : option KeyIdentifier) : KeyIdentifierMode :=
  match k with
  | None => KIM_None
  | Some {| key_source := None |} => KIM_KeyIndex
  | Some {| key_source := Some (KS_Short _) |} => KIM_KeySource4
  | Some {| key_source := Some (KS_Long _) |} => KIM_KeySource8
  end.

Definition key_mode_code (m : KeyIdentifierMode) : N :=
  match m with KIM_None => 0 | KIM_KeyIndex => 1 | KIM_KeySource4 => 2 | KIM_KeySource8 => 3 end.

Definition is_some {A} (o : option A) : bool :=
  match o with Some _ => true | None => false end.

(** Frame control field; [r7] is the reserved bit 7. *)
Definition control_word (r7 : bool) (h : Header) : N :=
  type_code (frame_type h)
  + 2 ^ 3 * flag (is_some (auxiliary_security_header h))
  + 2 ^ 4 * flag (frame_pending h)
  + 2 ^ 5 * flag (ack_request h)
  + 2 ^ 6 * flag (pan_id_compress h)
  + 2 ^ 7 * flag r7
  + 2 ^ 8 * flag (seq_no_suppress h)
  + 2 ^ 9 * flag (ie_present h)
  + 2 ^ 10 * addr_mode_code (destination h)
  + 2 ^ 12 * version_code (version h)
  + 2 ^ 14 * addr_mode_code (source h).

(** Address without / with its PAN identifier. *)
Definition wire_addr_only (a : Address) : list N :=
  match a with Short _ s => le 2 s | Extended _ x => le 8 x end.
Definition wire_address (a : Address) : list N := le 2 (pan_id a) ++ wire_addr_only a.

Definition wire_key_identifier (ko : endian) (k : KeyIdentifier) : list N :=
  match key_source k with
  | None => []
  | Some (KS_Short v) => in_order ko 4 v
  | Some (KS_Long v) => in_order ko 8 v
  end ++ [key_index k].

(** Auxiliary security header: control octet (reserved bits 5-7: [rs]), frame counter in
    byte order [co], key identifier with its key source in byte order [ko]. *)
Definition wire_aux (co ko : endian) (rs : N) (a : AuxiliarySecurityHeader) : list N :=
  [level_code (security_level (control a))
   + 2 ^ 3 * key_mode_code (mode_of_key (key_identifier a)) + 2 ^ 5 * rs]
  ++ in_order co 4 (frame_counter a)
  ++ match key_identifier a with None => [] | Some k => wire_key_identifier ko k end.

Definition wire_header (co ko : endian) (r7 : bool) (rs : N) (h : Header) : list N :=
  le 2 (control_word r7 h)
  ++ [seq h]
  ++ match destination h with None => [] | Some a => wire_address a end
  ++ match source h with
     | None => []
     | Some a => if pan_id_compress h then wire_addr_only a else wire_address a
     end
  ++ match auxiliary_security_header h with None => [] | Some a => wire_aux co ko rs a end.

(** Ranges of the integer types in a header (what Rust's types guarantee). *)
Definition address_ok (a : Address) : Prop :=
  match a with
  | Short p s => u16_ok p /\ u16_ok s
  | Extended p x => u16_ok p /\ u64_ok x
  end.
Definition opt_ok {A} (P : A -> Prop) (o : option A) : Prop :=
  match o with None => True | Some a => P a end.
Definition key_identifier_ok (k : KeyIdentifier) : Prop :=
  u8_ok (key_index k) /\
  match key_source k with
  | None => True | Some (KS_Short v) => u32_ok v | Some (KS_Long v) => u64_ok v
  end.
Definition aux_ok (a : AuxiliarySecurityHeader) : Prop :=
  u32_ok (frame_counter a) /\ opt_ok key_identifier_ok (key_identifier a).
Definition header_ok (h : Header) : Prop :=
  u8_ok (seq h) /\ opt_ok address_ok (destination h) /\ opt_ok address_ok (source h) /\
  opt_ok aux_ok (auxiliary_security_header h).

(** What a decoded header satisfies: with PAN-ID compression the destination is present and
    its PAN is the source's; the key identifier mode is the one of the key identifier. *)
Definition header_decoded (h : Header) : Prop :=
  header_ok h /\
  (pan_id_compress h = true ->
     exists d, destination h = Some d /\
               forall s, source h = Some s -> pan_id s = pan_id d) /\
  (forall a, auxiliary_security_header h = Some a ->
     key_id_mode (control a) = mode_of_key (key_identifier a)).

Definition with_pan (a : Address) (p : PanId) : Address :=
  match a with Short _ s => Short p s | Extended _ x => Extended p x end.

(** The header a receiver sees when [h] is sent while the frame counter is [fc]. *)
Definition header_sent (fc : N) (h : Header) : Header :=
  {| frame_type := frame_type h;
     frame_pending := frame_pending h;
     ack_request := ack_request h;
     pan_id_compress := pan_id_compress h;
     seq_no_suppress := false;
     ie_present := false;
     version := version h;
     seq := seq h;
     destination := destination h;
     source := match source h, destination h with
               | Some s, Some d => Some (if pan_id_compress h then with_pan s (pan_id d) else s)
               | s, _ => s
               end;
     auxiliary_security_header :=
       match auxiliary_security_header h with
       | None => None
       | Some a => Some {| control := {| security_level := security_level (control a);
                                         key_id_mode := mode_of_key (key_identifier a) |};
                           frame_counter := fc;
                           key_identifier := key_identifier a |}
       end |}.

(** The only semantic restriction on a header to be written. *)
Definition compression_allowed (h : Header) : Prop :=
  pan_id_compress h = true -> destination h <> None /\ source h <> None.

(** * Beacon (5.2.2.1) *)

Definition beacon_order_code (b : BeaconOrder) : N :=
  match b with BO_Order v => v | BO_OnDemand => 15 end.
Definition superframe_order_code (s : SuperframeOrder) : N :=
  match s with SO_Order v => v | SO_Inactive => 15 end.

(** [r5] is the reserved bit 5 of the second octet. *)
Definition wire_superframe (r5 : bool) (s : SuperframeSpecification) : list N :=
  [beacon_order_code (beacon_order s) mod 16
   + 2 ^ 4 * (superframe_order_code (superframe_order s) mod 16);
   final_cap_slot s mod 16
   + 2 ^ 4 * flag (battery_life_extension s)
   + 2 ^ 5 * flag r5
   + 2 ^ 6 * flag (pan_coordinator s)
   + 2 ^ 7 * flag (association_permit s)].

(** u8 fields. *)
Definition superframe_ok (s : SuperframeSpecification) : Prop :=
  u8_ok (beacon_order_code (beacon_order s)) /\
  u8_ok (superframe_order_code (superframe_order s)) /\ u8_ok (final_cap_slot s).

(** Values that have an encoding of their own. *)
Definition superframe_canonical (s : SuperframeSpecification) : Prop :=
  match beacon_order s with BO_Order v => v < 15 | BO_OnDemand => True end /\
  match superframe_order s with SO_Order v => v < 15 | SO_Inactive => True end /\
  final_cap_slot s < 16.

Definition transmits (d : GtsDescriptor) : bool :=
  match gts_direction d with Transmit => true | Receive => false end.

Definition wire_gts_descriptor (d : GtsDescriptor) : list N :=
  le 2 (gts_short_address d) ++ [gts_starting_slot d + 2 ^ 4 * gts_length d].

(** Bit i is set iff slot i transmits; the remaining high bits are [rest]. *)
Fixpoint direction_octet (slots : list GtsDescriptor) (rest : N) : N :=
  match slots with
  | [] => rest
  | d :: r => flag (transmits d) + 2 * direction_octet r rest
  end.

(** The slots a user sees. *)
Definition active_slots (g : GtsInformation) : list GtsDescriptor :=
  firstn (gts_slot_count g) (gts_slots g).

(** [r]: reserved bits 3-6 of the first octet; [rd]: unused bits of the direction octet. *)
Definition wire_gts (r rd : N) (g : GtsInformation) : list N :=
  [N.of_nat (gts_slot_count g) + 2 ^ 3 * r + 2 ^ 7 * flag (gts_permit g)]
  ++ match active_slots g with
     | [] => []
     | slots => direction_octet slots rd :: flat_map wire_gts_descriptor slots
     end.

(** A GTS information obtainable through the API: fields are private; it comes from
    [new] or from decoding, so the array holds the slots and then unused entries. *)
Definition gts_descriptor_ok (d : GtsDescriptor) : Prop :=
  u16_ok (gts_short_address d) /\ gts_starting_slot d < 16 /\ gts_length d < 16.
Definition gts_reachable (g : GtsInformation) : Prop :=
  (gts_slot_count g <= 7)%nat /\
  exists slots, List.length slots = gts_slot_count g /\
    Forall gts_descriptor_ok slots /\
    gts_slots g = slots ++ repeat GtsDescriptor_new (7 - gts_slot_count g).

Definition shorts_of (p : PendingAddress) : list ShortAddress :=
  firstn (short_address_count p) (short_addresses p).
Definition extendeds_of (p : PendingAddress) : list ExtendedAddress :=
  firstn (extended_address_count p) (extended_addresses p).

(** [r3], [r7]: reserved bits of the first octet. *)
Definition wire_pending (r3 r7 : bool) (p : PendingAddress) : list N :=
  [N.of_nat (short_address_count p) + 2 ^ 3 * flag r3
   + 2 ^ 4 * N.of_nat (extended_address_count p) + 2 ^ 7 * flag r7]
  ++ flat_map (le 2) (shorts_of p) ++ flat_map (le 8) (extendeds_of p).

Definition pending_reachable (p : PendingAddress) : Prop :=
  (short_address_count p <= 7)%nat /\ (extended_address_count p <= 7)%nat /\
  (exists l, List.length l = short_address_count p /\ Forall u16_ok l /\
     short_addresses p = l ++ repeat short_broadcast (7 - short_address_count p)) /\
  (exists l, List.length l = extended_address_count p /\ Forall u64_ok l /\
     extended_addresses p = l ++ repeat extended_broadcast (7 - extended_address_count p)).

Record beacon_reserved := {
  br_superframe : bool; br_gts : N; br_direction : N; br_pending3 : bool; br_pending7 : bool
}.
Definition br_zero : beacon_reserved :=
  {| br_superframe := false; br_gts := 0; br_direction := 0;
     br_pending3 := false; br_pending7 := false |}.

Definition wire_beacon (r : beacon_reserved) (b : Beacon) : list N :=
  wire_superframe (br_superframe r) (superframe_spec b)
  ++ wire_gts (br_gts r) (br_direction r) (guaranteed_time_slot_info b)
  ++ wire_pending (br_pending3 r) (br_pending7 r) (pending_address b).

Definition beacon_ok (b : Beacon) : Prop :=
  superframe_ok (superframe_spec b) /\ gts_reachable (guaranteed_time_slot_info b) /\
  pending_reachable (pending_address b).
Definition beacon_canonical (b : Beacon) : Prop :=
  superframe_canonical (superframe_spec b) /\ gts_reachable (guaranteed_time_slot_info b) /\
  pending_reachable (pending_address b).

(** * MAC commands (5.3) *)

Definition status_code (s : AssociationStatus) : N :=
  match s with
  | AS_Successful => 0 | AS_NetworkAtCapacity => 1 | AS_AccessDenied => 2
  | AS_HoppingSequenceOffsetDuplication => 3 | AS_FastAssociationSuccesful => 128
  end.
Definition reason_code (r : DisassociationReason) : N :=
  match r with DR_CoordinatorLeave => 1 | DR_DeviceLeave => 2 end.

Definition wire_capability (r0 r4 r5 : bool) (c : CapabilityInformation) : N :=
  flag r0 + 2 ^ 1 * flag (full_function_device c) + 2 ^ 2 * flag (mains_power c)
  + 2 ^ 3 * flag (idle_receive c) + 2 ^ 4 * flag r4 + 2 ^ 5 * flag r5
  + 2 ^ 6 * flag (frame_protection c) + 2 ^ 7 * flag (allocate_address c).

Definition wire_gts_characteristics (r6 r7 : bool) (g : GtsCharacteristics) : N :=
  gtsc_count g mod 16 + 2 ^ 4 * flag (gtsc_receive_only g) + 2 ^ 5 * flag (gtsc_allocation g)
  + 2 ^ 6 * flag r6 + 2 ^ 7 * flag r7.

Definition wire_realignment (d : CoordinatorRealignmentData) : list N :=
  le 2 (cr_pan_id d) ++ le 2 (cr_coordinator_address d) ++ [cr_channel d]
  ++ le 2 (cr_device_address d)
  ++ match cr_channel_page d with None => [] | Some p => [p] end.

(** Reserved bits of the capability / GTS characteristics octet. *)
Record command_reserved := { mr_a : bool; mr_b : bool; mr_c : bool }.
Definition mr_zero : command_reserved := {| mr_a := false; mr_b := false; mr_c := false |}.

Definition wire_command (r : command_reserved) (c : Command) : list N :=
  match c with
  | AssociationRequest i => [1; wire_capability (mr_a r) (mr_b r) (mr_c r) i]
  | AssociationResponse a s => [2] ++ le 2 a ++ [status_code s]
  | DisassociationNotification x => [3; reason_code x]
  | DataRequest => [4]
  | PanIdConflictNotification => [5]
  | OrphanNotification => [6]
  | BeaconRequest => [7]
  | CoordinatorRealignment d => [8] ++ wire_realignment d
  | GuaranteedTimeSlotRequest g => [9; wire_gts_characteristics (mr_a r) (mr_b r) g]
  end.

Definition command_ok (c : Command) : Prop :=
  match c with
  | AssociationResponse a _ => u16_ok a
  | CoordinatorRealignment d =>
      u16_ok (cr_pan_id d) /\ u16_ok (cr_coordinator_address d) /\ u8_ok (cr_channel d) /\
      u16_ok (cr_device_address d) /\ opt_ok u8_ok (cr_channel_page d)
  | GuaranteedTimeSlotRequest g => u8_ok (gtsc_count g)
  | _ => True
  end.

(** Commands that have an encoding of their own (4-bit slot count). *)
Definition command_canonical (c : Command) : Prop :=
  command_ok c /\
  match c with GuaranteedTimeSlotRequest g => gtsc_count g < 16 | _ => True end.

(** The one command whose end is not determined by its own octets. *)
Definition open_ended (c : Command) : bool :=
  match c with
  | CoordinatorRealignment d => negb (is_some (cr_channel_page d))
  | _ => false
  end.

(** * Frame content and frames *)

Definition wire_content (br : beacon_reserved) (mr : command_reserved) (ct : FrameContent)
  : list N :=
  match ct with
  | FC_Beacon b => wire_beacon br b
  | FC_Command c => wire_command mr c
  | _ => []
  end.

Definition content_ok (ct : FrameContent) : Prop :=
  match ct with FC_Beacon b => beacon_ok b | FC_Command c => command_ok c | _ => True end.
Definition content_canonical (ct : FrameContent) : Prop :=
  match ct with
  | FC_Beacon b => beacon_canonical b
  | FC_Command c => command_canonical c
  | _ => True
  end.
Definition content_open_ended (ct : FrameContent) : bool :=
  match ct with FC_Command c => open_ended c | _ => false end.

Definition content_type (ct : FrameContent) : FrameType :=
  match ct with
  | FC_Beacon _ => Beacon_t | FC_Data => Data_t | FC_Acknowledgement => Acknowledgement_t
  | FC_Command _ => MacCommand_t | FC_Multipurpose => Multipurpose_t
  | FC_FragOrFragAck => FragOrFragAck_t | FC_Extended => Extended_t
  end.

(** Content and frame type agree. *)
Definition frame_consistent (f : Frame) : Prop :=
  content_type (content f) = frame_type (header f).

(** What Rust's types and field privacy guarantee for a frame. *)
Definition frame_ok (f : Frame) : Prop :=
  header_ok (header f) /\ content_ok (content f) /\ octets (payload f) /\
  u8_ok (fst (footer f)) /\ u8_ok (snd (footer f)).

Definition wire_footer (mode : FooterMode) (f : Frame) : list N :=
  match mode with Footer_None => [] | Footer_Explicit => [fst (footer f); snd (footer f)] end.

(** A frame without security. *)
Definition wire_frame (mode : FooterMode) (f : Frame) : list N :=
  wire_header LE LE false 0 (header_sent 0 (header f))
  ++ wire_content br_zero mr_zero (content f)
  ++ payload f
  ++ wire_footer mode f.

(** The frame a receiver sees. *)
Definition frame_sent (mode : FooterMode) (fc : N) (f : Frame) : Frame :=
  {| header := header_sent fc (header f);
     content := content f;
     payload := payload f;
     footer := match mode with Footer_None => (0, 0) | Footer_Explicit => footer f end |}.

(** * CCM (RFC 3610 with L = 2, hence 13-octet nonces) *)

(** The premise on block ciphers: 16-octet blocks. *)
Definition cipher_ok {K} (E : block_cipher K) : Prop :=
  (forall k b, List.length b = 16%nat -> octets b ->
     List.length (encrypt_block E k b) = 16%nat /\ octets (encrypt_block E k b)) /\
  (forall k nonce b, List.length (on_auth_failure E k nonce b) = List.length b).

Definition xor_at (a b : nat -> N) (n : nat) : list N :=
  map (fun i => N.lxor (a i) (b i)) (List.seq 0 n).
Definition octet (bs : list N) (i : nat) : N := nth i bs 0.

(** Zero padding to a multiple of 16 octets. *)
Definition pad16 (bs : list N) : list N :=
  bs ++ repeat 0 ((16 - List.length bs mod 16) mod 16).

(** Encoding of the length of the additional authenticated data. *)
Definition aad_length (l : N) : list N :=
  if l <? 2 ^ 16 - 2 ^ 8 then be 2 l
  else if l <? 2 ^ 32 then [0xff; 0xfe] ++ be 4 l
  else [0xff; 0xff] ++ be 8 l.

(** B_0, B_1, ...: flags, nonce and message length, then additional data, then message. *)
Definition ccm_blocks (m_len : nat) (nonce a m : list N) : list N :=
  [64 * flag (negb (List.length a =? 0)%nat) + 8 * ((N.of_nat m_len - 2) / 2) + 1]
  ++ nonce ++ be 2 (N.of_nat (List.length m))
  ++ match a with [] => [] | _ => pad16 (aad_length (N.of_nat (List.length a)) ++ a) end
  ++ pad16 m.

Section CcmSpec.
Context {K : Type} (E : block_cipher K) (key : K).

(** CBC-MAC after the first n blocks of B. *)
Fixpoint cbc_mac (B : list N) (n : nat) : list N :=
  match n with
  | O => repeat 0 16
  | S j => encrypt_block E key (xor_at (octet (cbc_mac B j)) (octet (skipn (16 * j) B)) 16)
  end.

(** Key stream block S_i. *)
Definition key_stream (nonce : list N) (i : nat) : list N :=
  encrypt_block E key ([1] ++ nonce ++ be 2 (N.of_nat i)).

Definition ccm_tag (m_len : nat) (nonce a m : list N) : list N :=
  let B := ccm_blocks m_len nonce a m in
  xor_at (octet (cbc_mac B (List.length B / 16))) (octet (key_stream nonce 0)) m_len.

(** Encryption (and decryption) of the message: octet i with octet i mod 16 of S_(1 + i/16). *)
Definition ccm_cipher (nonce m : list N) : list N :=
  xor_at (octet m) (fun i => octet (key_stream nonce (1 + i / 16)) (i mod 16)) (List.length m).

(** Nonce of the code under study. *)
Definition mac_nonce (eui fc : N) (l : SecurityLevel) : list N :=
  le 8 eui ++ le 4 fc ++ [level_code l].

(** Payload as transmitted and tag, per level: MIC levels authenticate the payload as
    additional data, ENC-MIC levels encrypt and authenticate it as message. *)
Definition secured_payload (l : SecurityLevel) (eui fc : N) (p : list N) : list N :=
  match l with
  | SL_ENCMIC32 | SL_ENCMIC64 | SL_ENCMIC128 => ccm_cipher (mac_nonce eui fc l) p
  | _ => p
  end.
Definition secured_tag (l : SecurityLevel) (eui fc : N) (p : list N) : list N :=
  match l with
  | SL_None | SL_ENC => []
  | SL_MIC32 | SL_MIC64 | SL_MIC128 => ccm_tag (tag_len l) (mac_nonce eui fc l) p []
  | SL_ENCMIC32 | SL_ENCMIC64 | SL_ENCMIC128 => ccm_tag (tag_len l) (mac_nonce eui fc l) [] p
  end.

End CcmSpec.

(** Levels with a tag. *)
Definition authenticated (l : SecurityLevel) : bool :=
  match l with SL_None | SL_ENC => false | _ => true end.

(** * Sizes (octets) *)

Definition addr_len (a : Address) : nat := match a with Short _ _ => 2 | Extended _ _ => 8 end%nat.
Definition dest_len (h : Header) : nat :=
  match destination h with None => 0 | Some a => 2 + addr_len a end%nat.
Definition source_len (h : Header) : nat :=
  match source h with
  | None => 0
  | Some a => (if pan_id_compress h then 0 else 2) + addr_len a
  end%nat.
Definition key_len (k : option KeyIdentifier) : nat :=
  match mode_of_key k with
  | KIM_None => 0 | KIM_KeyIndex => 1 | KIM_KeySource4 => 5 | KIM_KeySource8 => 9
  end%nat.
Definition aux_len (a : AuxiliarySecurityHeader) : nat := (1 + 4 + key_len (key_identifier a))%nat.
(** Header without / with the auxiliary security header. *)
Definition mhr_len (h : Header) : nat := (3 + dest_len h + source_len h)%nat.
Definition header_len (h : Header) : nat :=
  (mhr_len h + match auxiliary_security_header h with None => 0 | Some a => aux_len a end)%nat.

(** * Which byte strings are headers *)

Definition field (w lo width : N) : N := w / 2 ^ lo mod 2 ^ width.
(** Frame control field of an input. *)
Definition input_word (bs : list N) : N := octet bs 0 + 256 * octet bs 1.
(** Octets of an address by its mode code. *)
Definition mode_len (code : N) : nat := match code with 2%N => 2 | 3%N => 8 | _ => 0 end%nat.
(** Octets of the auxiliary security header by its control octet. *)
Definition aux_need (b : N) : nat :=
  match field b 3 2 with 0%N => 5 | 1%N => 6 | 2%N => 10 | _ => 14 end%nat.
Definition mhr_need (w : N) : nat :=
  (3 + (if (field w 10 2 =? 0)%N then 0 else 2 + mode_len (field w 10 2))
     + (if (field w 14 2 =? 0)%N then 0
        else (if (field w 6 1 =? 1)%N then 0 else 2) + mode_len (field w 14 2)))%nat.
(** Octets a header starting with [bs] needs. *)
Definition header_need (bs : list N) : nat :=
  let n := mhr_need (input_word bs) in
  (n + if (field (input_word bs) 3 1 =? 1)%N
       then match nth_error bs n with None => 1 | Some b => aux_need b end
       else 0)%nat.
(** The first thing wrong with [bs] as the start of a header. *)
Definition header_verdict (bs : list N) : option byte_error :=
  let w := input_word bs in
  if (List.length bs <? 3)%nat then Some Incomplete
  else if field w 12 2 =? 3 then Some (BadInput "InvalidFrameVersion")
  else if field w 0 3 =? 4 then Some (BadInput "InvalidFrameType")
  else if (field w 10 2 =? 1) || (field w 14 2 =? 1) then Some (BadInput "InvalidAddressMode")
  else if (field w 6 1 =? 1) && (field w 10 2 =? 0) then Some (BadInput "InvalidAddressMode")
  else if (List.length bs <? header_need bs)%nat then Some Incomplete
  else None.

(** * How many octets a beacon needs *)

(** GTS part by its first octet; pending-address part by its first octet. *)
Definition gts_size (b : N) : nat :=
  (if (b mod 8 =? 0)%N then 1 else 2 + 3 * N.to_nat (b mod 8))%nat.
Definition pending_size (b : N) : nat :=
  (1 + 2 * N.to_nat (b mod 8) + 8 * N.to_nat (b / 16 mod 8))%nat.
(** As far as [bs] determines it. *)
Definition beacon_need (bs : list N) : nat :=
  match nth_error bs 2 with
  | None => 4
  | Some g =>
      2 + gts_size g +
      match nth_error bs (2 + gts_size g) with None => 1 | Some p => pending_size p end
  end%nat.

(** * Which byte strings are commands *)

Definition octet_in (b : N) (l : list N) : bool := existsb (N.eqb b) l.
(** Octets the command with identifier [id] needs (a realignment takes one more if there is
    one). *)
Definition command_need (id : N) : nat :=
  match id with 2%N => 4 | 8%N => 8 | 4%N | 5%N | 6%N | 7%N => 1 | _ => 2 end%nat.
(** The first thing wrong with [bs] as the start of a command. *)
Definition command_verdict (bs : list N) : option byte_error :=
  match bs with
  | [] => Some Incomplete
  | id :: _ =>
      if negb (octet_in id [1; 2; 3; 4; 5; 6; 7; 8; 9]) then Some (BadInput "InvalidValue")
      else if (List.length bs <? command_need id)%nat then Some Incomplete
      else if (id =? 2) && negb (octet_in (octet bs 3) [0; 1; 2; 3; 128])
      then Some (BadInput "InvalidValue")
      else if (id =? 3) && negb (octet_in (octet bs 1) [1; 2]) then Some (BadInput "InvalidValue")
      else None
  end.
(** Octets a command starting with [bs] takes, when it is accepted. *)
Definition command_size (bs : list N) : nat :=
  match bs with
  | [] => 0
  | id :: _ => if (id =? 8)%N then Nat.min (List.length bs) 9 else command_need id
  end.

(** * Content by frame type *)

Definition content_verdict (t : FrameType) (bs : list N) : option byte_error :=
  match t with
  | Beacon_t => if (List.length bs <? beacon_need bs)%nat then Some Incomplete else None
  | MacCommand_t => command_verdict bs
  | _ => None
  end.
Definition content_size (t : FrameType) (bs : list N) : nat :=
  match t with
  | Beacon_t => beacon_need bs
  | MacCommand_t => command_size bs
  | _ => 0
  end.

(** Every Rust target has [usize] of at least 16 bits. *)
Definition cfg_ok (c : cfg) : Prop := 16 <= usize_bits c.

(** Reserved bits of a beacon that fit into their fields. *)
Definition reserved_fit (r : beacon_reserved) (ct : FrameContent) : Prop :=
  match ct with
  | FC_Beacon b =>
      br_gts r < 16 /\
      br_direction r < 2 ^ (8 - N.of_nat (gts_slot_count (guaranteed_time_slot_info b)))
  | _ => True
  end.

(** Reserved and never-sent bits of an encoded header cleared: bit 7 of octet 0, bits 0 and 1
    of octet 1 (sequence number suppression, IE present), and bits 5-7 of the security control
    octet, which is at offset [aux_at] if there is one. *)
Definition clear_unsent (aux_at : option nat) (bs : list N) : list N :=
  map (fun i => if (i =? 0)%nat then octet bs i mod 2 ^ 7
                else if (i =? 1)%nat then 2 ^ 2 * (octet bs i / 2 ^ 2)
                else match aux_at with
                     | Some k => if (i =? k)%nat then octet bs i mod 2 ^ 5 else octet bs i
                     | None => octet bs i
                     end) (List.seq 0 (List.length bs)).

(** A writer that encodes as exactly [bs]: with room it returns the length, puts [bs] first and
    leaves the rest of the buffer alone; without room it reports Incomplete, having written at
    most the beginning of [bs]. It never panics and does not depend on the buffer's contents. *)
Definition encodes_as (w : list N -> bres nat * list N) (bs : list N) : Prop :=
  forall buf,
    if (List.length bs <=? List.length buf)%nat
    then w buf = (Ok (List.length bs), bs ++ skipn (List.length bs) buf)
    else exists k, (k <= List.length buf)%nat /\
           w buf = (Err Incomplete, firstn k bs ++ skipn k buf).

(** Frame type of a type code (code 4 is reserved, hence no type). *)
Definition type_of_code (b : N) : FrameType :=
  match b with
  | 0 => Beacon_t | 1 => Data_t | 2 => Acknowledgement_t | 3 => MacCommand_t
  | 5 => Multipurpose_t | 6 => FragOrFragAck_t | _ => Extended_t
  end.

(** How reading the unsecured frame [bs] ends: consumed octets, error or panic. *)
Definition frame_verdict (overflow : bool) (m : FooterMode) (bs : list N)
  : outcome byte_error nat :=
  let w := input_word bs in
  let n := header_need bs in
  let t := type_of_code (field w 0 3) in
  let rest := skipn n bs in
  match header_verdict bs with
  | Some e => Err e
  | None =>
      match content_verdict t rest with
      | Some e => Err e
      | None =>
          if field w 3 1 =? 1
          then Err (BadInput "SecurityEnabled (use Frame::try_read_and_unsecure)")
          else match m with
               | Footer_None => Ok (List.length bs)
               | Footer_Explicit =>
                   if (List.length rest <? content_size t rest + 2)%nat
                   then if overflow then Panic else Err Incomplete
                   else Ok (List.length bs)
               end
      end
  end.

(** [bs] is, octet for octet, the unsecured frame [f]: header, content, payload and footer in
    this order and nothing else, with the reserved bits free. Without a footer the footer field
    is zero. A realignment command without channel page can only stand at the very end. *)
Definition frame_parts (m : FooterMode) (bs : list N) (f : Frame) : Prop :=
  auxiliary_security_header (header f) = None /\
  header_decoded (header f) /\ content_canonical (content f) /\ frame_consistent f /\
  (content_open_ended (content f) = true -> payload f = [] /\ m = Footer_None) /\
  (m = Footer_None -> footer f = (0, 0)) /\
  exists r7 br mr, reserved_fit br (content f) /\
    bs = wire_header LE LE r7 0 (header f) ++ wire_content br mr (content f)
         ++ payload f ++ wire_footer m f.
