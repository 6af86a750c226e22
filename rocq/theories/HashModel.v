(** Model of what #[derive(Hash)] feeds a hasher, for the types of the crate. The derived code
    hashes, for an enum, the discriminant (an isize) and then the fields of the variant in order;
    for a struct the fields in order. The core library hashes an integer as its octets in the
    host's byte order ([Hasher::write_u16] and so on, as the trait provides them), a bool as an u8,
    an Option like any enum, a slice or array as its length (an usize) followed by its elements,
    a reference like what it refers to. [#[derive(Hash32)]] on PanId, ShortAddress and
    ExtendedAddress (header.rs:320, 359, 401) feeds the same octets to a hash32 hasher.
    Simplification: the result is the sequence of octets, without the borders between the calls of
    Hasher::write; what a hasher makes of the octets is its own business. *)
From Coq Require Import List Arith NArith Bool.
From Verif Require Import ByteCrate Types FrameModel.
Import ListNotations.
Open Scope N_scope.
Open Scope list_scope.

Section Hash.
Variable c : cfg.

(** Hash for u8, u16, u32, u64 and bool, core *)
Definition hash_uint (size : nat) (v : N) : list N := num_bytes (native c) size v.
Definition hash_bool (b : bool) : list N := hash_uint 1 (if b then 1 else 0).
(** Hash for usize and, for non-negative values, isize, core *)
Definition word_octets : nat := N.to_nat (usize_bits c / 8).
Definition hash_usize (v : N) : list N := hash_uint word_octets v.
(** Hash for core::mem::Discriminant: the discriminants of this crate are 0 or positive *)
Definition hash_discriminant (v : N) : list N := hash_uint word_octets v.
(** Hash for Option<T>, core *)
Definition hash_option {A} (h : A -> list N) (x : option A) : list N :=
  match x with None => hash_discriminant 0 | Some a => hash_discriminant 1 ++ h a end.
(** Hash for [T] and [T; N], core *)
Definition hash_slice {A} (h : A -> list N) (x : list A) : list N :=
  hash_usize (N.of_nat (List.length x)) ++ flat_map h x.

(** FrameType and FrameVersion, frame_control.rs:10, 63: explicit discriminants *)
Definition hash_frame_type (t : FrameType) : list N := hash_discriminant (frame_type_bits t).
Definition hash_frame_version (v : FrameVersion) : list N := hash_discriminant (frame_version_bits v).
(** Address, header.rs:433 *)
Definition hash_address (a : Address) : list N :=
  match a with
  | Short p s => hash_discriminant 0 ++ hash_uint 2 p ++ hash_uint 2 s
  | Extended p x => hash_discriminant 1 ++ hash_uint 2 p ++ hash_uint 8 x
  end.
(** SecurityLevel, KeyIdentifierMode, SecurityControl, security_control.rs:68, 130, 9 *)
Definition hash_security_level (l : SecurityLevel) : list N := hash_discriminant (security_level_to_bits l).
Definition hash_key_id_mode (m : KeyIdentifierMode) : list N := hash_discriminant (key_id_mode_to_bits m).
Definition hash_security_control (x : SecurityControl) : list N :=
  hash_security_level (security_level x) ++ hash_key_id_mode (key_id_mode x).
(** KeySource, KeyIdentifier, AuxiliarySecurityHeader, auxiliary_security_header.rs:184, 157, 12 *)
Definition hash_key_source (k : KeySource) : list N :=
  match k with
  | KS_Short v => hash_discriminant 0 ++ hash_uint 4 v
  | KS_Long v => hash_discriminant 1 ++ hash_uint 8 v
  end.
Definition hash_key_identifier (k : KeyIdentifier) : list N :=
  hash_option hash_key_source (key_source k) ++ hash_uint 1 (key_index k).
Definition hash_aux_header (a : AuxiliarySecurityHeader) : list N :=
  hash_security_control (control a) ++ hash_uint 4 (frame_counter a)
  ++ hash_option hash_key_identifier (key_identifier a).
(** Header, header.rs:24 *)
Definition hash_header (h : Header) : list N :=
  hash_frame_type (frame_type h) ++ hash_bool (frame_pending h) ++ hash_bool (ack_request h)
  ++ hash_bool (pan_id_compress h) ++ hash_bool (seq_no_suppress h) ++ hash_bool (ie_present h)
  ++ hash_frame_version (version h) ++ hash_uint 1 (seq h)
  ++ hash_option hash_address (destination h) ++ hash_option hash_address (source h)
  ++ hash_option hash_aux_header (auxiliary_security_header h).

(** BeaconOrder, SuperframeOrder, SuperframeSpecification, beacon.rs:12, 44, 79 *)
Definition hash_beacon_order (x : BeaconOrder) : list N :=
  match x with BO_Order v => hash_discriminant 0 ++ hash_uint 1 v | BO_OnDemand => hash_discriminant 1 end.
Definition hash_superframe_order (x : SuperframeOrder) : list N :=
  match x with SO_Order v => hash_discriminant 0 ++ hash_uint 1 v | SO_Inactive => hash_discriminant 1 end.
Definition hash_superframe (s : SuperframeSpecification) : list N :=
  hash_beacon_order (beacon_order s) ++ hash_superframe_order (superframe_order s)
  ++ hash_uint 1 (final_cap_slot s) ++ hash_bool (battery_life_extension s)
  ++ hash_bool (pan_coordinator s) ++ hash_bool (association_permit s).
(** Direction, GuaranteedTimeSlotDescriptor, GuaranteedTimeSlotInformation, beacon.rs:157, 167, 237 *)
Definition hash_direction (d : Direction) : list N :=
  hash_discriminant (match d with Receive => 0 | Transmit => 1 end).
Definition hash_gts_descriptor (d : GtsDescriptor) : list N :=
  hash_uint 2 (gts_short_address d) ++ hash_uint 1 (gts_starting_slot d)
  ++ hash_uint 1 (gts_length d) ++ hash_direction (gts_direction d).
Definition hash_gts_information (g : GtsInformation) : list N :=
  hash_bool (gts_permit g) ++ hash_usize (N.of_nat (gts_slot_count g))
  ++ hash_slice hash_gts_descriptor (gts_slots g).
(** PendingAddress, Beacon, beacon.rs:356, 442 *)
Definition hash_pending (p : PendingAddress) : list N :=
  hash_usize (N.of_nat (short_address_count p)) ++ hash_slice (hash_uint 2) (short_addresses p)
  ++ hash_usize (N.of_nat (extended_address_count p)) ++ hash_slice (hash_uint 8) (extended_addresses p).
Definition hash_beacon (b : Beacon) : list N :=
  hash_superframe (superframe_spec b) ++ hash_gts_information (guaranteed_time_slot_info b)
  ++ hash_pending (pending_address b).

(** CapabilityInformation, command.rs:44 *)
Definition hash_capability (x : CapabilityInformation) : list N :=
  hash_bool (full_function_device x) ++ hash_bool (mains_power x) ++ hash_bool (idle_receive x)
  ++ hash_bool (frame_protection x) ++ hash_bool (allocate_address x).
(** AssociationStatus, DisassociationReason, utils.rs:17-23: the macro declares the variants without
    values, so the discriminants are their positions (command.rs:101-125) *)
Definition hash_association_status (s : AssociationStatus) : list N :=
  hash_discriminant match s with
    | AS_Successful => 0 | AS_NetworkAtCapacity => 1 | AS_AccessDenied => 2
    | AS_HoppingSequenceOffsetDuplication => 3 | AS_FastAssociationSuccesful => 4 end.
Definition hash_disassociation_reason (r : DisassociationReason) : list N :=
  hash_discriminant match r with DR_CoordinatorLeave => 0 | DR_DeviceLeave => 1 end.
(** CoordinatorRealignmentData, GuaranteedTimeSlotCharacteristics, command.rs:128, 189 *)
Definition hash_realignment (x : CoordinatorRealignmentData) : list N :=
  hash_uint 2 (cr_pan_id x) ++ hash_uint 2 (cr_coordinator_address x) ++ hash_uint 1 (cr_channel x)
  ++ hash_uint 2 (cr_device_address x) ++ hash_option (hash_uint 1) (cr_channel_page x).
Definition hash_gtsc (x : GtsCharacteristics) : list N :=
  hash_uint 1 (gtsc_count x) ++ hash_bool (gtsc_receive_only x) ++ hash_bool (gtsc_allocation x).
(** Command, command.rs:226 *)
Definition hash_command (x : Command) : list N :=
  match x with
  | AssociationRequest a => hash_discriminant 0 ++ hash_capability a
  | AssociationResponse a s => hash_discriminant 1 ++ hash_uint 2 a ++ hash_association_status s
  | DisassociationNotification r => hash_discriminant 2 ++ hash_disassociation_reason r
  | DataRequest => hash_discriminant 3
  | PanIdConflictNotification => hash_discriminant 4
  | OrphanNotification => hash_discriminant 5
  | BeaconRequest => hash_discriminant 6
  | CoordinatorRealignment d => hash_discriminant 7 ++ hash_realignment d
  | GuaranteedTimeSlotRequest g => hash_discriminant 8 ++ hash_gtsc g
  end.
(** FrameContent, frame/mod.rs:397 *)
Definition hash_content (x : FrameContent) : list N :=
  match x with
  | FC_Beacon b => hash_discriminant 0 ++ hash_beacon b
  | FC_Data => hash_discriminant 1
  | FC_Acknowledgement => hash_discriminant 2
  | FC_Command m => hash_discriminant 3 ++ hash_command m
  | FC_Multipurpose => hash_discriminant 4
  | FC_FragOrFragAck => hash_discriminant 5
  | FC_Extended => hash_discriminant 6
  end.
(** Frame, frame/mod.rs:154: payload is a slice, footer an array of two octets *)
Definition hash_frame (f : Frame) : list N :=
  hash_header (header f) ++ hash_content (content f) ++ hash_slice (hash_uint 1) (payload f)
  ++ hash_slice (hash_uint 1) [fst (footer f); snd (footer f)].

End Hash.
