(** Model of the [==] that #[derive(PartialEq)] generates for the types of the crate: the variants
    are compared first, then the fields in the order in which they are declared (the order is not
    observable, [&&] on booleans has no effects). Option, the integers, bool, arrays and slices use
    the core library's [==]: element by element, after the lengths. *)
From Coq Require Import List Arith NArith Bool.
From Verif Require Import ByteCrate Types.
Import ListNotations.
Open Scope N_scope.

(** PartialEq for Option<T>, core *)
Definition option_eqb {A} (eq : A -> A -> bool) (x y : option A) : bool :=
  match x, y with
  | Some a, Some b => eq a b
  | None, None => true
  | _, _ => false
  end.
(** PartialEq for [T] and [T; N], core *)
Fixpoint slice_eqb {A} (eq : A -> A -> bool) (x y : list A) : bool :=
  match x, y with
  | [], [] => true
  | a :: x', b :: y' => eq a b && slice_eqb eq x' y'
  | _, _ => false
  end.

(** FrameType, frame_control.rs:10 *)
Definition frame_type_eqb (x y : FrameType) : bool :=
  match x, y with
  | Beacon_t, Beacon_t | Data_t, Data_t | Acknowledgement_t, Acknowledgement_t
  | MacCommand_t, MacCommand_t | Multipurpose_t, Multipurpose_t
  | FragOrFragAck_t, FragOrFragAck_t | Extended_t, Extended_t => true
  | _, _ => false
  end.
(** FrameVersion, frame_control.rs:63 *)
Definition frame_version_eqb (x y : FrameVersion) : bool :=
  match x, y with
  | Ieee802154_2003, Ieee802154_2003 | Ieee802154_2006, Ieee802154_2006
  | Ieee802154, Ieee802154 => true
  | _, _ => false
  end.
(** Address, header.rs:433; PanId, ShortAddress and ExtendedAddress (header.rs:320, 359, 401) wrap
    an integer *)
Definition address_eqb (x y : Address) : bool :=
  match x, y with
  | Short p a, Short q b => (p =? q) && (a =? b)
  | Extended p a, Extended q b => (p =? q) && (a =? b)
  | _, _ => false
  end.
(** SecurityLevel, security_control.rs:68 *)
Definition security_level_eqb (x y : SecurityLevel) : bool :=
  match x, y with
  | SL_None, SL_None | SL_MIC32, SL_MIC32 | SL_MIC64, SL_MIC64 | SL_MIC128, SL_MIC128
  | SL_ENC, SL_ENC | SL_ENCMIC32, SL_ENCMIC32 | SL_ENCMIC64, SL_ENCMIC64
  | SL_ENCMIC128, SL_ENCMIC128 => true
  | _, _ => false
  end.
(** KeyIdentifierMode, security_control.rs:130 *)
Definition key_id_mode_eqb (x y : KeyIdentifierMode) : bool :=
  match x, y with
  | KIM_None, KIM_None | KIM_KeyIndex, KIM_KeyIndex | KIM_KeySource4, KIM_KeySource4
  | KIM_KeySource8, KIM_KeySource8 => true
  | _, _ => false
  end.
(** SecurityControl, security_control.rs:9 *)
Definition security_control_eqb (x y : SecurityControl) : bool :=
  security_level_eqb (security_level x) (security_level y)
  && key_id_mode_eqb (key_id_mode x) (key_id_mode y).
(** KeySource, auxiliary_security_header.rs:184 *)
Definition key_source_eqb (x y : KeySource) : bool :=
  match x, y with
  | KS_Short a, KS_Short b => a =? b
  | KS_Long a, KS_Long b => a =? b
  | _, _ => false
  end.
(** KeyIdentifier, auxiliary_security_header.rs:157 *)
Definition key_identifier_eqb (x y : KeyIdentifier) : bool :=
  option_eqb key_source_eqb (key_source x) (key_source y) && (key_index x =? key_index y).
(** AuxiliarySecurityHeader, auxiliary_security_header.rs:12 *)
Definition aux_header_eqb (x y : AuxiliarySecurityHeader) : bool :=
  security_control_eqb (control x) (control y)
  && (frame_counter x =? frame_counter y)
  && option_eqb key_identifier_eqb (key_identifier x) (key_identifier y).
(** Header, header.rs:24 *)
Definition header_eqb (x y : Header) : bool :=
  frame_type_eqb (frame_type x) (frame_type y)
  && Bool.eqb (frame_pending x) (frame_pending y)
  && Bool.eqb (ack_request x) (ack_request y)
  && Bool.eqb (pan_id_compress x) (pan_id_compress y)
  && Bool.eqb (seq_no_suppress x) (seq_no_suppress y)
  && Bool.eqb (ie_present x) (ie_present y)
  && frame_version_eqb (version x) (version y)
  && (seq x =? seq y)
  && option_eqb address_eqb (destination x) (destination y)
  && option_eqb address_eqb (source x) (source y)
  && option_eqb aux_header_eqb (auxiliary_security_header x) (auxiliary_security_header y).

(** BeaconOrder and SuperframeOrder, beacon.rs:12, 44 *)
Definition beacon_order_eqb (x y : BeaconOrder) : bool :=
  match x, y with
  | BO_Order a, BO_Order b => a =? b
  | BO_OnDemand, BO_OnDemand => true
  | _, _ => false
  end.
Definition superframe_order_eqb (x y : SuperframeOrder) : bool :=
  match x, y with
  | SO_Order a, SO_Order b => a =? b
  | SO_Inactive, SO_Inactive => true
  | _, _ => false
  end.
(** SuperframeSpecification, beacon.rs:79 *)
Definition superframe_eqb (x y : SuperframeSpecification) : bool :=
  beacon_order_eqb (beacon_order x) (beacon_order y)
  && superframe_order_eqb (superframe_order x) (superframe_order y)
  && (final_cap_slot x =? final_cap_slot y)
  && Bool.eqb (battery_life_extension x) (battery_life_extension y)
  && Bool.eqb (pan_coordinator x) (pan_coordinator y)
  && Bool.eqb (association_permit x) (association_permit y).
(** Direction, beacon.rs:157 *)
Definition direction_eqb (x y : Direction) : bool :=
  match x, y with
  | Receive, Receive | Transmit, Transmit => true
  | _, _ => false
  end.
(** GuaranteedTimeSlotDescriptor, beacon.rs:167 *)
Definition gts_descriptor_eqb (x y : GtsDescriptor) : bool :=
  (gts_short_address x =? gts_short_address y)
  && (gts_starting_slot x =? gts_starting_slot y)
  && (gts_length x =? gts_length y)
  && direction_eqb (gts_direction x) (gts_direction y).
(** GuaranteedTimeSlotInformation, beacon.rs:237: the whole array is compared, used or not *)
Definition gts_information_eqb (x y : GtsInformation) : bool :=
  Bool.eqb (gts_permit x) (gts_permit y)
  && (gts_slot_count x =? gts_slot_count y)%nat
  && slice_eqb gts_descriptor_eqb (gts_slots x) (gts_slots y).
(** PendingAddress, beacon.rs:356: the whole arrays are compared *)
Definition pending_eqb (x y : PendingAddress) : bool :=
  (short_address_count x =? short_address_count y)%nat
  && slice_eqb N.eqb (short_addresses x) (short_addresses y)
  && (extended_address_count x =? extended_address_count y)%nat
  && slice_eqb N.eqb (extended_addresses x) (extended_addresses y).
(** Beacon, beacon.rs:442 *)
Definition beacon_eqb (x y : Beacon) : bool :=
  superframe_eqb (superframe_spec x) (superframe_spec y)
  && gts_information_eqb (guaranteed_time_slot_info x) (guaranteed_time_slot_info y)
  && pending_eqb (pending_address x) (pending_address y).

(** CapabilityInformation, command.rs:44 *)
Definition capability_eqb (x y : CapabilityInformation) : bool :=
  Bool.eqb (full_function_device x) (full_function_device y)
  && Bool.eqb (mains_power x) (mains_power y)
  && Bool.eqb (idle_receive x) (idle_receive y)
  && Bool.eqb (frame_protection x) (frame_protection y)
  && Bool.eqb (allocate_address x) (allocate_address y).
(** AssociationStatus and DisassociationReason, utils.rs:17 *)
Definition association_status_eqb (x y : AssociationStatus) : bool :=
  match x, y with
  | AS_Successful, AS_Successful | AS_NetworkAtCapacity, AS_NetworkAtCapacity
  | AS_AccessDenied, AS_AccessDenied
  | AS_HoppingSequenceOffsetDuplication, AS_HoppingSequenceOffsetDuplication
  | AS_FastAssociationSuccesful, AS_FastAssociationSuccesful => true
  | _, _ => false
  end.
Definition disassociation_reason_eqb (x y : DisassociationReason) : bool :=
  match x, y with
  | DR_CoordinatorLeave, DR_CoordinatorLeave | DR_DeviceLeave, DR_DeviceLeave => true
  | _, _ => false
  end.
(** CoordinatorRealignmentData, command.rs:128 *)
Definition realignment_eqb (x y : CoordinatorRealignmentData) : bool :=
  (cr_pan_id x =? cr_pan_id y)
  && (cr_coordinator_address x =? cr_coordinator_address y)
  && (cr_channel x =? cr_channel y)
  && (cr_device_address x =? cr_device_address y)
  && option_eqb N.eqb (cr_channel_page x) (cr_channel_page y).
(** GuaranteedTimeSlotCharacteristics, command.rs:189 *)
Definition gtsc_eqb (x y : GtsCharacteristics) : bool :=
  (gtsc_count x =? gtsc_count y)
  && Bool.eqb (gtsc_receive_only x) (gtsc_receive_only y)
  && Bool.eqb (gtsc_allocation x) (gtsc_allocation y).
(** Command, command.rs:226 *)
Definition command_eqb (x y : Command) : bool :=
  match x, y with
  | AssociationRequest a, AssociationRequest b => capability_eqb a b
  | AssociationResponse a s, AssociationResponse b t => (a =? b) && association_status_eqb s t
  | DisassociationNotification a, DisassociationNotification b => disassociation_reason_eqb a b
  | DataRequest, DataRequest | PanIdConflictNotification, PanIdConflictNotification
  | OrphanNotification, OrphanNotification | BeaconRequest, BeaconRequest => true
  | CoordinatorRealignment a, CoordinatorRealignment b => realignment_eqb a b
  | GuaranteedTimeSlotRequest a, GuaranteedTimeSlotRequest b => gtsc_eqb a b
  | _, _ => false
  end.

(** FrameContent, frame/mod.rs:397 *)
Definition content_eqb (x y : FrameContent) : bool :=
  match x, y with
  | FC_Beacon a, FC_Beacon b => beacon_eqb a b
  | FC_Command a, FC_Command b => command_eqb a b
  | FC_Data, FC_Data | FC_Acknowledgement, FC_Acknowledgement
  | FC_Multipurpose, FC_Multipurpose | FC_FragOrFragAck, FC_FragOrFragAck
  | FC_Extended, FC_Extended => true
  | _, _ => false
  end.
(** Frame, frame/mod.rs:154: the payload slices are compared by their octets *)
Definition frame_eqb (x y : Frame) : bool :=
  header_eqb (header x) (header y)
  && content_eqb (content x) (content y)
  && slice_eqb N.eqb (payload x) (payload y)
  && ((fst (footer x) =? fst (footer y)) && (snd (footer x) =? snd (footer y))).
