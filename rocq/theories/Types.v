(** Data types of the crate and the pure conversions on them. *)
From Coq Require Import List Arith NArith Bool String.
From Verif Require Import ByteCrate.
Import ListNotations.
Open Scope N_scope.

(** * src/mac/frame/frame_control.rs *)

(** frame_control.rs:12-33 *)
Inductive FrameType :=
| Beacon_t | Data_t | Acknowledgement_t | MacCommand_t | Multipurpose_t
| FragOrFragAck_t | Extended_t.

(** [self as u16]: the discriminants of frame_control.rs:12-33 *)
Definition frame_type_bits (t : FrameType) : N :=
  match t with
  | Beacon_t => 0 | Data_t => 1 | Acknowledgement_t => 2 | MacCommand_t => 3
  | Multipurpose_t => 5 | FragOrFragAck_t => 6 | Extended_t => 7
  end.

(** FrameType::from_bits, frame_control.rs:48-59 *)
Definition frame_type_from_bits (bits : N) : option FrameType :=
  match bits with
  | 0 => Some Beacon_t
  | 1 => Some Data_t
  | 2 => Some Acknowledgement_t
  | 3 => Some MacCommand_t
  | 5 => Some Multipurpose_t
  | 6 => Some FragOrFragAck_t
  | 7 => Some Extended_t
  | _ => None
  end.

(** frame_control.rs:65-72 *)
Inductive FrameVersion := Ieee802154_2003 | Ieee802154_2006 | Ieee802154.

Definition frame_version_bits (v : FrameVersion) : N :=
  match v with Ieee802154_2003 => 0 | Ieee802154_2006 => 1 | Ieee802154 => 2 end.

(** FrameVersion::from_bits, frame_control.rs:88-95 *)
Definition frame_version_from_bits (bits : N) : option FrameVersion :=
  match bits with
  | 0 => Some Ieee802154_2003
  | 1 => Some Ieee802154_2006
  | 2 => Some Ieee802154
  | _ => None
  end.

(** frame_control.rs:111-118 *)
Inductive AddressMode := Mode_None | Mode_Short | Mode_Extended.

Definition address_mode_bits (m : AddressMode) : N :=
  match m with Mode_None => 0 | Mode_Short => 2 | Mode_Extended => 3 end.

(** src/mac/frame/mod.rs:453-483 *)
Inductive DecodeError :=
| NotEnoughBytes
| InvalidFrameType (v : N)
| SecurityEnabled
| InvalidAddressMode (v : N)
| InvalidFrameVersion (v : N)
| InvalidSecurityLevel (v : N)
| InvalidKeyIdentifierMode (v : N)
| MissingSecurityCtx_d
| AuxSecHeaderAbsent_d
| InvalidValue.

(** From<DecodeError> for byte::Error, src/mac/frame/mod.rs:485-518 *)
Definition decode_error_into (e : DecodeError) : byte_error :=
  match e with
  | NotEnoughBytes => Incomplete
  | InvalidFrameType _ => BadInput "InvalidFrameType"
  | InvalidAddressMode _ => BadInput "InvalidAddressMode"
  | InvalidFrameVersion _ => BadInput "InvalidFrameVersion"
  | InvalidValue => BadInput "InvalidValue"
  | InvalidSecurityLevel _ => BadInput "InvalidSecurityLevel"
  | InvalidKeyIdentifierMode _ => BadInput "InvalidKeyIdentifierMode"
  | MissingSecurityCtx_d => BadInput "MissingSecurityCtx"
  | AuxSecHeaderAbsent_d => BadInput "AuxSecHeaderAbsent"
  | SecurityEnabled => BadInput "SecurityEnabled (use Frame::try_read_and_unsecure)"
  end.

(** src/mac/frame/mod.rs:523-533 *)
Inductive EncodeError :=
| WriteError_e | MissingSecurityCtx | DisallowedPanIdCompress | UnknownError.

(** From<EncodeError> for byte::Error, src/mac/frame/mod.rs:535-552 *)
Definition encode_error_into (e : EncodeError) : byte_error :=
  match e with
  | WriteError_e => BadInput "WriteError"
  | MissingSecurityCtx => BadInput "MissingSecurityCtx"
  | DisallowedPanIdCompress => BadInput "DisallowedPanIdCompress"
  | UnknownError => BadInput "UnknownError"
  end.

(** AddressMode::from_bits, frame_control.rs:153-160 *)
Definition address_mode_from_bits (bits : N) : outcome DecodeError AddressMode :=
  match bits with
  | 0 => Ok Mode_None
  | 2 => Ok Mode_Short
  | 3 => Ok Mode_Extended
  | _ => Err (InvalidAddressMode bits)
  end.

(** [r?] in a function returning byte::Result, for r : Result<_, DecodeError>. *)
Definition lift_decode {A} (r : outcome DecodeError A) : bres A :=
  match r with Ok a => Ok a | Err e => Err (decode_error_into e) | Panic => Panic end.

(** frame_control.rs:163-187 (modules offset and mask) *)
Definition off_FRAME_TYPE : N := 0.
Definition off_SECURITY : N := 3.
Definition off_PENDING : N := 4.
Definition off_ACK : N := 5.
Definition off_PAN_ID_COMPRESS : N := 6.
Definition off_SEQ_NO_SUPPRESS : N := 8.
Definition off_IE_PRESENT : N := 9.
Definition off_DEST_ADDR_MODE : N := 10.
Definition off_VERSION : N := 12.
Definition off_SRC_ADDR_MODE : N := 14.

Definition mask_FRAME_TYPE : N := 0x0007.
Definition mask_SECURITY : N := 0x0008.
Definition mask_PENDING : N := 0x0010.
Definition mask_ACK : N := 0x0020.
Definition mask_PAN_ID_COMPRESS : N := 0x0040.
Definition mask_SEQ_NO_SUPPRESS : N := 0x0100.
Definition mask_IE_PRESENT : N := 0x0200.
Definition mask_DEST_ADDR_MODE : N := 0x0C00.
Definition mask_VERSION : N := 0x3000.
Definition mask_SRC_ADDR_MODE : N := 0xC000.

(** * src/mac/frame/header.rs: addresses *)

(** PanId(u16), ShortAddress(u16), ExtendedAddress(u64) (header.rs:323,363,405)
    are their integer. Simplification: the newtype wrappers are dropped. *)
Definition PanId := N.
Definition ShortAddress := N.
Definition ExtendedAddress := N.

(** header.rs:436-441 *)
Inductive Address :=
| Short (pan : PanId) (addr : ShortAddress)
| Extended (pan : PanId) (addr : ExtendedAddress).

(** PanId::broadcast, ShortAddress::broadcast/BROADCAST,
    ExtendedAddress::broadcast/BROADCAST (header.rs:327,367-372,409-414) *)
Definition pan_broadcast : PanId := 0xffff.
Definition short_broadcast : ShortAddress := 0xffff.
Definition extended_broadcast : ExtendedAddress := 0xffffffffffffffff.

(** Address::broadcast, header.rs:479-491 *)
Definition address_broadcast (m : AddressMode) : option Address :=
  match m with
  | Mode_None => None
  | Mode_Short => Some (Short pan_broadcast short_broadcast)
  | Mode_Extended => Some (Extended pan_broadcast extended_broadcast)
  end.

(** Address::pan_id, header.rs:494-499 *)
Definition pan_id (a : Address) : PanId :=
  match a with Short p _ => p | Extended p _ => p end.

(** From<Address> for AddressMode, frame_control.rs:130-137 *)
Definition address_mode_of_address (a : Address) : AddressMode :=
  match a with Short _ _ => Mode_Short | Extended _ _ => Mode_Extended end.

(** From<Option<Address>> for AddressMode, frame_control.rs:120-128 *)
Definition address_mode_of (o : option Address) : AddressMode :=
  match o with
  | Some (Short _ _) => Mode_Short
  | Some (Extended _ _) => Mode_Extended
  | None => Mode_None
  end.

(** * src/mac/frame/security/security_control.rs *)

(** security_control.rs:70-87 *)
Inductive SecurityLevel :=
| SL_None | SL_MIC32 | SL_MIC64 | SL_MIC128
| SL_ENC | SL_ENCMIC32 | SL_ENCMIC64 | SL_ENCMIC128.

(** SecurityLevel::from_bits, security_control.rs:90-102 *)
Definition security_level_from_bits (bits : N) : option SecurityLevel :=
  match bits with
  | 0 => Some SL_None
  | 1 => Some SL_MIC32
  | 2 => Some SL_MIC64
  | 3 => Some SL_MIC128
  | 4 => Some SL_ENC
  | 5 => Some SL_ENCMIC32
  | 6 => Some SL_ENCMIC64
  | 7 => Some SL_ENCMIC128
  | _ => None
  end.

(** SecurityLevel::to_bits, security_control.rs:104-115 *)
Definition security_level_to_bits (l : SecurityLevel) : N :=
  match l with
  | SL_None => 0 | SL_MIC32 => 1 | SL_MIC64 => 2 | SL_MIC128 => 3
  | SL_ENC => 4 | SL_ENCMIC32 => 5 | SL_ENCMIC64 => 6 | SL_ENCMIC128 => 7
  end.

(** SecurityLevel::get_mic_octet_size, security_control.rs:119-126 *)
Definition mic_octet_size (l : SecurityLevel) : nat :=
  match l with
  | SL_None | SL_ENC => 0
  | SL_MIC32 | SL_ENCMIC32 => 4
  | SL_MIC64 | SL_ENCMIC64 => 8
  | SL_MIC128 | SL_ENCMIC128 => 16
  end%nat.

(** security_control.rs:132-141 *)
Inductive KeyIdentifierMode := KIM_None | KIM_KeyIndex | KIM_KeySource4 | KIM_KeySource8.

(** KeyIdentifierMode::from_bits, security_control.rs:144-152 *)
Definition key_id_mode_from_bits (bits : N) : option KeyIdentifierMode :=
  match bits with
  | 0 => Some KIM_None
  | 1 => Some KIM_KeyIndex
  | 2 => Some KIM_KeySource4
  | 3 => Some KIM_KeySource8
  | _ => None
  end.

(** KeyIdentifierMode::to_bits, security_control.rs:153-160 *)
Definition key_id_mode_to_bits (m : KeyIdentifierMode) : N :=
  match m with KIM_None => 0 | KIM_KeyIndex => 1 | KIM_KeySource4 => 2 | KIM_KeySource8 => 3 end.

(** SecurityControl, security_control.rs:11-19 *)
Record SecurityControl := {
  security_level : SecurityLevel;
  key_id_mode : KeyIdentifierMode
}.

(** SecurityControl::new, security_control.rs:25-30 *)
Definition SecurityControl_new (l : SecurityLevel) : SecurityControl :=
  {| security_level := l; key_id_mode := KIM_None |}.

(** security_control.rs:163-183 (modules mask and offset) *)
Definition mask_SECURITY_LEVEL : N := 0x07.
Definition mask_KEY_IDENTIFIER_MODE : N := 0x18.
Definition off_SECURITY_LEVEL : N := 0.
Definition off_KEY_IDENTIFIER_MODE : N := 3.

(** * src/mac/frame/security/auxiliary_security_header.rs *)

(** KeySource, auxiliary_security_header.rs:186-191 *)
Inductive KeySource := KS_Short (v : N) | KS_Long (v : N).

(** KeyIdentifier, auxiliary_security_header.rs:159-164 *)
Record KeyIdentifier := { key_source : option KeySource; key_index : N }.

(** AuxiliarySecurityHeader, auxiliary_security_header.rs:14-22 *)
Record AuxiliarySecurityHeader := {
  control : SecurityControl;
  frame_counter : N;
  key_identifier : option KeyIdentifier
}.

(** AuxiliarySecurityHeader::new, auxiliary_security_header.rs:44-53 *)
Definition AuxiliarySecurityHeader_new (c : SecurityControl) (k : option KeyIdentifier)
  : AuxiliarySecurityHeader :=
  {| control := c; frame_counter := 0; key_identifier := k |}.

(** AuxiliarySecurityHeader::new_unsafe, auxiliary_security_header.rs:59-69 *)
Definition AuxiliarySecurityHeader_new_unsafe (c : SecurityControl) (k : option KeyIdentifier)
    (fc : N) : AuxiliarySecurityHeader :=
  {| control := c; frame_counter := fc; key_identifier := k |}.

(** AuxiliarySecurityHeader::get_frame_counter, auxiliary_security_header.rs:74-76 *)
Definition get_frame_counter (a : AuxiliarySecurityHeader) : N := frame_counter a.

(** AuxiliarySecurityHeader::get_octet_size, auxiliary_security_header.rs:26-41 *)
Definition aux_octet_size (a : AuxiliarySecurityHeader) : nat :=
  (1 + 4 + match key_identifier a with
           | Some k => match key_source k with
                       | Some (KS_Short _) => 5
                       | Some (KS_Long _) => 9
                       | None => 1
                       end
           | None => 0
           end)%nat.

(** * src/mac/frame/header.rs: Header *)

(** Header, header.rs:26-83 *)
Record Header := {
  frame_type : FrameType;
  frame_pending : bool;
  ack_request : bool;
  pan_id_compress : bool;
  seq_no_suppress : bool;
  ie_present : bool;
  version : FrameVersion;
  seq : N;
  destination : option Address;
  source : option Address;
  auxiliary_security_header : option AuxiliarySecurityHeader
}.

(** One iteration of the loop in Header::get_octet_size, header.rs:91-104 *)
Definition address_octet_size (o : option Address) : nat :=
  match o with
  | Some a => (2 + match a with Short _ _ => 2 | Extended _ _ => 8 end)%nat
  | None => 0%nat
  end.

(** Header::get_octet_size, header.rs:87-106 *)
Definition header_octet_size (h : Header) : nat :=
  (3 + address_octet_size (destination h) + address_octet_size (source h))%nat.

(** Header::has_security, header.rs:109-111 *)
Definition has_security (h : Header) : bool :=
  match auxiliary_security_header h with Some _ => true | None => false end.

(** * src/mac/beacon.rs *)

(** beacon.rs:14-21, 46-53 *)
Inductive BeaconOrder := BO_Order (v : N) | BO_OnDemand.
Inductive SuperframeOrder := SO_Order (v : N) | SO_Inactive.

(** From<u8> for BeaconOrder / SuperframeOrder, beacon.rs:23-31, 55-63 *)
Definition beacon_order_from (v : N) : BeaconOrder :=
  if v <=? 14 then BO_Order v else BO_OnDemand.
Definition superframe_order_from (v : N) : SuperframeOrder :=
  if v <=? 14 then SO_Order v else SO_Inactive.

(** From<BeaconOrder> for u8 / From<SuperframeOrder> for u8, beacon.rs:33-41, 65-73 *)
Definition beacon_order_u8 (b : BeaconOrder) : N :=
  match b with BO_Order v => v | BO_OnDemand => 15 end.
Definition superframe_order_u8 (s : SuperframeOrder) : N :=
  match s with SO_Order v => v | SO_Inactive => 15 end.

(** SuperframeSpecification, beacon.rs:81-96 *)
Record SuperframeSpecification := {
  beacon_order : BeaconOrder;
  superframe_order : SuperframeOrder;
  final_cap_slot : N;
  battery_life_extension : bool;
  pan_coordinator : bool;
  association_permit : bool
}.

(** Direction, beacon.rs:159-164 *)
Inductive Direction := Receive | Transmit.

(** GuaranteedTimeSlotDescriptor, beacon.rs:169-178 (all fields private) *)
Record GtsDescriptor := {
  gts_short_address : ShortAddress;
  gts_starting_slot : N;
  gts_length : N;
  gts_direction : Direction
}.

(** GuaranteedTimeSlotDescriptor::new, beacon.rs:182-189 *)
Definition GtsDescriptor_new : GtsDescriptor :=
  {| gts_short_address := short_broadcast; gts_starting_slot := 0;
     gts_length := 0; gts_direction := Receive |}.

(** GuaranteedTimeSlotInformation, beacon.rs:239-244 ([slot_count], [slots] private).
    The array [_; 7] is a list (of length 7 in every reachable value). *)
Record GtsInformation := {
  gts_permit : bool;
  gts_slot_count : nat;
  gts_slots : list GtsDescriptor
}.

(** GuaranteedTimeSlotInformation::new, beacon.rs:248-254 *)
Definition GtsInformation_new : GtsInformation :=
  {| gts_permit := false; gts_slot_count := 0; gts_slots := repeat GtsDescriptor_new 7 |}.

(** [&a[..n]]: panics when n exceeds the length. *)
Definition slice_to {E A} (a : list A) (n : nat) : outcome E (list A) :=
  if (n <=? List.length a)%nat then Ok (firstn n a) else Panic.

(** GuaranteedTimeSlotInformation::slots, beacon.rs:257-259 *)
Definition gts_slots_slice (g : GtsInformation) : bres (list GtsDescriptor) :=
  slice_to (gts_slots g) (gts_slot_count g).

(** PendingAddress, beacon.rs:358-363 (all fields private) *)
Record PendingAddress := {
  short_address_count : nat;
  short_addresses : list ShortAddress;
  extended_address_count : nat;
  extended_addresses : list ExtendedAddress
}.

(** PendingAddress::new, beacon.rs:367-374 *)
Definition PendingAddress_new : PendingAddress :=
  {| short_address_count := 0; short_addresses := repeat short_broadcast 7;
     extended_address_count := 0; extended_addresses := repeat extended_broadcast 7 |}.

(** PendingAddress::short_addresses / extended_addresses, beacon.rs:377-383 *)
Definition short_addresses_slice (p : PendingAddress) : bres (list ShortAddress) :=
  slice_to (short_addresses p) (short_address_count p).
Definition extended_addresses_slice (p : PendingAddress) : bres (list ExtendedAddress) :=
  slice_to (extended_addresses p) (extended_address_count p).

(** Beacon, beacon.rs:444-451 *)
Record Beacon := {
  superframe_spec : SuperframeSpecification;
  guaranteed_time_slot_info : GtsInformation;
  pending_address : PendingAddress
}.

(** * src/mac/command.rs *)

(** CommandId, command.rs:12-33, through extended_enum! (utils.rs:13-66) *)
Inductive CommandId :=
| CI_AssociationRequest | CI_AssociationResponse | CI_DisassociationNotification
| CI_DataRequest | CI_PanIdConflictNotification | CI_OrphanNotification
| CI_BeaconRequest | CI_CoordinatorRealignment | CI_GuaranteedTimeSlotRequest.

(** OptionalFrom<u8> for CommandId, utils.rs:44-51 with command.rs:16-32 *)
Definition command_id_optional_from (v : N) : option CommandId :=
  match v with
  | 1 => Some CI_AssociationRequest
  | 2 => Some CI_AssociationResponse
  | 3 => Some CI_DisassociationNotification
  | 4 => Some CI_DataRequest
  | 5 => Some CI_PanIdConflictNotification
  | 6 => Some CI_OrphanNotification
  | 7 => Some CI_BeaconRequest
  | 8 => Some CI_CoordinatorRealignment
  | 9 => Some CI_GuaranteedTimeSlotRequest
  | _ => None
  end.

(** From<u8> for CommandId, utils.rs:27-34 *)
Definition command_id_from (v : N) : bres CommandId :=
  match v with
  | 1 => Ok CI_AssociationRequest
  | 2 => Ok CI_AssociationResponse
  | 3 => Ok CI_DisassociationNotification
  | 4 => Ok CI_DataRequest
  | 5 => Ok CI_PanIdConflictNotification
  | 6 => Ok CI_OrphanNotification
  | 7 => Ok CI_BeaconRequest
  | 8 => Ok CI_CoordinatorRealignment
  | 9 => Ok CI_GuaranteedTimeSlotRequest
  | _ => Panic
  end.

(** From<CommandId> for u8, utils.rs:36-42 *)
Definition command_id_u8 (c : CommandId) : N :=
  match c with
  | CI_AssociationRequest => 1
  | CI_AssociationResponse => 2
  | CI_DisassociationNotification => 3
  | CI_DataRequest => 4
  | CI_PanIdConflictNotification => 5
  | CI_OrphanNotification => 6
  | CI_BeaconRequest => 7
  | CI_CoordinatorRealignment => 8
  | CI_GuaranteedTimeSlotRequest => 9
  end.

(** PartialEq<CommandId> for u8, utils.rs:53-64 ([eq] and the hand-written [ne]) *)
Definition u8_eq_command_id (v : N) (c : CommandId) : bool :=
  match c with
  | CI_AssociationRequest => v =? 1
  | CI_AssociationResponse => v =? 2
  | CI_DisassociationNotification => v =? 3
  | CI_DataRequest => v =? 4
  | CI_PanIdConflictNotification => v =? 5
  | CI_OrphanNotification => v =? 6
  | CI_BeaconRequest => v =? 7
  | CI_CoordinatorRealignment => v =? 8
  | CI_GuaranteedTimeSlotRequest => v =? 9
  end.
Definition u8_ne_command_id (v : N) (c : CommandId) : bool :=
  match c with
  | CI_AssociationRequest => negb (v =? 1)
  | CI_AssociationResponse => negb (v =? 2)
  | CI_DisassociationNotification => negb (v =? 3)
  | CI_DataRequest => negb (v =? 4)
  | CI_PanIdConflictNotification => negb (v =? 5)
  | CI_OrphanNotification => negb (v =? 6)
  | CI_BeaconRequest => negb (v =? 7)
  | CI_CoordinatorRealignment => negb (v =? 8)
  | CI_GuaranteedTimeSlotRequest => negb (v =? 9)
  end.

(** AssociationStatus, command.rs:101-114 *)
Inductive AssociationStatus :=
| AS_Successful | AS_NetworkAtCapacity | AS_AccessDenied
| AS_HoppingSequenceOffsetDuplication | AS_FastAssociationSuccesful.

Definition association_status_optional_from (v : N) : option AssociationStatus :=
  match v with
  | 0x00 => Some AS_Successful
  | 0x01 => Some AS_NetworkAtCapacity
  | 0x02 => Some AS_AccessDenied
  | 0x03 => Some AS_HoppingSequenceOffsetDuplication
  | 0x80 => Some AS_FastAssociationSuccesful
  | _ => None
  end.

Definition association_status_from (v : N) : bres AssociationStatus :=
  match v with
  | 0x00 => Ok AS_Successful
  | 0x01 => Ok AS_NetworkAtCapacity
  | 0x02 => Ok AS_AccessDenied
  | 0x03 => Ok AS_HoppingSequenceOffsetDuplication
  | 0x80 => Ok AS_FastAssociationSuccesful
  | _ => Panic
  end.

Definition association_status_u8 (s : AssociationStatus) : N :=
  match s with
  | AS_Successful => 0x00
  | AS_NetworkAtCapacity => 0x01
  | AS_AccessDenied => 0x02
  | AS_HoppingSequenceOffsetDuplication => 0x03
  | AS_FastAssociationSuccesful => 0x80
  end.

Definition u8_eq_association_status (v : N) (s : AssociationStatus) : bool :=
  match s with
  | AS_Successful => v =? 0x00
  | AS_NetworkAtCapacity => v =? 0x01
  | AS_AccessDenied => v =? 0x02
  | AS_HoppingSequenceOffsetDuplication => v =? 0x03
  | AS_FastAssociationSuccesful => v =? 0x80
  end.
Definition u8_ne_association_status (v : N) (s : AssociationStatus) : bool :=
  match s with
  | AS_Successful => negb (v =? 0x00)
  | AS_NetworkAtCapacity => negb (v =? 0x01)
  | AS_AccessDenied => negb (v =? 0x02)
  | AS_HoppingSequenceOffsetDuplication => negb (v =? 0x03)
  | AS_FastAssociationSuccesful => negb (v =? 0x80)
  end.

(** DisassociationReason, command.rs:116-123 *)
Inductive DisassociationReason := DR_CoordinatorLeave | DR_DeviceLeave.

Definition disassociation_reason_optional_from (v : N) : option DisassociationReason :=
  match v with
  | 1 => Some DR_CoordinatorLeave
  | 2 => Some DR_DeviceLeave
  | _ => None
  end.

Definition disassociation_reason_from (v : N) : bres DisassociationReason :=
  match v with
  | 1 => Ok DR_CoordinatorLeave
  | 2 => Ok DR_DeviceLeave
  | _ => Panic
  end.

Definition disassociation_reason_u8 (r : DisassociationReason) : N :=
  match r with DR_CoordinatorLeave => 1 | DR_DeviceLeave => 2 end.

Definition u8_eq_disassociation_reason (v : N) (r : DisassociationReason) : bool :=
  match r with DR_CoordinatorLeave => v =? 1 | DR_DeviceLeave => v =? 2 end.
Definition u8_ne_disassociation_reason (v : N) (r : DisassociationReason) : bool :=
  match r with DR_CoordinatorLeave => negb (v =? 1) | DR_DeviceLeave => negb (v =? 2) end.

(** CapabilityInformation, command.rs:46-58 *)
Record CapabilityInformation := {
  full_function_device : bool;
  mains_power : bool;
  idle_receive : bool;
  frame_protection : bool;
  allocate_address : bool
}.

(** command.rs:35-39 *)
Definition CAP_FFD : N := 0x02.
Definition CAP_MAINS_POWER : N := 0x04.
Definition CAP_IDLE_RECEIVE : N := 0x08.
Definition CAP_FRAME_PROTECTION : N := 0x40.
Definition CAP_ALLOCATE_ADDRESS : N := 0x80.

(** From<u8> for CapabilityInformation, command.rs:60-77 *)
Definition capability_from (byte : N) : CapabilityInformation :=
  {| full_function_device := N.land byte CAP_FFD =? CAP_FFD;
     mains_power := N.land byte CAP_MAINS_POWER =? CAP_MAINS_POWER;
     idle_receive := N.land byte CAP_IDLE_RECEIVE =? CAP_IDLE_RECEIVE;
     frame_protection := N.land byte CAP_FRAME_PROTECTION =? CAP_FRAME_PROTECTION;
     allocate_address := N.land byte CAP_ALLOCATE_ADDRESS =? CAP_ALLOCATE_ADDRESS |}.

(** From<CapabilityInformation> for u8, command.rs:79-99 *)
Definition capability_u8 (ar : CapabilityInformation) : N :=
  let byte := 0 in
  let byte := if full_function_device ar then N.lor byte CAP_FFD else byte in
  let byte := if mains_power ar then N.lor byte CAP_MAINS_POWER else byte in
  let byte := if idle_receive ar then N.lor byte CAP_IDLE_RECEIVE else byte in
  let byte := if frame_protection ar then N.lor byte CAP_FRAME_PROTECTION else byte in
  let byte := if allocate_address ar then N.lor byte CAP_ALLOCATE_ADDRESS else byte in
  byte.

(** CoordinatorRealignmentData, command.rs:130-141 *)
Record CoordinatorRealignmentData := {
  cr_pan_id : PanId;
  cr_coordinator_address : ShortAddress;
  cr_channel : N;
  cr_device_address : ShortAddress;
  cr_channel_page : option N
}.

(** GuaranteedTimeSlotCharacteristics, command.rs:191-198 *)
Record GtsCharacteristics := {
  gtsc_count : N;
  gtsc_receive_only : bool;
  gtsc_allocation : bool
}.

(** command.rs:183-184 *)
Definition GTSC_RECEIVE_ONLY : N := 0x10.
Definition GTSC_ALLOCATION : N := 0x20.

(** From<u8> for GuaranteedTimeSlotCharacteristics, command.rs:200-210 *)
Definition gtsc_from (byte : N) : GtsCharacteristics :=
  {| gtsc_count := N.land byte 0x0f;
     gtsc_receive_only := N.land byte GTSC_RECEIVE_ONLY =? GTSC_RECEIVE_ONLY;
     gtsc_allocation := N.land byte GTSC_ALLOCATION =? GTSC_ALLOCATION |}.

(** From<GuaranteedTimeSlotCharacteristics> for u8, command.rs:212-223 *)
Definition gtsc_u8 (g : GtsCharacteristics) : N :=
  let byte := N.land (gtsc_count g) 0x0f in
  let byte := if gtsc_receive_only g then N.lor byte GTSC_RECEIVE_ONLY else byte in
  let byte := if gtsc_allocation g then N.lor byte GTSC_ALLOCATION else byte in
  byte.

(** Command, command.rs:228-247 *)
Inductive Command :=
| AssociationRequest (c : CapabilityInformation)
| AssociationResponse (a : ShortAddress) (s : AssociationStatus)
| DisassociationNotification (r : DisassociationReason)
| DataRequest
| PanIdConflictNotification
| OrphanNotification
| BeaconRequest
| CoordinatorRealignment (d : CoordinatorRealignmentData)
| GuaranteedTimeSlotRequest (g : GtsCharacteristics).

(** * src/mac/frame/mod.rs *)

(** FrameContent, frame/mod.rs:399-416 *)
Inductive FrameContent :=
| FC_Beacon (b : Beacon)
| FC_Data
| FC_Acknowledgement
| FC_Command (c : Command)
| FC_Multipurpose
| FC_FragOrFragAck
| FC_Extended.

(** FooterMode, frame/mod.rs:383-388 *)
Inductive FooterMode := Footer_None | Footer_Explicit.

(** Default for FooterMode, frame/mod.rs:390-394 *)
Definition FooterMode_default : FooterMode := Footer_None.

(** Frame, frame/mod.rs:156-175; [footer: [u8; 2]] is a pair. *)
Record Frame := {
  header : Header;
  content : FrameContent;
  payload : list N;
  footer : N * N
}.

(** * src/mac/frame/security/mod.rs *)

(** AddressingMode, security/mod.rs:193-198 *)
Inductive AddressingMode := DstAddrMode | SrcAddrMode.

(** DeviceDescriptor, security/mod.rs:203-208 *)
Record DeviceDescriptor := { dev_frame_counter : N; dev_exempt : bool }.

(** KeyDescriptorLookup::lookup_key_descriptor, security/mod.rs:211-232. The method
    takes [&self]: modelled as a pure function (no interior mutability). [K] is the
    type of keys of the block cipher. *)
Definition KeyLookup (K : Type) :=
  AddressingMode -> option KeyIdentifier -> option Address -> option (N * K).

(** Option<&mut DeviceDescriptor> returned by DeviceDescriptorLookup::lookup_device
    (security/mod.rs:235-242; [&mut self] of state D): either nothing, with the state the
    lookup left, or the descriptor and how a new value for it is put back. *)
Inductive dev_borrow (D : Type) :=
| DevMissing (s : D)
| DevFound (d : DeviceDescriptor) (put : DeviceDescriptor -> D).

Arguments DevMissing {D} s.
Arguments DevFound {D} d put.

Definition DeviceLookup (D : Type) := AddressingMode -> Address -> D -> dev_borrow D.

(** SecurityContext, security/mod.rs:253-269 (phantom_data dropped) *)
Record SecurityContext (K : Type) := {
  sc_euid : N;
  sc_frame_counter : N;
  sc_key_provider : KeyLookup K
}.
Arguments sc_euid {K} _.
Arguments sc_frame_counter {K} _.
Arguments sc_key_provider {K} _.

(** SecurityContext::new, security/mod.rs:278-285 *)
Definition SecurityContext_new {K} (euid fc : N) (kp : KeyLookup K) : SecurityContext K :=
  {| sc_euid := euid; sc_frame_counter := fc; sc_key_provider := kp |}.

(** Unimplemented::lookup_key_descriptor and lookup_device, security/default.rs:22-31, 55-63 *)
Definition unimplemented_keys {K} : KeyLookup K := fun _ _ _ => None.
Definition unimplemented_devices {D} : DeviceLookup D := fun _ _ ds => DevMissing ds.

(** SecurityContext::no_security, security/mod.rs:290-297 *)
Definition SecurityContext_no_security {K} : SecurityContext K :=
  {| sc_euid := 0; sc_frame_counter := 0; sc_key_provider := unimplemented_keys |}.

(** [context.frame_counter = v] *)
Definition set_sc_frame_counter {K} (s : SecurityContext K) (v : N) : SecurityContext K :=
  {| sc_euid := sc_euid s; sc_frame_counter := v; sc_key_provider := sc_key_provider s |}.

(** FrameSerDesContext, frame/mod.rs:179-188 *)
Record FrameSerDesContext (K : Type) := {
  footer_mode : FooterMode;
  security_ctx : option (SecurityContext K)
}.
Arguments footer_mode {K} _.
Arguments security_ctx {K} _.

(** FrameSerDesContext::new, frame/mod.rs:197-205 *)
Definition FrameSerDesContext_new {K} (m : FooterMode) (sc : option (SecurityContext K))
  : FrameSerDesContext K :=
  {| footer_mode := m; security_ctx := sc |}.

(** FrameSerDesContext::no_security, frame/mod.rs:211-216 *)
Definition FrameSerDesContext_no_security {K} (m : FooterMode) : FrameSerDesContext K :=
  {| footer_mode := m; security_ctx := None |}.

(** SecurityError, security/mod.rs:681-722 *)
Inductive SecurityError :=
| SecurityNotEnabled | InvalidSecContext | FrameTooLong | CounterError
| UnavailableKey | KeyFailure | NoSourceAddress | NoDestinationAddress
| TransformationError | WriteError (e : byte_error) | TagWriteError
| NotImplemented | AuxSecHeaderAbsent | KeyIdentifierMismatch
| UnsupportedLegacy | UnsupportedSecurity | UnavailableDevice
| KeyLookupAddressTypeMismatch.

(** From<SecurityError> for byte::Error, security/mod.rs:730-789 *)
Definition security_error_into (e : SecurityError) : byte_error :=
  match e with
  | InvalidSecContext => BadInput "InvalidSecContext"
  | FrameTooLong => BadInput "FrameTooLong"
  | CounterError => BadInput "CounterError"
  | UnavailableKey => BadInput "UnavailableKey"
  | KeyFailure => BadInput "KeyFailure"
  | NoSourceAddress => BadInput "NoSourceAddress"
  | NoDestinationAddress => BadInput "NoDstAddress"
  | TransformationError => BadInput "TransformationError"
  | TagWriteError => BadInput "TagWriteError"
  | SecurityNotEnabled => BadInput "SecurityNotEnabled"
  | WriteError e => e
  | NotImplemented => BadInput "NotImplemented"
  | AuxSecHeaderAbsent => BadInput "AuxSecHeaderAbsent"
  | KeyIdentifierMismatch => BadInput "KeyIdentifierMismatch"
  | UnsupportedLegacy => BadInput "UnsupportedLegacy"
  | UnsupportedSecurity => BadInput "UnsupportedSecurity"
  | UnavailableDevice => BadInput "UnavailableDevice"
  | KeyLookupAddressTypeMismatch => BadInput "KeyLookupAddressTypeMismatch"
  end.
