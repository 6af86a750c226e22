(** Model of the text that #[derive(Debug)] gives for [{:?}]: the name of the variant or of the type,
    [Name { field: value, .. }] for structs with named fields, [Name(value, ..)] for tuple structs and
    tuple variants, [\[value, ..\]] for arrays and slices, decimal integers, [true] and [false], strings in quotes
    (core::fmt: Debug for the primitives, DebugStruct, DebugTuple, DebugList). The fields are in the order of their
    declaration. Simplification: escapes in strings are left out, the strings printed have nothing to escape (PropDebug.v); flags
    such as [{:x?}] are not modelled, except [{:#?}], which puts each field on a line of its own. *)
From Coq Require Import List Arith NArith Bool String Ascii DecimalString DecimalN.
From Verif Require Import ByteCrate Types BeaconModel CommandModel FrameModel.
Import ListNotations.
Open Scope string_scope.

(** What a derived [fmt] hands to the formatter *)
Inductive tree :=
| Word (w : string)
| Quoted (s : string)
| Fields (name : string) (l : list (string * tree))
| Args (name : string) (l : list tree)
| Items (l : list tree).

(** core::fmt::builders without the [#] flag *)
Fixpoint show (t : tree) : string :=
  match t with
  | Word w => w
  | Quoted s => """" ++ s ++ """"
  | Fields n l => n ++ " { " ++ concat ", " (map (fun p => fst p ++ ": " ++ show (snd p)) l) ++ " }"
  | Args n l => n ++ "(" ++ concat ", " (map show l) ++ ")"
  | Items l => "[" ++ concat ", " (map show l) ++ "]"
  end.

(** Debug for the integers, bool, Option and slices, core *)
Definition decimal (n : N) : string := NilEmpty.string_of_uint (N.to_uint n).
Definition debug_num (n : N) : tree := Word (decimal n).
Definition debug_usize (n : nat) : tree := debug_num (N.of_nat n).
Definition debug_bool (b : bool) : tree := Word (if b then "true" else "false").
Definition debug_option {A} (d : A -> tree) (o : option A) : tree :=
  match o with Some a => Args "Some" [d a] | None => Word "None" end.
Definition debug_slice {A} (d : A -> tree) (l : list A) : tree := Items (map d l).

(** FrameType, FrameVersion, AddressMode, frame_control.rs:10, 63, 108 *)
Definition debug_frame_type (t : FrameType) : tree :=
  Word match t with
       | Beacon_t => "Beacon" | Data_t => "Data" | Acknowledgement_t => "Acknowledgement"
       | MacCommand_t => "MacCommand" | Multipurpose_t => "Multipurpose"
       | FragOrFragAck_t => "FragOrFragAck" | Extended_t => "Extended"
       end.
Definition debug_frame_version (v : FrameVersion) : tree :=
  Word match v with
       | Ieee802154_2003 => "Ieee802154_2003" | Ieee802154_2006 => "Ieee802154_2006" | Ieee802154 => "Ieee802154"
       end.
Definition debug_address_mode (m : AddressMode) : tree :=
  Word match m with Mode_None => "None" | Mode_Short => "Short" | Mode_Extended => "Extended" end.
(** PanId, ShortAddress, ExtendedAddress, Address, header.rs:320, 359, 401, 433 *)
Definition debug_pan_id (p : PanId) : tree := Args "PanId" [debug_num p].
Definition debug_short_address (a : ShortAddress) : tree := Args "ShortAddress" [debug_num a].
Definition debug_extended_address (a : ExtendedAddress) : tree := Args "ExtendedAddress" [debug_num a].
Definition debug_address (a : Address) : tree :=
  match a with
  | Short p s => Args "Short" [debug_pan_id p; debug_short_address s]
  | Extended p e => Args "Extended" [debug_pan_id p; debug_extended_address e]
  end.
(** SecurityLevel, KeyIdentifierMode, SecurityControl, security_control.rs:9, 68, 130 *)
Definition debug_security_level (l : SecurityLevel) : tree :=
  Word match l with
       | SL_None => "None" | SL_MIC32 => "MIC32" | SL_MIC64 => "MIC64" | SL_MIC128 => "MIC128"
       | SL_ENC => "ENC" | SL_ENCMIC32 => "ENCMIC32" | SL_ENCMIC64 => "ENCMIC64" | SL_ENCMIC128 => "ENCMIC128"
       end.
Definition debug_key_id_mode (m : KeyIdentifierMode) : tree :=
  Word match m with
       | KIM_None => "None" | KIM_KeyIndex => "KeyIndex" | KIM_KeySource4 => "KeySource4" | KIM_KeySource8 => "KeySource8"
       end.
Definition debug_security_control (s : SecurityControl) : tree :=
  Fields "SecurityControl" [("security_level", debug_security_level (security_level s)); ("key_id_mode", debug_key_id_mode (key_id_mode s))].
(** KeySource, KeyIdentifier, AuxiliarySecurityHeader, auxiliary_security_header.rs:12, 157, 184 *)
Definition debug_key_source (k : KeySource) : tree :=
  match k with KS_Short v => Args "Short" [debug_num v] | KS_Long v => Args "Long" [debug_num v] end.
Definition debug_key_identifier (k : KeyIdentifier) : tree :=
  Fields "KeyIdentifier" [("key_source", debug_option debug_key_source (key_source k)); ("key_index", debug_num (key_index k))].
Definition debug_aux_header (a : AuxiliarySecurityHeader) : tree :=
  Fields "AuxiliarySecurityHeader"
    [("control", debug_security_control (control a)); ("frame_counter", debug_num (frame_counter a));
     ("key_identifier", debug_option debug_key_identifier (key_identifier a))].
(** Header, header.rs:24-83 *)
Definition debug_header (h : Header) : tree :=
  Fields "Header"
    [("frame_type", debug_frame_type (frame_type h)); ("frame_pending", debug_bool (frame_pending h));
     ("ack_request", debug_bool (ack_request h)); ("pan_id_compress", debug_bool (pan_id_compress h));
     ("seq_no_suppress", debug_bool (seq_no_suppress h)); ("ie_present", debug_bool (ie_present h));
     ("version", debug_frame_version (version h)); ("seq", debug_num (seq h));
     ("destination", debug_option debug_address (destination h)); ("source", debug_option debug_address (source h));
     ("auxiliary_security_header", debug_option debug_aux_header (auxiliary_security_header h))].
(** BeaconOrder, SuperframeOrder, SuperframeSpecification, beacon.rs:12, 44, 79 *)
Definition debug_beacon_order (b : BeaconOrder) : tree :=
  match b with BO_Order v => Args "BeaconOrder" [debug_num v] | BO_OnDemand => Word "OnDemand" end.
Definition debug_superframe_order (s : SuperframeOrder) : tree :=
  match s with SO_Order v => Args "SuperframeOrder" [debug_num v] | SO_Inactive => Word "Inactive" end.
Definition debug_superframe (s : SuperframeSpecification) : tree :=
  Fields "SuperframeSpecification"
    [("beacon_order", debug_beacon_order (beacon_order s)); ("superframe_order", debug_superframe_order (superframe_order s));
     ("final_cap_slot", debug_num (final_cap_slot s)); ("battery_life_extension", debug_bool (battery_life_extension s));
     ("pan_coordinator", debug_bool (pan_coordinator s)); ("association_permit", debug_bool (association_permit s))].
(** Direction, GuaranteedTimeSlotDescriptor, GuaranteedTimeSlotInformation, beacon.rs:157, 167, 237 *)
Definition debug_direction (d : Direction) : tree := Word match d with Receive => "Receive" | Transmit => "Transmit" end.
Definition debug_gts_descriptor (g : GtsDescriptor) : tree :=
  Fields "GuaranteedTimeSlotDescriptor"
    [("short_address", debug_short_address (gts_short_address g)); ("starting_slot", debug_num (gts_starting_slot g));
     ("length", debug_num (gts_length g)); ("direction", debug_direction (gts_direction g))].
Definition debug_gts_information (g : GtsInformation) : tree :=
  Fields "GuaranteedTimeSlotInformation"
    [("permit", debug_bool (gts_permit g)); ("slot_count", debug_usize (gts_slot_count g));
     ("slots", debug_slice debug_gts_descriptor (gts_slots g))].
(** PendingAddress, Beacon, beacon.rs:356, 442 *)
Definition debug_pending (p : PendingAddress) : tree :=
  Fields "PendingAddress"
    [("short_address_count", debug_usize (short_address_count p)); ("short_addresses", debug_slice debug_short_address (short_addresses p));
     ("extended_address_count", debug_usize (extended_address_count p));
     ("extended_addresses", debug_slice debug_extended_address (extended_addresses p))].
Definition debug_beacon (b : Beacon) : tree :=
  Fields "Beacon"
    [("superframe_spec", debug_superframe (superframe_spec b));
     ("guaranteed_time_slot_info", debug_gts_information (guaranteed_time_slot_info b));
     ("pending_address", debug_pending (pending_address b))].
(** CapabilityInformation, CoordinatorRealignmentData, GuaranteedTimeSlotCharacteristics, command.rs:44, 128, 189 *)
Definition debug_capability (c : CapabilityInformation) : tree :=
  Fields "CapabilityInformation"
    [("full_function_device", debug_bool (full_function_device c)); ("mains_power", debug_bool (mains_power c));
     ("idle_receive", debug_bool (idle_receive c)); ("frame_protection", debug_bool (frame_protection c));
     ("allocate_address", debug_bool (allocate_address c))].
Definition debug_realignment (d : CoordinatorRealignmentData) : tree :=
  Fields "CoordinatorRealignmentData"
    [("pan_id", debug_pan_id (cr_pan_id d)); ("coordinator_address", debug_short_address (cr_coordinator_address d));
     ("channel", debug_num (cr_channel d)); ("device_address", debug_short_address (cr_device_address d));
     ("channel_page", debug_option debug_num (cr_channel_page d))].
Definition debug_characteristics (g : GtsCharacteristics) : tree :=
  Fields "GuaranteedTimeSlotCharacteristics"
    [("count", debug_num (gtsc_count g)); ("receive_only", debug_bool (gtsc_receive_only g)); ("allocation", debug_bool (gtsc_allocation g))].
(** The enumerations made by extended_enum!, command.rs:12, 101, 116, utils.rs:17 *)
Definition debug_command_id (c : CommandId) : tree :=
  Word match c with
       | CI_AssociationRequest => "AssociationRequest" | CI_AssociationResponse => "AssociationResponse"
       | CI_DisassociationNotification => "DisassociationNotification" | CI_DataRequest => "DataRequest"
       | CI_PanIdConflictNotification => "PanIdConflictNotification" | CI_OrphanNotification => "OrphanNotification"
       | CI_BeaconRequest => "BeaconRequest" | CI_CoordinatorRealignment => "CoordinatorRealignment"
       | CI_GuaranteedTimeSlotRequest => "GuaranteedTimeSlotRequest"
       end.
Definition debug_association_status (s : AssociationStatus) : tree :=
  Word match s with
       | AS_Successful => "Successful" | AS_NetworkAtCapacity => "NetworkAtCapacity" | AS_AccessDenied => "AccessDenied"
       | AS_HoppingSequenceOffsetDuplication => "HoppingSequenceOffsetDuplication"
       | AS_FastAssociationSuccesful => "FastAssociationSuccesful"
       end.
Definition debug_disassociation_reason (r : DisassociationReason) : tree :=
  Word match r with DR_CoordinatorLeave => "CoordinatorLeave" | DR_DeviceLeave => "DeviceLeave" end.
(** Command, command.rs:224-247 *)
Definition debug_command (c : Command) : tree :=
  match c with
  | AssociationRequest i => Args "AssociationRequest" [debug_capability i]
  | AssociationResponse a s => Args "AssociationResponse" [debug_short_address a; debug_association_status s]
  | DisassociationNotification r => Args "DisassociationNotification" [debug_disassociation_reason r]
  | DataRequest => Word "DataRequest"
  | PanIdConflictNotification => Word "PanIdConflictNotification"
  | OrphanNotification => Word "OrphanNotification"
  | BeaconRequest => Word "BeaconRequest"
  | CoordinatorRealignment d => Args "CoordinatorRealignment" [debug_realignment d]
  | GuaranteedTimeSlotRequest g => Args "GuaranteedTimeSlotRequest" [debug_characteristics g]
  end.
(** FrameContent, Frame, frame/mod.rs:154, 397 *)
Definition debug_content (f : FrameContent) : tree :=
  match f with
  | FC_Beacon b => Args "Beacon" [debug_beacon b]
  | FC_Data => Word "Data"
  | FC_Acknowledgement => Word "Acknowledgement"
  | FC_Command c => Args "Command" [debug_command c]
  | FC_Multipurpose => Word "Multipurpose"
  | FC_FragOrFragAck => Word "FragOrFragAck"
  | FC_Extended => Word "Extended"
  end.
Definition debug_frame (f : Frame) : tree :=
  Fields "Frame"
    [("header", debug_header (header f)); ("content", debug_content (content f)); ("payload", debug_slice debug_num (payload f));
     ("footer", debug_slice debug_num [fst (footer f); snd (footer f)])].
(** DecodeError, EncodeError, frame/mod.rs:451, 521 *)
Definition debug_decode_error (e : DecodeError) : tree :=
  match e with
  | NotEnoughBytes => Word "NotEnoughBytes"
  | InvalidFrameType v => Args "InvalidFrameType" [debug_num v]
  | SecurityEnabled => Word "SecurityEnabled"
  | InvalidAddressMode v => Args "InvalidAddressMode" [debug_num v]
  | InvalidFrameVersion v => Args "InvalidFrameVersion" [debug_num v]
  | InvalidSecurityLevel v => Args "InvalidSecurityLevel" [debug_num v]
  | InvalidKeyIdentifierMode v => Args "InvalidKeyIdentifierMode" [debug_num v]
  | MissingSecurityCtx_d => Word "MissingSecurityCtx"
  | AuxSecHeaderAbsent_d => Word "AuxSecHeaderAbsent"
  | InvalidValue => Word "InvalidValue"
  end.
Definition debug_encode_error (e : EncodeError) : tree :=
  Word match e with
       | WriteError_e => "WriteError" | MissingSecurityCtx => "MissingSecurityCtx"
       | DisallowedPanIdCompress => "DisallowedPanIdCompress" | UnknownError => "UnknownError"
       end.
(** Error of the byte crate, which derives Debug too *)
Definition debug_byte_error (e : byte_error) : tree :=
  match e with
  | Incomplete => Word "Incomplete"
  | BadOffset n => Args "BadOffset" [debug_usize n]
  | BadInput s => Fields "BadInput" [("err", Quoted s)]
  end.
(** SecurityError, security/mod.rs:680 *)
Definition debug_security_error (e : SecurityError) : tree :=
  match e with
  | SecurityNotEnabled => Word "SecurityNotEnabled"
  | InvalidSecContext => Word "InvalidSecContext"
  | FrameTooLong => Word "FrameTooLong"
  | CounterError => Word "CounterError"
  | UnavailableKey => Word "UnavailableKey"
  | KeyFailure => Word "KeyFailure"
  | NoSourceAddress => Word "NoSourceAddress"
  | NoDestinationAddress => Word "NoDestinationAddress"
  | TransformationError => Word "TransformationError"
  | WriteError e => Args "WriteError" [debug_byte_error e]
  | TagWriteError => Word "TagWriteError"
  | NotImplemented => Word "NotImplemented"
  | AuxSecHeaderAbsent => Word "AuxSecHeaderAbsent"
  | KeyIdentifierMismatch => Word "KeyIdentifierMismatch"
  | UnsupportedLegacy => Word "UnsupportedLegacy"
  | UnsupportedSecurity => Word "UnsupportedSecurity"
  | UnavailableDevice => Word "UnavailableDevice"
  | KeyLookupAddressTypeMismatch => Word "KeyLookupAddressTypeMismatch"
  end.

(** [format!("{:?}", x)], for a type with the derived [fmt] d *)
Definition text {A} (d : A -> tree) (x : A) : string := show (d x).

(** [{:#?}]: core::fmt::builders with the [#] flag. [ind] is what the nested PadAdapters put at the start of every line; nothing printed contains
    line breaks of its own. *)
Definition newline : string := String "010"%char EmptyString.
Fixpoint show_pretty (ind : string) (t : tree) : string :=
  match t with
  | Word w => w
  | Quoted s => """" ++ s ++ """"
  | Fields n l => n ++ " {" ++ newline
      ++ concat "" (map (fun p => ind ++ "    " ++ fst p ++ ": " ++ show_pretty (ind ++ "    ") (snd p) ++ "," ++ newline) l) ++ ind ++ "}"
  | Args n l => n ++ "(" ++ newline
      ++ concat "" (map (fun t => ind ++ "    " ++ show_pretty (ind ++ "    ") t ++ "," ++ newline) l) ++ ind ++ ")"
  | Items [] => "[]"
  | Items l => "[" ++ newline
      ++ concat "" (map (fun t => ind ++ "    " ++ show_pretty (ind ++ "    ") t ++ "," ++ newline) l) ++ ind ++ "]"
  end.
(** [format!("{:#?}", x)] *)
Definition pretty {A} (d : A -> tree) (x : A) : string := show_pretty "" (d x).
