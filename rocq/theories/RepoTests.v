(** The repository's own unit tests and doc examples replayed on the model (tests of the
    model's fidelity, not proofs). Host: little endian, overflow checks on, 64 bit. *)
From Coq Require Import List Arith NArith Bool String.
From Verif Require Import ByteCrate Types HeaderModel BeaconModel CommandModel CcmModel FrameModel Aes128.
Import ListNotations.
Open Scope N_scope.

Definition host : cfg := {| overflow_checks := true; native := LE; usize_bits := 64 |}.

Definition written {A B} (r : bres nat * (A * list N)) (d : B) : bres (list N) :=
  match r with
  | (Ok n, (_, buf)) => Ok (firstn n buf)
  | (Err e, _) => Err e
  | (Panic, _) => Panic
  end.

Definition wrote (r : bres nat * list N) : bres (list N) :=
  match r with
  | (Ok n, buf) => Ok (firstn n buf)
  | (Err e, _) => Err e
  | (Panic, _) => Panic
  end.

Definition no_ctx (m : FooterMode) : FrameSerDesContext (list N) := FrameSerDesContext_no_security m.
Definition plain_write (m : FooterMode) (f : Frame) (n : nat) : bres (list N) :=
  written (try_write_frame host aes_cipher f (no_ctx m) (repeat 0 n)) tt.

(** frame/mod.rs:563-579 decode_ver0_ack *)
Example decode_ver0_ack :
  try_read_frame host Footer_None [0x02; 0x00; 0x04]
  = Ok ({| header := {| frame_type := Acknowledgement_t; frame_pending := false;
             ack_request := false; pan_id_compress := false; seq_no_suppress := false;
             ie_present := false; version := Ieee802154_2003; seq := 4;
             destination := None; source := None; auxiliary_security_header := None |};
           content := FC_Acknowledgement; payload := []; footer := (0, 0) |}, 3%nat).
Proof. vm_compute. reflexivity. Qed.

(** frame/mod.rs:581-604 decode_ver0_pan_id_compression *)
Example decode_ver0_pan_id_compression :
  try_read_frame host Footer_None
    [0x41; 0x88; 0x91; 0x8f; 0x20; 0xff; 0xff; 0x33; 0x44; 0x00; 0x00]
  = Ok ({| header := {| frame_type := Data_t; frame_pending := false;
             ack_request := false; pan_id_compress := true; seq_no_suppress := false;
             ie_present := false; version := Ieee802154_2003; seq := 145;
             destination := Some (Short 0x208f 0xffff); source := Some (Short 0x208f 0x4433);
             auxiliary_security_header := None |};
           content := FC_Data; payload := [0; 0]; footer := (0, 0) |}, 11%nat).
Proof. vm_compute. reflexivity. Qed.

(** frame/mod.rs:606-616 decode_ver0_pan_id_compression_bad *)
Example decode_ver0_pan_id_compression_bad :
  try_read_frame host Footer_None
    [0x41; 0x80; 0x91; 0x8f; 0x20; 0xff; 0xff; 0x33; 0x44; 0x00; 0x00]
  = Err (decode_error_into (InvalidAddressMode 0)).
Proof. vm_compute. reflexivity. Qed.

(** frame/mod.rs:618-645 decode_ver0_extended *)
Example decode_ver0_extended :
  try_read_frame host Footer_None
    [0x21; 0xc8; 0x8b; 0xff; 0xff; 0x02; 0x00; 0x23; 0x00; 0x60; 0xe2;
     0x16; 0x21; 0x1c; 0x4a; 0xc2; 0xae; 0xaa; 0xbb; 0xcc]
  = Ok ({| header := {| frame_type := Data_t; frame_pending := false;
             ack_request := true; pan_id_compress := false; seq_no_suppress := false;
             ie_present := false; version := Ieee802154_2003; seq := 139;
             destination := Some (Short 0xffff 0x0002);
             source := Some (Extended 0x0023 0xaec24a1c2116e260);
             auxiliary_security_header := None |};
           content := FC_Data; payload := [0xaa; 0xbb; 0xcc]; footer := (0, 0) |}, 20%nat).
Proof. vm_compute. reflexivity. Qed.

(** frame/mod.rs:45-94 (doc example, decode with explicit footer) *)
Example doc_decode :
  try_read_frame host Footer_Explicit
    [0x01; 0x98; 0x00; 0x12; 0x34; 0x56; 0x78; 0x12; 0x34; 0x9a; 0xbc; 0xde; 0xf0; 0x12; 0x34]
  = Ok ({| header := {| frame_type := Data_t; frame_pending := false;
             ack_request := false; pan_id_compress := false; seq_no_suppress := false;
             ie_present := false; version := Ieee802154_2006; seq := 0;
             destination := Some (Short 0x3412 0x7856);
             source := Some (Short 0x3412 0xbc9a);
             auxiliary_security_header := None |};
           content := FC_Data; payload := [0xde; 0xf0]; footer := (0x12, 0x34) |}, 15%nat).
Proof. vm_compute. reflexivity. Qed.

Definition mk_header (t : FrameType) (pend ack comp : bool) (v : FrameVersion) (d s : option Address)
    (sq : N) (aux : option AuxiliarySecurityHeader) : Header :=
  {| frame_type := t; frame_pending := pend; ack_request := ack; pan_id_compress := comp;
     seq_no_suppress := false; ie_present := false; version := v; seq := sq;
     destination := d; source := s; auxiliary_security_header := aux |}.

(** frame/mod.rs:100-150 (doc example, encode with explicit footer) *)
Example doc_encode :
  plain_write Footer_Explicit
    {| header := mk_header Data_t false false false Ieee802154_2006
                   (Some (Short 0x1234 0x5678)) (Some (Short 0x1234 0x9abc)) 0 None;
       content := FC_Data; payload := [0xde; 0xf0]; footer := (0x12, 0x34) |} 32
  = Ok [0x01; 0x98; 0x00; 0x34; 0x12; 0x78; 0x56; 0x34; 0x12; 0xbc; 0x9a; 0xde; 0xf0; 0x12; 0x34].
Proof. vm_compute. reflexivity. Qed.

(** frame/mod.rs:647-689 encode_ver0_short *)
Example encode_ver0_short :
  plain_write Footer_None
    {| header := mk_header Data_t false false false Ieee802154_2003
                   (Some (Short 0x1234 0x5678)) (Some (Short 0x4321 0x9abc)) 1 None;
       content := FC_Data; payload := [0xde; 0xf0]; footer := (0, 0) |} 32
  = Ok [0x01; 0x88; 0x01; 0x34; 0x12; 0x78; 0x56; 0x21; 0x43; 0xbc; 0x9a; 0xde; 0xf0].
Proof. vm_compute. reflexivity. Qed.

(** frame/mod.rs:691-746 encode_ver1_extended *)
Example encode_ver1_extended :
  plain_write Footer_None
    {| header := mk_header Beacon_t true false false Ieee802154_2006
                   (Some (Extended 0x1234 0x1122334455667788)) (Some (Short 0x4321 0x9abc)) 0xff None;
       content := FC_Beacon {| superframe_spec :=
           {| beacon_order := BO_OnDemand; superframe_order := SO_Inactive; final_cap_slot := 15;
              battery_life_extension := false; pan_coordinator := false; association_permit := false |};
           guaranteed_time_slot_info := GtsInformation_new; pending_address := PendingAddress_new |};
       payload := [0xde; 0xf0]; footer := (0, 0) |} 32
  = Ok [0x10; 0x9c; 0xff; 0x34; 0x12; 0x88; 0x77; 0x66; 0x55; 0x44; 0x33; 0x22; 0x11; 0x21; 0x43;
        0xbc; 0x9a; 0xff; 0x0f; 0x00; 0x00; 0xde; 0xf0].
Proof. vm_compute. reflexivity. Qed.

(** frame/mod.rs:748-790 encode_ver0_pan_compress *)
Example encode_ver0_pan_compress :
  plain_write Footer_None
    {| header := mk_header Acknowledgement_t false false true Ieee802154_2003
                   (Some (Extended 0x1234 0x1122334455667788)) (Some (Short 0x1234 0x9abc)) 0xff None;
       content := FC_Acknowledgement; payload := []; footer := (0, 0) |} 32
  = Ok [0x42; 0x8c; 0xff; 0x34; 0x12; 0x88; 0x77; 0x66; 0x55; 0x44; 0x33; 0x22; 0x11; 0xbc; 0x9a].
Proof. vm_compute. reflexivity. Qed.

(** frame/mod.rs:792-828 encode_ver2_none *)
Example encode_ver2_none :
  plain_write Footer_None
    {| header := mk_header MacCommand_t false true false Ieee802154
                   None (Some (Short 0x1234 0x9abc)) 0xff None;
       content := FC_Command DataRequest; payload := []; footer := (0, 0) |} 32
  = Ok [0x23; 0xa0; 0xff; 0x34; 0x12; 0xbc; 0x9a; 0x04].
Proof. vm_compute. reflexivity. Qed.

(** frame/mod.rs:830-874 empty_addressing_and_panid_compress *)
Example empty_addressing_and_panid_compress :
  wrote (try_write_header host
           (mk_header Data_t false false true Ieee802154_2006 None (Some (Extended 0xABCD 0xFF)) 1 None)
           (Some (SecurityContext_no_security (K := list N))) (repeat 0 127))
  = Err (encode_error_into DisallowedPanIdCompress) /\
  (exists l, wrote (try_write_header host
           (mk_header Data_t false false true Ieee802154_2006 (Some (Extended 0xABCD 0xFF))
              (Some (Extended 0xABCD 0xFF)) 1 None)
           (Some (SecurityContext_no_security (K := list N))) (repeat 0 127)) = Ok l).
Proof. vm_compute. split; [reflexivity | eexists; reflexivity]. Qed.

(** beacon.rs:481-514 decode_superframe_specification, decode_gts_information, decode_pending_address *)
Definition bsf_off : SuperframeSpecification :=
  {| beacon_order := BO_OnDemand; superframe_order := SO_Inactive; final_cap_slot := 0xf;
     battery_life_extension := false; pan_coordinator := false; association_permit := false |}.
Example decode_superframe_specification : try_read_superframe [0xff; 0x0f] = Ok (bsf_off, 2%nat).
Proof. vm_compute. reflexivity. Qed.
Example decode_gts_information :
  try_read_gts_information [0x00]
  = Ok ({| gts_permit := false; gts_slot_count := 0; gts_slots := repeat GtsDescriptor_new 7 |}, 1%nat).
Proof. vm_compute. reflexivity. Qed.
Example decode_pending_address : try_read_pending [0x00] = Ok (PendingAddress_new, 1%nat).
Proof. vm_compute. reflexivity. Qed.

(** beacon.rs:517-537 decode_beacon (first vector) *)
Example decode_beacon_1 :
  try_read_beacon [0xff; 0x0f; 0x00; 0x00]
  = Ok ({| superframe_spec := bsf_off;
           guaranteed_time_slot_info :=
             {| gts_permit := false; gts_slot_count := 0; gts_slots := repeat GtsDescriptor_new 7 |};
           pending_address := PendingAddress_new |}, 4%nat).
Proof. vm_compute. reflexivity. Qed.

(** beacon.rs:539-622 decode_beacon (second and third vector) *)
Definition bslot a s l d := {| gts_short_address := a; gts_starting_slot := s; gts_length := l; gts_direction := d |}.
Definition bsf : SuperframeSpecification :=
  {| beacon_order := BO_Order 2; superframe_order := SO_Order 1; final_cap_slot := 3;
     battery_life_extension := false; pan_coordinator := true; association_permit := true |}.
Example decode_beacon_2 :
  try_read_beacon [0x12; 0xc3; 0x82; 0x01; 0x34; 0x12; 0x11; 0x78; 0x56; 0x14; 0x00]
  = Ok ({| superframe_spec := bsf;
           guaranteed_time_slot_info := {| gts_permit := true; gts_slot_count := 2;
             gts_slots := bslot 0x1234 1 1 Transmit :: bslot 0x5678 4 1 Receive
                          :: repeat GtsDescriptor_new 5 |};
           pending_address := PendingAddress_new |}, 11%nat).
Proof. vm_compute. reflexivity. Qed.
Example decode_beacon_3 :
  try_read_beacon [0x12; 0xc3; 0x82; 0x02; 0x34; 0x12; 0x11; 0x78; 0x56; 0x14; 0x12;
            0x34; 0x12; 0x78; 0x56; 0xef; 0xcd; 0xab; 0x89; 0x67; 0x45; 0x23; 0x01]
  = Ok ({| superframe_spec := bsf;
           guaranteed_time_slot_info := {| gts_permit := true; gts_slot_count := 2;
             gts_slots := bslot 0x1234 1 1 Receive :: bslot 0x5678 4 1 Transmit
                          :: repeat GtsDescriptor_new 5 |};
           pending_address := {| short_address_count := 2;
             short_addresses := 0x1234 :: 0x5678 :: repeat 0xffff 5;
             extended_address_count := 1;
             extended_addresses := 0x0123456789abcdef :: repeat 0xffffffffffffffff 6 |} |}, 23%nat).
Proof. vm_compute. reflexivity. Qed.

(** beacon.rs:624-678 encode_beacon *)
Example encode_beacon :
  wrote (try_write_beacon
    {| superframe_spec := {| beacon_order := BO_OnDemand; superframe_order := SO_Inactive;
         final_cap_slot := 0; battery_life_extension := false; pan_coordinator := true;
         association_permit := true |};
       guaranteed_time_slot_info := {| gts_permit := true; gts_slot_count := 1;
         gts_slots := bslot 0x1234 1 1 Transmit :: repeat GtsDescriptor_new 6 |};
       pending_address := {| short_address_count := 1;
         short_addresses := 0x7856 :: repeat 0xffff 6; extended_address_count := 1;
         extended_addresses := 0xaec24a1c2116e260 :: repeat 0xffffffffffffffff 6 |} |}
    (repeat 0 128))
  = Ok [0xff; 0xc0; 0x81; 0x01; 0x34; 0x12; 0x11; 0x11; 0x56; 0x78;
        0x60; 0xe2; 0x16; 0x21; 0x1c; 0x4a; 0xc2; 0xae].
Proof. vm_compute. reflexivity. Qed.

(** command.rs:356-865, every vector *)
Definition cap (a b c d e : bool) := {| full_function_device := a; mains_power := b; idle_receive := c;
   frame_protection := d; allocate_address := e |}.
(** 356-371 *)
Example decode_association_request :
  try_read_command [0x01; 0x8e] = Ok (AssociationRequest (cap true true true false true), 2%nat).
Proof. vm_compute. reflexivity. Qed.
(** 374-453 *)
Example encode_association_request :
  map (fun x => wrote (try_write_command (AssociationRequest x) (repeat 0 32)))
    [cap false false false false false; cap true false false false false;
     cap false true false false false; cap false false true false false;
     cap false false false true false; cap false false false false true]
  = map (fun b => Ok [0x01; b]) [0x00; 0x02; 0x04; 0x08; 0x40; 0x80].
Proof. vm_compute. reflexivity. Qed.
(** 456-528 *)
Example decode_association_response :
  map try_read_command [[0x02; 0x40; 0x77; 0x00]; [0x02; 0xaa; 0x55; 0x01]; [0x02; 0; 0; 0x02]; [0x02; 0; 0; 0x03]; [0x02; 0; 0; 0x80]]
  = [Ok (AssociationResponse 0x7740 AS_Successful, 4%nat); Ok (AssociationResponse 0x55aa AS_NetworkAtCapacity, 4%nat);
     Ok (AssociationResponse 0 AS_AccessDenied, 4%nat); Ok (AssociationResponse 0 AS_HoppingSequenceOffsetDuplication, 4%nat);
     Ok (AssociationResponse 0 AS_FastAssociationSuccesful, 4%nat)] /\
  map (fun b => try_read_command [0x02; 0; 0; b]) [0x04; 0x7f; 0x81]
    = repeat (Err (decode_error_into InvalidValue)) 3 /\
  (* the test reads these with the offset left by the vector before, 4 *)
  map (fun b => read_with try_read_command [0x02; 0; 0; b] 4) [0x04; 0x7f; 0x81] = repeat (Err Incomplete) 3.
Proof. vm_compute. auto. Qed.
(** 531-582 *)
Example encode_association_response :
  map (fun x => wrote (try_write_command (AssociationResponse (fst x) (snd x)) (repeat 0 4)))
    [(0x55aa, AS_Successful); (0x1234, AS_NetworkAtCapacity); (0xcffe, AS_AccessDenied);
     (0xfedc, AS_HoppingSequenceOffsetDuplication); (0x0ff0, AS_FastAssociationSuccesful)]
  = [Ok [0x02; 0xaa; 0x55; 0x00]; Ok [0x02; 0x34; 0x12; 0x01]; Ok [0x02; 0xfe; 0xcf; 0x02];
     Ok [0x02; 0xdc; 0xfe; 0x03]; Ok [0x02; 0xf0; 0x0f; 0x80]].
Proof. vm_compute. reflexivity. Qed.
(** 585-638 *)
Example disassociation_notification :
  map try_read_command [[0x03; 0x01]; [0x03; 0x02]; [0x03; 0x00]; [0x03; 0x03]]
  = [Ok (DisassociationNotification DR_CoordinatorLeave, 2%nat); Ok (DisassociationNotification DR_DeviceLeave, 2%nat);
     Err (decode_error_into InvalidValue); Err (decode_error_into InvalidValue)] /\
  map (fun x => wrote (try_write_command (DisassociationNotification x) (repeat 0 32))) [DR_CoordinatorLeave; DR_DeviceLeave]
  = [Ok [0x03; 0x01]; Ok [0x03; 0x02]].
Proof. vm_compute. auto. Qed.
(** 641-671 *)
Definition realign p a ch d pg := CoordinatorRealignment {| cr_pan_id := p; cr_coordinator_address := a;
            cr_channel := ch; cr_device_address := d; cr_channel_page := pg |}.
Example decode_realignment :
  try_read_command [0x08; 0x23; 0x11; 0x01; 0x00; 0x0f; 0x34; 0x12] = Ok (realign 0x1123 1 15 0x1234 None, 8%nat) /\
  try_read_command [0x08; 0x34; 0x12; 0x21; 0x43; 0x0b; 0xcd; 0xab; 0x01]
    = Ok (realign 0x1234 0x4321 11 0xabcd (Some 1), 9%nat).
Proof. vm_compute. auto. Qed.
(** 674-710 *)
Example encode_realignment :
  map (fun x => wrote (try_write_command x (repeat 0 32))) [realign 0x1123 1 15 0x1234 None; realign 0xbeef 0xfeed 26 0x1234 (Some 15)]
  = [Ok [0x08; 0x23; 0x11; 0x01; 0x00; 0x0f; 0x34; 0x12]; Ok [0x08; 0xef; 0xbe; 0xed; 0xfe; 0x1a; 0x34; 0x12; 0x0f]].
Proof. vm_compute. reflexivity. Qed.
(** 713-803 *)
Definition gts_req n r a := GuaranteedTimeSlotRequest {| gtsc_count := n; gtsc_receive_only := r; gtsc_allocation := a |}.
Example gts_request :
  map try_read_command [[0x09; 0x01]; [0x09; 0x12]; [0x09; 0x23]]
  = [Ok (gts_req 1 false false, 2%nat); Ok (gts_req 2 true false, 2%nat); Ok (gts_req 3 false true, 2%nat)] /\
  map (fun x => wrote (try_write_command x (repeat 0 32))) [gts_req 1 false false; gts_req 15 true false; gts_req 15 false true]
  = [Ok [0x09; 0x01]; Ok [0x09; 0x1f]; Ok [0x09; 0x2f]].
Proof. vm_compute. auto. Qed.
(** 806-864 *)
Example other_commands :
  map try_read_command [[0x04]; [0x05]; [0x06]; [0x07]]
  = map (fun x => Ok (x, 1%nat)) [DataRequest; PanIdConflictNotification; OrphanNotification; BeaconRequest] /\
  map (fun x => wrote (try_write_command x (repeat 0 32))) [DataRequest; PanIdConflictNotification; OrphanNotification; BeaconRequest]
  = map (fun b => Ok [b]) [0x04; 0x05; 0x06; 0x07].
Proof. vm_compute. auto. Qed.

(** * Secured frames *)

(** StaticKeyLookup (security/mod.rs:41-57, 800-819) and BasicDevDescriptorLookup
    (59-79, 820-838) *)
Definition static_key_lookup : KeyLookup (list N) := fun _ _ a =>
  match a with Some (Extended _ id) => Some (id, repeat 0 16) | _ => None end.
Definition basic_dev_lookup : DeviceLookup DeviceDescriptor := fun _ _ d => DevFound d (fun d' => d').
Definition aes_ctx (euid fc : N) : FrameSerDesContext (list N) :=
  {| footer_mode := Footer_None;
     security_ctx := Some (SecurityContext_new euid fc static_key_lookup) |}.

(** Doc example security/mod.rs:90-160 *)
Definition doc_frame : Frame :=
  {| header := mk_header Data_t false false false Ieee802154
        (Some (Extended 0x111 0x02)) (Some (Extended 0x111 0x01)) 127
        (Some (AuxiliarySecurityHeader_new (SecurityControl_new SL_ENCMIC128)
           (Some {| key_source := Some (KS_Long 0xAA); key_index := 48 |})));
     content := FC_Data; payload := [0;1;2;3;4]; footer := (0, 0) |}.
Definition doc_bytes : list N :=
  [0x9; 0xec; 0x7f; 0x11; 0x1; 0x2; 0x0; 0x0; 0x0; 0x0; 0x0; 0x0; 0x0; 0x11; 0x1; 0x1; 0x0; 0x0;
   0x0; 0x0; 0x0; 0x0; 0x0; 0x1f; 0x0; 0x0; 0x0; 0x0; 0xaa; 0x0; 0x0; 0x0; 0x0; 0x0; 0x0; 0x0;
   0x30; 0xf8; 0x58; 0x90; 0xd2; 0x7f; 0x46; 0xcf; 0x1a; 0x73; 0xd3; 0xad; 0x65; 0xda; 0x6c; 0xd1;
   0x4b; 0x73; 0xef; 0xbe; 0x79; 0x31].
Example doc_secure :
  written (try_write_frame host aes_cipher doc_frame (aes_ctx 1 0) (repeat 0 128)) tt = Ok doc_bytes.
Proof. vm_compute. reflexivity. Qed.
Example doc_unsecure :
  match try_read_and_unsecure host aes_cipher doc_bytes (aes_ctx 1 1) basic_dev_lookup
          {| dev_frame_counter := 0; dev_exempt := false |} with
  | (Ok (f, n), (_, _, d)) => Some (payload f, n, dev_frame_counter d)
  | _ => None
  end = Some ([0;1;2;3;4], 42%nat, 1).
Proof. vm_compute. reflexivity. Qed.

(** security/mod.rs:1018-1132 encode_decode_secured_frame *)
Definition test_frame (l : SecurityLevel) (k : option KeyIdentifier) (p : list N) : Frame :=
  {| header := mk_header Data_t false false false Ieee802154
        (Some (Extended 0x2222 0x09)) (Some (Extended 0x111 0x08)) 127
        (Some (AuxiliarySecurityHeader_new (SecurityControl_new l) k));
     content := FC_Data; payload := p; footer := (0, 0) |}.
Definition sec_bytes : list N :=
  [9; 236; 127; 34; 34; 9; 0; 0; 0; 0; 0; 0; 0; 17; 1; 8; 0; 0; 0;
   0; 0; 0; 0; 29; 3; 3; 3; 3; 171; 171; 171; 171; 171; 171; 171;
   171; 48; 125; 232; 44; 201; 215; 168; 157; 77; 13; 6].
Definition sec_test_frame := test_frame SL_ENCMIC32
   (Some {| key_source := Some (KS_Long 0xABABABABABABABAB); key_index := 48 |}) (repeat 0xff 6).
Example encode_secured_frame :
  written (try_write_frame host aes_cipher sec_test_frame (no_ctx Footer_None) (repeat 0 127)) tt
    = Err (BadInput "MissingSecurityCtx") /\
  written (try_write_frame host aes_cipher sec_test_frame (aes_ctx 8 0x03030303) (repeat 0 127)) tt
    = Ok sec_bytes.
Proof. vm_compute. auto. Qed.
Example decode_secured_frame :
  match try_read_and_unsecure host aes_cipher sec_bytes (aes_ctx 8 0x03030304) basic_dev_lookup
          {| dev_frame_counter := 0x03030303; dev_exempt := false |} with
  | (Ok (f, n), (_, _, d)) =>
      Some (payload f, auxiliary_security_header (header f), dev_frame_counter d)
  | _ => None
  end = Some (repeat 0xff 6,
         Some {| control := {| security_level := SL_ENCMIC32; key_id_mode := KIM_KeySource8 |};
                 frame_counter := 0x03030303;
                 key_identifier := Some {| key_source := Some (KS_Long 0xABABABABABABABAB);
                                           key_index := 48 |} |},
         0x03030304).
Proof. vm_compute. reflexivity. Qed.

(** security/mod.rs:1134-1257 encode_fail_decode_secured_frame *)
Definition mic_bytes : list N :=
  match written (try_write_frame host aes_cipher (test_frame SL_MIC128 None (repeat 0xff 6))
                  (aes_ctx 8 0x03030303) (repeat 0 127)) tt with Ok l => l | _ => [] end.
Definition flip33 (l : list N) : list N :=
  firstn 33 l ++ match skipn 33 l with x :: r => N.lxor x 1 :: r | [] => [] end.
Definition dev (n : N) := {| dev_frame_counter := n; dev_exempt := false |}.
Example encode_fail_decode :
  List.length mic_bytes = (2 + 1 + 2 + 8 + 2 + 8 + 1 + 4 + 0 + 6 + 16)%nat /\
  fst (try_read_and_unsecure host aes_cipher (flip33 mic_bytes) (aes_ctx 8 0x03030304)
         basic_dev_lookup (dev 0x03030303)) = Err TransformationError /\
  fst (try_read_and_unsecure host aes_cipher mic_bytes (aes_ctx 8 0x03030304)
         basic_dev_lookup (dev (0x03030303 + 5))) = Err CounterError /\
  fst (try_read_and_unsecure host aes_cipher mic_bytes (aes_ctx 8 0x03030304)
         basic_dev_lookup (dev 0xFFFFFFFF)) = Err CounterError.
Proof. vm_compute. auto. Qed.

(** security/mod.rs:884-1016: test_security_level! for every level *)
Definition level_round_trip (l : SecurityLevel) : bool :=
  let f := test_frame l (Some {| key_source := None; key_index := 0 |})
             [0xFF; 0; 0xFF; 0; 0xFF; 0] in
  match try_write_frame host aes_cipher f (aes_ctx 8 0x03030303) (repeat 0 64) with
  | (Ok n, (_, buf)) =>
      match try_read_and_unsecure host aes_cipher (firstn n buf) (aes_ctx 8 0x03030304)
              basic_dev_lookup (dev 0x03030302) with
      | (Ok (g, _), _) => bytes_eqb (payload g) (payload f)
      | _ => false
      end
  | _ => false
  end.
Example levels :
  map level_round_trip [SL_MIC32; SL_MIC64; SL_MIC128; SL_ENCMIC32; SL_ENCMIC64; SL_ENCMIC128; SL_ENC]
  = [true; true; true; true; true; true; false].
Proof. vm_compute. reflexivity. Qed.

(** security/mod.rs:956-987 encode_unsecured *)
Definition unsecured_frame : Frame :=
  {| header := mk_header Data_t false false false Ieee802154
        (Some (Extended 0x2222 0x09)) (Some (Extended 0x111 0x08)) 127 None;
     content := FC_Data; payload := [0xAA; 0xBB; 0xCC; 0xDD; 0xFE; 0xDE]; footer := (0, 0) |}.
Example encode_unsecured :
  fst (secure_frame host aes_cipher unsecured_frame (SecurityContext_new 8 0x03030303 static_key_lookup)
         Footer_None (repeat 0 127)) = Err SecurityNotEnabled.
Proof. vm_compute. reflexivity. Qed.
