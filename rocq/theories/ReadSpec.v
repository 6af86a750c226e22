(** Specification of reading as one function: what each octet of the input means, by its
    position, and how a call ends. Nothing here uses the model's readers, masks or shifts. *)
From Coq Require Import List Arith NArith Bool String.
From Verif Require Import ByteCrate Types CcmModel Spec SecSpec.
Import ListNotations.
Open Scope N_scope.
Open Scope list_scope.

(** The number in the [k] octets at position [p], least / most significant octet first. *)
Fixpoint lsb_first (bs : list N) (p k : nat) : N :=
  match k with O => 0 | S j => octet bs p + 256 * lsb_first bs (S p) j end.
Fixpoint msb_first (bs : list N) (p k : nat) : N :=
  match k with O => 0 | S j => 256 ^ N.of_nat j * octet bs p + msb_first bs (S p) j end.
Definition number (e : endian) (bs : list N) (p k : nat) : N :=
  match e with LE => lsb_first bs p k | BE => msb_first bs p k end.

Definition bit (b i : N) : bool := field b i 1 =? 1.

Definition version_of_code (v : N) : FrameVersion :=
  match v with 0 => Ieee802154_2003 | 1 => Ieee802154_2006 | _ => Ieee802154 end.
Definition level_of_code (l : N) : SecurityLevel :=
  match l with
  | 0 => SL_None | 1 => SL_MIC32 | 2 => SL_MIC64 | 3 => SL_MIC128
  | 4 => SL_ENC | 5 => SL_ENCMIC32 | 6 => SL_ENCMIC64 | _ => SL_ENCMIC128
  end.
Definition key_mode_of_code (m : N) : KeyIdentifierMode :=
  match m with 0 => KIM_None | 1 => KIM_KeyIndex | 2 => KIM_KeySource4 | _ => KIM_KeySource8 end.

(** * Header *)

(** The address at [p] by its mode code: 2 short, 3 extended, otherwise none. It is preceded
    by its PAN identifier unless that is [known]. *)
Definition address_at (mode : N) (known : option PanId) (bs : list N) (p : nat)
  : option Address :=
  let '(pan, a) := match known with
                   | Some x => (x, p)
                   | None => (number LE bs p 2, (p + 2)%nat)
                   end in
  match mode with
  | 2 => Some (Short pan (number LE bs a 2))
  | 3 => Some (Extended pan (number LE bs a 8))
  | _ => None
  end.

(** The key identifier at [p]; a key source is in byte order [ko]. *)
Definition key_at (ko : endian) (m : KeyIdentifierMode) (bs : list N) (p : nat)
  : option KeyIdentifier :=
  match m with
  | KIM_None => None
  | KIM_KeyIndex => Some {| key_source := None; key_index := octet bs p |}
  | KIM_KeySource4 =>
      Some {| key_source := Some (KS_Short (number ko bs p 4)); key_index := octet bs (p + 4) |}
  | KIM_KeySource8 =>
      Some {| key_source := Some (KS_Long (number ko bs p 8)); key_index := octet bs (p + 8) |}
  end.

Definition aux_at (ko : endian) (bs : list N) (p : nat) : AuxiliarySecurityHeader :=
  let m := key_mode_of_code (field (octet bs p) 3 2) in
  {| control := {| security_level := level_of_code (field (octet bs p) 0 3); key_id_mode := m |};
     frame_counter := number LE bs (p + 1) 4;
     key_identifier := key_at ko m bs (p + 5) |}.

(** The header [bs] starts with, if there is one. *)
Definition header_at (ko : endian) (bs : list N) : Header :=
  let w := input_word bs in
  let dst := address_at (field w 10 2) None bs 3 in
  {| frame_type := type_of_code (field w 0 3);
     frame_pending := bit w 4;
     ack_request := bit w 5;
     pan_id_compress := bit w 6;
     seq_no_suppress := bit w 8;
     ie_present := bit w 9;
     version := version_of_code (field w 12 2);
     seq := octet bs 2;
     destination := dst;
     source :=
       address_at (field w 14 2)
         (match dst with Some d => if bit w 6 then Some (pan_id d) else None | None => None end)
         bs (3 + match field w 10 2 with 2%N => 4 | 3%N => 10 | _ => 0 end)%nat;
     auxiliary_security_header :=
       if bit w 3 then Some (aux_at ko bs (mhr_need w)) else None |}.

(** * Content *)

Definition superframe_at (bs : list N) (p : nat) : SuperframeSpecification :=
  let a := octet bs p in
  let b := octet bs (p + 1) in
  {| beacon_order := if field a 0 4 =? 15 then BO_OnDemand else BO_Order (field a 0 4);
     superframe_order := if field a 4 4 =? 15 then SO_Inactive else SO_Order (field a 4 4);
     final_cap_slot := field b 0 4;
     battery_life_extension := bit b 4;
     pan_coordinator := bit b 6;
     association_permit := bit b 7 |}.

(** Slot [i] of the GTS information at [p]: octet [p] holds the number of slots, octet [p + 1]
    the directions, then follow three octets per slot. *)
Definition slot_at (bs : list N) (p i : nat) : GtsDescriptor :=
  let q := (p + 2 + 3 * i)%nat in
  {| gts_short_address := number LE bs q 2;
     gts_starting_slot := octet bs (q + 2) mod 16;
     gts_length := octet bs (q + 2) / 16;
     gts_direction := if bit (octet bs (p + 1)) (N.of_nat i) then Transmit else Receive |}.
Definition gts_at (bs : list N) (p : nat) : GtsInformation :=
  let n := N.to_nat (field (octet bs p) 0 3) in
  {| gts_permit := bit (octet bs p) 7;
     gts_slot_count := n;
     gts_slots := map (slot_at bs p) (List.seq 0 n) ++ repeat GtsDescriptor_new (7 - n) |}.

(** The pending addresses at [p]: octet [p] holds both counts. *)
Definition pending_at (bs : list N) (p : nat) : PendingAddress :=
  let s := N.to_nat (field (octet bs p) 0 3) in
  let x := N.to_nat (field (octet bs p) 4 3) in
  {| short_address_count := s;
     short_addresses := map (fun i => number LE bs (p + 1 + 2 * i) 2) (List.seq 0 s)
                        ++ repeat short_broadcast (7 - s);
     extended_address_count := x;
     extended_addresses := map (fun i => number LE bs (p + 1 + 2 * s + 8 * i) 8) (List.seq 0 x)
                           ++ repeat extended_broadcast (7 - x) |}.

Definition beacon_at (bs : list N) : Beacon :=
  {| superframe_spec := superframe_at bs 0;
     guaranteed_time_slot_info := gts_at bs 2;
     pending_address := pending_at bs (2 + gts_size (octet bs 2)) |}.

Definition status_of_code (s : N) : AssociationStatus :=
  match s with
  | 0 => AS_Successful | 1 => AS_NetworkAtCapacity | 2 => AS_AccessDenied
  | 3 => AS_HoppingSequenceOffsetDuplication | _ => AS_FastAssociationSuccesful
  end.

Definition command_at (bs : list N) : Command :=
  let b := octet bs 1 in
  match octet bs 0 with
  | 1 => AssociationRequest
           {| full_function_device := bit b 1; mains_power := bit b 2; idle_receive := bit b 3;
              frame_protection := bit b 6; allocate_address := bit b 7 |}
  | 2 => AssociationResponse (number LE bs 1 2) (status_of_code (octet bs 3))
  | 3 => DisassociationNotification
           (match b with 1 => DR_CoordinatorLeave | _ => DR_DeviceLeave end)
  | 4 => DataRequest
  | 5 => PanIdConflictNotification
  | 6 => OrphanNotification
  | 7 => BeaconRequest
  | 8 => CoordinatorRealignment
           {| cr_pan_id := number LE bs 1 2; cr_coordinator_address := number LE bs 3 2;
              cr_channel := octet bs 5; cr_device_address := number LE bs 6 2;
              cr_channel_page := nth_error bs 8 |}
  | _ => GuaranteedTimeSlotRequest
           {| gtsc_count := field b 0 4; gtsc_receive_only := bit b 4; gtsc_allocation := bit b 5 |}
  end.

Definition content_at (t : FrameType) (bs : list N) : FrameContent :=
  match t with
  | Beacon_t => FC_Beacon (beacon_at bs)
  | Data_t => FC_Data
  | Acknowledgement_t => FC_Acknowledgement
  | MacCommand_t => FC_Command (command_at bs)
  | Multipurpose_t => FC_Multipurpose
  | FragOrFragAck_t => FC_FragOrFragAck
  | Extended_t => FC_Extended
  end.

(** * Frames *)

(** Header, content, and the position where the content ends. *)
Definition front_at (ko : endian) (bs : list N) : Header * FrameContent * nat :=
  let h := header_at ko bs in
  let rest := skipn (header_need bs) bs in
  (h, content_at (frame_type h) rest,
   (header_need bs + content_size (frame_type h) rest)%nat).

(** The first thing wrong with header or content. *)
Definition front_verdict (bs : list N) : option byte_error :=
  match header_verdict bs with
  | Some e => Some e
  | None => content_verdict (type_of_code (field (input_word bs) 0 3))
                            (skipn (header_need bs) bs)
  end.

Definition frame_at (ko : endian) (m : FooterMode) (bs : list N) : Frame :=
  let '(h, ct, n) := front_at ko bs in
  match m with
  | Footer_None =>
      {| header := h; content := ct; payload := skipn n bs; footer := (0, 0) |}
  | Footer_Explicit =>
      let e := (List.length bs - 2)%nat in
      {| header := h; content := ct; payload := firstn (e - n) (skipn n bs);
         footer := (octet bs e, octet bs (e + 1)) |}
  end.

(** Frame::try_read. [frame_verdict] (Spec.v) says how the call ends. *)
Definition read_outcome (overflow : bool) (ko : endian) (m : FooterMode) (bs : list N)
  : outcome byte_error (Frame * nat) :=
  match frame_verdict overflow m bs with
  | Ok n => Ok (frame_at ko m bs, n)
  | Err e => Err e
  | Panic => Panic
  end.

(** Frame::try_read_and_unsecure: result, buffer, context and device store afterwards.
    [receive] (SecSpec.v) is the treatment of the protected part. *)
Definition receive_outcome {K D} (E : block_cipher K) (overflow : bool) (ko : endian)
    (bs : list N) (ctx : FrameSerDesContext K) (dl : DeviceLookup D) (ds : D)
  : outcome SecurityError (Frame * nat) * (list N * FrameSerDesContext K * D) :=
  match front_verdict bs with
  | Some e => (Err (WriteError e), (bs, ctx, ds))
  | None =>
    let '(h, ct, n) := front_at ko bs in
    match auxiliary_security_header h with
    | None =>
        (Ok ({| header := h; content := ct; payload := skipn n bs; footer := (0, 0) |},
             List.length bs), (bs, ctx, ds))
    | Some a =>
      match security_ctx ctx, footer_mode ctx with
      | None, _ => (Err InvalidSecContext, (bs, ctx, ds))
      | Some _, Footer_Explicit => (Panic, (bs, ctx, ds))
      | Some sc, Footer_None =>
          let '(r, rest, ds') := receive E overflow sc dl ds h a (skipn n bs) in
          (match r with
           | Ok p => Ok ({| header := h; content := ct; payload := p; footer := (0, 0) |},
                         (List.length bs - tag_len (security_level (control a)))%nat)
           | Err e => Err e
           | Panic => Panic
           end, (firstn n bs ++ rest, ctx, ds'))
      end
    end
  end.
