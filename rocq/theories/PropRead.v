(** C92: reading, the complete outcome. *)
From Coq Require Import List Arith NArith Bool String Lia ZArith ZifyBool ZifyN ZifyNat.
From Verif Require Import ByteCrate Types HeaderModel BeaconModel CommandModel CcmModel FrameModel
  Spec ProofLib HeaderProofs HeaderReadProofs BeaconProofs CommandProofs FrameProofs SecSpec ReadSpec ReadProofs
  PropNetwork Aes128 RepoTests.
Import ListNotations.
Open Scope N_scope.
Open Scope list_scope.

(** ** The parts on their own *)

(** Header::try_read for every input whatsoever. *)
Theorem C92_header_read : forall c bs,
  try_read_header c bs =
  match header_verdict bs with
  | Some e => Err e
  | None => Ok (header_at (native c) bs, header_need bs)
  end.
Proof. exact try_read_header_at. Qed.

(** Beacon::try_read for every input whatsoever. *)
Theorem C92_beacon_read : forall bs,
  try_read_beacon bs =
  if (List.length bs <? beacon_need bs)%nat then Err Incomplete else Ok (beacon_at bs, beacon_need bs).
Proof. exact try_read_beacon_at. Qed.

Theorem C92_command_read : forall bs, octets bs ->
  try_read_command bs =
  match command_verdict bs with
  | Some e => Err e
  | None => Ok (command_at bs, command_size bs)
  end.
Proof. exact try_read_command_at. Qed.

(** ** Frames *)

(** Frame::try_read. *)
Theorem C92_read_exact : forall c m bs, octets bs -> cfg_ok c ->
  try_read_frame c m bs = read_outcome (overflow_checks c) (native c) m bs.
Proof. exact try_read_frame_at. Qed.

(** Frame::try_read_and_unsecure: result, buffer, context and device store. *)
Theorem C92_receive_exact : forall {K D} c (E : block_cipher K) bs ctx (dl : DeviceLookup D) ds,
  cipher_ok E -> octets bs -> cfg_ok c ->
  try_read_and_unsecure c E bs ctx dl ds
  = receive_outcome E (overflow_checks c) (native c) bs ctx dl ds.
Proof.
  intros K D c E bs ctx dl ds HE Hb Hc. etransitivity; [apply C64_receive_exact; assumption|].
  unfold receive_outcome, front_verdict, front_at. rewrite C92_header_read.
  destruct (header_verdict bs) as [e|]; [reflexivity|].
  rewrite try_read_content_at by now apply octets_skipn.
  rewrite <- (header_at_type (native c)).
  destruct (content_verdict (frame_type (header_at (native c) bs)) (skipn (header_need bs) bs)) as [e|];
    [reflexivity|].
  reflexivity.
Qed.

(** The width of usize does not matter to reading, and a build without overflow checks differs
    from one with them only where that one panics. *)
Theorem C92_builds : forall {K D} c1 c2 (E : block_cipher K) m bs ctx (dl : DeviceLookup D) ds,
  cipher_ok E -> octets bs -> cfg_ok c1 -> cfg_ok c2 -> native c1 = native c2 ->
  (try_read_frame c1 m bs <> Panic -> try_read_frame c2 m bs <> Panic ->
   try_read_frame c1 m bs = try_read_frame c2 m bs) /\
  (fst (try_read_and_unsecure c1 E bs ctx dl ds) <> Panic ->
   fst (try_read_and_unsecure c2 E bs ctx dl ds) <> Panic ->
   try_read_and_unsecure c1 E bs ctx dl ds = try_read_and_unsecure c2 E bs ctx dl ds) /\
  (overflow_checks c1 = overflow_checks c2 ->
   try_read_frame c1 m bs = try_read_frame c2 m bs /\
   try_read_and_unsecure c1 E bs ctx dl ds = try_read_and_unsecure c2 E bs ctx dl ds).
Proof.
  intros K D c1 c2 E m bs ctx dl ds HE Hb H1 H2 Hn.
  rewrite !C92_read_exact, !C92_receive_exact, Hn by assumption. split; [|split].
  3: intros ->; now split.
  - unfold read_outcome, frame_verdict.
    destruct (header_verdict bs); [reflexivity|]. destruct (content_verdict _ _); [reflexivity|].
    destruct (field (input_word bs) 3 1 =? 1); [reflexivity|]. destruct m; [reflexivity|].
    destruct (_ <? _)%nat; [|reflexivity].
    destruct (overflow_checks c1), (overflow_checks c2); congruence.
  - unfold receive_outcome. destruct (front_verdict bs); [reflexivity|].
    destruct (front_at (native c2) bs) as [[h ct] n].
    destruct (auxiliary_security_header h) as [a|]; [|reflexivity].
    destruct (security_ctx ctx) as [sc|]; [|reflexivity].
    destruct (footer_mode ctx); [|reflexivity].
    unfold receive.
    destruct (negb (is_data h)); [reflexivity|].
    destruct (match version h with Ieee802154_2003 => true | _ => false end); [reflexivity|].
    destruct (level_is_none (security_level (control a))); [reflexivity|].
    destruct (sc_key_provider sc SrcAddrMode (key_identifier a) (source h)) as [[eui key]|]; [|reflexivity].
    destruct (source h) as [s|]; [|reflexivity].
    destruct (dl SrcAddrMode s ds) as [ds'|d put]; [reflexivity|].
    destruct ((dev_frame_counter d =? last_counter) || (frame_counter a <? dev_frame_counter d)); [reflexivity|].
    destruct (level_is_enc (security_level (control a))); [reflexivity|].
    destruct (_ <? _)%nat; [reflexivity|].
    match goal with |- context [if ?b then if frame_counter a =? last_counter then _ else _ else _] => destruct b end;
      [|reflexivity].
    destruct (frame_counter a =? last_counter); [|reflexivity].
    destruct (overflow_checks c1), (overflow_checks c2); cbn [fst]; congruence.
Qed.

(** ** Concrete inputs, by the specification alone *)

(** The beacon of beacon.rs:573-577: two slots (the second transmits), two short and one extended
    pending address. *)
Example a_beacon_by_position :
  let bs := [0x12; 0xc3; 0x82; 0x02; 0x34; 0x12; 0x11; 0x78; 0x56; 0x14; 0x12;
             0x34; 0x12; 0x78; 0x56; 0xef; 0xcd; 0xab; 0x89; 0x67; 0x45; 0x23; 0x01] in
  beacon_need bs = 23%nat /\
  superframe_spec (beacon_at bs) =
    {| beacon_order := BO_Order 2; superframe_order := SO_Order 1; final_cap_slot := 3;
       battery_life_extension := false; pan_coordinator := true; association_permit := true |} /\
  active_slots (guaranteed_time_slot_info (beacon_at bs)) =
    [{| gts_short_address := 0x1234; gts_starting_slot := 1; gts_length := 1; gts_direction := Receive |};
     {| gts_short_address := 0x5678; gts_starting_slot := 4; gts_length := 1; gts_direction := Transmit |}] /\
  gts_permit (guaranteed_time_slot_info (beacon_at bs)) = true /\
  shorts_of (pending_address (beacon_at bs)) = [0x1234; 0x5678] /\
  extendeds_of (pending_address (beacon_at bs)) = [0x0123456789abcdef].
Proof. repeat split. Qed.

(** A secured header with PAN compression, extended addresses and an 8-octet key source, read on
    hosts of either byte order. *)
Definition secured_input : list N :=
  [0x49; 0xec; 0x07; 0x34; 0x12; 1; 2; 3; 4; 5; 6; 7; 8; 11; 12; 13; 14; 15; 16; 17; 18;
   0x1e; 5; 1; 0; 0; 0xa0; 0xa1; 0xa2; 0xa3; 0xa4; 0xa5; 0xa6; 0xa7; 9; 0x55].
Example a_header_by_position :
  header_verdict secured_input = None /\ header_need secured_input = 35%nat /\
  destination (header_at LE secured_input) = Some (Extended 0x1234 0x0807060504030201) /\
  source (header_at LE secured_input) = Some (Extended 0x1234 0x1211100f0e0d0c0b) /\
  auxiliary_security_header (header_at LE secured_input) =
    Some {| control := {| security_level := SL_ENCMIC64; key_id_mode := KIM_KeySource8 |};
            frame_counter := 261;
            key_identifier := Some {| key_source := Some (KS_Long 0xa7a6a5a4a3a2a1a0); key_index := 9 |} |} /\
  option_map key_identifier (auxiliary_security_header (header_at BE secured_input)) =
    Some (Some {| key_source := Some (KS_Long 0xa0a1a2a3a4a5a6a7); key_index := 9 |}).
Proof. repeat split. Qed.

(** Unsecured inputs: a realignment with and without page, an explicit footer, a footer that is
    not there (in either build), and a secured frame. *)
Example frames_by_position :
  let cmd rest := [0x03; 0x08; 0x2a; 0xcd; 0xab; 0xff; 0xff] ++ rest in
  let content_of r := match r with Ok (f, n) => Some (content f, payload f, footer f, n) | _ => None end in
  content_of (read_outcome true LE Footer_None (cmd [8; 1; 2; 3; 4; 5; 6; 7])) =
    Some (FC_Command (CoordinatorRealignment
            {| cr_pan_id := 0x0201; cr_coordinator_address := 0x0403; cr_channel := 5;
               cr_device_address := 0x0706; cr_channel_page := None |}), [], (0, 0), 15%nat) /\
  content_of (read_outcome true LE Footer_Explicit (cmd [8; 1; 2; 3; 4; 5; 6; 7; 8; 0x70; 0xf1; 0xf2])) =
    Some (FC_Command (CoordinatorRealignment
            {| cr_pan_id := 0x0201; cr_coordinator_address := 0x0403; cr_channel := 5;
               cr_device_address := 0x0706; cr_channel_page := Some 8 |}), [0x70], (0xf1, 0xf2), 19%nat) /\
  read_outcome true LE Footer_Explicit (cmd [4; 0]) = Panic /\
  read_outcome false LE Footer_Explicit (cmd [4; 0]) = Err Incomplete /\
  read_outcome true LE Footer_None (cmd [2; 0; 0; 9]) = Err (BadInput "InvalidValue") /\
  read_outcome true LE Footer_None secured_input
    = Err (BadInput "SecurityEnabled (use Frame::try_read_and_unsecure)").
Proof. vm_compute. repeat split. Qed.

(** Receiving, by the specification: [secured_input] is refused for want of a known device. *)
Example a_reception_by_position :
  octets secured_input /\
  receive_outcome aes_cipher true LE secured_input (aes_ctx 1 5)
    (fun _ _ (s : unit) => DevMissing s) tt
  = (Err UnavailableDevice, (secured_input, aes_ctx 1 5, tt)).
Proof.
  split; [repeat constructor|]. vm_compute. reflexivity.
Qed.

Print Assumptions C92_header_read.
Print Assumptions C92_beacon_read.
Print Assumptions C92_command_read.
Print Assumptions C92_read_exact.
Print Assumptions C92_receive_exact.
Print Assumptions C92_builds.
