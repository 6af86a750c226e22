(** Model of src/mac/frame/header.rs, security_control.rs and
    auxiliary_security_header.rs: the readers and writers. *)
From Coq Require Import List Arith NArith Bool String.
From Verif Require Import ByteCrate Types.
Import ListNotations.
Open Scope N_scope.

(** TryRead for PanId, header.rs:340-345 *)
Definition try_read_pan_id : reader PanId := fun bytes =>
  '(v, off) <- read_with (read_num 2 LE) bytes 0 ;; Ok (v, off).

(** TryWrite for PanId, header.rs:332-338 *)
Definition try_write_pan_id (p : PanId) : writer :=
  try_write_body (write_with (write_num 2 LE p)).

(** TryRead for ShortAddress, header.rs:383-388 *)
Definition try_read_short : reader ShortAddress := fun bytes =>
  '(v, off) <- read_with (read_num 2 LE) bytes 0 ;; Ok (v, off).

(** TryWrite for ShortAddress, header.rs:375-381 *)
Definition try_write_short (a : ShortAddress) : writer :=
  try_write_body (write_with (write_num 2 LE a)).

(** TryRead for ExtendedAddress, header.rs:425-430 *)
Definition try_read_extended : reader ExtendedAddress := fun bytes =>
  '(v, off) <- read_with (read_num 8 LE) bytes 0 ;; Ok (v, off).

(** TryWrite for ExtendedAddress, header.rs:417-423 *)
Definition try_write_extended (a : ExtendedAddress) : writer :=
  try_write_body (write_with (write_num 8 LE a)).

(** AddressEncoding, header.rs:445-448 *)
Inductive AddressEncoding := Enc_Normal | Enc_Compressed.

(** TryWrite<AddressEncoding> for Address, header.rs:450-475 *)
Definition try_write_address (a : Address) (enc : AddressEncoding) : writer :=
  try_write_body
    match a, enc with
    | Short pan addr, Enc_Normal =>
        write_with (try_write_pan_id pan) >> write_with (try_write_short addr)
    | Short _ addr, Enc_Compressed =>
        write_with (try_write_short addr)
    | Extended pan addr, Enc_Normal =>
        write_with (try_write_pan_id pan) >> write_with (try_write_extended addr)
    | Extended _ addr, Enc_Compressed =>
        write_with (try_write_extended addr)
    end.

(** TryRead for SecurityControl, security_control.rs:33-55 *)
Definition try_read_security_control : reader SecurityControl := fun bytes =>
  '(bits, off) <- read_with (read_num 1 LE) bytes 0 ;;
  let security_level :=
    N.shiftr (N.land bits mask_SECURITY_LEVEL) off_SECURITY_LEVEL in
  let key_id_mode :=
    N.shiftr (N.land bits mask_KEY_IDENTIFIER_MODE) off_KEY_IDENTIFIER_MODE in
  security_level <- ok_or (security_level_from_bits security_level)
                          (decode_error_into (InvalidSecurityLevel security_level)) ;;
  key_id_mode <- ok_or (key_id_mode_from_bits key_id_mode)
                       (decode_error_into (InvalidKeyIdentifierMode key_id_mode)) ;;
  Ok ({| security_level := security_level; key_id_mode := key_id_mode |}, off).

(** TryWrite for SecurityControl, security_control.rs:57-65 *)
Definition try_write_security_control (s : SecurityControl) : writer :=
  try_write_body
    (write_with (write_u8
      (N.lor (u8_shl (security_level_to_bits (security_level s)) off_SECURITY_LEVEL)
             (u8_shl (key_id_mode_to_bits (key_id_mode s)) off_KEY_IDENTIFIER_MODE)))).

(** TryWrite for KeyIdentifier, auxiliary_security_header.rs:166-181. Integers are
    written with the default context, i.e. in host byte order. *)
Definition try_write_key_identifier (c : cfg) (k : KeyIdentifier) : writer :=
  try_write_body
    (match key_source k with
     | Some (KS_Short src) => write_with (write_num 4 (native c) src)
     | Some (KS_Long src) => write_with (write_num 8 (native c) src)
     | None => wret tt
     end
     >> write_with (write_u8 (key_index k))).

(** TryRead for AuxiliarySecurityHeader, auxiliary_security_header.rs:79-116. The
    frame counter is read as LE, the key source in host byte order. *)
Definition try_read_aux (c : cfg) : reader AuxiliarySecurityHeader := fun bytes =>
  '(control, off) <- read_with try_read_security_control bytes 0 ;;
  '(frame_counter, off) <- read_with (read_num 4 LE) bytes off ;;
  match key_id_mode control with
  | KIM_None =>
      Ok ({| control := control; frame_counter := frame_counter;
             key_identifier := None |}, off)
  | _ =>
      '(key_source, off) <-
        (match key_id_mode control with
         | KIM_KeySource4 =>
             '(v, off) <- read_with (read_num 4 (native c)) bytes off ;;
             Ok (Some (KS_Short v), off)
         | KIM_KeySource8 =>
             '(v, off) <- read_with (read_num 8 (native c)) bytes off ;;
             Ok (Some (KS_Long v), off)
         | _ => Ok (None, off)
         end) ;;
      '(key_index, off) <- read_with (read_num 1 LE) bytes off ;;
      Ok ({| control := control; frame_counter := frame_counter;
             key_identifier := Some {| key_source := key_source;
                                       key_index := key_index |} |}, off)
  end.

(** The key identifier mode derived from the key identifier,
    auxiliary_security_header.rs:133-142 *)
Definition derived_key_id_mode (k : option KeyIdentifier) : KeyIdentifierMode :=
  match k with
  | Some k => match key_source k with
              | Some (KS_Short _) => KIM_KeySource4
              | Some (KS_Long _) => KIM_KeySource8
              | None => KIM_KeyIndex
              end
  | None => KIM_None
  end.

(** TryWrite<&SecurityContext> for AuxiliarySecurityHeader,
    auxiliary_security_header.rs:118-154; [fc] is sec_ctx.frame_counter, written in
    host byte order (default context). *)
Definition try_write_aux (c : cfg) (a : AuxiliarySecurityHeader) (fc : N) : writer :=
  let control' := {| security_level := security_level (control a);
                     key_id_mode := derived_key_id_mode (key_identifier a) |} in
  try_write_body
    (write_with (try_write_security_control control') >>
     write_with (write_num 4 (native c) fc) >>
     match key_identifier a with
     | Some k => write_with (try_write_key_identifier c k)
     | None => wret tt
     end).

(** Option::unwrap *)
Definition unwrap {E A} (o : option A) : outcome E A :=
  match o with Some a => Ok a | None => Panic end.

(** [((bits & mask) >> offset) as u8], header.rs:123-142 *)
Definition fcf_field (bits mask off : N) : N := as_u8 (N.shiftr (N.land bits mask) off).

(** The destination part of Header::try_read, header.rs:163-172 *)
Definition read_destination (m : AddressMode) (bytes : list N) (off : nat)
  : bres (option Address * nat) :=
  match m with
  | Mode_None => Ok (None, off)
  | Mode_Short =>
      '(p, off) <- read_with try_read_pan_id bytes off ;;
      '(a, off) <- read_with try_read_short bytes off ;;
      Ok (Some (Short p a), off)
  | Mode_Extended =>
      '(p, off) <- read_with try_read_pan_id bytes off ;;
      '(a, off) <- read_with try_read_extended bytes off ;;
      Ok (Some (Extended p a), off)
  end.

(** The source part of Header::try_read, header.rs:180-208 *)
Definition read_source (m : AddressMode) (pan_id_compress : bool)
    (destination : option Address) (bytes : list N) (off : nat)
  : bres (option Address * nat) :=
  match m with
  | Mode_None => Ok (None, off)
  | Mode_Short =>
      if pan_id_compress then
        d <- unwrap destination ;;
        '(a, off) <- read_with try_read_short bytes off ;;
        Ok (Some (Short (pan_id d) a), off)
      else
        '(p, off) <- read_with try_read_pan_id bytes off ;;
        '(a, off) <- read_with try_read_short bytes off ;;
        Ok (Some (Short p a), off)
  | Mode_Extended =>
      if pan_id_compress then
        d <- unwrap destination ;;
        '(a, off) <- read_with try_read_extended bytes off ;;
        Ok (Some (Extended (pan_id d) a), off)
      else
        '(p, off) <- read_with try_read_pan_id bytes off ;;
        '(a, off) <- read_with try_read_extended bytes off ;;
        Ok (Some (Extended p a), off)
  end.

(** TryRead for Header, header.rs:114-231 *)
Definition try_read_header (c : cfg) : reader Header := fun bytes =>
  _ <- check_len bytes 3 ;;
  '(bits, off) <- read_with (read_num 2 LE) bytes 0 ;;
  let frame_type := fcf_field bits mask_FRAME_TYPE off_FRAME_TYPE in
  let security := fcf_field bits mask_SECURITY off_SECURITY in
  let frame_pending := fcf_field bits mask_PENDING off_PENDING in
  let ack_request := fcf_field bits mask_ACK off_ACK in
  let pan_id_compress := fcf_field bits mask_PAN_ID_COMPRESS off_PAN_ID_COMPRESS in
  let seq_no_suppress := fcf_field bits mask_SEQ_NO_SUPPRESS off_SEQ_NO_SUPPRESS in
  let ie_present := fcf_field bits mask_IE_PRESENT off_IE_PRESENT in
  let dest_addr_mode := fcf_field bits mask_DEST_ADDR_MODE off_DEST_ADDR_MODE in
  let version := fcf_field bits mask_VERSION off_VERSION in
  let src_addr_mode := fcf_field bits mask_SRC_ADDR_MODE off_SRC_ADDR_MODE in
  version <- ok_or (frame_version_from_bits version)
                   (decode_error_into (InvalidFrameVersion version)) ;;
  frame_type <- ok_or (frame_type_from_bits frame_type)
                      (decode_error_into (InvalidFrameType frame_type)) ;;
  dest_addr_mode <- lift_decode (address_mode_from_bits dest_addr_mode) ;;
  src_addr_mode <- lift_decode (address_mode_from_bits src_addr_mode) ;;
  let security := 0 <? security in
  let frame_pending := 0 <? frame_pending in
  let ack_request := 0 <? ack_request in
  let pan_id_compress := 0 <? pan_id_compress in
  let seq_no_suppress := 0 <? seq_no_suppress in
  let ie_present := 0 <? ie_present in
  '(seq, off) <- read_with (read_num 1 LE) bytes off ;;
  '(destination, off) <- read_destination dest_addr_mode bytes off ;;
  _ <- (if pan_id_compress
        then '_ <- ok_or destination (BadInput "InvalidAddressMode") ;; Ok tt
        else Ok tt) ;;
  '(source, off) <- read_source src_addr_mode pan_id_compress destination bytes off ;;
  '(aux, off) <-
    (if (security : bool)
     then '(a, off) <- read_with (try_read_aux c) bytes off ;; Ok (Some a, off)
     else Ok (None, off)) ;;
  Ok ({| frame_type := frame_type;
         frame_pending := frame_pending;
         ack_request := ack_request;
         pan_id_compress := pan_id_compress;
         seq_no_suppress := seq_no_suppress;
         ie_present := ie_present;
         version := version;
         seq := seq;
         destination := destination;
         source := source;
         auxiliary_security_header := aux |}, off).

(** frame_control_raw, header.rs:245-257 (seq_no_suppress and ie_present are not
    in the expression) *)
Definition frame_control_raw (h : Header) : N :=
  let dest_addr_mode := address_mode_of (destination h) in
  let src_addr_mode := address_mode_of (source h) in
  let security := has_security h in
  N.lor (u16_shl (frame_type_bits (frame_type h)) off_FRAME_TYPE)
 (N.lor (u16_shl (bool_n security) off_SECURITY)
 (N.lor (u16_shl (bool_n (frame_pending h)) off_PENDING)
 (N.lor (u16_shl (bool_n (ack_request h)) off_ACK)
 (N.lor (u16_shl (bool_n (pan_id_compress h)) off_PAN_ID_COMPRESS)
 (N.lor (u16_shl (address_mode_bits dest_addr_mode) off_DEST_ADDR_MODE)
 (N.lor (u16_shl (frame_version_bits (version h)) off_VERSION)
        (u16_shl (address_mode_bits src_addr_mode) off_SRC_ADDR_MODE))))))).

(** TryWrite<&Option<&mut SecurityContext>> for Header, header.rs:233-307 *)
Definition try_write_header {K} (c : cfg) (h : Header)
    (sec_ctx : option (SecurityContext K)) : writer :=
  let security := has_security h in
  try_write_body
    (write_with (write_num 2 LE (frame_control_raw h)) >>
     write_with (write_u8 (seq h)) >>
     (if (match destination h with None => true | Some _ => false end ||
          match source h with None => true | Some _ => false end)
         && pan_id_compress h
      then werr (encode_error_into DisallowedPanIdCompress)
      else wret tt) >>
     match destination h with
     | Some d => write_with (try_write_address d Enc_Normal)
     | None => wret tt
     end >>
     match source h, pan_id_compress h with
     | Some s, true => write_with (try_write_address s Enc_Compressed)
     | Some s, false => write_with (try_write_address s Enc_Normal)
     | None, true => wpanic
     | None, false => wret tt
     end >>
     (if security && match sec_ctx with None => true | Some _ => false end
      then werr (encode_error_into MissingSecurityCtx)
      else if security then
        match auxiliary_security_header h with
        | Some aux =>
            match sec_ctx with
            | Some sc => write_with (try_write_aux c aux (sc_frame_counter sc))
            | None => werr (encode_error_into UnknownError)
            end
        | None => werr (encode_error_into UnknownError)
        end
      else wret tt)).
