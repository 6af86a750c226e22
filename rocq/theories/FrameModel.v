(** Model of src/mac/frame/mod.rs and src/mac/frame/security/mod.rs. *)
From Coq Require Import List Arith NArith Bool String.
From Verif Require Import ByteCrate Types HeaderModel BeaconModel CommandModel CcmModel.
Import ListNotations.
Open Scope N_scope.

(** TryWrite for FrameContent, frame/mod.rs:418-428 *)
Definition try_write_content (ct : FrameContent) : writer :=
  try_write_body
    match ct with
    | FC_Beacon b => write_with (try_write_beacon b)
    | FC_Command cmd => write_with (try_write_command cmd)
    | _ => wret tt
    end.

(** TryRead<&Header> for FrameContent, frame/mod.rs:430-449 *)
Definition try_read_content (h : Header) : reader FrameContent := fun bytes =>
  match frame_type h with
  | Beacon_t => '(b, off) <- read_with try_read_beacon bytes 0 ;; Ok (FC_Beacon b, off)
  | Data_t => Ok (FC_Data, 0%nat)
  | Acknowledgement_t => Ok (FC_Acknowledgement, 0%nat)
  | MacCommand_t =>
      '(cmd, off) <- read_with try_read_command bytes 0 ;; Ok (FC_Command cmd, off)
  | Multipurpose_t => Ok (FC_Multipurpose, 0%nat)
  | FragOrFragAck_t => Ok (FC_FragOrFragAck, 0%nat)
  | Extended_t => Ok (FC_Extended, 0%nat)
  end.

(** calculate_nonce, security/mod.rs:300-316: octet i is [(x >> 8*i) & 0xFF] *)
Definition calculate_nonce (source_addr frame_counter : N) (l : SecurityLevel) : list N :=
  map (fun i => N.land (N.shiftr source_addr (8 * N.of_nat i)) 0xFF) (List.seq 0 8)
  ++ map (fun i => N.land (N.shiftr frame_counter (8 * N.of_nat i)) 0xFF) (List.seq 0 4)
  ++ [security_level_to_bits l].

(** What the do_secure!/do_unsecure! macros are instantiated with: does the level
    authenticate only (associated data) or also encrypt (in-place buffer)?
    security/mod.rs:427-441, 455-484, 612-628 and 637-666 *)
Inductive aead_use := Use_Mic | Use_EncMic.

Definition level_use (l : SecurityLevel) : option aead_use :=
  match l with
  | SL_None | SL_ENC => None
  | SL_MIC32 | SL_MIC64 | SL_MIC128 => Some Use_Mic
  | SL_ENCMIC32 | SL_ENCMIC64 | SL_ENCMIC128 => Some Use_EncMic
  end.

(** The tag size type argument of do_secure!/do_unsecure!, security/mod.rs:455-484,
    637-666 *)
Definition level_tag_size (l : SecurityLevel) : nat :=
  match l with
  | SL_MIC32 | SL_ENCMIC32 => 4
  | SL_MIC64 | SL_ENCMIC64 => 8
  | SL_MIC128 | SL_ENCMIC128 => 16
  | SL_None | SL_ENC => 0
  end%nat.

Section Security.
Context {K : Type} (c : cfg) (E : block_cipher K).

(** The CCM call of do_secure!, security/mod.rs:417-441: MIC levels pass the payload as
    associated data, ENC-MIC levels as the in-place buffer. Result: payload area after
    the call and the tag. *)
Definition do_secure (u : aead_use) (m : nat) (key : K) (nonce data : list N)
  : option (list N * list N) :=
  match u with
  | Use_Mic =>
      match ccm_encrypt E key m nonce data [] with
      | Some (_, tag) => Some (data, tag)
      | None => None
      end
  | Use_EncMic => ccm_encrypt E key m nonce [] data
  end.

(** secure_frame, security/mod.rs:329-495. State: the context (only its frame counter can
    change) and the buffer, both returned in every outcome. *)
Definition secure_frame (f : Frame) (ctx : SecurityContext K) (mode : FooterMode)
    (buffer : list N) : outcome SecurityError nat * (SecurityContext K * list N) :=
  match mode with
  | Footer_Explicit => (Panic, (ctx, buffer))              (* unimplemented!() *)
  | Footer_None =>
    let h := header f in
    if has_security h then
      match frame_type h with
      | Data_t =>
        match auxiliary_security_header h with
        | Some aux =>
          let sec_l := security_level (control aux) in
          let auth_len := mic_octet_size sec_l in
          let aux_len := aux_octet_size aux in
          if negb (List.length (payload f) + header_octet_size h + aux_len + auth_len + 2
                   <=? 127)%nat
          then (Err FrameTooLong, (ctx, buffer))
          else
            match write_with (write_slice (payload f)) (buffer, 0%nat) with
            | (Err e, (buffer, _)) => (Err (WriteError e), (ctx, buffer))
            | (Panic, (buffer, _)) => (Panic, (ctx, buffer))
            | (Ok _, (buffer, offset)) =>
              match sec_l with
              | SL_None => (Ok offset, (ctx, buffer))
              | _ =>
                if sc_frame_counter ctx =? 0xFFFFFFFF
                then (Err CounterError, (ctx, buffer))
                else
                  let nonce := calculate_nonce (sc_euid ctx) (sc_frame_counter ctx) sec_l in
                  match u32_add (E := SecurityError) c (sc_frame_counter ctx) 1 with
                  | Ok fc =>
                    let ctx := set_sc_frame_counter ctx fc in
                    match sc_key_provider ctx DstAddrMode (key_identifier aux)
                                          (destination h) with
                    | Some (_, key) =>
                      match level_use sec_l with
                      | None => (Err NotImplemented, (ctx, buffer))       (* ENC *)
                      | Some u =>
                        if (offset <=? List.length buffer)%nat then
                          match do_secure u (level_tag_size sec_l) key nonce
                                          (firstn offset buffer) with
                          | Some (data, tag) =>
                            let buffer := data ++ skipn offset buffer in
                            match write_with (write_slice tag) (buffer, offset) with
                            | (Ok _, (buffer, offset)) => (Ok offset, (ctx, buffer))
                            | (Err e, (buffer, _)) => (Err (WriteError e), (ctx, buffer))
                            | (Panic, (buffer, _)) => (Panic, (ctx, buffer))
                            end
                          | None => (Err TransformationError, (ctx, buffer))
                          end
                        else (Panic, (ctx, buffer))        (* &mut buffer[..offset] *)
                      end
                    | None => (Err UnavailableKey, (ctx, buffer))
                    end
                  | _ => (Panic, (ctx, buffer))             (* += 1 overflow *)
                  end
              end
            end
        | None => (Err AuxSecHeaderAbsent, (ctx, buffer))
        end
      | _ => (Err NotImplemented, (ctx, buffer))
      end
    else (Err SecurityNotEnabled, (ctx, buffer))
  end.

(** The tail of Frame::try_write, frame/mod.rs:257-267 *)
Definition write_tail (f : Frame) (mode : FooterMode) (security_enabled : bool) : wm unit :=
  (if security_enabled then wret tt else write_with (write_slice (payload f))) >>
  match mode with
  | Footer_None => wret tt
  | Footer_Explicit => write_with (write_slice [fst (footer f); snd (footer f)])
  end.

(** Frame::try_write, frame/mod.rs:219-269. The context holds [&mut SecurityContext]: the
    context after the call is returned in every outcome. *)
Definition try_write_frame (f : Frame) (ctx : FrameSerDesContext K) (bytes : list N)
  : bres nat * (FrameSerDesContext K * list N) :=
  let finish ctx security_enabled st :=
    match write_tail f (footer_mode ctx) security_enabled st with
    | (Ok _, (bytes, off)) => (Ok off, (ctx, bytes))
    | (Err e, (bytes, _)) => (Err e, (ctx, bytes))
    | (Panic, (bytes, _)) => (Panic, (ctx, bytes))
    end in
  match (write_with (try_write_header c (header f) (security_ctx ctx)) >>
         write_with (try_write_content (content f))) (bytes, 0%nat) with
  | (Err e, (bytes, _)) => (Err e, (ctx, bytes))
  | (Panic, (bytes, _)) => (Panic, (ctx, bytes))
  | (Ok _, (bytes, off)) =>
    match security_ctx ctx with
    | None => finish ctx false (bytes, off)
    | Some sc =>
      if (off <=? List.length bytes)%nat then
        let '(r, (sc, tl)) := secure_frame f sc (footer_mode ctx) (skipn off bytes) in
        let bytes := firstn off bytes ++ tl in
        let ctx := {| footer_mode := footer_mode ctx; security_ctx := Some sc |} in
        match r with
        | Ok len => finish ctx true (bytes, (off + len)%nat)
        | Err SecurityNotEnabled => finish ctx false (bytes, off)
        | Err e => (Err (security_error_into e), (ctx, bytes))
        | Panic => (Panic, (ctx, bytes))
        end
      else (Panic, (ctx, bytes))                            (* &mut bytes[offset..] *)
    end
  end.

(** Frame::try_read, frame/mod.rs:330-368 *)
Definition try_read_frame (mode : FooterMode) : reader Frame := fun bytes =>
  '(header, off) <- read_with (try_read_header c) bytes 0 ;;
  '(content, off) <- read_with (try_read_content header) bytes off ;;
  if has_security header then Err (decode_error_into SecurityEnabled)
  else
    '(payload, ft, off) <-
      (match mode with
       | Footer_None =>
           len <- usize_sub c (N.of_nat (List.length bytes)) (N.of_nat off) ;;
           '(p, off) <- read_with (read_bytes len) bytes off ;;
           Ok (p, 0, off)
       | Footer_Explicit =>
           len <- usize_sub c (N.of_nat (List.length bytes)) (N.of_nat off) ;;
           len <- usize_sub c len 2 ;;
           '(p, off) <- read_with (read_bytes len) bytes off ;;
           '(ft, off) <- read_with (read_num 2 LE) bytes off ;;
           Ok (p, ft, off)
       end) ;;
    Ok ({| header := header; content := content; payload := payload;
           footer := (ft mod 256, ft / 256) |}, off).

(** The CCM call of do_unsecure!, security/mod.rs:597-628 *)
Definition do_unsecure (u : aead_use) (m : nat) (key : K) (nonce data tag : list N)
  : bool * list N :=
  match u with
  | Use_Mic => (fst (ccm_decrypt E key m nonce data [] tag), data)
  | Use_EncMic => ccm_decrypt E key m nonce [] data tag
  end.

(** [*frame_counter = v] on the borrowed descriptor *)
Definition set_dev_counter (d : DeviceDescriptor) (v : N) : DeviceDescriptor :=
  {| dev_frame_counter := v; dev_exempt := dev_exempt d |}.

(** unsecure_frame, security/mod.rs:513-677. State: buffer, security context (never
    assigned), device lookup; returned in every outcome. *)
Definition unsecure_frame {D} (h : Header) (buffer : list N) (ctx : SecurityContext K)
    (mode : FooterMode) (dl : DeviceLookup D) (ds : D)
  : outcome SecurityError nat * (list N * SecurityContext K * D) :=
  match mode with
  | Footer_Explicit => (Panic, (buffer, ctx, ds))            (* unimplemented!() *)
  | Footer_None =>
    if has_security h then
      match frame_type h with
      | Data_t =>
        match version h with
        | Ieee802154_2003 => (Err UnsupportedLegacy, (buffer, ctx, ds))
        | _ =>
          match auxiliary_security_header h with
          | None => (Err AuxSecHeaderAbsent, (buffer, ctx, ds))
          | Some aux =>
            let sec_l := security_level (control aux) in
            match sec_l with
            | SL_None => (Err UnsupportedSecurity, (buffer, ctx, ds))
            | _ =>
              match sc_key_provider ctx SrcAddrMode (key_identifier aux) (source h) with
              | None => (Err UnavailableKey, (buffer, ctx, ds))
              | Some (source_u64_address, key) =>
                match source h with
                | None => (Err NoSourceAddress, (buffer, ctx, ds))
                | Some source_addr =>
                  match dl SrcAddrMode source_addr ds with
                  | DevMissing ds => (Err UnavailableDevice, (buffer, ctx, ds))
                  | DevFound device put =>
                    if (dev_frame_counter device =? 0xFFFFFFFF)
                       || (frame_counter aux <? dev_frame_counter device)
                    then (Err CounterError, (buffer, ctx, put device))
                    else
                      let nonce := calculate_nonce source_u64_address
                                     (frame_counter aux) sec_l in
                      match level_use sec_l with
                      | None => (Err NotImplemented, (buffer, ctx, put device))  (* ENC *)
                      | Some u =>
                        let taglen := mic_octet_size sec_l in
                        let buffer_len := List.length buffer in
                        (* buffer_len - taglen underflows: panic with overflow checks;
                           otherwise the wrapped range start exceeds its end: panic *)
                        if (buffer_len <? taglen)%nat
                        then (Panic, (buffer, ctx, put device))
                        else
                          let tag := skipn (buffer_len - taglen) buffer in
                          let data := firstn (buffer_len - taglen) buffer in
                          let '(verify, data) :=
                            do_unsecure u (level_tag_size sec_l) key nonce data tag in
                          let buffer := data ++ tag in
                          if verify then
                            match u32_add (E := SecurityError) c (frame_counter aux) 1 with
                            | Ok fc =>
                                (Ok taglen, (buffer, ctx, put (set_dev_counter device fc)))
                            | _ => (Panic, (buffer, ctx, put device))
                            end
                          else (Err TransformationError, (buffer, ctx, put device))
                      end
                  end
                end
              end
            end
          end
        end
      | _ => (Err NotImplemented, (buffer, ctx, ds))
      end
    else (Err SecurityNotEnabled, (buffer, ctx, ds))
  end.

(** [r?] in a function returning Result<_, SecurityError>, for r : byte::Result
    (From<byte::Error> for SecurityError, security/mod.rs:724-728) *)
Definition lift_sec {A} (r : bres A) : outcome SecurityError A :=
  match r with Ok a => Ok a | Err e => Err (WriteError e) | Panic => Panic end.

(** Frame::try_read_and_unsecure, frame/mod.rs:271-328. Returns the result and the final
    buffer, context and device-lookup state. *)
Definition try_read_and_unsecure {D} (buf : list N) (ctx : FrameSerDesContext K)
    (dl : DeviceLookup D) (ds : D)
  : outcome SecurityError (Frame * nat) * (list N * FrameSerDesContext K * D) :=
  let finish h ct buf ctx ds off tag_size :=
    (lift_sec
       (len <- usize_sub c (N.of_nat (List.length buf)) (N.of_nat off) ;;
        len <- usize_sub c len (N.of_nat tag_size) ;;
        '(p, off) <- read_with (read_bytes len) buf off ;;
        Ok ({| header := h; content := ct; payload := p; footer := (0, 0) |}, off)),
     (buf, ctx, ds)) in
  match ('(h, off) <- read_with (try_read_header c) buf 0 ;;
         '(ct, off) <- read_with (try_read_content h) buf off ;;
         Ok (h, ct, off)) with
  | Err e => (Err (WriteError e), (buf, ctx, ds))
  | Panic => (Panic, (buf, ctx, ds))
  | Ok (h, ct, off) =>
    if has_security h then
      match security_ctx ctx with
      | None => (Err InvalidSecContext, (buf, ctx, ds))
      | Some sc =>
        if (off <=? List.length buf)%nat then
          let '(r, (tl, sc, ds)) :=
            unsecure_frame h (skipn off buf) sc (footer_mode ctx) dl ds in
          let buf := firstn off buf ++ tl in
          let ctx := {| footer_mode := footer_mode ctx; security_ctx := Some sc |} in
          match r with
          | Ok size => finish h ct buf ctx ds off size
          | Err SecurityNotEnabled => finish h ct buf ctx ds off 0%nat
          | Err e => (Err e, (buf, ctx, ds))
          | Panic => (Panic, (buf, ctx, ds))
          end
        else (Panic, (buf, ctx, ds))                         (* &mut buf[offset..] *)
      end
    else finish h ct buf ctx ds off 0%nat
  end.

End Security.
