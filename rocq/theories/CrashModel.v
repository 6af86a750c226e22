(** What a call has done when it is cut short. A call can end in the middle: the power fails while the
    context, the device store and the buffer are in memory that survives, or code of the user that the
    call runs - the key provider, the block cipher, the device lookup - panics and the panic is caught.
    FrameModel.v gives the state at the end of a call only. Here [try_write] and [try_read_and_unsecure] are
    modelled as the list of states their assignments go through, in program order, the first being the state
    before the call. Everything they compute is computed by the functions of FrameModel.v; PropCrash.v proves
    that the last state is the one FrameModel.v gives. An assignment to several octets of a buffer
    (a [write_with], the in-place en- or decryption) is one step here; what can be seen in the middle of such a
    step is part of the specification (PropCrash.v: every octet is the old or the new one).
    Simplification: the order of assignments is that of the source; a compiler may reorder stores to memory that
    nobody looks at, so for power failures the context has to be written back in program order. *)
From Coq Require Import List Arith NArith Bool.
From Verif Require Import ByteCrate Types HeaderModel CcmModel FrameModel.
Import ListNotations.
Open Scope N_scope.
Open Scope list_scope.

Section Crash.
Context {K : Type} (c : cfg) (E : block_cipher K).

(** secure_frame, security/mod.rs:329-495: frame counter and buffer after the payload has been copied
    (382-384), after [*frame_counter += 1] (402), after the CCM call (427-441), after the tag has been
    written (443-448). *)
Definition secure_points (f : Frame) (ctx : SecurityContext K) (mode : FooterMode) (buffer : list N)
  : list (N * list N) :=
  let fc := sc_frame_counter ctx in
  match mode with
  | Footer_Explicit => []
  | Footer_None =>
    let h := header f in
    match frame_type h, auxiliary_security_header h with
    | Data_t, Some aux =>
      let sec_l := security_level (control aux) in
      if negb (List.length (payload f) + header_octet_size h + aux_octet_size aux + mic_octet_size sec_l + 2 <=? 127)%nat
      then []
      else
        match write_with (write_slice (payload f)) (buffer, 0%nat) with
        | (Ok _, (buffer, offset)) =>
          (fc, buffer) ::
          match sec_l with
          | SL_None => []
          | _ =>
            if fc =? 0xFFFFFFFF then []
            else
              let nonce := calculate_nonce (sc_euid ctx) fc sec_l in
              match u32_add (E := SecurityError) c fc 1 with
              | Ok fc =>
                (fc, buffer) ::
                match sc_key_provider ctx DstAddrMode (key_identifier aux) (destination h), level_use sec_l with
                | Some (_, key), Some u =>
                  if (offset <=? List.length buffer)%nat then
                    match do_secure E u (level_tag_size sec_l) key nonce (firstn offset buffer) with
                    | Some (data, tag) =>
                      let buffer := data ++ skipn offset buffer in
                      let '(_, (buffer', _)) := write_with (write_slice tag) (buffer, offset) in
                      [(fc, buffer); (fc, buffer')]
                    | None => []
                    end
                  else []
                | _, _ => []
                end
              | _ => []
              end
          end
        | (_, (buffer, _)) => [(fc, buffer)]
        end
    | _, _ => []
    end
  end.

(** Frame::try_write, frame/mod.rs:219-269, with a security context: before the call, after header and
    content (231-234), the steps of secure_frame (240-255), after payload and footer (257-267). *)
Definition write_points (f : Frame) (mode : FooterMode) (sc : SecurityContext K) (bytes : list N)
  : list (N * list N) :=
  let fc := sc_frame_counter sc in
  (fc, bytes) ::
  match (write_with (try_write_header c (header f) (Some sc)) >>
         write_with (try_write_content (content f))) (bytes, 0%nat) with
  | (Ok _, (bytes, off)) =>
    (fc, bytes) ::
    if (off <=? List.length bytes)%nat then
      let '(r, (sc', tl)) := secure_frame c E f sc mode (skipn off bytes) in
      map (fun p => (fst p, firstn off bytes ++ snd p)) (secure_points f sc mode (skipn off bytes)) ++
      match r with
      | Ok len => [(sc_frame_counter sc', fst (snd (write_tail f mode true (firstn off bytes ++ tl, (off + len)%nat))))]
      | Err SecurityNotEnabled => [(sc_frame_counter sc', fst (snd (write_tail f mode false (firstn off bytes ++ tl, off))))]
      | _ => []
      end
    else []
  | (_, (bytes, _)) => [(fc, bytes)]
  end.

(** unsecure_frame, security/mod.rs:513-677: device store and buffer after the device lookup (572-575),
    after the in-place decryption inside the CCM call and after the CCM call (612-628; the crate decrypts before it
    compares the tag), after the descriptor's counter has been set (630-631). *)
Definition unsecure_points {D} (h : Header) (buffer : list N) (ctx : SecurityContext K)
    (mode : FooterMode) (dl : DeviceLookup D) (ds : D) : list (D * list N) :=
  match mode with
  | Footer_Explicit => []
  | Footer_None =>
    match frame_type h, version h, auxiliary_security_header h with
    | Data_t, Ieee802154_2003, _ => []
    | Data_t, _, Some aux =>
      let sec_l := security_level (control aux) in
      match sec_l with
      | SL_None => []
      | _ =>
        match sc_key_provider ctx SrcAddrMode (key_identifier aux) (source h), source h with
        | Some (source_u64_address, key), Some source_addr =>
          match dl SrcAddrMode source_addr ds with
          | DevMissing ds => [(ds, buffer)]
          | DevFound device put =>
            (put device, buffer) ::
            if (dev_frame_counter device =? 0xFFFFFFFF) || (frame_counter aux <? dev_frame_counter device)
            then []
            else
              let nonce := calculate_nonce source_u64_address (frame_counter aux) sec_l in
              match level_use sec_l with
              | None => []
              | Some u =>
                let taglen := mic_octet_size sec_l in
                if (List.length buffer <? taglen)%nat then []
                else
                  let tag := skipn (List.length buffer - taglen) buffer in
                  let data := firstn (List.length buffer - taglen) buffer in
                  (match u with
                   | Use_EncMic => [(put device, apply_keystream E key (List.length data) nonce 1 data ++ tag)]
                   | Use_Mic => []
                   end) ++
                  let '(verify, data) := do_unsecure E u (level_tag_size sec_l) key nonce data tag in
                  (put device, data ++ tag) ::
                  if verify then
                    match u32_add (E := SecurityError) c (frame_counter aux) 1 with
                    | Ok fc => [(put (set_dev_counter device fc), data ++ tag)]
                    | _ => []
                    end
                  else []
              end
          end
        | _, _ => []
        end
      end
    | _, _, _ => []
    end
  end.

(** Frame::try_read_and_unsecure, frame/mod.rs:271-328: before the call and the steps of
    unsecure_frame; nothing is assigned after it. *)
Definition read_points {D} (buf : list N) (ctx : FrameSerDesContext K)
    (dl : DeviceLookup D) (ds : D) : list (D * list N) :=
  (ds, buf) ::
  match ('(h, off) <- read_with (try_read_header c) buf 0 ;;
         '(ct, off) <- read_with (try_read_content h) buf off ;;
         Ok (h, ct, off)) with
  | Ok (h, _, off) =>
    match security_ctx ctx with
    | Some sc =>
      if has_security h && (off <=? List.length buf)%nat
      then map (fun p => (fst p, firstn off buf ++ snd p))
               (unsecure_points h (skipn off buf) sc (footer_mode ctx) dl ds)
      else []
    | None => []
    end
  | _ => []
  end.

End Crash.
