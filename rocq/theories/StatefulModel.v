(** Writing and reading with a key provider that has a state of its own.
    [KeyDescriptorLookup::lookup_key_descriptor] takes [&self] (security/mod.rs:211-232), so a user's
    implementation may keep its state in a [Cell], [RefCell], [Mutex] or outside of the program: a
    key that is derived anew on every use, a hardware key store, a log of lookups, a quota. FrameModel.v
    has a provider without state. Here the four functions that pass it around are modelled again, with
    the provider's state threaded through every call of the provider; everything they call that does
    not get the provider is that of FrameModel.v. *)
From Coq Require Import List Arith NArith Bool.
From Verif Require Import ByteCrate Types HeaderModel CcmModel FrameModel.
Import ListNotations.
Open Scope N_scope.
Open Scope list_scope.

(** KeyDescriptorLookup::lookup_key_descriptor, security/mod.rs:211-232, of a provider with state
    [S]: the answer and the state after the call, both depending on the state before. *)
Definition StatefulKeys (K S : Type) :=
  AddressingMode -> option KeyIdentifier -> option Address -> S -> option (N * K) * S.

(** SecurityContext, security/mod.rs:253-269 (phantom_data dropped), with the provider's present
    state. *)
Record StatefulContext (K S : Type) := {
  st_euid : N;
  st_frame_counter : N;
  st_keys : StatefulKeys K S;
  st_state : S
}.
Arguments Build_StatefulContext {K S}.
Arguments st_euid {K S}. Arguments st_frame_counter {K S}.
Arguments st_keys {K S}. Arguments st_state {K S}.

(** [context.frame_counter = v], and a context whose provider is now in state [s]. *)
Definition set_st_frame_counter {K S} (x : StatefulContext K S) (v : N) : StatefulContext K S :=
  {| st_euid := st_euid x; st_frame_counter := v; st_keys := st_keys x; st_state := st_state x |}.
Definition set_st_state {K S} (x : StatefulContext K S) (s : S) : StatefulContext K S :=
  {| st_euid := st_euid x; st_frame_counter := st_frame_counter x; st_keys := st_keys x; st_state := s |}.

(** FrameSerDesContext, frame/mod.rs:179-188 *)
Record StatefulSerDesContext (K S : Type) := {
  st_footer_mode : FooterMode;
  st_security_ctx : option (StatefulContext K S)
}.
Arguments Build_StatefulSerDesContext {K S}.
Arguments st_footer_mode {K S}. Arguments st_security_ctx {K S}.

Section Security.
Context {K S : Type} (c : cfg) (E : block_cipher K).

(** secure_frame, security/mod.rs:329-495; the provider is called at 405-409. *)
Definition secure_frame_st (f : Frame) (ctx : StatefulContext K S) (mode : FooterMode)
    (buffer : list N) : outcome SecurityError nat * (StatefulContext K S * list N) :=
  match mode with
  | Footer_Explicit => (Panic, (ctx, buffer))
  | Footer_None =>
    let h := header f in
    if has_security h then
      match frame_type h with
      | Data_t =>
        match auxiliary_security_header h with
        | Some aux =>
          let sec_l := security_level (control aux) in
          let auth_len := mic_octet_size sec_l in
          let aux_len := aux_octet_size aux in
          if negb (List.length (payload f) + header_octet_size h + aux_len + auth_len + 2
                   <=? 127)%nat
          then (Err FrameTooLong, (ctx, buffer))
          else
            match write_with (write_slice (payload f)) (buffer, 0%nat) with
            | (Err e, (buffer, _)) => (Err (WriteError e), (ctx, buffer))
            | (Panic, (buffer, _)) => (Panic, (ctx, buffer))
            | (Ok _, (buffer, offset)) =>
              match sec_l with
              | SL_None => (Ok offset, (ctx, buffer))
              | _ =>
                if st_frame_counter ctx =? 0xFFFFFFFF
                then (Err CounterError, (ctx, buffer))
                else
                  let nonce := calculate_nonce (st_euid ctx) (st_frame_counter ctx) sec_l in
                  match u32_add (E := SecurityError) c (st_frame_counter ctx) 1 with
                  | Ok fc =>
                    let ctx := set_st_frame_counter ctx fc in
                    let '(answer, s) := st_keys ctx DstAddrMode (key_identifier aux)
                                          (destination h) (st_state ctx) in
                    let ctx := set_st_state ctx s in
                    match answer with
                    | Some (_, key) =>
                      match level_use sec_l with
                      | None => (Err NotImplemented, (ctx, buffer))
                      | Some u =>
                        if (offset <=? List.length buffer)%nat then
                          match do_secure E u (level_tag_size sec_l) key nonce
                                          (firstn offset buffer) with
                          | Some (data, tag) =>
                            let buffer := data ++ skipn offset buffer in
                            match write_with (write_slice tag) (buffer, offset) with
                            | (Ok _, (buffer, offset)) => (Ok offset, (ctx, buffer))
                            | (Err e, (buffer, _)) => (Err (WriteError e), (ctx, buffer))
                            | (Panic, (buffer, _)) => (Panic, (ctx, buffer))
                            end
                          | None => (Err TransformationError, (ctx, buffer))
                          end
                        else (Panic, (ctx, buffer))
                      end
                    | None => (Err UnavailableKey, (ctx, buffer))
                    end
                  | _ => (Panic, (ctx, buffer))
                  end
              end
            end
        | None => (Err AuxSecHeaderAbsent, (ctx, buffer))
        end
      | _ => (Err NotImplemented, (ctx, buffer))
      end
    else (Err SecurityNotEnabled, (ctx, buffer))
  end.

(** The context as the header writer sees it (header.rs:233-307). It is handed the whole context; neither
    it nor the auxiliary header's writer (security/auxiliary_security_header.rs:118-163) calls the provider,
    which is therefore left out here. *)
Definition header_view (x : StatefulContext K S) : SecurityContext K :=
  {| sc_euid := st_euid x; sc_frame_counter := st_frame_counter x; sc_key_provider := unimplemented_keys |}.

(** Frame::try_write, frame/mod.rs:219-269 *)
Definition try_write_frame_st (f : Frame) (ctx : StatefulSerDesContext K S) (bytes : list N)
  : bres nat * (StatefulSerDesContext K S * list N) :=
  let finish ctx security_enabled st :=
    match write_tail f (st_footer_mode ctx) security_enabled st with
    | (Ok _, (bytes, off)) => (Ok off, (ctx, bytes))
    | (Err e, (bytes, _)) => (Err e, (ctx, bytes))
    | (Panic, (bytes, _)) => (Panic, (ctx, bytes))
    end in
  match (write_with (try_write_header c (header f) (option_map header_view (st_security_ctx ctx))) >>
         write_with (try_write_content (content f))) (bytes, 0%nat) with
  | (Err e, (bytes, _)) => (Err e, (ctx, bytes))
  | (Panic, (bytes, _)) => (Panic, (ctx, bytes))
  | (Ok _, (bytes, off)) =>
    match st_security_ctx ctx with
    | None => finish ctx false (bytes, off)
    | Some sc =>
      if (off <=? List.length bytes)%nat then
        let '(r, (sc, tl)) := secure_frame_st f sc (st_footer_mode ctx) (skipn off bytes) in
        let bytes := firstn off bytes ++ tl in
        let ctx := {| st_footer_mode := st_footer_mode ctx; st_security_ctx := Some sc |} in
        match r with
        | Ok len => finish ctx true (bytes, (off + len)%nat)
        | Err SecurityNotEnabled => finish ctx false (bytes, off)
        | Err e => (Err (security_error_into e), (ctx, bytes))
        | Panic => (Panic, (ctx, bytes))
        end
      else (Panic, (ctx, bytes))
    end
  end.

(** unsecure_frame, security/mod.rs:513-677; the provider is called at 559-565, the device lookup
    after it. *)
Definition unsecure_frame_st {D} (h : Header) (buffer : list N) (ctx : StatefulContext K S)
    (mode : FooterMode) (dl : DeviceLookup D) (ds : D)
  : outcome SecurityError nat * (list N * StatefulContext K S * D) :=
  match mode with
  | Footer_Explicit => (Panic, (buffer, ctx, ds))
  | Footer_None =>
    if has_security h then
      match frame_type h with
      | Data_t =>
        match version h with
        | Ieee802154_2003 => (Err UnsupportedLegacy, (buffer, ctx, ds))
        | _ =>
          match auxiliary_security_header h with
          | None => (Err AuxSecHeaderAbsent, (buffer, ctx, ds))
          | Some aux =>
            let sec_l := security_level (control aux) in
            match sec_l with
            | SL_None => (Err UnsupportedSecurity, (buffer, ctx, ds))
            | _ =>
              let '(answer, s) := st_keys ctx SrcAddrMode (key_identifier aux) (source h) (st_state ctx) in
              let ctx := set_st_state ctx s in
              match answer with
              | None => (Err UnavailableKey, (buffer, ctx, ds))
              | Some (source_u64_address, key) =>
                match source h with
                | None => (Err NoSourceAddress, (buffer, ctx, ds))
                | Some source_addr =>
                  match dl SrcAddrMode source_addr ds with
                  | DevMissing ds => (Err UnavailableDevice, (buffer, ctx, ds))
                  | DevFound device put =>
                    if (dev_frame_counter device =? 0xFFFFFFFF)
                       || (frame_counter aux <? dev_frame_counter device)
                    then (Err CounterError, (buffer, ctx, put device))
                    else
                      let nonce := calculate_nonce source_u64_address
                                     (frame_counter aux) sec_l in
                      match level_use sec_l with
                      | None => (Err NotImplemented, (buffer, ctx, put device))
                      | Some u =>
                        let taglen := mic_octet_size sec_l in
                        let buffer_len := List.length buffer in
                        if (buffer_len <? taglen)%nat
                        then (Panic, (buffer, ctx, put device))
                        else
                          let tag := skipn (buffer_len - taglen) buffer in
                          let data := firstn (buffer_len - taglen) buffer in
                          let '(verify, data) :=
                            do_unsecure E u (level_tag_size sec_l) key nonce data tag in
                          let buffer := data ++ tag in
                          if verify then
                            match u32_add (E := SecurityError) c (frame_counter aux) 1 with
                            | Ok fc =>
                                (Ok taglen, (buffer, ctx, put (set_dev_counter device fc)))
                            | _ => (Panic, (buffer, ctx, put device))
                            end
                          else (Err TransformationError, (buffer, ctx, put device))
                      end
                  end
                end
              end
            end
          end
        end
      | _ => (Err NotImplemented, (buffer, ctx, ds))
      end
    else (Err SecurityNotEnabled, (buffer, ctx, ds))
  end.

(** Frame::try_read_and_unsecure, frame/mod.rs:271-328 *)
Definition try_read_and_unsecure_st {D} (buf : list N) (ctx : StatefulSerDesContext K S)
    (dl : DeviceLookup D) (ds : D)
  : outcome SecurityError (Frame * nat) * (list N * StatefulSerDesContext K S * D) :=
  let finish h ct buf ctx ds off tag_size :=
    (lift_sec
       (len <- usize_sub c (N.of_nat (List.length buf)) (N.of_nat off) ;;
        len <- usize_sub c len (N.of_nat tag_size) ;;
        '(p, off) <- read_with (read_bytes len) buf off ;;
        Ok ({| header := h; content := ct; payload := p; footer := (0, 0) |}, off)),
     (buf, ctx, ds)) in
  match ('(h, off) <- read_with (try_read_header c) buf 0 ;;
         '(ct, off) <- read_with (try_read_content h) buf off ;;
         Ok (h, ct, off)) with
  | Err e => (Err (WriteError e), (buf, ctx, ds))
  | Panic => (Panic, (buf, ctx, ds))
  | Ok (h, ct, off) =>
    if has_security h then
      match st_security_ctx ctx with
      | None => (Err InvalidSecContext, (buf, ctx, ds))
      | Some sc =>
        if (off <=? List.length buf)%nat then
          let '(r, (tl, sc, ds)) :=
            unsecure_frame_st h (skipn off buf) sc (st_footer_mode ctx) dl ds in
          let buf := firstn off buf ++ tl in
          let ctx := {| st_footer_mode := st_footer_mode ctx; st_security_ctx := Some sc |} in
          match r with
          | Ok size => finish h ct buf ctx ds off size
          | Err SecurityNotEnabled => finish h ct buf ctx ds off 0%nat
          | Err e => (Err e, (buf, ctx, ds))
          | Panic => (Panic, (buf, ctx, ds))
          end
        else (Panic, (buf, ctx, ds))
      end
    else finish h ct buf ctx ds off 0%nat
  end.

End Security.
