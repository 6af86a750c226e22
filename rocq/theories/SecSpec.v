(** Specification of frame security: what a write with a security context puts into the
    buffer and how it ends, and what receiving a secured frame does. Independent of the
    model's readers, writers and of its CCM code (only Types.v, Spec.v and the cipher
    interface are used). *)
From Coq Require Import List Arith NArith Bool String.
From Verif Require Import ByteCrate Types CcmModel Spec.
Import ListNotations.
Open Scope N_scope.
Open Scope list_scope.

Definition is_data (h : Header) : bool :=
  match frame_type h with Data_t => true | _ => false end.
Definition level_is_none (l : SecurityLevel) : bool :=
  match l with SL_None => true | _ => false end.
Definition level_is_enc (l : SecurityLevel) : bool :=
  match l with SL_ENC => true | _ => false end.
(** Levels that encrypt as well as authenticate. *)
Definition encrypting (l : SecurityLevel) : bool :=
  match l with SL_ENCMIC32 | SL_ENCMIC64 | SL_ENCMIC128 => true | _ => false end.

Definition last_counter : N := 2 ^ 32 - 1.

(** Octets of two strings are equal. *)
Definition same_octets (a b : list N) : bool :=
  if list_eq_dec N.eq_dec a b then true else false.

(** * Sending *)

(** Header and content octets on a host of byte order [o], with frame counter [fc]. *)
Definition wire_front (o : endian) (fc : N) (f : Frame) : list N :=
  wire_header o o false 0 (header_sent fc (header f)) ++ wire_content br_zero mr_zero (content f).

(** The length compared with aMaxPHYPacketSize: payload, header (with two octets too many under
    PAN-ID compression), auxiliary header, tag and FCS; the content is not counted. *)
Definition length_estimate (f : Frame) (a : AuxiliarySecurityHeader) : nat :=
  (List.length (payload f) + mhr_len (header f) + (if pan_id_compress (header f) then 2 else 0)
   + aux_len a + tag_len (security_level (control a)) + 2)%nat.

Section Send.
Context {K : Type} (E : block_cipher K).

(** What writing [f] with context [sc] puts at the start of a large enough buffer, how it
    ends, and whether it uses up a frame counter. *)
Definition write_plan (o : endian) (m : FooterMode) (sc : SecurityContext K) (f : Frame)
  : list N * bres unit * bool :=
  let h := header f in
  let fc := sc_frame_counter sc in
  let front := wire_front o fc f in
  let clear := front ++ payload f in
  if pan_id_compress h && negb (is_some (destination h) && is_some (source h))
  then (le 2 (control_word false (header_sent fc h)) ++ [seq h],
        Err (BadInput "DisallowedPanIdCompress"), false)
  else match m with
  | Footer_Explicit => (front, Panic, false)
  | Footer_None =>
    match auxiliary_security_header h with
    | None => (clear, Ok tt, false)
    | Some a =>
      let l := security_level (control a) in
      if negb (is_data h) then (front, Err (BadInput "NotImplemented"), false)
      else if (127 <? length_estimate f a)%nat then (front, Err (BadInput "FrameTooLong"), false)
      else if level_is_none l then (clear, Ok tt, false)
      else if fc =? last_counter then (clear, Err (BadInput "CounterError"), false)
      else match sc_key_provider sc DstAddrMode (key_identifier a) (destination h) with
      | None => (clear, Err (BadInput "UnavailableKey"), true)
      | Some (_, key) =>
        if level_is_enc l then (clear, Err (BadInput "NotImplemented"), true)
        else (front ++ secured_payload E key l (sc_euid sc) fc (payload f)
                    ++ secured_tag E key l (sc_euid sc) fc (payload f), Ok tt, true)
      end
    end
  end.

(** A context after one more frame counter has been used. *)
Definition advanced (sc : SecurityContext K) : SecurityContext K :=
  {| sc_euid := sc_euid sc; sc_frame_counter := sc_frame_counter sc + 1;
     sc_key_provider := sc_key_provider sc |}.

Definition ser_ctx (m : FooterMode) (sc : SecurityContext K) : FrameSerDesContext K :=
  {| footer_mode := m; security_ctx := Some sc |}.

(** * Receiving *)

(** Receiving a secured frame whose header is [h] with auxiliary header [a] and whose octets
    after header and content are [rest]: the payload, an error or a panic; [rest] as it is left
    in the caller's buffer; the device store. [oc]: the build has overflow checks. *)
Definition receive {D} (oc : bool) (sc : SecurityContext K) (dl : DeviceLookup D) (ds : D)
    (h : Header) (a : AuxiliarySecurityHeader) (rest : list N)
  : outcome SecurityError (list N) * list N * D :=
  let l := security_level (control a) in
  let fc := frame_counter a in
  if negb (is_data h) then (Err NotImplemented, rest, ds)
  else if match version h with Ieee802154_2003 => true | _ => false end
  then (Err UnsupportedLegacy, rest, ds)
  else if level_is_none l then (Err UnsupportedSecurity, rest, ds)
  else match sc_key_provider sc SrcAddrMode (key_identifier a) (source h) with
  | None => (Err UnavailableKey, rest, ds)
  | Some (eui, key) =>
    match source h with
    | None => (Err NoSourceAddress, rest, ds)
    | Some s =>
      match dl SrcAddrMode s ds with
      | DevMissing ds' => (Err UnavailableDevice, rest, ds')
      | DevFound d put =>
        let set v := put {| dev_frame_counter := v; dev_exempt := dev_exempt d |} in
        if (dev_frame_counter d =? last_counter) || (fc <? dev_frame_counter d)
        then (Err CounterError, rest, put d)
        else if level_is_enc l then (Err NotImplemented, rest, put d)
        else if (List.length rest <? tag_len l)%nat then (Panic, rest, put d)
        else
          let n := (List.length rest - tag_len l)%nat in
          let data := firstn n rest in
          let tag := skipn n rest in
          (* decrypting and encrypting are the same operation *)
          let plain := secured_payload E key l eui fc data in
          if same_octets (secured_tag E key l eui fc plain) tag
             && negb (encrypting l && (2 ^ 16 <=? N.of_nat n))
          then if fc =? last_counter
               then if oc then (Panic, plain ++ tag, put d)
                    else (Ok plain, plain ++ tag, set 0)
               else (Ok plain, plain ++ tag, set (fc + 1))
          else (Err TransformationError,
                (if encrypting l then on_auth_failure E key (mac_nonce eui fc l) data else data) ++ tag, put d)
      end
    end
  end.

End Send.

(** * Admission to tag verification *)

(** A received secured frame passes every check that precedes the verification of its tag:
    [eui] and [key] are what the key provider returns for its source, [d] the descriptor the
    device lookup returns ([put] stores a new value for it). *)
Definition admitted {K D} (sc : SecurityContext K) (dl : DeviceLookup D) (ds : D)
    (h : Header) (a : AuxiliarySecurityHeader)
    (eui : N) (key : K) (d : DeviceDescriptor) (put : DeviceDescriptor -> D) : Prop :=
  auxiliary_security_header h = Some a /\
  frame_type h = Data_t /\ version h <> Ieee802154_2003 /\
  authenticated (security_level (control a)) = true /\
  sc_key_provider sc SrcAddrMode (key_identifier a) (source h) = Some (eui, key) /\
  (exists s, source h = Some s /\ dl SrcAddrMode s ds = DevFound d put) /\
  dev_frame_counter d <> last_counter /\ dev_frame_counter d <= frame_counter a.

(** [rest] is a secured payload followed by the right tag, and [p] the payload. *)
Definition verifies {K} (E : block_cipher K) (key : K) (l : SecurityLevel) (eui fc : N)
    (rest p : list N) : Prop :=
  rest = secured_payload E key l eui fc p ++ secured_tag E key l eui fc p /\
  (encrypting l = true -> N.of_nat (List.length p) < 2 ^ 16).

(** A lookup that only borrows from its state: handing back an unchanged descriptor, or finding
    none, leaves the state as it was. *)
Definition lawful_lookup {D} (dl : DeviceLookup D) : Prop :=
  forall a ds, match dl SrcAddrMode a ds with
               | DevMissing s => s = ds
               | DevFound d put => put d = ds
               end.
