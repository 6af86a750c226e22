(** Specification of a whole write, for every context and every buffer, large enough or not:
    the sizes of the fields of a frame in the order in which they are laid out, and what is left
    in a buffer that cannot hold all of them. Uses only the types, Spec.v and SecSpec.v. *)
From Coq Require Import List Arith NArith Bool String.
From Verif Require Import ByteCrate Types CcmModel Spec SecSpec.
Import ListNotations.
Open Scope N_scope.
Open Scope list_scope.

(** * The fields of a frame *)

(** An address: its PAN identifier (unless left out) and the address proper. *)
Definition address_fields (pan : bool) (a : Address) : list nat :=
  ((if pan then [2] else []) ++ [match a with Short _ _ => 2 | Extended _ _ => 8 end])%nat.

(** Security control, frame counter, key source, key index. *)
Definition aux_fields (a : AuxiliarySecurityHeader) : list nat :=
  ([1; 4] ++
   match key_identifier a with
   | None => []
   | Some k => match key_source k with
               | None => [] | Some (KS_Short _) => [4] | Some (KS_Long _) => [8]
               end ++ [1]
   end)%nat.

(** Frame control, sequence number, destination, source, auxiliary security header. *)
Definition header_fields (h : Header) : list nat :=
  [2; 1]%nat
  ++ match destination h with None => [] | Some a => address_fields true a end
  ++ match source h with None => [] | Some a => address_fields (negb (pan_id_compress h)) a end
  ++ match auxiliary_security_header h with None => [] | Some a => aux_fields a end.

(** Superframe specification (two octets, written one by one), GTS specification, directions,
    descriptors (address and octet), pending address specification and the two lists. *)
Definition beacon_fields (b : Beacon) : list nat :=
  ([1; 1]
   ++ [1] ++ match active_slots (guaranteed_time_slot_info b) with
             | [] => [] | slots => 1 :: flat_map (fun _ => [2; 1]) slots end
   ++ [1] ++ map (fun _ => 2) (shorts_of (pending_address b))
          ++ map (fun _ => 8) (extendeds_of (pending_address b)))%nat.

Definition command_fields (c : Command) : list nat :=
  (1 :: match c with
        | AssociationRequest _ | DisassociationNotification _ | GuaranteedTimeSlotRequest _ => [1]
        | AssociationResponse _ _ => [2; 1]
        | CoordinatorRealignment d =>
            [2; 2; 1; 2] ++ match cr_channel_page d with None => [] | Some _ => [1] end
        | _ => []
        end)%nat.

Definition content_fields (ct : FrameContent) : list nat :=
  match ct with
  | FC_Beacon b => beacon_fields b
  | FC_Command c => command_fields c
  | _ => []
  end.

(** The whole frame; a secured one ends with its tag. *)
Definition frame_fields (m : FooterMode) (secured : bool) (f : Frame) : list nat :=
  header_fields (header f) ++ content_fields (content f) ++ [List.length (payload f)]
  ++ (if secured
      then match auxiliary_security_header (header f) with
           | Some a => [tag_len (security_level (control a))] | None => [] end
      else [])
  ++ match m with Footer_None => [] | Footer_Explicit => [2%nat] end.

(** Octets up to the end of the payload. *)
Definition up_to_payload (f : Frame) : nat :=
  list_sum (header_fields (header f) ++ content_fields (content f) ++ [List.length (payload f)]).

(** How many octets the fields take that fit, one after the other, into [room] octets: up to the
    first one that does not fit. *)
Fixpoint whole (room : nat) (fields : list nat) : nat :=
  match fields with
  | [] => 0
  | s :: r => if s <=? room then s + whole (room - s) r else 0
  end%nat.

(** * The plan of a write *)

Section Plan.
Context {K : Type} (E : block_cipher K).

(** Without a security context: the octets put into a large enough buffer, and the end. *)
Definition plain_plan (m : FooterMode) (f : Frame) : list N * bres unit :=
  let h := header f in
  if pan_id_compress h && negb (is_some (destination h) && is_some (source h))
  then (le 2 (control_word false (header_sent 0 h)) ++ [seq h],
        Err (BadInput "DisallowedPanIdCompress"))
  else match auxiliary_security_header h with
       | Some _ =>
         (le 2 (control_word false (header_sent 0 h)) ++ [seq h]
          ++ match destination h with None => [] | Some a => wire_address a end
          ++ match source h with
             | None => []
             | Some a => if pan_id_compress h then wire_addr_only a else wire_address a
             end, Err (BadInput "MissingSecurityCtx"))
       | None => (wire_frame m f, Ok tt)
       end.

(** With any context: the octets, the end, and whether a frame counter is used up. *)
Definition any_plan (o : endian) (ctx : FrameSerDesContext K) (f : Frame)
  : list N * bres unit * bool :=
  match security_ctx ctx with
  | None => (plain_plan (footer_mode ctx) f, false)
  | Some sc => write_plan E o (footer_mode ctx) sc f
  end.

(** The context after a write that used up a counter. *)
Definition counted (ctx : FrameSerDesContext K) : FrameSerDesContext K :=
  {| footer_mode := footer_mode ctx; security_ctx := option_map advanced (security_ctx ctx) |}.

(** The counter of a context is a u32. *)
Definition ctx_ok (ctx : FrameSerDesContext K) : Prop :=
  match security_ctx ctx with None => True | Some sc => u32_ok (sc_frame_counter sc) end.

(** The whole outcome of a write of [f] into [buf]: the result, the context and the buffer. *)
Definition write_outcome (o : endian) (f : Frame) (ctx : FrameSerDesContext K) (buf : list N)
  : bres nat * (FrameSerDesContext K * list N) :=
  let '(bs, st, used) := any_plan o ctx f in
  let room := List.length buf in
  if (List.length bs <=? room)%nat
  then (match st with Ok _ => Ok (List.length bs) | Err e => Err e | Panic => Panic end,
        (if used then counted ctx else ctx, bs ++ skipn (List.length bs) buf))
  else
    let k := whole room (frame_fields (footer_mode ctx) (is_some (security_ctx ctx)) f) in
    (Err Incomplete,
     (* the counter is taken once the payload is in the buffer *)
     (if used && (up_to_payload f <=? room)%nat then counted ctx else ctx,
      firstn k bs ++ skipn k buf)).
End Plan.
