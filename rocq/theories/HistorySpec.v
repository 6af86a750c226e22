(** Histories: any sequence of writes with one security context, any sequence of receptions
    with one device store. The calls are those of the model (FrameModel.v); everything that
    happens in between, and the order of calls, is arbitrary. *)
From Coq Require Import List Arith NArith Bool.
From Verif Require Import ByteCrate Types CcmModel FrameModel Spec SecSpec.
Import ListNotations.
Open Scope N_scope.
Open Scope list_scope.

(** [xs] is [ys] with elements left out: same order, each used at most once. *)
Inductive subsequence {A} : list A -> list A -> Prop :=
| sub_nil : subsequence [] []
| sub_skip x xs ys : subsequence xs ys -> subsequence xs (x :: ys)
| sub_take x xs ys : subsequence xs ys -> subsequence (x :: xs) (x :: ys).

(** * Sending *)

(** One call of Frame::try_write: footer mode, frame and the caller's buffer. *)
Record call := { c_mode : FooterMode; c_frame : Frame; c_buffer : list N }.
(** What happened: the context's frame counter before and after, the result, the buffer. *)
Record sent := { s_call : call; s_before : N; s_result : bres nat; s_after : N; s_buffer : list N }.

(** The frame that was written. *)
Definition s_frame (e : sent) : Frame := c_frame (s_call e).
(** The octets a successful call returns to its caller. *)
Definition s_bytes (e : sent) : list N :=
  match s_result e with Ok n => firstn n (s_buffer e) | _ => [] end.
(** The call used up a frame counter. *)
Definition used (e : sent) : bool := s_before e <? s_after e.
(** The call produced a frame at an authenticated security level. *)
Definition secured (e : sent) : bool :=
  match s_result e, auxiliary_security_header (header (s_frame e)) with
  | Ok _, Some a => authenticated (security_level (control a))
  | _, _ => false
  end.
Definition level_of (e : sent) : SecurityLevel :=
  match auxiliary_security_header (header (s_frame e)) with
  | Some a => security_level (control a)
  | None => SL_None
  end.

Section Sending.
Context {K : Type} (c : cfg) (E : block_cipher K).

Definition at_counter (sc : SecurityContext K) (n : N) : SecurityContext K :=
  {| sc_euid := sc_euid sc; sc_frame_counter := n; sc_key_provider := sc_key_provider sc |}.

(** Any sequence of writes, each with the context the one before left. *)
Fixpoint send_all (sc : SecurityContext K) (calls : list call) : list sent * SecurityContext K :=
  match calls with
  | [] => ([], sc)
  | x :: rest =>
      let '(r, (ctx, buf)) := try_write_frame c E (c_frame x) (ser_ctx (c_mode x) sc) (c_buffer x) in
      let sc1 := match security_ctx ctx with Some s => s | None => sc end in
      let '(log, sc2) := send_all sc1 rest in
      ({| s_call := x; s_before := sc_frame_counter sc; s_result := r;
          s_after := sc_frame_counter sc1; s_buffer := buf |} :: log, sc2)
  end.

End Sending.

(** * Receiving *)

(** One reception: the context the receiver uses and the octets it was given. *)
Record arrival K := { a_ctx : FrameSerDesContext K; a_bytes : list N }.
Arguments a_ctx {K}. Arguments a_bytes {K}.
Record received K := { r_arrival : arrival K; r_result : outcome SecurityError (Frame * nat) }.
Arguments r_arrival {K}. Arguments r_result {K}.

Section Receiving.
Context {K D : Type} (c : cfg) (E : block_cipher K).

Fixpoint receive_all (dl : DeviceLookup D) (ds : D) (arrivals : list (arrival K))
  : list (received K) * D :=
  match arrivals with
  | [] => ([], ds)
  | x :: rest =>
      let '(r, (_, _, ds1)) := try_read_and_unsecure c E (a_bytes x) (a_ctx x) dl ds in
      let '(log, ds2) := receive_all dl ds1 rest in
      ({| r_arrival := x; r_result := r |} :: log, ds2)
  end.

(** A device store with numbered descriptors: [resolve] says which descriptor a lookup finds
    (none, or the one with this number), [get] what is stored there. A lookup does not change
    the store; writing through the borrowed descriptor changes that descriptor only. *)
Definition device_store (dl : DeviceLookup D) (resolve : Address -> option N)
    (get : D -> N -> DeviceDescriptor) : Prop :=
  forall a ds,
    match resolve a with
    | None => dl SrcAddrMode a ds = DevMissing ds
    | Some i => exists put, dl SrcAddrMode a ds = DevFound (get ds i) put /\
        put (get ds i) = ds /\
        (forall d, get (put d) i = d) /\ (forall d j, j <> i -> get (put d) j = get ds j)
    end.

(** The secured frame a reception accepted for descriptor number [x], if it did. *)
Definition accepted_for (resolve : Address -> option N) (x : N) (e : received K) : option Frame :=
  match r_result e with
  | Ok (f, _) =>
      match auxiliary_security_header (header f), source (header f) with
      | Some _, Some s => match resolve s with
                          | Some i => if i =? x then Some f else None
                          | None => None
                          end
      | _, _ => None
      end
  | _ => None
  end.
(** These, in order of acceptance; with the octets they were accepted from. *)
Definition accepted (resolve : Address -> option N) (x : N) (log : list (received K))
  : list (list N * Frame) :=
  flat_map (fun e => match accepted_for resolve x e with
                     | Some f => [(a_bytes (r_arrival e), f)]
                     | None => []
                     end) log.

End Receiving.

(** Frame counter in the auxiliary security header of a frame. *)
Definition counter_in (f : Frame) : N :=
  match auxiliary_security_header (header f) with Some a => frame_counter a | None => 0 end.
