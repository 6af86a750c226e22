(** C103: exactly what a tag covers. *)
From Coq Require Import List Arith NArith ZArith Bool String Lia Sorting.Sorted ZifyBool ZifyNat ZifyN.
From Verif Require Import ByteCrate Types HeaderModel BeaconModel CommandModel CcmModel FrameModel
  Spec ProofLib HeaderProofs HeaderReadProofs FrameProofs RepoTests Aes128 CcmProofs
  SecSpec SecureProofs PropSecure PropReceive HistorySpec PropHistory PropRekey.
Import ListNotations.
Open Scope N_scope.
Open Scope list_scope.

(** * Specification *)

(** What a receiver makes of a header for the cipher: the key and the EUI-64 its provider gives for the key identifier and the
    source address, the frame counter and the security level. *)
Definition cipher_inputs {K} (sc : SecurityContext K) (h : Header) : option (K * N * N * SecurityLevel) :=
  match auxiliary_security_header h with
  | Some a => match sc_key_provider sc SrcAddrMode (key_identifier a) (source h) with
              | Some (eui, key) => Some (key, eui, frame_counter a, security_level (control a))
              | None => None
              end
  | None => None
  end.
(** The octets are the payload and the tag of [p] for these. *)
Definition fits_inputs {K} (E : block_cipher K) (i : K * N * N * SecurityLevel) (p rest : list N) : Prop :=
  let '(key, eui, fc, l) := i in rest = secured_payload E key l eui fc p ++ secured_tag E key l eui fc p.

(** * Proofs *)

Section Binding.
Context {K : Type} (c : cfg) (E : block_cipher K).
Hypothesis HE : cipher_ok E.

(** Acceptance, in these terms. *)
Theorem C103_accepted_iff : forall {D} bs sc (dl : DeviceLookup D) ds f a s i d put, octets bs ->
  auxiliary_security_header (header f) = Some a -> source (header f) = Some s ->
  cipher_inputs sc (header f) = Some i -> dl SrcAddrMode s ds = DevFound d put ->
  ((exists n, fst (try_read_and_unsecure c E bs (ser_ctx Footer_None sc) dl ds) = Ok (f, n)) <->
   header_decoded (header f) /\ content f = FC_Data /\ footer f = (0, 0) /\
   frame_type (header f) = Data_t /\ version (header f) <> Ieee802154_2003 /\
   authenticated (security_level (control a)) = true /\
   dev_frame_counter d <> 0xFFFFFFFF /\ dev_frame_counter d <= frame_counter a /\
   (frame_counter a = 0xFFFFFFFF -> overflow_checks c = false) /\
   (encrypting (security_level (control a)) = true -> N.of_nat (List.length (payload f)) < 2 ^ 16) /\
   exists r7 rs rest, rs < 8 /\ bs = wire_header LE (native c) r7 rs (header f) ++ rest /\ fits_inputs E i (payload f) rest).
Proof using HE.
  intros D bs sc dl ds f a s i d put Hb Ha Hs Hi Hdl. unfold cipher_inputs in Hi. rewrite Ha in Hi.
  destruct (sc_key_provider sc SrcAddrMode (key_identifier a) (source (header f))) as [[eui key]|] eqn:Hk; [|discriminate].
  injection Hi as <-. cbn [fits_inputs]. split.
  - intros (n & R). destruct (try_read_and_unsecure c E bs (ser_ctx Footer_None sc) dl ds) as [r [[bs' ctx'] ds']] eqn:R'. cbn [fst] in R. subst r.
    apply (C32_accepted_iff c E HE bs _ dl ds f n bs' ctx' ds' a Hb Ha) in R'.
    destruct R' as (sc0 & eui0 & key0 & d0 & put0 & r7 & rs & Esc & _ & Hd & Ec & Ef & A & Hrs & Eb & Hl & Hoc & _).
    injection Esc as <-. destruct A as (_ & Ht & Hv & Hau & Hk0 & (s0 & Hs0 & Hdl0) & Hm & Hle).
    rewrite Hk in Hk0. injection Hk0 as <- <-. rewrite Hs in Hs0. injection Hs0 as <-. rewrite Hdl in Hdl0.
    assert (d0 = d) by congruence. subst d0.
    repeat (split; [first [assumption|reflexivity]|]). do 3 eexists. split; [exact Hrs|]. split; [exact Eb|reflexivity].
  - intros (Hd & Ec & Ef & Ht & Hv & Hau & Hm & Hle & Hoc & Hl & r7 & rs & rest & Hrs & Eb & ->).
    enough (X : exists n bs' ctx' ds', try_read_and_unsecure c E bs (ser_ctx Footer_None sc) dl ds = (Ok (f, n), (bs', ctx', ds')))
      by (destruct X as (n & ? & ? & ? & ->); exists n; reflexivity).
    do 4 eexists. apply (C32_accepted_iff c E HE bs _ dl ds f _ _ _ _ a Hb Ha).
    exists sc, eui, key, d, put, r7, rs.
    repeat (split; [first [reflexivity|assumption]|]).
    split; [|repeat (split; [first [reflexivity|assumption]|]); reflexivity].
    unfold admitted. repeat (split; [assumption|]). split; [eauto|]. auto.
Qed.

(** So whatever else is in the header can be replaced without the key: if a receiver - this one or another, in whatever state - makes the
    same of the new header for the cipher, it accepts the protected octets as they are, with the same payload. *)
Theorem C103_anything_else_may_change : forall {D D2} bs sc (dl : DeviceLookup D) ds f n i, octets bs ->
  fst (try_read_and_unsecure c E bs (ser_ctx Footer_None sc) dl ds) = Ok (f, n) ->
  auxiliary_security_header (header f) <> None -> cipher_inputs sc (header f) = Some i ->
  forall sc2 (dl2 : DeviceLookup D2) ds2 h2 r7 rs s2 d2 put2, header_decoded h2 -> rs < 8 ->
  frame_type h2 = Data_t -> version h2 <> Ieee802154_2003 -> cipher_inputs sc2 h2 = Some i ->
  source h2 = Some s2 -> dl2 SrcAddrMode s2 ds2 = DevFound d2 put2 ->
  dev_frame_counter d2 <> 0xFFFFFFFF -> dev_frame_counter d2 <= counter_in f ->
  exists m, fst (try_read_and_unsecure c E (wire_header LE (native c) r7 rs h2 ++ skipn (header_len (header f)) bs)
    (ser_ctx Footer_None sc2) dl2 ds2)
  = Ok ({| header := h2; content := FC_Data; payload := payload f; footer := (0, 0) |}, m).
Proof using HE.
  intros D D2 bs sc dl ds f n i Hb R Ha Hi sc2 dl2 ds2 h2 r7 rs s2 d2 put2 Hd2 Hrs Ht2 Hv2 Hi2 Hs2 Hdl2 Hm2 Hle2.
  destruct (auxiliary_security_header (header f)) as [a|] eqn:Haux; [clear Ha|now destruct Ha].
  assert (Hin := Hi). unfold cipher_inputs in Hin. rewrite Haux in Hin.
  assert (Hsrc : exists s d put, source (header f) = Some s /\ dl SrcAddrMode s ds = DevFound d put).
  { destruct (try_read_and_unsecure c E bs (ser_ctx Footer_None sc) dl ds) as [r [[b0 c0] d0]] eqn:R'. cbn [fst] in R. subst r.
    apply (C32_accepted_iff c E HE bs _ dl ds f n b0 c0 d0 a Hb Haux) in R'.
    destruct R' as (? & ? & ? & d & put & ? & ? & _ & _ & _ & _ & _ & (_ & _ & _ & _ & _ & (s & X1 & X2) & _) & _). eauto 6. }
  destruct Hsrc as (s & d & put & Hs & Hdl).
  pose proof (proj1 (C103_accepted_iff bs sc dl ds f a s i d put Hb Haux Hs Hi Hdl) (ex_intro _ n R)) as
    (_ & _ & _ & _ & _ & Hau & _ & _ & Hoc & Hl & r7' & rs' & rest & Hrs' & Eb & Fit).
  assert (Sk : skipn (header_len (header f)) bs = rest).
  { rewrite Eb. apply skipn_app_exact'. now rewrite wire_header_length. }
  rewrite Sk. unfold cipher_inputs in Hi2. destruct (auxiliary_security_header h2) as [a2|] eqn:Ha2; [|discriminate].
  assert (Hi2' : cipher_inputs sc2 h2 = Some i) by (unfold cipher_inputs; rewrite Ha2; exact Hi2).
  destruct (sc_key_provider sc SrcAddrMode (key_identifier a) (source (header f))) as [[eui key]|]; [|discriminate].
  destruct (sc_key_provider sc2 SrcAddrMode (key_identifier a2) (source h2)) as [[eui2 key2]|]; [|discriminate].
  assert (Same : frame_counter a2 = frame_counter a /\ security_level (control a2) = security_level (control a)) by (split; congruence).
  destruct Same as (Sc & Sl). unfold counter_in in Hle2. rewrite Haux in Hle2.
  apply (C103_accepted_iff _ sc2 dl2 ds2 {| header := h2; content := FC_Data; payload := payload f; footer := (0, 0) |} a2 s2 i d2 put2);
    cbn [header payload content footer]; try assumption.
  - apply octets_app. split; [apply octets_wire_header; [exact Hrs|apply Hd2]|]. rewrite <- Sk. now apply octets_skipn.
  - rewrite Sc, Sl. repeat (split; [first [reflexivity|assumption]|]). exists r7, rs, rest. auto.
Qed.

(** And nothing of that can: if the same protected octets are accepted with two headers, they are the payload and tag for both; if the receivers
    make the same of the headers for the cipher, the payloads are the same. *)
Theorem C103_same_octets_two_headers : forall {D1 D2} bs1 bs2 sc1 sc2 (dl1 : DeviceLookup D1) (dl2 : DeviceLookup D2) ds1 ds2 f g n m i j,
  octets bs1 -> octets bs2 ->
  fst (try_read_and_unsecure c E bs1 (ser_ctx Footer_None sc1) dl1 ds1) = Ok (f, n) ->
  fst (try_read_and_unsecure c E bs2 (ser_ctx Footer_None sc2) dl2 ds2) = Ok (g, m) ->
  cipher_inputs sc1 (header f) = Some i -> cipher_inputs sc2 (header g) = Some j ->
  skipn (header_len (header f)) bs1 = skipn (header_len (header g)) bs2 ->
  (exists rest, fits_inputs E i (payload f) rest /\ fits_inputs E j (payload g) rest) /\
  (i = j -> payload f = payload g).
Proof using HE.
  assert (One : forall D bs sc (dl : DeviceLookup D) ds f n i, octets bs ->
    fst (try_read_and_unsecure c E bs (ser_ctx Footer_None sc) dl ds) = Ok (f, n) -> cipher_inputs sc (header f) = Some i ->
    fits_inputs E i (payload f) (skipn (header_len (header f)) bs)).
  { intros D bs sc dl ds f n i Hb R Hi.
    assert (Hi' := Hi). unfold cipher_inputs in Hi'. destruct (auxiliary_security_header (header f)) as [a|] eqn:Ha; [|discriminate]. clear Hi'.
    destruct (try_read_and_unsecure c E bs (ser_ctx Footer_None sc) dl ds) as [r [[b0 c0] d0]] eqn:R'. cbn [fst] in R. subst r.
    apply (C32_accepted_iff c E HE bs _ dl ds f n b0 c0 d0 a Hb Ha) in R'.
    destruct R' as (sc0 & eui & key & d & put & r7 & rs & Esc & _ & Hd & Ec & Ef & A & Hrs & Eb & _).
    injection Esc as <-. destruct A as (_ & _ & _ & _ & Hk & _). unfold cipher_inputs in Hi. rewrite Ha, Hk in Hi. injection Hi as <-.
    cbn [fits_inputs]. rewrite Eb. apply skipn_app_exact'. now rewrite wire_header_length. }
  intros D1 D2 bs1 bs2 sc1 sc2 dl1 dl2 ds1 ds2 f g n m i j H1 H2 R1 R2 Hi Hj Sk.
  pose proof (One _ _ _ _ _ _ _ _ H1 R1 Hi) as F1. pose proof (One _ _ _ _ _ _ _ _ H2 R2 Hj) as F2. rewrite Sk in F1.
  split; [eauto|]. intros <-. destruct i as [[[key eui] fc] l]. cbn [fits_inputs] in F1, F2. rewrite F1 in F2.
  assert (L : List.length (payload f) = List.length (payload g)).
  { apply (f_equal (@List.length N)) in F2. rewrite !app_length, !secured_payload_length, !secured_tag_length in F2. lia. }
  apply app_same_length in F2; [|now rewrite !secured_payload_length]. destruct F2 as (F2 & _).
  apply (f_equal (secured_payload E key l eui fc)) in F2. now rewrite !secured_payload_involutive in F2.
Qed.
End Binding.

(** * Concrete cases *)

(** A frame with another key index, sequence number, destination, acknowledge request - and, in turn, with another frame counter, level
    and source address. *)
Definition altered (bs : list N) (index counter : N) (l : SecurityLevel) (src : N) : list N :=
  match try_read_header host bs with
  | Ok (h, k) =>
      wire_header LE LE false 0
        {| frame_type := frame_type h; frame_pending := frame_pending h; ack_request := negb (ack_request h);
           pan_id_compress := false; seq_no_suppress := seq_no_suppress h; ie_present := ie_present h;
           version := version h; seq := 77; destination := Some (Short 0x222 9); source := Some (Extended 0x111 src);
           auxiliary_security_header :=
             match auxiliary_security_header h with
             | Some a => Some {| control := {| security_level := l; key_id_mode := key_id_mode (control a) |}; frame_counter := counter;
                                 key_identifier := Some {| key_source := None; key_index := index |} |}
             | None => None
             end |}
      ++ skipn k bs
  | _ => []
  end.
Definition altered_bytes (p : N * N * SecurityLevel * N) : list N :=
  let '(index, counter, l, src) := p in altered (sent_bytes 0) index counter l src.
(** The level of the frame is MIC32, its counter 41, its key index 3, its source 1. *)
Definition alterations : list (N * N * SecurityLevel * N) :=
  [(3, 41, SL_MIC32, 1); (200, 41, SL_MIC32, 1); (3, 42, SL_MIC32, 1); (3, 41, SL_ENCMIC32, 1); (3, 41, SL_MIC32, 5)].
Example which_alterations_are_accepted :
  Forall (fun p => octets (altered_bytes p)) alterations /\
  map (fun p => match fst (try_read_and_unsecure host aes_cipher (altered_bytes p) (aes_ctx 7 0) (known_lookup [5; 1]) two_devices) with
                | Ok (f, _) => Ok (payload f, seq (header f), destination (header f)) | Err e => Err e | Panic => Panic end) alterations
  = [Ok ([1;2;3], 77, Some (Short 0x222 9)); Ok ([1;2;3], 77, Some (Short 0x222 9)); Err TransformationError; Err TransformationError;
     Err TransformationError].
Proof.
  split.
  - assert (F : forallb (fun p => forallb (fun b => b <? 256) (altered_bytes p)) alterations = true) by (vm_compute; reflexivity).
    rewrite forallb_forall in F. apply Forall_forall. intros p Hp. specialize (F p Hp). rewrite forallb_forall in F.
    apply Forall_forall. intros b Hb. apply N.ltb_lt. now apply F.
  - vm_compute. reflexivity.
Qed.
(** Its hypotheses: the receiver makes the same of the first two headers for the cipher, and something else of the others. *)
Definition inputs_of (bs : list N) : option (list N * N * N * SecurityLevel) :=
  match try_read_header host bs with
  | Ok (h, _) => cipher_inputs (SecurityContext_new 7 0 static_key_lookup) h
  | _ => None
  end.
Example inputs_of_the_alterations :
  inputs_of (sent_bytes 0) = Some (repeat 0 16, 1, 41, SL_MIC32) /\
  map (fun p => inputs_of (altered_bytes p)) alterations
  = map Some [(repeat 0 16, 1, 41, SL_MIC32); (repeat 0 16, 1, 41, SL_MIC32); (repeat 0 16, 1, 42, SL_MIC32);
              (repeat 0 16, 1, 41, SL_ENCMIC32); (repeat 0 16, 5, 41, SL_MIC32)].
Proof. split; vm_compute; reflexivity. Qed.

Print Assumptions C103_accepted_iff.
Print Assumptions C103_anything_else_may_change.
Print Assumptions C103_same_octets_two_headers.
Print Assumptions which_alterations_are_accepted.
Print Assumptions inputs_of_the_alterations.
