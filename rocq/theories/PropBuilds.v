(** C102: builds with and without overflow checks. *)
From Coq Require Import List Arith NArith ZArith Bool String Lia Sorting.Sorted ZifyBool ZifyNat ZifyN.
From Verif Require Import ByteCrate Types HeaderModel BeaconModel CommandModel CcmModel FrameModel
  Spec ProofLib HeaderProofs HeaderReadProofs FrameProofs RepoTests Aes128 CcmProofs
  SecSpec SecureProofs PropFrame PropSecure PropReceive HistorySpec PropHistory PropNetwork PropStream WriteSpec PropWrite.
Import ListNotations.
Open Scope N_scope.
Open Scope list_scope.

(** * Specification *)

(** The same program for the same machine, with ([true]) and without ([false]) checks for overflow. *)
Definition build (checks : bool) (c : cfg) : cfg :=
  {| overflow_checks := checks; native := native c; usize_bits := usize_bits c |}.
(** Nothing with the last frame counter was accepted. *)
Definition no_last_accepted {K} (log : list (received K)) : Prop :=
  forall f n, In (Ok (f, n)) (map r_result log) -> counter_in f <> 0xFFFFFFFF.

(** * Proofs *)

Section Builds.
Context (c : cfg).
Hypothesis Hc : cfg_ok c.

(** Reading a frame: where the build with checks panics the other returns [Incomplete]; otherwise they do the same. *)
Theorem C102_reading : forall m bs, octets bs ->
  try_read_frame (build false c) m bs
  = match try_read_frame (build true c) m bs with Panic => Err Incomplete | r => r end.
Proof using Hc.
  intros m bs Hb. pose proof (C23_never_panics_without_footer (build true c) bs Hb Hc) as NP.
  rewrite (try_read_frame_eq (build true c) Footer_None bs Hb Hc) in NP.
  rewrite (try_read_frame_eq (build false c) m bs Hb Hc), (try_read_frame_eq (build true c) m bs Hb Hc).
  rewrite (C67_header_host_independent (build false c) (build true c) bs Hb (or_introl eq_refl)).
  destruct (try_read_header (build true c) bs) as [[h n1]|e|]; [|reflexivity|now destruct NP].
  destruct (try_read_content h (skipn n1 bs)) as [[ct n2]|e|]; [|reflexivity|now destruct NP].
  destruct (has_security h); [reflexivity|]. unfold frame_rest. destruct m; [reflexivity|].
  destruct (_ <? 2)%nat; reflexivity.
Qed.

(** Writing: the builds do the same. *)
Theorem C102_writing : forall K (E : block_cipher K) f ctx buf, cipher_ok E -> frame_ok f -> ctx_ok ctx ->
  try_write_frame (build false c) E f ctx buf = try_write_frame (build true c) E f ctx buf.
Proof using Type. intros K E f ctx buf HE Hf Hctx. apply C41_write_same_on_hosts; try assumption. now left. Qed.

(** Any history of writes: the same results, buffers and counters. *)
Theorem C102_writing_history : forall K (E : block_cipher K) calls (sc : SecurityContext K), cipher_ok E -> calls_ok calls ->
  u32_ok (sc_frame_counter sc) -> send_all (build false c) E sc calls = send_all (build true c) E sc calls.
Proof using Type.
  intros K E calls sc HE. revert sc. induction calls as [|x rest IH]; intros sc Ho Hu; [reflexivity|].
  inversion Ho as [|? ? Hx Hr]; subst. cbn [send_all].
  rewrite (C102_writing K E (c_frame x) (ser_ctx (c_mode x) sc) (c_buffer x) HE Hx Hu).
  destruct (write_context (build true c) E HE (c_frame x) (c_mode x) sc (c_buffer x) Hx Hu) as (n & Ec & Hn & _).
  destruct (try_write_frame (build true c) E (c_frame x) (ser_ctx (c_mode x) sc) (c_buffer x)) as [r [ctx buf]].
  cbn [fst snd] in Ec. subst ctx. cbn [ser_ctx security_ctx]. rewrite (IH (at_counter sc n) Hr Hn). reflexivity.
Qed.

Section Receiving.
Context {K D : Type} (E : block_cipher K).
Hypothesis HE : cipher_ok E.
Variable dl : DeviceLookup D.

(** Receiving: the builds do the same - result, buffer, context and device store - unless the build with checks panics where
    the other accepts a frame with the last counter and stores 0 for its device. *)
Theorem C102_receiving : forall bs ctx ds, octets bs ->
  let unchecked := try_read_and_unsecure (build false c) E bs ctx dl ds in
  let checked := try_read_and_unsecure (build true c) E bs ctx dl ds in
  unchecked = checked \/
  (fst checked = Panic /\ fst (snd unchecked) = fst (snd checked) /\
   exists f n s d put, fst unchecked = Ok (f, n) /\ counter_in f = 0xFFFFFFFF /\
     source (header f) = Some s /\ dl SrcAddrMode s ds = DevFound d put /\
     snd (snd checked) = put d /\ snd (snd unchecked) = put {| dev_frame_counter := 0; dev_exempt := dev_exempt d |}).
Proof using Hc HE.
  intros bs ctx ds Hb. cbv zeta.
  rewrite (C64_receive_exact (build false c) E HE bs ctx dl ds Hb Hc), (C64_receive_exact (build true c) E HE bs ctx dl ds Hb Hc).
  rewrite (C67_header_host_independent (build false c) (build true c) bs Hb (or_introl eq_refl)).
  destruct (try_read_header (build true c) bs) as [[h n1]|e|]; [|now left|now left].
  destruct (try_read_content h (skipn n1 bs)) as [[ct n2]|e|]; [|now left|now left].
  destruct (auxiliary_security_header h) as [a|] eqn:Ha; [|now left].
  destruct (security_ctx ctx) as [sc|]; [|now left]. destruct (footer_mode ctx); [|now left].
  cbn [build overflow_checks]. generalize (skipn (n1 + n2) bs). intros rest.
  unfold receive.
  destruct (negb (is_data h)); [now left|].
  destruct (match version h with Ieee802154_2003 => true | _ => false end); [now left|].
  destruct (level_is_none _); [now left|].
  destruct (sc_key_provider sc SrcAddrMode (key_identifier a) (source h)) as [[eui key]|]; [|now left].
  destruct (source h) as [s|] eqn:Hs; [|now left].
  destruct (dl SrcAddrMode s ds) as [ds'|d put] eqn:Hd; [now left|].
  destruct (_ || _); [now left|].
  destruct (level_is_enc _); [now left|].
  destruct (_ <? _)%nat; [now left|].
  destruct (_ && _); [|now left].
  destruct (N.eqb_spec (frame_counter a) last_counter) as [X|X]; [|now left].
  right. cbn [fst snd]. split; [reflexivity|]. split; [reflexivity|].
  do 2 eexists. exists s, d, put. split; [reflexivity|]. unfold counter_in. cbn [header]. rewrite Ha. auto.
Qed.

Corollary C102_receiving_without_panic : forall bs ctx ds, octets bs ->
  fst (try_read_and_unsecure (build true c) E bs ctx dl ds) <> Panic ->
  try_read_and_unsecure (build false c) E bs ctx dl ds = try_read_and_unsecure (build true c) E bs ctx dl ds.
Proof using Hc HE. intros bs ctx ds Hb NP. destruct (C102_receiving bs ctx ds Hb) as [X|(X & _)]; [exact X|contradiction]. Qed.

(** Any history of receptions in which the build without checks accepts nothing with the last counter, or the build with
    checks never panics, is the same in both: what was tested with checks holds without. *)
Theorem C102_receiving_history : forall (arrivals : list (arrival K)) ds, arrivals_ok arrivals ->
  no_last_accepted (fst (receive_all (build false c) E dl ds arrivals)) \/
  ~ In Panic (map r_result (fst (receive_all (build true c) E dl ds arrivals))) ->
  receive_all (build false c) E dl ds arrivals = receive_all (build true c) E dl ds arrivals.
Proof using Hc HE.
  induction arrivals as [|y rest IH]; intros ds Ho H; [reflexivity|]. inversion Ho as [|? ? Hb Ho']; subst.
  cbn [receive_all] in *. destruct (C102_receiving (a_bytes y) (a_ctx y) ds Hb) as [X|(X1 & _ & f & n & s & d & put & X2 & X3 & _)].
  - rewrite X in *. destruct (try_read_and_unsecure (build true c) E (a_bytes y) (a_ctx y) dl ds) as [r [[b1 c1] ds1]].
    rewrite (IH ds1 Ho'); [reflexivity|]. destruct H as [H|H].
    + left. intros f n Hin. apply (H f n). destruct (receive_all (build false c) E dl ds1 rest) as [l z]. right. exact Hin.
    + right. intros Hin. apply H. destruct (receive_all (build true c) E dl ds1 rest) as [l z]. right. exact Hin.
  - exfalso. destruct (try_read_and_unsecure (build true c) E (a_bytes y) (a_ctx y) dl ds) as [r [[b1 c1] ds1]].
    destruct (try_read_and_unsecure (build false c) E (a_bytes y) (a_ctx y) dl ds) as [r2 [[b2 c2] ds2]]. cbn [fst] in X1, X2. subst r r2.
    destruct (receive_all (build false c) E dl ds2 rest) as [l z]. destruct (receive_all (build true c) E dl ds1 rest) as [l2 z2].
    destruct H as [H|H]; [exact (H f n (or_introl eq_refl) X3)|]. apply H. now left.
Qed.
End Receiving.
End Builds.

(** * Concrete cases *)

(** The arrivals of C43's history, the same in both builds; and the last counter, not. *)
Example builds_agree :
  build true host = host /\ build false host = release /\ arrivals_ok some_arrivals /\ calls_ok some_calls /\ cfg_ok host /\
  existsb (fun r => match r with Panic => true | _ => false end) (map r_result (fst some_receptions)) = false /\
  existsb (fun r => match r with Ok _ => true | _ => false end) (map r_result (fst some_receptions)) = true.
Proof.
  split; [reflexivity|]. split; [reflexivity|]. split; [apply arrivals_octets; vm_compute; reflexivity|].
  split; [exact some_calls_ok|]. split; [vm_compute; discriminate|]. split; vm_compute; reflexivity.
Qed.
Theorem C102_same_history_refuted : exists (arrivals : list (arrival (list N))) (ds : known [1]), arrivals_ok arrivals /\
  map r_result (fst (receive_all (build false host) aes_cipher (known_lookup [1]) ds arrivals))
  <> map r_result (fst (receive_all (build true host) aes_cipher (known_lookup [1]) ds arrivals)).
Proof.
  exists [arrives last_bytes], (one_device 46). split; [apply arrivals_octets; vm_compute; reflexivity|].
  assert (X : map (fun b => map (fun r => match r with Panic => true | _ => false end)
      (map r_result (fst (receive_all (build b host) aes_cipher (known_lookup [1]) (one_device 46) [arrives last_bytes])))) [false; true]
    = [[false]; [true]]) by (vm_compute; reflexivity).
  intros Z. cbn [map] in X. rewrite Z in X. 
  assert (Y : forall (u : list bool), [u; u] <> [[false]; [true]]) by (intros u Y; injection Y as -> Y; discriminate Y).
  exact (Y _ X).
Qed.
Example reading_cases :
  map (fun b => try_read_frame (build b host) Footer_Explicit [2; 0; 7; 5]) [true; false] = [Panic; Err Incomplete] /\
  map (fun b => try_read_frame (build b host) Footer_Explicit [2; 0; 7]) [true; false] = [Panic; Err Incomplete] /\
  octets [2; 0; 7; 5].
Proof. split; [vm_compute; reflexivity|]. split; [vm_compute; reflexivity|]. repeat constructor. Qed.

Print Assumptions C102_reading.
Print Assumptions C102_writing.
Print Assumptions C102_writing_history.
Print Assumptions C102_receiving.
Print Assumptions C102_receiving_without_panic.
Print Assumptions C102_receiving_history.
Print Assumptions builds_agree.
Print Assumptions C102_same_history_refuted.
Print Assumptions reading_cases.
