(** C97: devices with more than one address. *)
From Coq Require Import List Arith NArith ZArith Bool String Lia ZifyBool ZifyNat ZifyN Sorting.Sorted.
From Verif Require Import ByteCrate Types HeaderModel BeaconModel CommandModel CcmModel FrameModel
  Spec SecSpec HistorySpec ProofLib HeaderProofs HeaderReadProofs BeaconProofs CommandProofs FrameProofs CcmProofs
  SecureProofs RepoTests Aes128 AesProofs PropHeader PropContent PropFrame PropSecure PropReceive PropHistory.
Import ListNotations.
Open Scope N_scope.
Open Scope list_scope.
Ltac Zify.zify_post_hook ::= Z.div_mod_to_equations.

(** * Specification *)

(** Whose secured frame a reception accepted, and its frame counter: the EUI-64 is the one the key provider
    gives for the source address in the frame. Nothing if no secured frame was accepted. *)
Definition whose {K} (e : received K) : list (N * N) :=
  match r_result e, security_ctx (a_ctx (r_arrival e)) with
  | Ok (f, _), Some sc =>
      match auxiliary_security_header (header f) with
      | Some a =>
          match sc_key_provider sc SrcAddrMode (key_identifier a) (source (header f)) with
          | Some (eui, _) => [(eui, frame_counter a)]
          | None => []
          end
      | None => []
      end
  | _, _ => []
  end.

(** Every address the key provider knows under one EUI-64 stands for one descriptor in the device store. *)
Definition one_descriptor_each {K} (resolve : Address -> option N) (arrivals : list (arrival K)) : Prop :=
  exists owner : N -> N, forall x sc kid s eui key i,
    In x arrivals -> security_ctx (a_ctx x) = Some sc ->
    sc_key_provider sc SrcAddrMode kid (Some s) = Some (eui, key) -> resolve s = Some i -> i = owner eui.

(** * Proofs *)

Section Alias.
Context {K D : Type} (c : cfg) (E : block_cipher K).
Hypothesis HE : cipher_ok E.

(** A frame once accepted is accepted with any other source address behind which the receiver finds the
    same EUI-64 and key, and a descriptor that is not beyond the frame - whatever happened to the store
    in between. Only the header is altered; it takes no key. *)
Theorem C97_other_address_accepted : forall bs sc (dl : DeviceLookup D) ds f n bs' ctx' ds' a, octets bs ->
  try_read_and_unsecure c E bs (ser_ctx Footer_None sc) dl ds = (Ok (f, n), (bs', ctx', ds')) ->
  auxiliary_security_header (header f) = Some a ->
  forall ds2 h2 s2 eui key d2 put2 r7 rs, header_decoded h2 -> rs < 8 ->
  frame_type h2 = Data_t -> version h2 <> Ieee802154_2003 -> auxiliary_security_header h2 = Some a ->
  source h2 = Some s2 ->
  sc_key_provider sc SrcAddrMode (key_identifier a) (source (header f)) = Some (eui, key) ->
  sc_key_provider sc SrcAddrMode (key_identifier a) (Some s2) = Some (eui, key) ->
  dl SrcAddrMode s2 ds2 = DevFound d2 put2 ->
  dev_frame_counter d2 <> 0xFFFFFFFF -> dev_frame_counter d2 <= frame_counter a ->
  exists bs2',
  try_read_and_unsecure c E (wire_header LE (native c) r7 rs h2 ++ skipn (header_len (header f)) bs)
    (ser_ctx Footer_None sc) dl ds2
  = (Ok ({| header := h2; content := FC_Data; payload := payload f; footer := (0, 0) |},
         (header_len h2 + List.length (payload f))%nat),
     (bs2', ser_ctx Footer_None sc,
      put2 {| dev_frame_counter := (frame_counter a + 1) mod 2 ^ 32; dev_exempt := dev_exempt d2 |})).
Proof.
  intros bs sc dl ds f n bs' ctx' ds' a Hb R Ha ds2 h2 s2 eui key d2 put2 r7 rs Hd2 Hrs Ht2 Hv2 Ha2 Hs2 Hk Hk2 Hdl2 Hm2 Hc2.
  apply (C32_accepted_iff c E HE bs _ dl ds f n bs' ctx' ds' a Hb Ha) in R.
  destruct R as (sc0 & eui0 & key0 & d & put & r7' & rs' & Esc & -> & Hd & Ec & Ef & A & Hrs' & Eb & Hl & Hoc & -> & _ & ->).
  injection Esc as <-.
  destruct A as (_ & Ht & Hv & Hau & Hk0 & (s & Hs & Hdl) & Hm & Hc). rewrite Hk in Hk0. injection Hk0 as <- <-.
  assert (Sk : skipn (header_len (header f)) bs
      = secured_payload E key (security_level (control a)) eui (frame_counter a) (payload f)
        ++ secured_tag E key (security_level (control a)) eui (frame_counter a) (payload f)).
  { rewrite Eb. apply skipn_app_exact'. now rewrite wire_header_length. }
  assert (Fc : counter_after (frame_counter a) = (frame_counter a + 1) mod 2 ^ 32).
  { destruct Hd2 as ((_ & _ & _ & X) & _). rewrite Ha2 in X. destruct X as (X & _).
    unfold counter_after. unfold u32_ok in X. change last_counter with 4294967295.
    change (2 ^ 32) with 4294967296 in *. destruct (frame_counter a =? 4294967295) eqn:Q; lia. }
  rewrite Sk. eexists.
  eapply (C32_accepted_iff c E HE _ (ser_ctx Footer_None sc) dl ds2
    {| header := h2; content := FC_Data; payload := payload f; footer := (0, 0) |}); cbn [header payload].
  - apply octets_app. split; [apply octets_wire_header; [exact Hrs|apply Hd2]|].
    rewrite <- Sk. now apply octets_skipn.
  - exact Ha2.
  - exists sc, eui, key, d2, put2, r7, rs. cbn [header payload content footer]. rewrite <- Fc.
    repeat (split; [first [reflexivity|assumption]|]).
    split; [|repeat (split; [first [reflexivity|assumption]|]); reflexivity].
    unfold admitted. rewrite Hs2. repeat (split; [first [reflexivity|assumption]|]). eauto.
Qed.

Variables (dl : DeviceLookup D) (resolve : Address -> option N) (get : D -> N -> DeviceDescriptor).
Hypothesis Hstore : device_store dl resolve get.

Lemma received_from arrivals : forall ds log ds', receive_all c E dl ds arrivals = (log, ds') ->
  map r_arrival log = arrivals /\
  Forall (fun e => exists ds1, fst (try_read_and_unsecure c E (a_bytes (r_arrival e)) (a_ctx (r_arrival e)) dl ds1) = r_result e) log.
Proof.
  induction arrivals as [|x rest IH]; intros ds log ds' R; cbn [receive_all] in R.
  - injection R as <- <-. split; [reflexivity|constructor].
  - destruct (try_read_and_unsecure c E (a_bytes x) (a_ctx x) dl ds) as [r [[b k] ds1]] eqn:R1.
    destruct (receive_all c E dl ds1 rest) as [log2 ds2] eqn:S. injection R as <- <-.
    destruct (IH _ _ _ S) as [I1 I2]. split; [cbn [map r_arrival]; now rewrite I1|]. constructor; [|exact I2].
    exists ds. cbn [r_arrival r_result]. now rewrite R1.
Qed.

(** As long as all addresses of a device lead to one descriptor, no frame counter is accepted twice for it,
    whatever addresses frames arrive under, and whatever else was done to their headers. *)
Theorem C97_once_per_sender : forall arrivals ds log ds', arrivals_ok arrivals ->
  one_descriptor_each resolve arrivals ->
  receive_all c E dl ds arrivals = (log, ds') ->
  overflow_checks c = true \/ Forall (fun p => snd p <> 0xFFFFFFFF) (flat_map whose log) ->
  NoDup (flat_map whose log).
Proof.
  intros arrivals ds log ds' Ho (owner & Hown) R Hcond.
  destruct (received_from arrivals ds log ds' R) as [E1 E2].
  (* what is in [whose e] is accepted for the owner *)
  assert (W : forall e p, In e log -> In p (whose e) ->
            exists f, accepted_for resolve (owner (fst p)) e = Some f /\ counter_in f = snd p).
  { intros e p He Hp. rewrite Forall_forall in E2. destruct (E2 e He) as [ds1 R1].
    assert (Ix : In (r_arrival e) arrivals) by (rewrite <- E1; now apply in_map).
    unfold whose in Hp. unfold accepted_for.
    destruct (r_result e) as [[f n]|x|] eqn:Er; try now destruct Hp.
    destruct (security_ctx (a_ctx (r_arrival e))) as [sc|] eqn:Es; [|now destruct Hp].
    destruct (auxiliary_security_header (header f)) as [a|] eqn:Ha; [|now destruct Hp].
    destruct (sc_key_provider sc SrcAddrMode (key_identifier a) (source (header f))) as [[eui key]|] eqn:Hk; [|now destruct Hp].
    destruct Hp as [<-|[]]. cbn [fst snd].
    destruct (try_read_and_unsecure c E (a_bytes (r_arrival e)) (a_ctx (r_arrival e)) dl ds1) as [r [[b k] d2]] eqn:R2.
    cbn [fst] in R1. subst r.
    assert (Hb : octets (a_bytes (r_arrival e))) by (unfold arrivals_ok in Ho; rewrite Forall_forall in Ho; now apply Ho).
    apply (C32_accepted_iff c E HE _ _ dl ds1 f n b k d2 a Hb Ha) in R2.
    destruct R2 as (sc0 & eui0 & key0 & d & put & r7' & rs' & Esc & _ & _ & _ & _ & A & _).
    destruct A as (_ & _ & _ & _ & Hk0 & (s & Hs & Hdl) & _).
    rewrite Esc in Es. cbn [ser_ctx security_ctx] in Es. injection Es as <-.
    rewrite Hs in *. pose proof (Hstore s ds1) as X.
    destruct (resolve s) as [i|] eqn:Hr; [|rewrite Hdl in X; discriminate].
    assert (i = owner eui).
    { apply (Hown (r_arrival e) sc0 (key_identifier a) s eui key i); try assumption.
      rewrite Esc. reflexivity. }
    subst i. rewrite N.eqb_refl. exists f. split; [reflexivity|]. unfold counter_in. now rewrite Ha. }
  (* what is accepted for a descriptor is in [whose] of something *)
  assert (V : forall x fc, In fc (counters (accepted resolve x log)) -> exists p, In p (flat_map whose log) /\ snd p = fc).
  { intros x fc Hf. unfold counters in Hf. apply in_map_iff in Hf. destruct Hf as ([bs f] & <- & Hf).
    unfold accepted in Hf. apply in_flat_map in Hf. destruct Hf as (e & He & Hf).
    destruct (accepted_for resolve x e) as [f'|] eqn:Ea; [|destruct Hf]. destruct Hf as [Hf|[]]. injection Hf as <- <-.
    unfold accepted_for in Ea.
    rewrite Forall_forall in E2. destruct (E2 e He) as [ds1 R1].
    assert (Ix : In (r_arrival e) arrivals) by (rewrite <- E1; now apply in_map).
    destruct (r_result e) as [[f n]|y|] eqn:Er; try discriminate.
    destruct (auxiliary_security_header (header f)) as [a|] eqn:Ha; [|discriminate].
    destruct (source (header f)) as [s|] eqn:Hs; [|discriminate].
    destruct (resolve s) as [i|]; [|discriminate]. destruct (i =? x); [|discriminate]. injection Ea as <-.
    destruct (try_read_and_unsecure c E (a_bytes (r_arrival e)) (a_ctx (r_arrival e)) dl ds1) as [r [[b k] d2]] eqn:R2.
    cbn [fst] in R1. subst r.
    assert (Hb : octets (a_bytes (r_arrival e))) by (unfold arrivals_ok in Ho; rewrite Forall_forall in Ho; now apply Ho).
    apply (C32_accepted_iff c E HE _ _ dl ds1 f n b k d2 a Hb Ha) in R2.
    destruct R2 as (sc0 & eui0 & key0 & d & put & r7' & rs' & Esc & _ & _ & _ & _ & A & _).
    destruct A as (_ & _ & _ & _ & Hk0 & _).
    exists (eui0, frame_counter a). split; [|cbn; unfold counter_in; now rewrite Ha].
    apply in_flat_map. exists e. split; [exact He|]. unfold whose. rewrite Er, Esc. cbn [ser_ctx security_ctx].
    rewrite Ha, Hk0. now left. }
  assert (U : forall x, NoDup (counters (accepted resolve x log))).
  { intros x.
    destruct (C34_accepted_counters_increase c E HE dl resolve get Hstore arrivals ds log ds' x Ho R) as (S & _).
    { destruct Hcond as [Hc|Hc]; [now left|right]. apply Forall_forall. intros fc Hf.
      destruct (V x fc Hf) as (p & Hp & <-). rewrite Forall_forall in Hc. now apply Hc. }
    clear - S. induction S as [|y l S IH Hy]; constructor; [|exact IH].
    intros Hin. rewrite Forall_forall in Hy. specialize (Hy y Hin). lia. }
  clear R Hcond E1 E2 V. induction log as [|e log IH]; [constructor|].
  assert (U' : forall x, counters (accepted resolve x (e :: log))
             = match accepted_for resolve x e with Some f => [counter_in f] | None => [] end ++ counters (accepted resolve x log)).
  { intros x. unfold accepted, counters. cbn [flat_map]. rewrite map_app. f_equal.
    now destruct (accepted_for resolve x e). }
  assert (IHl : NoDup (flat_map whose log)).
  { apply IH.
    - intros e0 p He. apply W. now right.
    - intros x. specialize (U x). rewrite U' in U. destruct (accepted_for resolve x e); [|exact U]. now inversion U. }
  cbn [flat_map].
  assert (S : whose e = [] \/ exists p, whose e = [p]).
  { unfold whose. destruct (r_result e) as [[f n]|x|]; auto.
    destruct (security_ctx (a_ctx (r_arrival e))) as [sc|]; auto.
    destruct (auxiliary_security_header (header f)) as [a|]; auto.
    destruct (sc_key_provider sc SrcAddrMode (key_identifier a) (source (header f))) as [[eui key]|]; eauto. }
  destruct S as [->|[p Ep]]; [exact IHl|]. rewrite Ep. cbn [app]. constructor; [|exact IHl].
  intros Hin. apply in_flat_map in Hin. destruct Hin as (e2 & He2 & Hp2).
  destruct (W e p (or_introl eq_refl)) as (f & Hf & Cf); [rewrite Ep; now left|].
  destruct (W e2 p (or_intror He2) Hp2) as (f2 & Hf2 & Cf2).
  specialize (U (owner (fst p))). rewrite U', Hf in U. cbn [app] in U. inversion U as [|? ? Hn _]; subst.
  apply Hn. rewrite Cf, <- Cf2. unfold counters. apply in_map_iff. exists (a_bytes (r_arrival e2), f2).
  split; [reflexivity|]. unfold accepted. apply in_flat_map. exists e2. split; [exact He2|]. rewrite Hf2. now left.
Qed.

End Alias.

(** ** Concrete cases *)

(** A device known under an extended and a short address, both with its EUI-64 and key; the receiver has a
    descriptor for each ([apart]), or one for both. *)
Definition both_addresses : KeyLookup (list N) := fun _ _ a =>
  match a with
  | Some (Extended _ 1) => Some (1, repeat 0 16)
  | Some (Short _ 5) => Some (1, repeat 0 16)
  | _ => None
  end.
Definition both_ctx : FrameSerDesContext (list N) := ser_ctx Footer_None (SecurityContext_new 7 0 both_addresses).
Definition two_entries : Type := DeviceDescriptor * DeviceDescriptor.
Definition resolve_both (apart : bool) (a : Address) : option N :=
  match a with
  | Extended _ 1 => Some 0
  | Short _ 5 => Some (if apart then 1 else 0)
  | _ => None
  end.
Definition entry (ds : two_entries) (i : N) : DeviceDescriptor :=
  match i with 0 => fst ds | 1 => snd ds | _ => dev 0 end.
Definition entries_lookup (apart : bool) : DeviceLookup two_entries := fun _ a ds =>
  match resolve_both apart a with
  | Some 0 => DevFound (fst ds) (fun d => (d, snd ds))
  | Some _ => DevFound (snd ds) (fun d => (fst ds, d))
  | None => DevMissing ds
  end.

Lemma entries_are_a_store apart : device_store (entries_lookup apart) (resolve_both apart) entry.
Proof.
  intros a [d0 d1]. unfold entries_lookup.
  destruct (resolve_both apart a) as [i|] eqn:R; [|reflexivity].
  assert (I : i = 0 \/ i = 1).
  { unfold resolve_both in R. destruct a as [p x|p x].
    - destruct x as [|x]; [discriminate|]. destruct x as [[x|x|]|[x|x|]|]; try discriminate.
      all: try (destruct x; try discriminate). destruct apart; injection R; auto.
    - destruct x as [|x]; [discriminate|]. destruct x; try discriminate. injection R; auto. }
  destruct I as [->| ->]; cbn [fst snd].
  - exists (fun d => (d, d1)). split; [reflexivity|]. split; [reflexivity|]. split; [reflexivity|].
    intros d j Hj. unfold entry. destruct j as [|j]; [congruence|]. reflexivity.
  - exists (fun d => (d0, d)). split; [reflexivity|]. split; [reflexivity|]. split; [reflexivity|].
    intros d j Hj. unfold entry. destruct j as [|j]; [reflexivity|]. destruct j; congruence.
Qed.

(** A frame of the device, and the same with the short address in place of the extended one. *)
Definition readdressed (bs : list N) : list N :=
  match try_read_header host bs with
  | Ok (h, k) =>
      wire_header LE LE false 0
        {| frame_type := frame_type h; frame_pending := frame_pending h; ack_request := ack_request h;
           pan_id_compress := pan_id_compress h; seq_no_suppress := seq_no_suppress h; ie_present := ie_present h;
           version := version h; seq := seq h; destination := destination h;
           source := Some (Short 0x111 5); auxiliary_security_header := auxiliary_security_header h |}
      ++ skipn k bs
  | _ => []
  end.
Definition under_both : list (arrival (list N)) :=
  map (fun bs => {| a_ctx := both_ctx; a_bytes := bs |}) [doc_bytes; readdressed doc_bytes; doc_bytes].

(** With a descriptor for each address a frame is accepted once under each; with one for both it is not. *)
Theorem C97_two_descriptors_refuted :
  arrivals_ok under_both /\ device_store (entries_lookup true) (resolve_both true) entry /\
  (let '(log, _) := receive_all host aes_cipher (entries_lookup true) (dev 0, dev 0) under_both in
   ~ NoDup (flat_map whose log) /\
   map (fun e => match r_result e with Ok (f, _) => Some (payload f, source (header f)) | _ => None end) log
   = [Some ([0; 1; 2; 3; 4], Some (Extended 0x111 1)); Some ([0; 1; 2; 3; 4], Some (Short 0x111 5)); None]).
Proof.
  split; [apply arrivals_octets; vm_compute; reflexivity|]. split; [apply entries_are_a_store|].
  remember (receive_all _ _ _ _ _) as r eqn:Er. vm_compute in Er. subst r. split; [|reflexivity].
  intros H. match type of H with NoDup ?l => remember l as w eqn:Ew in H end. vm_compute in Ew. subst w.
  inversion H as [|? ? Hn _]; subst. apply Hn. now left.
Qed.

Example one_descriptor_for_both :
  arrivals_ok under_both /\ device_store (entries_lookup false) (resolve_both false) entry /\
  one_descriptor_each (resolve_both false) under_both /\
  (let '(log, ds) := receive_all host aes_cipher (entries_lookup false) (dev 0, dev 0) under_both in
   flat_map whose log = [(1, 0)] /\ dev_frame_counter (fst ds) = 1 /\
   map (fun e => match r_result e with Ok _ => None | Err e => Some e | Panic => None end) log
   = [None; Some CounterError; Some CounterError]).
Proof.
  split; [apply arrivals_octets; vm_compute; reflexivity|]. split; [apply entries_are_a_store|]. split.
  - exists (fun _ => 0). intros x sc kid s eui key i _ _ _ R. unfold resolve_both in R.
    destruct s as [p y|p y].
    + destruct y as [|y]; [discriminate|]. destruct y as [[y|y|]|[y|y|]|]; try discriminate.
      all: try (destruct y; try discriminate). now injection R.
    + destruct y as [|y]; [discriminate|]. destruct y; try discriminate. now injection R.
  - vm_compute. repeat split.
Qed.

Print Assumptions C97_other_address_accepted.
Print Assumptions C97_once_per_sender.
Print Assumptions C97_two_descriptors_refuted.
