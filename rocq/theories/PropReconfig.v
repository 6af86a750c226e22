(** Property C81: applications that change keys, addresses, device tables and counters between
    calls, at any time and in any way. *)
From Coq Require Import List Arith NArith ZArith Bool String Lia Sorting.Sorted ZifyBool ZifyNat ZifyN.
From Verif Require Import ByteCrate Types HeaderModel BeaconModel CommandModel CcmModel FrameModel
  Spec ProofLib HeaderProofs HeaderReadProofs FrameProofs RepoTests Aes128 CcmProofs
  SecSpec SecureProofs PropSecure PropReceive HistorySpec RestartSpec PropHistory PropRestart.
Import ListNotations.
Open Scope N_scope.
Open Scope list_scope.

(** * Specification *)

Section Spec.
Context {K D : Type} (c : cfg) (E : block_cipher K).

(** One write, with whatever security context the application hands over for it. *)
Definition write_once (u : SecurityContext K * call) : sent :=
  let '(r, (ctx, buf)) :=
    try_write_frame c E (c_frame (snd u)) (ser_ctx (c_mode (snd u)) (fst u)) (c_buffer (snd u)) in
  {| s_call := snd u; s_before := sc_frame_counter (fst u); s_result := r;
     s_after := match security_ctx ctx with Some s => sc_frame_counter s | None => sc_frame_counter (fst u) end;
     s_buffer := buf |}.
(** From one write to the next the application may change everything but not lower the counter. *)
Definition counter_never_lowered (uses : list (SecurityContext K * call)) : Prop :=
  Sorted (fun a b => s_after a <= s_before b) (map write_once uses).

(** One reception, with whatever context, device lookup and device store it is done; [p_resolve]
    says which descriptor the lookup finds. *)
Record reception := {
  p_lookup : DeviceLookup D;
  p_resolve : Address -> option N;
  p_store : D;
  p_arrival : arrival K
}.
Definition received_once (p : reception) : outcome SecurityError (Frame * nat) * D :=
  let '(r, (_, _, ds)) := try_read_and_unsecure c E (a_bytes (p_arrival p)) (a_ctx (p_arrival p)) (p_lookup p) (p_store p) in
  (r, ds).
(** The frame it accepts for device [x], with its octets. *)
Definition taken_for (x : N) (p : reception) : list (list N * Frame) :=
  accepted (p_resolve p) x [{| r_arrival := p_arrival p; r_result := fst (received_once p) |}].
(** From one reception to the next the application may do anything to its tables but not lower the
    counter of device [x]. *)
Definition device_never_lowered (get : D -> N -> DeviceDescriptor) (x : N) (ps : list reception) : Prop :=
  Sorted (fun p q => dev_frame_counter (get (snd (received_once p)) x) <= dev_frame_counter (get (p_store q) x)) ps.

End Spec.
Arguments reception : clear implicits.
Arguments Build_reception {K D}. Arguments p_lookup {K D}. Arguments p_resolve {K D}.
Arguments p_store {K D}. Arguments p_arrival {K D}.

(** * Senders *)

Section Sender.
Context {K : Type} (c : cfg) (E : block_cipher K).
Hypothesis HE : cipher_ok E.

Definition uses_ok (uses : list (SecurityContext K * call)) : Prop :=
  Forall (fun u => frame_ok (c_frame (snd u)) /\ u64_ok (sc_euid (fst u)) /\ u32_ok (sc_frame_counter (fst u))) uses.

Lemma write_once_steps u : frame_ok (c_frame (snd u)) -> u32_ok (sc_frame_counter (fst u)) ->
  s_before (write_once c E u) = sc_frame_counter (fst u) /\
  (s_after (write_once c E u) = s_before (write_once c E u) \/
   s_after (write_once c E u) = s_before (write_once c E u) + 1).
Proof using HE.
  intros Hf Hu. unfold write_once.
  destruct (write_context c E HE (c_frame (snd u)) (c_mode (snd u)) (fst u) (c_buffer (snd u)) Hf Hu) as (n & Ec & _ & St).
  destruct (try_write_frame c E (c_frame (snd u)) (ser_ctx (c_mode (snd u)) (fst u)) (c_buffer (snd u))) as [r [ctx buf]].
  cbn [fst snd] in Ec. subst ctx. cbn. split; [reflexivity|]. destruct St as [St|[St _]]; auto.
Qed.

(** Whatever contexts are used - other keys, another EUI-64, another provider for every call - no two
    writes use the same nonce, and the counters used up are strictly increasing, as long as the
    counter is not lowered. *)
Theorem C81_sender_reconfigured : forall uses, uses_ok uses -> counter_never_lowered c E uses ->
  NoDup (flat_map (fun u => nonces (fst u) [write_once c E u]) uses) /\
  StronglySorted N.lt (map s_before (filter used (map (write_once c E) uses))).
Proof using HE.
  intros uses Ko S. unfold counter_never_lowered in S.
  assert (SS : StronglySorted (fun a b => s_after a <= s_before b) (map (write_once c E) uses) /\
               Forall (fun u => s_before (write_once c E u) <= s_after (write_once c E u)) uses).
  { induction uses as [|u us IH]; [split; constructor|]. inversion Ko as [|? ? (Hf & _ & Hu) Ko']; subst.
    cbn [map] in S. inversion S as [|? ? S' H]; subst. destruct (IH Ko' S') as [I1 I2].
    pose proof (write_once_steps u Hf Hu) as (_ & St).
    split; [|constructor; [lia|exact I2]]. constructor; [exact I1|].
    destruct us as [|v vs]; [constructor|]. cbn [map] in *. inversion H; subst.
    constructor; [assumption|]. inversion I1 as [|? ? _ F]; subst. inversion I2; subst.
    eapply Forall_impl; [|exact F]. cbn. intros z Hz. lia. }
  destruct SS as [SS Mono].
  assert (Inc : StronglySorted N.lt (map s_before (filter used (map (write_once c E) uses)))).
  { eapply (sorted_map_impl _ _ _ (fun e => used e = true)).
    - apply sorted_filter. exact SS.
    - apply Forall_forall. intros e He. now apply filter_In in He.
    - intros x y Hx _ Hxy. cbn in *. unfold used in Hx. apply N.ltb_lt in Hx. lia. }
  split; [|exact Inc]. clear S SS Mono.
  induction uses as [|u us IH]; [constructor|]. inversion Ko as [|? ? (Hf & He & Hu) Ko']; subst.
  cbn [flat_map map filter] in *. unfold nonces at 1. cbn [filter].
  destruct (used (write_once c E u)) eqn:U; [|now apply IH].
  cbn [map] in *. inversion Inc as [|? ? I1 I2]; subst. cbn [List.app]. constructor; [|now apply IH].
  intros Hin. apply in_flat_map in Hin. destruct Hin as (v & Hv & Hin). unfold nonces in Hin.
  cbn [filter] in Hin. destruct (used (write_once c E v)) eqn:V; [|contradiction].
  cbn [map] in Hin. destruct Hin as [Hin|[]].
  rewrite Forall_forall in Ko', I2. destruct (Ko' v Hv) as (Hf' & He' & Hu').
  destruct (write_once_steps u Hf Hu) as (B1 & _). destruct (write_once_steps v Hf' Hu') as (B2 & _).
  apply C29_nonce_injective in Hin; rewrite ?B1, ?B2; try assumption. destruct Hin as (_ & X & _).
  specialize (I2 (s_before (write_once c E v))). rewrite X in I2.
  enough (s_before (write_once c E u) < s_before (write_once c E u)) by lia.
  apply I2. rewrite <- X. apply in_map. apply filter_In. split; [|exact V]. now apply in_map.
Qed.

End Sender.

(** * Receivers *)

Section Receiver.
Context {K D : Type} (c : cfg) (E : block_cipher K).
Hypothesis HE : cipher_ok E.
Variable get : D -> N -> DeviceDescriptor.
Implicit Types p : reception K D.

Definition receptions_ok (ps : list (reception K D)) : Prop :=
  Forall (fun p => octets (a_bytes (p_arrival p)) /\ device_store (p_lookup p) (p_resolve p) get) ps.

Lemma reception_step x p : octets (a_bytes (p_arrival p)) -> device_store (p_lookup p) (p_resolve p) get ->
  match taken_for c E x p with
  | [] => get (snd (received_once c E p)) x = get (p_store p) x
  | [(bs, f)] =>
      (exists n, try_read_header c bs = Ok (header f, n)) /\
      u32_ok (counter_in f) /\ dev_frame_counter (get (p_store p) x) <= counter_in f /\
      (counter_in f = last_counter -> overflow_checks c = false) /\
      dev_frame_counter (get (snd (received_once c E p)) x) = counter_after (counter_in f)
  | _ => False
  end.
Proof using HE.
  intros Hb Hs. unfold taken_for, received_once.
  destruct (try_read_and_unsecure c E (a_bytes (p_arrival p)) (a_ctx (p_arrival p)) (p_lookup p) (p_store p))
    as [r [[bs' ctx'] ds']] eqn:R. cbn [fst snd].
  pose proof (step_store c E HE (p_lookup p) (p_resolve p) get Hs _ _ _ _ _ _ _ x Hb R) as St.
  unfold accepted. cbn [flat_map r_arrival].
  replace (accepted_for (p_resolve p) x {| r_arrival := p_arrival p; r_result := r |})
    with (accepted_for (p_resolve p) x {| r_arrival := {| a_ctx := a_ctx (p_arrival p); a_bytes := a_bytes (p_arrival p) |}; r_result := r |})
    by (destruct (p_arrival p); reflexivity).
  destruct (accepted_for (p_resolve p) x _) as [f|] eqn:Ef; cbn [List.app]; [|exact St].
  destruct St as (S1 & S2 & S3 & S4).
  apply accepted_for_spec in Ef. destruct Ef as (n & a & s & Er & Ha & _ & _). cbn [r_result] in Er. subst r.
  apply (C32_accepted_iff c E HE _ _ _ _ f n bs' ctx' ds' a Hb Ha) in R.
  destruct R as (sc & eui & key & d & put & r7 & rs & _ & _ & Hd & _ & _ & _ & Hrs & Eb & _).
  split; [|rewrite S4; auto].
  exists (header_len (header f)). rewrite Eb. now apply try_read_header_complete.
Qed.

(** Replay protection for device [x] survives any change of keys, contexts, lookups and tables,
    including other descriptors under other addresses, as long as the counter stored for [x] is not
    lowered. *)
Theorem C81_receiver_reconfigured : forall x ps, receptions_ok ps -> device_never_lowered c E get x ps ->
  overflow_checks c = true \/ Forall (fun fc => fc <> 0xFFFFFFFF) (counters (flat_map (taken_for c E x) ps)) ->
  StronglySorted N.lt (counters (flat_map (taken_for c E x) ps)) /\
  NoDup (map fst (flat_map (taken_for c E x) ps)).
Proof using HE.
  intros x ps Ko S Hc.
  assert (G : StronglySorted N.lt (counters (flat_map (taken_for c E x) ps)) /\
    Forall (fun q => exists n, try_read_header c (fst q) = Ok (header (snd q), n)) (flat_map (taken_for c E x) ps) /\
    match ps with
    | [] => True
    | p :: _ => Forall (fun fc => dev_frame_counter (get (p_store p) x) <= fc) (counters (flat_map (taken_for c E x) ps))
    end).
  { induction ps as [|p ps IH]; [repeat split; constructor|].
    inversion Ko as [|? ? (Hb & Hs) Ko']; subst. unfold device_never_lowered in S. inversion S as [|? ? S' H]; subst.
    cbn [flat_map] in *. unfold counters in *. rewrite map_app in *.
    assert (Hc' : overflow_checks c = true \/
       Forall (fun fc => fc <> 0xFFFFFFFF) (map (fun q => counter_in (snd q)) (flat_map (taken_for c E x) ps))).
    { destruct Hc as [Hc|Hc]; [now left|right]. now apply Forall_app in Hc. }
    destruct (IH Ko' S' Hc') as (I1 & I2 & I3). clear IH.
    assert (Low : Forall (fun fc => dev_frame_counter (get (snd (received_once c E p)) x) <= fc)
      (map (fun q => counter_in (snd q)) (flat_map (taken_for c E x) ps))).
    { destruct ps as [|q qs]; [constructor|]. inversion H; subst. eapply Forall_impl; [|exact I3]. cbn. intros z Hz. lia. }
    pose proof (reception_step x p Hb Hs) as St.
    destruct (taken_for c E x p) as [|[bs f] [|? ?]]; [| |contradiction].
    - cbn [List.app map]. rewrite St in Low. auto.
    - destruct St as ((n & Hh) & Hu & Hle & Hoc & Haf). cbn [List.app map snd] in *.
      assert (Hn : counter_in f <> last_counter).
      { intros X. destruct Hc as [Hc|Hc]; [rewrite (Hoc X) in Hc; discriminate|].
        inversion Hc; subst. change last_counter with 4294967295 in X. contradiction. }
      rewrite counter_after_eq in Haf by assumption. destruct (N.eqb_spec (counter_in f) last_counter); [contradiction|].
      split; [|split].
      + constructor; [exact I1|]. eapply Forall_impl; [|exact Low]. cbn. intros z Hz. lia.
      + constructor; [|exact I2]. cbn. eauto.
      + constructor; [exact Hle|]. eapply Forall_impl; [|exact Low]. cbn. intros z Hz. lia. }
  destruct G as (G1 & G2 & _). split; [exact G1|].
  revert G1 G2. generalize (flat_map (taken_for c E x) ps). intros l. unfold counters.
  induction l as [|q l IH]; intros G1 G2; [constructor|]. cbn [map] in *.
  inversion G1 as [|? ? S1 S2]; subst. inversion G2 as [|? ? F1 F2]; subst. constructor; [|now apply IH].
  intros Hin. apply in_map_iff in Hin. destruct Hin as (r & Er & Hr).
  rewrite Forall_forall in F2, S2. destruct (F2 r Hr) as (n2 & X2). destruct F1 as (n1 & X1).
  rewrite Er in X2. assert (Eh : header (snd r) = header (snd q)) by congruence.
  specialize (S2 (counter_in (snd r)) (in_map (fun q => counter_in (snd q)) l r Hr)).
  unfold counter_in in S2. rewrite Eh in S2. lia.
Qed.

(** That condition is the only one: a frame that was accepted is accepted again, with the same keys,
    from any store exactly if the counter stored there for its device is not beyond the frame's (and
    is not the last one). *)
Theorem C81_accepted_again_iff : forall bs ctx (dl : DeviceLookup D) resolve ds ds2 f n s x, octets bs ->
  device_store dl resolve get ->
  fst (try_read_and_unsecure c E bs ctx dl ds) = Ok (f, n) ->
  auxiliary_security_header (header f) <> None -> source (header f) = Some s -> resolve s = Some x ->
  (fst (try_read_and_unsecure c E bs ctx dl ds2) = Ok (f, n) <->
   dev_frame_counter (get ds2 x) <= counter_in f /\ dev_frame_counter (get ds2 x) <> 0xFFFFFFFF).
Proof using HE.
  intros bs ctx dl resolve ds ds2 f n s x Hb Hs R Ha Hsrc Hr.
  destruct (auxiliary_security_header (header f)) as [a|] eqn:Haux; [clear Ha|congruence].
  assert (Hct : counter_in f = frame_counter a) by (unfold counter_in; now rewrite Haux).
  pose proof (Hs s ds2) as HS2. rewrite Hr in HS2. destruct HS2 as (put2 & Hdl2 & _).
  destruct (try_read_and_unsecure c E bs ctx dl ds) as [r [[bs1 ctx1] ds1]] eqn:R1. cbn [fst] in R. subst r.
  apply (C32_accepted_iff c E HE bs ctx dl ds f n bs1 ctx1 ds1 a Hb Haux) in R1.
  destruct R1 as (sc & eui & key & d & put & r7 & rs & Ec & Ec' & Hd & Hc & Hf & A & Hrs & Eb & Hlen & Hoc & En & Eb' & Eds).
  destruct A as (_ & Ht & Hv & Hau & Hk & (s' & Hs' & Hdl) & Hm & Hle).
  split.
  - intros R2. destruct (try_read_and_unsecure c E bs ctx dl ds2) as [r [[bs2 ctx2] ds2']] eqn:R2'. cbn [fst] in R2. subst r.
    apply (C32_accepted_iff c E HE bs ctx dl ds2 f n bs2 ctx2 ds2' a Hb Haux) in R2'.
    destruct R2' as (sc2 & eui2 & key2 & d2 & put2' & _ & _ & _ & _ & _ & _ & _ & A2 & _).
    destruct A2 as (_ & _ & _ & _ & _ & (s2 & Hs2 & Hdl2') & Hm2 & Hle2).
    assert (s2 = s) by congruence. subst s2. rewrite Hdl2 in Hdl2'.
    assert (Ed : get ds2 x = d2) by congruence. rewrite Hct, Ed. auto.
  - intros (Hle2 & Hm2).
    enough (X : exists bs2 ctx2 ds3, try_read_and_unsecure c E bs ctx dl ds2 = (Ok (f, n), (bs2, ctx2, ds3)))
      by (destruct X as (? & ? & ? & ->); reflexivity).
    do 3 eexists. apply (C32_accepted_iff c E HE bs ctx dl ds2 f n _ _ _ a Hb Haux).
    exists sc, eui, key, (get ds2 x), put2, r7, rs.
    repeat (split; [first [reflexivity|assumption]|]).
    split; [|repeat (split; [first [reflexivity|assumption]|]); reflexivity].
    unfold admitted. repeat (split; [assumption|]). split; [exists s; auto|]. rewrite <- Hct. auto.
Qed.

End Receiver.

(** * Concrete cases *)

Definition key_of (k : N) : KeyLookup (list N) := fun _ _ a =>
  match a with Some (Extended _ id) => Some (id, repeat k 16) | _ => None end.

(** A sender that changes its keys, then its EUI-64, then jumps to a higher counter. *)
Definition some_uses : list (SecurityContext (list N) * call) :=
  [(SecurityContext_new 1 41 (key_of 7), at_level SL_ENCMIC64 true [1;2;3] 60);
   (SecurityContext_new 1 42 (key_of 8), at_level SL_ENCMIC64 true [1;2;3] 60);
   (SecurityContext_new 2 43 (key_of 8), at_level SL_ENC true [1;2;3] 60);
   (SecurityContext_new 2 900 (key_of 8), at_level SL_MIC32 false [1] 60)].
Example a_changing_sender :
  uses_ok some_uses /\ counter_never_lowered host aes_cipher some_uses /\
  map (fun e => (s_before e, s_after e)) (filter used (map (write_once host aes_cipher) some_uses))
  = [(41, 42); (42, 43); (43, 44); (900, 901)] /\
  map secured (map (write_once host aes_cipher) some_uses) = [true; true; false; true].
Proof.
  split; [|split].
  - repeat constructor; (apply level_frame_ok || idtac); try reflexivity; repeat constructor.
  - unfold counter_never_lowered.
    assert (X : map (fun e => (s_before e, s_after e)) (map (write_once host aes_cipher) some_uses)
      = [(41, 42); (42, 43); (43, 44); (900, 901)]) by (vm_compute; reflexivity).
    revert X. generalize (map (write_once host aes_cipher) some_uses). intros l X.
    destruct l as [|a [|b [|d [|e [|? ?]]]]]; try discriminate. cbn in X. injection X as A1 A2 B1 B2 D1 D2 E1 E2.
    repeat constructor; lia.
  - split; vm_compute; reflexivity.
Qed.

(** A receiver that takes a frame, is given other keys and a table in which another device has been
    reset and this one moved ahead, and is offered the frame again, under either keys; then the
    third frame of the sender. *)
Definition table_of (a b : N) : known [5; 1] := exist _ [(5, dev a); (1, dev b)] eq_refl.
Definition at_reception (ds : known [5; 1]) (y : arrival (list N)) : reception (list N) (known [5; 1]) :=
  {| p_lookup := known_lookup [5; 1]; p_resolve := known_resolve [5; 1]; p_store := ds; p_arrival := y |}.
Definition other_keys bs : arrival (list N) :=
  {| a_ctx := {| footer_mode := Footer_None; security_ctx := Some (SecurityContext_new 7 0 (key_of 9)) |}; a_bytes := bs |}.
Definition some_offers : list (reception (list N) (known [5; 1])) :=
  [at_reception (table_of 9 40) (arrives (sent_bytes 0)); at_reception (table_of 0 43) (other_keys (sent_bytes 0));
   at_reception (table_of 0 43) (arrives (sent_bytes 0)); at_reception (table_of 3 43) (arrives (sent_bytes 2))].
Example a_changing_receiver :
  receptions_ok known_get some_offers /\ device_never_lowered host aes_cipher known_get 1 some_offers /\
  map (fun p => match fst (received_once host aes_cipher p) with Ok (f, n) => Ok (payload f, n) | Err x => Err x | Panic => Panic end) some_offers
  = [Ok ([1;2;3], 32%nat); Err CounterError; Err CounterError; Ok ([6], 28%nat)] /\
  List.length (flat_map (taken_for host aes_cipher 1) some_offers) = 2%nat.
Proof.
  split; [|split].
  - assert (F : forallb (fun p => forallb (fun b => b <? 256) (a_bytes (p_arrival p))) some_offers = true) by (vm_compute; reflexivity).
    rewrite forallb_forall in F. apply Forall_forall. intros p Hp. split.
    + specialize (F p Hp). rewrite forallb_forall in F. apply Forall_forall. intros b Hb. apply N.ltb_lt. now apply F.
    + destruct Hp as [<-|[<-|[<-|[<-|[]]]]]; apply known_is_a_store.
  - assert (X : map (fun p => (dev_frame_counter (known_get (p_store p) 1), dev_frame_counter (known_get (snd (received_once host aes_cipher p)) 1))) some_offers
      = [(40, 42); (43, 43); (43, 43); (43, 46)]) by (vm_compute; reflexivity).
    revert X. unfold device_never_lowered. generalize some_offers. intros l X.
    destruct l as [|a [|b [|d [|e [|? ?]]]]]; try discriminate. cbn [map] in X. injection X as A1 A2 B1 B2 D1 D2 E1 E2.
    repeat constructor; lia.
  - split; vm_compute; reflexivity.
Qed.
