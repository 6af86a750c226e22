(** C100: new keys and counters that start again. *)
From Coq Require Import List Arith NArith ZArith Bool String Lia Sorting.Sorted ZifyBool ZifyNat ZifyN.
From Verif Require Import ByteCrate Types HeaderModel BeaconModel CommandModel CcmModel FrameModel
  Spec ProofLib HeaderProofs HeaderReadProofs FrameProofs RepoTests Aes128 CcmProofs
  SecSpec SecureProofs PropSecure PropReceive HistorySpec RestartSpec PropHistory PropRestart PropReconfig.
Import ListNotations.
Open Scope N_scope.
Open Scope list_scope.

(** * Specification *)

Section Spec.
Context {K D : Type} (c : cfg) (E : block_cipher K).

(** The key the context's provider has for a frame to be written. *)
Definition key_for (sc : SecurityContext K) (f : Frame) : option K :=
  match auxiliary_security_header (header f) with
  | Some a => match sc_key_provider sc DstAddrMode (key_identifier a) (destination (header f)) with
              | Some (_, key) => Some key
              | None => None
              end
  | None => None
  end.
(** The keys and nonces of the calls of a history that used up a counter. *)
Definition key_nonces (sc : SecurityContext K) (log : list sent) : list (K * list N) :=
  flat_map (fun e => match key_for sc (s_frame e) with
                     | Some key => [(key, mac_nonce (sc_euid sc) (s_before e) (level_of e))]
                     | None => []
                     end) (filter used log).
(** No key is found in both contexts. *)
Definition other_keys_than (a b : SecurityContext K) : Prop :=
  forall kid1 dst1 eui1 key1 kid2 dst2 eui2 key2,
    sc_key_provider a DstAddrMode kid1 dst1 = Some (eui1, key1) ->
    sc_key_provider b DstAddrMode kid2 dst2 = Some (eui2, key2) -> key1 <> key2.

(** The key with which a reception accepted a secured frame. *)
Definition key_found (p : reception K D) : option K :=
  match fst (received_once c E p), security_ctx (a_ctx (p_arrival p)) with
  | Ok (f, _), Some sc =>
      match auxiliary_security_header (header f) with
      | Some a => match sc_key_provider sc SrcAddrMode (key_identifier a) (source (header f)) with
                  | Some (_, key) => Some key
                  | None => None
                  end
      | None => None
      end
  | _, _ => None
  end.
(** The application may lower the counter of device [x], or put it back to 0, if it does not accept frames with the same key afterwards. *)
Definition never_lowered_per_key (get : D -> N -> DeviceDescriptor) (x : N) (ps : list (reception K D)) : Prop :=
  ForallOrdPairs (fun p q => key_found p <> None -> key_found p = key_found q ->
    dev_frame_counter (get (snd (received_once c E p)) x) <= dev_frame_counter (get (p_store q) x)) ps.
(** Key and octets of the frames accepted for device [x]. *)
Definition key_octets (x : N) (ps : list (reception K D)) : list (option K * list N) :=
  flat_map (fun p => map (fun q => (key_found p, fst q)) (taken_for c E x p)) ps.
End Spec.

(** * Proofs *)

Section Sender.
Context {K : Type} (c : cfg) (E : block_cipher K).
Hypothesis HE : cipher_ok E.

(** In the same way one call at a time, with any contexts: as long as the counter is not lowered from a call to a later one
    with the same EUI-64 and the same key, no key is used twice with one nonce. *)
Theorem C100_sender_per_key : forall uses, uses_ok uses ->
  ForallOrdPairs (fun u v : SecurityContext K * call =>
    key_for (fst u) (c_frame (snd u)) <> None ->
    key_for (fst u) (c_frame (snd u)) = key_for (fst v) (c_frame (snd v)) -> sc_euid (fst u) = sc_euid (fst v) ->
    s_after (write_once c E u) <= s_before (write_once c E v)) uses ->
  NoDup (flat_map (fun u => key_nonces (fst u) [write_once c E u]) uses).
Proof using HE.
  intros uses Ko S. induction uses as [|u us IH]; [constructor|].
  inversion Ko as [|? ? (Hf & He & Hu) Ko']; subst. inversion S as [|? ? S1 S2]; subst.
  cbn [flat_map]. apply NoDup_app; [|now apply IH|].
  - unfold key_nonces. cbn [filter]. destruct (used (write_once c E u)); [|constructor]. cbn [flat_map].
    destruct (key_for (fst u) (s_frame (write_once c E u))); [|constructor]. constructor; [intros []|constructor].
  - intros [k n] H1 H2. unfold key_nonces in H1. cbn [filter] in H1.
    destruct (used (write_once c E u)) eqn:U; [|contradiction]. cbn [flat_map] in H1. rewrite app_nil_r in H1.
    apply in_flat_map in H2. destruct H2 as (v & Hv & H2). unfold key_nonces in H2. cbn [filter] in H2.
    destruct (used (write_once c E v)) eqn:V; [|contradiction]. cbn [flat_map] in H2. rewrite app_nil_r in H2.
    assert (C1 : forall w, s_frame (write_once c E w) = c_frame (snd w)).
    { intros w. unfold write_once, s_frame. destruct (try_write_frame _ _ _ _ _) as [? [? ?]]. reflexivity. }
    rewrite C1 in H1, H2. rewrite Forall_forall in S1. specialize (S1 v Hv).
    unfold uses_ok in Ko'. rewrite Forall_forall in Ko'. destruct (Ko' v Hv) as (Hf2 & He2 & Hu2).
    destruct (key_for (fst u) (c_frame (snd u))) as [k1|] eqn:K1; [|contradiction]. destruct H1 as [H1|[]].
    destruct (key_for (fst v) (c_frame (snd v))) as [k2|] eqn:K2; [|contradiction]. destruct H2 as [H2|[]].
    pose proof (f_equal fst H1) as Q1. pose proof (f_equal fst H2) as Q2. cbn [fst] in Q1, Q2. subst k1 k2.
    assert (H3 : mac_nonce (sc_euid (fst u)) (s_before (write_once c E u)) (level_of (write_once c E u))
      = mac_nonce (sc_euid (fst v)) (s_before (write_once c E v)) (level_of (write_once c E v))) by congruence.
    clear H1 H2. rename H3 into H2.
    destruct (write_once_steps c E HE u Hf Hu) as (B1 & _). destruct (write_once_steps c E HE v Hf2 Hu2) as (B2 & _).
    apply C29_nonce_injective in H2; rewrite ?B1, ?B2; try assumption. destruct H2 as (X1 & X2 & _).
    rewrite ?K1, ?K2 in S1. specialize (S1 ltac:(discriminate) eq_refl X1). unfold used in U. apply N.ltb_lt in U. lia.
Qed.

(** Epochs, each with a context and a history of its own, starting from any counter - 0 every time, say: if no key is
    found in two of them, no key is ever used twice with one nonce. *)
Theorem C100_new_keys_new_counters : forall (epochs : list (SecurityContext K * list call)),
  Forall (fun r => calls_ok (snd r) /\ u64_ok (sc_euid (fst r)) /\ u32_ok (sc_frame_counter (fst r))) epochs ->
  ForallOrdPairs (fun r1 r2 => other_keys_than (fst r1) (fst r2)) epochs ->
  NoDup (flat_map (fun r => key_nonces (fst r) (fst (send_all c E (fst r) (snd r)))) epochs).
Proof using HE.
  intros epochs Ko S.
  assert (Key : forall (sc : SecurityContext K) log k n, In (k, n) (key_nonces sc log) ->
     exists kid dst eui, sc_key_provider sc DstAddrMode kid dst = Some (eui, k)).
  { intros sc log k n H. apply in_flat_map in H. destruct H as (e & _ & H). unfold key_for in H.
    destruct (auxiliary_security_header _) as [a|]; [|contradiction].
    destruct (sc_key_provider sc DstAddrMode (key_identifier a) (destination (header (s_frame e)))) as [[eui key]|] eqn:P; [|contradiction].
    destruct H as [H|[]]. apply (f_equal fst) in H. cbn [fst] in H. subst key. eauto. }
  induction epochs as [|[sc calls] rest IH]; [constructor|].
  inversion Ko as [|? ? (Hc & He & Hu) Ko']; subst. inversion S as [|? ? S1 S2]; subst. cbn [fst snd] in *.
  cbn [flat_map fst snd]. apply NoDup_app; [|now apply IH|].
  - destruct (send_all c E sc calls) as [log sc'] eqn:L. cbn [fst].
    pose proof (C29_nonces_distinct c E HE sc calls log sc' Hc He Hu L) as N.
    clear - N. unfold key_nonces. induction (filter used log) as [|e l IH]; [constructor|]. cbn [flat_map map] in *.
    inversion N as [|? ? N1 N2]; subst. apply NoDup_app; [|now apply IH|].
    + destruct (key_for sc (s_frame e)); [|constructor]. constructor; [intros []|constructor].
    + intros [k n] H1 H2. destruct (key_for sc (s_frame e)); [|contradiction]. destruct H1 as [H1|[]]. apply (f_equal snd) in H1. cbn [snd] in H1.
      apply N1. apply in_flat_map in H2. destruct H2 as (e2 & He2 & H2). destruct (key_for sc (s_frame e2)); [|contradiction].
      destruct H2 as [H2|[]]. apply (f_equal snd) in H2. cbn [snd] in H2. rewrite H1, <- H2. apply (in_map (fun e => mac_nonce (sc_euid sc) (s_before e) (level_of e))). exact He2.
  - intros [k n] H1 H2. destruct (Key _ _ _ _ H1) as (kid1 & dst1 & eui1 & P1).
    apply in_flat_map in H2. destruct H2 as ([sc2 calls2] & Hr & H2). cbn [fst snd] in H2.
    destruct (Key _ _ _ _ H2) as (kid2 & dst2 & eui2 & P2). rewrite Forall_forall in S1. specialize (S1 _ Hr). cbn [fst] in S1.
    exact (S1 _ _ _ _ _ _ _ _ P1 P2 eq_refl).
Qed.
End Sender.

Section Receiver.
Context {K D : Type} (c : cfg) (E : block_cipher K).
Hypothesis HE : cipher_ok E.

Lemma taken_found get x (p : reception K D) : octets (a_bytes (p_arrival p)) -> device_store (p_lookup p) (p_resolve p) get ->
  match taken_for c E x p with
  | [] => True
  | [(bs, f)] => bs = a_bytes (p_arrival p) /\ (exists n, fst (received_once c E p) = Ok (f, n)) /\ key_found c E p <> None
  | _ => False
  end.
Proof using HE.
  intros Hb Hs. unfold key_found, taken_for, received_once.
  destruct (try_read_and_unsecure c E (a_bytes (p_arrival p)) (a_ctx (p_arrival p)) (p_lookup p) (p_store p)) as [r [[bs' ctx'] ds']] eqn:R.
  cbn [fst snd]. unfold accepted. cbn [flat_map r_arrival].
  destruct (accepted_for (p_resolve p) x _) as [f|] eqn:Ef; cbn [List.app]; [|exact I].
  apply accepted_for_spec in Ef. destruct Ef as (n & a & s & Er & Ha & Hsrc & _). cbn [r_result] in Er. subst r.
  apply (C32_accepted_iff c E HE _ _ _ _ f n bs' ctx' ds' a Hb Ha) in R.
  destruct R as (sc & eui & key & d & put & r7 & rs & -> & _ & _ & _ & _ & Hd & _).
  split; [reflexivity|]. split; [eauto|]. cbn [ser_ctx security_ctx]. rewrite Ha.
  destruct Hd as (_ & _ & _ & _ & Hk & _). rewrite Hk. discriminate.
Qed.

(** In any history of receptions in which the counter of a device is only lowered for other keys: frames accepted with the
    same key have strictly increasing counters, and the same octets are never accepted twice with the same key. *)
Theorem C100_receiver_per_key : forall get x ps, receptions_ok get ps -> never_lowered_per_key c E get x ps ->
  overflow_checks c = true \/ Forall (fun fc => fc <> 0xFFFFFFFF) (counters (flat_map (taken_for c E x) ps)) ->
  NoDup (key_octets c E x ps) /\
  ForallOrdPairs (fun p q : reception K D => key_found c E p = key_found c E q ->
    forall f g, In f (map snd (taken_for c E x p)) -> In g (map snd (taken_for c E x q)) -> counter_in f < counter_in g) ps.
Proof using HE.
  intros get x ps Ko S Hc.
  assert (Inc : ForallOrdPairs (fun p q : reception K D => key_found c E p = key_found c E q ->
    forall f g, In f (map snd (taken_for c E x p)) -> In g (map snd (taken_for c E x q)) -> counter_in f < counter_in g) ps).
  { unfold never_lowered_per_key in S. induction ps as [|p ps IH]; [constructor|].
    inversion Ko as [|? ? (Hb & Hs) Ko']; subst. inversion S as [|? ? S1 S2]; subst.
    cbn [flat_map] in Hc. unfold counters in Hc. rewrite map_app in Hc.
    assert (Hc1 : overflow_checks c = true \/ Forall (fun fc => fc <> 0xFFFFFFFF) (counters (taken_for c E x p)))
      by (destruct Hc as [Hc|Hc]; [now left|right; apply Forall_app in Hc; apply Hc]).
    assert (Hc2 : overflow_checks c = true \/ Forall (fun fc => fc <> 0xFFFFFFFF) (counters (flat_map (taken_for c E x) ps)))
      by (destruct Hc as [Hc|Hc]; [now left|right; apply Forall_app in Hc; apply Hc]).
    constructor; [|now apply IH]. unfold receptions_ok in Ko'. rewrite Forall_forall in Ko', S1. apply Forall_forall. intros q Hq Ek f g Hf Hg.
    specialize (S1 q Hq). destruct (Ko' q Hq) as (Hb2 & Hs2).
    pose proof (reception_step c E HE get x p Hb Hs) as St. pose proof (reception_step c E HE get x q Hb2 Hs2) as St2.
    pose proof (taken_found get x p Hb Hs) as Kf.
    destruct (taken_for c E x p) as [|[bs f'] [|? ?]]; [contradiction| |contradiction].
    destruct (taken_for c E x q) as [|[bs2 g'] [|? ?]]; [contradiction| |contradiction].
    destruct Hf as [Hf|[]]. destruct Hg as [Hg|[]]. cbn [snd] in Hf, Hg. subst f' g'.
    destruct St as (_ & Hu & _ & Hoc & Haf). destruct St2 as (_ & _ & Hle2 & _ & _). destruct Kf as (_ & _ & Kf).
    specialize (S1 Kf Ek). rewrite Haf, counter_after_eq in S1 by assumption.
    destruct (N.eqb_spec (counter_in f) last_counter) as [X|X]; [|lia]. exfalso.
    destruct Hc1 as [Hc1|Hc1]; [rewrite (Hoc X) in Hc1; discriminate|]. inversion Hc1 as [|? ? Y _]; subst. cbn in Y. now destruct Y. }
  split; [|exact Inc]. clear S Hc. induction ps as [|p ps IH]; [constructor|].
  inversion Ko as [|? ? (Hb & Hs) Ko']; subst. inversion Inc as [|? ? I1 I2]; subst.
  unfold key_octets. cbn [flat_map]. apply NoDup_app; [|now apply IH|].
  - pose proof (taken_found get x p Hb Hs) as Kf. destruct (taken_for c E x p) as [|[bs f] [|? ?]]; [constructor| |contradiction].
    cbn. constructor; [intros []|constructor].
  - intros [k bs] H1 H2. apply in_map_iff in H1. destruct H1 as ([bs1 f] & E1 & H1).
    apply in_flat_map in H2. destruct H2 as (q & Hq & H2). apply in_map_iff in H2. destruct H2 as ([bs2 g] & E2 & H2).
    cbn [fst] in E1, E2. injection E1 as Ek1 ->. injection E2 as Ek2 ->.
    rewrite Forall_forall in I1. specialize (I1 q Hq). rewrite Ek1, Ek2 in I1.
    specialize (I1 eq_refl f g (in_map snd _ _ H1) (in_map snd _ _ H2)).
    unfold receptions_ok in Ko'. rewrite Forall_forall in Ko'. destruct (Ko' q Hq) as (Hb2 & Hs2).
    pose proof (reception_step c E HE get x p Hb Hs) as St. pose proof (reception_step c E HE get x q Hb2 Hs2) as St2.
    destruct (taken_for c E x p) as [|[b1 f'] [|? ?]]; [contradiction| |contradiction]. destruct H1 as [H1|[]].
    destruct (taken_for c E x q) as [|[b2 g'] [|? ?]]; [contradiction| |contradiction]. destruct H2 as [H2|[]].
    injection H1 as -> ->. injection H2 as -> ->. destruct St as ((n1 & R1) & _). destruct St2 as ((n2 & R2) & _).
    assert (Eh : header f = header g) by congruence. unfold counter_in in I1. rewrite Eh in I1. lia.
Qed.

Lemma app_same_length (a b a' b' : list N) : List.length a = List.length a' -> a ++ b = a' ++ b' -> a = a' /\ b = b'.
Proof using Type.
  revert a'. induction a as [|x a IH]; intros [|x' a'] L H; try discriminate; [auto|]. cbn in L, H. injection L as L. injection H as -> H.
  destruct (IH a' L H) as (-> & ->). auto.
Qed.

(** So a frame that is accepted again after the keys have been changed must fit two keys: the tag it carries is
    the tag of the payload it then yields, under the key then found. *)
Theorem C100_again_means_two_keys_fit : forall get x (p q : reception K D) bs f g,
  receptions_ok get [p] -> receptions_ok get [q] ->
  taken_for c E x p = [(bs, f)] -> taken_for c E x q = [(bs, g)] ->
  exists a key1 eui1 key2 eui2,
    header g = header f /\ auxiliary_security_header (header f) = Some a /\
    key_found c E p = Some key1 /\ key_found c E q = Some key2 /\
    List.length (payload g) = List.length (payload f) /\
    secured_payload E key1 (security_level (control a)) eui1 (frame_counter a) (payload f)
    = secured_payload E key2 (security_level (control a)) eui2 (frame_counter a) (payload g) /\
    secured_tag E key1 (security_level (control a)) eui1 (frame_counter a) (payload f)
    = secured_tag E key2 (security_level (control a)) eui2 (frame_counter a) (payload g).
Proof using HE.
  intros get x p q bs f g Kp Kq Tp Tq. inversion Kp as [|? ? (Hb & Hs) _]; subst. inversion Kq as [|? ? (Hb2 & Hs2) _]; subst.
  assert (U : forall (r : reception K D) h, octets (a_bytes (p_arrival r)) -> device_store (p_lookup r) (p_resolve r) get -> taken_for c E x r = [(bs, h)] ->
    (exists n, try_read_header c bs = Ok (header h, n)) /\
    exists a key eui r7 rs, auxiliary_security_header (header h) = Some a /\ key_found c E r = Some key /\
      bs = wire_header LE (native c) r7 rs (header h) ++ secured_payload E key (security_level (control a)) eui (frame_counter a) (payload h)
           ++ secured_tag E key (security_level (control a)) eui (frame_counter a) (payload h)).
  { intros r h Hbr Hsr Tr. pose proof (reception_step c E HE get x r Hbr Hsr) as St. pose proof (taken_found get x r Hbr Hsr) as Kf.
    rewrite Tr in St, Kf. destruct Kf as (Eb & (n & Er) & _). split; [apply St|].
    assert (Ha : exists a, auxiliary_security_header (header h) = Some a).
    { assert (Hin : In (bs, h) (taken_for c E x r)) by (rewrite Tr; now left).
      unfold taken_for, accepted in Hin. cbn [flat_map] in Hin. rewrite app_nil_r in Hin.
      destruct (accepted_for (p_resolve r) x _) as [h'|] eqn:Ef; [|contradiction]. destruct Hin as [Hin|[]]. injection Hin as _ ->.
      apply accepted_for_spec in Ef. destruct Ef as (? & a & ? & _ & Ha & _). eauto. }
    destruct Ha as (a & Ha). unfold key_found. rewrite Er. unfold received_once in Er.
    destruct (try_read_and_unsecure c E (a_bytes (p_arrival r)) (a_ctx (p_arrival r)) (p_lookup r) (p_store r)) as [r0 [[bs' ctx'] ds']] eqn:R.
    cbn [fst] in Er. subst r0. apply (C32_accepted_iff c E HE _ _ _ _ h n bs' ctx' ds' a Hbr Ha) in R.
    destruct R as (sc & eui & key & d & put & r7 & rs & Ec & _ & _ & _ & _ & Hd & _ & Ew & _). rewrite Ec.
    exists a, key, eui, r7, rs. split; [exact Ha|]. rewrite <- Eb in Ew. split; [|exact Ew]. cbn [ser_ctx security_ctx]. rewrite Ha.
    destruct Hd as (_ & _ & _ & _ & Hk & _). rewrite Hk. reflexivity. }
  destruct (U p f Hb Hs Tp) as ((n1 & R1) & a & key1 & eui1 & r7 & rs & Ha & K1 & W1).
  destruct (U q g Hb2 Hs2 Tq) as ((n2 & R2) & a2 & key2 & eui2 & r7' & rs' & Ha2 & K2 & W2).
  assert (Eh : header g = header f) by congruence. rewrite Eh in Ha2, W2. assert (a2 = a) by congruence. subst a2.
  assert (W : secured_payload E key1 (security_level (control a)) eui1 (frame_counter a) (payload f)
             ++ secured_tag E key1 (security_level (control a)) eui1 (frame_counter a) (payload f)
           = secured_payload E key2 (security_level (control a)) eui2 (frame_counter a) (payload g)
             ++ secured_tag E key2 (security_level (control a)) eui2 (frame_counter a) (payload g)).
  { rewrite W1 in W2. exact (proj2 (app_same_length _ _ _ _ (eq_trans (wire_header_length _ _ _ _ _) (eq_sym (wire_header_length _ _ _ _ _))) W2)). }
  assert (L : List.length (payload g) = List.length (payload f)).
  { apply (f_equal (@List.length N)) in W. rewrite !app_length, !secured_payload_length, !secured_tag_length in W. lia. }
  apply app_same_length in W; [|rewrite !secured_payload_length; symmetry; exact L].
  exists a, key1, eui1, key2, eui2. destruct W as (W3 & W4). repeat split; assumption.
Qed.
End Receiver.

(** * Concrete cases *)

(** Two epochs of a sender, both starting from counter 0. *)
Definition epoch (k : N) : SecurityContext (list N) * list call :=
  (SecurityContext_new 1 0 (key_of k), [at_level SL_ENCMIC64 true [1;2;3] 60; at_level SL_MIC32 false [1] 60]).
Example two_epochs :
  Forall (fun r : SecurityContext (list N) * list call => calls_ok (snd r) /\ u64_ok (sc_euid (fst r)) /\ u32_ok (sc_frame_counter (fst r))) [epoch 7; epoch 8] /\
  ForallOrdPairs (fun r1 r2 : SecurityContext (list N) * list call => other_keys_than (fst r1) (fst r2)) [epoch 7; epoch 8] /\
  map (fun r => map s_before (filter used (fst (send_all host aes_cipher (fst r) (snd r))))) [epoch 7; epoch 8] = [[0; 1]; [0; 1]] /\
  List.length (flat_map (fun r => key_nonces (fst r) (fst (send_all host aes_cipher (fst r) (snd r)))) [epoch 7; epoch 8]) = 4%nat.
Proof.
  split; [|split; [|split]].
  - repeat constructor; (apply level_frame_ok || idtac); try reflexivity; repeat constructor.
  - repeat constructor. intros kid1 dst1 eui1 key1 kid2 dst2 eui2 key2 H1 H2. cbn in H1, H2. unfold key_of in H1, H2.
    destruct dst1 as [[? ?|? ?]|]; try discriminate; destruct dst2 as [[? ?|? ?]|]; try discriminate; cbn in H1, H2; congruence.
  - vm_compute. reflexivity.
  - vm_compute. reflexivity.
Qed.

(** A receiver that takes the first frame of the first epoch, is given the new key and a counter of 0, is offered that frame again -
    refused - and then the first and the second of the new epoch, which it takes. *)
Definition epoch_bytes (k : N) (i : nat) : list N := nth i (map s_bytes (fst (send_all host aes_cipher (fst (epoch k)) (snd (epoch k))))) [].
Definition with_key (k : N) bs : arrival (list N) :=
  {| a_ctx := {| footer_mode := Footer_None; security_ctx := Some (SecurityContext_new 7 0 (key_of k)) |}; a_bytes := bs |}.
Definition rekeyed : list (reception (list N) (known [5; 1])) :=
  [at_reception (table_of 9 0) (with_key 7 (epoch_bytes 7 0)); at_reception (table_of 9 0) (with_key 8 (epoch_bytes 7 0));
   at_reception (table_of 9 0) (with_key 8 (epoch_bytes 8 0)); at_reception (table_of 9 1) (with_key 8 (epoch_bytes 8 1))].
Example a_receiver_with_new_keys :
  receptions_ok known_get rekeyed /\ never_lowered_per_key host aes_cipher known_get 1 rekeyed /\
  ~ device_never_lowered host aes_cipher known_get 1 rekeyed /\
  map (fun p => match fst (received_once host aes_cipher p) with Ok (f, n) => Ok (payload f, n) | Err x => Err x | Panic => Panic end) rekeyed
  = [Ok ([1;2;3], 30%nat); Err TransformationError; Ok ([1;2;3], 30%nat); Ok ([1], 30%nat)] /\
  map (fun p => dev_frame_counter (known_get (snd (received_once host aes_cipher p)) 1)) rekeyed = [1; 0; 1; 2].
Proof.
  assert (X : map (fun p => (dev_frame_counter (known_get (p_store p) 1), (dev_frame_counter (known_get (snd (received_once host aes_cipher p)) 1), key_found host aes_cipher p))) rekeyed
      = [(0, (1, Some (repeat 7 16))); (0, (0, None)); (0, (1, Some (repeat 8 16))); (1, (2, Some (repeat 8 16)))]) by (vm_compute; reflexivity).
  split; [|split; [|split]].
  - assert (F : forallb (fun p => forallb (fun b => b <? 256) (a_bytes (p_arrival p))) rekeyed = true) by (vm_compute; reflexivity).
    rewrite forallb_forall in F. apply Forall_forall. intros p Hp. split.
    + specialize (F p Hp). rewrite forallb_forall in F. apply Forall_forall. intros b Hb. apply N.ltb_lt. now apply F.
    + destruct Hp as [<-|[<-|[<-|[<-|[]]]]]; apply known_is_a_store.
  - revert X. unfold never_lowered_per_key. generalize rekeyed. intros l X.
    destruct l as [|a [|b [|d [|e [|? ?]]]]]; try discriminate. cbn [map] in X.
    apply (f_equal (fun z => map fst z ++ map (fun q => fst (snd q)) z)) in X as X1. apply (f_equal (map (fun q => snd (snd q)))) in X as X2.
    cbn [map fst snd List.app] in X1, X2. injection X1 as A1 B1 D1 E1 A2 B2 D2 E2. inversion X2 as [[A3 B3 D3 E3]]. rewrite ?A3, ?B3, ?D3, ?E3.
    repeat constructor; intros Z1 Z2; try (exfalso; apply Z1; congruence); try (rewrite ?A3, ?B3, ?D3, ?E3 in Z2; discriminate); lia.
  - revert X. unfold device_never_lowered. generalize rekeyed. intros l X H.
    destruct l as [|a [|b [|d [|e [|? ?]]]]]; try discriminate. cbn [map] in X.
    apply (f_equal (fun z => map fst z ++ map (fun q => fst (snd q)) z)) in X as X1. 
    cbn [map fst snd List.app] in X1. injection X1 as A1 B1 D1 E1 A2 B2 D2 E2.
    inversion H as [|? ? H1 H2]; subst. inversion H2; subst. lia.
  - split; vm_compute; reflexivity.
Qed.

Print Assumptions C100_sender_per_key.
Print Assumptions C100_new_keys_new_counters.
Print Assumptions C100_receiver_per_key.
Print Assumptions C100_again_means_two_keys_fit.
Print Assumptions two_epochs.
Print Assumptions a_receiver_with_new_keys.
