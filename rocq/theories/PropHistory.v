(** Properties C29, C30 (sender), C34, C35 (receiver) and C43 (end to end) over histories. *)
From Coq Require Import List Arith NArith ZArith Bool String Lia ZifyBool ZifyNat ZifyN Sorted.
From Verif Require Import ByteCrate Types HeaderModel BeaconModel CommandModel CcmModel FrameModel
  Spec SecSpec HistorySpec ProofLib HeaderProofs HeaderReadProofs BeaconProofs CommandProofs FrameProofs CcmProofs
  SecureProofs RepoTests Aes128 AesProofs PropHeader PropContent PropFrame PropSecure PropReceive.
Import ListNotations.
Open Scope N_scope.
Open Scope list_scope.
Ltac Zify.zify_post_hook ::= Z.div_mod_to_equations.

(** * Sending *)

Section Sender.
Context {K : Type} (c : cfg) (E : block_cipher K).
Hypothesis HE : cipher_ok E.
Implicit Types sc : SecurityContext K.

Definition calls_ok (calls : list call) : Prop := Forall (fun x => frame_ok (c_frame x)) calls.

Lemma at_counter_same sc : at_counter sc (sc_frame_counter sc) = sc.
Proof. now destruct sc. Qed.

(** The context after a write: the same, or the same with the next counter. *)
Lemma write_context f m sc buf : frame_ok f -> u32_ok (sc_frame_counter sc) ->
  exists n, fst (snd (try_write_frame c E f (ser_ctx m sc) buf)) = ser_ctx m (at_counter sc n) /\
    u32_ok n /\
    (n = sc_frame_counter sc \/ n = sc_frame_counter sc + 1 /\ n <= last_counter).
Proof.
  intros Hok Hfc. rewrite (C50_counter_use_exact c E HE f m sc buf Hok Hfc).
  match goal with |- context [if ?b then advanced sc else sc] => destruct b eqn:B end.
  - exists (sc_frame_counter sc + 1). split; [reflexivity|].
    destruct m; [|discriminate]. destruct (auxiliary_security_header (header f)); [|discriminate].
    repeat (apply andb_true_iff in B; destruct B as [B ?]).
    assert (sc_frame_counter sc <> last_counter).
    { intros X. match goal with H : negb (sc_frame_counter sc =? last_counter) = true |- _ => rewrite X in H; discriminate H end. }
    unfold u32_ok in *. change last_counter with 4294967295 in *. change (2 ^ 32) with 4294967296 in *. lia.
  - exists (sc_frame_counter sc). rewrite at_counter_same. auto.
Qed.

(** Every event of a history is a write with the initial context at some counter. *)
Definition is_write (sc : SecurityContext K) (e : sent) : Prop :=
  frame_ok (s_frame e) /\ u32_ok (s_before e) /\
  (s_after e = s_before e \/ s_after e = s_before e + 1 /\ s_after e <= last_counter) /\
  try_write_frame c E (s_frame e) (ser_ctx (c_mode (s_call e)) (at_counter sc (s_before e))) (c_buffer (s_call e))
  = (s_result e, (ser_ctx (c_mode (s_call e)) (at_counter sc (s_after e)), s_buffer e)).

Lemma send_all_inv calls : forall sc log sc', calls_ok calls -> u32_ok (sc_frame_counter sc) ->
  send_all c E sc calls = (log, sc') ->
  Forall (is_write sc) log /\ map s_call log = calls /\
  (exists n, sc' = at_counter sc n /\ u32_ok n /\ sc_frame_counter sc <= n /\
     Forall (fun e => sc_frame_counter sc <= s_before e /\ s_after e <= n) log) /\
  StronglySorted (fun e1 e2 => s_after e1 <= s_before e2) log.
Proof.
  induction calls as [|x rest IH]; intros sc log sc' Hc Hfc H.
  - cbn in H. injection H as <- <-. split; [constructor|]. split; [reflexivity|]. split; [|constructor].
    exists (sc_frame_counter sc). rewrite at_counter_same. repeat split; auto. apply N.le_refl.
  - cbn [send_all] in H. inversion Hc as [|? ? Hx Hr]; subst.
    destruct (write_context (c_frame x) (c_mode x) sc (c_buffer x) Hx Hfc) as (n & Ec & Hn & Hstep).
    destruct (try_write_frame c E (c_frame x) (ser_ctx (c_mode x) sc) (c_buffer x)) as [r [ctx buf]] eqn:W.
    cbn [fst snd] in Ec. subst ctx. cbn [ser_ctx security_ctx] in H.
    destruct (send_all c E (at_counter sc n) rest) as [log2 sc2] eqn:S. injection H as <- <-.
    destruct (IH (at_counter sc n) log2 sc2 Hr Hn S) as (I1 & I2 & (m & Em & Hm & Hle & I3) & I4).
    cbn [at_counter sc_frame_counter] in *.
    split; [|split; [|split]].
    + constructor.
      * unfold is_write, s_frame. cbn [s_call s_before s_after s_result s_buffer]. rewrite at_counter_same.
        split; [exact Hx|]. split; [exact Hfc|]. split; [exact Hstep|]. exact W.
      * exact I1.
    + cbn [map s_call]. now rewrite I2.
    + exists m. split; [exact Em|]. split; [exact Hm|]. split; [lia|]. constructor.
      * cbn [s_before s_after]. lia.
      * eapply Forall_impl; [|exact I3]. cbn. intros e He. lia.
    + constructor; [exact I4|]. eapply Forall_impl; [|exact I3]. cbn. intros e He. lia.
Qed.

Lemma sorted_map_impl {A B} (R : A -> A -> Prop) (S : B -> B -> Prop) (g : A -> B) (P : A -> Prop) l :
  StronglySorted R l -> Forall P l -> (forall x y, P x -> P y -> R x y -> S (g x) (g y)) -> StronglySorted S (map g l).
Proof.
  intros H HP HI. induction H as [|x l Hs IH Hx]; [constructor|]. inversion HP as [|? ? Px Pl]; subst. cbn. constructor.
  - now apply IH.
  - apply Forall_map. rewrite Forall_forall in *. intros y Hy. apply HI; auto.
Qed.

Lemma sorted_filter {A} (R : A -> A -> Prop) (p : A -> bool) l : StronglySorted R l -> StronglySorted R (filter p l).
Proof.
  induction 1 as [|x l Hs IH Hx]; [constructor|]. cbn. destruct (p x); [|exact IH]. constructor; [exact IH|].
  rewrite Forall_forall in *. intros y Hy. apply filter_In in Hy. now apply Hx.
Qed.

(** ** C29 Nonces are never reused *)

(** The counter moves by nothing or one per call, never back; EUI-64 and key provider stay. *)
Theorem C29_counter_never_decreases : forall sc calls log sc', calls_ok calls ->
  u32_ok (sc_frame_counter sc) -> send_all c E sc calls = (log, sc') ->
  map s_call log = calls /\
  Forall (fun e => s_after e = s_before e \/ s_after e = s_before e + 1) log /\
  StronglySorted N.le (map s_before log) /\
  sc_frame_counter sc <= sc_frame_counter sc' /\
  sc_euid sc' = sc_euid sc /\ sc_key_provider sc' = sc_key_provider sc.
Proof.
  intros sc calls log sc' Hc Hfc H.
  destruct (send_all_inv calls sc log sc' Hc Hfc H) as (I1 & I2 & (n & -> & Hn & Hle & I3) & I4).
  split; [exact I2|]. split; [eapply Forall_impl; [|exact I1]; intros e (_ & _ & He & _); tauto|].
  split; [|auto].
  eapply sorted_map_impl; [exact I4|exact I1|]. cbn. intros x y (_ & _ & Hx & _) _ Hxy. lia.
Qed.

(** Counter values used up by the calls of a history are strictly increasing. *)
Theorem C29_used_counters_increase : forall sc calls log sc', calls_ok calls ->
  u32_ok (sc_frame_counter sc) -> send_all c E sc calls = (log, sc') ->
  StronglySorted N.lt (map s_before (filter used log)).
Proof.
  intros sc calls log sc' Hc Hfc H.
  destruct (send_all_inv calls sc log sc' Hc Hfc H) as (I1 & I2 & _ & I4).
  eapply (sorted_map_impl _ _ _ (fun e => used e = true)).
  - apply sorted_filter. exact I4.
  - apply Forall_forall. intros e He. now apply filter_In in He.
  - intros x y Hx _ Hxy. cbn in *. unfold used in Hx. apply N.ltb_lt in Hx. lia.
Qed.

(** Nonces of the code under study are determined by, and determine, their three parts. *)
Theorem C29_nonce_injective : forall e1 e2 f1 f2 l1 l2, u64_ok e1 -> u64_ok e2 -> u32_ok f1 -> u32_ok f2 ->
  mac_nonce e1 f1 l1 = mac_nonce e2 f2 l2 -> e1 = e2 /\ f1 = f2 /\ l1 = l2.
Proof.
  intros e1 e2 f1 f2 l1 l2 H1 H2 H3 H4 H. unfold mac_nonce in H.
  assert (A : le 8 e1 = le 8 e2).
  { apply (f_equal (firstn 8)) in H. now rewrite !firstn_app_exact' in H by now rewrite le_length. }
  rewrite A in H. apply app_inv_head in H.
  assert (B : le 4 f1 = le 4 f2).
  { apply (f_equal (firstn 4)) in H. now rewrite !firstn_app_exact' in H by now rewrite le_length. }
  rewrite B in H. apply app_inv_head in H.
  assert (X : forall n v, v < 256 ^ N.of_nat n -> num_val LE (le n v) = v) by (intros; now apply (num_val_in_order LE)).
  split; [|split].
  - apply (f_equal (num_val LE)) in A. now rewrite !X in A by assumption.
  - apply (f_equal (num_val LE)) in B. now rewrite !X in B by assumption.
  - destruct l1, l2; cbn in H; congruence.
Qed.

(** Hence no two calls of a history use the same nonce - at whatever levels. *)
Theorem C29_nonces_distinct : forall sc calls log sc', calls_ok calls -> u64_ok (sc_euid sc) ->
  u32_ok (sc_frame_counter sc) -> send_all c E sc calls = (log, sc') ->
  NoDup (map (fun e => mac_nonce (sc_euid sc) (s_before e) (level_of e)) (filter used log)).
Proof.
  intros sc calls log sc' Hc He Hfc H.
  pose proof (C29_used_counters_increase sc calls log sc' Hc Hfc H) as S.
  destruct (send_all_inv calls sc log sc' Hc Hfc H) as (I1 & _).
  assert (F : Forall (is_write sc) (filter used log)).
  { rewrite Forall_forall in *. intros e Hin. apply filter_In in Hin. now apply I1. }
  revert S F. generalize (filter used log). intros l S F.
  induction l as [|x l IH]; [constructor|]. cbn [map] in *. inversion S as [|? ? S1 S2]; subst.
  inversion F as [|? ? F1 F2]; subst. constructor; [|now apply IH].
  intros Hin. apply in_map_iff in Hin. destruct Hin as (y & Ey & Hy).
  rewrite Forall_forall in F2. destruct (F2 y Hy) as (_ & U2 & _). destruct F1 as (_ & U1 & _).
  apply C29_nonce_injective in Ey; try assumption. destruct Ey as (_ & Ef & _).
  rewrite Forall_forall in S2. specialize (S2 (s_before y) (in_map s_before l y Hy)). lia.
Qed.

(** A frame produced at an authenticated level has used up a counter, and that counter is in the
    nonce its payload and tag were computed with, and in its header. *)
Theorem C29_secured_frame_uses_its_counter : forall sc calls log sc' e, calls_ok calls ->
  u32_ok (sc_frame_counter sc) -> send_all c E sc calls = (log, sc') ->
  In e log -> secured e = true ->
  s_after e = s_before e + 1 /\ s_before e < last_counter /\
  exists a eui key, auxiliary_security_header (header (s_frame e)) = Some a /\
    sc_key_provider sc DstAddrMode (key_identifier a) (destination (header (s_frame e))) = Some (eui, key) /\
    s_bytes e = wire_front (native c) (s_before e) (s_frame e)
      ++ secured_payload E key (level_of e) (sc_euid sc) (s_before e) (payload (s_frame e))
      ++ secured_tag E key (level_of e) (sc_euid sc) (s_before e) (payload (s_frame e)).
Proof.
  intros sc calls log sc' e Hc Hfc H Hin Hs.
  destruct (send_all_inv calls sc log sc' Hc Hfc H) as (I1 & _).
  rewrite Forall_forall in I1. destruct (I1 e Hin) as (Hok & Hb & Hstep & W).
  unfold secured in Hs. destruct (s_result e) as [n| |] eqn:Er; try discriminate.
  destruct (auxiliary_security_header (header (s_frame e))) as [a|] eqn:Ha; [|discriminate].
  destruct (C27_secured_frame_layout c E HE (s_frame e) (c_mode (s_call e)) (at_counter sc (s_before e)) a _ _ _ _ Hok Hb Ha Hs W) as (eui & key & Hk & Eb & _ & _ & Ectx).
  assert (Ea : s_after e = s_before e + 1).
  { unfold ser_ctx in Ectx. injection Ectx as Ex. exact Ex. }
  split; [exact Ea|]. split.
  { change last_counter with 4294967295 in *. lia. }
  exists a, eui, key. split; [reflexivity|]. split; [exact Hk|].
  unfold s_bytes, level_of. rewrite Er, Ha, Eb. unfold wire_front. now rewrite <- app_assoc.
Qed.

(** Counters carried by the secured frames of a history are strictly increasing. *)
Theorem C29_secured_counters_increase : forall sc calls log sc', calls_ok calls ->
  u32_ok (sc_frame_counter sc) -> send_all c E sc calls = (log, sc') ->
  StronglySorted N.lt (map s_before (filter secured log)).
Proof.
  intros sc calls log sc' Hc Hfc H.
  destruct (send_all_inv calls sc log sc' Hc Hfc H) as (_ & _ & _ & I4).
  eapply (sorted_map_impl _ _ _ (fun e => In e log /\ secured e = true)).
  - apply sorted_filter. exact I4.
  - apply Forall_forall. intros e He. now apply filter_In in He.
  - intros x y [Hx Sx] _ Hxy. cbn in *.
    destruct (C29_secured_frame_uses_its_counter sc calls log sc' x Hc Hfc H Hx Sx) as (Ex & _). lia.
Qed.

(** On a little-endian host a receiver reads that counter. *)
Theorem C29_counter_on_the_wire : forall sc calls log sc' e, calls_ok calls ->
  u32_ok (sc_frame_counter sc) -> native c = LE -> send_all c E sc calls = (log, sc') ->
  In e log -> secured e = true ->
  exists h n a, try_read_header c (s_bytes e) = Ok (h, n) /\ auxiliary_security_header h = Some a /\
    frame_counter a = s_before e.
Proof.
  intros sc calls log sc' e Hc Hfc Hn H Hin Hs.
  destruct (C29_secured_frame_uses_its_counter sc calls log sc' e Hc Hfc H Hin Hs) as (_ & _ & a & eui & key & Ha & Hk & Eb).
  destruct (send_all_inv calls sc log sc' Hc Hfc H) as (I1 & _).
  rewrite Forall_forall in I1. destruct (I1 e Hin) as (Hok & Hb & Hstep & W).
  assert (Hca : compression_ok (header (s_frame e)) = true).
  { unfold secured in Hs. destruct (s_result e) as [n| |] eqn:Er; try discriminate.
    destruct (write_ok_inv c E HE (s_frame e) (c_mode (s_call e)) (at_counter sc (s_before e)) _ _ _ _ Hok Hb W) as (bs & u & P & _). apply plan_ok in P.
    destruct P as (P & _). now apply compression_ok_iff. }
  exists (header_sent (s_before e) (header (s_frame e))). eexists. eexists. split; [|split].
  - rewrite Eb. unfold wire_front. rewrite <- !app_assoc. rewrite Hn at 1. apply try_read_header_complete; [reflexivity|].
    apply header_sent_decoded; [apply Hok|assumption|assumption].
  - unfold header_sent. cbn [auxiliary_security_header]. rewrite Ha. reflexivity.
  - reflexivity.
Qed.

End Sender.

(** A call that leaves the counter alone has not used the key: its result and everything it left
    in the buffer are the same under any other cipher and key provider. *)
Theorem C29_no_key_use_without_counter : forall K1 K2 (E1 : block_cipher K1) (E2 : block_cipher K2) c f m
    (sc1 : SecurityContext K1) (sc2 : SecurityContext K2) buf r ctx' buf',
  u32_ok (sc_frame_counter sc1) -> sc_frame_counter sc2 = sc_frame_counter sc1 ->
  try_write_frame c E1 f (ser_ctx m sc1) buf = (r, (ctx', buf')) -> ctx' = ser_ctx m sc1 ->
  try_write_frame c E2 f (ser_ctx m sc2) buf = (r, (ser_ctx m sc2, buf')).
Proof.
  intros K1 K2 E1 E2 c f m sc1 sc2 buf r ctx' buf' Hfc Hcnt.
  assert (HH : try_write_header c (header f) (Some sc2) = try_write_header c (header f) (Some sc1)).
  { unfold try_write_header. now rewrite Hcnt. }
  assert (SF : forall tl, match secure_frame c E1 f sc1 m tl with
    | (r1, (sc1', b)) => (sc1' = sc1 /\ secure_frame c E2 f sc2 m tl = (r1, (sc2, b))) \/
                         sc_frame_counter sc1' = sc_frame_counter sc1 + 1
    end).
  { intros tl. unfold secure_frame. destruct m; [|left; auto].
    destruct (has_security (header f)); [|left; auto].
    destruct (frame_type (header f)); try (left; now auto).
    destruct (auxiliary_security_header (header f)) as [a|]; [|left; auto].
    destruct (negb _); [left; auto|].
    destruct (write_with (write_slice (payload f)) (tl, 0%nat)) as [[[]|e|] [b o]]; try (left; now auto).
    rewrite Hcnt.
    assert (Y : security_level (control a) = SL_None \/ forall A (x y : A), match security_level (control a) with SL_None => x | _ => y end = y)
      by (destruct (security_level (control a)); auto).
    destruct Y as [Y|Y]; [rewrite Y; left; auto|]. rewrite !Y.
    destruct (N.eqb_spec (sc_frame_counter sc1) 4294967295) as [El|El]; [left; auto|].
    assert (Eu : u32_add (E := SecurityError) c (sc_frame_counter sc1) 1 = Ok (sc_frame_counter sc1 + 1)).
    { unfold u32_add. unfold u32_ok in Hfc. change (2 ^ 32) with 4294967296 in *.
      replace (sc_frame_counter sc1 + 1 <? 4294967296) with true by (symmetry; apply N.ltb_lt; lia). reflexivity. }
    rewrite Eu. clear Y.
    destruct (sc_key_provider (set_sc_frame_counter sc1 (sc_frame_counter sc1 + 1)) DstAddrMode (key_identifier a)
      (destination (header f))) as [[eui key]|]; [|right; reflexivity].
    destruct (level_use _); [|right; reflexivity].
    destruct (o <=? List.length b)%nat; [|right; reflexivity].
    destruct (do_secure _ _ _ _ _ _) as [[data tag]|]; [|right; reflexivity].
    destruct (write_with (write_slice tag) (data ++ skipn o b, o)) as [[[]|e|] [b' o']]; right; reflexivity. }
  assert (ND : forall sc', sc_frame_counter sc' = sc_frame_counter sc1 + 1 -> ser_ctx m sc' <> ser_ctx m sc1).
  { intros sc' H X. injection X as ->. lia. }
  unfold try_write_frame. cbn [ser_ctx security_ctx footer_mode]. rewrite HH.
  destruct ((write_with (try_write_header c (header f) (Some sc1)) >> write_with (try_write_content (content f)))
    (buf, 0%nat)) as [[[]|e|] [b o]].
  2,3: (intros W _; injection W as <- _ <-; reflexivity).
  destruct (o <=? List.length b)%nat; [|intros W _; injection W as <- _ <-; reflexivity].
  specialize (SF (skipn o b)).
  destruct (secure_frame c E1 f sc1 m (skipn o b)) as [r1 [sc1' tl]].
  destruct SF as [[-> ->]|Hadv].
  - destruct r1 as [len|e|].
    + destruct (write_tail f m true (firstn o b ++ tl, (o + len)%nat)) as [[[]|e|] [b' o']];
        intros W _; injection W as <- _ <-; reflexivity.
    + destruct e; try (intros W _; injection W as <- _ <-; reflexivity).
      destruct (write_tail f m false (firstn o b ++ tl, o)) as [[[]|e|] [b' o']];
        intros W _; injection W as <- _ <-; reflexivity.
    + intros W _; injection W as <- _ <-; reflexivity.
  - intros W Hc. exfalso. apply (ND sc1' Hadv). rewrite Hc in W. clear Hc ND HH. unfold ser_ctx in W |- *.
    destruct r1 as [len|e|].
    + destruct (write_tail f m true (firstn o b ++ tl, (o + len)%nat)) as [[[]|e|] [b' o']]; congruence.
    + destruct e; try congruence.
      destruct (write_tail f m false (firstn o b ++ tl, o)) as [[[]|e|] [b' o']]; congruence.
    + congruence.
Qed.

(** ** C30 Sender counter exhaustion *)
Section Exhaustion.
Context {K : Type} (c : cfg) (E : block_cipher K).
Hypothesis HE : cipher_ok E.
Implicit Types sc : SecurityContext K.

Theorem C30_exhausted_write_fails : forall f m sc a buf, frame_ok f -> sc_frame_counter sc = 0xFFFFFFFF ->
  auxiliary_security_header (header f) = Some a -> security_level (control a) <> SL_None ->
  (forall n, fst (try_write_frame c E f (ser_ctx m sc) buf) <> Ok n) /\
  fst (snd (try_write_frame c E f (ser_ctx m sc) buf)) = ser_ctx m sc.
Proof.
  intros f m sc a buf Hok Hlast Ha Hl.
  assert (Hfc : u32_ok (sc_frame_counter sc)) by (rewrite Hlast; reflexivity). split.
  - intros n W. destruct (try_write_frame c E f (ser_ctx m sc) buf) as [r [ctx' buf']] eqn:X. cbn [fst] in W. subst r.
    destruct (write_ok_inv c E HE f m sc buf n ctx' buf' Hok Hfc X) as (bs & u & P & _).
    apply plan_ok in P. rewrite Ha in P. destruct P as (_ & _ & _ & _ & P).
    replace (level_is_none (security_level (control a))) with false in P by (destruct (security_level (control a)); easy).
    destruct P as (_ & P & _). now apply P.
  - rewrite (C50_counter_use_exact c E HE f m sc buf Hok Hfc). f_equal.
    destruct m; [|reflexivity]. rewrite Ha. rewrite Hlast. change (4294967295 =? last_counter) with true.
    cbn [negb]. now rewrite andb_false_r.
Qed.

(** In no history does the counter wrap, and at its last value it stays. *)
Theorem C30_never_wraps : forall sc calls log sc', calls_ok calls ->
  u32_ok (sc_frame_counter sc) -> send_all c E sc calls = (log, sc') ->
  Forall (fun e => s_before e <= s_after e /\ s_after e <= 0xFFFFFFFF /\
                   (s_before e = 0xFFFFFFFF -> s_after e = 0xFFFFFFFF /\ secured e = false)) log /\
  sc_frame_counter sc <= sc_frame_counter sc' <= 0xFFFFFFFF.
Proof.
  intros sc calls log sc' Hc Hfc H.
  destruct (send_all_inv c E HE calls sc log sc' Hc Hfc H) as (I1 & I2 & (n & -> & Hn & Hle & I3) & I4).
  unfold u32_ok in Hn. change (2 ^ 32) with 4294967296 in Hn. split; [|cbn; lia].
  rewrite Forall_forall in *. intros e Hin. destruct (I1 e Hin) as (Hok & Hb & Hstep & W).
  unfold u32_ok in Hb. change (2 ^ 32) with 4294967296 in Hb. change last_counter with 4294967295 in *.
  split; [lia|]. split; [lia|]. intros Hlast. split; [lia|].
  destruct (secured e) eqn:Hs; [|reflexivity]. exfalso.
  destruct (C29_secured_frame_uses_its_counter c E HE sc calls log _ e Hc Hfc H Hin Hs) as (_ & X & _).
  change last_counter with 4294967295 in X. lia.
Qed.

End Exhaustion.

(** * Receiving *)

Section Receiver.
Context {K D : Type} (c : cfg) (E : block_cipher K).
Hypothesis HE : cipher_ok E.
Variables (dl : DeviceLookup D) (resolve : Address -> option N) (get : D -> N -> DeviceDescriptor).
Hypothesis Hstore : device_store dl resolve get.

Lemma store_lawful : lawful_lookup dl.
Proof.
  intros a ds. pose proof (Hstore a ds) as H. destruct (resolve a) as [i|].
  - destruct H as (put & -> & H & _). exact H.
  - now rewrite H.
Qed.

Lemma accepted_for_spec x (e : received K) f : accepted_for resolve x e = Some f <->
  exists n a s, r_result e = Ok (f, n) /\ auxiliary_security_header (header f) = Some a /\
    source (header f) = Some s /\ resolve s = Some x.
Proof.
  unfold accepted_for. split.
  - destruct (r_result e) as [[g n]| |]; try discriminate.
    destruct (auxiliary_security_header (header g)) as [a|] eqn:Ha; [|discriminate].
    destruct (source (header g)) as [s|] eqn:Hs; [|discriminate].
    destruct (resolve s) as [i|] eqn:Hr; [|discriminate].
    destruct (N.eqb_spec i x) as [->|]; [|discriminate]. intros X. injection X as <-. eauto 10.
  - intros (n & a & s & -> & -> & -> & ->). now rewrite N.eqb_refl.
Qed.

(** One reception and one descriptor. *)
Lemma step_store bs ctx ds r bs' ctx' ds' x : octets bs ->
  try_read_and_unsecure c E bs ctx dl ds = (r, (bs', ctx', ds')) ->
  match accepted_for (K := K) resolve x {| r_arrival := {| a_ctx := ctx; a_bytes := bs |}; r_result := r |} with
  | None => get ds' x = get ds x
  | Some f =>
      u32_ok (counter_in f) /\ dev_frame_counter (get ds x) <= counter_in f /\
      (counter_in f = last_counter -> overflow_checks c = false) /\
      get ds' x = {| dev_frame_counter := counter_after (counter_in f); dev_exempt := dev_exempt (get ds x) |}
  end.
Proof.
  intros Hb R.
  assert (Rej : ds' = ds -> get ds' x = get ds x) by now intros ->.
  destruct r as [[f n]|e|].
  2,3: cbn [accepted_for r_result]; apply Rej;
    (eapply C33_rejected_changes_nothing; [exact HE|exact Hb|exact store_lawful|exact R|]); congruence.
  destruct (auxiliary_security_header (header f)) as [a|] eqn:Ha.
  2:{ cbn [accepted_for r_result]. rewrite Ha. apply Rej.
      eapply C33_unsecured_changes_nothing; [exact HE|exact Hb|exact R|exact Ha]. }
  apply (C32_accepted_iff c E HE bs ctx dl ds f n bs' ctx' ds' a Hb Ha) in R.
  destruct R as (sc & eui & key & d & put & r7 & rs & _ & _ & Hd & _ & _ & A & _ & _ & _ & Hoc & _ & _ & ->).
  destruct A as (_ & _ & _ & _ & _ & (s & Hs & Hdl) & Hm & Hc).
  cbn [accepted_for r_result]. rewrite Ha, Hs.
  pose proof (Hstore s ds) as HS. destruct (resolve s) as [i|]; [|congruence].
  destruct HS as (put' & Hdl' & Hp1 & Hp2 & Hp3).
  rewrite Hdl in Hdl'. injection Hdl' as -> ->.
  destruct (N.eqb_spec i x) as [->|Hne].
  - unfold counter_in. rewrite Ha. split.
    { destruct Hd as ((_ & _ & _ & Hx) & _). rewrite Ha in Hx. apply Hx. }
    split; [exact Hc|]. split; [exact Hoc|]. apply Hp2.
  - apply Hp3. congruence.
Qed.

Definition counters (l : list (list N * Frame)) : list N := map (fun p => counter_in (snd p)) l.

Lemma accepted_cons x e (log : list (received K)) :
  accepted resolve x (e :: log)
  = match accepted_for resolve x e with Some f => [(a_bytes (r_arrival e), f)] | None => [] end ++ accepted resolve x log.
Proof. reflexivity. Qed.

(** ** C34 Replay protection over any history *)

Definition arrivals_ok (l : list (arrival K)) : Prop := Forall (fun x => octets (a_bytes x)) l.

(** The counters accepted for one descriptor are strictly increasing and start at the stored one,
    and the stored counter ends up behind the last of them - whatever the inputs, contexts and
    keys, and whatever else is received in between. The condition is about descriptor [x] only. *)
Theorem C34_accepted_counters_increase : forall arrivals ds log ds' x, arrivals_ok arrivals ->
  receive_all c E dl ds arrivals = (log, ds') ->
  overflow_checks c = true \/ Forall (fun fc => fc <> 0xFFFFFFFF) (counters (accepted resolve x log)) ->
  let cs := counters (accepted resolve x log) in
  StronglySorted N.lt cs /\
  Forall (fun fc => dev_frame_counter (get ds x) <= fc < dev_frame_counter (get ds' x)) cs /\
  dev_frame_counter (get ds' x) = last (map (fun fc => fc + 1) cs) (dev_frame_counter (get ds x)) /\
  dev_exempt (get ds' x) = dev_exempt (get ds x).
Proof.
  intros arrivals. induction arrivals as [|y rest IH]; intros ds log ds' x Ho H Hcond; cbv zeta.
  - cbn in H. injection H as <- <-. cbn. repeat split; constructor.
  - cbn [receive_all] in H. inversion Ho as [|? ? Hy Hr]; subst.
    destruct (try_read_and_unsecure c E (a_bytes y) (a_ctx y) dl ds) as [r [[bs' ctx'] ds1]] eqn:R.
    destruct (receive_all c E dl ds1 rest) as [log2 ds2] eqn:S. injection H as <- <-.
    pose proof (step_store _ _ _ _ _ _ _ x Hy R) as St.
    rewrite accepted_cons in *. cbn [r_arrival] in *.
    set (e := {| r_arrival := y; r_result := r |}) in *.
    replace (accepted_for resolve x {| r_arrival := {| a_ctx := a_ctx y; a_bytes := a_bytes y |}; r_result := r |})
      with (accepted_for resolve x e) in St by reflexivity.
    destruct (accepted_for resolve x e) as [f|].
    + destruct St as (Hu & Hle & Hoc & Hg). cbn [app counters map] in *. fold (counters (accepted resolve x log2)) in *.
      assert (Hn : counter_in f <> last_counter).
      { intros X. destruct Hcond as [Hcond|Hcond]; [rewrite (Hoc X) in Hcond; discriminate|].
        inversion Hcond; subst. now change last_counter with 4294967295 in X. }
      assert (Hg' : dev_frame_counter (get ds1 x) = counter_in f + 1).
      { rewrite Hg. cbn [dev_frame_counter]. rewrite counter_after_eq by assumption.
        destruct (N.eqb_spec (counter_in f) last_counter); congruence. }
      destruct (IH ds1 log2 ds2 x Hr S) as (I1 & I2 & I3 & I4).
      { destruct Hcond as [Hcond|Hcond]; [now left|right]. now inversion Hcond. }
      assert (Hd : counter_in f + 1 <= dev_frame_counter (get ds2 x)).
      { destruct (counters (accepted resolve x log2)) as [|z zs].
        - cbn in I3. lia.
        - inversion I2; subst. lia. }
      split; [|split; [|split]].
      * constructor; [exact I1|]. eapply Forall_impl; [|exact I2]. cbn. intros z Hz. lia.
      * constructor; [cbn [snd]; lia|]. eapply Forall_impl; [|exact I2]. cbn. intros z Hz. lia.
      * rewrite I3. cbn [map last snd]. rewrite Hg'.
        destruct (map (fun fc => fc + 1) (counters (accepted resolve x log2))) as [|z zs]; [reflexivity|].
        clear. revert z. induction zs as [|w ws IHw]; intros z; [reflexivity|]. cbn [last] in *. apply IHw.
      * rewrite I4, Hg. reflexivity.
    + cbn [app] in *.
      destruct (IH ds1 log2 ds2 x Hr S Hcond) as (I1 & I2 & I3 & I4).
      rewrite St in I2, I3, I4. auto.
Qed.

(** No input is accepted twice as a secured frame. *)
Theorem C34_no_replay : forall arrivals ds log ds' x, arrivals_ok arrivals ->
  receive_all c E dl ds arrivals = (log, ds') ->
  overflow_checks c = true \/ Forall (fun fc => fc <> 0xFFFFFFFF) (counters (accepted resolve x log)) ->
  NoDup (map fst (accepted resolve x log)).
Proof.
  intros arrivals ds log ds' x Ho H Hcond.
  destruct (C34_accepted_counters_increase arrivals ds log ds' x Ho H Hcond) as (S & _).
  (* the counter of an accepted frame is a function of the input *)
  assert (Fn : Forall (fun p => octets (fst p) /\
      forall h n, try_read_header c (fst p) = Ok (h, n) -> h = header (snd p)) (accepted resolve x log) /\
      Forall (fun p => exists n, try_read_header c (fst p) = Ok (header (snd p), n)) (accepted resolve x log)).
  { clear S Hcond. revert ds log ds' Ho H. induction arrivals as [|y rest IH]; intros ds log ds' Ho H.
    - cbn in H. injection H as <- <-. split; constructor.
    - cbn [receive_all] in H. inversion Ho as [|? ? Hy Hr]; subst.
      destruct (try_read_and_unsecure c E (a_bytes y) (a_ctx y) dl ds) as [r [[bs' ctx'] ds1]] eqn:R.
      destruct (receive_all c E dl ds1 rest) as [log2 ds2] eqn:S. injection H as <- <-.
      destruct (IH ds1 log2 ds2 Hr S) as [I1 I2].
      rewrite accepted_cons. cbn [r_arrival].
      destruct (accepted_for resolve x {| r_arrival := y; r_result := r |}) as [f|] eqn:Ef; cbn [app]; [|auto].
      apply accepted_for_spec in Ef. destruct Ef as (n & a & s & Er & Ha & Hs & Hx). cbn [r_result] in Er. subst r.
      apply (C32_accepted_iff c E HE (a_bytes y) (a_ctx y) dl ds f n bs' ctx' ds1 a Hy Ha) in R.
      destruct R as (sc & eui & key & d & put & r7 & rs & _ & _ & Hd & _ & _ & A & Hrs & Eb & _).
      assert (EH : try_read_header c (a_bytes y) = Ok (header f, header_len (header f)))
        by (rewrite Eb; now apply try_read_header_complete).
      split; constructor; auto; cbn [fst snd].
      + split; [exact Hy|]. intros h m X. congruence.
      + eauto. }
  destruct Fn as [_ Fn]. revert S Fn. generalize (accepted resolve x log). intros l.
  induction l as [|p l IH]; intros S Fn; [constructor|].
  cbn [counters map] in S. inversion S as [|? ? S1 S2]; subst. inversion Fn as [|? ? F1 F2]; subst.
  cbn [map]. constructor; [|now apply IH].
  intros Hin. apply in_map_iff in Hin. destruct Hin as (q & Eq & Hq).
  rewrite Forall_forall in F2, S2. destruct (F2 q Hq) as (n2 & X2). destruct F1 as (n1 & X1).
  rewrite Eq in X2. assert (Ehd : header (snd q) = header (snd p)) by congruence.
  specialize (S2 (counter_in (snd q)) (in_map (fun p => counter_in (snd p)) l q Hq)).
  unfold counter_in in S2. rewrite Ehd in S2. lia.
Qed.

(** ** C35 Replay protection at counter 0xFFFFFFFF *)

(** With overflow checks, a valid frame with that counter panics the receiver, every time, and is
    never accepted. *)
Theorem C35_last_counter_panics : forall bs ctx ds h n a sc eui key d put p, octets bs ->
  overflow_checks c = true -> ctx = ser_ctx Footer_None sc ->
  try_read_header c bs = Ok (h, n) -> admitted sc dl ds h a eui key d put ->
  frame_counter a = 0xFFFFFFFF ->
  verifies E key (security_level (control a)) eui (frame_counter a) (skipn n bs) p ->
  fst (try_read_and_unsecure c E bs ctx dl ds) = Panic /\ snd (snd (try_read_and_unsecure c E bs ctx dl ds)) = ds.
Proof.
  intros bs ctx ds h n a sc eui key d put p Hb Hoc -> EH A Hl V.
  assert (P : fst (try_read_and_unsecure c E bs (ser_ctx Footer_None sc) dl ds) = Panic).
  { apply C36_receive_panics_iff; [exact HE|exact Hb|]. pose proof A as (Ha & Ht & _).
    exists h, n, FC_Data, 0%nat, a, sc. split; [exact EH|]. split; [now rewrite try_read_content_eq, Ht|].
    split; [exact Ha|]. split; [reflexivity|]. right. exists eui, key, d, put. split; [exact A|].
    cbv zeta. right. split; [exact Hoc|]. split; [exact Hl|]. eauto. }
  split; [exact P|].
  destruct (try_read_and_unsecure c E bs (ser_ctx Footer_None sc) dl ds) as [r [[bs' ctx'] ds']] eqn:R.
  cbn [fst snd] in *. subst r.
  eapply C33_rejected_changes_nothing; [exact HE|exact Hb|exact store_lawful|exact R|congruence].
Qed.

(** Without overflow checks it is accepted, the stored counter becomes 0, and the same input is
    accepted again - as is any other frame of that device with a valid tag, however old. *)
Theorem C35_last_counter_reopens_window : forall bs ctx ds f n bs' ctx' ds' a, octets bs ->
  try_read_and_unsecure c E bs ctx dl ds = (Ok (f, n), (bs', ctx', ds')) ->
  auxiliary_security_header (header f) = Some a -> frame_counter a = 0xFFFFFFFF ->
  (exists s x, source (header f) = Some s /\ resolve s = Some x /\ dev_frame_counter (get ds' x) = 0) /\
  exists bs2 ds2, try_read_and_unsecure c E bs ctx dl ds' = (Ok (f, n), (bs2, ctx', ds2)).
Proof.
  intros bs ctx ds f n bs' ctx' ds' a Hb R Ha Hl. pose proof R as R0.
  apply (C32_accepted_iff c E HE bs ctx dl ds f n bs' ctx' ds' a Hb Ha) in R.
  destruct R as (sc & eui & key & d & put & r7 & rs & -> & -> & Hd & Hct & Hft & A & Hrs & Eb & Hlen & Hoc & En & Eb' & Eds).
  destruct A as (_ & Ht & Hv & Hau & Hk & (s & Hs & Hdl) & Hm & Hc).
  pose proof (Hstore s ds) as HS. destruct (resolve s) as [x|] eqn:Hr; [|congruence].
  destruct HS as (put' & Hdl' & Hp1 & Hp2 & Hp3). rewrite Hdl in Hdl'. injection Hdl' as -> ->.
  assert (Z : dev_frame_counter (get ds' x) = 0).
  { rewrite Eds, Hp2. cbn [dev_frame_counter]. rewrite Hl. reflexivity. }
  split; [exists s, x; auto|].
  pose proof (Hstore s ds') as HS'. rewrite Hr in HS'. destruct HS' as (put2 & Hdl2 & _).
  do 2 eexists. apply (C32_accepted_iff c E HE bs _ dl ds' f n _ _ _ a Hb Ha).
  exists sc, eui, key, (get ds' x), put2, r7, rs.
  repeat (split; [first [reflexivity|assumption]|]).
  split; [|repeat (split; [first [reflexivity|assumption]|]); reflexivity].
  unfold admitted. repeat (split; [assumption|]). split; [eauto|]. rewrite Z. split; [discriminate|apply N.le_0_l].
Qed.

End Receiver.

(** * C43 End-to-end ordering over an unreliable network *)

Lemma subsequence_nil {A} (l : list A) : subsequence [] l.
Proof. induction l; [constructor|now constructor]. Qed.
Lemma subsequence_refl {A} (l : list A) : subsequence l l.
Proof. induction l; [constructor|now apply sub_take]. Qed.
Lemma subsequence_in {A} (xs ys : list A) : subsequence xs ys -> forall x, In x xs -> In x ys.
Proof. induction 1; cbn; intros z Hz; [assumption|auto|intuition auto]. Qed.
Lemma subsequence_sorted {A} (R : A -> A -> Prop) xs ys : subsequence xs ys -> StronglySorted R ys -> StronglySorted R xs.
Proof.
  induction 1 as [|x xs ys S IH|x xs ys S IH]; intros H; [constructor|..]; inversion H as [|? ? H1 H2]; subst; [auto|].
  constructor; [auto|]. rewrite Forall_forall in *. intros y Hy. apply H2. eapply subsequence_in; eauto.
Qed.

Lemma sorted_subsequence {A} (key : A -> N) xs : forall ys,
  StronglySorted (fun a b => key a < key b) xs -> StronglySorted (fun a b => key a < key b) ys ->
  incl ys xs -> subsequence ys xs.
Proof.
  induction xs as [|x xs IH]; intros ys Hx Hy Hi.
  - destruct ys as [|y ys]; [constructor|]. exfalso. apply (Hi y). now left.
  - destruct ys as [|y ys]; [apply subsequence_nil|].
    inversion Hx as [|? ? X1 X2]; subst. inversion Hy as [|? ? Y1 Y2]; subst.
    rewrite Forall_forall in X2, Y2.
    destruct (Hi y (or_introl eq_refl)) as [Exy|Hin].
    + subst y. apply sub_take. apply IH; auto. intros z Hz. destruct (Hi z (or_intror Hz)) as [Ez|]; [|assumption].
      subst z. specialize (Y2 x Hz). lia.
    + apply sub_skip. apply IH; auto. intros z Hz. destruct (Hi z Hz) as [Ez|]; [|assumption]. subst z. exfalso.
      specialize (X2 y Hin). destruct Hz as [Ez|Hz]; [subst y; lia|]. specialize (Y2 x Hz). lia.
Qed.

(** The frame a receiver should see for a sent one. *)
Definition as_received (e : sent) : Frame := frame_sent Footer_None (s_before e) (s_frame e).

(** Receivers using context [ctx] find, for every frame sent by [sc] in [log], the sender's EUI-64
    and the key it was secured with. *)
Definition shares_keys {K} (sc : SecurityContext K) (log : list sent) (ctx : FrameSerDesContext K) : Prop :=
  forall e rsc a s eui key, In e log -> secured e = true -> security_ctx ctx = Some rsc ->
    auxiliary_security_header (header (s_frame e)) = Some a ->
    source (header (as_received e)) = Some s ->
    sc_key_provider sc DstAddrMode (key_identifier a) (destination (header (s_frame e))) = Some (eui, key) ->
    sc_key_provider rsc SrcAddrMode (key_identifier a) (Some s) = Some (sc_euid sc, key).

Section EndToEnd.
Context {K D : Type} (E : block_cipher K) (c1 c2 : cfg).
Hypothesis HE : cipher_ok E.
Hypothesis N1 : native c1 = LE.
Hypothesis N2 : native c2 = LE.
Variables (sc : SecurityContext K) (calls : list call) (slog : list sent) (sc' : SecurityContext K).
Hypothesis Hcalls : calls_ok calls.
Hypothesis Hcons : Forall (fun x => frame_consistent (c_frame x)) calls.
Hypothesis Hfc : u32_ok (sc_frame_counter sc).
Hypothesis Hsend : send_all c1 E sc calls = (slog, sc').

(** Facts about one secured event. *)
Lemma secured_event e : In e slog -> secured e = true ->
  is_write c1 E sc e /\ frame_consistent (s_frame e) /\ octets (s_bytes e) /\ s_before e < last_counter /\
  exists n a, s_result e = Ok n /\ auxiliary_security_header (header (s_frame e)) = Some a /\
    authenticated (security_level (control a)) = true /\ List.length (s_bytes e) = n /\
    (exists eui key, sc_key_provider sc DstAddrMode (key_identifier a) (destination (header (s_frame e))) = Some (eui, key)) /\
    exists k, try_read_header c2 (s_bytes e) = Ok (header (as_received e), k).
Proof.
  intros Hin Hs.
  destruct (send_all_inv c1 E HE calls sc slog sc' Hcalls Hfc Hsend) as (I1 & I2 & _).
  rewrite Forall_forall in I1. pose proof (I1 e Hin) as Hw. split; [exact Hw|].
  assert (Hce : frame_consistent (s_frame e)).
  { rewrite Forall_forall in Hcons. apply Hcons. rewrite <- I2. now apply in_map. }
  split; [exact Hce|].
  destruct (C29_secured_frame_uses_its_counter c1 E HE sc calls slog sc' e Hcalls Hfc Hsend Hin Hs)
    as (_ & Hlast & a & eui & key & Ha & Hk & Eb).
  destruct Hw as (Hok & Hb & Hstep & W).
  split. { rewrite Eb. pose proof Hok as (_ & _ & Hp & _). apply octets_app. split; [now apply octets_front|].
           apply octets_app. split; [now apply octets_secured_payload|now apply octets_secured_tag]. }
  split; [exact Hlast|].
  unfold secured in Hs. destruct (s_result e) as [n| |] eqn:Er; try discriminate.
  rewrite Ha in Hs. exists n, a. split; [reflexivity|]. split; [exact Ha|]. split; [exact Hs|].
  destruct (write_ok_inv c1 E HE (s_frame e) (c_mode (s_call e)) (at_counter sc (s_before e)) _ _ _ _ Hok Hb W)
    as (bs & u & P & L & En & _ & _ & F).
  split. { unfold s_bytes. rewrite Er, F. now symmetry. }
  split; [eauto|].
  apply plan_ok in P. destruct P as (Hca & _). apply compression_ok_iff in Hca.
  exists (header_len (header (as_received e))). rewrite Eb. unfold wire_front. rewrite <- !app_assoc.
  rewrite N1. replace (wire_header LE LE) with (wire_header LE (native c2)) by now rewrite N2.
  apply try_read_header_complete; [reflexivity|].
  apply header_sent_decoded; [apply Hok|assumption|assumption].
Qed.

Variables (dl : DeviceLookup D) (resolve : Address -> option N) (get : D -> N -> DeviceDescriptor).
Hypothesis Hstore : device_store dl resolve get.

(** Whoever is found to be the source of a sent frame, if it is received with the sender's keys
    and the counter is not behind, it is accepted as sent. *)
Lemma delivered e rsc s d put ds : In e slog -> secured e = true ->
  shares_keys sc slog (ser_ctx Footer_None rsc) -> version (header (s_frame e)) <> Ieee802154_2003 ->
  source (header (as_received e)) = Some s -> dl SrcAddrMode s ds = DevFound d put ->
  dev_frame_counter d <= s_before e ->
  exists bs', try_read_and_unsecure c2 E (s_bytes e) (ser_ctx Footer_None rsc) dl ds
  = (Ok (as_received e, (List.length (s_bytes e) - tag_len (level_of e))%nat),
     (bs', ser_ctx Footer_None rsc, put {| dev_frame_counter := s_before e + 1; dev_exempt := dev_exempt d |})).
Proof.
  intros Hin Hs Hkeys Hv Hsrc Hd Hle.
  destruct (secured_event e Hin Hs) as ((Hok & Hb & Hstep & W) & Hce & Ho & Hlast & n & a & Er & Ha & Hau & Ln & (eui & key & Hk) & _).
  assert (Hm : c_mode (s_call e) = Footer_None).
  { rewrite Er in W.
    destruct (write_ok_inv c1 E HE (s_frame e) (c_mode (s_call e)) (at_counter sc (s_before e)) _ _ _ _ Hok Hb W)
      as (bs & u & P & _). apply plan_ok in P. apply P. }
  rewrite Er, Hm in W.
  destruct (C28_secured_round_trip K D E c1 c2 (s_frame e) a (at_counter sc (s_before e)) _ n _ _ rsc dl ds s eui key d put
    HE N1 N2 Hok Hb Hce Hv Ha Hau W Hsrc Hk (Hkeys e rsc a s eui key Hin Hs eq_refl Ha Hsrc Hk) Hd Hle) as (bs' & R).
  exists bs'. unfold s_bytes in *. rewrite Er in *. unfold level_of. rewrite Ha, Ln. exact R.
Qed.

(** The network may drop, duplicate and reorder, and inject what it likes: as long as what is
    accepted for descriptor [x] was sent (no forged tags), the frames accepted for [x] are frames
    that were sent, in the order in which they were sent, each at most once. *)
Theorem C43_accepted_in_order_at_most_once : forall arrivals ds rlog ds' x, arrivals_ok arrivals ->
  receive_all c2 E dl ds arrivals = (rlog, ds') ->
  (forall y, In y arrivals -> shares_keys sc slog (a_ctx y)) ->
  (forall bs f, In (bs, f) (accepted resolve x rlog) -> In bs (map s_bytes (filter secured slog))) ->
  subsequence (accepted resolve x rlog)
              (map (fun e => (s_bytes e, as_received e)) (filter secured slog)).
Proof.
  intros arrivals ds rlog ds' x Ho Hr Hkeys Hauth.
  assert (Hin : incl (accepted resolve x rlog) (map (fun e => (s_bytes e, as_received e)) (filter secured slog))).
  { revert ds rlog ds' Ho Hr Hkeys Hauth. induction arrivals as [|y rest IH]; intros ds rlog ds' Ho Hr Hkeys Hauth.
    - cbn in Hr. injection Hr as <- <-. intros z [].
    - cbn [receive_all] in Hr. inversion Ho as [|? ? Hy Hrest]; subst.
      destruct (try_read_and_unsecure c2 E (a_bytes y) (a_ctx y) dl ds) as [r [[bs' ctx'] ds1]] eqn:R.
      destruct (receive_all c2 E dl ds1 rest) as [log2 ds2] eqn:S. injection Hr as <- <-.
      rewrite accepted_cons in *. cbn [r_arrival] in *.
      assert (I : incl (accepted resolve x log2) (map (fun e => (s_bytes e, as_received e)) (filter secured slog))).
      { eapply IH; [exact Hrest|exact S|intros z Hz; apply Hkeys; now right|].
        intros bs f Hf. apply (Hauth bs f). apply in_app_iff. now right. }
      destruct (accepted_for resolve x {| r_arrival := y; r_result := r |}) as [f|] eqn:Ef; [|exact I].
      intros z Hz. cbn [app] in Hz. destruct Hz as [<-|Hz]; [|now apply I].
      specialize (Hauth (a_bytes y) f ltac:(cbn; now left)).
      apply in_map_iff in Hauth. destruct Hauth as (e & Eb & He). apply in_map_iff. exists e. split; [|exact He].
      rewrite Eb. f_equal. apply filter_In in He. destruct He as [He Hs].
      destruct (secured_event e He Hs) as ((Hok & Hb & _ & _) & _ & _ & _ & n0 & a0 & _ & Ha0 & _ & _ & _ & k & EH).
      apply accepted_for_spec in Ef. destruct Ef as (n & a & s & Er & Ha & Hsrc & _). cbn [r_result] in Er. subst r.
      pose proof R as R0.
      apply (C32_accepted_iff c2 E HE (a_bytes y) (a_ctx y) dl ds f n bs' ctx' ds1 a Hy Ha) in R.
      destruct R as (rsc & eui & key & d & put & r7 & rs & Ectx & _ & Hd & _ & _ & A & Hrs & Ebs & _).
      assert (Ehd : header f = header (as_received e)).
      { assert (X : try_read_header c2 (a_bytes y) = Ok (header f, header_len (header f)))
          by (rewrite Ebs; now apply try_read_header_complete).
        rewrite Eb in EH. congruence. }
      destruct A as (_ & _ & Hv & _ & _ & (s' & Hs' & Hdl) & _ & Hle).
      assert (Ec : frame_counter a = s_before e).
      { rewrite Ehd in Ha. unfold as_received, frame_sent, header_sent in Ha. cbn [header auxiliary_security_header] in Ha.
        rewrite Ha0 in Ha. injection Ha as <-. reflexivity. }
      pose proof (Hkeys y (or_introl eq_refl)) as Hky. rewrite Ectx in Hky, R0.
      destruct (delivered e rsc s' d put ds He Hs Hky) as (bs2 & R2);
        [now rewrite Ehd in Hv|now rewrite Ehd in Hs'|exact Hdl|now rewrite <- Ec|].
      rewrite Eb, R0 in R2. congruence. }
  assert (Hcnt : forall e, In e (filter secured slog) -> counter_in (as_received e) = s_before e /\ s_before e <> 0xFFFFFFFF).
  { intros e He. apply filter_In in He. destruct He as [He Hs].
    destruct (secured_event e He Hs) as (_ & _ & _ & Hl & n0 & a0 & _ & Ha0 & _). split.
    - unfold counter_in, as_received, frame_sent, header_sent. cbn [header auxiliary_security_header]. now rewrite Ha0.
    - change last_counter with 4294967295 in Hl. lia. }
  apply (sorted_subsequence (fun p => counter_in (snd p))).
  - pose proof (C29_secured_counters_increase c1 E HE sc calls slog sc' Hcalls Hfc Hsend) as S.
    assert (G : Forall (fun e => counter_in (as_received e) = s_before e) (filter secured slog)).
    { apply Forall_forall. intros e He. now apply Hcnt. }
    revert S G. generalize (filter secured slog). intros l. induction l as [|e l IH]; intros S G; [constructor|].
    cbn [map] in *. inversion S as [|? ? S1 S2]; subst. inversion G as [|? ? G1 G2]; subst. constructor; [now apply IH|].
    apply Forall_map. rewrite Forall_forall in *. intros z Hz. cbn [snd]. rewrite G1, (G2 z Hz).
    apply S2. now apply in_map.
  - assert (Hcond : Forall (fun fc => fc <> 0xFFFFFFFF) (counters (accepted resolve x rlog))).
    { unfold counters. apply Forall_map. rewrite Forall_forall. intros p Hp. apply Hin in Hp.
      apply in_map_iff in Hp. destruct Hp as (e & <- & He). cbn [snd]. destruct (Hcnt e He) as [-> H]. exact H. }
    destruct (C34_accepted_counters_increase c2 E HE dl resolve get Hstore arrivals ds rlog ds' x Ho Hr (or_intror Hcond)) as (S & _).
    revert S. unfold counters. generalize (accepted resolve x rlog). intros l. induction l as [|p l IH]; intros S; [constructor|].
    cbn [map] in S. inversion S as [|? ? S1 S2]; subst. constructor; [now apply IH|].
    rewrite Forall_forall in *. intros q Hq. apply S2. now apply (in_map (fun p => counter_in (snd p))).
  - exact Hin.
Qed.

(** Without reordering nothing that arrives is lost: if any of the sent frames arrive in the order
    in which they were sent, each once, every one of them is accepted as sent. *)
Theorem C43_in_order_delivery_accepted : forall es rsc ds x rlog ds', subsequence es (filter secured slog) ->
  shares_keys sc slog (ser_ctx Footer_None rsc) ->
  Forall (fun e => version (header (s_frame e)) <> Ieee802154_2003 /\
                   exists s, source (header (as_received e)) = Some s /\ resolve s = Some x) es ->
  dev_frame_counter (get ds x) <= sc_frame_counter sc ->
  receive_all c2 E dl ds (map (fun e => {| a_ctx := ser_ctx Footer_None rsc; a_bytes := s_bytes e |}) es) = (rlog, ds') ->
  map r_result rlog
  = map (fun e => Ok (as_received e, (List.length (s_bytes e) - tag_len (level_of e))%nat)) es.
Proof.
  intros es rsc ds x rlog ds' Hsub Hkeys Hes Hle Hr.
  destruct (send_all_inv c1 E HE calls sc slog sc' Hcalls Hfc Hsend) as (_ & _ & (m & _ & _ & _ & I3) & I4).
  assert (Hin : Forall (fun e => In e slog /\ secured e = true) es).
  { apply Forall_forall. intros e He. apply (subsequence_in _ _ Hsub) in He. now apply filter_In in He. }
  assert (Hs : StronglySorted (fun e1 e2 => s_after e1 <= s_before e2) es).
  { eapply subsequence_sorted; [exact Hsub|]. now apply sorted_filter. }
  assert (Hge : Forall (fun e => dev_frame_counter (get ds x) <= s_before e) es).
  { rewrite Forall_forall in *. intros e He. destruct (Hin e He) as [Hi _]. specialize (I3 e Hi). lia. }
  clear Hsub Hle I3 I4 m. revert ds rlog ds' Hr Hge. induction es as [|e es IH]; intros ds rlog ds' Hr Hge.
  - cbn in Hr. injection Hr as <- <-. reflexivity.
  - inversion Hin as [|? ? [He Hsec] Hin']; subst. inversion Hs as [|? ? Hs1 Hs2]; subst.
    inversion Hge as [|? ? Hg Hge']; subst. inversion Hes as [|? ? [Hv (s & Hsrc & Hres)] Hes']; subst.
    cbn [map receive_all a_bytes a_ctx] in Hr.
    pose proof (Hstore s ds) as HS. rewrite Hres in HS. destruct HS as (put & Hdl & _ & Hp2 & _).
    destruct (delivered e rsc s (get ds x) put ds He Hsec Hkeys Hv Hsrc Hdl Hg) as (bs' & R).
    rewrite R in Hr.
    destruct (receive_all c2 E dl (put {| dev_frame_counter := s_before e + 1; dev_exempt := dev_exempt (get ds x) |})
      (map (fun e0 => {| a_ctx := ser_ctx Footer_None rsc; a_bytes := s_bytes e0 |}) es)) as [log2 ds2] eqn:S.
    injection Hr as <- <-. cbn [map r_result]. f_equal.
    eapply IH; [exact Hes'|exact Hin'|exact Hs1|exact S|].
    rewrite Hp2. cbn [dev_frame_counter].
    destruct (C29_secured_frame_uses_its_counter c1 E HE sc calls slog sc' e Hcalls Hfc Hsend He Hsec) as (Ea & _).
    rewrite Forall_forall in *. intros z Hz. specialize (Hs2 z Hz). lia.
Qed.

End EndToEnd.

(** * Concrete cases: the hypotheses above are met *)

(** Descriptors for a fixed set of extended addresses, as an application would keep them. *)
Definition known (keys : list N) : Type := {t : table | map fst t = keys}.
Lemma table_put_keys x d t : map fst (table_put x d t) = map fst t.
Proof. induction t as [|[y e] t IH]; [reflexivity|]. cbn. destruct (x =? y); cbn; [reflexivity|now rewrite IH]. Qed.
Lemma table_get_put x d t : table_get x (table_put x d t) = if existsb (N.eqb x) (map fst t) then Some d else None.
Proof.
  induction t as [|[y e] t IH]; [reflexivity|]. cbn. destruct (x =? y) eqn:E; cbn; rewrite E; [reflexivity|exact IH].
Qed.
Lemma table_get_put_other x y d t : y <> x -> table_get y (table_put x d t) = table_get y t.
Proof.
  intros H. induction t as [|[z e] t IH]; [reflexivity|]. cbn. destruct (N.eqb_spec x z); cbn.
  - subst z. destruct (N.eqb_spec y x); [contradiction|reflexivity].
  - destruct (y =? z); [reflexivity|exact IH].
Qed.
Lemma table_get_known x t : existsb (N.eqb x) (map fst t) = is_some (table_get x t).
Proof. induction t as [|[y e] t IH]; [reflexivity|]. cbn. destruct (x =? y); [reflexivity|exact IH]. Qed.
Lemma known_eq keys (s t : known keys) : proj1_sig s = proj1_sig t -> s = t.
Proof.
  destruct s as [s Hs], t as [t Ht]. cbn. intros <-. f_equal. apply Eqdep_dec.UIP_dec. apply list_eq_dec, N.eq_dec.
Qed.
Definition known_put {keys} (s : known keys) (x : N) (d : DeviceDescriptor) : known keys :=
  exist _ (table_put x d (proj1_sig s)) (eq_trans (table_put_keys x d (proj1_sig s)) (proj2_sig s)).
Definition known_get {keys} (s : known keys) (x : N) : DeviceDescriptor :=
  match table_get x (proj1_sig s) with Some d => d | None => dev 0 end.
Definition known_resolve (keys : list N) (a : Address) : option N :=
  match a with Extended _ x => if existsb (N.eqb x) keys then Some x else None | Short _ _ => None end.
Definition known_lookup (keys : list N) : DeviceLookup (known keys) := fun _ a s =>
  match known_resolve keys a with
  | Some x => DevFound (known_get s x) (known_put s x)
  | None => DevMissing s
  end.

Example known_is_a_store keys : device_store (known_lookup keys) (known_resolve keys) known_get.
Proof.
  intros a s. unfold known_lookup. destruct (known_resolve keys a) as [x|] eqn:R; [|reflexivity].
  exists (known_put s x). split; [reflexivity|].
  assert (Hx : existsb (N.eqb x) (map fst (proj1_sig s)) = true).
  { rewrite (proj2_sig s). destruct a as [|p y]; [discriminate|]. cbn in R. destruct (existsb (N.eqb y) keys) eqn:E; [|discriminate].
    injection R as <-. exact E. }
  split; [|split].
  - apply known_eq. cbn. unfold known_get. rewrite table_get_known in Hx.
    destruct (table_get x (proj1_sig s)) as [d|] eqn:G; [|discriminate]. now apply table_put_same.
  - intros d. unfold known_get. cbn. now rewrite table_get_put, Hx.
  - intros d j Hj. unfold known_get. cbn. now rewrite table_get_put_other.
Qed.

(** C29: a history with two secured frames, two failures that use up a counter (no key mapping:
    short destination; level ENC; no room for the tag) and three that do not. *)
Definition at_level l b p n : call :=
  {| c_mode := Footer_None; c_frame := level_frame l b p; c_buffer := repeat 0 n |}.
Definition some_calls : list call :=
  [at_level SL_MIC32 false [1;2;3] 60; at_level SL_ENC false [1;2;3] 60; at_level SL_None false [1;2;3] 60;
   at_level SL_MIC32 false (repeat 5 100) 200; at_level SL_MIC128 true [1] 30; at_level SL_ENCMIC64 true [4;5] 60;
   at_level SL_ENCMIC128 true [6] 127].
Definition sender (fc : N) : SecurityContext (list N) := SecurityContext_new 1 fc static_key_lookup.
Definition some_log : list sent := fst (send_all host aes_cipher (sender 41) some_calls).
Lemma some_calls_ok : calls_ok some_calls.
Proof.
  repeat constructor; (apply level_frame_ok || idtac); try reflexivity;
  try (apply Forall_forall; intros x Hx; apply repeat_spec in Hx; subst x; reflexivity); repeat constructor.
Qed.
Example a_sending_history :
  calls_ok some_calls /\ u32_ok (sc_frame_counter (sender 41)) /\
  map (fun e => (s_result e, s_before e, s_after e, used e, secured e)) some_log
  = [(Ok 36%nat, 41, 42, true, true); (Err (BadInput "NotImplemented"), 42, 43, true, false);
     (Ok 32%nat, 43, 43, false, false); (Err (BadInput "FrameTooLong"), 43, 43, false, false);
     (Err Incomplete, 43, 44, true, false); (Ok 37%nat, 44, 45, true, true); (Ok 44%nat, 45, 46, true, true)].
Proof. split; [exact some_calls_ok|]. vm_compute. split; reflexivity. Qed.

(** C30: the last counter value is never sent. *)
Example an_exhausted_history :
  map (fun e => (s_result e, s_before e, s_after e))
    (fst (send_all host aes_cipher (sender 0xFFFFFFFE)
       [at_level SL_MIC32 false [1] 60; at_level SL_MIC32 false [1] 60; at_level SL_None false [1] 60; at_level SL_ENCMIC64 false [1] 60]))
  = [(Ok 34%nat, 0xFFFFFFFE, 0xFFFFFFFF); (Err (BadInput "CounterError"), 0xFFFFFFFF, 0xFFFFFFFF);
     (Ok 30%nat, 0xFFFFFFFF, 0xFFFFFFFF); (Err (BadInput "CounterError"), 0xFFFFFFFF, 0xFFFFFFFF)].
Proof. vm_compute. reflexivity. Qed.

(** C34, C43: duplicated, reordered, corrupted and foreign arrivals. *)
Definition sent_bytes (i : nat) : list N := nth i (map s_bytes (filter secured some_log)) [].
Definition arrives bs : arrival (list N) := {| a_ctx := aes_ctx 7 0; a_bytes := bs |}.
Definition one_device fc : known [1] := exist _ [(1, dev fc)] eq_refl.
Definition two_devices : known [5; 1] := exist _ [(5, dev 9); (1, dev 40)] eq_refl.
Definition some_arrivals : list (arrival (list N)) :=
  [arrives (flip_octet 29 (sent_bytes 0)); arrives (sent_bytes 0); arrives (sent_bytes 0); arrives []; arrives [255; 255; 255];
   arrives (sent_bytes 2); arrives (sent_bytes 1); arrives (sent_bytes 2); arrives (sent_bytes 0)].
Definition some_receptions := receive_all host aes_cipher (known_lookup [5; 1]) two_devices some_arrivals.
Lemma arrivals_octets (l : list (arrival (list N))) :
  forallb (fun x => forallb (fun b => b <? 256) (a_bytes x)) l = true -> arrivals_ok l.
Proof.
  intros H. apply Forall_forall. intros x Hx. rewrite forallb_forall in H. specialize (H x Hx).
  rewrite forallb_forall in H. apply Forall_forall. intros b Hb. apply N.ltb_lt. now apply H.
Qed.
Example a_receiving_history :
  arrivals_ok some_arrivals /\
  map (fun e => match r_result e with Ok (f, n) => Ok (payload f, n) | Err x => Err x | Panic => Panic end) (fst some_receptions)
  = [Err TransformationError; Ok ([1;2;3], 32%nat); Err CounterError; Err (WriteError Incomplete); Err (WriteError (BadInput "InvalidFrameVersion"));
     Ok ([6], 28%nat); Err CounterError; Err CounterError; Err CounterError] /\
  map snd (accepted (known_resolve [5; 1]) 1 (fst some_receptions))
  = map (fun i => as_received (nth i (filter secured some_log) (nth 0 some_log
      {| s_call := at_level SL_None true [] 0; s_before := 0; s_result := Panic; s_after := 0; s_buffer := [] |}))) [0%nat; 2%nat] /\
  proj1_sig (snd some_receptions) = [(5, dev 9); (1, dev 46)].
Proof.
  split; [apply arrivals_octets; vm_compute; reflexivity|]. vm_compute. repeat split.
Qed.

(** C35: a frame with counter 0xFFFFFFFF, as another implementation may send it. Without overflow
    checks the same octets are accepted twice - and after them an old frame of the same device -
    so replay protection does not hold there; with overflow checks the receiver panics. *)
Definition last_frame : Frame := level_frame SL_ENCMIC64 true [1;2;3].
Definition last_bytes : list N :=
  wire_front LE 0xFFFFFFFF last_frame
  ++ secured_payload aes_cipher (repeat 0 16) SL_ENCMIC64 1 0xFFFFFFFF [1;2;3]
  ++ secured_tag aes_cipher (repeat 0 16) SL_ENCMIC64 1 0xFFFFFFFF [1;2;3].
Theorem C35_replay_protection_refuted :
  exists (keys : list N) (ds : known keys) arrivals log ds' x,
    arrivals_ok arrivals /\ receive_all release aes_cipher (known_lookup keys) ds arrivals = (log, ds') /\
    ~ NoDup (map fst (accepted (known_resolve keys) x log)).
Proof.
  exists [1], (one_device 40), [arrives last_bytes; arrives last_bytes].
  do 2 eexists. exists 1. split; [apply arrivals_octets; vm_compute; reflexivity|].
  split; [apply surjective_pairing|].
  intros H. remember (map fst _) as l eqn:El in H. vm_compute in El. subst l.
  inversion H as [|? ? Hn _]; subst. apply Hn. now left.
Qed.
Example last_counter_cases :
  (map (fun e => match r_result e with Ok (f, n) => Ok (payload f, n) | Err x => Err x | Panic => Panic end)
     (fst (receive_all release aes_cipher (known_lookup [1]) (one_device 46)
        [arrives (sent_bytes 0); arrives last_bytes; arrives last_bytes; arrives (sent_bytes 0)]))
   = [Err CounterError; Ok ([1;2;3], 30%nat); Ok ([1;2;3], 30%nat); Ok ([1;2;3], 32%nat)]) /\
  (let r := receive_all host aes_cipher (known_lookup [1]) (one_device 46) [arrives last_bytes; arrives last_bytes] in
   map r_result (fst r) = [Panic; Panic] /\ proj1_sig (snd r) = [(1, dev 46)]).
Proof. vm_compute. repeat split. Qed.

(** C43: a receiver with the same keys, and its hypotheses for the history above. *)
Example some_receiver_shares_keys fc : shares_keys (sender 41) some_log (aes_ctx 7 fc).
Proof.
  intros e rsc a s eui key Hin Hs Hrsc Ha Hsrc Hk. injection Hrsc as <-.
  assert (L : Forall (fun e => source (header (as_received e)) = Some (Extended 0x111 1) /\
     exists p, destination (header (s_frame e)) = Some (Extended p 2)) some_log).
  { apply Forall_forall. intros z Hz.
    assert (X : Forall (fun x => exists l b p, c_frame x = level_frame l b p) some_calls)
      by (repeat constructor; do 3 eexists; reflexivity).
    assert (Y : map s_call some_log = some_calls) by (vm_compute; reflexivity).
    rewrite Forall_forall in X. pose proof (in_map s_call some_log z Hz) as Hz'. rewrite Y in Hz'.
    destruct (X (s_call z) Hz') as (l & b & p & Ez).
    unfold as_received, s_frame. rewrite Ez. destruct b; (split; [reflexivity|eexists; reflexivity]). }
  rewrite Forall_forall in L. destruct (L e Hin) as [L1 (p & L2)].
  rewrite L1 in Hsrc. injection Hsrc as <-. rewrite L2 in Hk. cbn in Hk |- *. injection Hk as <- <-. reflexivity.
Qed.
Definition no_event : sent := {| s_call := at_level SL_None true [] 0; s_before := 0; s_result := Panic; s_after := 0; s_buffer := [] |}.
Example some_frames_delivered :
  let es := [nth 0 (filter secured some_log) no_event; nth 2 (filter secured some_log) no_event] in
  calls_ok some_calls /\ Forall (fun x => frame_consistent (c_frame x)) some_calls /\
  subsequence es (filter secured some_log) /\
  Forall (fun e => version (header (s_frame e)) <> Ieee802154_2003 /\
            exists s, source (header (as_received e)) = Some s /\ known_resolve [5; 1] s = Some 1) es /\
  dev_frame_counter (known_get two_devices 1) <= sc_frame_counter (sender 41) /\
  map (fun e => match r_result e with Ok (f, n) => Ok (payload f, n) | Err x => Err x | Panic => Panic end)
    (fst (receive_all release aes_cipher (known_lookup [5; 1]) two_devices (map (fun e => arrives (s_bytes e)) es)))
  = [Ok ([1;2;3], 32%nat); Ok ([6], 28%nat)].
Proof.
  cbv zeta. split; [exact some_calls_ok|]. split; [repeat constructor|].
  split. { remember (filter secured some_log) as l eqn:El. vm_compute in El. subst l. cbn [nth].
           apply sub_take, sub_skip, sub_take, sub_nil. }
  split. { remember (filter secured some_log) as l eqn:El. vm_compute in El. subst l. cbn [nth].
           repeat constructor; try discriminate; eexists; split; reflexivity. }
  split; [discriminate|]. vm_compute. reflexivity.
Qed.

Print Assumptions C29_counter_never_decreases.
Print Assumptions C29_used_counters_increase.
Print Assumptions C29_nonce_injective.
Print Assumptions C29_nonces_distinct.
Print Assumptions C29_secured_frame_uses_its_counter.
Print Assumptions C29_secured_counters_increase.
Print Assumptions C29_counter_on_the_wire.
Print Assumptions C29_no_key_use_without_counter.
Print Assumptions C30_exhausted_write_fails.
Print Assumptions C30_never_wraps.
Print Assumptions C34_accepted_counters_increase.
Print Assumptions C34_no_replay.
Print Assumptions C35_last_counter_panics.
Print Assumptions C35_last_counter_reopens_window.
Print Assumptions C43_accepted_in_order_at_most_once.
Print Assumptions C43_in_order_delivery_accepted.
Print Assumptions C35_replay_protection_refuted.
