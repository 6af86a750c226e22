(** Properties C55, C59, C60, C61: several senders, restarts, and independence of devices. *)
From Coq Require Import List Arith NArith ZArith Bool String Lia ZifyBool ZifyNat ZifyN Sorting.Sorted.
From Verif Require Import ByteCrate Types HeaderModel BeaconModel CommandModel CcmModel FrameModel
  Spec SecSpec HistorySpec RestartSpec ProofLib HeaderProofs HeaderReadProofs BeaconProofs CommandProofs FrameProofs CcmProofs
  SecureProofs RepoTests Aes128 AesProofs PropHeader PropContent PropFrame PropSecure PropReceive PropHistory.
Import ListNotations.
Open Scope N_scope.
Open Scope list_scope.
Ltac Zify.zify_post_hook ::= Z.div_mod_to_equations.

Lemma NoDup_app {A} (l m : list A) : NoDup l -> NoDup m -> (forall x, In x l -> ~ In x m) -> NoDup (l ++ m).
Proof.
  induction 1 as [|x l Hx Hl IH]; intros Hm Hd; [exact Hm|]. cbn. constructor.
  - rewrite in_app_iff. intros [H|H]; [contradiction|]. apply (Hd x); [now left|exact H].
  - apply IH; [exact Hm|]. intros y Hy. apply Hd. now right.
Qed.

Section Senders.
Context {K : Type} (c : cfg) (E : block_cipher K).
Hypothesis HE : cipher_ok E.

(** Every nonce of a history has the sender's EUI-64 and a counter between start and end. *)
Lemma nonces_in sc calls log sc' x : calls_ok calls -> u32_ok (sc_frame_counter sc) ->
  send_all c E sc calls = (log, sc') -> In x (nonces sc log) ->
  exists n l, x = mac_nonce (sc_euid sc) n l /\ u32_ok n /\ sc_frame_counter sc <= n < sc_frame_counter sc'.
Proof.
  intros Hc Hfc H Hx. unfold nonces in Hx. apply in_map_iff in Hx. destruct Hx as (e & <- & He).
  apply filter_In in He. destruct He as [He Hu]. unfold used in Hu. apply N.ltb_lt in Hu.
  destruct (send_all_inv c E HE calls sc log sc' Hc Hfc H) as (I1 & _ & (n & -> & Hn & _ & I3) & _).
  rewrite Forall_forall in *. destruct (I1 e He) as (_ & Hb & _). specialize (I3 e He).
  exists (s_before e), (level_of e). cbn [sc_frame_counter at_counter]. repeat split; try assumption; lia.
Qed.

(** ** C55 Senders with different EUI-64 never share a nonce *)
Theorem C55_nonces_distinct_across_senders : forall (runs : list (SecurityContext K * list call)),
  NoDup (map (fun r => sc_euid (fst r)) runs) ->
  Forall (fun r => calls_ok (snd r) /\ u64_ok (sc_euid (fst r)) /\ u32_ok (sc_frame_counter (fst r))) runs ->
  NoDup (flat_map (fun r => nonces (fst r) (fst (send_all c E (fst r) (snd r)))) runs).
Proof.
  intros runs. induction runs as [|[sc calls] runs IH]; intros Hd Ho; [constructor|].
  cbn [map fst] in Hd. inversion Hd as [|? ? Hn Hd']; subst. inversion Ho as [|? ? (Hc & He & Hf) Ho']; subst.
  cbn [fst snd] in *. cbn [flat_map fst snd]. apply NoDup_app.
  - destruct (send_all c E sc calls) as [log sc'] eqn:S. cbn [fst].
    exact (C29_nonces_distinct c E HE sc calls log sc' Hc He Hf S).
  - now apply IH.
  - intros x Hx Hy. destruct (send_all c E sc calls) as [log sc'] eqn:S. cbn [fst] in Hx.
    destruct (nonces_in sc calls log sc' x Hc Hf S Hx) as (n & l & -> & Hn1 & _).
    apply in_flat_map in Hy. destruct Hy as ([sc2 calls2] & Hin & Hy). cbn [fst snd] in Hy.
    rewrite Forall_forall in Ho'. destruct (Ho' _ Hin) as (Hc2 & He2 & Hf2). cbn [fst snd] in *.
    destruct (send_all c E sc2 calls2) as [log2 sc2'] eqn:S2. cbn [fst] in Hy.
    destruct (nonces_in sc2 calls2 log2 sc2' _ Hc2 Hf2 S2 Hy) as (n2 & l2 & Ex & Hn2 & _).
    apply C29_nonce_injective in Ex; try assumption. destruct Ex as (Ee & _ & _).
    apply Hn. rewrite Ee. apply in_map_iff. exists (sc2, calls2). auto.
Qed.

(** ** C59 Sender restarts *)

(** If every life starts at or beyond where all earlier ones ended, no nonce is ever used twice -
    whatever was called, and wherever the crashes were. *)
Theorem C59_resuming_ahead_is_safe : forall sc lives, u64_ok (sc_euid sc) ->
  Forall (fun l => calls_ok (l_calls l) /\ u32_ok (l_start l)) lives ->
  resumes_ahead (map (live c E sc) lives) ->
  NoDup (flat_map (fun d => nonces sc (d_log d)) (map (live c E sc) lives)).
Proof.
  intros sc lives He. induction lives as [|l lives IH]; intros Ho R; [constructor|].
  inversion Ho as [|? ? [Hc Hf] Ho']; subst. cbn [map] in R. inversion R as [|? ? R1 R2]; subst.
  cbn [map flat_map]. apply NoDup_app.
  - unfold live. destruct (send_all c E (at_counter sc (l_start l)) (l_calls l)) as [log sc'] eqn:S. cbn [d_log].
    exact (C29_nonces_distinct c E HE (at_counter sc (l_start l)) (l_calls l) log sc' Hc He Hf S).
  - now apply IH.
  - intros x Hx Hy. apply in_flat_map in Hy. destruct Hy as (d & Hd & Hy).
    rewrite Forall_forall in R2. specialize (R2 d Hd).
    apply in_map_iff in Hd. destruct Hd as (l2 & <- & Hl2).
    rewrite Forall_forall in Ho'. destruct (Ho' l2 Hl2) as [Hc2 Hf2].
    unfold live in *.
    destruct (send_all c E (at_counter sc (l_start l)) (l_calls l)) as [log sc'] eqn:S.
    destruct (send_all c E (at_counter sc (l_start l2)) (l_calls l2)) as [log2 sc2'] eqn:S2.
    cbn [d_log d_end d_life] in *.
    destruct (nonces_in (at_counter sc (l_start l)) (l_calls l) log sc' x Hc Hf S Hx) as (n & lv & -> & Hn1 & Hn2).
    destruct (nonces_in (at_counter sc (l_start l2)) (l_calls l2) log2 sc2' _ Hc2 Hf2 S2 Hy) as (n2 & lv2 & Ex & Hn3 & Hn4).
    cbn [at_counter sc_euid sc_frame_counter] in *.
    apply C29_nonce_injective in Ex; try assumption. destruct Ex as (_ & En & _). lia.
Qed.

(** What the reuse of a counter costs: two frames encrypted at one level by contexts with the same
    EUI-64, counter and key reveal the difference of their payloads, octet by octet. *)
Theorem C59_reused_counter_leaks : forall f1 f2 sc1 sc2 m1 m2 buf1 buf2 n1 n2 ctx1 ctx2 buf1' buf2' a1 a2 l e1 e2 key i,
  frame_ok f1 -> frame_ok f2 -> u32_ok (sc_frame_counter sc1) ->
  sc_euid sc2 = sc_euid sc1 -> sc_frame_counter sc2 = sc_frame_counter sc1 ->
  auxiliary_security_header (header f1) = Some a1 -> auxiliary_security_header (header f2) = Some a2 ->
  security_level (control a1) = l -> security_level (control a2) = l -> encrypting l = true ->
  sc_key_provider sc1 DstAddrMode (key_identifier a1) (destination (header f1)) = Some (e1, key) ->
  sc_key_provider sc2 DstAddrMode (key_identifier a2) (destination (header f2)) = Some (e2, key) ->
  try_write_frame c E f1 (ser_ctx m1 sc1) buf1 = (Ok n1, (ctx1, buf1')) ->
  try_write_frame c E f2 (ser_ctx m2 sc2) buf2 = (Ok n2, (ctx2, buf2')) ->
  let start f := List.length (wire_front (native c) (sc_frame_counter sc1) f) in
  (i < List.length (payload f1))%nat -> (i < List.length (payload f2))%nat ->
  N.lxor (octet buf1' (start f1 + i)) (octet buf2' (start f2 + i)) = N.lxor (octet (payload f1) i) (octet (payload f2) i).
Proof.
  intros f1 f2 sc1 sc2 m1 m2 buf1 buf2 n1 n2 ctx1 ctx2 buf1' buf2' a1 a2 l e1 e2 key i
    Hok1 Hok2 Hfc Ee Ec Ha1 Ha2 Hl1 Hl2 Hl Hk1 Hk2 W1 W2 start L1 L2.
  assert (Au : authenticated l = true) by now destruct l.
  assert (G : forall f sc m buf n ctx buf' a e, frame_ok f -> u32_ok (sc_frame_counter sc) ->
    auxiliary_security_header (header f) = Some a -> security_level (control a) = l ->
    sc_key_provider sc DstAddrMode (key_identifier a) (destination (header f)) = Some (e, key) ->
    try_write_frame c E f (ser_ctx m sc) buf = (Ok n, (ctx, buf')) -> (i < List.length (payload f))%nat ->
    octet buf' (List.length (wire_front (native c) (sc_frame_counter sc) f) + i)
    = N.lxor (octet (payload f) i)
        (octet (key_stream E key (mac_nonce (sc_euid sc) (sc_frame_counter sc) l) (1 + i / 16)) (i mod 16))).
  { intros f sc m buf n ctx buf' a e Hok Hf Ha Hla Hk W L.
    destruct (C27_secured_frame_layout c E HE f m sc a buf n ctx buf' Hok Hf Ha) as (eui & k & Hk' & F & En & _); [now rewrite Hla|exact W|].
    rewrite Hk in Hk'. injection Hk' as <- <-. rewrite Hla in F.
    unfold octet at 1.
    assert (X : nth (List.length (wire_front (native c) (sc_frame_counter sc) f) + i) (firstn n buf') 0
              = octet (secured_payload E key l (sc_euid sc) (sc_frame_counter sc) (payload f)) i).
    { rewrite F. rewrite app_assoc. fold (wire_front (native c) (sc_frame_counter sc) f).
      rewrite app_nth2_plus, app_nth1 by now rewrite secured_payload_length. reflexivity. }
    rewrite <- (firstn_skipn n buf'), app_nth1.
    - rewrite X. unfold secured_payload. destruct l; try discriminate; unfold ccm_cipher; now rewrite octet_xor_at.
    - rewrite F, !app_length, secured_payload_length. unfold wire_front. rewrite app_length. lia. }
  pose proof (G f1 sc1 m1 buf1 n1 ctx1 buf1' a1 e1 Hok1 Hfc Ha1 Hl1 Hk1 W1 L1) as G1.
  assert (Hfc2 : u32_ok (sc_frame_counter sc2)) by now rewrite Ec.
  pose proof (G f2 sc2 m2 buf2 n2 ctx2 buf2' a2 e2 Hok2 Hfc2 Ha2 Hl2 Hk2 W2 L2) as G2.
  unfold start. rewrite Ec, Ee in G2. rewrite G1, G2.
  rewrite (N.lxor_comm (octet (payload f2) i)), N.lxor_assoc, <- (N.lxor_assoc _ _ (octet (payload f2) i)).
  now rewrite N.lxor_nilpotent, N.lxor_0_l.
Qed.

End Senders.

Section Receivers.
Context {K D : Type} (c : cfg) (E : block_cipher K).
Hypothesis HE : cipher_ok E.
Variables (dl : DeviceLookup D) (resolve : Address -> option N) (get : D -> N -> DeviceDescriptor).
Hypothesis Hstore : device_store dl resolve get.

Lemma receive_all_app l1 : forall ds l2,
  receive_all c E dl ds (l1 ++ l2)
  = let '(log1, ds1) := receive_all c E dl ds l1 in
    let '(log2, ds2) := receive_all c E dl ds1 l2 in (log1 ++ log2, ds2).
Proof.
  induction l1 as [|y l1 IH]; intros ds l2; cbn [app receive_all].
  - now destruct (receive_all c E dl ds l2).
  - destruct (try_read_and_unsecure c E (a_bytes y) (a_ctx y) dl ds) as [r [[bs' ctx'] ds1]].
    rewrite IH. destruct (receive_all c E dl ds1 l1) as [log1 ds2]. now destruct (receive_all c E dl ds2 l2).
Qed.

Lemma accepted_app x (l1 l2 : list (received K)) : accepted resolve x (l1 ++ l2) = accepted resolve x l1 ++ accepted resolve x l2.
Proof. unfold accepted. apply flat_map_app. Qed.

(** ** C60 Receiver restarts *)

(** A receiver that, after a crash, goes on from a device store it saved earlier: what it accepted
    before saving is not accepted again, whatever it did between saving and the crash. *)
Theorem C60_restored_store : forall before after ds log1 saved log2 ds' x,
  arrivals_ok before -> arrivals_ok after ->
  receive_all c E dl ds before = (log1, saved) ->
  receive_all c E dl saved after = (log2, ds') ->
  overflow_checks c = true \/
    Forall (fun fc => fc <> 0xFFFFFFFF) (counters (accepted resolve x log1) ++ counters (accepted resolve x log2)) ->
  NoDup (map fst (accepted resolve x log1 ++ accepted resolve x log2)) /\
  StronglySorted N.lt (counters (accepted resolve x log1) ++ counters (accepted resolve x log2)) /\
  Forall (fun fc => dev_frame_counter (get saved x) <= fc) (counters (accepted resolve x log2)).
Proof.
  intros before after ds log1 saved log2 ds' x Ho1 Ho2 R1 R2 Hcond.
  assert (R : receive_all c E dl ds (before ++ after) = (log1 ++ log2, ds')) by now rewrite receive_all_app, R1, R2.
  assert (Ho : arrivals_ok (before ++ after)) by now apply Forall_app.
  assert (Ec : counters (accepted resolve x log1) ++ counters (accepted resolve x log2)
             = counters (accepted resolve x (log1 ++ log2))) by (rewrite accepted_app; unfold counters; now rewrite map_app).
  rewrite Ec in *. rewrite <- accepted_app. split; [|split].
  - exact (C34_no_replay c E HE dl resolve get Hstore _ _ _ _ x Ho R Hcond).
  - exact (proj1 (C34_accepted_counters_increase c E HE dl resolve get Hstore _ _ _ _ x Ho R Hcond)).
  - destruct (C34_accepted_counters_increase c E HE dl resolve get Hstore _ _ _ _ x Ho2 R2) as (_ & H & _).
    + destruct Hcond as [|Hcond]; [now left|right]. rewrite <- Ec in Hcond. now apply Forall_app in Hcond.
    + eapply Forall_impl; [|exact H]. cbn. intros z Hz. lia.
Qed.

(** ** C61 Devices do not interfere *)

(** What a reception returns depends on the store only through the descriptor of the device the
    octets claim to come from. *)
Lemma same_for_claimed bs ctx ds1 ds2 r1 b1 c1 ds1' r2 b2 c2 ds2' x : octets bs ->
  claims (K := K) c resolve x {| a_ctx := ctx; a_bytes := bs |} = true -> get ds1 x = get ds2 x ->
  try_read_and_unsecure c E bs ctx dl ds1 = (r1, (b1, c1, ds1')) ->
  try_read_and_unsecure c E bs ctx dl ds2 = (r2, (b2, c2, ds2')) ->
  r1 = r2 /\ get ds1' x = get ds2' x.
Proof.
  intros Hb Hcl Hg R1 R2. unfold claims in Hcl. cbn [a_bytes] in Hcl.
  destruct (try_read_header c bs) as [[h n]|e|] eqn:EH; try discriminate.
  destruct (source h) as [s|] eqn:Hs; [|discriminate]. destruct (resolve s) as [i|] eqn:Hr; [|discriminate].
  apply N.eqb_eq in Hcl. subst i.
  destruct (read_cases c E HE bs ctx dl ds1 Hb) as
    [(e & X & Y)|[(h1 & n1 & EH1 & Hh & g & Eg & Ef & X)|(h1 & n1 & ct & k & b & EH1 & EC & Lnk & Hh & Hfc & X)]];
  destruct (read_cases c E HE bs ctx dl ds2 Hb) as
    [(e2 & X2 & Y2)|[(h2 & n2 & EH2 & Hh2 & g2 & Eg2 & Ef2 & X2)|(h2 & n2 & ct2 & k2 & b' & EH2 & EC2 & Lnk2 & Hh2 & Hfc2 & X2)]].
  - rewrite X in R1. rewrite X2 in R2. apply pair_equal_spec in R1, R2. destruct R1 as [<- R1], R2 as [<- R2].
    apply triple_inj in R1, R2. destruct R1 as (_ & _ & <-), R2 as (_ & _ & <-). split; [|exact Hg].
    destruct Y as [Y|(? & ? & Y & Z)], Y2 as [Y2|(? & ? & Y2 & Z2)]; congruence.
  - exfalso. destruct Y as [Y|(h1 & n1 & Y & Z)]; [congruence|].
    assert (Eh1 : h1 = h2 /\ n1 = n2) by (split; congruence). destruct Eh1 as [-> ->].
    pose proof (try_read_header_len c bs h2 n2 EH2) as Ln.
    unfold try_read_frame in Ef2. rewrite (read_with_eq (try_read_header c)) in Ef2 by lia. cbn [skipn] in Ef2.
    rewrite EH2 in Ef2. cbn [obind] in Ef2. replace (0 + n2)%nat with n2 in Ef2 by lia. rewrite read_with_eq in Ef2 by lia.
    rewrite Z in Ef2. discriminate.
  - exfalso. destruct Y as [Y|(h1 & n1 & Y & Z)]; [congruence|].
    assert (Eh1 : h1 = h2 /\ n1 = n2) by (split; congruence). destruct Eh1 as [-> ->]. congruence.
  - exfalso. destruct Y2 as [Y2|(h2 & n2 & Y2 & Z2)]; [congruence|].
    assert (Eh1 : h1 = h2 /\ n1 = n2) by (split; congruence). destruct Eh1 as [-> ->].
    pose proof (try_read_header_len c bs h2 n2 EH1) as Ln.
    unfold try_read_frame in Ef. rewrite (read_with_eq (try_read_header c)) in Ef by lia. cbn [skipn] in Ef.
    rewrite EH1 in Ef. cbn [obind] in Ef. replace (0 + n2)%nat with n2 in Ef by lia. rewrite read_with_eq in Ef by lia.
    rewrite Z2 in Ef. discriminate.
  - rewrite X in R1. rewrite X2 in R2. apply pair_equal_spec in R1, R2. destruct R1 as [<- R1], R2 as [<- R2].
    apply triple_inj in R1, R2. destruct R1 as (_ & _ & <-), R2 as (_ & _ & <-). split; [congruence|exact Hg].
  - exfalso. congruence.
  - exfalso. destruct Y2 as [Y2|(h2 & n2 & Y2 & Z2)]; [congruence|].
    assert (Eh1 : h1 = h2 /\ n1 = n2) by (split; congruence). destruct Eh1 as [-> ->]. congruence.
  - exfalso. congruence.
  - assert (Eh : h1 = h /\ h2 = h /\ n1 = n /\ n2 = n) by (repeat split; congruence).
    destruct Eh as (-> & -> & -> & ->). assert (Eb : b' = b /\ ct2 = ct /\ k2 = k) by (repeat split; congruence).
    destruct Eb as (-> & -> & ->). clear EH1 EH2 Hh2 EC2 Lnk2 Hfc2.
    destruct (security_ctx ctx) as [sc|].
    2:{ rewrite X in R1. rewrite X2 in R2. apply pair_equal_spec in R1, R2. destruct R1 as [<- R1], R2 as [<- R2].
        apply triple_inj in R1, R2. destruct R1 as (_ & _ & <-), R2 as (_ & _ & <-). auto. }
    destruct (footer_mode ctx).
    2:{ rewrite X in R1. rewrite X2 in R2. apply pair_equal_spec in R1, R2. destruct R1 as [<- R1], R2 as [<- R2].
        apply triple_inj in R1, R2. destruct R1 as (_ & _ & <-), R2 as (_ & _ & <-). auto. }
    assert (Q : fst (fst (receive E (overflow_checks c) sc dl ds1 h b (skipn (n + k) bs)))
              = fst (fst (receive E (overflow_checks c) sc dl ds2 h b (skipn (n + k) bs))) /\
              get (snd (receive E (overflow_checks c) sc dl ds1 h b (skipn (n + k) bs))) x
              = get (snd (receive E (overflow_checks c) sc dl ds2 h b (skipn (n + k) bs))) x).
    { pose proof (Hstore s ds1) as S1. pose proof (Hstore s ds2) as S2. rewrite Hr in S1, S2.
      destruct S1 as (put1 & D1 & P1 & G1 & _), S2 as (put2 & D2 & P2 & G2 & _).
      unfold receive. cbv zeta. rewrite Hs, D1, D2, <- Hg.
      destruct (negb (is_data h)); [auto|]. destruct (match version h with Ieee802154_2003 => true | _ => false end); [auto|].
      destruct (level_is_none (security_level (control b))); [auto|].
      destruct (sc_key_provider sc SrcAddrMode (key_identifier b) (Some s)) as [[eui key]|]; [|auto].
      repeat match goal with |- context [if ?t then _ else _] => destruct t end; cbn [fst snd]; rewrite ?G1, ?G2; auto. }
    destruct (receive E (overflow_checks c) sc dl ds1 h b (skipn (n + k) bs)) as [[q1 rest1] e1].
    destruct (receive E (overflow_checks c) sc dl ds2 h b (skipn (n + k) bs)) as [[q2 rest2] e2].
    cbn [fst snd] in Q. destruct Q as [<- Q].
    rewrite X in R1. rewrite X2 in R2. apply pair_equal_spec in R1, R2. destruct R1 as [<- R1], R2 as [<- R2].
    apply triple_inj in R1, R2. destruct R1 as (_ & _ & <-), R2 as (_ & _ & <-). split; [reflexivity|exact Q].
Qed.

(** Octets that do not claim to come from [x] leave the descriptor of [x] alone. *)
Lemma unclaimed_keeps bs ctx ds r b' c' ds' x : octets bs ->
  claims (K := K) c resolve x {| a_ctx := ctx; a_bytes := bs |} = false ->
  try_read_and_unsecure c E bs ctx dl ds = (r, (b', c', ds')) -> get ds' x = get ds x.
Proof.
  intros Hb Hcl R. pose proof (step_store c E HE dl resolve get Hstore bs ctx ds r b' c' ds' x Hb R) as S.
  destruct (accepted_for resolve x {| r_arrival := {| a_ctx := ctx; a_bytes := bs |}; r_result := r |}) as [f|] eqn:Ef; [|exact S].
  exfalso. apply accepted_for_spec in Ef. destruct Ef as (n & a & s & Er & Ha & Hs & Hx). cbn [r_result] in Er. subst r.
  apply (C32_accepted_iff c E HE bs ctx dl ds f n b' c' ds' a Hb Ha) in R.
  destruct R as (sc & eui & key & d & put & r7 & rs & _ & _ & Hd & _ & _ & A & Hrs & Eb & _).
  assert (EH : try_read_header c bs = Ok (header f, header_len (header f)))
    by (rewrite Eb; now apply try_read_header_complete).
  unfold claims in Hcl. cbn [a_bytes] in Hcl. rewrite EH, Hs, Hx, N.eqb_refl in Hcl. discriminate.
Qed.

(** Deleting everything that does not claim to come from [x] changes no result for the rest, nor
    the final descriptor of [x]: traffic of, or in the name of, other devices cannot make frames
    of [x] be accepted or refused. *)
Theorem C61_other_devices_do_not_interfere : forall arrivals ds log ds' x, arrivals_ok arrivals ->
  receive_all c E dl ds arrivals = (log, ds') ->
  exists ds2,
    receive_all c E dl ds (filter (claims c resolve x) arrivals)
    = (filter (fun e => claims c resolve x (r_arrival e)) log, ds2) /\
    get ds2 x = get ds' x.
Proof.
  intros arrivals ds log ds' x.
  enough (Gen : forall ds0, get ds0 x = get ds x -> arrivals_ok arrivals -> receive_all c E dl ds arrivals = (log, ds') ->
    exists ds2, receive_all c E dl ds0 (filter (claims c resolve x) arrivals)
      = (filter (fun e => claims c resolve x (r_arrival e)) log, ds2) /\ get ds2 x = get ds' x)
    by now apply Gen.
  intros ds0. revert ds0 ds log ds'.
  induction arrivals as [|y rest IH]; intros ds0 ds log ds' G Ho R.
  - cbn in R. injection R as <- <-. exists ds0. auto.
  - inversion Ho as [|? ? Hy Hr]; subst. cbn [receive_all] in R.
    destruct (try_read_and_unsecure c E (a_bytes y) (a_ctx y) dl ds) as [r [[bs' ctx'] ds1]] eqn:R1.
    destruct (receive_all c E dl ds1 rest) as [log2 ds2] eqn:S. injection R as <- <-.
    cbn [filter r_arrival]. destruct (claims c resolve x y) eqn:Hc.
    + cbn [receive_all].
      destruct (try_read_and_unsecure c E (a_bytes y) (a_ctx y) dl ds0) as [r0 [[bs0 ctx0] ds01]] eqn:R0.
      destruct (same_for_claimed (a_bytes y) (a_ctx y) ds0 ds r0 bs0 ctx0 ds01 r bs' ctx' ds1 x Hy) as [-> G1];
        [destruct y; exact Hc|exact G|exact R0|exact R1|].
      destruct (IH ds01 ds1 log2 ds2 G1 Hr S) as (ds3 & I1 & I2). rewrite I1. exists ds3. auto.
    + apply (IH ds0 ds1 log2 ds2); [|exact Hr|exact S]. rewrite G. symmetry.
      apply (unclaimed_keeps (a_bytes y) (a_ctx y) ds r bs' ctx' ds1 x Hy); [destruct y; exact Hc|exact R1].
Qed.

(** Deleting everything that is refused (errors and panics) changes nothing for the rest: forged,
    damaged, replayed or malformed input cannot make a genuine frame be refused later. *)
Theorem C61_refused_input_leaves_no_trace : forall arrivals ds log ds', arrivals_ok arrivals ->
  receive_all c E dl ds arrivals = (log, ds') ->
  receive_all c E dl ds (map r_arrival (filter was_accepted log)) = (filter was_accepted log, ds').
Proof.
  intros arrivals. induction arrivals as [|y rest IH]; intros ds log ds' Ho R.
  - cbn in R. injection R as <- <-. reflexivity.
  - inversion Ho as [|? ? Hy Hr]; subst. cbn [receive_all] in R.
    destruct (try_read_and_unsecure c E (a_bytes y) (a_ctx y) dl ds) as [r [[bs' ctx'] ds1]] eqn:R1.
    destruct (receive_all c E dl ds1 rest) as [log2 ds2] eqn:S. injection R as <- <-.
    cbn [filter]. unfold was_accepted at 1 3. cbn [r_result].
    destruct r as [z|e|].
    + cbn [map receive_all r_arrival]. rewrite R1. now rewrite (IH ds1 log2 ds2 Hr S).
    + assert (ds1 = ds).
      { eapply C33_rejected_changes_nothing; [exact HE|exact Hy|exact (store_lawful dl resolve get Hstore)|exact R1|congruence]. }
      subst ds1. exact (IH ds log2 ds2 Hr S).
    + assert (ds1 = ds).
      { eapply C33_rejected_changes_nothing; [exact HE|exact Hy|exact (store_lawful dl resolve get Hstore)|exact R1|congruence]. }
      subst ds1. exact (IH ds log2 ds2 Hr S).
Qed.

End Receivers.

(** ** Concrete cases *)

(** Two senders, and one sender through three lives (the second one ends in failures). *)
Definition sender_of (eui fc : N) : SecurityContext (list N) := SecurityContext_new eui fc static_key_lookup.
Definition three_lives : list life :=
  [{| l_start := 41; l_calls := some_calls |};
   {| l_start := 46; l_calls := [at_level SL_MIC64 true [1] 20; at_level SL_ENC true [1] 60] |};
   {| l_start := 100; l_calls := [at_level SL_MIC32 true [1] 60] |}].
Example a_life_with_crashes :
  resumes_ahead (map (live host aes_cipher (sender_of 1 0)) three_lives) /\
  Forall (fun l => calls_ok (l_calls l) /\ u32_ok (l_start l)) three_lives /\
  map (fun d => (l_start (d_life d), map s_before (filter used (d_log d)), d_end d)) (map (live host aes_cipher (sender_of 1 0)) three_lives)
  = [(41, [41; 42; 43; 44; 45], 46); (46, [46], 47); (100, [100], 101)].
Proof.
  assert (X : map (fun d => (l_start (d_life d), map s_before (filter used (d_log d)), d_end d))
                (map (live host aes_cipher (sender_of 1 0)) three_lives)
            = [(41, [41; 42; 43; 44; 45], 46); (46, [46], 47); (100, [100], 101)]) by (vm_compute; reflexivity).
  split; [|split; [|exact X]].
  - unfold resumes_ahead. cbn [map three_lives] in *.
    generalize dependent (live host aes_cipher (sender_of 1 0) {| l_start := 41; l_calls := some_calls |}). intros d1.
    generalize (live host aes_cipher (sender_of 1 0) {| l_start := 46; l_calls := [at_level SL_MIC64 true [1] 20; at_level SL_ENC true [1] 60] |}). intros d2.
    generalize (live host aes_cipher (sender_of 1 0) {| l_start := 100; l_calls := [at_level SL_MIC32 true [1] 60] |}). intros d3 X.
    injection X as A1 A2 A3 B1 B2 B3 C1 C2 C3. repeat constructor; rewrite ?A3, ?B1, ?B3, ?C1; discriminate.
  - repeat constructor; try reflexivity; try apply some_calls_ok; cbn; repeat constructor.
Qed.

(** A sender that comes back with the counter it started with uses a nonce again. *)
Theorem C59_stale_counter_refuted : exists (sc : SecurityContext (list N)) lives,
  u64_ok (sc_euid sc) /\ Forall (fun l => calls_ok (l_calls l) /\ u32_ok (l_start l)) lives /\
  ~ NoDup (flat_map (fun d => nonces sc (d_log d)) (map (live host aes_cipher sc) lives)).
Proof.
  exists (sender_of 1 0), (repeat {| l_start := 41; l_calls := [at_level SL_ENCMIC32 true [1] 60] |} 2).
  split; [reflexivity|]. split; [repeat constructor|].
  intros H. remember (flat_map _ _) as l eqn:El in H. vm_compute in El. subst l.
  inversion H as [|? ? Hn _]; subst. apply Hn. now left.
Qed.

Example two_senders :
  map (fun r => List.length (nonces (fst r) (fst (send_all host aes_cipher (fst r) (snd r)))))
    [(sender_of 1 41, some_calls); (sender_of 2 41, some_calls)] = [5%nat; 5%nat].
Proof. vm_compute. reflexivity. Qed.

(** What was accepted after the store was saved can be accepted once more after the crash. *)
Theorem C60_rollback_refuted : exists (ds : known [5; 1]) before between after log1 saved log2 log3 lost ds',
  arrivals_ok before /\ arrivals_ok between /\ arrivals_ok after /\
  receive_all host aes_cipher (known_lookup [5; 1]) ds before = (log1, saved) /\
  receive_all host aes_cipher (known_lookup [5; 1]) saved between = (log2, lost) /\
  receive_all host aes_cipher (known_lookup [5; 1]) saved after = (log3, ds') /\
  accepted (known_resolve [5; 1]) 1 log1 <> [] /\
  ~ NoDup (map fst (accepted (known_resolve [5; 1]) 1 log2 ++ accepted (known_resolve [5; 1]) 1 log3)).
Proof.
  exists two_devices, [arrives (sent_bytes 0)], [arrives (sent_bytes 2)], [arrives (sent_bytes 0); arrives (sent_bytes 2)].
  do 6 eexists. split; [apply arrivals_octets; vm_compute; reflexivity|].
  split; [apply arrivals_octets; vm_compute; reflexivity|]. split; [apply arrivals_octets; vm_compute; reflexivity|].
  split; [apply surjective_pairing|]. split; [apply surjective_pairing|]. split; [apply surjective_pairing|].
  split.
  - intros H. apply (f_equal (@List.length _)) in H. vm_compute in H. discriminate.
  - intros H. remember (map fst _) as l eqn:El in H. vm_compute in El. subst l.
    inversion H as [|? ? Hn _]; subst. apply Hn. now left.
Qed.

(** C60, C61: frames of device 1 among refused ones and frames of device 5. *)
Definition from_five : list N :=
  wire_front LE 50 {| header := mk_header Data_t false true true Ieee802154_2006
        (Some (Extended 0x111 0x02)) (Some (Extended 0x111 0x05)) 9
        (Some (AuxiliarySecurityHeader_new (SecurityControl_new SL_MIC32)
           (Some {| key_source := None; key_index := 3 |}))); content := FC_Data; payload := [9]; footer := (0, 0) |}
  ++ [9] ++ secured_tag aes_cipher (repeat 0 16) SL_MIC32 5 50 [9].
Definition mixed_arrivals : list (arrival (list N)) :=
  [arrives (sent_bytes 0); arrives (flip_octet 30 (sent_bytes 1)); arrives from_five; arrives [1; 2];
   arrives (sent_bytes 1); arrives from_five; arrives (sent_bytes 0)].
Example mixed_traffic :
  arrivals_ok mixed_arrivals /\
  map (claims host (known_resolve [5; 1]) 1) mixed_arrivals = [true; true; false; false; true; false; true] /\
  let r := receive_all host aes_cipher (known_lookup [5; 1]) two_devices mixed_arrivals in
  map was_accepted (fst r) = [true; false; true; false; true; false; false] /\
  map (fun p => counter_in (snd p)) (accepted (known_resolve [5; 1]) 1 (fst r)) = [41; 44] /\
  map (fun p => counter_in (snd p)) (accepted (known_resolve [5; 1]) 5 (fst r)) = [50] /\
  proj1_sig (snd r) = [(5, dev 51); (1, dev 45)].
Proof.
  split; [apply arrivals_octets; vm_compute; reflexivity|]. split; [vm_compute; reflexivity|].
  cbv zeta. vm_compute. repeat split.
Qed.

Print Assumptions C55_nonces_distinct_across_senders.
Print Assumptions C59_resuming_ahead_is_safe.
Print Assumptions C59_reused_counter_leaks.
Print Assumptions C59_stale_counter_refuted.
Print Assumptions C60_restored_store.
Print Assumptions C60_rollback_refuted.
Print Assumptions C61_other_devices_do_not_interfere.
Print Assumptions C61_refused_input_leaves_no_trace.
