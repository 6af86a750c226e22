(** Properties C64, C68, C69: the complete decision list of a reception, what earlier receptions
    can do to a later one, and delivery among arbitrary other traffic. *)
From Coq Require Import List Arith NArith ZArith Bool String Lia ZifyBool ZifyNat ZifyN Sorting.Sorted.
From Verif Require Import ByteCrate Types HeaderModel BeaconModel CommandModel CcmModel FrameModel
  Spec SecSpec HistorySpec RestartSpec ProofLib HeaderProofs HeaderReadProofs BeaconProofs CommandProofs FrameProofs CcmProofs
  SecureProofs RepoTests Aes128 AesProofs PropHeader PropContent PropFrame PropSecure PropReceive PropHistory PropRestart.
Import ListNotations.
Open Scope N_scope.
Open Scope list_scope.
Ltac Zify.zify_post_hook ::= Z.div_mod_to_equations.

Section Receive.
Context {K D : Type} (c : cfg) (E : block_cipher K).
Hypothesis HE : cipher_ok E.

(** ** C64 Receiving, all of it *)

(** Result, buffer, context and device store of every reception: header and content part are
    decoded (C03, C04, C13, C15, C16), a frame without security is taken as it is, a secured one
    goes through [receive] of SecSpec.v, which lists the checks in the order in which they
    decide. *)
Theorem C64_receive_exact : forall bs ctx (dl : DeviceLookup D) ds, octets bs -> cfg_ok c ->
  try_read_and_unsecure c E bs ctx dl ds
  = match try_read_header c bs with
    | Err e => (Err (WriteError e), (bs, ctx, ds))
    | Panic => (Panic, (bs, ctx, ds))
    | Ok (h, n) =>
      match try_read_content h (skipn n bs) with
      | Err e => (Err (WriteError e), (bs, ctx, ds))
      | Panic => (Panic, (bs, ctx, ds))
      | Ok (ct, k) =>
        match auxiliary_security_header h with
        | None =>
            (Ok ({| header := h; content := ct; payload := skipn (n + k) bs; footer := (0, 0) |},
                 List.length bs), (bs, ctx, ds))
        | Some a =>
          match security_ctx ctx, footer_mode ctx with
          | None, _ => (Err InvalidSecContext, (bs, ctx, ds))
          | Some _, Footer_Explicit => (Panic, (bs, ctx, ds))
          | Some sc, Footer_None =>
              let '(r, rest, ds') := receive E (overflow_checks c) sc dl ds h a (skipn (n + k) bs) in
              (match r with
               | Ok p => Ok ({| header := h; content := ct; payload := p; footer := (0, 0) |},
                             (List.length bs - tag_len (security_level (control a)))%nat)
               | Err e => Err e
               | Panic => Panic
               end, (firstn (n + k) bs ++ rest, ctx, ds'))
          end
        end
      end
    end.
Proof.
  intros bs ctx dl ds Hb Hc.
  destruct (read_cases c E HE bs ctx dl ds Hb)
    as [(e & -> & A)|[(h & n & A & Ha & f & Ef & F & ->)|(h & n & ct & k & a & A & B & L & Ha & _ & F)]].
  - destruct A as [->|(h & n & -> & ->)]; reflexivity.
  - rewrite A, Ha. destruct (try_read_content h (skipn n bs)) as [[ct k]|e|] eqn:B.
    + assert (Hs : has_security h = false) by (unfold has_security; now rewrite Ha).
      rewrite try_read_frame_eq, A, B, Hs in F by assumption. cbn [frame_rest] in F.
      assert (Ff : f = {| header := h; content := ct; payload := skipn (n + k) bs; footer := (0, 0) |}) by congruence.
      now rewrite Ff.
    + rewrite try_read_frame_eq, A, B in F by assumption. discriminate.
    + rewrite try_read_frame_eq, A, B in F by assumption. discriminate.
  - rewrite A, B, Ha. destruct (security_ctx ctx) as [sc|]; [|exact F]. destruct (footer_mode ctx); exact F.
Qed.

(** Only data frames get past the first checks: a secured beacon, command or acknowledgement is
    refused before any key or device is looked up, whatever the lookups would say. *)
Theorem C64_only_data_frames : forall bs ctx (dl1 dl2 : DeviceLookup D) ds h n a sc kp, octets bs -> cfg_ok c ->
  try_read_header c bs = Ok (h, n) -> auxiliary_security_header h = Some a ->
  frame_type h <> Data_t -> ctx = ser_ctx Footer_None sc ->
  try_read_and_unsecure c E bs ctx dl1 ds
  = (match try_read_content h (skipn n bs) with
     | Err e => Err (WriteError e) | Panic => Panic | Ok _ => Err NotImplemented end, (bs, ctx, ds)) /\
  fst (try_read_and_unsecure c E bs (ser_ctx Footer_None (with_provider kp sc)) dl2 ds)
  = fst (try_read_and_unsecure c E bs ctx dl1 ds).
Proof.
  intros bs ctx dl1 dl2 ds h n a sc kp Hb Hc R Ha Ht ->.
  rewrite !C64_receive_exact, R, Ha by assumption.
  destruct (try_read_content h (skipn n bs)) as [[ct k]|e|]; [|split; reflexivity|split; reflexivity].
  cbn [security_ctx ser_ctx footer_mode].
  assert (X : is_data h = false) by (unfold is_data; destruct (frame_type h); congruence).
  assert (Y : forall sc' (dl : DeviceLookup D), receive E (overflow_checks c) sc' dl ds h a (skipn (n + k) bs)
    = (Err NotImplemented, skipn (n + k) bs, ds)) by (intros; unfold receive; now rewrite X).
  rewrite !Y. rewrite firstn_skipn. split; reflexivity.
Qed.

(** ** C68 What earlier traffic can do to a later frame *)

Variables (dl : DeviceLookup D) (resolve : Address -> option N) (get : D -> N -> DeviceDescriptor).
Hypothesis Hstore : device_store dl resolve get.

(** A secured reception looks at the counter of one descriptor only. *)
Lemma depends_on_counter bs ctx ds1 ds2 f n s x : octets bs -> cfg_ok c ->
  fst (try_read_and_unsecure c E bs ctx dl ds1) = Ok (f, n) ->
  auxiliary_security_header (header f) <> None -> source (header f) = Some s -> resolve s = Some x ->
  fst (try_read_and_unsecure c E bs ctx dl ds2)
  = if (dev_frame_counter (get ds2 x) =? last_counter) || (counter_in f <? dev_frame_counter (get ds2 x))
    then Err CounterError else Ok (f, n).
Proof.
  intros Hb Hc. rewrite !C64_receive_exact by assumption.
  destruct (try_read_header c bs) as [[h n1]|e|]; [|discriminate|discriminate].
  destruct (try_read_content h (skipn n1 bs)) as [[ct k]|e|]; [|discriminate|discriminate].
  destruct (auxiliary_security_header h) as [a|] eqn:Ea.
  2:{ cbn [fst]. intros R Ha. assert (header f = h) by (assert (f = {| header := h; content := ct; payload := skipn (n1 + k) bs; footer := (0, 0) |}) by congruence; now subst f).
      congruence. }
  destruct (security_ctx ctx) as [sc|]; [|discriminate]. destruct (footer_mode ctx); [|discriminate].
  set (rest := skipn (n1 + k) bs). clearbody rest. unfold receive.
  destruct (negb (is_data h)); [discriminate|].
  destruct (match version h with Ieee802154_2003 => true | _ => false end); [discriminate|].
  destruct (level_is_none (security_level (control a))); [discriminate|].
  destruct (sc_key_provider sc SrcAddrMode (key_identifier a) (source h)) as [[eui key]|]; [|discriminate].
  destruct (source h) as [s0|] eqn:Es; [|discriminate].
  pose proof (Hstore s0 ds1) as S1. pose proof (Hstore s0 ds2) as S2.
  destruct (resolve s0) as [i|] eqn:Er; [|rewrite S1; discriminate].
  destruct S1 as (put1 & -> & _). destruct S2 as (put2 & -> & _).
  destruct ((dev_frame_counter (get ds1 i) =? last_counter) || (frame_counter a <? dev_frame_counter (get ds1 i))); [discriminate|].
  intros R Ha Hs Hx.
  assert (Hh : header f = h).
  { destruct (level_is_enc _); [discriminate|]. destruct (_ <? _)%nat; [discriminate|].
    destruct (_ && _); [|discriminate]. destruct (_ =? _); [destruct (overflow_checks c)|]; cbn [fst] in R; try discriminate;
    injection R as R _; now subst f. }
  assert (i = x) by congruence. subst i.
  unfold counter_in. rewrite Hh, Ea.
  destruct ((dev_frame_counter (get ds2 x) =? last_counter) || (frame_counter a <? dev_frame_counter (get ds2 x))); [reflexivity|].
  destruct (level_is_enc _); [discriminate|]. destruct (_ <? _)%nat; [discriminate|].
  destruct (_ && _); [|discriminate]. destruct (_ =? _); [destruct (overflow_checks c)|]; cbn [fst] in R |- *; try discriminate;
  exact R.
Qed.

(** Whatever was received in between - rubbish, forgeries, frames of other devices, replays -
    a frame that would have been accepted before is accepted after it, unless the receiver
    accepted a frame of the same device with the same or a later counter; then it is refused as
    a replay. (The condition on counter 0xFFFFFFFF is that of C34 and C35.) *)
Theorem C68_accepted_later_iff : forall arrivals ds log ds' x bs ctx f n s, cfg_ok c -> arrivals_ok arrivals -> octets bs ->
  receive_all c E dl ds arrivals = (log, ds') ->
  fst (try_read_and_unsecure c E bs ctx dl ds) = Ok (f, n) ->
  auxiliary_security_header (header f) <> None -> source (header f) = Some s -> resolve s = Some x ->
  counter_in f <> 0xFFFFFFFF ->
  overflow_checks c = true \/ Forall (fun fc => fc <> 0xFFFFFFFF) (counters (accepted resolve x log)) ->
  fst (try_read_and_unsecure c E bs ctx dl ds')
  = if forallb (fun fc => fc <? counter_in f) (counters (accepted resolve x log)) then Ok (f, n)
    else Err CounterError.
Proof.
  intros arrivals ds log ds' x bs ctx f n s Hc Ho Hb Hr Hf Ha Hs Hx Hn Hw.
  destruct (C34_accepted_counters_increase c E HE dl resolve get Hstore arrivals ds log ds' x Ho Hr Hw) as (Hsort & Hbnd & Hlast & _).
  set (cs := counters (accepted resolve x log)) in *. clearbody cs.
  rewrite (depends_on_counter bs ctx ds ds' f n s x Hb Hc Hf Ha Hs Hx).
  pose proof (depends_on_counter bs ctx ds ds f n s x Hb Hc Hf Ha Hs Hx) as H0. rewrite Hf in H0.
  assert (Bf : counter_in f < 2 ^ 32).
  { destruct (try_read_and_unsecure c E bs ctx dl ds) as [r [[b1 c1] d1]] eqn:R. cbn [fst] in Hf. subst r.
    pose proof (step_store c E HE dl resolve get Hstore bs ctx ds (Ok (f, n)) b1 c1 d1 x Hb R) as S.
    destruct (auxiliary_security_header (header f)) as [a|] eqn:Ea; [|congruence].
    unfold accepted_for in S. cbn [r_result] in S. rewrite Ea, Hs, Hx, N.eqb_refl in S. apply S. }
  destruct (_ || _) eqn:Z in H0; [discriminate|]. apply orb_false_elim in Z. destruct Z as [Z1 Z2].
  apply N.eqb_neq in Z1. apply N.ltb_ge in Z2. change last_counter with 0xFFFFFFFF in *.
  destruct (forallb _ cs) eqn:F.
  - rewrite forallb_forall in F.
    assert (X : dev_frame_counter (get ds' x) <= counter_in f).
    { rewrite Hlast. destruct cs as [|fc0 cs0] using rev_ind; [cbn [map last]; exact Z2|].
      rewrite map_app. cbn [map]. rewrite last_last. specialize (F fc0). rewrite in_app_iff in F.
      assert (fc0 <? counter_in f = true) by (apply F; right; now left). lia. }
    replace (_ =? _) with false by (symmetry; apply N.eqb_neq; lia).
    replace (_ <? _) with false by (symmetry; apply N.ltb_ge; exact X). reflexivity.
  - assert (X : exists fc, In fc cs /\ counter_in f <= fc).
    { clear - F. induction cs as [|fc cs IH]; [discriminate|]. cbn in F. destruct (N.ltb_spec fc (counter_in f)).
      - destruct (IH F) as (y & Hy & L). exists y. split; [now right|exact L].
      - exists fc. split; [now left|assumption]. }
    destruct X as (fc & Hin & Hle). rewrite Forall_forall in Hbnd. specialize (Hbnd fc Hin).
    replace (counter_in f <? _) with true by (symmetry; apply N.ltb_lt; lia). now rewrite orb_true_r.
Qed.

(** In particular nothing an outsider sends can keep a frame out: as long as nothing is accepted
    for its device, it is accepted exactly as if nothing had been received. *)
Corollary C68_outsiders_cannot_block : forall arrivals ds log ds' x bs ctx f n s, cfg_ok c -> arrivals_ok arrivals -> octets bs ->
  receive_all c E dl ds arrivals = (log, ds') -> accepted resolve x log = [] ->
  fst (try_read_and_unsecure c E bs ctx dl ds) = Ok (f, n) ->
  source (header f) = Some s -> resolve s = Some x ->
  fst (try_read_and_unsecure c E bs ctx dl ds') = Ok (f, n).
Proof.
  intros arrivals ds log ds' x bs ctx f n s Hc Ho Hb Hr He Hf Hs Hx.
  destruct (auxiliary_security_header (header f)) as [a|] eqn:Ea.
  - assert (Ha : auxiliary_security_header (header f) <> None) by congruence.
    destruct (C34_accepted_counters_increase c E HE dl resolve get Hstore arrivals ds log ds' x Ho Hr) as (_ & _ & Hl & _).
    { right. rewrite He. constructor. }
    rewrite He in Hl. cbn in Hl.
    rewrite (depends_on_counter bs ctx ds ds' f n s x Hb Hc Hf Ha Hs Hx), Hl.
    rewrite <- (depends_on_counter bs ctx ds ds f n s x Hb Hc Hf Ha Hs Hx). exact Hf.
  - rewrite C64_receive_exact in Hf |- * by assumption.
    destruct (try_read_header c bs) as [[h n1]|e|]; [|discriminate|discriminate].
    destruct (try_read_content h (skipn n1 bs)) as [[ct k]|e|]; [|discriminate|discriminate].
    destruct (auxiliary_security_header h) as [a|] eqn:Eh; [|exact Hf]. exfalso.
    destruct (security_ctx ctx) as [sc|]; [|discriminate]. destruct (footer_mode ctx); [|discriminate].
    destruct (receive _ _ _ _ _ _ _ _) as [[[p|e|] rest] d]; cbn [fst] in Hf; try discriminate.
    assert (X : f = {| header := h; content := ct; payload := p; footer := (0, 0) |}) by congruence.
    subst f. cbn [header] in Ea. congruence.
Qed.

End Receive.

(** ** C69 A network: many senders, one receiver, arbitrary other traffic *)
Section Network.
Context {K D : Type} (E : block_cipher K) (c1 : N -> cfg) (c2 : cfg).
Hypothesis HE : cipher_ok E.
Hypothesis N1 : forall x, native (c1 x) = LE.
Hypothesis N2 : native c2 = LE.

(** The sender the receiver knows as device [x]: its security context and the calls it makes. *)
Variables (sc : N -> SecurityContext K) (calls : N -> list call).
Definition sent_by (x : N) : list sent := fst (send_all (c1 x) E (sc x) (calls x)).
Hypothesis Hcalls : forall x, calls_ok (calls x).
Hypothesis Hcons : forall x, Forall (fun y => frame_consistent (c_frame y)) (calls x).
Hypothesis Hfc : forall x, u32_ok (sc_frame_counter (sc x)).

Variables (dl : DeviceLookup D) (resolve : Address -> option N) (get : D -> N -> DeviceDescriptor).
Hypothesis Hstore : device_store dl resolve get.

(** What arrives: octets that sender [x] produced as event [e], or anything at all. *)
Definition traffic := list (option (N * sent) * arrival K).
Definition sent_from (x : N) (t : traffic) : list sent :=
  flat_map (fun y => match fst y with Some (z, e) => if z =? x then [e] else [] | None => [] end) t.
(** Octets of sender [x] arrive unchanged at a receiver that has its keys and knows its address
    as that of device [x]. *)
Definition intact (y : option (N * sent) * arrival K) : Prop :=
  match fst y with
  | None => octets (a_bytes (snd y))
  | Some (x, e) =>
      a_bytes (snd y) = s_bytes e /\
      (exists rsc, a_ctx (snd y) = ser_ctx Footer_None rsc) /\ shares_keys (sc x) (sent_by x) (a_ctx (snd y)) /\
      version (header (s_frame e)) <> Ieee802154_2003 /\
      exists s, source (header (as_received e)) = Some s /\ resolve s = Some x
  end.

(** Loss, interleaving and foreign traffic do no harm: if the frames of each sender that arrive
    do so in the order in which they were sent, each once, and none of the rest is accepted as
    coming from one of them, then every one of them is accepted exactly as it was sent. *)
Theorem C69_network_delivery : forall (t : traffic) ds log ds',
  (forall x, subsequence (sent_from x t) (filter secured (sent_by x))) ->
  Forall intact t ->
  (forall x, dev_frame_counter (get ds x) <= sc_frame_counter (sc x)) ->
  receive_all c2 E dl ds (map snd t) = (log, ds') ->
  Forall2 (fun y r => fst y = None -> forall x, accepted_for resolve x r = None) t log ->
  Forall2 (fun y r => match fst y with
                      | Some (_, e) => r_result r = Ok (as_received e, (List.length (s_bytes e) - tag_len (level_of e))%nat)
                      | None => True
                      end) t log.
Proof.
  intros t ds log ds' Hsub Hint Hle Hr Hjunk.
  assert (Hin : forall x, Forall (fun e => In e (sent_by x) /\ secured e = true) (sent_from x t)).
  { intros x. apply Forall_forall. intros e He. apply (subsequence_in _ _ (Hsub x)) in He. now apply filter_In in He. }
  assert (HI : forall x, let '(l, sc') := send_all (c1 x) E (sc x) (calls x) in
    l = sent_by x /\ StronglySorted (fun e1 e2 => s_after e1 <= s_before e2) l /\
    Forall (fun e => sc_frame_counter (sc x) <= s_before e) l).
  { intros x. unfold sent_by. destruct (send_all (c1 x) E (sc x) (calls x)) as [l sc'] eqn:S. split; [reflexivity|].
    destruct (send_all_inv (c1 x) E HE (calls x) (sc x) l sc' (Hcalls x) (Hfc x) S) as (_ & _ & (m & _ & _ & _ & I3) & I4).
    split; [exact I4|]. rewrite Forall_forall in *. intros e He. specialize (I3 e He). lia. }
  assert (Hs : forall x, StronglySorted (fun e1 e2 => s_after e1 <= s_before e2) (sent_from x t)).
  { intros x. eapply subsequence_sorted; [exact (Hsub x)|]. apply sorted_filter.
    pose proof (HI x) as H. destruct (send_all _ _ _ _). destruct H as (<- & H & _). exact H. }
  assert (Hge : forall x, Forall (fun e => dev_frame_counter (get ds x) <= s_before e) (sent_from x t)).
  { intros x. pose proof (HI x) as H. destruct (send_all _ _ _ _). destruct H as (E1 & _ & H).
    specialize (Hin x). specialize (Hle x). rewrite Forall_forall in *. intros e He. destruct (Hin e He) as [Hi _].
    rewrite <- E1 in Hi. specialize (H e Hi). lia. }
  clear HI Hsub Hle. revert ds log ds' Hr Hjunk Hge. induction t as [|[[[x e]|] y] t IH]; intros ds log ds' Hr Hjunk Hge.
  - cbn in Hr. injection Hr as <- <-. constructor.
  - assert (X : sent_from x ((Some (x, e), y) :: t) = e :: sent_from x t) by (cbn; now rewrite N.eqb_refl).
    assert (Y : forall z, z <> x -> sent_from z ((Some (x, e), y) :: t) = sent_from z t).
    { intros z Hz. cbn. now destruct (N.eqb_spec x z); [congruence|]. }
    inversion Hint as [|? ? Hi Hint']; subst. destruct Hi as (Eb & (rsc & Ec) & Hk & Hv & s & Hsrc & Hres).
    cbn [fst snd] in *.
    pose proof (Hin x) as Hx. rewrite X in Hx. inversion Hx as [|? ? [He Hsec] Hin']; subst.
    pose proof (Hs x) as Sx. rewrite X in Sx. inversion Sx as [|? ? Hs1 Hs2]; subst.
    pose proof (Hge x) as Gx. rewrite X in Gx. inversion Gx as [|? ? Hg Hge']; subst.
    pose proof (Hstore s ds) as HS. rewrite Hres in HS. destruct HS as (put & Hdl & _ & Hp2 & Hp3).
    rewrite Ec in Hk.
    destruct (send_all (c1 x) E (sc x) (calls x)) as [lx scx] eqn:S.
    assert (El : sent_by x = lx) by (unfold sent_by; now rewrite S). rewrite El in *.
    destruct (delivered E (c1 x) c2 HE (N1 x) N2 (sc x) (calls x) lx scx (Hcalls x) (Hcons x) (Hfc x) S
                dl e rsc s (get ds x) put ds He Hsec Hk Hv Hsrc Hdl Hg) as (bs' & R).
    cbn [map receive_all a_bytes a_ctx snd] in Hr. rewrite Eb, Ec, R in Hr.
    set (ds1 := put {| dev_frame_counter := s_before e + 1; dev_exempt := dev_exempt (get ds x) |}) in *.
    destruct (receive_all c2 E dl ds1 (map snd t)) as [log2 ds2] eqn:R2.
    injection Hr as <- <-. inversion Hjunk as [|? ? ? ? _ Hjunk']; subst. constructor; [reflexivity|].
    eapply IH; [exact Hint'| | |exact R2|exact Hjunk'|].
    + intros z. destruct (N.eq_dec z x) as [->|Hz]; [exact Hin'|rewrite <- (Y z Hz); apply Hin].
    + intros z. destruct (N.eq_dec z x) as [->|Hz]; [exact Hs1|rewrite <- (Y z Hz); apply Hs].
    + intros z. destruct (N.eq_dec z x) as [->|Hz].
      * unfold ds1. rewrite Hp2. cbn [dev_frame_counter].
        destruct (C29_secured_frame_uses_its_counter (c1 x) E HE (sc x) (calls x) _ scx e (Hcalls x) (Hfc x) S He Hsec) as (Ea & _).
        rewrite Forall_forall in *. intros w Hw. specialize (Hs2 w Hw). lia.
      * unfold ds1. rewrite Hp3 by exact Hz. rewrite <- (Y z Hz). apply Hge.
  - assert (Y : forall z, sent_from z ((None, y) :: t) = sent_from z t) by reflexivity.
    inversion Hint as [|? ? Hi Hint']; subst. unfold intact in Hi. cbn [fst snd] in Hi.
    cbn [map receive_all snd] in Hr.
    destruct (try_read_and_unsecure c2 E (a_bytes y) (a_ctx y) dl ds) as [r [[b' x'] ds1]] eqn:R.
    destruct (receive_all c2 E dl ds1 (map snd t)) as [log2 ds2] eqn:R2.
    injection Hr as <- <-. inversion Hjunk as [|? ? ? ? Hj Hjunk']; subst. constructor; [exact I|].
    eapply IH; [exact Hint'|intros z; rewrite <- (Y z); apply Hin|intros z; rewrite <- (Y z); apply Hs|exact R2|exact Hjunk'|].
    intros z. pose proof (step_store c2 E HE dl resolve get Hstore _ _ _ _ _ _ _ z Hi R) as S.
    specialize (Hj eq_refl z). destruct y as [yc yb]. cbn [a_ctx a_bytes] in S. rewrite Hj in S. rewrite S, <- (Y z). apply Hge.
Qed.

(** And nothing else comes out: with duplication and reordering allowed too, what is accepted for
    device [x] is always some of what its sender sent, in order, each at most once - provided no
    tag is forged: everything accepted for [x] consists of octets that its sender produced. *)
Theorem C69_network_order : forall arrivals ds log ds', arrivals_ok arrivals ->
  receive_all c2 E dl ds arrivals = (log, ds') ->
  (forall x y, In y arrivals -> shares_keys (sc x) (sent_by x) (a_ctx y)) ->
  (forall x bs f, In (bs, f) (accepted resolve x log) -> In bs (map s_bytes (filter secured (sent_by x)))) ->
  forall x, subsequence (accepted resolve x log)
                        (map (fun e => (s_bytes e, as_received e)) (filter secured (sent_by x))).
Proof.
  intros arrivals ds log ds' Ho Hr Hk Ha x.
  destruct (send_all (c1 x) E (sc x) (calls x)) as [lx scx] eqn:S.
  assert (El : sent_by x = lx) by (unfold sent_by; now rewrite S).
  specialize (Hk x). specialize (Ha x). rewrite El in *.
  exact (C43_accepted_in_order_at_most_once E (c1 x) c2 HE (N1 x) N2 (sc x) (calls x) lx scx (Hcalls x) (Hcons x) (Hfc x) S
           dl resolve get Hstore arrivals ds log ds' x Ho Hr Hk Ha).
Qed.

End Network.

(** ** Concrete cases: the hypotheses are met *)

(** C64: every check of the decision list decides for some octets. *)
Definition outcome_of (r : outcome SecurityError (Frame * nat) * (list N * FrameSerDesContext (list N) * DeviceDescriptor)) :=
  match fst r with Ok (f, n) => Ok (payload f, n) | Err x => Err x | Panic => Panic end.
Definition hear bs ctx d := outcome_of (try_read_and_unsecure host aes_cipher bs ctx basic_dev_lookup (dev d)).
Example decisions :
  hear [1] (aes_ctx 7 0) 0 = Err (WriteError Incomplete) /\
  hear [0x0b; 0x10; 1; 5; 0; 0; 0; 0; 0x33] (aes_ctx 7 0) 0 = Err (WriteError (BadInput "InvalidValue")) /\
  hear [0x0b; 0x10; 1; 5; 0; 0; 0; 0; 4] (aes_ctx 7 0) 0 = Err NotImplemented /\
  hear [0x09; 0x00; 1; 5; 0; 0; 0; 0] (aes_ctx 7 0) 0 = Err UnsupportedLegacy /\
  hear [0x09; 0x10; 1; 0; 0; 0; 0; 0] (aes_ctx 7 0) 0 = Err UnsupportedSecurity /\
  hear [0x09; 0x10; 1; 5; 0; 0; 0; 0] (aes_ctx 7 0) 0 = Err UnavailableKey /\
  hear [0x09; 0x10; 1; 5; 0; 0; 0; 0] (no_ctx Footer_None) 0 = Err InvalidSecContext /\
  hear (sent_bytes 0) (aes_ctx 7 0) 42 = Err CounterError /\
  hear (flip_octet 29 (sent_bytes 0)) (aes_ctx 7 0) 41 = Err TransformationError /\
  hear (firstn 30 (sent_bytes 0)) (aes_ctx 7 0) 41 = Panic /\
  hear (sent_bytes 0) (aes_ctx 7 0) 41 = Ok ([1;2;3], 32%nat) /\
  hear [0x01; 0x10; 1; 5; 6] (aes_ctx 7 0) 0 = Ok ([5; 6], 5%nat).
Proof. vm_compute. repeat split. Qed.

(** C68: the history of [a_receiving_history], which accepts counters 41 and 45, and after it one
    frame it would block and one it would not. *)
Example later_frames :
  map (fun fc => forallb (fun y => y <? fc) (counters (accepted (known_resolve [5; 1]) 1 (fst some_receptions)))) [45; 46]
  = [false; true] /\
  match fst (try_read_and_unsecure host aes_cipher (sent_bytes 2) (aes_ctx 7 0) (known_lookup [5; 1]) two_devices) with
  | Ok (f, n) => counter_in f = 45 /\ source (header f) = Some (Extended 0x111 1) /\ known_resolve [5; 1] (Extended 0x111 1) = Some 1
  | _ => False
  end /\
  fst (try_read_and_unsecure host aes_cipher (sent_bytes 2) (aes_ctx 7 0) (known_lookup [5; 1]) (snd some_receptions))
  = Err CounterError.
Proof. vm_compute. repeat split. Qed.

(** C69: devices 1 and 5 send; their frames arrive interleaved, with one lost, and with an empty
    and a corrupted reception in between. *)
Definition from_five (p : list N) : Frame :=
  {| header := mk_header Data_t false false true Ieee802154_2006
        (Some (Extended 0x111 0x02)) (Some (Extended 0x111 0x05)) 77
        (Some (AuxiliarySecurityHeader_new (SecurityControl_new SL_ENCMIC32) None));
     content := FC_Data; payload := p; footer := (0, 0) |}.
Definition five_calls : list call :=
  [{| c_mode := Footer_None; c_frame := from_five [7; 7]; c_buffer := repeat 0 60 |};
   {| c_mode := Footer_None; c_frame := from_five [8]; c_buffer := repeat 0 60 |}].
Definition node (x : N) : SecurityContext (list N) := SecurityContext_new x (if x =? 1 then 41 else 9) static_key_lookup.
Definition node_calls (x : N) : list call := if x =? 1 then some_calls else if x =? 5 then five_calls else [].
Definition node_event (x : N) (i : nat) : sent := nth i (filter secured (sent_by aes_cipher (fun _ => host) node node_calls x)) no_event.
Definition genuine x i : option (N * sent) * arrival (list N) := (Some (x, node_event x i), arrives (s_bytes (node_event x i))).
Definition some_traffic : traffic :=
  [genuine 5 0; (None, arrives (flip_octet 29 (sent_bytes 0))); genuine 1 0; genuine 5 1; (None, arrives []); genuine 1 2].

Lemma static_shares_keys x fc log rfc :
  Forall (fun e => source (header (as_received e)) = Some (Extended 0x111 x) /\
                   exists p q, destination (header (s_frame e)) = Some (Extended p q)) log ->
  shares_keys (SecurityContext_new x fc static_key_lookup) log (aes_ctx 7 rfc).
Proof.
  intros L e rsc a s eui key Hin Hs Hrsc Ha Hsrc Hk. injection Hrsc as <-.
  rewrite Forall_forall in L. destruct (L e Hin) as [L1 (p & q & L2)].
  rewrite L1 in Hsrc. injection Hsrc as <-. rewrite L2 in Hk. cbn in Hk |- *. injection Hk as <- <-. reflexivity.
Qed.

Example a_network :
  (forall x, calls_ok (node_calls x)) /\
  (forall x, Forall (fun y => frame_consistent (c_frame y)) (node_calls x)) /\
  (forall x, u32_ok (sc_frame_counter (node x))) /\
  (forall x, subsequence (sent_from x some_traffic) (filter secured (sent_by aes_cipher (fun _ => host) node node_calls x))) /\
  Forall (intact aes_cipher (fun _ => host) node node_calls (known_resolve [5; 1])) some_traffic /\
  (forall x, dev_frame_counter (known_get two_devices x) <= sc_frame_counter (node x)) /\
  (let log := fst (receive_all host aes_cipher (known_lookup [5; 1]) two_devices (map snd some_traffic)) in
   Forall2 (fun y r => fst y = None -> forall x, accepted_for (known_resolve [5; 1]) x r = None) some_traffic log /\
   map (fun e => match r_result e with Ok (f, n) => Ok (payload f, n) | Err x => Err x | Panic => Panic end) log
   = [Ok ([7; 7], 28%nat); Err TransformationError; Ok ([1;2;3], 32%nat); Ok ([8], 27%nat); Err (WriteError Incomplete); Ok ([6], 28%nat)]).
Proof.
  assert (B : forall (P : N -> Prop), P 1 -> P 5 -> (forall x, (x =? 1) = false -> (x =? 5) = false -> P x) -> forall x, P x).
  { intros P P1 P5 Po x. destruct (N.eqb_spec x 1) as [->|H1]; [exact P1|]. destruct (N.eqb_spec x 5) as [->|H5]; [exact P5|].
    apply Po; now apply N.eqb_neq. }
  assert (F5 : calls_ok five_calls).
  { repeat constructor; reflexivity. }
  assert (L1 : sent_by aes_cipher (fun _ => host) node node_calls 1 = some_log) by (vm_compute; reflexivity).
  split. { apply B; [exact some_calls_ok|exact F5|]. intros x H1 H5. unfold node_calls. rewrite H1, H5. constructor. }
  split. { apply B; [repeat constructor|repeat constructor|]. intros x H1 H5. unfold node_calls. rewrite H1, H5. constructor. }
  split. { intros x. unfold node. cbn. destruct (x =? 1); reflexivity. }
  split. { apply B.
    - unfold some_traffic, sent_from, genuine. cbn [flat_map fst N.eqb Pos.eqb app].
      unfold node_event. remember (filter secured (sent_by aes_cipher (fun _ => host) node node_calls 1)) as l eqn:El.
      vm_compute in El. subst l. cbn [nth]. apply sub_take, sub_skip, sub_take, sub_nil.
    - unfold some_traffic, sent_from, genuine. cbn [flat_map fst N.eqb Pos.eqb app].
      unfold node_event. remember (filter secured (sent_by aes_cipher (fun _ => host) node node_calls 5)) as l eqn:El.
      vm_compute in El. subst l. cbn [nth]. apply sub_take, sub_take, sub_nil.
    - intros x H1 H5. unfold sent_by, node_calls, some_traffic, sent_from, genuine.
      cbn [flat_map fst app]. rewrite (N.eqb_sym 5 x), (N.eqb_sym 1 x), H1, H5. cbn [app send_all fst filter]. constructor. }
  split. { assert (S1 : shares_keys (node 1) (sent_by aes_cipher (fun _ => host) node node_calls 1) (aes_ctx 7 0))
             by (rewrite L1; apply some_receiver_shares_keys).
           assert (S5 : shares_keys (node 5) (sent_by aes_cipher (fun _ => host) node node_calls 5) (aes_ctx 7 0)).
           { apply static_shares_keys. vm_compute. repeat constructor; do 2 eexists; reflexivity. }
           assert (X : forall x i, (x = 1 \/ x = 5) ->
             version (header (s_frame (node_event x i))) <> Ieee802154_2003 ->
             source (header (as_received (node_event x i))) = Some (Extended 0x111 x) ->
             intact aes_cipher (fun _ => host) node node_calls (known_resolve [5; 1]) (genuine x i)).
           { intros x i Hx Hv Hs. unfold intact, genuine. cbn [fst snd]. split; [reflexivity|].
             split; [eexists; reflexivity|]. split; [destruct Hx as [->| ->]; assumption|]. split; [exact Hv|].
             eexists. split; [exact Hs|]. destruct Hx as [->| ->]; reflexivity. }
           constructor; [apply X; [now right|vm_compute; discriminate|vm_compute; reflexivity]|].
           constructor; [vm_compute; repeat constructor|].
           constructor; [apply X; [now left|vm_compute; discriminate|vm_compute; reflexivity]|].
           constructor; [apply X; [now right|vm_compute; discriminate|vm_compute; reflexivity]|].
           constructor; [vm_compute; repeat constructor|].
           constructor; [apply X; [now left|vm_compute; discriminate|vm_compute; reflexivity]|].
           constructor. }
  split. { apply B; [discriminate|discriminate|]. intros x H1 H5. unfold known_get, node. cbn. rewrite H1, H5. discriminate. }
  cbv zeta. remember (fst (receive_all _ _ _ _ _)) as log eqn:El. vm_compute in El.
  subst log. split; [|reflexivity].
  unfold some_traffic.
  assert (G : forall x i r, fst (genuine x i) = None -> forall y, accepted_for (K := list N) (known_resolve [5; 1]) y r = None)
    by (unfold genuine; cbn [fst]; intros; discriminate).
  constructor; [apply G|]. constructor; [intros _ x; reflexivity|]. constructor; [apply G|].
  constructor; [apply G|]. constructor; [intros _ x; reflexivity|]. constructor; [apply G|]. constructor.
Qed.

(** ** C56 The exempt flags over histories *)

Section Exempt.
Context {K D : Type} (c : cfg) (E : block_cipher K).
Hypothesis HE : cipher_ok E.
Variables (dl : DeviceLookup D) (resolve : Address -> option N) (get : D -> N -> DeviceDescriptor).
Hypothesis Hstore : device_store dl resolve get.

(** No sequence of receptions changes the exempt flag of any device. *)
Theorem C56_exempt_never_changed : forall arrivals ds log ds' x, arrivals_ok arrivals ->
  receive_all c E dl ds arrivals = (log, ds') ->
  dev_exempt (get ds' x) = dev_exempt (get ds x).
Proof.
  induction arrivals as [|y ys IH]; intros ds log ds' x Ho R.
  - cbn in R. now injection R as <- <-.
  - cbn [receive_all] in R. inversion Ho as [|? ? Hb Ho']; subst.
    destruct (try_read_and_unsecure c E (a_bytes y) (a_ctx y) dl ds) as [r [[b' x'] ds1]] eqn:R1.
    destruct (receive_all c E dl ds1 ys) as [log2 ds2] eqn:R2. injection R as <- <-.
    rewrite (IH _ _ _ x Ho' R2).
    pose proof (step_store c E HE dl resolve get Hstore _ _ _ _ _ _ _ x Hb R1) as S.
    destruct (accepted_for _ _ _) as [f|]; [|now rewrite S].
    destruct S as (_ & _ & _ & ->). reflexivity.
Qed.
End Exempt.

(** An exempt device, one frame accepted, one refused: the flag stays, the counter moves. *)
Definition exempt_device : known [1] := exist _ [(1, {| dev_frame_counter := 40; dev_exempt := true |})] eq_refl.
Example exempt_case :
  let (log, ds) := receive_all host aes_cipher (known_lookup [1]) exempt_device [arrives (sent_bytes 0); arrives (sent_bytes 0)] in
  arrivals_ok [arrives (sent_bytes 0); arrives (sent_bytes 0)] /\
  map (fun e => match r_result e with Ok _ => true | _ => false end) log = [true; false] /\
  known_get ds 1 = {| dev_frame_counter := 42; dev_exempt := true |}.
Proof.
  destruct (receive_all host _ _ _ _) as [log ds] eqn:R.
  assert (L : log = fst (receive_all host aes_cipher (known_lookup [1]) exempt_device [arrives (sent_bytes 0); arrives (sent_bytes 0)])) by now rewrite R.
  assert (S : ds = snd (receive_all host aes_cipher (known_lookup [1]) exempt_device [arrives (sent_bytes 0); arrives (sent_bytes 0)])) by now rewrite R.
  split; [apply arrivals_octets; vm_compute; reflexivity|].
  rewrite L, S. split; vm_compute; reflexivity.
Qed.

Print Assumptions C56_exempt_never_changed.
Print Assumptions C64_receive_exact.
Print Assumptions C64_only_data_frames.
Print Assumptions C68_accepted_later_iff.
Print Assumptions C68_outsiders_cannot_block.
Print Assumptions C69_network_delivery.
Print Assumptions C69_network_order.
Print Assumptions a_network.
