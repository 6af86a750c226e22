(** Properties C71 and C72: what the block cipher is asked to encrypt, and how many frames a key
    lasts for. *)
From Coq Require Import List Arith NArith ZArith Bool String Lia ZifyBool ZifyNat ZifyN Sorting.Sorted.
From Verif Require Import ByteCrate Types HeaderModel BeaconModel CommandModel CcmModel FrameModel
  Spec SecSpec HistorySpec RestartSpec NodeSpec ProofLib HeaderProofs HeaderReadProofs BeaconProofs CommandProofs FrameProofs CcmProofs
  SecureProofs RepoTests Aes128 AesProofs PropHeader PropContent PropFrame PropSecure PropReceive PropHistory PropRestart PropNetwork
  PropAttacker PropNode.
Import ListNotations.
Open Scope N_scope.
Open Scope list_scope.
Ltac Zify.zify_post_hook ::= Z.div_mod_to_equations.

(** ** C71 The key stream is never reused *)

(** Input of the block cipher for key stream block [i] under a nonce (RFC 3610, A_i). *)
Definition stream_input (nonce : list N) (i : nat) : list N := [1] ++ nonce ++ be 2 (N.of_nat i).
(** The inputs for one frame: block 0 for the tag, one block per 16 octets of payload. *)
Definition stream_inputs (eui : N) (e : sent) : list (list N) :=
  map (stream_input (mac_nonce eui (s_before e) (level_of e)))
      (List.seq 0 (1 + (List.length (payload (s_frame e)) + 15) / 16)).

Lemma le_length n v : List.length (le n v) = n.
Proof. unfold le. now rewrite map_length, seq_length. Qed.

Lemma mac_nonce_length eui fc l : List.length (mac_nonce eui fc l) = 13%nat.
Proof. unfold mac_nonce. rewrite !app_length, !le_length. reflexivity. Qed.

Lemma be2_injective i j : i < 65536 -> j < 65536 -> be 2 i = be 2 j -> i = j.
Proof.
  intros Hi Hj H. unfold be, le in H. cbn in H.
  assert (i / 256 mod 256 = j / 256 mod 256 /\ i / 1 mod 256 = j / 1 mod 256) as [A B]
    by (injection H; auto).
  lia.
Qed.

Lemma stream_input_injective n1 n2 i j : List.length n1 = List.length n2 -> N.of_nat i < 65536 -> N.of_nat j < 65536 ->
  stream_input n1 i = stream_input n2 j -> n1 = n2 /\ i = j.
Proof.
  intros L Hi Hj H. unfold stream_input in H. cbn [app] in H. injection H as H.
  assert (n1 = n2) as ->.
  { pose proof (f_equal (firstn (List.length n1)) H) as F. rewrite L in F at 2.
    rewrite !firstn_app, !Nat.sub_diag, !firstn_all, !app_nil_r in F. exact F. }
  split; [reflexivity|]. apply app_inv_head in H. apply be2_injective in H; lia.
Qed.

(** No block of key stream input is the first block of an authentication (RFC 3610, B_0). *)
Theorem C71_stream_apart_from_mac : forall l nonce nonce' a m i, authenticated l = true ->
  List.length nonce = 13%nat ->
  firstn 16 (ccm_blocks (tag_len l) nonce a m) <> stream_input nonce' i.
Proof.
  intros l nonce nonce' a m i Hl _ H. unfold ccm_blocks, stream_input in H. cbn [app firstn] in H.
  assert (X : 64 * flag (negb (List.length a =? 0)%nat) + 8 * ((N.of_nat (tag_len l) - 2) / 2) + 1 = 1) by congruence.
  destruct l; try discriminate Hl; destruct (negb _); vm_compute in X; discriminate X.
Qed.

Lemma nodup_map_inj {A B} (f : A -> B) l : (forall x y, In x l -> In y l -> f x = f y -> x = y) -> NoDup l -> NoDup (map f l).
Proof.
  intros Hf H. induction H as [|x l Hx Hl IH]; cbn; constructor.
  - intros X. apply in_map_iff in X. destruct X as (y & Ey & Hy). apply Hx.
    rewrite <- (Hf y x); [exact Hy|now right|now left|exact Ey].
  - apply IH. intros y z Hy Hz. apply Hf; now right.
Qed.

Lemma nodup_flat_map {A B} (f : A -> list B) l : (forall x, In x l -> NoDup (f x)) ->
  ForallOrdPairs (fun x y => forall b, In b (f x) -> In b (f y) -> False) l -> NoDup (flat_map f l).
Proof.
  induction l as [|x l IH]; intros Hn Hd; cbn; [constructor|]. inversion Hd as [|? ? Hx Hl]; subst.
  assert (Na := Hn x (or_introl eq_refl)). assert (Nl := IH (fun y Hy => Hn y (or_intror Hy)) Hl).
  clear IH Hn Hd Hl.
  assert (D : forall b, In b (f x) -> In b (flat_map f l) -> False).
  { intros b Hb Hb'. apply in_flat_map in Hb'. destruct Hb' as (y & Hy & Hb'). rewrite Forall_forall in Hx. eapply Hx; eassumption. }
  clear Hx. induction (f x) as [|b bs IHb]; cbn; [exact Nl|]. inversion Na as [|? ? Hb Nb]; subst. constructor.
  - intros X. apply in_app_or in X. destruct X as [X|X]; [contradiction|]. eapply D; [now left|exact X].
  - apply IHb; [exact Nb|]. intros z Hz. apply D. now right.
Qed.

Section Sender.
Context {K : Type} (c : cfg) (E : block_cipher K).
Hypothesis HE : cipher_ok E.
Implicit Types sc : SecurityContext K.

(** A call that uses up a counter value has at most 127 octets of payload. *)
Lemma used_short sc e : is_write c E sc e -> used e = true -> (List.length (payload (s_frame e)) <= 127)%nat.
Proof.
  intros (Hok & Hb & _ & W) U.
  pose proof (C50_counter_use_exact c E HE (s_frame e) (c_mode (s_call e)) (at_counter sc (s_before e)) (c_buffer (s_call e)) Hok Hb) as X.
  rewrite W in X. cbn [fst snd] in X. unfold used in U. apply N.ltb_lt in U.
  match type of X with _ = ser_ctx _ (if ?b then _ else _) => destruct b eqn:B end.
  - destruct (c_mode (s_call e)); [|discriminate]. destruct (auxiliary_security_header _) as [a|]; [|discriminate].
    repeat (apply andb_true_iff in B; destruct B as [B ?]).
    match goal with H : (length_estimate _ _ <=? 127)%nat = true |- _ => apply Nat.leb_le in H; unfold length_estimate in H; lia end.
  - assert (Y : sc_frame_counter (at_counter sc (s_after e)) = sc_frame_counter (at_counter sc (s_before e))).
    { assert (Z : security_ctx (ser_ctx (c_mode (s_call e)) (at_counter sc (s_after e))) = security_ctx (ser_ctx (c_mode (s_call e)) (at_counter sc (s_before e)))) by now rewrite X.
      cbn [ser_ctx security_ctx] in Z. congruence. }
    cbn [at_counter sc_frame_counter] in Y. lia.
Qed.

(** What is on the air: the payload of a frame at an encrypting level is the plaintext combined
    octet by octet with key stream blocks 1, 2, ... of that frame; the tag is the authentication
    value combined with block 0. *)
Theorem C71_stream_is_what_encrypts : forall sc calls log sc' e, calls_ok calls ->
  u32_ok (sc_frame_counter sc) -> send_all c E sc calls = (log, sc') ->
  In e log -> secured e = true -> encrypting (level_of e) = true ->
  let S := stream_inputs (sc_euid sc) e in
  let p := payload (s_frame e) in
  let body := skipn (List.length (wire_front (native c) (s_before e) (s_frame e))) (s_bytes e) in
  let B := ccm_blocks (tag_len (level_of e)) (mac_nonce (sc_euid sc) (s_before e) (level_of e)) [] p in
  exists a eui key, auxiliary_security_header (header (s_frame e)) = Some a /\
    sc_key_provider sc DstAddrMode (key_identifier a) (destination (header (s_frame e))) = Some (eui, key) /\
    List.length body = (List.length p + tag_len (level_of e))%nat /\
    (forall i, (i < List.length p)%nat ->
       octet body i = N.lxor (octet p i) (octet (encrypt_block E key (nth (1 + i / 16) S [])) (i mod 16))) /\
    (forall i, (i < tag_len (level_of e))%nat ->
       octet body (List.length p + i)
       = N.lxor (octet (cbc_mac E key B (List.length B / 16)) i) (octet (encrypt_block E key (nth 0 S [])) i)).
Proof.
  intros sc calls log sc' e Hc Hfc H Hin Hsec He. cbv zeta.
  destruct (C29_secured_frame_uses_its_counter c E HE sc calls log sc' e Hc Hfc H Hin Hsec) as (_ & _ & a & eui & key & Ha & Hk & Eb).
  exists a, eui, key. split; [exact Ha|]. split; [exact Hk|].
  set (p := payload (s_frame e)) in *. set (l := level_of e) in *. set (fc := s_before e) in *.
  assert (Sn : forall j, (j < 1 + (List.length p + 15) / 16)%nat ->
    nth j (stream_inputs (sc_euid sc) e) [] = stream_input (mac_nonce (sc_euid sc) fc l) j).
  { intros j Hj. unfold stream_inputs. fold p l fc.
    rewrite nth_indep with (d' := stream_input (mac_nonce (sc_euid sc) fc l) 0%nat) by now rewrite map_length, seq_length.
    rewrite map_nth, seq_nth by exact Hj. reflexivity. }
  assert (Xn : forall (f g : nat -> N) n i, (i < n)%nat -> octet (xor_at f g n) i = N.lxor (f i) (g i)).
  { intros f g n i Hi. unfold octet, xor_at.
    rewrite nth_indep with (d' := N.lxor (f 0%nat) (g 0%nat)) by now rewrite map_length, seq_length.
    rewrite (map_nth (fun i => N.lxor (f i) (g i))), seq_nth by exact Hi. reflexivity. }
  assert (Ep : secured_payload E key l (sc_euid sc) fc p = ccm_cipher E key (mac_nonce (sc_euid sc) fc l) p).
  { destruct l; try discriminate He; reflexivity. }
  assert (Et : secured_tag E key l (sc_euid sc) fc p = ccm_tag E key (tag_len l) (mac_nonce (sc_euid sc) fc l) [] p).
  { destruct l; try discriminate He; reflexivity. }
  rewrite Eb, skipn_app, Nat.sub_diag, skipn_all. cbn [skipn app]. rewrite Ep, Et.
  assert (Lc : List.length (ccm_cipher E key (mac_nonce (sc_euid sc) fc l) p) = List.length p).
  { unfold ccm_cipher, xor_at. now rewrite map_length, seq_length. }
  split; [|split].
  - rewrite app_length, Lc. unfold ccm_tag, xor_at. now rewrite map_length, seq_length.
  - intros i Hi. unfold octet at 1. rewrite app_nth1 by lia. fold (octet (ccm_cipher E key (mac_nonce (sc_euid sc) fc l) p) i).
    unfold ccm_cipher. rewrite Xn by exact Hi. f_equal. unfold key_stream. rewrite Sn by lia. reflexivity.
  - intros i Hi. unfold octet at 1. rewrite app_nth2 by lia. rewrite Lc.
    replace (List.length p + i - List.length p)%nat with i by lia.
    fold (octet (ccm_tag E key (tag_len l) (mac_nonce (sc_euid sc) fc l) [] p) i).
    unfold ccm_tag. rewrite Xn by exact Hi. reflexivity.
Qed.

(** ** C72 How long a key lasts *)

(** The counter counts the calls that used it up; there are at most 2^32 - 1 of them. *)
Theorem C72_counter_counts : forall calls sc log sc', calls_ok calls ->
  u32_ok (sc_frame_counter sc) -> send_all c E sc calls = (log, sc') ->
  sc_frame_counter sc' = sc_frame_counter sc + N.of_nat (List.length (filter used log)) /\
  N.of_nat (List.length (filter secured log)) <= N.of_nat (List.length (filter used log)) /\
  N.of_nat (List.length (filter used log)) <= 0xFFFFFFFF - sc_frame_counter sc.
Proof.
  intros calls sc log sc' Hc Hfc H.
  assert (A : sc_frame_counter sc' = sc_frame_counter sc + N.of_nat (List.length (filter used log))).
  { revert sc log sc' Hc Hfc H. induction calls as [|x rest IH]; intros sc log sc' Hc Hfc H.
    - cbn in H. injection H as <- <-. cbn. lia.
    - cbn [send_all] in H. inversion Hc as [|? ? Hx Hr]; subst.
      destruct (write_context c E HE (c_frame x) (c_mode x) sc (c_buffer x) Hx Hfc) as (n & Ec & Hn & Hstep).
      destruct (try_write_frame c E (c_frame x) (ser_ctx (c_mode x) sc) (c_buffer x)) as [r [ctx buf]] eqn:W.
      cbn [fst snd] in Ec. subst ctx. cbn [ser_ctx security_ctx] in H.
      destruct (send_all c E (at_counter sc n) rest) as [log2 sc2] eqn:S. injection H as <- <-.
      rewrite (IH (at_counter sc n) _ _ Hr Hn S). cbn [at_counter sc_frame_counter filter]. unfold used at 2. cbn [s_before s_after].
      destruct Hstep as [->|[-> _]].
      + rewrite N.ltb_irrefl. reflexivity.
      + replace (sc_frame_counter sc <? sc_frame_counter sc + 1) with true by (symmetry; apply N.ltb_lt; lia).
        cbn [List.length]. lia. }
  split; [exact A|]. split.
  - assert (Q : forall e, In e log -> secured e = true -> used e = true).
    { intros e Hin Hs. destruct (C29_secured_frame_uses_its_counter c E HE sc calls log sc' e Hc Hfc H Hin Hs) as (B & _).
      unfold used. apply N.ltb_lt. lia. }
    clear - Q. induction log as [|e log IH]; [cbn; lia|]. cbn [filter].
    specialize (IH (fun z Hz => Q z (or_intror Hz))). specialize (Q e (or_introl eq_refl)).
    destruct (secured e); [rewrite (Q eq_refl)|destruct (used e)]; cbn [List.length]; lia.
  - destruct (C30_never_wraps c E HE sc calls log sc' Hc Hfc H) as (_ & _ & B). lia.
Qed.

(** A call that asks for nothing unusual: a data frame at an authenticated level that is not too
    long, a key that is available, a buffer that holds it. *)
Definition ordinary (sc : SecurityContext K) (x : call) : Prop :=
  c_mode x = Footer_None /\
  exists a eui key, auxiliary_security_header (header (c_frame x)) = Some a /\
    authenticated (security_level (control a)) = true /\
    frame_type (header (c_frame x)) = Data_t /\ content (c_frame x) = FC_Data /\
    compression_allowed (header (c_frame x)) /\
    (length_estimate (c_frame x) a <= 127)%nat /\ (127 <= List.length (c_buffer x))%nat /\
    sc_key_provider sc DstAddrMode (key_identifier a) (destination (header (c_frame x))) = Some (eui, key).

Lemma ordinary_front sc x n a : ordinary sc x -> frame_ok (c_frame x) -> auxiliary_security_header (header (c_frame x)) = Some a ->
  u32_ok n ->
  (List.length (wire_front (native c) n (c_frame x)) + List.length (payload (c_frame x)) + tag_len (security_level (control a))
   <= List.length (c_buffer x))%nat.
Proof.
  intros (_ & a' & eui & key & Ha & Hau & Ht & Hct & Hco & Hest & Hbuf & _) Hok Ha' Hn. rewrite Ha in Ha'. injection Ha' as Ea. subst a'.
  unfold length_estimate in Hest.
  assert (L : (List.length (wire_front (native c) n (c_frame x))
    <= mhr_len (header (c_frame x)) + (if pan_id_compress (header (c_frame x)) then 2 else 0) + aux_len a)%nat).
  { unfold wire_front. rewrite app_length, wire_header_length, Hct. cbn [wire_content List.length].
    unfold header_len, header_sent. cbn [auxiliary_security_header]. rewrite Ha.
    unfold mhr_len, dest_len, source_len. cbn [source destination pan_id_compress].
    destruct (source (header (c_frame x))) as [[|? ?]|], (destination (header (c_frame x))) as [[|? ?]|],
      (pan_id_compress (header (c_frame x))); cbn; unfold aux_len; cbn [key_identifier]; lia. }
  lia.
Qed.

(** Ordinary calls go on succeeding until 2^32 - 1 is reached, and fail for good then. *)
Theorem C72_exact_capacity : forall calls sc log sc', calls_ok calls -> Forall (ordinary sc) calls ->
  u32_ok (sc_frame_counter sc) -> send_all c E sc calls = (log, sc') ->
  forall i e, nth_error log i = Some e ->
  if sc_frame_counter sc + N.of_nat i <? 0xFFFFFFFF
  then secured e = true /\ s_before e = sc_frame_counter sc + N.of_nat i
  else s_result e = Err (BadInput "CounterError") /\ s_before e = 0xFFFFFFFF.
Proof.
  induction calls as [|x rest IH]; intros sc log sc' Hc Ho Hfc H i e Hi.
  - cbn in H. injection H as <- <-. now destruct i.
  - cbn [send_all] in H. inversion Hc as [|? ? Hx Hr]; subst. inversion Ho as [|? ? Ox Or]; subst.
    pose proof Ox as (Hm & a & eui & key & Ha & Hau & Ht & Hct & Hco & Hest & Hbuf & Hk).
    pose proof (ordinary_front sc x _ a Ox Hx Ha Hfc) as Hroom. rewrite Hm in H.
    destruct (N.ltb_spec (sc_frame_counter sc) last_counter) as [L|L].
    + destruct (C27_secured_write_succeeds c E HE (c_frame x) sc a eui key (c_buffer x) Hx Ha Hau Ht Hco L Hest Hk Hroom) as (n & buf' & W).
      rewrite W in H. cbn [ser_ctx security_ctx] in H.
      destruct (send_all c E (advanced sc) rest) as [log2 sc2] eqn:S. injection H as <- <-.
      destruct i as [|i].
      * cbn in Hi. injection Hi as <-. change last_counter with 0xFFFFFFFF in L.
        replace (sc_frame_counter sc + N.of_nat 0 <? 0xFFFFFFFF) with true by (symmetry; apply N.ltb_lt; lia).
        split; [|cbn; lia]. unfold secured, level_of, s_frame. cbn [s_result s_call]. rewrite Ha. exact Hau.
      * cbn [nth_error] in Hi.
        assert (Or' : Forall (ordinary (advanced sc)) rest) by (eapply Forall_impl; [|exact Or]; intros y Hy; exact Hy).
        assert (Hfc' : u32_ok (sc_frame_counter (advanced sc))).
        { unfold u32_ok in *. cbn [advanced sc_frame_counter]. change last_counter with 0xFFFFFFFF in L. change (2 ^ 32) with 4294967296 in *. lia. }
        pose proof (IH _ _ _ Hr Or' Hfc' S i e Hi) as X. cbn [advanced sc_frame_counter] in X.
        replace (sc_frame_counter sc + N.of_nat (Datatypes.S i)) with (sc_frame_counter sc + 1 + N.of_nat i) by lia. exact X.
    + assert (Ef : sc_frame_counter sc = last_counter).
      { unfold u32_ok in Hfc. change (2 ^ 32) with 4294967296 in Hfc. change last_counter with 0xFFFFFFFF in *. lia. }
      assert (P : write_plan E (native c) Footer_None sc (c_frame x)
        = (wire_front (native c) (sc_frame_counter sc) (c_frame x) ++ payload (c_frame x), Err (BadInput "CounterError"), false)).
      { unfold write_plan. cbv zeta.
        assert (E1 : pan_id_compress (header (c_frame x)) && negb (is_some (destination (header (c_frame x))) && is_some (source (header (c_frame x)))) = false).
        { unfold compression_allowed in Hco. destruct (pan_id_compress _); [|reflexivity].
          destruct (destination _), (source _); try reflexivity; exfalso; intuition congruence. }
        rewrite E1, Ha. unfold is_data. rewrite Ht. cbn [negb].
        replace (127 <? length_estimate (c_frame x) a)%nat with false by (symmetry; apply Nat.ltb_ge; exact Hest).
        replace (level_is_none (security_level (control a))) with false by (destruct (security_level (control a)); try discriminate Hau; reflexivity).
        rewrite Ef. rewrite N.eqb_refl. reflexivity. }
      pose proof (C27_secured_write_exact c E HE (c_frame x) Footer_None sc _ _ _ Hx Hfc P (c_buffer x)) as W.
      replace (List.length (wire_front (native c) (sc_frame_counter sc) (c_frame x) ++ payload (c_frame x)) <=? List.length (c_buffer x))%nat
        with true in W by (symmetry; apply Nat.leb_le; rewrite app_length; lia).
      rewrite W in H. cbn [ser_ctx security_ctx] in H.
      destruct (send_all c E sc rest) as [log2 sc2] eqn:S. injection H as <- <-.
      change last_counter with 0xFFFFFFFF in Ef. destruct i as [|i].
      * cbn in Hi. injection Hi as <-.
        replace (sc_frame_counter sc + N.of_nat 0 <? 0xFFFFFFFF) with false by (symmetry; apply N.ltb_ge; lia).
        split; [reflexivity|exact Ef].
      * cbn [nth_error] in Hi. pose proof (IH _ _ _ Hr Or Hfc S i e Hi) as X.
        replace (sc_frame_counter sc + N.of_nat i <? 0xFFFFFFFF) with false in X by (symmetry; apply N.ltb_ge; lia).
        replace (sc_frame_counter sc + N.of_nat (Datatypes.S i) <? 0xFFFFFFFF) with false by (symmetry; apply N.ltb_ge; lia).
        exact X.
Qed.
End Sender.

Section Receiver.
Context {K D : Type} (c : cfg) (E : block_cipher K).
Hypothesis HE : cipher_ok E.
Variables (dl : DeviceLookup D) (resolve : Address -> option N) (get : D -> N -> DeviceDescriptor).
Hypothesis Hstore : device_store dl resolve get.

Lemma sorted_bounded l : StronglySorted N.lt l -> forall lo hi, Forall (fun v => lo <= v < hi) l -> lo <= hi ->
  N.of_nat (List.length l) <= hi - lo.
Proof.
  induction 1 as [|v l Hs IH Hv]; intros lo hi Hf Hle; cbn [List.length]; [lia|].
  inversion Hf as [|? ? Hv' Hl]; subst.
  assert (X : N.of_nat (List.length l) <= hi - (v + 1)).
  { apply IH; [|lia]. rewrite Forall_forall in *. intros w Hw. specialize (Hv w Hw). specialize (Hl w Hw). lia. }
  lia.
Qed.

Lemma store_u32 arrivals : forall ds log ds' x, arrivals_ok arrivals -> receive_all c E dl ds arrivals = (log, ds') ->
  u32_ok (dev_frame_counter (get ds x)) -> u32_ok (dev_frame_counter (get ds' x)).
Proof.
  induction arrivals as [|y l IH]; intros ds log ds' x Ho R H.
  - cbn in R. now injection R as <- <-.
  - cbn [receive_all] in R. inversion Ho as [|? ? Hy Hl]; subst.
    destruct (try_read_and_unsecure c E (a_bytes y) (a_ctx y) dl ds) as [r [[b1 x1] d1]] eqn:T.
    destruct (receive_all c E dl d1 l) as [log2 ds2] eqn:R2. injection R as <- <-.
    eapply IH; [exact Hl|exact R2|].
    pose proof (step_store c E HE dl resolve get Hstore _ _ _ _ _ _ _ x Hy T) as S.
    destruct (accepted_for _ _ _) as [f|]; [|now rewrite S].
    destruct S as (_ & _ & _ & ->). cbn [dev_frame_counter]. unfold counter_after, u32_ok.
    change (2 ^ 32) with 4294967296. lia.
Qed.

(** A receiver accepts at most that many frames from one device, however many arrive. *)
Theorem C72_receiver_capacity : forall arrivals ds log ds' x, arrivals_ok arrivals ->
  receive_all c E dl ds arrivals = (log, ds') ->
  overflow_checks c = true \/ Forall (fun fc => fc <> 0xFFFFFFFF) (counters (accepted resolve x log)) ->
  u32_ok (dev_frame_counter (get ds x)) ->
  dev_frame_counter (get ds x) + N.of_nat (List.length (accepted resolve x log)) <= dev_frame_counter (get ds' x) /\
  N.of_nat (List.length (accepted resolve x log)) <= 0xFFFFFFFF - dev_frame_counter (get ds x).
Proof using HE Hstore.
  intros arrivals ds log ds' x Ho R Hl Hu.
  destruct (C34_accepted_counters_increase c E HE dl resolve get Hstore arrivals ds log ds' x Ho R Hl) as (S & B & L & _).
  assert (Hle : dev_frame_counter (get ds x) <= dev_frame_counter (get ds' x)).
  { rewrite L. destruct (counters (accepted resolve x log)) as [|v cs] eqn:Q; [cbn; lia|].
    rewrite Forall_forall in B. pose proof (B v (or_introl eq_refl)) as Bv.
    rewrite <- L. lia. }
  pose proof (store_u32 arrivals ds log ds' x Ho R Hu) as Hu'. unfold u32_ok in Hu'. change (2 ^ 32) with 4294967296 in Hu'.
  pose proof (sorted_bounded _ S _ _ B Hle) as X. unfold counters in X. rewrite map_length in X. lia.
Qed.
End Receiver.

Section System.
Context {K D : Type} (c : N -> cfg) (E : block_cipher K) (dl : N -> DeviceLookup D).
Hypothesis HE : cipher_ok E.
Variables (st : N -> node_state K D) (member : N -> Prop).
Hypothesis Htyped : forall x, u32_ok (sc_frame_counter (n_ctx (st x))) /\ u64_ok (sc_euid (n_ctx (st x))).
Hypothesis Hdistinct : forall x y, member x -> member y -> sc_euid (n_ctx (st x)) = sc_euid (n_ctx (st y)) -> x = y.

(** Key stream inputs of everything that happened in a system. *)
Definition system_stream (log : list (N * event)) : list (list N) :=
  flat_map (fun p => match snd p with
                     | Wrote e => if used e then stream_inputs (sc_euid (n_ctx (st (fst p)))) e else []
                     | Got _ _ _ => []
                     end) log.

(** Whatever the nodes of a system (with distinct extended addresses) send and receive, in any
    order: no two blocks of key stream, of one frame or of two, have the same input; so no key
    stream is used twice even if all nodes share one key. *)
Theorem C71_key_stream_never_reused : forall acts log st',
  Forall (fun p => action_ok (snd p) /\ member (fst p)) acts ->
  run_system c E dl st acts = (log, st') ->
  NoDup (system_stream log).
Proof using HE Htyped Hdistinct.
  intros acts log st' Ho R.
  assert (Short : forall x e, In (x, Wrote e) log -> used e = true -> (List.length (payload (s_frame e)) <= 127)%nat).
  { intros x e Hin U. destruct (system_writes c E dl HE st member Htyped acts log st' x Ho R) as (Hc & S).
    assert (He : In e (NodeSpec.wrote (of_node x log))).
    { unfold NodeSpec.wrote. apply in_flat_map. exists (Wrote e). split; [now apply of_node_in|now left]. }
    destruct (send_all_inv (c x) E HE _ _ _ _ Hc (proj1 (Htyped x)) S) as (I1 & _).
    rewrite Forall_forall in I1. exact (used_short (c x) E HE _ e (I1 e He) U). }
  unfold system_stream. apply nodup_flat_map.
  - intros [x [e|? ? ?]] Hin; cbn [fst snd]; [|constructor]. destruct (used e) eqn:U; [|constructor].
    pose proof (Short x e Hin U) as Hs. unfold stream_inputs. apply nodup_map_inj; [|apply seq_NoDup].
    intros i j Hi Hj X. apply in_seq in Hi, Hj. apply stream_input_injective in X; [apply X|reflexivity|lia|lia].
  - pose proof (C74_system_nonces c E dl HE st member Htyped Hdistinct acts log st' Ho R) as Nn.
    assert (G : forall done todo, log = done ++ todo ->
      ForallOrdPairs (fun x y => forall b,
        In b (match snd x with Wrote e => if used e then stream_inputs (sc_euid (n_ctx (st (fst x)))) e else [] | Got _ _ _ => [] end) ->
        In b (match snd y with Wrote e => if used e then stream_inputs (sc_euid (n_ctx (st (fst y)))) e else [] | Got _ _ _ => [] end) ->
        False) todo).
    { intros done todo. revert done. induction todo as [|p todo IH]; intros done El; [constructor|]. constructor.
      - apply Forall_forall. intros q Hq b Hb1 Hb2.
        destruct p as [x1 [e1|? ? ?]]; [|destruct Hb1]. destruct q as [x2 [e2|? ? ?]]; [|destruct Hb2]. cbn [fst snd] in *.
        destruct (used e1) eqn:U1; [|destruct Hb1]. destruct (used e2) eqn:U2; [|destruct Hb2].
        apply in_split in Hq. destruct Hq as (l2 & l3 & ->).
        apply (Nn done x1 e1 l2 x2 e2 l3 El U1 U2).
        pose proof (Short x1 e1) as S1. pose proof (Short x2 e2) as S2.
        rewrite El in S1, S2.
        assert (Hs1 : (List.length (payload (s_frame e1)) <= 127)%nat).
        { apply S1; [|exact U1]. apply in_or_app. right. now left. }
        assert (Hs2 : (List.length (payload (s_frame e2)) <= 127)%nat).
        { apply S2; [|exact U2]. apply in_or_app. right. right. apply in_or_app. right. now left. }
        clear S1 S2.
        unfold stream_inputs in Hb1, Hb2. apply in_map_iff in Hb1, Hb2.
        destruct Hb1 as (i & Ei & Hi). destruct Hb2 as (j & Ej & Hj). apply in_seq in Hi, Hj.
        rewrite <- Ej in Ei. apply stream_input_injective in Ei; [apply Ei|now rewrite !mac_nonce_length|lia|lia].
      - apply (IH (done ++ [p])). now rewrite <- app_assoc. }
    exact (G [] log eq_refl).
Qed.
End System.

(** * Concrete cases *)

(** C71: seven calls used up a counter in the pair of nodes, of one or two key stream blocks each (the
    payloads are short); and a longer payload. *)
Example some_streams :
  List.length (system_stream pair_state pair_log) = 10%nat /\
  nth 1 (system_stream pair_state pair_log) [] = [1; 1;0;0;0;0;0;0;0; 41;0;0;0; 1; 0;1] /\
  forallb (fun n => (List.length n =? 16)%nat) (system_stream pair_state pair_log) = true.
Proof. vm_compute. auto. Qed.
Definition long_call : call := at_level SL_ENCMIC32 false (repeat 7 40) 127.
Definition long_event : sent := nth 0 (fst (send_all host aes_cipher (sender 41) [long_call])) no_event.
Example a_long_payload :
  In long_event (fst (send_all host aes_cipher (sender 41) [long_call])) /\ calls_ok [long_call] /\
  secured long_event = true /\ encrypting (level_of long_event) = true /\
  List.length (stream_inputs 1 long_event) = 4%nat.
Proof.
  split; [vm_compute; left; reflexivity|]. split.
  { constructor; [|constructor]. apply level_frame_ok. apply Forall_forall. intros x Hx. apply repeat_spec in Hx. now subst x. }
  vm_compute. auto.
Qed.

(** C72: three ordinary calls with two counter values left. *)
Definition three_calls : list call :=
  [at_level SL_MIC32 false [1] 127; at_level SL_ENCMIC64 true [2; 3] 127; at_level SL_MIC128 false [] 200].
Example the_end_of_a_key :
  calls_ok three_calls /\ Forall (ordinary (sender 0xFFFFFFFD)) three_calls /\
  map (fun e => (s_result e, s_before e, secured e)) (fst (send_all host aes_cipher (sender 0xFFFFFFFD) three_calls))
  = [(Ok 34%nat, 0xFFFFFFFD, true); (Ok 37%nat, 0xFFFFFFFE, true); (Err (BadInput "CounterError"), 0xFFFFFFFF, false)].
Proof.
  split; [repeat constructor; reflexivity|]. split; [|vm_compute; reflexivity].
  assert (O : forall l b p n, authenticated l = true -> (List.length p <= 50)%nat -> (127 <= n)%nat -> ordinary (sender 0xFFFFFFFD) (at_level l b p n)).
  { intros l b p n Hl Hp Hn. split; [reflexivity|]. eexists _, _, _. split; [reflexivity|]. split; [exact Hl|].
    split; [reflexivity|]. split; [reflexivity|]. split; [destruct b; repeat split; discriminate|].
    split; [|split; [|reflexivity]].
    - unfold length_estimate. cbn [c_frame at_level level_frame payload]. destruct b, l; cbn; lia.
    - cbn [at_level c_buffer]. now rewrite repeat_length. }
  repeat (constructor; [apply O; [reflexivity|cbn; lia|lia]|]). constructor.
Qed.
Example a_receiver :
  u32_ok (dev_frame_counter (known_get two_devices 1)) /\
  List.length (accepted (known_resolve [5; 1]) 1 (fst some_receptions)) = 2%nat.
Proof. split; vm_compute; reflexivity. Qed.

Print Assumptions C71_stream_apart_from_mac.
Print Assumptions C71_stream_is_what_encrypts.
Print Assumptions C71_key_stream_never_reused.
Print Assumptions C72_counter_counts.
Print Assumptions C72_exact_capacity.
Print Assumptions C72_receiver_capacity.
