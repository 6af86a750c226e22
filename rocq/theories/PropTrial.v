(** C94: trying one key after the other on a received buffer. C95: relays without the key. *)
From Coq Require Import List Arith NArith ZArith Bool String Lia ZifyBool ZifyNat ZifyN.
From Verif Require Import ByteCrate Types HeaderModel BeaconModel CommandModel CcmModel FrameModel
  Spec SecSpec ProofLib HeaderProofs HeaderReadProofs BeaconProofs CommandProofs FrameProofs CcmProofs
  SecureProofs RepoTests Aes128 AesProofs PropHeader PropContent PropFrame PropSecure PropReceive PropHistory
  PropNetwork.
Import ListNotations.
Open Scope N_scope.
Open Scope list_scope.
Ltac Zify.zify_post_hook ::= Z.div_mod_to_equations.

(** * C94 *)

Section Trial.
Context {K D : Type} (c : cfg) (E : block_cipher K).
Hypothesis HE : cipher_ok E.

(** An application with several keys (an old and a new one, say): it calls
    Frame::try_read_and_unsecure with one context after the other on the same buffer and the same
    device store until a call does not return an error. The results, and buffer and store in the end. *)
Fixpoint attempts (bs : list N) (ctxs : list (FrameSerDesContext K)) (dl : DeviceLookup D) (ds : D)
  : list (outcome SecurityError (Frame * nat)) * (list N * D) :=
  match ctxs with
  | [] => ([], (bs, ds))
  | x :: rest =>
      match try_read_and_unsecure c E bs x dl ds with
      | (Err e, (bs', _, ds')) => let '(rs, s) := attempts bs' rest dl ds' in (Err e :: rs, s)
      | (r, (bs', _, ds')) => ([r], (bs', ds'))
      end
  end.

(** What the same application gets if it gives every call a copy of its own of what was received, and
    the device store as it was. *)
Fixpoint on_copies (bs : list N) (ctxs : list (FrameSerDesContext K)) (dl : DeviceLookup D) (ds : D)
  : list (outcome SecurityError (Frame * nat)) * (list N * D) :=
  match ctxs with
  | [] => ([], (bs, ds))
  | x :: rest =>
      match try_read_and_unsecure c E bs x dl ds with
      | (Err e, _) => let '(rs, s) := on_copies bs rest dl ds in (Err e :: rs, s)
      | (r, (bs', _, ds')) => ([r], (bs', ds'))
      end
  end.

(** The received frame is not at an encrypting level. *)
Definition not_encrypted (bs : list N) : Prop :=
  forall h n a, try_read_header c bs = Ok (h, n) -> auxiliary_security_header h = Some a ->
    encrypting (security_level (control a)) = false.

(** What a failed attempt leaves behind. *)
Lemma failed_attempt bs x (dl : DeviceLookup D) ds e s : octets bs -> cfg_ok c -> lawful_lookup dl ->
  try_read_and_unsecure c E bs x dl ds = (Err e, s) ->
  exists bs', s = (bs', x, ds) /\
    (bs' = bs \/
     e = TransformationError /\ exists h n a eui key d put,
       try_read_header c bs = Ok (h, n) /\ auxiliary_security_header h = Some a /\
       (exists sc, x = ser_ctx Footer_None sc /\ admitted sc dl ds h a eui key d put) /\
       encrypting (security_level (control a)) = true /\
       let k := (List.length bs - tag_len (security_level (control a)))%nat in
       (n <= k)%nat /\
       bs' = firstn n bs
             ++ on_auth_failure E key (mac_nonce eui (frame_counter a) (security_level (control a)))
                  (firstn (k - n) (skipn n bs))
             ++ skipn k bs).
Proof.
  intros Hb Hc HL R. destruct s as [[bs' ctx'] ds'].
  pose proof (C33_rejected_changes_nothing c E HE bs x dl ds (Err e) bs' ctx' ds' Hb HL R) as X.
  destruct X as (-> & -> & _ & _ & X1 & _); [discriminate|].
  exists bs'. split; [reflexivity|].
  rewrite (C64_receive_exact c E HE) in R by assumption.
  destruct (try_read_header c bs) as [[h n]|eh|] eqn:Hh; [|injection R; intros; left; congruence|discriminate].
  destruct (try_read_content h (skipn n bs)) as [[ct k]|eh|] eqn:Hct; [|injection R; intros; left; congruence|discriminate].
  destruct (auxiliary_security_header h) as [a|] eqn:Ha; [|discriminate].
  destruct x as [m osc]. cbn [security_ctx footer_mode] in R.
  destruct osc as [sc|]; [|injection R; intros; left; congruence].
  destruct m; [|discriminate].
  destruct (is_data h) eqn:Hd.
  2: { left. unfold receive in R. rewrite Hd in R. cbn [negb] in R. rewrite firstn_skipn in R. injection R; congruence. }
  assert (K0 : k = 0%nat).
  { unfold is_data in Hd. unfold try_read_content in Hct. destruct (frame_type h); try discriminate.
    now injection Hct. }
  subst k. rewrite Nat.add_0_r in R.
  unfold receive in R. rewrite Hd in R. cbn [negb] in R.
  destruct (match version h with Ieee802154_2003 => true | _ => false end) eqn:Hv;
    [left; rewrite firstn_skipn in R; injection R; congruence|].
  destruct (level_is_none (security_level (control a))) eqn:Ln;
    [left; rewrite firstn_skipn in R; injection R; congruence|].
  destruct (sc_key_provider sc SrcAddrMode (key_identifier a) (source h)) as [[eui key]|] eqn:Hk;
    [|left; rewrite firstn_skipn in R; injection R; congruence].
  destruct (source h) as [s|] eqn:Hs; [|left; rewrite firstn_skipn in R; injection R; congruence].
  destruct (dl SrcAddrMode s ds) as [ds1|d put] eqn:Hdl; [left; rewrite firstn_skipn in R; injection R; congruence|].
  destruct ((dev_frame_counter d =? last_counter) || (frame_counter a <? dev_frame_counter d)) eqn:Hfc;
    [left; rewrite firstn_skipn in R; injection R; congruence|].
  destruct (level_is_enc (security_level (control a))) eqn:Le;
    [left; rewrite firstn_skipn in R; injection R; congruence|].
  destruct (List.length (skipn n bs) <? tag_len (security_level (control a)))%nat eqn:Lt; [discriminate|].
  match type of R with context [if ?b then if frame_counter a =? last_counter then _ else _ else _] => destruct b eqn:V end.
  { destruct (frame_counter a =? last_counter); [destruct (overflow_checks c)|]; discriminate. }
  injection R as Ee Eb _.
  destruct (encrypting (security_level (control a))) eqn:En.
  2: { left. rewrite firstn_skipn, firstn_skipn in Eb. congruence. }
  right. split; [congruence|]. exists h, n, a, eui, key, d, put.
  assert (Ln' : (n <= List.length bs)%nat).
  { apply (C03_header_decode_exact c bs h n Hb) in Hh. tauto. }
  rewrite skipn_length in Lt, Eb.
  split; [reflexivity|]. split; [exact Ha|]. split.
  { exists sc. split; [reflexivity|]. split; [exact Ha|].
    split. { unfold is_data in Hd. destruct (frame_type h); congruence. }
    split. { intros X. rewrite X in Hv. discriminate. }
    split. { now apply authenticated_level. }
    split. { rewrite Hs. exact Hk. }
    split. { exists s. rewrite Hs. auto. }
    apply orb_false_iff in Hfc. destruct Hfc as [F1 F2]. split; [now apply N.eqb_neq|lia]. }
  split; [exact En|]. cbv zeta.
  set (t := tag_len (security_level (control a))) in *.
  split; [lia|]. rewrite <- Eb.
  replace (List.length bs - t - n)%nat with (List.length bs - n - t)%nat by lia.
  replace (skipn (List.length bs - t) bs) with (skipn (List.length bs - n - t) (skipn n bs));
    [reflexivity|]. rewrite skipn_skipn'. f_equal. lia.
Qed.

(** Trying the contexts in turn on one buffer is as good as giving each a copy of its own, provided
    the frame is not encrypted, or no attempt fails at its tag, or the cipher leaves the buffer of a
    failed decryption as it was. *)
Theorem C94_as_on_copies : forall ctxs bs (dl : DeviceLookup D) ds, octets bs -> cfg_ok c -> lawful_lookup dl ->
  not_encrypted bs
  \/ Forall (fun x => fst (try_read_and_unsecure c E bs x dl ds) <> Err TransformationError) ctxs
  \/ (forall key nonce b, on_auth_failure E key nonce b = b) ->
  attempts bs ctxs dl ds = on_copies bs ctxs dl ds.
Proof.
  intros ctxs bs dl ds Hb Hc HL. induction ctxs as [|x rest IH]; intros G; [reflexivity|].
  cbn [attempts on_copies].
  destruct (try_read_and_unsecure c E bs x dl ds) as [r [[bs' x'] ds']] eqn:R.
  destruct r as [v|e|]; [reflexivity| |reflexivity].
  destruct (failed_attempt bs x dl ds e _ Hb Hc HL R) as (b2 & Es & W).
  injection Es as -> -> ->.
  assert (B : b2 = bs).
  { destruct W as [W|(-> & h & n & a & eui & key & d & put & Hh & Ha & _ & En & Lk & Eb)]; [exact W|].
    destruct G as [G|[G|G]].
    - rewrite (G h n a Hh Ha) in En. discriminate.
    - apply Forall_inv in G. rewrite R in G. now destruct G.
    - cbv zeta in Lk, Eb. rewrite G in Eb. rewrite Eb.
      set (k := (List.length bs - tag_len (security_level (control a)))%nat) in *.
      replace (skipn k bs) with (skipn (k - n) (skipn n bs)) by (rewrite skipn_skipn'; f_equal; lia).
      now rewrite !firstn_skipn. }
  subst b2. rewrite IH; [reflexivity|].
  destruct G as [G|[G|G]]; [now left| |now right; right]. right. left. now apply Forall_inv_tail in G.
Qed.

(** With copies the first context that accepts on its own decides; the attempts before it leave no
    trace. *)
Theorem C94_first_that_accepts : forall before x after bs (dl : DeviceLookup D) ds f n s,
  Forall (fun y => exists e, fst (try_read_and_unsecure c E bs y dl ds) = Err e) before ->
  try_read_and_unsecure c E bs x dl ds = (Ok (f, n), s) ->
  on_copies bs (before ++ x :: after) dl ds
  = (map (fun y => fst (try_read_and_unsecure c E bs y dl ds)) before ++ [Ok (f, n)], (fst (fst s), snd s)).
Proof.
  intros before x after bs dl ds f n s HF HA. induction before as [|y before IH]; cbn [app on_copies map].
  - rewrite HA. now destruct s as [[b x'] d].
  - inversion HF as [|? ? (e & He) HF']; subst. destruct (try_read_and_unsecure c E bs y dl ds) as [r s2].
    cbn [fst] in He. subst r. cbn [fst]. now rewrite IH.
Qed.

(** In general: an attempt that fails leaves the device store and the context as they were; the
    header and the tag stay where they are, and if the frame is encrypted and the attempt got as far as
    its tag, the next attempt finds what the cipher left in place of the encrypted payload. *)
Theorem C94_after_a_failure : forall x rest bs (dl : DeviceLookup D) ds e s,
  octets bs -> cfg_ok c -> lawful_lookup dl ->
  try_read_and_unsecure c E bs x dl ds = (Err e, s) ->
  exists bs', attempts bs (x :: rest) dl ds
              = (Err e :: fst (attempts bs' rest dl ds), snd (attempts bs' rest dl ds)) /\
    (bs' = bs \/
     e = TransformationError /\ exists h n a eui key,
       try_read_header c bs = Ok (h, n) /\ auxiliary_security_header h = Some a /\
       encrypting (security_level (control a)) = true /\
       (exists sc, security_ctx x = Some sc /\
          sc_key_provider sc SrcAddrMode (key_identifier a) (source h) = Some (eui, key)) /\
       let k := (List.length bs - tag_len (security_level (control a)))%nat in
       (n <= k)%nat /\
       bs' = firstn n bs
             ++ on_auth_failure E key (mac_nonce eui (frame_counter a) (security_level (control a)))
                  (firstn (k - n) (skipn n bs))
             ++ skipn k bs).
Proof.
  intros x rest bs dl ds e s Hb Hc HL R.
  destruct (failed_attempt bs x dl ds e s Hb Hc HL R) as (bs' & -> & W).
  exists bs'. split.
  - cbn [attempts]. rewrite R. now destruct (attempts bs' rest dl ds).
  - destruct W as [W|(-> & h & n & a & eui & key & d & put & Hh & Ha & (sc & -> & A) & En & Lk & Eb)]; [now left|].
    right. split; [reflexivity|]. exists h, n, a, eui, key.
    split; [exact Hh|]. split; [exact Ha|]. split; [exact En|]. split; [|now split].
    exists sc. split; [reflexivity|]. apply A.
Qed.

End Trial.

(** If the buffer of a failed decryption is cleared ([aes_cipher] is modelled so; what ccm 0.4 does could
    not be looked up in the sandbox), the right key, tried second, does not open an encrypted frame any more, which it would have done
    tried first. At an unencrypted level it does, tried second. *)
Definition other_key_ctx (fc : N) : FrameSerDesContext (list N) :=
  {| footer_mode := Footer_None;
     security_ctx := Some (SecurityContext_new 1 fc (fun _ _ a =>
       match a with Some (Extended _ id) => Some (id, repeat 1 16) | _ => None end)) |}.

Theorem C94_right_key_tried_second_refuted :
  octets doc_bytes /\ lawful_lookup basic_dev_lookup /\
  (exists f n s, try_read_and_unsecure host aes_cipher doc_bytes (aes_ctx 1 1) basic_dev_lookup (dev 0) = (Ok (f, n), s)) /\
  fst (attempts host aes_cipher doc_bytes [other_key_ctx 1; aes_ctx 1 1] basic_dev_lookup (dev 0))
  = [Err TransformationError; Err TransformationError].
Proof.
  split; [repeat constructor|]. split; [intros a d; reflexivity|].
  split; [do 3 eexists; vm_compute; reflexivity|]. vm_compute. reflexivity.
Qed.

Example right_key_second_unencrypted :
  octets mic_bytes /\ not_encrypted host mic_bytes /\
  match attempts host aes_cipher mic_bytes [other_key_ctx 1; aes_ctx 8 0; other_key_ctx 2] basic_dev_lookup (dev 3) with
  | ([Err TransformationError; Ok (f, _)], (bs, d)) =>
      Some (payload f, bytes_eqb bs mic_bytes, dev_frame_counter d)
  | _ => None
  end = Some (repeat 0xff 6, true, 0x03030304).
Proof.
  split. { unfold octets. apply Forall_forall. intros x Hx.
           assert (A : forallb (fun x => x <? 256) mic_bytes = true) by (vm_compute; reflexivity).
           rewrite forallb_forall in A. specialize (A x Hx). cbn beta in A. lia. }
  split. { intros h n a Hh Ha.
           assert (X : match try_read_header host mic_bytes with
                       | Ok (h, _) => match auxiliary_security_header h with
                                      | Some a => encrypting (security_level (control a)) | None => false end
                       | _ => false end = false) by (vm_compute; reflexivity).
           rewrite Hh, Ha in X. exact X. }
  vm_compute. reflexivity.
Qed.

(** * C95 *)

Section Relay.
Context {K D : Type} (c1 c2 : cfg) (E : block_cipher K).
Hypothesis HE : cipher_ok E.

(** A relay reads the header of a secured frame with Header::try_read, alters what it likes - sequence
    number, flags, destination; not the source, frame type, or security header, and not to version
    2003 - and writes it with Header::try_write and a context whose counter is the one in the frame
    before the rest of the octets. It needs no key. The receiver then accepts exactly what it would
    have accepted from the sender: same payload, same change of the device store. *)
Theorem C95_relayed_frame_accepted : forall bs ctx (dl : DeviceLookup D) ds f n bs' ctx' ds' a
    {K'} (sc : SecurityContext K') h k h2 out m out',
  native c1 = LE -> native c2 = LE -> octets bs ->
  try_read_and_unsecure c2 E bs ctx dl ds = (Ok (f, n), (bs', ctx', ds')) ->
  auxiliary_security_header (header f) = Some a ->
  try_read_header c1 bs = Ok (h, k) ->
  header_ok h2 -> frame_type h2 = frame_type h -> version h2 <> Ieee802154_2003 ->
  auxiliary_security_header h2 = auxiliary_security_header h ->
  source (header_sent (frame_counter a) h2) = source h ->
  sc_frame_counter sc = frame_counter a ->
  try_write_header c1 h2 (Some sc) out = (Ok m, out') ->
  exists bs2,
  try_read_and_unsecure c2 E (firstn m out' ++ skipn k bs) ctx dl ds
  = (Ok ({| header := header_sent (frame_counter a) h2; content := FC_Data; payload := payload f; footer := (0, 0) |},
         (m + List.length (payload f))%nat), (bs2, ctx, ds')).
Proof.
  intros bs ctx dl ds f n bs' ctx' ds' a K' sc h k h2 out m out' H1 H2 Hb R Ha Hh Hok Ht Hv Haux Hsrc Hfc W.
  pose proof R as R0. apply (C32_accepted_iff c2 E HE bs ctx dl ds f n bs' ctx' ds' a Hb Ha) in R0.
  destruct R0 as (sc0 & eui & key & d & put & r7 & rs & -> & -> & Hdec & _ & _ & A & Hrs & Ebs & _).
  assert (Eh : h = header f /\ k = header_len (header f)).
  { rewrite Ebs in Hh. rewrite H2 in Hh.
    match type of Hh with try_read_header _ (_ ++ ?t) = _ =>
      pose proof (try_read_header_complete c1 r7 rs (header f) t Hrs Hdec) as X end.
    rewrite H1 in X. rewrite X in Hh. now injection Hh. }
  destruct Eh as [-> ->].
  assert (Ofc : u32_ok (frame_counter a)).
  { destruct Hdec as ((_ & _ & _ & Hx) & _). rewrite Ha in Hx. apply Hx. }
  assert (Hcomp : compression_ok h2 = true).
  { apply compression_ok_iff. unfold compression_allowed. intros Hp.
    pose proof (C02_header_write_decision c1 h2 (Some sc) out Hok) as X. rewrite W in X. cbn [fst] in X.
    destruct (List.length out <? 3)%nat; [discriminate|]. rewrite Hp in X. cbn [andb] in X.
    destruct (destination h2), (source h2); cbn [is_some andb negb] in X; try discriminate.
    split; discriminate. }
  destruct (C01_header_wire_layout c1 h2 (Some sc) out m out' Hok W) as (Eo & Em & Lm).
  cbn [counter_of] in Eo, Em. rewrite Hfc, H1 in Eo, Em.
  assert (Em' : m = header_len (header_sent (frame_counter a) h2)) by (rewrite Em; apply wire_header_length).
  assert (Efm : firstn m out' = wire_header LE LE false 0 (header_sent (frame_counter a) h2)).
  { rewrite Eo, Em. apply firstn_app_exact. }
  destruct (C37_header_not_authenticated c2 E HE bs _ dl ds f n bs' _ ds' a Hb R Ha
              (header_sent (frame_counter a) h2) false 0) as (bs2 & X).
  - now apply header_sent_decoded.
  - reflexivity.
  - cbn [header_sent frame_type]. rewrite Ht. apply A.
  - exact Hv.
  - exact Hsrc.
  - cbn [header_sent auxiliary_security_header]. rewrite Haux, Ha.
    destruct Hdec as (_ & _ & Hm). rewrite <- (Hm a Ha). now destruct a as [[l i] fc ki].
  - exists bs2. rewrite Efm, Em'. rewrite H2 in X. exact X.
Qed.

End Relay.

(** The relay's context counts for nothing but its counter, which must be the frame's: with its own
    counter in the header the receiver refuses the frame. The relay here has no keys at all; it changes
    the sequence number and the destination. *)
Definition relay_ctx (fc : N) : SecurityContext (list N) := SecurityContext_new 0 fc (fun _ _ _ => None).
Definition relay (fc : N) (bs : list N) : list N :=
  match try_read_header host bs with
  | Ok (h, k) =>
      let h2 := {| frame_type := frame_type h; frame_pending := true; ack_request := ack_request h;
                   pan_id_compress := pan_id_compress h; seq_no_suppress := false; ie_present := false;
                   version := version h; seq := 3; destination := Some (Short 0x0111 0x7777);
                   source := source h; auxiliary_security_header := auxiliary_security_header h |} in
      match try_write_header host h2 (Some (relay_ctx fc)) (repeat 0 64) with
      | (Ok m, out) => firstn m out ++ skipn k bs
      | _ => []
      end
  | _ => []
  end.
Theorem C95_own_counter_refuted :
  octets doc_bytes /\
  (exists f n s, try_read_and_unsecure host aes_cipher doc_bytes (aes_ctx 1 1) basic_dev_lookup (dev 0) = (Ok (f, n), s)) /\
  (exists f n s, try_read_and_unsecure host aes_cipher (relay 0 doc_bytes) (aes_ctx 1 1) basic_dev_lookup (dev 0) = (Ok (f, n), s)
     /\ payload f = [0; 1; 2; 3; 4] /\ destination (header f) = Some (Short 0x0111 0x7777)) /\
  fst (try_read_and_unsecure host aes_cipher (relay 9 doc_bytes) (aes_ctx 1 1) basic_dev_lookup (dev 0))
  = Err TransformationError.
Proof.
  split; [repeat constructor|].
  split; [do 3 eexists; vm_compute; reflexivity|].
  split; [do 3 eexists; split; [vm_compute; reflexivity|split; reflexivity]|].
  vm_compute. reflexivity.
Qed.

Print Assumptions C94_as_on_copies.
Print Assumptions C94_first_that_accepts.
Print Assumptions C94_after_a_failure.
Print Assumptions C94_right_key_tried_second_refuted.
Print Assumptions C95_relayed_frame_accepted.
Print Assumptions C95_own_counter_refuted.
