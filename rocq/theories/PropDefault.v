(** Property C51: the default [Unimplemented] key provider, device lookup and block cipher. *)
From Coq Require Import List Arith NArith ZArith Bool String Lia ZifyBool ZifyNat ZifyN.
From Verif Require Import ByteCrate Types HeaderModel BeaconModel CommandModel CcmModel FrameModel
  Spec SecSpec ProofLib HeaderProofs HeaderReadProofs BeaconProofs CommandProofs FrameProofs CcmProofs
  SecureProofs RepoTests Aes128 AesProofs PropHeader PropContent PropFrame PropSecure PropReceive.
Import ListNotations.
Open Scope N_scope.
Open Scope list_scope.
Ltac Zify.zify_post_hook ::= Z.div_mod_to_equations.

(** ** C51 The default lookups let nothing through *)
Section Lookups.
Context {K D : Type} (c : cfg) (E : block_cipher K).
Hypothesis HE : cipher_ok E.

(** Whatever is written with the default key provider is not protected. *)
Theorem C51_default_keys_protect_nothing : forall f m sc buf n r, frame_ok f -> u32_ok (sc_frame_counter sc) ->
  sc_key_provider sc = unimplemented_keys ->
  try_write_frame c E f (ser_ctx m sc) buf = (Ok n, r) ->
  forall a, auxiliary_security_header (header f) = Some a -> security_level (control a) = SL_None.
Proof.
  intros f m sc buf n [ctx' buf'] Hok Hfc Hk W a Ha.
  destruct (write_ok_inv c E HE f m sc buf n ctx' buf' Hok Hfc W) as (bs & used & P & _).
  apply plan_ok in P. rewrite Ha in P. destruct P as (_ & _ & _ & _ & P).
  destruct (security_level (control a)); [reflexivity|..]; cbn [level_is_none] in P;
    destruct P as (_ & _ & _ & eui & key & P & _); rewrite Hk in P; discriminate.
Qed.

(** A frame that asks for protection and passes the length check fails with UnavailableKey, and
    the failed attempt has used a frame counter. *)
Theorem C51_default_keys_write_fails : forall f sc a buf, frame_ok f -> sc_frame_counter sc < last_counter ->
  sc_key_provider sc = unimplemented_keys ->
  auxiliary_security_header (header f) = Some a -> security_level (control a) <> SL_None ->
  frame_type (header f) = Data_t -> compression_allowed (header f) -> (length_estimate f a <= 127)%nat ->
  let clear := wire_front (native c) (sc_frame_counter sc) f ++ payload f in
  (List.length clear <= List.length buf)%nat ->
  try_write_frame c E f (ser_ctx Footer_None sc) buf
  = (Err (BadInput "UnavailableKey"),
     (ser_ctx Footer_None (advanced sc), clear ++ skipn (List.length clear) buf)).
Proof.
  intros f sc a buf Hok Hlt Hk Ha Hl Ht Hc Hest clear Lb.
  assert (Hfc : u32_ok (sc_frame_counter sc))
    by (unfold u32_ok; change last_counter with 4294967295 in Hlt; change (2 ^ 32) with 4294967296; lia).
  destruct (write_plan E (native c) Footer_None sc f) as [[bs st] used] eqn:P.
  pose proof (C27_secured_write_exact c E HE f _ sc bs st used Hok Hfc P buf) as X.
  unfold write_plan in P. apply compression_ok_iff in Hc. rewrite compression_ok_plan, Hc, Ha in P.
  cbn [negb] in P. unfold is_data in P. rewrite Ht in P. cbn [negb] in P.
  replace (127 <? length_estimate f a)%nat with false in P by lia.
  replace (level_is_none (security_level (control a))) with false in P by (destruct (security_level (control a)); cbn; congruence).
  replace (sc_frame_counter sc =? last_counter) with false in P by lia.
  rewrite Hk in P. cbn [unimplemented_keys] in P. apply triple_inj in P. destruct P as (<- & <- & <-).
  fold clear in X. replace (_ <=? _)%nat with true in X by lia. exact X.
Qed.

(** With the default key provider, or with the default device lookup, no secured frame is ever
    accepted, and no device state is touched. *)
Theorem C51_default_lookups_accept_nothing : forall bs ctx (dl : DeviceLookup D) ds r bs' ctx' ds', octets bs ->
  (forall sc, security_ctx ctx = Some sc -> sc_key_provider sc = unimplemented_keys) \/ dl = unimplemented_devices ->
  try_read_and_unsecure c E bs ctx dl ds = (r, (bs', ctx', ds')) ->
  field (input_word bs) 3 1 = 1 ->
  (forall x, r <> Ok x) /\ ds' = ds /\ bs' = bs.
Proof.
  intros bs ctx dl ds r bs' ctx' ds' Hb HU R Hbit.
  destruct (read_cases c E HE bs ctx dl ds Hb) as
    [(e & X & _)|[(h & n1 & EH & Hh & g & Eg & _ & X)|(h & n1 & ct & k & b & EH & EC & Lnk & Hh & Hfc & X)]].
  - rewrite X in R. apply pair_equal_spec in R. destruct R as [<- R2]. apply triple_inj in R2.
    destruct R2 as (<- & _ & <-). split; [discriminate|auto].
  - exfalso. destruct (header_need_eq c bs h n1 Hb EH) as (_ & _ & Es & _). unfold has_security in Es. rewrite Hbit, Hh in Es. discriminate.
  - destruct (security_ctx ctx) as [sc|] eqn:Esc.
    2:{ rewrite X in R. apply pair_equal_spec in R. destruct R as [<- R2]. apply triple_inj in R2.
        destruct R2 as (<- & _ & <-). split; [discriminate|auto]. }
    destruct (footer_mode ctx).
    2:{ rewrite X in R. apply pair_equal_spec in R. destruct R as [<- R2]. apply triple_inj in R2.
        destruct R2 as (<- & _ & <-). split; [discriminate|auto]. }
    destruct (receive E (overflow_checks c) sc dl ds h b (skipn (n1 + k) bs)) as [[r1 rest'] ds1] eqn:V.
    assert (Y : (forall x, r1 <> Ok x) /\ rest' = skipn (n1 + k) bs /\ ds1 = ds).
    { unfold receive in V.
      destruct (is_data h); cbn [negb] in V;
        [|apply triple_inj in V; destruct V as (<- & <- & <-); split; [discriminate|auto]].
      destruct (match version h with Ieee802154_2003 => true | _ => false end);
        [apply triple_inj in V; destruct V as (<- & <- & <-); split; [discriminate|auto]|].
      destruct (level_is_none _);
        [apply triple_inj in V; destruct V as (<- & <- & <-); split; [discriminate|auto]|].
      destruct HU as [HU| ->].
      - rewrite (HU sc eq_refl) in V. cbn [unimplemented_keys] in V.
        apply triple_inj in V; destruct V as (<- & <- & <-); split; [discriminate|auto].
      - destruct (sc_key_provider sc SrcAddrMode (key_identifier b) (source h)) as [[eui key]|];
          [|apply triple_inj in V; destruct V as (<- & <- & <-); split; [discriminate|auto]].
        destruct (source h) as [s|];
          cbn [unimplemented_devices] in V; apply triple_inj in V; destruct V as (<- & <- & <-); split; (discriminate || auto). }
    destruct Y as (Y1 & -> & ->). rewrite X in R. apply pair_equal_spec in R. destruct R as [<- R2]. apply triple_inj in R2.
    destruct R2 as (<- & _ & <-). rewrite firstn_skipn. split; [|auto].
    intros x Hx. destruct r1 as [p|e|]; try discriminate. now apply (Y1 p).
Qed.

End Lookups.

(** ** C51 The default block cipher protects nothing *)

(** What the crate leaves after a failed decryption has the length it had. *)
Definition same_length (leave : list N -> list N -> list N -> list N) : Prop :=
  forall k nonce b, List.length (leave k nonce b) = List.length b.

Lemma unimplemented_cipher_ok leave : same_length leave -> cipher_ok (unimplemented_cipher leave).
Proof. intros H. split; [|exact H]. intros k b Lb Ob. cbn. auto. Qed.

Section Cipher.
Context {D : Type} (leave : list N -> list N -> list N -> list N).
Hypothesis HL : same_length leave.
Let U := unimplemented_cipher leave.

Lemma cbc_mac_keyless k1 k2 B n : cbc_mac U k1 B n = cbc_mac U k2 B n.
Proof. induction n as [|n IH]; [reflexivity|]. cbn [cbc_mac]. now rewrite IH. Qed.
Lemma secured_payload_keyless k1 k2 l eui fc p : secured_payload U k1 l eui fc p = secured_payload U k2 l eui fc p.
Proof. destruct l; reflexivity. Qed.
Lemma ccm_tag_keyless k1 k2 m nonce a p : ccm_tag U k1 m nonce a p = ccm_tag U k2 m nonce a p.
Proof. unfold ccm_tag. now rewrite (cbc_mac_keyless k1 k2). Qed.
Lemma secured_tag_keyless k1 k2 l eui fc p : secured_tag U k1 l eui fc p = secured_tag U k2 l eui fc p.
Proof. destruct l; cbn [secured_tag]; try reflexivity; apply ccm_tag_keyless. Qed.

(** What is sent does not depend on the key at all. *)
Theorem C51_default_cipher_ignores_key : forall c f m sc kp buf, frame_ok f -> u32_ok (sc_frame_counter sc) ->
  (forall i d, (exists eui key, kp DstAddrMode i d = Some (eui, key)) <->
               (exists eui key, sc_key_provider sc DstAddrMode i d = Some (eui, key))) ->
  let r1 := try_write_frame c U f (ser_ctx m sc) buf in
  let r2 := try_write_frame c U f (ser_ctx m (with_provider kp sc)) buf in
  fst r1 = fst r2 /\ (forall n, fst r1 = Ok n -> snd (snd r1) = snd (snd r2)).
Proof.
  intros c f m sc kp buf Hok Hfc Hkp. cbv zeta.
  pose proof (unimplemented_cipher_ok leave HL) as HU. fold U in HU.
  assert (P : write_plan U (native c) m sc f = write_plan U (native c) m (with_provider kp sc) f).
  { unfold write_plan, with_provider. cbn [sc_euid sc_frame_counter sc_key_provider].
    destruct (_ && _); [reflexivity|]. destruct m; [|reflexivity].
    destruct (auxiliary_security_header (header f)) as [a|]; [|reflexivity].
    destruct (negb _); [reflexivity|]. destruct (_ <? _)%nat; [reflexivity|]. destruct (level_is_none _); [reflexivity|].
    destruct (_ =? _); [reflexivity|]. specialize (Hkp (key_identifier a) (destination (header f))).
    destruct (sc_key_provider sc DstAddrMode (key_identifier a) (destination (header f))) as [[e1 k1]|],
      (kp DstAddrMode (key_identifier a) (destination (header f))) as [[e2 k2]|].
    - destruct (level_is_enc _); [reflexivity|].
      rewrite (secured_payload_keyless k1 k2), (secured_tag_keyless k1 k2). reflexivity.
    - destruct Hkp as [_ H]. destruct (H ltac:(eauto)) as (? & ? & H'). discriminate.
    - destruct Hkp as [H _]. destruct (H ltac:(eauto)) as (? & ? & H'). discriminate.
    - reflexivity. }
  destruct (write_plan U (native c) m sc f) as [[bs st] used] eqn:P1. symmetry in P.
  pose proof (C27_secured_write_exact c U HU f m sc bs st used Hok Hfc P1 buf) as X1.
  pose proof (C27_secured_write_exact c U HU f m (with_provider kp sc) bs st used Hok Hfc P buf) as X2.
  destruct (Nat.leb_spec (List.length bs) (List.length buf)) as [L|L].
  - rewrite X1, X2. cbn [fst snd]. auto.
  - destruct X1 as (k1 & _ & _ & _ & X1). destruct X2 as (k2 & _ & _ & _ & X2). rewrite X1, X2.
    cbn [fst snd]. split; [reflexivity|discriminate].
Qed.

(** A secured frame is accepted by a receiver who holds any other key. *)
Theorem C51_default_cipher_accepts_any_key : forall c1 c2 f a sc buf n ctx' buf' rsc
    (dl : DeviceLookup D) ds s other_key d put,
  native c1 = LE -> native c2 = LE ->
  frame_ok f -> u32_ok (sc_frame_counter sc) -> frame_consistent f ->
  version (header f) <> Ieee802154_2003 ->
  auxiliary_security_header (header f) = Some a -> authenticated (security_level (control a)) = true ->
  let fc := sc_frame_counter sc in
  try_write_frame c1 U f (ser_ctx Footer_None sc) buf = (Ok n, (ctx', buf')) ->
  source (header_sent fc (header f)) = Some s ->
  sc_key_provider rsc SrcAddrMode (key_identifier a) (Some s) = Some (sc_euid sc, other_key) ->
  dl SrcAddrMode s ds = DevFound d put -> dev_frame_counter d <= fc ->
  exists bs' ctx2 ds2,
  try_read_and_unsecure c2 U (firstn n buf') (ser_ctx Footer_None rsc) dl ds
  = (Ok (frame_sent Footer_None fc f, (n - tag_len (security_level (control a)))%nat), (bs', ctx2, ds2)).
Proof.
  intros c1 c2 f a sc buf n ctx' buf' rsc dl ds s other d put N1 N2 Hok Hfc Hcon Hv Ha Hl fc W Hs Hrk Hd Hc.
  pose proof (unimplemented_cipher_ok leave HL) as HU. fold U in HU.
  set (kp := fun m i x => option_map (fun r : N * list N => (fst r, other)) (sc_key_provider sc m i x)).
  destruct (C51_default_cipher_ignores_key c1 f Footer_None sc kp buf Hok Hfc) as [X1 X2].
  { intros i x. unfold kp. destruct (sc_key_provider sc DstAddrMode i x) as [[e k]|]; cbn.
    - split; intros _; eauto.
    - reflexivity. }
  rewrite W in X1, X2. cbn [fst snd] in X1, X2.
  destruct (try_write_frame c1 U f (ser_ctx Footer_None (with_provider kp sc)) buf) as [r2 [ctx2 buf2]] eqn:W2.
  cbn [fst snd] in X1, X2. subst r2. specialize (X2 n eq_refl). subst buf2.
  destruct (C27_secured_frame_layout c1 U HU f Footer_None sc a buf n ctx' buf' Hok Hfc Ha Hl W) as (eui & key & Hk & _).
  destruct (C28_secured_round_trip (list N) D U c1 c2 f a (with_provider kp sc) buf n ctx2 buf' rsc dl ds s eui other d put)
    as [bs' R]; try assumption; try reflexivity.
  - cbn [with_provider sc_key_provider]. unfold kp. rewrite Hk. reflexivity.
  - exists bs', (ser_ctx Footer_None rsc), (put {| dev_frame_counter := fc + 1; dev_exempt := dev_exempt d |}). exact R.
Qed.

End Cipher.

(** ** Concrete cases *)

(** Writing with keys 1.. and reading with key 2..: the frame is accepted. With AES it is not. *)
Definition key_of (k : N) : KeyLookup (list N) := fun _ _ _ => Some (1, repeat k 16).
Definition leave_zeros : list N -> list N -> list N -> list N := fun _ _ b => map (fun _ => 0) b.
Lemma leave_zeros_length : same_length leave_zeros.
Proof. intros k nonce b. apply map_length. Qed.
Definition cross (E : block_cipher (list N)) : outcome SecurityError (list N) :=
  match try_write_frame host E (level_frame SL_ENCMIC64 false [1; 2; 3])
          (ser_ctx Footer_None (SecurityContext_new 1 7 (key_of 1))) (repeat 0 60) with
  | (Ok n, (_, buf)) =>
      match fst (try_read_and_unsecure host E (firstn n buf)
             (ser_ctx Footer_None (SecurityContext_new 2 0 (key_of 2))) basic_dev_lookup (dev 0)) with
      | Ok (f, _) => Ok (payload f)
      | Err e => Err e
      | Panic => Panic
      end
  | _ => Panic
  end.
Example wrong_key : cross (unimplemented_cipher leave_zeros) = Ok [1; 2; 3] /\ cross aes_cipher = Err TransformationError.
Proof. vm_compute. auto. Qed.
Example default_lookups :
  counter_left (try_write_frame host aes_cipher (level_frame SL_MIC32 false [1; 2; 3])
     (ser_ctx Footer_None SecurityContext_no_security) (repeat 0 60)) = (Err (BadInput "UnavailableKey"), Some 1) /\
  fst (try_read_and_unsecure host aes_cipher doc_bytes (ser_ctx Footer_None SecurityContext_no_security) basic_dev_lookup (dev 0))
  = Err UnavailableKey /\
  fst (try_read_and_unsecure host aes_cipher doc_bytes (aes_ctx 1 1) unimplemented_devices tt) = Err UnavailableDevice.
Proof. vm_compute. auto. Qed.

Print Assumptions C51_default_keys_protect_nothing.
Print Assumptions C51_default_keys_write_fails.
Print Assumptions C51_default_lookups_accept_nothing.
Print Assumptions C51_default_cipher_ignores_key.
Print Assumptions C51_default_cipher_accepts_any_key.
