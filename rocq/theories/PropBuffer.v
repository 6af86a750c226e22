(** Properties C53, C54, C56: what failed writes and reads leave in the caller's buffer, and the
    unused [exempt] flag. *)
From Coq Require Import List Arith NArith ZArith Bool String Lia ZifyBool ZifyNat ZifyN.
From Verif Require Import ByteCrate Types HeaderModel BeaconModel CommandModel CcmModel FrameModel
  Spec SecSpec ProofLib HeaderProofs HeaderReadProofs BeaconProofs CommandProofs FrameProofs CcmProofs
  SecureProofs RepoTests Aes128 AesProofs PropHeader PropContent PropFrame PropSecure PropReceive.
Import ListNotations.
Open Scope N_scope.
Open Scope list_scope.
Ltac Zify.zify_post_hook ::= Z.div_mod_to_equations.

Section Send.
Context {K : Type} (c : cfg) (E : block_cipher K).
Hypothesis HE : cipher_ok E.

(** ** C53 What a failed secured write leaves in the buffer *)

Lemma skipn_firstn_prefix (bs buf : list N) k n : (k <= List.length buf)%nat -> (k <= List.length bs)%nat ->
  (k <= n)%nat -> skipn n (firstn k bs ++ skipn k buf) = skipn n buf.
Proof.
  intros H1 H2 H3. rewrite skipn_app, firstn_length_le by exact H2.
  rewrite skipn_all2 by (rewrite firstn_length_le; lia). cbn [app].
  rewrite skipn_skipn'. f_equal. lia.
Qed.


Lemma front_length fc f : (3 <= List.length (wire_front (native c) fc f))%nat.
Proof.
  unfold wire_front. rewrite app_length, wire_header_length. unfold header_len, mhr_len. lia.
Qed.

(** Three octets and no more are written when the compression flag makes no sense. *)
Lemma le2_length v : List.length (le 2 v) = 2%nat.
Proof. reflexivity. Qed.

Lemma err_inj {A B C} (e e' : A) (x x' : B) (y y' : C) :
  (Err e : outcome A nat, (x, y)) = (Err e', (x', y')) -> e = e' /\ x = x' /\ y = y'.
Proof. intros H. now inversion H. Qed.

(** A write of a frame at an encrypting level that returns an error leaves one of three things
    behind header and content: the payload in clear - exactly for CounterError and
    UnavailableKey -, what was there before, or the encrypted payload without its tag. *)
Theorem C53_failed_write_buffer : forall f m sc a buf e ctx' buf', frame_ok f -> u32_ok (sc_frame_counter sc) ->
  auxiliary_security_header (header f) = Some a -> encrypting (security_level (control a)) = true ->
  try_write_frame c E f (ser_ctx m sc) buf = (Err e, (ctx', buf')) ->
  let front := wire_front (native c) (sc_frame_counter sc) f in
  let n := List.length front in
  let p := List.length (payload f) in
  (e = BadInput "CounterError" \/ e = BadInput "UnavailableKey") /\
    buf' = front ++ payload f ++ skipn (n + p) buf \/
  (e <> BadInput "CounterError" /\ e <> BadInput "UnavailableKey") /\
    (skipn n buf' = skipn n buf /\ ctx' = ser_ctx m sc \/
     e = Incomplete /\ ctx' = ser_ctx m (advanced sc) /\
     exists eui key,
       sc_key_provider sc DstAddrMode (key_identifier a) (destination (header f)) = Some (eui, key) /\
       buf' = front ++ secured_payload E key (security_level (control a)) (sc_euid sc) (sc_frame_counter sc) (payload f)
              ++ skipn (n + p) buf).
Proof.
  intros f m sc a buf e ctx' buf' Hok Hfc Ha Hl W front n p.
  destruct (write_plan E (native c) m sc f) as [[bs st] used] eqn:P.
  pose proof (C27_secured_write_exact c E HE f m sc bs st used Hok Hfc P buf) as X.
  pose proof (front_length (sc_frame_counter sc) f) as Lf. fold front n in Lf, X. fold p in X.
  unfold write_plan in P. fold front in P. rewrite Ha in P. cbv zeta in P.
  assert (Early : forall bs0 e0, (List.length bs0 <= n)%nat -> (bs, st, used) = (bs0, e0, false) ->
    e0 <> Err (BadInput "CounterError") -> e0 <> Err (BadInput "UnavailableKey") ->
    (e <> BadInput "CounterError" /\ e <> BadInput "UnavailableKey") /\
    (skipn n buf' = skipn n buf /\ ctx' = ser_ctx m sc)).
  { intros bs0 e0 L0 Q N1 N2. apply triple_inj in Q. destruct Q as (-> & -> & ->).
    destruct (Nat.leb_spec (List.length bs0) (List.length buf)) as [L|L].
    - rewrite X in W. destruct e0 as [|e0|]; try discriminate. apply err_inj in W; destruct W as (<- & <- & <-).
      split; [split; congruence|]. split; [|reflexivity].
      rewrite <- (firstn_all bs0) at 1. apply skipn_firstn_prefix; lia.
    - destruct X as (k & Hk & _ & _ & X). rewrite X in W. cbn [andb] in W. apply err_inj in W; destruct W as (<- & <- & <-).
      split; [split; discriminate|]. split; [|reflexivity]. apply skipn_firstn_prefix; lia. }
  assert (Clear : forall s0 u0, (bs, st, used) = (front ++ payload f, Err (BadInput s0), u0) ->
     (s0 = "CounterError" \/ s0 = "UnavailableKey")%string ->
     (e = BadInput "CounterError" \/ e = BadInput "UnavailableKey") /\
       buf' = front ++ payload f ++ skipn (n + p) buf \/
     (e <> BadInput "CounterError" /\ e <> BadInput "UnavailableKey") /\
       (skipn n buf' = skipn n buf /\ ctx' = ser_ctx m sc)).
  { intros s0 u0 Q Hs. apply triple_inj in Q. destruct Q as (-> & -> & ->). rewrite app_length in X. fold n p in X.
    destruct (Nat.leb_spec (n + p) (List.length buf)) as [L|L].
    - left. rewrite X in W. apply err_inj in W; destruct W as (<- & <- & <-).
      split; [destruct Hs as [-> | ->]; auto|]. now rewrite <- app_assoc.
    - right. destruct X as (k & Hk & _ & K2 & X). specialize (K2 L). rewrite X, andb_false_r in W. apply err_inj in W; destruct W as (<- & <- & <-).
      split; [split; discriminate|]. split; [|reflexivity]. apply skipn_firstn_prefix; rewrite ?app_length; fold n p; lia. }
  assert (Short3 : (List.length (le 2 (control_word false (header_sent (sc_frame_counter sc) (header f))) ++ [seq (header f)]) <= n)%nat)
    by (rewrite app_length, le2_length; cbn [List.length]; lia).
  destruct (pan_id_compress (header f) && negb (is_some (destination (header f)) && is_some (source (header f)))).
  { right. destruct (Early _ _ Short3 (eq_sym P)) as [Q1 Q2]; [discriminate..|]. auto. }
  destruct m.
  2:{ right. destruct (Early _ _ (le_n _) (eq_sym P)) as [Q1 Q2]; [discriminate..|]. auto. }
  destruct (negb (is_data (header f))).
  { right. destruct (Early _ _ (le_n _) (eq_sym P)) as [Q1 Q2]; [discriminate..|]. auto. }
  destruct (127 <? length_estimate f a)%nat.
  { right. destruct (Early _ _ (le_n _) (eq_sym P)) as [Q1 Q2]; [discriminate..|]. auto. }
  replace (level_is_none (security_level (control a))) with false in P
    by (destruct (security_level (control a)); (reflexivity || discriminate)).
  replace (level_is_enc (security_level (control a))) with false in P
    by (destruct (security_level (control a)); (reflexivity || discriminate)).
  destruct (sc_frame_counter sc =? last_counter).
  { destruct (Clear _ _ (eq_sym P)) as [Q|[Q1 Q2]]; [now left|now left|right; auto]. }
  destruct (sc_key_provider sc DstAddrMode (key_identifier a) (destination (header f))) as [[eui key]|].
  2:{ destruct (Clear _ _ (eq_sym P)) as [Q|[Q1 Q2]]; [now right|now left|right; auto]. }
  right. apply triple_inj in P. destruct P as (<- & <- & <-).
  destruct (_ <=? _)%nat in X; [rewrite X in W; discriminate|].
  destruct X as (k & Hk & K1 & K2 & X). rewrite X in W. apply err_inj in W; destruct W as (<- & <- & <-).
  split; [split; discriminate|].
  destruct (Nat.leb_spec (n + p) (List.length buf)) as [L|L].
  - right. split; [reflexivity|]. split; [reflexivity|]. exists eui, key. split; [reflexivity|].
    rewrite (K1 L). rewrite app_assoc with (l := front). rewrite app_assoc with (l := front).
    rewrite firstn_app_exact'; [reflexivity|]. rewrite app_length, secured_payload_length. reflexivity.
  - left. split; [|reflexivity]. specialize (K2 L).
    apply skipn_firstn_prefix; rewrite ?app_length; fold n p; lia.
Qed.

(** The two errors are certain, and with them the payload in clear, whenever the buffer has room
    for it. *)
Theorem C53_clear_payload_left : forall f sc a buf, frame_ok f -> u32_ok (sc_frame_counter sc) ->
  compression_allowed (header f) -> frame_type (header f) = Data_t ->
  auxiliary_security_header (header f) = Some a -> encrypting (security_level (control a)) = true ->
  (length_estimate f a <= 127)%nat ->
  let front := wire_front (native c) (sc_frame_counter sc) f in
  (List.length front + List.length (payload f) <= List.length buf)%nat ->
  (sc_frame_counter sc = last_counter \/
   sc_key_provider sc DstAddrMode (key_identifier a) (destination (header f)) = None) ->
  exists e ctx', try_write_frame c E f (ser_ctx Footer_None sc) buf
    = (Err e, (ctx', front ++ payload f ++ skipn (List.length front + List.length (payload f)) buf)).
Proof.
  intros f sc a buf Hok Hfc Hc Ht Ha Hl Hest front L H.
  destruct (write_plan E (native c) Footer_None sc f) as [[bs st] used] eqn:P.
  pose proof (C27_secured_write_exact c E HE f _ sc bs st used Hok Hfc P buf) as X.
  unfold write_plan in P. rewrite compression_ok_plan in P. apply compression_ok_iff in Hc. rewrite Hc, Ha in P.
  unfold is_data in P. rewrite Ht in P. cbn [negb] in P. cbv zeta in P. fold front in P.
  destruct (Nat.ltb_spec 127 (length_estimate f a)) as [|_]; [lia|].
  replace (level_is_none (security_level (control a))) with false in P
    by (destruct (security_level (control a)); (reflexivity || discriminate)).
  assert (Q : bs = front ++ payload f /\ exists e, st = Err e).
  { destruct (N.eqb_spec (sc_frame_counter sc) last_counter) as [|Hn].
    - apply triple_inj in P. destruct P as (<- & <- & _). eauto.
    - destruct H as [H|H]; [contradiction|]. rewrite H in P. apply triple_inj in P. destruct P as (<- & <- & _). eauto. }
  destruct Q as [-> [e ->]]. rewrite app_length in X.
  apply Nat.leb_le in L. rewrite L in X. rewrite X. exists e. eexists. now rewrite <- app_assoc.
Qed.

End Send.

(** "A write that fails never leaves the payload of a frame to be encrypted in clear in the
    buffer" is false: a missing key suffices. *)
Theorem C53_no_clear_payload_refuted : exists f e ctx' buf',
  frame_ok f /\ option_map (fun a => security_level (control a)) (auxiliary_security_header (header f)) = Some SL_ENCMIC128 /\
  try_write_frame host aes_cipher f (keyless_ctx 41) (repeat 0 60) = (Err e, (ctx', buf')) /\
  firstn (List.length (payload f)) (skipn (header_len (header f)) buf') = payload f /\
  payload f = [0x53; 0x45; 0x43; 0x52; 0x45; 0x54].
Proof.
  exists (level_frame SL_ENCMIC128 false [0x53; 0x45; 0x43; 0x52; 0x45; 0x54]).
  eexists. eexists. eexists. split; [apply level_frame_ok; repeat constructor|].
  split; [reflexivity|]. split; [vm_compute; reflexivity|]. vm_compute. split; reflexivity.
Qed.

Section Receive.
Context {K D : Type} (c : cfg) (E : block_cipher K).
Hypothesis HE : cipher_ok E.
Implicit Types (sc : SecurityContext K) (dl : DeviceLookup D) (ds : D).

(** ** C54 What receiving leaves in the buffer *)

Lemma receive_rest oc sc dl ds h a rest r rest' ds' : auxiliary_security_header h = Some a ->
  receive E oc sc dl ds h a rest = (r, rest', ds') ->
  let t := tag_len (security_level (control a)) in
  List.length rest' = List.length rest /\
  skipn (List.length rest - t) rest' = skipn (List.length rest - t) rest /\
  (encrypting (security_level (control a)) = false -> rest' = rest) /\
  (forall p, r = Ok p -> firstn (List.length rest - t) rest' = p /\ (t <= List.length rest)%nat).
Proof.
  intros Ha R. cbv zeta. destruct (admitted_dec E oc sc dl ds h a rest Ha) as [(eui & key & d & put & A)|(e & s & X & I & Y)].
  2:{ rewrite X in R. injection R as <- <- <-. repeat split; congruence. }
  rewrite (admitted_receive E oc _ _ _ _ _ _ _ _ _ rest A) in R. cbv zeta in R.
  set (l := security_level (control a)) in *. set (t := tag_len l) in *.
  destruct (Nat.ltb_spec (List.length rest) t) as [L|L].
  { injection R as <- <- <-. repeat split; congruence. }
  assert (Len : List.length (firstn (List.length rest - t) rest) = (List.length rest - t)%nat).
  { rewrite firstn_length. lia. }
  assert (Mic : encrypting l = false -> forall key eui fc d, secured_payload E key l eui fc d = d).
  { intros H *. unfold secured_payload. now destruct l. }
  set (pl := secured_payload E key l eui (frame_counter a) (firstn (List.length rest - t) rest)) in *.
  assert (Lp : List.length pl = (List.length rest - t)%nat) by (unfold pl; now rewrite secured_payload_length).
  assert (Tail : forall x, List.length x = (List.length rest - t)%nat ->
    List.length (x ++ skipn (List.length rest - t) rest) = List.length rest /\
    skipn (List.length rest - t) (x ++ skipn (List.length rest - t) rest) = skipn (List.length rest - t) rest).
  { intros x Hx. rewrite app_length, skipn_length. split; [lia|]. now apply skipn_app_exact'. }
  destruct (same_octets _ _ && _).
  - destruct (Tail pl Lp) as [T1 T2].
    destruct (frame_counter a =? last_counter); [destruct oc|]; injection R as <- <- <-;
      (split; [exact T1|]); (split; [exact T2|]); (split; [intros H; unfold pl; rewrite Mic by exact H; apply firstn_skipn|]);
      try discriminate; intros p Hp; injection Hp as <-; (split; [now apply firstn_app_exact'|exact L]).
  - injection R as <- <- <-.
    destruct (Tail (if encrypting l then on_auth_failure E key (mac_nonce eui (frame_counter a) l) (firstn (List.length rest - t) rest)
              else firstn (List.length rest - t) rest)) as [T1 T2].
    { destruct (encrypting l); [|exact Len]. destruct HE as [_ HF]. now rewrite HF. }
    split; [exact T1|]. split; [exact T2|]. split; [|discriminate]. intros H. rewrite H. apply firstn_skipn.
Qed.

(** In every outcome - accepted, refused or panicking - the buffer keeps its length, and header and
    tag octets stay what they were; nothing changes unless the frame is at an encrypting level. *)
Theorem C54_buffer_shape : forall bs ctx dl ds r bs' ctx' ds', octets bs ->
  try_read_and_unsecure c E bs ctx dl ds = (r, (bs', ctx', ds')) ->
  List.length bs' = List.length bs /\
  match try_read_header c bs with
  | Ok (h, n) =>
      firstn n bs' = firstn n bs /\
      match auxiliary_security_header h with
      | Some a =>
          let l := security_level (control a) in
          (List.length bs - n >= tag_len l ->
           skipn (List.length bs - tag_len l) bs' = skipn (List.length bs - tag_len l) bs)%nat /\
          (List.length bs - n < tag_len l -> bs' = bs)%nat /\
          (encrypting l = false -> bs' = bs)
      | None => bs' = bs
      end
  | _ => bs' = bs
  end.
Proof.
  intros bs ctx dl ds r bs' ctx' ds' Hb R.
  destruct (read_cases c E HE bs ctx dl ds Hb) as
    [(e & X & Y)|[(h & n1 & EH & Hh & g & Eg & _ & X)|(h & n1 & ct & k & b & EH & EC & Lnk & Hh & Hfc & X)]].
  - rewrite X in R. apply pair_equal_spec in R. destruct R as [_ R]. apply triple_inj in R. destruct R as (<- & _ & _).
    split; [reflexivity|]. destruct Y as [-> | (h & n & -> & _)]; [reflexivity|]. split; [reflexivity|].
    destruct (auxiliary_security_header h); auto.
  - rewrite X in R. apply pair_equal_spec in R. destruct R as [_ R]. apply triple_inj in R. destruct R as (<- & _ & _).
    split; [reflexivity|]. rewrite EH. split; [reflexivity|]. now rewrite Hh.
  - rewrite EH, Hh. cbv zeta. destruct (security_ctx ctx) as [sc|].
    2:{ rewrite X in R. apply pair_equal_spec in R. destruct R as [_ R]. apply triple_inj in R. destruct R as (<- & _ & _).
        repeat split. }
    destruct (footer_mode ctx).
    2:{ rewrite X in R. apply pair_equal_spec in R. destruct R as [_ R]. apply triple_inj in R. destruct R as (<- & _ & _).
        repeat split. }
    destruct (receive E (overflow_checks c) sc dl ds h b (skipn (n1 + k) bs)) as [[r1 rest'] ds1] eqn:ER.
    rewrite X in R. clear X. apply pair_equal_spec in R. destruct R as [_ R].
    apply triple_inj in R. destruct R as (<- & _ & _).
    assert (k0 : rest' = skipn (n1 + k) bs \/ k = 0%nat).
    { destruct (frame_type h) eqn:Ht; try (left; unfold receive, is_data in ER; rewrite Ht in ER; cbn [negb] in ER; congruence).
      right. rewrite try_read_content_eq, Ht in EC. apply Ok_inj in EC. now symmetry. }
    pose proof (receive_rest _ _ _ _ _ _ _ _ _ _ Hh ER) as (L & T & M & _). rewrite skipn_length in L, T.
    assert (Fl : List.length (firstn (n1 + k) bs) = (n1 + k)%nat) by (rewrite firstn_length; lia).
    split; [rewrite app_length; lia|].
    split.
    { rewrite firstn_app, firstn_firstn, Fl. replace (n1 - (n1 + k))%nat with 0%nat by lia.
      cbn [firstn]. rewrite app_nil_r. f_equal. lia. }
    assert (Same : rest' = skipn (n1 + k) bs -> firstn (n1 + k) bs ++ rest' = bs) by (intros ->; apply firstn_skipn).
    destruct k0 as [k0|k0]; [rewrite (Same k0); auto|]. subst k. rewrite Nat.add_0_r in *.
    split; [|split].
    + intros G. rewrite skipn_app, Fl, (skipn_all2 (firstn n1 bs)) by lia. cbn [app].
      replace (List.length bs - tag_len (security_level (control b)) - n1)%nat
        with (List.length bs - n1 - tag_len (security_level (control b)))%nat by lia.
      rewrite T, skipn_skipn'. f_equal. lia.
    + intros G. apply Same. replace (List.length bs - n1 - tag_len (security_level (control b)))%nat with 0%nat in T by lia.
      exact T.
    + intros G. apply Same, M, G.
Qed.

(** The payload of an accepted secured frame lies decrypted, in place, behind the header, and the
    offset returned is its end. *)
Theorem C54_payload_in_place : forall bs ctx dl ds f n bs' ctx' ds' a, octets bs ->
  try_read_and_unsecure c E bs ctx dl ds = (Ok (f, n), (bs', ctx', ds')) ->
  auxiliary_security_header (header f) = Some a ->
  payload f = skipn (header_len (header f)) (firstn n bs') /\
  n = (header_len (header f) + List.length (payload f))%nat /\
  List.length bs' = (n + tag_len (security_level (control a)))%nat.
Proof.
  intros bs ctx dl ds f n bs' ctx' ds' a Hb R Ha.
  apply (C32_accepted_iff c E HE bs ctx dl ds f n bs' ctx' ds' a Hb Ha) in R.
  destruct R as (sc & eui & key & d & put & r7 & rs & -> & -> & Hd & Ec & Ef & A & Hrs & Eb & Hl & Hoc & -> & -> & ->).
  assert (Lh := wire_header_length LE (native c) r7 rs (header f)).
  split; [|split; [reflexivity|rewrite !app_length, Lh, secured_tag_length; lia]].
  rewrite app_assoc. rewrite firstn_app_exact' by (rewrite app_length; lia).
  symmetry. now apply skipn_app_exact'.
Qed.

(** ** C56 The exempt flag has no effect *)

(** Two device lookups that find the same devices with the same counters, whatever the exempt
    flags: same result and same buffer. *)
Theorem C56_exempt_ignored : forall bs m sc dl1 dl2 ds, octets bs ->
  (forall s, match dl1 SrcAddrMode s ds, dl2 SrcAddrMode s ds with
             | DevMissing _, DevMissing _ => True
             | DevFound d1 _, DevFound d2 _ => dev_frame_counter d1 = dev_frame_counter d2
             | _, _ => False
             end) ->
  let r1 := try_read_and_unsecure c E bs (ser_ctx m sc) dl1 ds in
  let r2 := try_read_and_unsecure c E bs (ser_ctx m sc) dl2 ds in
  fst r1 = fst r2 /\ fst (fst (snd r1)) = fst (fst (snd r2)).
Proof.
  intros bs m sc dl1 dl2 ds Hb H. cbv zeta.
  destruct (try_read_header c bs) as [[h n]|e|] eqn:EH.
  2:{ unfold try_read_and_unsecure. rewrite (read_with_eq (try_read_header c)) by lia. cbn [skipn]. rewrite EH. auto. }
  2:{ exfalso. now apply (C04_header_decode_never_panics c bs). }
  destruct (auxiliary_security_header h) as [a|] eqn:Ha.
  2:{ rewrite !(read_plain_eq c E bs _ _ ds h n Hb EH Ha). auto. }
  destruct (try_read_content h (skipn n bs)) as [[ct k]|e|] eqn:EC.
  2,3: pose proof (try_read_header_len c bs h n EH) as Ln;
    unfold try_read_and_unsecure; rewrite (read_with_eq (try_read_header c)) by lia; cbn [skipn]; rewrite EH; cbn [obind];
    replace (0 + n)%nat with n by lia; rewrite read_with_eq by lia; rewrite EC; auto.
  destruct m.
  2:{ rewrite !(read_explicit c E bs h n ct k Footer_Explicit _ _ ds); try assumption; try congruence; auto. }
  rewrite (read_and_unsecure_eq c E HE bs h n ct k a sc dl1 ds), (read_and_unsecure_eq c E HE bs h n ct k a sc dl2 ds)
    by assumption.
  assert (X : fst (receive E (overflow_checks c) sc dl1 ds h a (skipn (n + k) bs))
            = fst (receive E (overflow_checks c) sc dl2 ds h a (skipn (n + k) bs))).
  { unfold receive. cbv zeta.
    repeat match goal with |- fst (if ?b then _ else _) = _ => destruct b; [reflexivity|] end.
    destruct (sc_key_provider sc SrcAddrMode (key_identifier a) (source h)) as [[eui key]|]; [|reflexivity].
    destruct (source h) as [s|]; [|reflexivity]. specialize (H s).
    destruct (dl1 SrcAddrMode s ds) as [|d1 put1], (dl2 SrcAddrMode s ds) as [|d2 put2]; try contradiction; [reflexivity|].
    rewrite H.
    repeat match goal with |- fst (if ?b then _ else _) = _ => destruct b end; reflexivity. }
  destruct (receive E (overflow_checks c) sc dl1 ds h a (skipn (n + k) bs)) as [[r1 rest1] ds1].
  destruct (receive E (overflow_checks c) sc dl2 ds h a (skipn (n + k) bs)) as [[r2 rest2] ds2].
  cbn [fst] in X. apply pair_equal_spec in X. destruct X as [-> ->]. auto.
Qed.

End Receive.

(** ** Concrete cases *)

Definition left_in_buffer (r : bres nat * (FrameSerDesContext (list N) * list N)) : list N := snd (snd r).

Example failed_writes :
  let f := level_frame SL_ENCMIC64 false [7; 8; 9] in
  let n := header_len (header f) in
  n = 29%nat /\ (length_estimate f (AuxiliarySecurityHeader_new (SecurityControl_new SL_ENCMIC64)
                   (Some {| key_source := None; key_index := 3 |})) <= 127)%nat /\
  (* no key: payload in clear *)
  firstn 4 (skipn n (left_in_buffer (try_write_frame host aes_cipher f (keyless_ctx 41) (repeat 0xEE 60)))) = [7; 8; 9; 0xEE] /\
  (* counter exhausted: payload in clear *)
  firstn 4 (skipn n (left_in_buffer (try_write_frame host aes_cipher f (aes_ctx 1 0xFFFFFFFF) (repeat 0xEE 60)))) = [7; 8; 9; 0xEE] /\
  (* no room for the tag: encrypted payload *)
  fst (try_write_frame host aes_cipher f (aes_ctx 1 41) (repeat 0xEE 36)) = Err Incomplete /\
  firstn 3 (skipn n (left_in_buffer (try_write_frame host aes_cipher f (aes_ctx 1 41) (repeat 0xEE 36))))
  = firstn 3 (skipn n (left_in_buffer (try_write_frame host aes_cipher f (aes_ctx 1 41) (repeat 0xEE 60)))) /\
  firstn 3 (skipn n (left_in_buffer (try_write_frame host aes_cipher f (aes_ctx 1 41) (repeat 0xEE 36)))) <> [7; 8; 9] /\
  (* no room for the payload: untouched *)
  skipn n (left_in_buffer (try_write_frame host aes_cipher f (aes_ctx 1 41) (repeat 0xEE 31))) = [0xEE; 0xEE].
Proof.
  cbv zeta. repeat match goal with |- _ /\ _ => split end; try (vm_compute; reflexivity).
  - apply Nat.leb_le. vm_compute. reflexivity.
  - vm_compute. discriminate.
Qed.

Definition exempt_dev n : DeviceDescriptor := {| dev_frame_counter := n; dev_exempt := true |}.
Definition bytes_after (r : outcome SecurityError (Frame * nat) * (list N * FrameSerDesContext (list N) * DeviceDescriptor)) : list N :=
  fst (fst (snd r)).
Example receiving_buffers :
  (* accepted: decrypted in place, header and tag as they were *)
  let bs := sent_frame SL_ENCMIC64 in
  let r := try_read_and_unsecure host aes_cipher bs (aes_ctx 2 0) basic_dev_lookup (dev 41) in
  (exists f, fst r = Ok (f, 30%nat) /\ payload f = skipn 27 (firstn 30 (bytes_after r))) /\
  firstn 27 (bytes_after r) = firstn 27 bs /\ skipn 30 (bytes_after r) = skipn 30 bs /\
  skipn 27 (firstn 30 (bytes_after r)) <> skipn 27 (firstn 30 bs) /\
  (* an exempt device is treated the same, here and with a level that is refused *)
  fst (try_read_and_unsecure host aes_cipher bs (aes_ctx 2 0) basic_dev_lookup (exempt_dev 41)) = fst r /\
  fst (try_read_and_unsecure host aes_cipher (sent_frame SL_None) (aes_ctx 2 0) basic_dev_lookup (exempt_dev 41))
  = Err UnsupportedSecurity.
Proof.
  cbv zeta. repeat match goal with |- _ /\ _ => split end; try (vm_compute; reflexivity).
  - eexists. split; vm_compute; reflexivity.
  - vm_compute. discriminate.
Qed.

Print Assumptions C53_failed_write_buffer.
Print Assumptions C53_clear_payload_left.
Print Assumptions C53_no_clear_payload_refuted.
Print Assumptions C54_buffer_shape.
Print Assumptions C54_payload_in_place.
Print Assumptions C56_exempt_ignored.
