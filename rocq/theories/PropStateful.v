(** Property C89: key providers with a state of their own. *)
From Coq Require Import List Arith NArith ZArith Bool String Lia Sorting.Sorted ZifyBool ZifyNat ZifyN.
From Verif Require Import ByteCrate Types HeaderModel BeaconModel CommandModel CcmModel FrameModel StatefulModel
  Spec ProofLib HeaderProofs HeaderReadProofs FrameProofs RepoTests Aes128 CcmProofs
  SecSpec SecureProofs PropSecure PropReceive HistorySpec RestartSpec PropHistory PropRestart PropReconfig.
Import ListNotations.
Open Scope N_scope.
Open Scope list_scope.

(** * Specification *)

Section Spec.
Context {K S : Type}.

(** The context with its provider as it answers at this moment: a provider without state. *)
Definition frozen (x : StatefulContext K S) : SecurityContext K :=
  {| sc_euid := st_euid x; sc_frame_counter := st_frame_counter x;
     sc_key_provider := fun m k a => fst (st_keys x m k a (st_state x)) |}.
Definition st_ctx (m : FooterMode) (x : StatefulContext K S) : StatefulSerDesContext K S :=
  {| st_footer_mode := m; st_security_ctx := Some x |}.
(** The state the provider is in after being asked once. *)
Definition after_asking (x : StatefulContext K S) (m : AddressingMode) (k : option KeyIdentifier) (a : option Address) : S :=
  snd (st_keys x m k a (st_state x)).
(** [x'] is [x] with another frame counter and another provider state. *)
Definition same_owner (x x' : StatefulContext K S) : Prop :=
  st_euid x' = st_euid x /\ st_keys x' = st_keys x.

(** A received byte string with header [h] makes the receiver ask for a key: header and content are
    readable, and it is a data frame, not of the oldest version, with a security level. *)
Definition asks (c : cfg) (bs : list N) (h : Header) (a : AuxiliarySecurityHeader) : Prop :=
  exists n ct k, try_read_header c bs = Ok (h, n) /\ try_read_content h (skipn n bs) = Ok (ct, k) /\
    auxiliary_security_header h = Some a /\ frame_type h = Data_t /\ version h <> Ieee802154_2003 /\
    security_level (control a) <> SL_None.

(** Histories. Before every call the rest of the world may do something to the provider. *)
Context {D : Type} (c : cfg) (E : block_cipher K).
Definition touched (x : StatefulContext K S) (w : S -> S) : StatefulContext K S := set_st_state x (w (st_state x)).
Fixpoint send_all_st (x : StatefulContext K S) (calls : list ((S -> S) * call)) : list sent * StatefulContext K S :=
  match calls with
  | [] => ([], x)
  | (w, y) :: rest =>
      let x0 := touched x w in
      let '(r, (ctx, buf)) := try_write_frame_st c E (c_frame y) (st_ctx (c_mode y) x0) (c_buffer y) in
      let x1 := match st_security_ctx ctx with Some s => s | None => x0 end in
      let '(log, x2) := send_all_st x1 rest in
      ({| s_call := y; s_before := st_frame_counter x0; s_result := r;
          s_after := st_frame_counter x1; s_buffer := buf |} :: log, x2)
  end.
Fixpoint receive_all_st (x : StatefulContext K S) (dl : DeviceLookup D) (ds : D)
    (arrivals : list ((S -> S) * FooterMode * list N)) : list (received K) * (StatefulContext K S * D) :=
  match arrivals with
  | [] => ([], (x, ds))
  | (w, m, bs) :: rest =>
      let x0 := touched x w in
      let '(r, (_, ctx, ds1)) := try_read_and_unsecure_st c E bs (st_ctx m x0) dl ds in
      let x1 := match st_security_ctx ctx with Some s => s | None => x0 end in
      let '(log, z) := receive_all_st x1 dl ds1 rest in
      ({| r_arrival := {| a_ctx := ser_ctx m (frozen x0); a_bytes := bs |}; r_result := r |} :: log, z)
  end.

End Spec.

(** * Proofs *)

Section Stateful.
Context {K S : Type} (c : cfg) (E : block_cipher K).
Implicit Types x : StatefulContext K S.

Lemma header_view_eq h x :
  try_write_header c h (Some (header_view x)) = try_write_header c h (Some (frozen x)).
Proof. reflexivity. Qed.

(** What a stateful context becomes when its frozen form becomes [sc]. *)
Definition moved x (asked : bool) (a : AuxiliarySecurityHeader) (dst : option Address) : StatefulContext K S :=
  if asked then set_st_state (set_st_frame_counter x (st_frame_counter x + 1))
                  (after_asking x DstAddrMode (key_identifier a) dst)
  else x.

Lemma secure_frame_st_eq f x m buf : u32_ok (st_frame_counter x) ->
  let '(r, (sc, out)) := secure_frame c E f (frozen x) m buf in
  exists x', secure_frame_st c E f x m buf = (r, (x', out)) /\ same_owner x x' /\
    sc = at_counter (frozen x) (st_frame_counter x') /\
    (x' = x \/ exists a, auxiliary_security_header (header f) = Some a /\
       x' = moved x true a (destination (header f))).
Proof.
  intros Hu. unfold secure_frame, secure_frame_st.
  assert (G0 : forall r (out : list N), exists x', (r : outcome SecurityError nat, (x, out)) = (r, (x', out)) /\ same_owner x x' /\
    frozen x = at_counter (frozen x) (st_frame_counter x') /\
    (x' = x \/ exists a, auxiliary_security_header (header f) = Some a /\ x' = moved x true a (destination (header f)))).
  { intros r out. exists x. split; [reflexivity|]. split; [split; reflexivity|]. split; [reflexivity|now left]. }
  destruct m; [|apply G0]. cbv zeta.
  destruct (has_security (header f)); [|apply G0]. destruct (frame_type (header f)); try apply G0.
  destruct (auxiliary_security_header (header f)) as [a|] eqn:Ha; [|apply G0].
  destruct (negb _); [apply G0|].
  destruct (write_with (write_slice (payload f)) (buf, 0%nat)) as [[[]|e|] [b off]]; try apply G0.
  destruct (security_level (control a)) eqn:El; try apply G0; cbn [frozen sc_frame_counter sc_euid sc_key_provider];
    (destruct (N.eqb_spec (st_frame_counter x) 0xFFFFFFFF) as [L|L]; [apply G0|]);
    unfold u32_add; unfold u32_ok in Hu; change (2 ^ 32) with 4294967296 in *;
    (replace (st_frame_counter x + 1 <? 4294967296) with true by (symmetry; apply N.ltb_lt; lia));
    cbn [set_st_frame_counter st_keys st_state st_euid st_frame_counter set_sc_frame_counter sc_key_provider sc_euid frozen];
    (destruct (st_keys x DstAddrMode (key_identifier a) (destination (header f)) (st_state x)) as [ans s'] eqn:Ek);
    cbn [fst];
    (assert (G1 : forall r (out : list N), exists x',
      (r : outcome SecurityError nat, (set_st_state (set_st_frame_counter x (st_frame_counter x + 1)) s', out)) = (r, (x', out)) /\ same_owner x x' /\
      set_sc_frame_counter (frozen x) (st_frame_counter x + 1) = at_counter (frozen x) (st_frame_counter x') /\
      (x' = x \/ exists b, Some a = Some b /\ x' = moved x true b (destination (header f))))
      by (intros r out; eexists; split; [reflexivity|]; split; [split; reflexivity|]; split; [reflexivity|];
          right; exists a; split; [reflexivity|]; unfold moved, after_asking; now rewrite Ek));
    (destruct ans as [[eui key]|]; [|apply G1]); cbn [level_use]; try apply G1;
    (destruct (off <=? List.length b)%nat; [|apply G1]);
    (destruct (do_secure E _ _ key _ (firstn off b)) as [[dd tag]|]; [|apply G1]);
    (destruct (write_with (write_slice tag) (dd ++ skipn off b, off)) as [[[]|e|] [b2 off2]]; apply G1).
Qed.

(** ** Writing *)

(** Writing with a stateful provider gives the result, the octets and the counter that writing with
    the provider frozen at the start gives. The provider is asked at most once, about the frame's key
    identifier and destination, and it is asked exactly in those calls that use up a frame counter. *)
Theorem C89_write_asks_once : forall f m x buf, u32_ok (st_frame_counter x) ->
  exists x', try_write_frame_st c E f (st_ctx m x) buf
      = (fst (try_write_frame c E f (ser_ctx m (frozen x)) buf),
         (st_ctx m x', snd (snd (try_write_frame c E f (ser_ctx m (frozen x)) buf)))) /\
    fst (snd (try_write_frame c E f (ser_ctx m (frozen x)) buf)) = ser_ctx m (at_counter (frozen x) (st_frame_counter x')) /\
    same_owner x x' /\
    (st_frame_counter x' = st_frame_counter x /\ st_state x' = st_state x \/
     st_frame_counter x' = st_frame_counter x + 1 /\
     exists a, auxiliary_security_header (header f) = Some a /\
       st_state x' = after_asking x DstAddrMode (key_identifier a) (destination (header f))).
Proof.
  intros f m x buf Hu. unfold try_write_frame, try_write_frame_st. cbv zeta.
  cbn [st_ctx ser_ctx st_security_ctx security_ctx st_footer_mode footer_mode option_map].
  rewrite header_view_eq.
  assert (G : forall (r : bres nat) (out : list N), exists x', (r, (st_ctx m x, out)) = (r, (st_ctx m x', out)) /\
    ser_ctx m (frozen x) = ser_ctx m (at_counter (frozen x) (st_frame_counter x')) /\ same_owner x x' /\
    (st_frame_counter x' = st_frame_counter x /\ st_state x' = st_state x \/
     st_frame_counter x' = st_frame_counter x + 1 /\
     exists a, auxiliary_security_header (header f) = Some a /\
       st_state x' = after_asking x DstAddrMode (key_identifier a) (destination (header f)))).
  { intros r out. exists x. split; [reflexivity|]. split; [reflexivity|]. split; [split; reflexivity|]. left. auto. }
  destruct ((write_with (try_write_header c (header f) (Some (frozen x))) >> write_with (try_write_content (content f))) (buf, 0%nat))
    as [[[]|e|] [b off]]; cbn [fst snd]; try apply G.
  destruct (off <=? List.length b)%nat; cbn [fst snd]; [|apply G].
  pose proof (secure_frame_st_eq f x m (skipn off b) Hu) as Q.
  destruct (secure_frame c E f (frozen x) m (skipn off b)) as [r [sc tl]].
  destruct Q as (x' & -> & Ow & -> & St).
  assert (G2 : forall (r : bres nat) (out : list N), exists x'', (r, (st_ctx m x', out)) = (r, (st_ctx m x'', out)) /\
    ser_ctx m (at_counter (frozen x) (st_frame_counter x')) = ser_ctx m (at_counter (frozen x) (st_frame_counter x'')) /\ same_owner x x'' /\
    (st_frame_counter x'' = st_frame_counter x /\ st_state x'' = st_state x \/
     st_frame_counter x'' = st_frame_counter x + 1 /\
     exists a, auxiliary_security_header (header f) = Some a /\
       st_state x'' = after_asking x DstAddrMode (key_identifier a) (destination (header f)))).
  { intros r0 out. exists x'. split; [reflexivity|]. split; [reflexivity|]. split; [exact Ow|].
    destruct St as [->|(a & Ha & ->)]; [left; auto|right]. split; [reflexivity|]. exists a. auto. }
  destruct r as [n|e|]; cbn [fst snd].
  - destruct (write_tail f m true _) as [[[]|e|] [b2 o2]]; cbn [fst snd]; apply G2.
  - destruct e; cbn [fst snd]; try apply G2.
    destruct (write_tail f m false _) as [[[]|e|] [b2 o2]]; cbn [fst snd]; apply G2.
  - apply G2.
Qed.

(** ** Receiving *)

Lemma unsecure_frame_st_eq {D} h buf x m (dl : DeviceLookup D) ds :
  let '(r, (out, sc, ds')) := unsecure_frame c E h buf (frozen x) m dl ds in
  exists x', unsecure_frame_st c E h buf x m dl ds = (r, (out, x', ds')) /\ sc = frozen x /\
    (x' = x /\ ~ (m = Footer_None /\ exists a, auxiliary_security_header h = Some a /\ frame_type h = Data_t /\
                    version h <> Ieee802154_2003 /\ security_level (control a) <> SL_None) \/
     m = Footer_None /\ exists a, auxiliary_security_header h = Some a /\ frame_type h = Data_t /\
       version h <> Ieee802154_2003 /\ security_level (control a) <> SL_None /\
       x' = set_st_state x (after_asking x SrcAddrMode (key_identifier a) (source h))).
Proof.
  unfold unsecure_frame, unsecure_frame_st.
  destruct m; [|exists x; split; [reflexivity|]; split; [reflexivity|]; left; split; [reflexivity|]; intros [X _]; discriminate].
  unfold has_security. destruct (auxiliary_security_header h) as [a|] eqn:Ha;
    [|exists x; split; [reflexivity|]; split; [reflexivity|]; left; split; [reflexivity|]; intros (_ & b & X & _); discriminate].
  destruct (frame_type h) eqn:Ht;
    try (exists x; split; [reflexivity|]; split; [reflexivity|]; left; split; [reflexivity|]; intros (_ & b & _ & X & _); discriminate).
  destruct (version h) eqn:Hv;
    [exists x; split; [reflexivity|]; split; [reflexivity|]; left; split; [reflexivity|]; intros (_ & b & _ & _ & X & _); now elim X| |];
  (destruct (security_level (control a)) eqn:El;
    [exists x; split; [reflexivity|]; split; [reflexivity|]; left; split; [reflexivity|]; intros (_ & b & X & _ & _ & Y); injection X as <-; now rewrite El in Y|..];
   cbv zeta; cbn [frozen sc_key_provider];
   (destruct (st_keys x SrcAddrMode (key_identifier a) (source h) (st_state x)) as [ans s'] eqn:Ek); cbn [fst];
   (assert (G1 : forall r (out : list N) (d' : D), exists x',
      (r : outcome SecurityError nat, (out, set_st_state x s', d')) = (r, (out, x', d')) /\ frozen x = frozen x /\
      (x' = x /\ ~ (Footer_None = Footer_None /\ exists a0, Some a = Some a0 /\ Data_t = Data_t /\
                    version h <> Ieee802154_2003 /\ security_level (control a0) <> SL_None) \/
       Footer_None = Footer_None /\ exists a0, Some a = Some a0 /\ Data_t = Data_t /\
         version h <> Ieee802154_2003 /\ security_level (control a0) <> SL_None /\
         x' = set_st_state x (after_asking x SrcAddrMode (key_identifier a0) (source h))))
     by (intros r out d'; eexists; split; [reflexivity|]; split; [reflexivity|]; right; split; [reflexivity|];
         exists a; split; [reflexivity|]; split; [reflexivity|]; split; [rewrite Hv; discriminate|]; split; [rewrite El; discriminate|];
         unfold after_asking; now rewrite Ek));
   rewrite Hv in G1;
   (destruct ans as [[eui key]|]; [|apply G1]);
   (destruct (source h) as [src|]; [|apply G1]);
   (destruct (dl SrcAddrMode src ds) as [ds'|d put]; [apply G1|]);
   (destruct ((dev_frame_counter d =? 0xFFFFFFFF) || (frame_counter a <? dev_frame_counter d)); [apply G1|]);
   cbn [level_use]; try apply G1;
   (destruct (_ <? _)%nat; [apply G1|]);
   (destruct (do_unsecure E _ _ key _ _ _) as [[] data]; [|apply G1]);
   (destruct (u32_add c (frame_counter a) 1); apply G1)).
Qed.

(** Reading with a stateful provider gives the result, the buffer and the device store that reading
    with the provider frozen at the start gives. The provider is asked at most once, about the key
    identifier and the source address that the octets show, and it is asked for every byte string that
    looks like a secured data frame: before the sender's counter and the tag are looked at. *)
Theorem C89_read_asks_once : forall D bs m x (dl : DeviceLookup D) ds, octets bs ->
  exists x', try_read_and_unsecure_st c E bs (st_ctx m x) dl ds
      = (fst (try_read_and_unsecure c E bs (ser_ctx m (frozen x)) dl ds),
         (fst (fst (snd (try_read_and_unsecure c E bs (ser_ctx m (frozen x)) dl ds))), st_ctx m x',
          snd (snd (try_read_and_unsecure c E bs (ser_ctx m (frozen x)) dl ds)))) /\
    st_frame_counter x' = st_frame_counter x /\ same_owner x x' /\
    (forall h a, m = Footer_None -> asks c bs h a ->
       st_state x' = after_asking x SrcAddrMode (key_identifier a) (source h)) /\
    (m = Footer_Explicit \/ (forall h a, ~ asks c bs h a) -> st_state x' = st_state x).
Proof.
  intros D bs m x dl ds Hb. unfold try_read_and_unsecure, try_read_and_unsecure_st. cbv zeta.
  cbn [st_ctx ser_ctx st_security_ctx security_ctx st_footer_mode footer_mode].
  rewrite (read_with_eq (try_read_header c)) by lia. cbn [skipn].
  destruct (try_read_header c bs) as [[h n]|e|] eqn:EH; cbn [obind fst snd].
  2,3: exists x; split; [reflexivity|]; split; [reflexivity|]; split; [split; reflexivity|]; split;
    [intros h a _ (n & ct & k & X & _); congruence|reflexivity].
  pose proof (try_read_header_len c bs h n EH) as Ln.
  replace (0 + n)%nat with n by lia. rewrite read_with_eq by lia.
  destruct (try_read_content h (skipn n bs)) as [[ct k]|e|] eqn:EC; cbn [obind fst snd].
  2,3: exists x; split; [reflexivity|]; split; [reflexivity|]; split; [split; reflexivity|]; split;
    [intros h' a _ (n' & ct & k & X & Y & _); rewrite EH in X; injection X as <- <-; congruence|reflexivity].
  pose proof (try_read_content_len h (skipn n bs) ct k (octets_skipn n bs Hb) EC) as Lk. rewrite skipn_length in Lk.
  assert (Q : forall h' a, asks c bs h' a -> h' = h /\ auxiliary_security_header h = Some a /\ frame_type h = Data_t /\
                version h <> Ieee802154_2003 /\ security_level (control a) <> SL_None).
  { intros h' a (n' & ct' & k' & X & Y & R). rewrite EH in X. injection X as <- <-. auto. }
  assert (Q2 : forall a, auxiliary_security_header h = Some a -> frame_type h = Data_t -> version h <> Ieee802154_2003 ->
                security_level (control a) <> SL_None -> asks c bs h a).
  { intros a H1 H2 H3 H4. exists n, ct, k. repeat split; assumption. }
  destruct (has_security h) eqn:Hs; cbn [fst snd].
  2: { exists x. split; [reflexivity|]. split; [reflexivity|]. split; [split; reflexivity|]. split; [|reflexivity].
       intros h' a _ X. apply Q in X. destruct X as (_ & X & _). unfold has_security in Hs. now rewrite X in Hs. }
  replace (n + k <=? List.length bs)%nat with true by (symmetry; apply Nat.leb_le; lia).
  pose proof (unsecure_frame_st_eq h (skipn (n + k) bs) x m dl ds) as U.
  destruct (unsecure_frame c E h (skipn (n + k) bs) (frozen x) m dl ds) as [r [[out sc] ds']].
  destruct U as (x' & -> & -> & St).
  assert (G : forall (r : outcome SecurityError (Frame * nat)) (o : list N) (d : D), exists x'', (r, (o, st_ctx m x', d)) = (r, (o, st_ctx m x'', d)) /\
    st_frame_counter x'' = st_frame_counter x /\ same_owner x x'' /\
    (forall h a, m = Footer_None -> asks c bs h a ->
       st_state x'' = after_asking x SrcAddrMode (key_identifier a) (source h)) /\
    (m = Footer_Explicit \/ (forall h a, ~ asks c bs h a) -> st_state x'' = st_state x)).
  { intros r0 o d. exists x'. split; [reflexivity|].
    destruct St as [(-> & Hn)|(-> & a & Ha & Ht & Hv & Hl & ->)].
    - split; [reflexivity|]. split; [split; reflexivity|]. split; [|reflexivity].
      intros h' a Hm X. exfalso. apply Hn. split; [exact Hm|]. apply Q in X. destruct X as (-> & X1 & X2 & X3 & X4). eauto.
    - split; [reflexivity|]. split; [split; reflexivity|]. split.
      + intros h' b _ X. apply Q in X. destruct X as (-> & X & _). rewrite Ha in X. injection X as <-. reflexivity.
      + intros [X|X]; [discriminate|]. exfalso. now apply (X h a), Q2. }
  destruct r as [size|e|]; cbn [fst snd]; try apply G. destruct e; cbn [fst snd]; apply G.
Qed.

(** ** Histories *)

Hypothesis HE : cipher_ok E.

(** Every history of writes with a stateful provider, also one that the outside world changes between
    the calls, is a history of writes with providers without state, one for each call, and the counter
    is never lowered in it. *)
Theorem C89_sender_history : forall calls x, u32_ok (st_frame_counter x) ->
  Forall (fun y => frame_ok (c_frame (snd y))) calls ->
  exists uses, fst (send_all_st c E x calls) = map (write_once c E) uses /\ map snd uses = map snd calls /\
    Forall (fun u => sc_euid (fst u) = st_euid x /\ u32_ok (sc_frame_counter (fst u))) uses /\
    (forall u, hd_error uses = Some u -> sc_frame_counter (fst u) = st_frame_counter x) /\
    counter_never_lowered c E uses.
Proof using HE.
  induction calls as [|[w y] calls IH]; intros x Hu Hf.
  - exists []. split; [reflexivity|]. split; [reflexivity|]. split; [constructor|]. split; [discriminate|constructor].
  - inversion Hf as [|? ? Hy Hf']; subst. cbn [snd] in Hy. cbn [send_all_st].
    destruct (C89_write_asks_once (c_frame y) (c_mode y) (touched x w) (c_buffer y) Hu) as (x' & Ew & Ec & (Oe & Ok_) & St).
    rewrite Ew. cbn [st_ctx st_security_ctx].
    assert (Hu' : u32_ok (st_frame_counter x')).
    { destruct (write_context c E HE (c_frame y) (c_mode y) (frozen (touched x w)) (c_buffer y) Hy Hu) as (n & Ec2 & Hn & _).
      rewrite Ec in Ec2. injection Ec2 as Q. now rewrite Q. }
    destruct (IH x' Hu' Hf') as (uses & El & Em & Hok & Hh & Srt).
    destruct (send_all_st c E x' calls) as [log x2]. cbn [fst] in El |- *. subst log.
    exists ((frozen (touched x w), y) :: uses). cbn [map].
    assert (W : write_once c E (frozen (touched x w), y) =
      {| s_call := y; s_before := st_frame_counter (touched x w);
         s_result := fst (try_write_frame c E (c_frame y) (ser_ctx (c_mode y) (frozen (touched x w))) (c_buffer y));
         s_after := st_frame_counter x';
         s_buffer := snd (snd (try_write_frame c E (c_frame y) (ser_ctx (c_mode y) (frozen (touched x w))) (c_buffer y))) |}).
    { unfold write_once. cbn [fst snd].
      destruct (try_write_frame c E (c_frame y) (ser_ctx (c_mode y) (frozen (touched x w))) (c_buffer y)) as [r [ctx buf]].
      cbn [fst snd] in *. subst ctx. reflexivity. }
    split; [now rewrite W|]. split; [cbn [snd]; now rewrite Em|]. split; [|split].
    + constructor; [split; [reflexivity|exact Hu]|]. eapply Forall_impl; [|exact Hok]. cbn. intros u (A & B).
      split; [|exact B]. rewrite A. exact Oe.
    + intros u Hu0. injection Hu0 as <-. reflexivity.
    + unfold counter_never_lowered in *. cbn [map]. constructor; [exact Srt|].
      destruct uses as [|u us]; [constructor|]. cbn [map]. constructor.
      rewrite W. cbn [s_after]. specialize (Hh u eq_refl).
      replace (s_before (write_once c E u)) with (sc_frame_counter (fst u)); [lia|].
      unfold write_once. now destruct (try_write_frame c E (c_frame (snd u)) _ _) as [? [? ?]].
Qed.

(** So no nonce is used twice and the counters used up increase, whatever the provider does. *)
Theorem C89_nonces_once : forall calls x, u32_ok (st_frame_counter x) -> u64_ok (st_euid x) ->
  Forall (fun y => frame_ok (c_frame (snd y))) calls ->
  let log := fst (send_all_st c E x calls) in
  NoDup (map (fun e => mac_nonce (st_euid x) (s_before e) (level_of e)) (filter used log)) /\
  StronglySorted N.lt (map s_before (filter used log)).
Proof using HE.
  intros calls x Hu He Hf. cbv zeta.
  destruct (C89_sender_history calls x Hu Hf) as (uses & -> & Em & Hok & _ & Srt).
  assert (Uk : uses_ok uses).
  { unfold uses_ok. clear Srt. revert calls Hf Em. induction uses as [|u us IH]; intros calls Hf Em; [constructor|].
    destruct calls as [|y ys]; [discriminate|]. cbn [map] in Em. injection Em as E1 E2.
    inversion Hf; subst. inversion Hok as [|? ? (A & B) Hok']; subst. constructor; [|now apply (IH Hok' ys)].
    rewrite E1, A. auto. }
  destruct (C81_sender_reconfigured c E HE uses Uk Srt) as (N1 & N2). split; [|exact N2].
  replace (map (fun e => mac_nonce (st_euid x) (s_before e) (level_of e)) (filter used (map (write_once c E) uses)))
    with (flat_map (fun u => nonces (fst u) [write_once c E u]) uses); [exact N1|].
  clear - Hok. induction uses as [|u us IH]; [reflexivity|]. inversion Hok as [|? ? (A & _) Hok']; subst.
  cbn [flat_map map filter]. rewrite IH by assumption. unfold nonces. cbn [filter].
  destruct (used (write_once c E u)); cbn [map List.app]; [now rewrite A|reflexivity].
Qed.

(** Replay protection does not depend on the provider either. *)
Theorem C89_no_replays : forall D (dl : DeviceLookup D) resolve get d arrivals x ds,
  device_store dl resolve get -> Forall (fun y => octets (snd y)) arrivals ->
  let taken := accepted resolve d (fst (receive_all_st c E x dl ds arrivals)) in
  overflow_checks c = true \/ Forall (fun fc => fc <> 0xFFFFFFFF) (counters taken) ->
  StronglySorted N.lt (counters taken) /\ NoDup (map fst taken).
Proof using HE.
  intros D dl resolve get d arrivals x ds Hs Hb. cbv zeta.
  assert (G : exists ps : list (reception K D),
    accepted resolve d (fst (receive_all_st c E x dl ds arrivals)) = flat_map (taken_for c E d) ps /\
    receptions_ok get ps /\ device_never_lowered c E get d ps /\
    (forall p, hd_error ps = Some p -> p_store p = ds)).
  { revert x ds. induction arrivals as [|[[w m] bs] arrivals IH]; intros x ds.
    - exists []. split; [reflexivity|]. split; [constructor|]. split; [constructor|discriminate].
    - inversion Hb as [|? ? Hb1 Hb2]; subst. cbn [snd] in Hb1. specialize (IH Hb2). cbn [receive_all_st].
      destruct (C89_read_asks_once D bs m (touched x w) dl ds Hb1) as (x' & Er & _). rewrite Er.
      cbn [st_ctx st_security_ctx].
      destruct (IH x' (snd (snd (try_read_and_unsecure c E bs (ser_ctx m (frozen (touched x w))) dl ds)))) as (ps & Ea & Ok1 & Lw & Hh).
      destruct (receive_all_st c E x' dl _ arrivals) as [log z]. cbn [fst] in Ea |- *.
      exists ({| p_lookup := dl; p_resolve := resolve; p_store := ds;
                 p_arrival := {| a_ctx := ser_ctx m (frozen (touched x w)); a_bytes := bs |} |} :: ps).
      assert (R : received_once c E {| p_lookup := dl; p_resolve := resolve; p_store := ds;
                 p_arrival := {| a_ctx := ser_ctx m (frozen (touched x w)); a_bytes := bs |} |}
               = (fst (try_read_and_unsecure c E bs (ser_ctx m (frozen (touched x w))) dl ds),
                  snd (snd (try_read_and_unsecure c E bs (ser_ctx m (frozen (touched x w))) dl ds)))).
      { unfold received_once. cbn [p_arrival p_lookup p_store a_bytes a_ctx].
        now destruct (try_read_and_unsecure c E bs (ser_ctx m (frozen (touched x w))) dl ds) as [r [[? ?] ?]]. }
      split; [|split; [|split]].
      + cbn [flat_map]. rewrite <- Ea. unfold taken_for at 1. rewrite R. unfold accepted. cbn [flat_map fst p_resolve p_arrival].
        now rewrite app_nil_r.
      + constructor; [split; assumption|exact Ok1].
      + unfold device_never_lowered in *. constructor; [exact Lw|]. destruct ps as [|q qs]; [constructor|].
        constructor. rewrite (Hh q eq_refl), R. cbn [snd]. lia.
      + intros p Hp. injection Hp as <-. reflexivity. }
  destruct G as (ps & -> & G1 & G2 & _). intros Hc. now apply (C81_receiver_reconfigured c E HE get d ps).
Qed.

End Stateful.

(** * A sender and a receiver whose keys change with every frame *)

(** Two providers in step: for frames from [src] to [dst] the receiver's answers, in every state, with
    the sender's EUI-64 and the key the sender's provider answers with, and both go on to the same state. *)
Definition paired {K S} (ps pr : StatefulKeys K S) (eui : N) (dst : option Address) (src : Address) : Prop :=
  forall k s, exists e key s', ps DstAddrMode k dst s = (Some (e, key), s') /\ pr SrcAddrMode k (Some src) s = (Some (eui, key), s').

(** A secured frame that both sides take: what the sender may send. *)
Definition between (dst : option Address) (src : Address) (f : Frame) : Prop :=
  frame_ok f /\ frame_consistent f /\ version (header f) <> Ieee802154_2003 /\
  (exists a, auxiliary_security_header (header f) = Some a /\ authenticated (security_level (control a)) = true) /\
  destination (header f) = dst /\ (forall fc, source (header_sent fc (header f)) = Some src).

Lemma written_octets {K} (E : block_cipher K) c f a sc buf n ctx buf' : cipher_ok E -> frame_ok f -> u32_ok (sc_frame_counter sc) ->
  auxiliary_security_header (header f) = Some a -> authenticated (security_level (control a)) = true ->
  try_write_frame c E f (ser_ctx Footer_None sc) buf = (Ok n, (ctx, buf')) ->
  octets (firstn n buf') /\ frame_type (header f) = Data_t /\ sc_frame_counter sc <> last_counter /\
  ctx = ser_ctx Footer_None (advanced sc).
Proof.
  intros HE Hok Hfc Ha Hl W.
  destruct (write_ok_inv c E HE f Footer_None sc buf n ctx buf' Hok Hfc W) as (bs & used & P & Lb & En & Ectx & Eb & F).
  apply plan_ok in P. rewrite Ha in P. destruct P as (Hca & _ & Ht & Lest & P).
  destruct (level_is_none _) eqn:El; [destruct (security_level (control a)); discriminate|].
  destruct P as (_ & Hlast & -> & eui' & key' & Hk' & Ebs).
  rewrite F. split; [|split; [|split]]; try assumption.
  - rewrite Ebs. apply octets_app. split; [now apply octets_front|]. destruct Hok as (_ & _ & Hp & _).
    apply octets_app. split; [now apply octets_secured_payload|now apply octets_secured_tag].
Qed.

Section InStep.
Context {K S D : Type} (c1 c2 : cfg) (E : block_cipher K).
Hypothesis HE : cipher_ok E.
Hypothesis N1 : native c1 = LE.
Hypothesis N2 : native c2 = LE.
Variable (dl : DeviceLookup D) (resolve : Address -> option N) (get : D -> N -> DeviceDescriptor).
Hypothesis Hs : device_store dl resolve get.

(** If every frame the sender writes arrives once and in order, and nothing else arrives, every frame is
    accepted with its contents, and the providers are in the same state at the end. *)
Theorem C89_in_step : forall calls (x y : StatefulContext K S) ds dst src d,
  u32_ok (st_frame_counter x) -> paired (st_keys x) (st_keys y) (st_euid x) dst src ->
  st_state x = st_state y -> resolve src = Some d -> dev_frame_counter (get ds d) <= st_frame_counter x ->
  Forall (fun z => c_mode z = Footer_None /\ between dst src (c_frame z)) calls ->
  let '(log, x') := send_all_st c1 E x (map (fun z => (fun s => s, z)) calls) in
  Forall (fun e => exists n, s_result e = Ok n) log ->
  let '(heard, (y', _)) := receive_all_st c2 E y dl ds (map (fun e => (fun s => s, Footer_None, s_bytes e)) log) in
  Forall2 (fun e r => exists n, r_result r = Ok (frame_sent Footer_None (s_before e) (s_frame e), n)) log heard /\
  st_state x' = st_state y'.
Proof using HE N1 N2 Hs.
  induction calls as [|z calls IH]; intros x y ds dst src d Hu Hp Es Hr Hd Hf.
  { cbn. intros _. split; [constructor|exact Es]. }
  inversion Hf as [|? ? (Hm & Hok & Hcons & Hv & (a & Ha & Hl) & Hdst & Hsrc) Hf']; subst.
  cbn [map send_all_st].
  assert (Tx : forall w : StatefulContext K S, touched w (fun s => s) = w) by (now intros []).
  rewrite Tx, Hm.
  destruct (C89_write_asks_once c1 E (c_frame z) Footer_None x (c_buffer z) Hu) as (x' & Ew & Ec & (Oe & Okk) & St).
  rewrite Ew. cbn [st_ctx st_security_ctx].
  assert (Hu' : u32_ok (st_frame_counter x')).
  { destruct (write_context c1 E HE (c_frame z) Footer_None (frozen x) (c_buffer z) Hok Hu) as (n & Ec2 & Hn & _).
    rewrite Ec in Ec2. injection Ec2 as Q. now rewrite Q. }
  specialize (fun y ds => IH x' y ds (destination (header (c_frame z))) src d Hu').
  destruct (send_all_st c1 E x' (map (fun z0 => (fun s => s, z0)) calls)) as [log x2].
  intros Hres. inversion Hres as [|? ? (n & En) Hres']; subst. cbn [s_result] in En.
  cbn [map receive_all_st]. rewrite Tx.
  set (W := try_write_frame c1 E (c_frame z) (ser_ctx Footer_None (frozen x)) (c_buffer z)) in *.
  assert (EW : try_write_frame c1 E (c_frame z) (ser_ctx Footer_None (frozen x)) (c_buffer z)
     = (Ok n, (ser_ctx Footer_None (at_counter (frozen x) (st_frame_counter x')), snd (snd W)))).
  { fold W. destruct W as [r [ctx b]]. cbn [fst snd] in *. now subst r ctx. }
  destruct (Hp (key_identifier a) (st_state x)) as (e & key & s' & P1 & P2).
  pose proof (Hs src ds) as HS. rewrite Hr in HS. destruct HS as (put & Hdl & _ & Hput & _).
  destruct (C28_secured_round_trip K D E c1 c2 (c_frame z) a (frozen x) (c_buffer z) n _ (snd (snd W)) (frozen y)
     dl ds src e key (get ds d) put HE N1 N2 Hok Hu Hcons Hv Ha Hl EW (Hsrc _)) as (bs' & R);
    [cbn; now rewrite P1|cbn; rewrite <- Es; now rewrite P2|exact Hdl|exact Hd|].
  destruct (written_octets E c1 (c_frame z) a (frozen x) (c_buffer z) n _ _ HE Hok Hu Ha Hl EW) as (Ob & Ht & Hlast & Eadv).
  assert (Ex : st_frame_counter x' = st_frame_counter x + 1) by (injection Eadv as Q; exact Q).
  set (a' := {| control := {| security_level := security_level (control a); key_id_mode := mode_of_key (key_identifier a) |};
                frame_counter := st_frame_counter x; key_identifier := key_identifier a |}).
  assert (Ha' : auxiliary_security_header (header_sent (st_frame_counter x) (header (c_frame z))) = Some a')
    by (unfold header_sent; cbn [auxiliary_security_header]; now rewrite Ha).
  assert (Ask : asks c2 (firstn n (snd (snd W))) (header_sent (st_frame_counter x) (header (c_frame z))) a').
  { pose proof R as R2.
    apply (C32_accepted_iff c2 E HE _ _ dl ds (frame_sent Footer_None (st_frame_counter x) (c_frame z)) _ _ _ _ a' Ob Ha') in R2.
    destruct R2 as (sc & e2 & key2 & d2 & put2 & r7 & rs & _ & _ & Hdec & _ & _ & _ & Hrs & Eb & _).
    cbn [frame_sent header content payload] in *.
    assert (Ect : content (c_frame z) = FC_Data).
    { unfold frame_consistent in Hcons. rewrite Ht in Hcons. destruct (content (c_frame z)); try discriminate. reflexivity. }
    exists (header_len (header_sent (st_frame_counter x) (header (c_frame z)))), FC_Data, 0%nat.
    split. { rewrite Eb. now apply try_read_header_complete. }
    split. { unfold try_read_content. replace (frame_type (header_sent _ _)) with Data_t by (symmetry; exact Ht). reflexivity. }
    split; [exact Ha'|]. split; [exact Ht|]. split; [exact Hv|]. cbn. intros X. rewrite X in Hl. discriminate. }
  destruct (C89_read_asks_once c2 E D (firstn n (snd (snd W))) Footer_None y dl ds Ob) as (y' & Er & _ & (Oey & Oky) & Hst & _).
  specialize (Hst _ a' eq_refl Ask). cbn [a' key_identifier] in Hst. rewrite Hsrc in Hst.
  assert (EB : s_bytes {| s_call := z; s_before := st_frame_counter x; s_result := fst W; s_after := st_frame_counter x'; s_buffer := snd (snd W) |}
               = firstn n (snd (snd W))) by (unfold s_bytes; cbn [s_result s_buffer]; now rewrite En).
  rewrite EB, Er, R. cbn [fst snd st_ctx st_security_ctx].
  assert (Es' : st_state x' = st_state y').
  { rewrite Hst. unfold after_asking. rewrite <- Es, P2. cbn [snd].
    destruct St as [(X & _)|(_ & b & Hb & X)]; [rewrite Ex in X; lia|].
    rewrite X. unfold after_asking. assert (b = a) by congruence. subst b. now rewrite P1. }
  specialize (IH y' (put {| dev_frame_counter := st_frame_counter x + 1; dev_exempt := dev_exempt (get ds d) |})).
  rewrite Oe, Oky, Okk in IH. specialize (IH Hp Es' Hr). rewrite Hput in IH. cbn [dev_frame_counter] in IH.
  specialize (IH ltac:(rewrite Ex; lia) Hf' Hres').
  change (sc_frame_counter (frozen x)) with (st_frame_counter x).
  destruct (receive_all_st c2 E y' dl _ _) as [heard [y2 ds2]]. destruct IH as (I1 & I2).
  split; [|exact I2]. constructor; [|exact I1]. cbn [r_result s_before s_frame s_call]. unfold s_frame. cbn [s_call]. eauto.
Qed.

End InStep.

(** * Concrete cases *)

(** A key that is another one for every frame. *)
Definition ratchet : StatefulKeys (list N) N := fun _ _ _ s => (Some (1, repeat (s mod 256) 16), s + 1).
Definition ratcheting (eui fc : N) : StatefulContext (list N) N :=
  {| st_euid := eui; st_frame_counter := fc; st_keys := ratchet; st_state := 9 |}.
Definition ratchet_calls : list call :=
  [at_level SL_MIC32 false [1;2;3] 60; at_level SL_ENCMIC64 true [4;5] 60; at_level SL_ENCMIC128 true [] 127].
Definition ratchet_log : list sent := fst (send_all_st host aes_cipher (ratcheting 1 41) (map (fun z => (fun s => s, z)) ratchet_calls)).
Definition ratchet_bytes (i : nat) : list N := nth i (map s_bytes ratchet_log) [].
Definition ratchet_hears (fc : N) (bss : list (list N)) :=
  let '(log, (x, _)) := receive_all_st host aes_cipher (ratcheting 7 0) (known_lookup [1]) (one_device fc)
                          (map (fun bs => (fun s => s, Footer_None, bs)) bss) in
  (map (fun r => match r_result r with Ok (f, _) => Ok (payload f) | Err e => Err e | Panic => Panic end) log, st_state x).

Lemma level_between l b p : octets p -> authenticated l = true ->
  between (Some (Extended 0x111 0x02)) (Extended 0x111 0x01) (level_frame l b p).
Proof.
  intros Hp Hl. split; [now apply level_frame_ok|]. split; [reflexivity|]. split; [discriminate|].
  split; [eexists; split; [reflexivity|exact Hl]|]. split; [reflexivity|]. intros fc. now destruct b.
Qed.

(** The hypotheses of C89_in_step hold, and what it says is to be seen: the three frames carry three keys. *)
Example in_step_case :
  paired ratchet ratchet 1 (Some (Extended 0x111 0x02)) (Extended 0x111 0x01) /\
  known_resolve [1] (Extended 0x111 0x01) = Some 1 /\
  Forall (fun z => c_mode z = Footer_None /\ between (Some (Extended 0x111 0x02)) (Extended 0x111 0x01) (c_frame z)) ratchet_calls /\
  Forall (fun e => exists n, s_result e = Ok n) ratchet_log /\
  map s_before ratchet_log = [41; 42; 43] /\
  ratchet_hears 40 [ratchet_bytes 0; ratchet_bytes 1; ratchet_bytes 2] = ([Ok [1;2;3]; Ok [4;5]; Ok []], 12).
Proof.
  split. { intros k s. exists 1, (repeat (s mod 256) 16), (s + 1). split; reflexivity. }
  split; [reflexivity|].
  split. { repeat (apply Forall_cons; [split; [reflexivity|apply level_between; [repeat constructor|reflexivity]]|]). apply Forall_nil. }
  split. { assert (X : map s_result ratchet_log = [Ok 36%nat; Ok 37%nat; Ok 43%nat]) by (vm_compute; reflexivity).
           revert X. generalize ratchet_log. intros l X. destruct l as [|a [|b [|d [|? ?]]]]; try discriminate.
           injection X as X1 X2 X3. repeat constructor; eauto. }
  split; vm_compute; reflexivity.
Qed.

(** But nothing else may arrive. The receiver asks its provider before it knows whether a frame is
    genuine or new: one frame with a wrong tag, or a genuine one heard again, and the provider has moved
    on. No genuine frame is accepted after that. *)
Theorem C89_forged_frame_leaves_step_refuted :
  let forged := flip_octet 29 (ratchet_bytes 0) in
  paired ratchet ratchet 1 (Some (Extended 0x111 0x02)) (Extended 0x111 0x01) /\
  ratchet_hears 40 [forged; ratchet_bytes 0; ratchet_bytes 1; ratchet_bytes 2]
  = ([Err TransformationError; Err TransformationError; Err TransformationError; Err TransformationError], 13) /\
  ratchet_hears 40 [ratchet_bytes 0; ratchet_bytes 0; ratchet_bytes 1; ratchet_bytes 2]
  = ([Ok [1;2;3]; Err CounterError; Err TransformationError; Err TransformationError], 13).
Proof.
  cbv zeta. split. { intros k s. exists 1, (repeat (s mod 256) 16), (s + 1). split; reflexivity. }
  split; vm_compute; reflexivity.
Qed.

(** A provider that keeps a log of what it is asked: one entry for a write that uses up a counter,
    none for one that is refused before, one entry for a forged frame. *)
Definition logging : StatefulKeys (list N) (list (AddressingMode * option KeyIdentifier * option Address)) :=
  fun m k a s => (Some (1, repeat 7 16), s ++ [(m, k, a)]).
Definition logger fc := {| st_euid := 1; st_frame_counter := fc; st_keys := logging; st_state := [] |}.
Definition key_id_3 : option KeyIdentifier := Some {| key_source := None; key_index := 3 |}.
Example logged_lookups :
  let after r := match st_security_ctx (fst (snd r)) with Some x => Some (st_frame_counter x, st_state x) | None => None end in
  after (try_write_frame_st host aes_cipher (level_frame SL_MIC64 true [1;2]) (st_ctx Footer_None (logger 5)) (repeat 0 60))
  = Some (6, [(DstAddrMode, key_id_3, Some (Extended 0x111 0x02))]) /\
  after (try_write_frame_st host aes_cipher (level_frame SL_MIC64 true (repeat 1 120)) (st_ctx Footer_None (logger 5)) (repeat 0 200))
  = Some (5, []) /\
  (let '(r, (_, ctx, _)) := try_read_and_unsecure_st host aes_cipher (flip_octet 29 (ratchet_bytes 0)) (st_ctx Footer_None (logger 5))
                              basic_dev_lookup (dev 0) in
   r = Err TransformationError /\
   option_map st_state (st_security_ctx ctx) = Some [(SrcAddrMode, key_id_3, Some (Extended 0x111 0x01))]).
Proof. vm_compute. repeat split. Qed.

Print Assumptions C89_write_asks_once.
Print Assumptions C89_read_asks_once.
Print Assumptions C89_sender_history.
Print Assumptions C89_nonces_once.
Print Assumptions C89_no_replays.
Print Assumptions C89_in_step.
Print Assumptions C89_forged_frame_leaves_step_refuted.
