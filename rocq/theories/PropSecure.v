(** Properties C25, C27, C28, C31 - C33, C36 - C42, C44, C47, C50 (frame security). *)
From Coq Require Import List Arith NArith ZArith Bool String Lia ZifyBool ZifyNat ZifyN.
From Verif Require Import ByteCrate Types HeaderModel BeaconModel CommandModel CcmModel FrameModel
  Spec SecSpec ProofLib HeaderProofs HeaderReadProofs BeaconProofs CommandProofs FrameProofs CcmProofs
  SecureProofs RepoTests Aes128 AesProofs PropHeader PropContent PropFrame.
Import ListNotations.
Open Scope N_scope.
Open Scope list_scope.
Ltac Zify.zify_post_hook ::= Z.div_mod_to_equations.

Lemma octets_front o fc f : frame_ok f -> u32_ok fc -> octets (wire_front o fc f).
Proof.
  intros (Hh & Hc & _) Hfc. unfold wire_front. apply octets_app; split; [|now apply octets_wire_content].
  apply octets_wire_header; [lia|].
  destruct Hh as (H1 & H2 & H3 & H4). unfold header_sent. repeat split; cbn [seq destination source auxiliary_security_header].
  - exact H1.
  - exact H2.
  - destruct (source (header f)) as [s|], (destination (header f)) as [d|]; try exact H3; try exact I.
    cbn [opt_ok] in *. destruct (pan_id_compress (header f)); [|exact H3].
    destruct s, d; cbn in *; tauto.
  - destruct (auxiliary_security_header (header f)) as [a|]; [|exact I]. cbn in *. unfold aux_ok in *. cbn. tauto.
Qed.

Lemma triple_inj {A B C} (a x : A) (b y : B) (c z : C) : (a, b, c) = (x, y, z) -> a = x /\ b = y /\ c = z.
Proof. intros H. now inversion H. Qed.

Section Secure.
Context {K : Type} (c : cfg) (E : block_cipher K).
Hypothesis HE : cipher_ok E.

(** ** C27 Secured frame wire layout *)

(** Everything a write with a security context does, for every buffer. *)
Theorem C27_secured_write_exact : forall f m sc bs st used, frame_ok f -> u32_ok (sc_frame_counter sc) ->
  write_plan E (native c) m sc f = (bs, st, used) ->
  forall buf,
  if (List.length bs <=? List.length buf)%nat
  then try_write_frame c E f (ser_ctx m sc) buf
       = (match st with Ok _ => Ok (List.length bs) | Err e => Err e | Panic => Panic end,
          (ser_ctx m (if used then advanced sc else sc), bs ++ skipn (List.length bs) buf))
  else exists k, (k <= List.length buf)%nat /\
       (* what is left is the beginning of the header, or header and content, or these and the
          payload (secured in place) without the tag *)
       (List.length (wire_front (native c) (sc_frame_counter sc) f) + List.length (payload f) <= List.length buf ->
        k = List.length (wire_front (native c) (sc_frame_counter sc) f) + List.length (payload f))%nat /\
       (List.length buf < List.length (wire_front (native c) (sc_frame_counter sc) f) + List.length (payload f) ->
        k <= List.length (wire_front (native c) (sc_frame_counter sc) f))%nat /\
       try_write_frame c E f (ser_ctx m sc) buf
       = (Err Incomplete,
          (ser_ctx m (if used && (List.length (wire_front (native c) (sc_frame_counter sc) f)
                                  + List.length (payload f) <=? List.length buf)%nat
                      then advanced sc else sc),
           firstn k bs ++ skipn k buf)).
Proof.
  intros f m sc bs st used Hok Hfc P buf.
  pose proof (try_write_secured c E HE f m sc Hok Hfc) as W. rewrite P in W. specialize (W buf).
  destruct (List.length bs <=? List.length buf)%nat; [exact W|].
  destruct W as (k & W1 & W2 & W3 & W4). exists k. split; [exact W1|]. split; [exact W2|].
  split; [intros X; exact (proj1 (W3 X))|exact W4].
Qed.

Lemma write_inv f m sc buf r ctx' buf' : frame_ok f -> u32_ok (sc_frame_counter sc) ->
  try_write_frame c E f (ser_ctx m sc) buf = (r, (ctx', buf')) ->
  exists bs st used, write_plan E (native c) m sc f = (bs, st, used) /\
  ((List.length bs <= List.length buf)%nat /\ r = result_of st (List.length bs) /\
   ctx' = ser_ctx m (if used then advanced sc else sc) /\ buf' = bs ++ skipn (List.length bs) buf \/
   (List.length buf < List.length bs)%nat /\ r = Err Incomplete /\
   ctx' = ser_ctx m (if used && (List.length (wire_front (native c) (sc_frame_counter sc) f)
                                  + List.length (payload f) <=? List.length buf)%nat
                      then advanced sc else sc) /\
   exists k, (k <= List.length buf)%nat /\ buf' = firstn k bs ++ skipn k buf).
Proof.
  intros Hok Hfc W. destruct (write_plan E (native c) m sc f) as [[bs st] used] eqn:P.
  exists bs, st, used. split; [reflexivity|].
  pose proof (C27_secured_write_exact f m sc bs st used Hok Hfc P buf) as X.
  destruct (Nat.leb_spec (List.length bs) (List.length buf)) as [L|L].
  - left. rewrite X in W. unfold result_of. split; [exact L|]. destruct st; injection W as <- <- <-; auto.
  - right. destruct X as (k & Hk & _ & _ & X). rewrite X in W. injection W as <- <- <-. split; [exact L|].
    repeat split. eauto.
Qed.

Lemma plan_ok f m sc bs used : write_plan E (native c) m sc f = (bs, Ok tt, used) ->
  compression_allowed (header f) /\ m = Footer_None /\
  match auxiliary_security_header (header f) with
  | None => bs = wire_front (native c) (sc_frame_counter sc) f ++ payload f /\ used = false
  | Some a =>
      let l := security_level (control a) in
      frame_type (header f) = Data_t /\ (length_estimate f a <= 127)%nat /\
      if level_is_none l
      then bs = wire_front (native c) (sc_frame_counter sc) f ++ payload f /\ used = false
      else level_is_enc l = false /\ sc_frame_counter sc <> last_counter /\ used = true /\
           exists eui key, sc_key_provider sc DstAddrMode (key_identifier a) (destination (header f)) = Some (eui, key) /\
           bs = wire_front (native c) (sc_frame_counter sc) f
                ++ secured_payload E key l (sc_euid sc) (sc_frame_counter sc) (payload f)
                ++ secured_tag E key l (sc_euid sc) (sc_frame_counter sc) (payload f)
  end.
Proof.
  unfold write_plan. rewrite compression_ok_plan, <- compression_ok_iff.
  destruct (compression_ok (header f)); cbn [negb]; [|discriminate].
  destruct m; [|discriminate]. intros P. split; [reflexivity|]. split; [reflexivity|].
  destruct (auxiliary_security_header (header f)) as [a|]; [|apply triple_inj in P; destruct P as (<- & _ & <-); auto].
  cbv zeta. unfold is_data in P. destruct (frame_type (header f)); try discriminate. cbn [negb] in P.
  destruct (Nat.ltb_spec 127 (length_estimate f a)) as [|L]; [discriminate|].
  split; [reflexivity|]. split; [exact L|].
  destruct (level_is_none _); [apply triple_inj in P; destruct P as (<- & _ & <-); auto|].
  destruct (N.eqb_spec (sc_frame_counter sc) last_counter); [discriminate|].
  destruct (sc_key_provider sc DstAddrMode (key_identifier a) (destination (header f))) as [[eui key]|]; [|discriminate].
  destruct (level_is_enc _); [discriminate|]. apply triple_inj in P; destruct P as (<- & _ & <-).
  split; [reflexivity|]. split; [assumption|]. split; [reflexivity|]. exists eui, key. auto.
Qed.

Lemma write_ok_inv f m sc buf n ctx' buf' : frame_ok f -> u32_ok (sc_frame_counter sc) ->
  try_write_frame c E f (ser_ctx m sc) buf = (Ok n, (ctx', buf')) ->
  exists bs used, write_plan E (native c) m sc f = (bs, Ok tt, used) /\
    (n <= List.length buf)%nat /\ n = List.length bs /\ ctx' = ser_ctx m (if used then advanced sc else sc) /\
    buf' = bs ++ skipn n buf /\ firstn n buf' = bs.
Proof.
  intros Hok Hfc W. destruct (write_inv f m sc buf _ ctx' buf' Hok Hfc W) as (bs & st & used & P & [H|H]).
  - destruct H as (L & R & -> & ->). destruct st as [[]|e|]; try discriminate. injection R as ->.
    exists bs, used. rewrite firstn_app_exact. auto 6.
  - destruct H as (_ & R & _). discriminate.
Qed.

(** A successful write at an authenticated level: header, content, CCM output, tag. *)
Theorem C27_secured_frame_layout : forall f m sc a buf n ctx' buf', frame_ok f -> u32_ok (sc_frame_counter sc) ->
  auxiliary_security_header (header f) = Some a ->
  authenticated (security_level (control a)) = true ->
  try_write_frame c E f (ser_ctx m sc) buf = (Ok n, (ctx', buf')) ->
  let l := security_level (control a) in
  let fc := sc_frame_counter sc in
  exists eui key,
    sc_key_provider sc DstAddrMode (key_identifier a) (destination (header f)) = Some (eui, key) /\
    firstn n buf' =
      wire_header (native c) (native c) false 0 (header_sent fc (header f))
      ++ wire_content br_zero mr_zero (content f)
      ++ secured_payload E key l (sc_euid sc) fc (payload f)
      ++ secured_tag E key l (sc_euid sc) fc (payload f) /\
    n = List.length (firstn n buf') /\
    skipn n buf' = skipn n buf /\
    ctx' = ser_ctx m (advanced sc).
Proof.
  intros f m sc a buf n ctx' buf' Hok Hfc Ha Hl W. cbv zeta.
  destruct (write_ok_inv f m sc buf n ctx' buf' Hok Hfc W) as (bs & used & P & L & -> & -> & -> & F).
  apply plan_ok in P. rewrite Ha in P. destruct P as (_ & -> & _ & _ & P).
  destruct (level_is_none _) eqn:El; [destruct (security_level (control a)); discriminate|].
  destruct P as (_ & _ & -> & eui & key & Ek & Eb). exists eui, key. split; [exact Ek|].
  rewrite F, skipn_app_exact. repeat split. rewrite Eb. unfold wire_front. now rewrite <- app_assoc.
Qed.

(** When it succeeds. *)
Theorem C27_secured_write_succeeds : forall f sc a eui key buf, frame_ok f ->
  auxiliary_security_header (header f) = Some a ->
  authenticated (security_level (control a)) = true ->
  frame_type (header f) = Data_t -> compression_allowed (header f) ->
  sc_frame_counter sc < last_counter ->
  (length_estimate f a <= 127)%nat ->
  sc_key_provider sc DstAddrMode (key_identifier a) (destination (header f)) = Some (eui, key) ->
  (List.length (wire_front (native c) (sc_frame_counter sc) f) + List.length (payload f)
   + tag_len (security_level (control a)) <= List.length buf)%nat ->
  exists n buf', try_write_frame c E f (ser_ctx Footer_None sc) buf
                 = (Ok n, (ser_ctx Footer_None (advanced sc), buf')).
Proof.
  intros f sc a eui key buf Hok Ha Hl Ht Hc Hfc Hest Hk Hroom.
  destruct (write_plan E (native c) Footer_None sc f) as [[bs st] used] eqn:P.
  assert (Hfc' : u32_ok (sc_frame_counter sc)).
  { unfold u32_ok. change last_counter with 4294967295 in Hfc. change (2 ^ 32) with 4294967296. lia. }
  pose proof (C27_secured_write_exact f _ sc bs st used Hok Hfc' P buf) as X.
  unfold write_plan in P. apply compression_ok_iff in Hc. rewrite compression_ok_plan, Hc, Ha in P.
  cbn [negb] in P. unfold is_data in P. rewrite Ht in P. cbn [negb] in P.
  replace (127 <? length_estimate f a)%nat with false in P by (symmetry; apply Nat.ltb_ge; lia).
  replace (level_is_none (security_level (control a))) with false in P by (destruct (security_level (control a)); easy).
  replace (sc_frame_counter sc =? last_counter) with false in P by (symmetry; apply N.eqb_neq; lia).
  rewrite Hk in P.
  replace (level_is_enc (security_level (control a))) with false in P by (destruct (security_level (control a)); easy).
  apply triple_inj in P; destruct P as (<- & <- & <-).
  match type of X with if ?b then _ else _ => assert (Eb : b = true) end.
  { apply Nat.leb_le. rewrite !app_length, secured_payload_length, secured_tag_length. lia. }
  rewrite Eb in X. eexists. eexists. exact X.
Qed.

(** ** C25 Writers stay inside what they report *)

(** [bs] exists before the buffer: what is written does not depend on the buffer's contents, and
    everything after what was written is untouched. *)
Definition stays_inside (w : list N -> bres nat * list N) : Prop :=
  exists bs, forall buf r buf', w buf = (r, buf') ->
    exists k, (k <= List.length buf)%nat /\ (k <= List.length bs)%nat /\
      buf' = firstn k bs ++ skipn k buf /\ List.length buf' = List.length buf /\
      forall n, r = Ok n -> n = k /\ n = List.length bs.

Lemma emits_inside w bs st : emits w bs st -> stays_inside w.
Proof.
  intros H. exists bs. intros buf r buf' W. destruct (H buf) as [H1 H2].
  destruct (Nat.le_gt_cases (List.length bs) (List.length buf)) as [L|L].
  - rewrite (H1 L) in W. injection W as <- <-. exists (List.length bs).
    rewrite firstn_all, app_length, skipn_length. repeat split; try lia; destruct st; try discriminate;
    match goal with H : result_of _ _ = Ok _ |- _ => cbn [result_of] in H; injection H as <-; reflexivity end.
  - destruct (H2 L) as (k & Hk & Ek). rewrite Ek in W. injection W as <- <-.
    exists k. rewrite app_length, firstn_length, skipn_length. repeat split; try lia; discriminate.
Qed.

Theorem C25_header_write : forall h (sc : option (SecurityContext K)), header_ok h ->
  stays_inside (try_write_header c h sc).
Proof. intros h sc H. eapply emits_inside, emits_header, H. Qed.

Theorem C25_content_write : forall ct, content_ok ct -> stays_inside (try_write_content ct).
Proof. intros ct H. eapply emits_inside, emits_content, H. Qed.

Theorem C25_frame_write : forall f ctx, frame_ok f ->
  (forall sc, security_ctx ctx = Some sc -> u32_ok (sc_frame_counter sc)) ->
  stays_inside (fun buf => let r := try_write_frame c E f ctx buf in (fst r, snd (snd r))).
Proof.
  intros f [m [sc|]] Hok Hfc.
  - specialize (Hfc sc eq_refl). destruct (write_plan E (native c) m sc f) as [[bs st] used] eqn:P.
    exists bs. intros buf r buf' W.
    change {| footer_mode := m; security_ctx := Some sc |} with (ser_ctx m sc) in W.
    pose proof (C27_secured_write_exact f m sc bs st used Hok Hfc P buf) as X.
    destruct (Nat.leb_spec (List.length bs) (List.length buf)) as [L|L].
    + rewrite X in W. cbn [fst snd] in W. injection W as <- <-. exists (List.length bs).
      rewrite firstn_all, app_length, skipn_length. repeat split; try lia; destruct st; congruence.
    + destruct X as (k & Hk & _ & _ & X). rewrite X in W. cbn [fst snd] in W. injection W as <- <-.
      exists k. rewrite app_length, firstn_length, skipn_length. repeat split; try lia; discriminate.
  - destruct (emits_inside _ _ _ (emits_plain (K := K) c f m Hok)) as [bs Hbs]. exists bs.
    intros buf r buf' W. apply Hbs.
    change {| footer_mode := m; security_ctx := None |} with (plain_ctx (K := K) m) in W.
    rewrite try_write_plain in W. cbn [fst snd] in W. rewrite <- W. now destruct (plain_writer c f m buf).
Qed.

(** ** C40 Writing panics only in characterised cases *)
Theorem C40_write_panics_iff : forall f m osc buf, frame_ok f ->
  (forall sc, osc = Some sc -> u32_ok (sc_frame_counter sc)) ->
  (fst (try_write_frame c E f {| footer_mode := m; security_ctx := osc |} buf) = Panic <->
   m = Footer_Explicit /\ compression_allowed (header f) /\
   exists sc, osc = Some sc /\
     (List.length (wire_front (native c) (sc_frame_counter sc) f) <= List.length buf)%nat).
Proof.
  intros f m [sc|] buf Hok Hfc.
  - specialize (Hfc sc eq_refl).
    change {| footer_mode := m; security_ctx := Some sc |} with (ser_ctx m sc).
    destruct (write_plan E (native c) m sc f) as [[bs st] used] eqn:P.
    pose proof (C27_secured_write_exact f m sc bs st used Hok Hfc P buf) as X.
    unfold write_plan in P. rewrite compression_ok_plan in P. rewrite <- compression_ok_iff.
    destruct (compression_ok (header f)); cbn [negb] in P.
    2:{ apply triple_inj in P; destruct P as (<- & <- & <-). split; [|intros (_ & ? & _); discriminate].
        destruct (_ <=? _)%nat in X; [rewrite X; discriminate|]. destruct X as (k & _ & _ & _ & ->). discriminate. }
    destruct m.
    + assert (st <> Panic).
      { destruct (auxiliary_security_header (header f)) as [a|]; [|congruence].
        repeat match type of P with
               | (if ?x then _ else _) = _ => destruct x; [congruence|]
               | match ?x with Some _ => _ | None => _ end = _ => destruct x as [[]|]; [|congruence]
               end. congruence. }
      split; [|intros (? & _); discriminate].
      destruct (_ <=? _)%nat in X; [rewrite X; destruct st; cbn; congruence|].
      destruct X as (k & _ & _ & _ & ->). discriminate.
    + apply triple_inj in P; destruct P as (<- & <- & <-).
      destruct (Nat.leb_spec (List.length (wire_front (native c) (sc_frame_counter sc) f)) (List.length buf)) as [L|L].
      * rewrite X. split; [|reflexivity]. intros _. repeat split. eauto.
      * destruct X as (k & _ & _ & _ & ->). split; [discriminate|]. intros (_ & _ & sc' & Es & L').
        injection Es as <-. lia.
  - split.
    + intros P. exfalso. revert P.
      change (fst (write_plain (K := K) c E f m buf) = Panic -> False).
      now apply C26_plain_write_never_panics.
    + intros (_ & _ & sc & ? & _). discriminate.
Qed.

(** ** C31 Secured frames fit a PHY packet *)
Theorem C31_secured_frame_fits : forall f m sc buf n r, frame_ok f -> u32_ok (sc_frame_counter sc) ->
  frame_consistent f -> auxiliary_security_header (header f) <> None ->
  try_write_frame c E f (ser_ctx m sc) buf = (Ok n, r) -> (n + 2 <= 127)%nat.
Proof.
  intros f m sc buf n [ctx' buf'] Hok Hfc Hcon Ha W.
  destruct (write_ok_inv f m sc buf n ctx' buf' Hok Hfc W) as (bs & used & P & L & -> & -> & -> & F).
  apply plan_ok in P. destruct P as (Hca & -> & P).
  destruct (auxiliary_security_header (header f)) as [a|] eqn:Ea; [|congruence].
  destruct P as (Ht & Lest & P).
  assert (Lf : List.length (wire_front (native c) (sc_frame_counter sc) f) = (mhr_len (header f) + aux_len a)%nat).
  { unfold wire_front. apply compression_ok_iff in Hca. rewrite wire_sent_mhr, Ea by assumption.
    unfold frame_consistent in Hcon. rewrite Ht in Hcon.
    destruct (content f); try discriminate. cbn [wire_content].
    rewrite !app_length, wire_mhr_length, wire_aux_length. cbn [List.length aux_len key_identifier]. unfold aux_len. cbn. lia. }
  unfold length_estimate in Lest.
  destruct (level_is_none _).
  - destruct P as [-> _]. rewrite app_length, Lf. lia.
  - destruct P as (_ & _ & _ & eui & key & _ & ->).
    rewrite !app_length, secured_payload_length, secured_tag_length, Lf. lia.
Qed.

(** Longer ones are refused, and neither the context nor the payload area is touched. *)
Theorem C31_too_long_refused : forall f sc a buf, frame_ok f -> u32_ok (sc_frame_counter sc) ->
  auxiliary_security_header (header f) = Some a -> frame_type (header f) = Data_t ->
  compression_allowed (header f) ->
  (127 < mhr_len (header f) + aux_len a + List.length (payload f) + tag_len (security_level (control a)) + 2)%nat ->
  let front := wire_front (native c) (sc_frame_counter sc) f in
  (List.length front <= List.length buf)%nat ->
  try_write_frame c E f (ser_ctx Footer_None sc) buf
  = (Err (BadInput "FrameTooLong"),
     (ser_ctx Footer_None sc, front ++ skipn (List.length front) buf)).
Proof.
  intros f sc a buf Hok Hfc Ha Ht Hc Hl front Lb.
  destruct (write_plan E (native c) Footer_None sc f) as [[bs st] used] eqn:P.
  pose proof (C27_secured_write_exact f _ sc bs st used Hok Hfc P buf) as X.
  unfold write_plan in P. apply compression_ok_iff in Hc. rewrite compression_ok_plan, Hc, Ha in P.
  cbn [negb] in P. unfold is_data in P. rewrite Ht in P. cbn [negb] in P.
  replace (127 <? length_estimate f a)%nat with true in P
    by (symmetry; apply Nat.ltb_lt; unfold length_estimate; lia).
  apply triple_inj in P; destruct P as (<- & <- & <-). fold front in X.
  replace (List.length front <=? List.length buf)%nat with true in X by (symmetry; apply Nat.leb_le; lia).
  exact X.
Qed.

(** With PAN-ID compression the limit bites two octets early. *)
Theorem C31_compressed_refused_early : forall f sc a buf, frame_ok f -> u32_ok (sc_frame_counter sc) ->
  auxiliary_security_header (header f) = Some a -> frame_type (header f) = Data_t ->
  compression_allowed (header f) -> pan_id_compress (header f) = true ->
  (125 < mhr_len (header f) + aux_len a + List.length (payload f) + tag_len (security_level (control a)) + 2)%nat ->
  let front := wire_front (native c) (sc_frame_counter sc) f in
  (List.length front <= List.length buf)%nat ->
  fst (try_write_frame c E f (ser_ctx Footer_None sc) buf) = Err (BadInput "FrameTooLong").
Proof.
  intros f sc a buf Hok Hfc Ha Ht Hc Hpc Hl front Lb.
  destruct (write_plan E (native c) Footer_None sc f) as [[bs st] used] eqn:P.
  pose proof (C27_secured_write_exact f _ sc bs st used Hok Hfc P buf) as X.
  unfold write_plan in P. apply compression_ok_iff in Hc. rewrite compression_ok_plan, Hc, Ha in P.
  cbn [negb] in P. unfold is_data in P. rewrite Ht in P. cbn [negb] in P.
  replace (127 <? length_estimate f a)%nat with true in P
    by (symmetry; apply Nat.ltb_lt; unfold length_estimate; rewrite Hpc; lia).
  apply triple_inj in P; destruct P as (<- & <- & <-). fold front in X.
  replace (List.length front <=? List.length buf)%nat with true in X by (symmetry; apply Nat.leb_le; lia).
  now rewrite X.
Qed.

(** ** C42 (sending) Security level semantics *)
Theorem C42_level_none_written_in_clear : forall f m sc a buf n ctx' buf', frame_ok f ->
  u32_ok (sc_frame_counter sc) ->
  auxiliary_security_header (header f) = Some a -> security_level (control a) = SL_None ->
  try_write_frame c E f (ser_ctx m sc) buf = (Ok n, (ctx', buf')) ->
  firstn n buf' = wire_front (native c) (sc_frame_counter sc) f ++ payload f /\ ctx' = ser_ctx m sc.
Proof.
  intros f m sc a buf n ctx' buf' Hok Hfc Ha Hl W.
  destruct (write_ok_inv f m sc buf n ctx' buf' Hok Hfc W) as (bs & used & P & _ & _ & -> & _ & ->).
  apply plan_ok in P. rewrite Ha, Hl in P. destruct P as (_ & _ & _ & _ & P). cbn in P.
  destruct P as [-> ->]. auto.
Qed.

Theorem C42_enc_never_written : forall f m sc a buf, frame_ok f -> u32_ok (sc_frame_counter sc) ->
  auxiliary_security_header (header f) = Some a -> security_level (control a) = SL_ENC ->
  forall n, fst (try_write_frame c E f (ser_ctx m sc) buf) <> Ok n.
Proof.
  intros f m sc a buf Hok Hfc Ha Hl n W.
  destruct (try_write_frame c E f (ser_ctx m sc) buf) as [r [ctx' buf']] eqn:X. cbn [fst] in W. subst r.
  destruct (write_ok_inv f m sc buf n ctx' buf' Hok Hfc X) as (bs & used & P & _).
  apply plan_ok in P. rewrite Ha, Hl in P. destruct P as (_ & _ & _ & _ & P). cbn in P.
  destruct P as [? _]. discriminate.
Qed.

Theorem C42_tag_length : forall l, mic_octet_size l =
  match level_code l with 1%N | 5%N => 4 | 2%N | 6%N => 8 | 3%N | 7%N => 16 | _ => 0 end%nat.
Proof. intros []; reflexivity. Qed.

(** ** C50 Sender state on failed writes *)

(** Exactly when a write uses up a frame counter (whatever the outcome), and that it changes
    nothing else in the context. *)
Theorem C50_counter_use_exact : forall f m sc buf, frame_ok f -> u32_ok (sc_frame_counter sc) ->
  fst (snd (try_write_frame c E f (ser_ctx m sc) buf))
  = ser_ctx m
      (if match m, auxiliary_security_header (header f) with
          | Footer_None, Some a =>
              (negb (pan_id_compress (header f)) || is_some (destination (header f)) && is_some (source (header f)))
              && is_data (header f) && (length_estimate f a <=? 127)%nat
              && negb (level_is_none (security_level (control a)))
              && negb (sc_frame_counter sc =? last_counter)
              && (List.length (wire_front (native c) (sc_frame_counter sc) f) + List.length (payload f)
                  <=? List.length buf)%nat
          | _, _ => false
          end
       then advanced sc else sc).
Proof.
  intros f m sc buf Hok Hfc.
  destruct (write_plan E (native c) m sc f) as [[bs st] used] eqn:P.
  pose proof (C27_secured_write_exact f m sc bs st used Hok Hfc P buf) as X.
  assert (Y : fst (snd (try_write_frame c E f (ser_ctx m sc) buf))
    = ser_ctx m (if used && (List.length (wire_front (native c) (sc_frame_counter sc) f) + List.length (payload f)
                  <=? List.length buf)%nat then advanced sc else sc)).
  { destruct (Nat.leb_spec (List.length bs) (List.length buf)) as [L|L].
    - rewrite X. cbn [fst snd]. destruct used; [|reflexivity].
      assert (LB : (List.length (wire_front (native c) (sc_frame_counter sc) f) + List.length (payload f)
                    <= List.length bs)%nat).
      { clear X L. unfold write_plan in P.
        repeat match type of P with
               | (if ?x then _ else _) = _ => destruct x; [try (apply triple_inj in P; destruct P as (_ & _ & P); discriminate P)|]
               | match ?x with Footer_None => _ | _ => _ end = _ => destruct x; [|try (apply triple_inj in P; destruct P as (_ & _ & P); discriminate P)]
               | match ?x with Some _ => _ | None => _ end = _ => destruct x as [?|]; [|try (apply triple_inj in P; destruct P as (_ & _ & P); discriminate P)]
               | (let (_, _) := ?x in _) = _ => destruct x
               end; apply triple_inj in P; destruct P as (<- & _ & P); try discriminate P; rewrite !app_length, ?secured_payload_length; lia. }
      replace (_ <=? _)%nat with true by (symmetry; apply Nat.leb_le; lia). reflexivity.
    - destruct X as (k & _ & _ & _ & ->). reflexivity. }
  rewrite Y. f_equal. clear X Y. unfold write_plan in P.
  replace (pan_id_compress (header f) && negb (is_some (destination (header f)) && is_some (source (header f))))
    with (negb (negb (pan_id_compress (header f)) || is_some (destination (header f)) && is_some (source (header f)))) in P
    by (destruct (pan_id_compress (header f)), (is_some (destination (header f))), (is_some (source (header f))); reflexivity).
  destruct (negb (pan_id_compress (header f)) || is_some (destination (header f)) && is_some (source (header f)));
    cbn [negb andb] in *.
  2:{ apply triple_inj in P; destruct P as (<- & <- & <-). destruct m; [|reflexivity]. now destruct (auxiliary_security_header (header f)). }
  destruct m; [|apply triple_inj in P; destruct P as (<- & <- & <-); reflexivity].
  destruct (auxiliary_security_header (header f)) as [a|]; [|apply triple_inj in P; destruct P as (<- & <- & <-); reflexivity].
  destruct (is_data (header f)); cbn [negb andb] in *; [|apply triple_inj in P; destruct P as (<- & <- & <-); reflexivity].
  rewrite Nat.ltb_antisym in P. destruct (length_estimate f a <=? 127)%nat; cbn [negb andb] in *; [|apply triple_inj in P; destruct P as (<- & <- & <-); reflexivity].
  destruct (level_is_none _); cbn [negb andb]; [apply triple_inj in P; destruct P as (<- & <- & <-); reflexivity|].
  destruct (sc_frame_counter sc =? last_counter); cbn [negb andb]; [apply triple_inj in P; destruct P as (<- & <- & <-); reflexivity|].
  destruct (sc_key_provider sc DstAddrMode (key_identifier a) (destination (header f))) as [[x key]|];
    [|apply triple_inj in P; destruct P as (<- & <- & <-); reflexivity].
  destruct (level_is_enc _); apply triple_inj in P; destruct P as (<- & <- & <-); reflexivity.
Qed.


(** By the error reported: these leave the context as it was... *)
Theorem C50_failures_before_counter : forall f m sc buf ctx' buf' e, frame_ok f -> u32_ok (sc_frame_counter sc) ->
  try_write_frame c E f (ser_ctx m sc) buf = (Err e, (ctx', buf')) ->
  In e [BadInput "DisallowedPanIdCompress"; BadInput "FrameTooLong"; BadInput "CounterError"] \/
  frame_type (header f) <> Data_t \/
  (List.length buf < List.length (wire_front (native c) (sc_frame_counter sc) f) + List.length (payload f))%nat ->
  ctx' = ser_ctx m sc.
Proof.
  intros f m sc buf ctx' buf' e Hok Hfc W H.
  pose proof (C50_counter_use_exact f m sc buf Hok Hfc) as X. rewrite W in X. cbn [fst snd] in X.
  destruct (write_inv f m sc buf _ ctx' buf' Hok Hfc W) as (bs & st & used & P & Q).
  destruct H as [H|[H|H]].
  - destruct Q as [Q|Q].
    + destruct Q as (_ & R & -> & _). f_equal. destruct used; [|reflexivity]. exfalso.
      unfold write_plan in P.
      repeat match type of P with
               | (if ?x then _ else _) = _ => destruct x; [try (apply triple_inj in P; destruct P as (_ & _ & P); discriminate P)|]
               | match ?x with Footer_None => _ | _ => _ end = _ => destruct x; [|try (apply triple_inj in P; destruct P as (_ & _ & P); discriminate P)]
               | match ?x with Some _ => _ | None => _ end = _ => destruct x as [?|]; [|try (apply triple_inj in P; destruct P as (_ & _ & P); discriminate P)]
               | (let (_, _) := ?x in _) = _ => destruct x
               end; apply triple_inj in P; destruct P as (_ & <- & P); try discriminate P; cbn [result_of] in R;
        try discriminate R; injection R as ->; cbn [In] in H; intuition discriminate.
    + destruct Q as (_ & R & _). injection R as ->. cbn [In] in H. intuition discriminate.
  - rewrite X. f_equal. destruct m; [|reflexivity]. destruct (auxiliary_security_header (header f)); [|reflexivity].
    replace (is_data (header f)) with false by (unfold is_data; destruct (frame_type (header f)); easy).
    now rewrite andb_false_r.
  - rewrite X. f_equal. destruct m; [|reflexivity]. destruct (auxiliary_security_header (header f)); [|reflexivity].
    replace (_ + _ <=? List.length buf)%nat with false by (symmetry; apply Nat.leb_gt; exact H).
    now rewrite andb_false_r.
Qed.

(** ... and a failed key lookup uses up a counter. *)
Theorem C50_key_failure_uses_counter : forall f m sc buf ctx' buf', frame_ok f -> u32_ok (sc_frame_counter sc) ->
  try_write_frame c E f (ser_ctx m sc) buf = (Err (BadInput "UnavailableKey"), (ctx', buf')) ->
  ctx' = ser_ctx m (advanced sc).
Proof.
  intros f m sc buf ctx' buf' Hok Hfc W.
  destruct (write_inv f m sc buf _ ctx' buf' Hok Hfc W) as (bs & st & used & P & [Q|Q]).
  - destruct Q as (_ & R & -> & _). f_equal. replace used with true; [reflexivity|].
    unfold write_plan in P.
    repeat match type of P with
               | (if ?x then _ else _) = _ => destruct x
               | match ?x with Footer_None => _ | _ => _ end = _ => destruct x
               | match ?x with Some _ => _ | None => _ end = _ => destruct x as [?|]
               | (let (_, _) := ?x in _) = _ => destruct x
               end; apply triple_inj in P; destruct P as (_ & <- & P); cbn [result_of] in R; congruence.
  - destruct Q as (_ & R & _). discriminate.
Qed.

(** ** C47 (secured writing) *)
Theorem C47_secured_write_errors : forall f m sc buf e, frame_ok f -> u32_ok (sc_frame_counter sc) ->
  fst (try_write_frame c E f (ser_ctx m sc) buf) = Err e ->
  In e [Incomplete; BadInput "DisallowedPanIdCompress"; BadInput "NotImplemented"; BadInput "FrameTooLong";
        BadInput "CounterError"; BadInput "UnavailableKey"].
Proof.
  intros f m sc buf e Hok Hfc W.
  destruct (try_write_frame c E f (ser_ctx m sc) buf) as [r [ctx' buf']] eqn:X. cbn [fst] in W. subst r.
  destruct (write_inv f m sc buf _ ctx' buf' Hok Hfc X) as (bs & st & used & P & [Q|Q]).
  - destruct Q as (_ & R & _). unfold write_plan in P.
    repeat match type of P with
               | (if ?x then _ else _) = _ => destruct x
               | match ?x with Footer_None => _ | _ => _ end = _ => destruct x
               | match ?x with Some _ => _ | None => _ end = _ => destruct x as [?|]
               | (let (_, _) := ?x in _) = _ => destruct x
               end; apply triple_inj in P; destruct P as (_ & <- & P); cbn [result_of] in R; try discriminate R;
      injection R as ->; cbn [In]; tauto.
  - destruct Q as (_ & R & _). injection R as ->. cbn [In]. tauto.
Qed.

(** ** C44 (securing) Key lookups use the right end *)
Definition with_provider (kp : KeyLookup K) (sc : SecurityContext K) : SecurityContext K :=
  {| sc_euid := sc_euid sc; sc_frame_counter := sc_frame_counter sc; sc_key_provider := kp |}.

Theorem C44_securing_key_query : forall f m sc kp buf,
  (forall a, auxiliary_security_header (header f) = Some a ->
     kp DstAddrMode (key_identifier a) (destination (header f))
     = sc_key_provider sc DstAddrMode (key_identifier a) (destination (header f))) ->
  forall r sc' buf',
  try_write_frame c E f (ser_ctx m sc) buf = (r, (ser_ctx m sc', buf')) ->
  try_write_frame c E f (ser_ctx m (with_provider kp sc)) buf = (r, (ser_ctx m (with_provider kp sc'), buf')).
Proof.
  intros f m sc kp buf Hkp r sc' buf'.
  assert (SF : forall tl, secure_frame c E f (with_provider kp sc) m tl
    = let '(r, (sc1, b)) := secure_frame c E f sc m tl in (r, (with_provider kp sc1, b))).
  { intros tl. unfold secure_frame. destruct m; [|reflexivity].
    destruct (has_security (header f)); [|reflexivity].
    destruct (frame_type (header f)); try reflexivity.
    destruct (auxiliary_security_header (header f)) as [a|]; [|reflexivity].
    specialize (Hkp a eq_refl).
    destruct (negb _); [reflexivity|].
    destruct (write_with (write_slice (payload f)) (tl, 0%nat)) as [[[]|e|] [b o]]; try reflexivity.
    cbn [with_provider sc_frame_counter sc_euid].
    assert (X : forall A B (x y : A) (F : A -> B), F (match security_level (control a) with SL_None => x | _ => y end)
      = match security_level (control a) with SL_None => F x | _ => F y end)
      by (intros; now destruct (security_level (control a))).
    destruct (match security_level (control a) with SL_None => true | _ => false end) eqn:El.
    { destruct (security_level (control a)); try discriminate. reflexivity. }
    assert (Y : forall A (x y : A), match security_level (control a) with SL_None => x | _ => y end = y)
      by (intros; destruct (security_level (control a)); [discriminate|reflexivity..]).
    rewrite !Y. clear X Y El.
    destruct (sc_frame_counter sc =? 4294967295); [reflexivity|].
    destruct (u32_add c (sc_frame_counter sc) 1) as [fc| |]; [|reflexivity..].
    cbn [set_sc_frame_counter with_provider sc_key_provider sc_euid sc_frame_counter]. rewrite Hkp.
    destruct (sc_key_provider sc DstAddrMode (key_identifier a) (destination (header f))) as [[x key]|]; [|reflexivity].
    destruct (level_use _); [|reflexivity].
    destruct (o <=? List.length b)%nat; [|reflexivity].
    destruct (do_secure _ _ _ _ _ _) as [[data tag]|]; [|reflexivity].
    destruct (write_with (write_slice tag) (data ++ skipn o b, o)) as [[[]|e|] [b' o']]; reflexivity. }
  unfold try_write_frame. cbn [ser_ctx security_ctx footer_mode].
  change (try_write_header c (header f) (Some (with_provider kp sc)))
    with (try_write_header c (header f) (Some sc)).
  destruct ((write_with (try_write_header c (header f) (Some sc)) >> write_with (try_write_content (content f)))
    (buf, 0%nat)) as [[[]|e|] [b o]].
  2,3: (intros W; injection W as <- <- <-; reflexivity).
  destruct (o <=? List.length b)%nat; [|intros W; injection W as <- <- <-; reflexivity].
  rewrite SF. destruct (secure_frame c E f sc m (skipn o b)) as [r1 [sc1 tl]].
  destruct r1 as [len|e|].
  - destruct (write_tail f m true (firstn o b ++ tl, (o + len)%nat)) as [[[]|e|] [b' o']];
      intros W; injection W as <- <- <-; reflexivity.
  - destruct e; try (intros W; injection W as <- <- <-; reflexivity).
    destruct (write_tail f m false (firstn o b ++ tl, o)) as [[[]|e|] [b' o']];
      intros W; injection W as <- <- <-; reflexivity.
  - intros W; injection W as <- <- <-; reflexivity.
Qed.

End Secure.

(** ** C31: content that does not match the frame type is not counted *)
Definition oversized_frame : Frame :=
  {| header := mk_header Data_t false false false Ieee802154
        (Some (Extended 0x111 0x02)) (Some (Extended 0x111 0x01)) 127
        (Some (AuxiliarySecurityHeader_new (SecurityControl_new SL_MIC32) None));
     content := FC_Command DataRequest; payload := repeat 7 93; footer := (0, 0) |}.
Theorem C31_fits_without_matching_content_refuted : exists buf n r,
  frame_ok oversized_frame /\
  try_write_frame host aes_cipher oversized_frame (aes_ctx 1 0) buf = (Ok n, r) /\ (127 < n + 2)%nat.
Proof.
  exists (repeat 0 200). eexists. eexists. split; [repeat split; try reflexivity; cbn; repeat constructor|].
  split; [vm_compute; reflexivity|]. lia.
Qed.

(** ** C41 Wire bytes and the host *)

(** The build's overflow checks and pointer width never matter to writing; the byte order
    matters only to frames with an auxiliary security header. *)
Theorem C41_write_host_independent : forall K (E : block_cipher K) c1 c2 f m sc buf, cipher_ok E ->
  frame_ok f -> u32_ok (sc_frame_counter sc) ->
  native c1 = native c2 \/ auxiliary_security_header (header f) = None ->
  let r1 := try_write_frame c1 E f (ser_ctx m sc) buf in
  let r2 := try_write_frame c2 E f (ser_ctx m sc) buf in
  fst r1 = fst r2 /\ fst (snd r1) = fst (snd r2) /\
  (forall n, fst r1 = Ok n -> snd (snd r1) = snd (snd r2)).
Proof.
  intros K E c1 c2 f m sc buf HE Hok Hfc Hn.
  assert (F : wire_front (native c1) (sc_frame_counter sc) f = wire_front (native c2) (sc_frame_counter sc) f).
  { destruct Hn as [->|Ha]; [reflexivity|]. unfold wire_front. f_equal. apply wire_header_plain.
    unfold header_sent. cbn. now rewrite Ha. }
  assert (P : write_plan E (native c1) m sc f = write_plan E (native c2) m sc f).
  { unfold write_plan. now rewrite F. }
  destruct (write_plan E (native c2) m sc f) as [[bs st] used] eqn:P2.
  pose proof (C27_secured_write_exact c1 E HE f m sc bs st used Hok Hfc P buf) as X1.
  pose proof (C27_secured_write_exact c2 E HE f m sc bs st used Hok Hfc P2 buf) as X2.
  rewrite F in X1. destruct (_ <=? _)%nat.
  - rewrite X1, X2. cbn [fst snd]. auto.
  - destruct X1 as (k1 & _ & _ & _ & ->), X2 as (k2 & _ & _ & _ & ->). cbn [fst snd]. repeat split. discriminate.
Qed.

(** The frame counter with its four octets in the opposite order. *)
Definition swapped (fc : N) : N :=
  fc / 2 ^ 24 mod 2 ^ 8 + 2 ^ 8 * (fc / 2 ^ 16 mod 2 ^ 8)
  + 2 ^ 16 * (fc / 2 ^ 8 mod 2 ^ 8) + 2 ^ 24 * (fc mod 2 ^ 8).

Lemma swapped_num fc : swapped fc = num_val LE (be 4 fc).
Proof.
  unfold swapped, be, le. cbn [num_val List.seq map rev app le_val].
  change (256 ^ N.of_nat 0) with 1. change (256 ^ N.of_nat 1) with 256.
  change (256 ^ N.of_nat 2) with 65536. change (256 ^ N.of_nat 3) with 16777216.
  change (2 ^ 8) with 256. change (2 ^ 16) with 65536. change (2 ^ 24) with 16777216.
  rewrite N.div_1_r.
  generalize (fc / 16777216 mod 256) (fc / 65536 mod 256) (fc / 256 mod 256) (fc mod 256). intros. lia.
Qed.

(** On a big-endian host a written header reads back with its counter's octets reversed. *)
Theorem C41_big_endian_counter_misread : forall K c h (sc : SecurityContext K) buf n buf', native c = BE ->
  header_ok h -> u32_ok (sc_frame_counter sc) -> auxiliary_security_header h <> None ->
  try_write_header c h (Some sc) buf = (Ok n, buf') ->
  try_read_header c (firstn n buf') = Ok (header_sent (swapped (sc_frame_counter sc)) h, n).
Proof.
  intros K c h sc buf n buf' Hn Hok Hfc Ha W.
  destruct (write_ok_program c h (Some sc) buf n buf' Hok W) as [Hc _].
  destruct (C01_header_wire_layout c h (Some sc) buf n buf' Hok W) as (Eb & En & _).
  cbn [counter_of] in *. set (fc := sc_frame_counter sc) in *.
  assert (Ew : wire_header (native c) (native c) false 0 (header_sent fc h)
               = wire_header LE BE false 0 (header_sent (swapped fc) h)).
  { rewrite Hn, !wire_sent_mhr by assumption. destruct (auxiliary_security_header h) as [a|]; [|reflexivity].
    f_equal. unfold wire_aux, aux_sent. cbn [control security_level key_identifier frame_counter]. do 2 f_equal.
    cbn [in_order]. rewrite swapped_num. symmetry. apply (in_order_num_val LE).
    - unfold be. apply octets_rev, octets_le.
    - apply be_length. }
  assert (Hs : swapped fc < 2 ^ 32).
  { rewrite swapped_num. apply (num_val_bound LE _ 4); [unfold be; apply octets_rev, octets_le|apply be_length]. }
  assert (Hd : header_decoded (header_sent (swapped fc) h)).
  { apply header_sent_decoded; assumption. }
  rewrite Eb, En, firstn_app_exact. rewrite <- (app_nil_r (wire_header _ _ _ _ _)) at 1.
  rewrite Ew. rewrite wire_header_length. rewrite <- Hn. now apply try_read_header_complete.
Qed.

Definition big_endian : cfg := {| overflow_checks := true; native := BE; usize_bits := 32 |}.
Definition written_bytes (r : bres nat * (FrameSerDesContext (list N) * list N)) : list N :=
  match r with (Ok n, (_, b)) => firstn n b | _ => [] end.

(** So secured frames differ between hosts, and a big-endian host refuses its own frames. *)
Theorem C41_secured_bytes_host_independent_refuted :
  let le_bytes := written_bytes (try_write_frame host aes_cipher doc_frame (aes_ctx 1 1) (repeat 0 128)) in
  let be_bytes := written_bytes (try_write_frame big_endian aes_cipher doc_frame (aes_ctx 1 1) (repeat 0 128)) in
  frame_ok doc_frame /\ List.length le_bytes = 58%nat /\ List.length be_bytes = 58%nat /\
  le_bytes <> be_bytes /\
  fst (try_read_and_unsecure big_endian aes_cipher be_bytes (aes_ctx 1 2) basic_dev_lookup (dev 1))
  = Err TransformationError.
Proof.
  cbv zeta. split; [repeat split; try reflexivity; cbn; repeat constructor|].
  vm_compute. repeat split. discriminate.
Qed.

(** ** Concrete cases: the hypotheses above are met *)

Lemma doc_frame_ok : frame_ok doc_frame.
Proof. repeat split; try reflexivity; cbn; repeat constructor. Qed.

(** Frames of every level, with or without PAN-ID compression, from 1 to 2. *)
Definition level_frame (l : SecurityLevel) (compress : bool) (p : list N) : Frame :=
  {| header := mk_header Data_t false true compress Ieee802154_2006
        (Some (Extended 0x111 0x02)) (Some (Extended 0x111 0x01)) 9
        (Some (AuxiliarySecurityHeader_new (SecurityControl_new l)
           (Some {| key_source := None; key_index := 3 |})));
     content := FC_Data; payload := p; footer := (0, 0) |}.
Lemma level_frame_ok l b p : octets p -> frame_ok (level_frame l b p).
Proof. intros H. repeat split; try reflexivity. exact H. Qed.

Definition no_key : KeyLookup (list N) := fun _ _ _ => None.
Definition keyless_ctx fc : FrameSerDesContext (list N) :=
  ser_ctx Footer_None (SecurityContext_new 1 fc no_key).
Definition counter_left (r : bres nat * (FrameSerDesContext (list N) * list N)) : bres nat * option N :=
  (fst r, option_map sc_frame_counter (security_ctx (fst (snd r)))).

Example secured_writes :
  (* every authenticated level succeeds and uses a counter; None uses none; ENC fails *)
  map (fun l => counter_left (try_write_frame host aes_cipher (level_frame l false [1;2;3]) (aes_ctx 1 41) (repeat 0 60)))
    [SL_None; SL_MIC32; SL_MIC64; SL_MIC128; SL_ENC; SL_ENCMIC32; SL_ENCMIC64; SL_ENCMIC128]
  = [(Ok 32%nat, Some 41); (Ok 36%nat, Some 42); (Ok 40%nat, Some 42); (Ok 48%nat, Some 42);
     (Err (BadInput "NotImplemented"), Some 42); (Ok 36%nat, Some 42); (Ok 40%nat, Some 42); (Ok 48%nat, Some 42)] /\
  (* too long: 23 + 6 + 92 + 4 + 2 = 127 fits, one more does not, two fewer with compression *)
  map (fun n => counter_left (try_write_frame host aes_cipher (level_frame SL_MIC32 false (repeat 5 n)) (aes_ctx 1 41) (repeat 0 200)))
    [92%nat; 93%nat] = [(Ok 125%nat, Some 42); (Err (BadInput "FrameTooLong"), Some 41)] /\
  map (fun n => counter_left (try_write_frame host aes_cipher (level_frame SL_MIC32 true (repeat 5 n)) (aes_ctx 1 41) (repeat 0 200)))
    [92%nat; 93%nat] = [(Ok 123%nat, Some 42); (Err (BadInput "FrameTooLong"), Some 41)] /\
  (* counter exhausted; no key; no room for the tag; no room for the payload *)
  counter_left (try_write_frame host aes_cipher (level_frame SL_MIC32 false [1;2;3]) (aes_ctx 1 0xFFFFFFFF) (repeat 0 60))
    = (Err (BadInput "CounterError"), Some 0xFFFFFFFF) /\
  counter_left (try_write_frame host aes_cipher (level_frame SL_MIC32 false [1;2;3]) (keyless_ctx 41) (repeat 0 60))
    = (Err (BadInput "UnavailableKey"), Some 42) /\
  counter_left (try_write_frame host aes_cipher (level_frame SL_MIC32 false [1;2;3]) (aes_ctx 1 41) (repeat 0 34))
    = (Err Incomplete, Some 42) /\
  counter_left (try_write_frame host aes_cipher (level_frame SL_MIC32 false [1;2;3]) (aes_ctx 1 41) (repeat 0 31))
    = (Err Incomplete, Some 41) /\
  (* an explicit footer panics even without security *)
  fst (try_write_frame host aes_cipher sample_plain
         {| footer_mode := Footer_Explicit; security_ctx := security_ctx (aes_ctx 1 41) |} (repeat 0 60)) = Panic /\
  auxiliary_security_header (header sample_plain) = None.
Proof. vm_compute. repeat split. Qed.

Print Assumptions C25_header_write.
Print Assumptions C25_content_write.
Print Assumptions C25_frame_write.
Print Assumptions C27_secured_write_exact.
Print Assumptions C27_secured_frame_layout.
Print Assumptions C27_secured_write_succeeds.
Print Assumptions C31_secured_frame_fits.
Print Assumptions C31_too_long_refused.
Print Assumptions C31_compressed_refused_early.
Print Assumptions C31_fits_without_matching_content_refuted.
Print Assumptions C40_write_panics_iff.
Print Assumptions C41_write_host_independent.
Print Assumptions C41_big_endian_counter_misread.
Print Assumptions C41_secured_bytes_host_independent_refuted.
Print Assumptions C42_level_none_written_in_clear.
Print Assumptions C42_enc_never_written.
Print Assumptions C42_tag_length.
Print Assumptions C44_securing_key_query.
Print Assumptions C47_secured_write_errors.
Print Assumptions C50_counter_use_exact.
Print Assumptions C50_failures_before_counter.
Print Assumptions C50_key_failure_uses_counter.
