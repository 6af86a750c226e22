(** Property C91: everything a write does, for every frame, context and buffer (and the part of
    C41 that needs it). *)
From Coq Require Import List Arith NArith ZArith Bool String Lia ZifyBool ZifyNat ZifyN.
From Verif Require Import ByteCrate Types HeaderModel BeaconModel CommandModel CcmModel FrameModel
  Aes128 Spec SecSpec WriteSpec ProofLib HeaderProofs HeaderReadProofs BeaconProofs CommandProofs
  FrameProofs CcmProofs AesProofs SecureProofs WriteProofs RepoTests PropContent PropSecure.
Import ListNotations.
Open Scope N_scope.
Open Scope list_scope.

(** * About the specification: [whole] *)

(** It is the size of some first fields, and the next field no longer fits. *)
Lemma whole_spec ss : forall n, exists j, (j <= List.length ss)%nat /\
  whole n ss = list_sum (firstn j ss) /\ (list_sum (firstn j ss) <= n)%nat /\
  ((j < List.length ss)%nat -> (n < list_sum (firstn (S j) ss))%nat).
Proof.
  induction ss as [|s ss IH]; intros n; cbn [whole].
  - exists 0%nat. cbn. repeat split; lia.
  - destruct (Nat.leb_spec s n) as [H|H].
    + destruct (IH (n - s)%nat) as (j & J1 & J2 & J3 & J4). exists (S j). cbn [List.length].
      change (firstn (S j) (s :: ss)) with (s :: firstn j ss).
      change (firstn (S (S j)) (s :: ss)) with (s :: firstn (S j) ss).
      change (list_sum (s :: firstn j ss)) with (s + list_sum (firstn j ss))%nat.
      change (list_sum (s :: firstn (S j) ss)) with (s + list_sum (firstn (S j) ss))%nat.
      split; [lia|]. split; [lia|]. split; [lia|]. intros X. specialize (J4 ltac:(lia)). lia.
    + exists 0%nat. cbn [firstn]. change (list_sum [s]) with (s + 0)%nat.
      change (list_sum []) with 0%nat. cbn [List.length]. repeat split; lia.
Qed.

(** The sizes of the fields add up to the size of the octets. *)
Lemma header_fields_len h : list_sum (header_fields h) = header_len h.
Proof.
  unfold header_fields, header_len, mhr_len, dest_len, source_len, aux_len, key_len, address_fields, aux_fields.
  destruct (destination h) as [[]|], (source h) as [[]|], (pan_id_compress h),
    (auxiliary_security_header h) as [a|]; try destruct (key_identifier a) as [[[[]|] ?]|]; reflexivity.
Qed.

Lemma header_sent_len fc h : header_len (header_sent fc h) = header_len h.
Proof.
  unfold header_len, mhr_len, dest_len, source_len, header_sent. cbn [destination source pan_id_compress auxiliary_security_header].
  destruct (destination h) as [[]|], (source h) as [[]|], (pan_id_compress h), (auxiliary_security_header h); reflexivity.
Qed.

Lemma content_fields_len ct : content_ok ct ->
  list_sum (content_fields ct) = List.length (wire_content br_zero mr_zero ct).
Proof.
  intros H. symmetry.
  exact (proj1 (exact_emits _ _ _ _ _ (fields_content ct H) (emits_content ct H))).
Qed.

Section Write.
Context {K : Type} (c : cfg) (E : block_cipher K) (HE : cipher_ok E).

(** ** C91 Writing, exactly *)

(** The result, the context and the buffer after every write. *)
Theorem C91_write_exact : forall f ctx buf, frame_ok f -> ctx_ok ctx ->
  try_write_frame c E f ctx buf = write_outcome E (native c) f ctx buf.
Proof using HE.
  intros f [m [sc|]] buf Hok Hc.
  - exact (try_write_secured_exact c E HE f m sc buf Hok Hc).
  - exact (try_write_plain_exact c E f m buf Hok).
Qed.

Lemma plan_not_incomplete o f ctx : snd (fst (any_plan E o ctx f)) <> Err Incomplete.
Proof using.
  destruct ctx as [m [sc|]]; unfold any_plan; cbn [security_ctx footer_mode fst].
  - unfold write_plan.
    repeat match goal with
           | |- context [match m with _ => _ end] => destruct m
           | |- context [match auxiliary_security_header (header f) with _ => _ end] =>
               destruct (auxiliary_security_header (header f))
           | |- context [if ?b then _ else _] => destruct b
           | |- context [match sc_key_provider ?a ?b ?d ?e with _ => _ end] =>
               destruct (sc_key_provider a b d e) as [[? ?]|]
           end; discriminate.
  - unfold plain_plan. destruct (_ && _); [discriminate|].
    destruct (auxiliary_security_header (header f)); discriminate.
Qed.

(** A write is incomplete exactly if the buffer is smaller than what there is to write. *)
Theorem C91_incomplete_iff : forall f ctx buf, frame_ok f -> ctx_ok ctx ->
  (fst (try_write_frame c E f ctx buf) = Err Incomplete <->
   (List.length buf < List.length (fst (fst (any_plan E (native c) ctx f))))%nat).
Proof using HE.
  intros f ctx buf Hok Hc. rewrite C91_write_exact by assumption. unfold write_outcome.
  pose proof (plan_not_incomplete (native c) f ctx) as N.
  destruct (any_plan E (native c) ctx f) as [[bs st] used]. cbn [fst snd] in *.
  destruct (Nat.leb_spec (List.length bs) (List.length buf)); cbn [fst].
  - split; [|lia]. destruct st; intros X; [discriminate X|congruence|discriminate X].
  - split; auto.
Qed.

Lemma up_to_payload_eq f co ko r7 rs fc : content_ok (content f) ->
  up_to_payload f = (List.length (wire_header co ko r7 rs (header_sent fc (header f)))
     + List.length (wire_content br_zero mr_zero (content f)) + List.length (payload f))%nat.
Proof using.
  intros H. unfold up_to_payload. rewrite !list_sum_app', header_fields_len, content_fields_len by assumption.
  rewrite wire_header_length, header_sent_len. cbn [list_sum fold_right]. lia.
Qed.

Lemma frame_fields_eq m b f : frame_fields m b f
  = (header_fields (header f) ++ content_fields (content f) ++ [List.length (payload f)])
    ++ (if b
      then match auxiliary_security_header (header f) with
           | Some a => [tag_len (security_level (control a))] | None => [] end
      else [])
  ++ match m with Footer_None => [] | Footer_Explicit => [2%nat] end.
Proof using. unfold frame_fields. now rewrite <- !app_assoc. Qed.

Lemma frame_fields_sum m b f : list_sum (frame_fields m b f)
  = (up_to_payload f
     + (if b then match auxiliary_security_header (header f) with
                  | Some a => tag_len (security_level (control a)) | None => 0 end else 0)
     + match m with Footer_None => 0 | Footer_Explicit => 2 end)%nat.
Proof using.
  rewrite frame_fields_eq, (list_sum_app' (header_fields (header f) ++ _)). fold (up_to_payload f).
  rewrite list_sum_app', Nat.add_assoc. f_equal; [f_equal|].
  - destruct b; [|reflexivity]. destruct (auxiliary_security_header (header f)); [|reflexivity].
    cbn [list_sum fold_right]. lia.
  - destruct m; reflexivity.
Qed.

(** There is no more to write than the fields. *)
Lemma plan_len o f ctx : frame_ok f ->
  let '(bs, st, used) := any_plan E o ctx f in
  (List.length bs <= list_sum (frame_fields (footer_mode ctx) (is_some (security_ctx ctx)) f))%nat /\
  (used = true -> exists a, auxiliary_security_header (header f) = Some a /\ is_some (security_ctx ctx) = true /\
     List.length bs <= up_to_payload f + tag_len (security_level (control a)))%nat.
Proof using.
  intros (Hh & Hct & _). destruct ctx as [m [sc|]]; unfold any_plan; cbn [security_ctx footer_mode is_some];
    rewrite frame_fields_sum.
  - pose proof (up_to_payload_eq f o o false 0 (sc_frame_counter sc) Hct) as U.
    assert (U3 : (3 <= up_to_payload f)%nat).
    { rewrite U. unfold wire_header. rewrite !app_length, le_length. cbn [List.length]. lia. }
    unfold write_plan, wire_front.
    destruct (_ && _).
    { rewrite app_length, le_length. cbn [List.length]. split; [lia|discriminate]. }
    destruct m; [|rewrite app_length; split; [lia|discriminate]].
    destruct (auxiliary_security_header (header f)) as [a|].
    2:{ rewrite !app_length. split; [lia|discriminate]. }
    assert (Z : exists b : AuxiliarySecurityHeader, Some a = Some b /\ true = true /\ b = a) by eauto.
    repeat match goal with
           | |- context [if ?b then _ else _] => destruct b
           | |- context [match sc_key_provider ?a ?b ?d ?e with _ => _ end] =>
               destruct (sc_key_provider a b d e) as [[? ?]|]
           end; rewrite !app_length, ?secured_payload_length, ?secured_tag_length;
      (split; [lia|]); try discriminate; intros _; exists a; (split; [reflexivity|]); (split; [reflexivity|]); lia.
  - destruct (plain_plan m f) as [bs st] eqn:EP. split; [|discriminate].
    assert (bs = fst (plain_plan m f)) by (now rewrite EP). subst bs. clear EP st.
    pose proof (up_to_payload_eq f LE LE false 0 0 Hct) as U.
    unfold plain_plan. destruct (_ && _).
    { cbn [fst]. rewrite app_length, le_length. unfold wire_header in U. rewrite !app_length, le_length in U.
      cbn [List.length] in *. lia. }
    destruct (auxiliary_security_header (header f)) as [a|] eqn:Ea; cbn [fst].
    + rewrite wire_header_length, header_sent_len in U. unfold header_len in U.
      assert (M : List.length (le 2 (control_word false (header_sent 0 (header f))) ++ [seq (header f)]
          ++ match destination (header f) with None => [] | Some a => wire_address a end
          ++ match source (header f) with
             | None => []
             | Some a => if pan_id_compress (header f) then wire_addr_only a else wire_address a
             end) = mhr_len (header f)) by apply (wire_mhr_length (header f)).
      rewrite M. lia.
    + unfold wire_frame. rewrite !app_length. destruct m; cbn [wire_footer List.length]; lia.
Qed.

(** An incomplete write leaves whole fields in the buffer, as many as fit, and does not touch the
    rest; the frame counter is used up only if nothing but the tag is missing. *)
Theorem C91_incomplete_write : forall f ctx buf ctx' buf', frame_ok f -> ctx_ok ctx ->
  try_write_frame c E f ctx buf = (Err Incomplete, (ctx', buf')) ->
  let fields := frame_fields (footer_mode ctx) (is_some (security_ctx ctx)) f in
  let bs := fst (fst (any_plan E (native c) ctx f)) in
  exists j, (j < List.length fields)%nat /\
    let k := list_sum (firstn j fields) in
    (k <= List.length buf < list_sum (firstn (S j) fields))%nat /\
    firstn k buf' = firstn k bs /\ skipn k buf' = skipn k buf /\ List.length buf' = List.length buf /\
    (ctx' = ctx \/ ctx' = counted ctx /\ k = up_to_payload f).
Proof using HE.
  intros f ctx buf ctx' buf' Hok Hc W.
  assert (I : fst (try_write_frame c E f ctx buf) = Err Incomplete) by now rewrite W.
  apply C91_incomplete_iff in I; [|assumption|assumption].
  pose proof (plan_len (native c) f ctx Hok) as PL.
  rewrite C91_write_exact in W by assumption. unfold write_outcome in W.
  destruct (any_plan E (native c) ctx f) as [[bs st] used] eqn:P. cbn [fst snd] in *.
  replace (List.length bs <=? List.length buf)%nat with false in W by (symmetry; apply Nat.leb_gt; exact I).
  cbv zeta.
  set (fields := frame_fields (footer_mode ctx) (is_some (security_ctx ctx)) f) in *.
  destruct PL as [PL PU].
  destruct (whole_spec fields (List.length buf)) as (j & J1 & J2 & J3 & J4).
  assert (J : (j < List.length fields)%nat).
  { destruct (Nat.eq_dec j (List.length fields)) as [->|X]; [|lia].
    rewrite firstn_all in J3. lia. }
  exists j. split; [exact J|]. rewrite <- J2 in *. split; [specialize (J4 J); lia|].
  set (k := whole (List.length buf) fields) in *.
  assert (B : buf' = firstn k bs ++ skipn k buf) by congruence.
  assert (C : ctx' = if used && (up_to_payload f <=? List.length buf)%nat then counted ctx else ctx) by congruence.
  assert (Lk : List.length (firstn k bs) = k) by (rewrite firstn_length; lia).
  subst buf'.
  split; [now rewrite firstn_app_exact'|]. split; [now rewrite skipn_app_exact'|].
  split; [rewrite app_length, Lk, skipn_length; lia|].
  destruct used; cbn [andb] in C; [|left; exact C].
  destruct (Nat.leb_spec (up_to_payload f) (List.length buf)) as [U|U]; [|left; exact C].
  right. split; [exact C|].
  destruct (PU eq_refl) as (a & Ea & Hs & La).
  unfold k, fields. rewrite frame_fields_eq, Hs, Ea.
  fold (up_to_payload f). rewrite whole_app_fit by exact U.
  fold (up_to_payload f). cbn [app whole].
  replace (tag_len (security_level (control a)) <=? List.length buf - up_to_payload f)%nat with false
    by (symmetry; apply Nat.leb_gt; lia). lia.
Qed.

(** A buffer that is large enough decides everything: the outcome in a larger one is the same, and
    the further octets stay. *)
Theorem C91_larger_buffer : forall f ctx buf more, frame_ok f -> ctx_ok ctx ->
  fst (try_write_frame c E f ctx buf) <> Err Incomplete ->
  let '(r, (ctx', buf')) := try_write_frame c E f ctx buf in
  try_write_frame c E f ctx (buf ++ more) = (r, (ctx', buf' ++ more)).
Proof using HE.
  intros f ctx buf more Hok Hc N.
  rewrite (C91_incomplete_iff f ctx buf Hok Hc) in N. rewrite !C91_write_exact by assumption.
  unfold write_outcome. destruct (any_plan E (native c) ctx f) as [[bs st] used]. cbn [fst] in N.
  rewrite app_length.
  replace (List.length bs <=? List.length buf)%nat with true by (symmetry; apply Nat.leb_le; lia).
  replace (List.length bs <=? List.length buf + List.length more)%nat with true by (symmetry; apply Nat.leb_le; lia).
  rewrite skipn_app. replace (List.length bs - List.length buf)%nat with 0%nat by lia.
  rewrite app_assoc. reflexivity.
Qed.
End Write.

(** ** C41 When wire bytes depend on the host *)

(** Two hosts of the same byte order do the same, also when the write fails; so do any two if the
    frame has no auxiliary security header or there is no security context. *)
Theorem C41_write_same_on_hosts : forall K (E : block_cipher K) c1 c2 f ctx buf, cipher_ok E ->
  frame_ok f -> ctx_ok ctx ->
  native c1 = native c2 \/ auxiliary_security_header (header f) = None \/ security_ctx ctx = None ->
  try_write_frame c1 E f ctx buf = try_write_frame c2 E f ctx buf.
Proof.
  intros K E c1 c2 f ctx buf HE Hok Hc H.
  rewrite !C91_write_exact by assumption. unfold write_outcome.
  assert (P : any_plan E (native c1) ctx f = any_plan E (native c2) ctx f); [|now rewrite P].
  destruct H as [->|[Ha|Hn]]; [reflexivity| |].
  - unfold any_plan. destruct (security_ctx ctx) as [sc|]; [|reflexivity].
    assert (F : wire_front (native c1) (sc_frame_counter sc) f = wire_front (native c2) (sc_frame_counter sc) f).
    { unfold wire_front. f_equal. apply wire_header_plain. unfold header_sent. cbn. now rewrite Ha. }
    unfold write_plan. now rewrite F.
  - unfold any_plan. now rewrite Hn.
Qed.

(** * Instances *)

(** A secured frame of 6 payload octets has these fields. *)
Example fields_of_a_frame :
  frame_fields Footer_None true (level_frame SL_ENCMIC64 true [1; 2; 3; 4; 5; 6])
  = [2; 1; 2; 8; 8; 1; 4; 1; 6; 8]%nat.
Proof. reflexivity. Qed.

Definition tried (n : nat) : bres nat * option N * nat :=
  let '(r, (ctx, buf)) :=
    try_write_frame host aes_cipher (level_frame SL_ENCMIC64 true [1; 2; 3; 4; 5; 6]) (aes_ctx 1 5) (repeat 0xEE n) in
  (r, option_map sc_frame_counter (security_ctx ctx),
   List.length (filter (fun b => negb (b =? 0xEE)) buf)).

(** Buffers of 12 octets (the destination address does not fit), of 32 (the payload does not), of
    33 and 40 (the tag does not: the counter is gone), of 41. *)
Example a_frame_in_small_buffers :
  map tried [12; 32; 33; 40; 41]%nat
  = [(Err Incomplete, Some 5, 5%nat); (Err Incomplete, Some 5, 27%nat);
     (Err Incomplete, Some 6, 33%nat); (Err Incomplete, Some 6, 33%nat); (Ok 41%nat, Some 6, 41%nat)].
Proof. vm_compute. reflexivity. Qed.

(** A beacon frame without security, in a buffer that ends in its first GTS descriptor. *)
Definition beacon_frame : Frame :=
  {| header := mk_header Beacon_t false false false Ieee802154_2003 None (Some (Short 0x1234 0x5678)) 7 None;
     content := FC_Beacon sample_beacon; payload := []; footer := (0, 0) |}.
Example a_beacon_in_a_small_buffer :
  frame_ok beacon_frame /\ ctx_ok (no_ctx Footer_None) /\
  frame_fields Footer_None false beacon_frame = [2; 1; 2; 2; 1; 1; 1; 1; 2; 1; 2; 1; 1; 2; 8; 0]%nat /\
  try_write_frame host aes_cipher beacon_frame (no_ctx Footer_None) (repeat 0xEE 12)
  = (Err Incomplete, (no_ctx Footer_None,
      [0x00; 0x80; 0x07; 0x34; 0x12; 0x78; 0x56; 0x12; 0xc3; 0x82; 0x01; 0xEE])) /\
  fst (try_write_frame host aes_cipher beacon_frame (no_ctx Footer_None) (repeat 0xEE 28)) = Ok 28%nat.
Proof.
  split. { split; [repeat split|]. split; [|repeat split; constructor].
           cbn [content beacon_frame content_ok]. destruct sample_beacon_ok as [_ (A & B & C)].
           split; [repeat split; reflexivity|]. split; [exact B|exact C]. }
  split; [exact I|]. split; [vm_compute; reflexivity|]. split; vm_compute; reflexivity.
Qed.

Print Assumptions C91_write_exact.
Print Assumptions C91_incomplete_iff.
Print Assumptions C91_incomplete_write.
Print Assumptions C91_larger_buffer.
Print Assumptions C41_write_same_on_hosts.
