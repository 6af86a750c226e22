(** Writing with a security context and receiving secured frames: the model meets SecSpec.v. *)
From Coq Require Import List Arith NArith ZArith Bool String Lia ZifyBool ZifyNat ZifyN.
From Verif Require Import ByteCrate Types HeaderModel BeaconModel CommandModel CcmModel FrameModel
  Spec SecSpec ProofLib HeaderProofs HeaderReadProofs BeaconProofs CommandProofs FrameProofs CcmProofs.
Import ListNotations.
Open Scope N_scope.
Open Scope list_scope.
Ltac Zify.zify_post_hook ::= Z.div_mod_to_equations.

(** * Nonce, sizes *)

Lemma land_shiftr_octet v i : N.land (N.shiftr v (8 * N.of_nat i)) 0xFF = v / 256 ^ N.of_nat i mod 256.
Proof.
  change 0xFF with (N.ones 8). rewrite N.land_ones, N.shiftr_div_pow2, N.pow_mul_r. reflexivity.
Qed.

Lemma calculate_nonce_eq eui fc l : calculate_nonce eui fc l = mac_nonce eui fc l.
Proof.
  unfold calculate_nonce, mac_nonce, le. f_equal; [|f_equal].
  - apply map_ext. intros i. apply land_shiftr_octet.
  - apply map_ext. intros i. apply land_shiftr_octet.
Qed.

Lemma mac_nonce_length eui fc l : List.length (mac_nonce eui fc l) = 13%nat.
Proof. unfold mac_nonce. now rewrite !app_length, !le_length. Qed.
Lemma octets_mac_nonce eui fc l : octets (mac_nonce eui fc l).
Proof.
  unfold mac_nonce. apply octets_app; split; [apply octets_le|]. apply octets_app; split; [apply octets_le|].
  apply octets_one. destruct l; reflexivity.
Qed.

Lemma mic_tag_len l : mic_octet_size l = tag_len l.
Proof. now destruct l. Qed.
Lemma level_tag_len l : level_tag_size l = tag_len l.
Proof. now destruct l. Qed.
Lemma aux_size_eq a : aux_octet_size a = aux_len a.
Proof. unfold aux_octet_size, aux_len, key_len. destruct (key_identifier a) as [[[[v|v]|] i]|]; reflexivity. Qed.
Lemma header_size_eq h : compression_ok h = true ->
  header_octet_size h = (mhr_len h + if pan_id_compress h then 2 else 0)%nat.
Proof.
  unfold header_octet_size, mhr_len, dest_len, source_len, compression_ok.
  destruct (pan_id_compress h), (destination h) as [[]|], (source h) as [[]|];
    cbn; intros Hc; try discriminate; reflexivity.
Qed.

Section Secure.
Context {K : Type} (c : cfg) (E : block_cipher K).
Hypothesis HE : cipher_ok E.

Lemma ccm_cipher_nil key nonce : ccm_cipher E key nonce [] = [].
Proof. reflexivity. Qed.

Lemma do_secure_eq l u key eui fc p : level_use l = Some u -> octets p -> N.of_nat (List.length p) < 2 ^ 16 ->
  do_secure E u (level_tag_size l) key (calculate_nonce eui fc l) p
  = Some (secured_payload E key l eui fc p, secured_tag E key l eui fc p).
Proof.
  intros Hu Hp Hl. rewrite calculate_nonce_eq, level_tag_len.
  destruct l; cbn in Hu; try discriminate; injection Hu as <-; cbn [do_secure secured_payload secured_tag];
    rewrite (ccm_encrypt_eq E key HE);
    first [ reflexivity | apply mac_nonce_length | apply octets_mac_nonce | exact octets_nil | assumption
          | cbn; lia | reflexivity ].
Qed.

Lemma secured_payload_length key l eui fc p : List.length (secured_payload E key l eui fc p) = List.length p.
Proof. destruct l; cbn [secured_payload]; rewrite ?ccm_cipher_length; reflexivity. Qed.
Lemma secured_tag_length key l eui fc p : List.length (secured_tag E key l eui fc p) = tag_len l.
Proof. destruct l; cbn [secured_tag]; unfold ccm_tag; rewrite ?xor_at_length; reflexivity. Qed.
Lemma secured_payload_involutive key l eui fc p :
  secured_payload E key l eui fc (secured_payload E key l eui fc p) = p.
Proof. destruct l; cbn [secured_payload]; rewrite ?ccm_cipher_involutive; reflexivity. Qed.
Lemma octets_secured_payload key l eui fc p : octets p -> octets (secured_payload E key l eui fc p).
Proof.
  intros Hp. destruct l; cbn [secured_payload]; try assumption;
    apply (octets_ccm_cipher E key HE); try assumption; first [apply mac_nonce_length|apply octets_mac_nonce].
Qed.
Lemma octets_ccm_tag key t nonce a m : (2 <= t <= 16)%nat -> List.length nonce = 13%nat -> octets nonce ->
  octets a -> octets m -> octets (ccm_tag E key t nonce a m).
Proof.
  intros Ht Ln On Oa Om. unfold ccm_tag. apply octets_xor_at; intros i; apply octets_octet0.
  - now apply (cbc_mac_block E key HE), octets_ccm_blocks.
  - now apply (key_stream_block E key HE).
Qed.
Lemma octets_secured_tag key l eui fc p : octets p -> octets (secured_tag E key l eui fc p).
Proof.
  intros Hp. destruct l; cbn [secured_tag]; try exact octets_nil;
    apply octets_ccm_tag; first [assumption|apply mac_nonce_length|apply octets_mac_nonce|exact octets_nil|cbn; lia].
Qed.

(** * Sending *)

(** The part of the plan after header and content. *)
Definition tail_plan (sc : SecurityContext K) (f : Frame) (a : AuxiliarySecurityHeader)
  : list N * outcome SecurityError unit * bool :=
  let h := header f in
  let fc := sc_frame_counter sc in
  let l := security_level (control a) in
  if negb (is_data h) then ([], Err NotImplemented, false)
  else if (127 <? length_estimate f a)%nat then ([], Err FrameTooLong, false)
  else if level_is_none l then (payload f, Ok tt, false)
  else if fc =? last_counter then (payload f, Err CounterError, false)
  else match sc_key_provider sc DstAddrMode (key_identifier a) (destination h) with
  | None => (payload f, Err UnavailableKey, true)
  | Some (_, key) =>
    if level_is_enc l then (payload f, Err NotImplemented, true)
    else (secured_payload E key l (sc_euid sc) fc (payload f)
          ++ secured_tag E key l (sc_euid sc) fc (payload f), Ok tt, true)
  end.

Definition sec_result (st : outcome SecurityError unit) (n : nat) : outcome SecurityError nat :=
  match st with Ok _ => Ok n | Err e => Err e | Panic => Panic end.

Definition ctx_after (used : bool) (sc : SecurityContext K) : SecurityContext K :=
  if used then advanced sc else sc.

Lemma firstn_le_app {A} n (x y : list A) : (n <= List.length x)%nat -> firstn n (x ++ y) = firstn n x.
Proof. intros H. rewrite firstn_app. replace (n - List.length x)%nat with 0%nat by lia. apply app_nil_r. Qed.

Lemma secure_frame_eq f sc a tl : octets (payload f) -> u32_ok (sc_frame_counter sc) ->
  auxiliary_security_header (header f) = Some a -> compression_ok (header f) = true ->
  let '(tb, st, used) := tail_plan sc f a in
  if (List.length tb <=? List.length tl)%nat
  then secure_frame c E f sc Footer_None tl
       = (sec_result st (List.length tb), (ctx_after used sc, tb ++ skipn (List.length tb) tl))
  else exists k, (k <= List.length tl)%nat /\
       k = (if List.length (payload f) <=? List.length tl then List.length (payload f) else 0)%nat /\
       secure_frame c E f sc Footer_None tl
       = (Err (WriteError Incomplete),
          (ctx_after (used && (List.length (payload f) <=? List.length tl)%nat) sc,
           firstn k tb ++ skipn k tl)).
Proof.
  intros Hp Hfc Ha Hc. unfold tail_plan, secure_frame, has_security, is_data. rewrite Ha.
  destruct (frame_type (header f)) eqn:Et; cbn [negb];
    try (cbn [List.length Nat.leb]; reflexivity).
  rewrite header_size_eq, aux_size_eq, mic_tag_len by assumption.
  replace (List.length (payload f) + (mhr_len (header f) + (if pan_id_compress (header f) then 2 else 0))
          + aux_len a + tag_len (security_level (control a)) + 2)%nat with (length_estimate f a)
    by (unfold length_estimate; lia).
  replace (negb (length_estimate f a <=? 127)%nat) with (127 <? length_estimate f a)%nat
    by (destruct (Nat.leb_spec (length_estimate f a) 127), (Nat.ltb_spec 127 (length_estimate f a)); cbn; lia).
  destruct (Nat.ltb_spec 127 (length_estimate f a)) as [L|L]; [reflexivity|].
  assert (Hlen : N.of_nat (List.length (payload f)) < 2 ^ 16).
  { change (2 ^ 16) with 65536. unfold length_estimate in L. lia. }
  assert (W : write_with (write_slice (payload f)) (tl, 0%nat)
    = if (List.length tl <? List.length (payload f))%nat then (Err Incomplete, (tl, 0%nat))
      else (Ok tt, (payload f ++ skipn (List.length (payload f)) tl, List.length (payload f)))).
  { unfold write_with, write_slice. change (List.length tl <? 0)%nat with false. cbn [skipn firstn app].
    now destruct (_ <? _)%nat. }
  rewrite W. clear W.
  set (p := payload f) in *. set (l := security_level (control a)) in *.
  destruct (Nat.ltb_spec (List.length tl) (List.length p)) as [Ls|Ls].
  - (* payload does not fit *)
    assert (X : forall tb, (List.length p <= List.length tb)%nat -> forall used,
      if (List.length tb <=? List.length tl)%nat then False
      else exists k, (k <= List.length tl)%nat /\ k = (if List.length p <=? List.length tl then List.length p else 0)%nat /\
        (Err (WriteError Incomplete), (sc, tl)) =
        (Err (A := nat) (WriteError Incomplete),
          (ctx_after (used && (List.length p <=? List.length tl)%nat) sc, firstn k tb ++ skipn k tl))).
    { intros tb Htb used. replace (List.length tb <=? List.length tl)%nat with false
        by (symmetry; apply Nat.leb_gt; lia).
      exists 0%nat. split; [lia|]. replace (List.length p <=? List.length tl)%nat with false
        by (symmetry; apply Nat.leb_gt; lia). split; [reflexivity|]. now rewrite andb_false_r. }
    assert (Y : forall tb used st, (List.length p <= List.length tb)%nat ->
      if (List.length tb <=? List.length tl)%nat
      then (Err (WriteError Incomplete), (sc, tl)) = (sec_result st (List.length tb), (ctx_after used sc, tb ++ skipn (List.length tb) tl))
      else exists k, (k <= List.length tl)%nat /\ k = (if List.length p <=? List.length tl then List.length p else 0)%nat /\
        (Err (WriteError Incomplete), (sc, tl)) =
        (Err (A := nat) (WriteError Incomplete),
          (ctx_after (used && (List.length p <=? List.length tl)%nat) sc, firstn k tb ++ skipn k tl))).
    { intros tb used st Htb. specialize (X tb Htb used). destruct (_ <=? _)%nat; [contradiction|exact X]. }
    destruct (level_is_none l); [apply Y; lia|].
    destruct (sc_frame_counter sc =? last_counter); [apply Y; lia|].
    destruct (sc_key_provider sc DstAddrMode (key_identifier a) (destination (header f))) as [[x key]|];
      [|apply Y; lia].
    destruct (level_is_enc l); apply Y; [lia|]. rewrite app_length, secured_payload_length. lia.
  - assert (Lp : (List.length p <=? List.length tl)%nat = true) by now apply Nat.leb_le.
    destruct (level_is_none l) eqn:El.
    { rewrite Lp. destruct l; try discriminate. reflexivity. }
    assert (Em : forall A (x y : A), match l with SL_None => x | _ => y end = y)
      by (intros; destruct l; [discriminate|reflexivity..]).
    rewrite Em. clear Em. change 4294967295 with last_counter.
    destruct (N.eqb_spec (sc_frame_counter sc) last_counter) as [Ec|Ec].
    { rewrite Lp. reflexivity. }
    assert (Eu : u32_add (E := SecurityError) c (sc_frame_counter sc) 1 = Ok (sc_frame_counter sc + 1)).
    { unfold u32_add. unfold u32_ok in Hfc. change last_counter with 4294967295 in Ec.
      change (2 ^ 32) with 4294967296 in *.
      replace (sc_frame_counter sc + 1 <? 4294967296) with true by (symmetry; apply N.ltb_lt; lia). reflexivity. }
    rewrite Eu. change (set_sc_frame_counter sc (sc_frame_counter sc + 1)) with (advanced sc).
    change (sc_key_provider (advanced sc)) with (sc_key_provider sc).
    destruct (sc_key_provider sc DstAddrMode (key_identifier a) (destination (header f))) as [[x key]|].
    2:{ rewrite Lp. reflexivity. }
    destruct (level_is_enc l) eqn:Ee.
    { rewrite Lp. destruct l; try discriminate. reflexivity. }
    destruct (level_use l) as [u|] eqn:Elu; [|destruct l; discriminate].
    assert (Lo : (List.length p <=? List.length (p ++ skipn (List.length p) tl))%nat = true)
      by (apply Nat.leb_le; rewrite app_length; lia).
    rewrite Lo. clear Lo.
    rewrite firstn_app_exact, skipn_app_exact.
    rewrite (do_secure_eq l u key) by assumption.
    set (sp := secured_payload E key l (sc_euid sc) (sc_frame_counter sc) p).
    set (tg := secured_tag E key l (sc_euid sc) (sc_frame_counter sc) p).
    assert (Lsp : List.length sp = List.length p) by apply secured_payload_length.
    unfold write_with, write_slice. rewrite <- Lsp, skipn_app_exact, firstn_app_exact.
    rewrite !app_length, !skipn_length.
    replace (List.length sp + (List.length tl - List.length sp) <? List.length sp)%nat with false
      by (symmetry; apply Nat.ltb_ge; lia).
    destruct (Nat.leb_spec (List.length sp + List.length tg) (List.length tl)) as [Lt|Lt].
    + replace (List.length tl - List.length sp <? List.length tg)%nat with false
        by (symmetry; apply Nat.ltb_ge; lia).
      cbn [sec_result ctx_after]. rewrite skipn_skipn', <- app_assoc. reflexivity.
    + replace (List.length tl - List.length sp <? List.length tg)%nat with true
        by (symmetry; apply Nat.ltb_lt; lia).
      exists (List.length sp). split; [lia|].
      replace (List.length sp <=? List.length tl)%nat with true by (symmetry; apply Nat.leb_le; lia).
      split; [reflexivity|]. cbn [andb ctx_after]. rewrite firstn_app_exact. reflexivity.
Qed.

Lemma write_tail_secured f st : write_tail f Footer_None true st = (Ok tt, st).
Proof. destruct st. reflexivity. Qed.

Lemma compression_ok_plan h :
  pan_id_compress h && negb (is_some (destination h) && is_some (source h)) = negb (compression_ok h).
Proof. unfold compression_ok. destruct (destination h), (source h), (pan_id_compress h); reflexivity. Qed.

Lemma header_sent_word fc h : control_word false (header_sent fc h) = control_word false (header_sent 0 h).
Proof. now rewrite <- !frame_control_word. Qed.

Lemma header_program_some h sc : compression_ok h = true ->
  header_program c h (Some sc)
  = (wire_header (native c) (native c) false 0 (header_sent (sc_frame_counter (K := K) sc) h), Ok tt).
Proof.
  intros Hc. unfold header_program. rewrite Hc, wire_sent_mhr by assumption.
  destruct (auxiliary_security_header h); [reflexivity|]. now rewrite app_nil_r.
Qed.

Lemma runs_front f sc : header_ok (header f) -> content_ok (content f) ->
  runs (write_with (try_write_header (K := K) c (header f) (Some sc)) >>
        write_with (try_write_content (content f)))
    (if compression_ok (header f) then wire_front (native c) (sc_frame_counter sc) f
     else le 2 (control_word false (header_sent (sc_frame_counter sc) (header f))) ++ [seq (header f)])
    (if compression_ok (header f) then Ok tt else Err (BadInput "DisallowedPanIdCompress")).
Proof.
  intros Hh Hc. pose proof (emits_header c (header f) (Some sc) Hh) as EH.
  apply runs_write in EH.
  destruct (compression_ok (header f)) eqn:Ec.
  - rewrite header_program_some in EH by assumption. cbn [fst snd] in EH.
    apply runs_seq; [exact EH|]. apply runs_write. now apply emits_content.
  - unfold header_program in EH. rewrite Ec in EH. cbn [fst snd] in EH. rewrite header_sent_word.
    apply runs_seq_fail; [discriminate|exact EH].
Qed.

(** The whole of try_write with a security context. *)
Lemma try_write_secured f m sc : frame_ok f -> u32_ok (sc_frame_counter sc) ->
  let '(bs, st, used) := write_plan E (native c) m sc f in
  forall buf,
  if (List.length bs <=? List.length buf)%nat
  then try_write_frame c E f (ser_ctx m sc) buf
       = (result_of st (List.length bs),
          (ser_ctx m (ctx_after used sc), bs ++ skipn (List.length bs) buf))
  else exists k, (k <= List.length buf)%nat /\
       (List.length (wire_front (native c) (sc_frame_counter sc) f) + List.length (payload f) <= List.length buf ->
        k = List.length (wire_front (native c) (sc_frame_counter sc) f) + List.length (payload f))%nat /\
       (List.length buf < List.length (wire_front (native c) (sc_frame_counter sc) f) + List.length (payload f) ->
        k <= List.length (wire_front (native c) (sc_frame_counter sc) f) /\
        (List.length (wire_front (native c) (sc_frame_counter sc) f) <= List.length buf ->
         k = List.length (wire_front (native c) (sc_frame_counter sc) f)))%nat /\
       try_write_frame c E f (ser_ctx m sc) buf
       = (Err Incomplete,
          (ser_ctx m (ctx_after (used &&
             (List.length (wire_front (native c) (sc_frame_counter sc) f) + List.length (payload f)
              <=? List.length buf)%nat) sc), firstn k bs ++ skipn k buf)).
Proof.
  intros Hok Hfc. destruct Hok as (Hh & Hct & Hp & Hf).
  pose proof (runs_front f sc Hh Hct) as RF.
  unfold write_plan. rewrite compression_ok_plan.
  destruct (compression_ok (header f)) eqn:Ec; cbn [negb].
  2:{ intros buf. destruct (RF buf 0%nat ltac:(lia)) as [R1 R2]. cbn [firstn app] in R1, R2.
      unfold try_write_frame. cbn [ser_ctx security_ctx footer_mode ctx_after].
      set (bs := le 2 _ ++ _) in *.
      destruct (Nat.leb_spec (List.length bs) (List.length buf)) as [L|L].
      - destruct (R1 L) as (o & _ & ->). reflexivity.
      - destruct (R2 L) as (k & o & Hk & ->). exists k. split; [exact Hk|].
        assert (3 <= List.length (wire_front (native c) (sc_frame_counter sc) f))%nat
          by (unfold wire_front, wire_header; rewrite !app_length, le_length; cbn [List.length]; lia).
        assert (List.length bs = 3)%nat by (unfold bs; rewrite app_length, le_length; reflexivity).
        split; [lia|]. split; [lia|]. reflexivity. }
  set (front := wire_front (native c) (sc_frame_counter sc) f) in *.
  assert (Short : forall buf, (List.length buf < List.length front)%nat -> forall x,
    exists k, (k <= List.length buf)%nat /\
       (List.length front + List.length (payload f) <= List.length buf -> k = List.length front + List.length (payload f))%nat /\
       (List.length buf < List.length front + List.length (payload f) -> k <= List.length front /\ (List.length front <= List.length buf -> k = List.length front))%nat /\
       try_write_frame c E f (ser_ctx m sc) buf
       = (Err Incomplete, (ser_ctx m sc, firstn k (front ++ x) ++ skipn k buf))).
  { intros buf L x. destruct (RF buf 0%nat ltac:(lia)) as [_ R2]. destruct (R2 L) as (k & o & Hk & Ek).
    unfold try_write_frame. cbn [ser_ctx security_ctx footer_mode]. rewrite Ek.
    exists k. split; [exact Hk|]. split; [lia|]. split; [lia|]. cbn [firstn app]. rewrite firstn_le_app by lia. reflexivity. }
  assert (Front : forall buf, (List.length front <= List.length buf)%nat ->
    (write_with (try_write_header c (header f) (Some sc)) >>
     write_with (try_write_content (content f))) (buf, 0%nat)
    = (Ok tt, (front ++ skipn (List.length front) buf, List.length front))).
  { intros buf L. destruct (RF buf 0%nat ltac:(lia)) as [R1 _]. destruct (R1 L) as (o & Ho & ->).
    now rewrite (Ho eq_refl). }
  assert (Explicit : m = Footer_Explicit -> forall buf, (List.length front <= List.length buf)%nat ->
    try_write_frame c E f (ser_ctx m sc) buf
    = (Panic, (ser_ctx m sc, front ++ skipn (List.length front) buf))).
  { intros -> buf L. unfold try_write_frame. cbn [ser_ctx security_ctx footer_mode]. rewrite (Front buf L).
    replace (List.length front <=? List.length (front ++ skipn (List.length front) buf))%nat with true
      by (symmetry; apply Nat.leb_le; rewrite app_length; lia).
    cbn [secure_frame]. rewrite firstn_app_exact, skipn_app_exact. reflexivity. }
  destruct m.
  2:{ intros buf. destruct (Nat.leb_spec (List.length front) (List.length buf)) as [L|L].
      + now apply Explicit.
      + destruct (Short buf L []) as (k & Hk & Hk1 & Hk2 & Ek). rewrite app_nil_r in Ek. exists k. auto. }
  clear Explicit.
  destruct (auxiliary_security_header (header f)) as [a|] eqn:Ea.
  2:{ (* no security: the payload follows *)
      intros buf. rewrite app_length.
      destruct (Nat.le_gt_cases (List.length front) (List.length buf)) as [L|L].
      2:{ replace (List.length front + List.length (payload f) <=? List.length buf)%nat with false
            by (symmetry; apply Nat.leb_gt; lia). apply Short. exact L. }
      unfold try_write_frame. cbn [ser_ctx security_ctx footer_mode]. rewrite (Front buf L).
      replace (List.length front <=? List.length (front ++ skipn (List.length front) buf))%nat with true
        by (symmetry; apply Nat.leb_le; rewrite app_length; lia).
      unfold secure_frame, has_security. rewrite Ea, firstn_app_exact, skipn_app_exact.
      unfold write_tail, wseq, wbind, wret, write_with, write_slice.
      rewrite app_length, skipn_app_exact, firstn_app_exact, skipn_length.
      replace (List.length front + (List.length buf - List.length front) <? List.length front)%nat with false
        by (symmetry; apply Nat.ltb_ge; lia).
      destruct (Nat.leb_spec (List.length front + List.length (payload f)) (List.length buf)) as [L2|L2].
      - replace (List.length buf - List.length front <? List.length (payload f))%nat with false
          by (symmetry; apply Nat.ltb_ge; lia).
        cbn [result_of ctx_after]. rewrite skipn_skipn', <- app_assoc. reflexivity.
      - replace (List.length buf - List.length front <? List.length (payload f))%nat with true
          by (symmetry; apply Nat.ltb_lt; lia).
        exists (List.length front). split; [exact L|]. split; [lia|]. split; [lia|]. rewrite firstn_app_exact. reflexivity. }
  assert (T : match tail_plan sc f a with (tb, st, used) =>
    forall buf,
    if (List.length (front ++ tb) <=? List.length buf)%nat
    then try_write_frame c E f (ser_ctx Footer_None sc) buf
       = (result_of (match st with Ok x => Ok x | Err e => Err (security_error_into e) | Panic => Panic end)
            (List.length (front ++ tb)),
          (ser_ctx Footer_None (ctx_after used sc), (front ++ tb) ++ skipn (List.length (front ++ tb)) buf))
    else exists k, (k <= List.length buf)%nat /\
       (List.length front + List.length (payload f) <= List.length buf -> k = List.length front + List.length (payload f))%nat /\
       (List.length buf < List.length front + List.length (payload f) -> k <= List.length front /\ (List.length front <= List.length buf -> k = List.length front))%nat /\
       try_write_frame c E f (ser_ctx Footer_None sc) buf
       = (Err Incomplete,
          (ser_ctx Footer_None (ctx_after (used &&
             (List.length front + List.length (payload f) <=? List.length buf)%nat) sc),
           firstn k (front ++ tb) ++ skipn k buf)) end).
  { destruct (tail_plan sc f a) as [[tb st] used] eqn:Ep.
    assert (Ns : st <> Err SecurityNotEnabled /\ st <> Panic).
    { unfold tail_plan in Ep.
      repeat match type of Ep with
             | context [if ?x then _ else _] => destruct x
             | context [match ?x with Some _ => _ | None => _ end] => destruct x as [[]|]
             end; injection Ep as <- <- <-; split; discriminate. }
    intros buf. rewrite app_length.
    destruct (Nat.le_gt_cases (List.length front) (List.length buf)) as [L|L].
    2:{ replace (List.length front + List.length tb <=? List.length buf)%nat with false
          by (symmetry; apply Nat.leb_gt; lia).
        replace (List.length front + List.length (payload f) <=? List.length buf)%nat with false
          by (symmetry; apply Nat.leb_gt; lia).
        rewrite andb_false_r. apply Short. exact L. }
    pose proof (secure_frame_eq f sc a (skipn (List.length front) buf) Hp Hfc Ea Ec) as SF. rewrite Ep in SF.
    rewrite skipn_length in SF.
    unfold try_write_frame. cbn [ser_ctx security_ctx footer_mode]. rewrite (Front buf L).
    replace (List.length front <=? List.length (front ++ skipn (List.length front) buf))%nat with true
      by (symmetry; apply Nat.leb_le; rewrite app_length; lia).
    rewrite firstn_app_exact, skipn_app_exact.
    destruct (Nat.leb_spec (List.length front + List.length tb) (List.length buf)) as [L2|L2].
    - replace (List.length tb <=? List.length buf - List.length front)%nat with true in SF
        by (symmetry; apply Nat.leb_le; lia).
      rewrite SF. rewrite skipn_skipn', <- app_assoc.
      destruct st as [[]|e|]; cbn [sec_result result_of]; [| |destruct Ns; congruence].
      + reflexivity.
      + destruct e; try reflexivity. destruct Ns; congruence.
    - replace (List.length tb <=? List.length buf - List.length front)%nat with false in SF
        by (symmetry; apply Nat.leb_gt; lia).
      destruct SF as (k & Hk & Ek & ->). exists (List.length front + k)%nat. split; [lia|].
      split; [intros X; rewrite Ek; replace (_ <=? _)%nat with true by (symmetry; apply Nat.leb_le; lia); lia|].
      split; [intros X; rewrite Ek; replace (_ <=? _)%nat with false by (symmetry; apply Nat.leb_gt; lia); lia|].
      cbn [security_error_into].
      replace (List.length (payload f) <=? List.length buf - List.length front)%nat
        with (List.length front + List.length (payload f) <=? List.length buf)%nat
        by (destruct (Nat.leb_spec (List.length front + List.length (payload f)) (List.length buf)),
              (Nat.leb_spec (List.length (payload f)) (List.length buf - List.length front)); lia).
      rewrite firstn_app_2, skipn_skipn', <- app_assoc. reflexivity. }
  revert T. unfold tail_plan.
  destruct (negb (is_data (header f))); [rewrite app_nil_r; exact (fun H => H)|].
  destruct (127 <? length_estimate f a)%nat; [rewrite app_nil_r; exact (fun H => H)|].
  destruct (level_is_none _); [exact (fun H => H)|].
  destruct (sc_frame_counter sc =? last_counter); [exact (fun H => H)|].
  destruct (sc_key_provider sc DstAddrMode (key_identifier a) (destination (header f))) as [[x key]|]; [|exact (fun H => H)].
  destruct (level_is_enc _); exact (fun H => H).
Qed.

(** * Receiving *)

Lemma bytes_eqb_same a b : bytes_eqb a b = same_octets a b.
Proof.
  unfold same_octets. destruct (list_eq_dec N.eq_dec a b) as [->|H]; [now apply bytes_eqb_eq|].
  destruct (bytes_eqb a b) eqn:X; [|reflexivity]. apply bytes_eqb_eq in X. contradiction.
Qed.

Lemma do_unsecure_eq l u key eui fc data tag : level_use l = Some u -> octets data ->
  do_unsecure E u (level_tag_size l) key (calculate_nonce eui fc l) data tag
  = (let plain := secured_payload E key l eui fc data in
     if same_octets (secured_tag E key l eui fc plain) tag
        && negb (encrypting l && (2 ^ 16 <=? N.of_nat (List.length data)))
     then (true, plain)
     else (false, if encrypting l then on_auth_failure E key (mac_nonce eui fc l) data else data)).
Proof.
  intros Hu Hd. rewrite calculate_nonce_eq, level_tag_len. cbv zeta.
  assert (M : forall t nonce, (2 <= t <= 16)%nat -> List.length nonce = 13%nat -> octets nonce ->
    (fst (ccm_decrypt E key t nonce data [] tag), data)
    = (if same_octets (ccm_tag E key t nonce data []) tag && true then (true, data) else (false, data))).
  { intros t nonce Ht Ln On. rewrite (ccm_decrypt_eq E key HE) by (assumption || exact octets_nil || reflexivity).
    rewrite ccm_cipher_nil, bytes_eqb_same, andb_true_r. now destruct (same_octets _ _). }
  assert (X : forall t nonce, (2 <= t <= 16)%nat -> List.length nonce = 13%nat -> octets nonce ->
    ccm_decrypt E key t nonce [] data tag
    = (if same_octets (ccm_tag E key t nonce [] (ccm_cipher E key nonce data)) tag
          && negb (true && (2 ^ 16 <=? N.of_nat (List.length data)))
       then (true, ccm_cipher E key nonce data) else (false, on_auth_failure E key nonce data))).
  { intros t nonce Ht Ln On. cbn [andb]. destruct (N.leb_spec (2 ^ 16) (N.of_nat (List.length data))) as [L|L].
    - rewrite (ccm_decrypt_long E key HE) by assumption. now rewrite andb_false_r.
    - rewrite (ccm_decrypt_eq E key HE) by (assumption || exact octets_nil).
      rewrite bytes_eqb_same, andb_true_r. reflexivity. }
  destruct l; cbn in Hu; try discriminate; injection Hu as <-;
    cbn [do_unsecure secured_payload secured_tag encrypting negb andb];
    first [ rewrite M | rewrite X ];
    first [ reflexivity | apply mac_nonce_length | apply octets_mac_nonce | cbn; lia ].
Qed.

Lemma same_octets_eq a b : same_octets a b = true <-> a = b.
Proof. unfold same_octets. destruct (list_eq_dec N.eq_dec a b); split; congruence. Qed.

Lemma unsecure_frame_eq {D} h a (dl : DeviceLookup D) ds rest sc : octets rest ->
  u32_ok (frame_counter a) -> auxiliary_security_header h = Some a ->
  unsecure_frame c E h rest sc Footer_None dl ds
  = let '(r, rest', ds') := receive E (overflow_checks c) sc dl ds h a rest in
    (match r with Ok _ => Ok (tag_len (security_level (control a))) | Err e => Err e | Panic => Panic end,
     (rest', sc, ds')).
Proof.
  intros Hr Hfc Ha. unfold unsecure_frame, receive, has_security, is_data. rewrite Ha.
  set (l := security_level (control a)).
  destruct (frame_type h); try reflexivity. cbn [negb].
  assert (Em : match l with SL_None => true | _ => false end = level_is_none l) by (now destruct l).
  assert (V : forall A (x y : A), match version h with Ieee802154_2003 => x | _ => y end
              = if match version h with Ieee802154_2003 => true | _ => false end then x else y)
    by (intros; now destruct (version h)).
  rewrite V. destruct (match version h with Ieee802154_2003 => true | _ => false end); [reflexivity|].
  assert (W : forall A (x y : A), match l with SL_None => x | _ => y end = if level_is_none l then x else y)
    by (intros; now destruct l).
  rewrite W. destruct (level_is_none l) eqn:El; [reflexivity|].
  destruct (sc_key_provider sc SrcAddrMode (key_identifier a) (source h)) as [[eui key]|]; [|reflexivity].
  destruct (source h) as [s|]; [|reflexivity].
  destruct (dl SrcAddrMode s ds) as [ds'|d put]; [reflexivity|].
  change 4294967295 with last_counter.
  destruct ((dev_frame_counter d =? last_counter) || (frame_counter a <? dev_frame_counter d)); [reflexivity|].
  destruct (level_use l) as [u|] eqn:Eu.
  2:{ destruct l; try discriminate. reflexivity. }
  assert (Ee : level_is_enc l = false) by (destruct l; try discriminate; reflexivity). rewrite Ee.
  rewrite mic_tag_len. destruct (List.length rest <? tag_len l)%nat eqn:Lt; [reflexivity|].
  apply Nat.ltb_ge in Lt.
  set (n := (List.length rest - tag_len l)%nat).
  rewrite (do_unsecure_eq l u) by (assumption || now apply octets_firstn).
  cbv zeta. rewrite firstn_length. replace (Nat.min n (List.length rest)) with n by (unfold n; lia).
  set (plain := secured_payload E key l eui (frame_counter a) (firstn n rest)).
  destruct (same_octets _ _ && _); [|reflexivity].
  unfold u32_add. unfold u32_ok in Hfc.
  destruct (N.eqb_spec (frame_counter a) last_counter) as [Ec|Ec].
  - rewrite Ec. change (last_counter + 1 <? 2 ^ 32) with false. change ((last_counter + 1) mod 2 ^ 32) with 0.
    destruct (overflow_checks c); reflexivity.
  - replace (frame_counter a + 1 <? 2 ^ 32) with true; [reflexivity|].
    symmetry. apply N.ltb_lt. change last_counter with 4294967295 in Ec. change (2 ^ 32) with 4294967296 in *. lia.
Qed.

Lemma receive_ok {D} oc sc (dl : DeviceLookup D) ds h a rest p rest' ds' :
  receive E oc sc dl ds h a rest = (Ok p, rest', ds') ->
  let l := security_level (control a) in
  rest' = p ++ skipn (List.length p) rest /\
  List.length rest = (List.length p + tag_len l)%nat.
Proof.
  unfold receive. intros H. cbv zeta.
  repeat match type of H with
         | (if ?x then (Err _, _, _) else _) = _ => destruct x; [discriminate|]
         | (if ?x then (Panic, _, _) else _) = _ => destruct x eqn:?Lx; [discriminate|]
         | match ?x with Some _ => _ | None => (Err _, _, _) end = _ => destruct x as [[]|]; [|discriminate]
         | match ?x with Some _ => _ | None => (Err _, _, _) end = _ => destruct x; [|discriminate]
         | match ?x with DevMissing _ => _ | DevFound _ _ => _ end = _ => destruct x as [|d put]; [discriminate|]
         end.
  cbv zeta in H. destruct (same_octets _ _ && _); [|discriminate].
  apply Nat.ltb_ge in Lx. set (l := security_level (control a)) in *.
  set (pl := secured_payload _ _ _ _ _ _) in *.
  assert (Lp : List.length pl = (List.length rest - tag_len l)%nat).
  { unfold pl. rewrite secured_payload_length, firstn_length. lia. }
  assert (X : p = pl /\ rest' = pl ++ skipn (List.length rest - tag_len l) rest).
  { destruct (frame_counter a =? last_counter); [destruct oc; [discriminate|]|]; injection H as <- <- <-; auto. }
  destruct X as [-> ->]. rewrite Lp. split; [reflexivity|lia].
Qed.

Lemma skipn_app_le {A} n (x y : list A) : n = List.length x -> skipn n (x ++ y) = y.
Proof. intros ->. apply skipn_app_exact. Qed.

Lemma read_and_unsecure_eq {D} bs h n ct k a sc (dl : DeviceLookup D) ds : octets bs ->
  try_read_header c bs = Ok (h, n) -> try_read_content h (skipn n bs) = Ok (ct, k) ->
  auxiliary_security_header h = Some a ->
  try_read_and_unsecure c E bs (ser_ctx Footer_None sc) dl ds
  = let '(r, rest', ds') := receive E (overflow_checks c) sc dl ds h a (skipn (n + k) bs) in
    (match r with
     | Ok p => Ok ({| header := h; content := ct; payload := p; footer := (0, 0) |},
                   (List.length bs - tag_len (security_level (control a)))%nat)
     | Err e => Err e | Panic => Panic end,
     (firstn (n + k) bs ++ rest', ser_ctx Footer_None sc, ds')).
Proof.
  intros Hb EH EC Ha.
  pose proof (try_read_header_len c bs h n EH) as Ln.
  pose proof (try_read_content_len h (skipn n bs) ct k (octets_skipn n bs Hb) EC) as Lk.
  rewrite skipn_length in Lk.
  assert (Hfc : u32_ok (frame_counter a)).
  { apply try_read_header_sound in EH; [|assumption]. destruct EH as (_ & ((_ & _ & _ & Hx) & _) & _).
    rewrite Ha in Hx. apply Hx. }
  unfold try_read_and_unsecure.
  rewrite (read_with_eq (try_read_header c)) by lia. cbn [skipn]. rewrite EH. cbn [obind].
  replace (0 + n)%nat with n by lia. rewrite read_with_eq by lia. rewrite EC. cbn [obind].
  unfold has_security. rewrite Ha. cbn [ser_ctx security_ctx footer_mode].
  replace (n + k <=? List.length bs)%nat with true by (symmetry; apply Nat.leb_le; lia).
  rewrite (unsecure_frame_eq h a) by (assumption || now apply octets_skipn).
  destruct (receive E (overflow_checks c) sc dl ds h a (skipn (n + k) bs)) as [[[p|e|] rest'] ds'] eqn:R.
  - destruct (receive_ok _ _ _ _ _ _ _ _ _ _ R) as [Er Lr]. rewrite skipn_length in Lr.
    set (t := tag_len (security_level (control a))) in *.
    assert (Lb : List.length (firstn (n + k) bs ++ rest') = List.length bs).
    { rewrite app_length, firstn_length, Er, app_length, !skipn_length. lia. }
    rewrite Lb. rewrite !usize_sub_le by lia. cbn [obind].
    rewrite usize_sub_le by lia. cbn [obind].
    rewrite read_bytes_at by (rewrite Lb; lia). cbn [obind lift_sec].
    assert (Ep : firstn (List.length bs - (n + k) - t) (skipn (n + k) (firstn (n + k) bs ++ rest')) = p).
    { rewrite skipn_app_exact' by (rewrite firstn_length; lia). rewrite Er. apply firstn_app_exact'. lia. }
    unfold slice.
    replace (n + k + (List.length bs - (n + k) - t) - (n + k))%nat with (List.length bs - (n + k) - t)%nat by lia.
    rewrite Ep. replace (n + k + (List.length bs - (n + k) - t))%nat with (List.length bs - t)%nat by lia.
    reflexivity.
  - destruct e; try reflexivity. exfalso. clear -R. unfold receive in R.
    repeat match type of R with
         | (if ?x then _ else _) = _ => destruct x
         | match ?x with Some _ => _ | None => (Err _, _, _) end = _ => destruct x
         | (let (_, _) := ?x in _) = _ => destruct x
         | match ?x with DevMissing _ => _ | DevFound _ _ => _ end = _ => destruct x as [|d put]
         | _ => progress cbv zeta in R
         end; discriminate.
  - reflexivity.
Qed.

End Secure.
