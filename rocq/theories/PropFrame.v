(** Properties C18 - C26, C45 - C47, C49 (frames without security) and the first half of C39. *)
From Coq Require Import List Arith NArith ZArith Bool String Lia ZifyBool ZifyNat ZifyN.
From Verif Require Import ByteCrate Types HeaderModel BeaconModel CommandModel CcmModel FrameModel
  Spec ProofLib HeaderProofs HeaderReadProofs BeaconProofs CommandProofs FrameProofs RepoTests
  Aes128 PropHeader PropContent.
Import ListNotations.
Open Scope N_scope.
Open Scope list_scope.
Ltac Zify.zify_post_hook ::= Z.div_mod_to_equations.

Section Plain.
Context {K : Type} (c : cfg) (E : block_cipher K).

(** Writing a frame with a context without security: result and buffer. *)
Definition write_plain (f : Frame) (m : FooterMode) (buf : list N) : bres nat * list N :=
  let r := try_write_frame c E f (FrameSerDesContext_no_security m) buf in (fst r, snd (snd r)).

Lemma write_plain_eq f m buf : write_plain f m buf = plain_writer (K := K) c f m buf.
Proof.
  unfold write_plain. change (FrameSerDesContext_no_security m) with (plain_ctx (K := K) m).
  rewrite try_write_plain. cbn [fst snd]. now destruct (plain_writer c f m buf).
Qed.

Lemma plain_program_ok f m : auxiliary_security_header (header f) = None -> compression_allowed (header f) ->
  plain_program (K := K) c f m = (wire_frame m f, Ok tt).
Proof.
  intros Ha Hc. apply compression_ok_iff in Hc. unfold plain_program.
  rewrite (program_length c (header f) None Hc); [|congruence]. cbn [counter_of].
  unfold wire_frame. f_equal. f_equal.
  rewrite !wire_sent_mhr by assumption. now rewrite Ha.
Qed.

(** ** C18 Unsecured frame wire layout *)
Theorem C18_plain_frame_layout : forall f m, frame_ok f ->
  auxiliary_security_header (header f) = None -> compression_allowed (header f) ->
  encodes_as (write_plain f m) (wire_frame m f).
Proof.
  intros f m Hok Ha Hc.
  pose proof (emits_plain (K := K) c f m Hok) as P. rewrite plain_program_ok in P by assumption.
  apply emits_encodes in P. intros buf. rewrite write_plain_eq. apply P.
Qed.

Lemma write_plain_allowed f m buf n buf' : frame_ok f ->
  write_plain f m buf = (Ok n, buf') -> compression_allowed (header f) /\ auxiliary_security_header (header f) = None.
Proof.
  intros Hok W. rewrite write_plain_eq in W. destruct (emits_plain (K := K) c f m Hok buf) as [P1 P2].
  assert (P : exists bs, plain_program (K := K) c f m = (bs, Ok tt)).
  { destruct (plain_program c f m) as [bs st]. cbn [fst snd] in *.
    destruct (Nat.le_gt_cases (List.length bs) (List.length buf)) as [L|L].
    - rewrite (P1 L) in W. destruct st as [[]|e|]; try discriminate. eauto.
    - destruct (P2 L) as (k & _ & Ek). rewrite Ek in W. discriminate. }
  destruct P as [bs P]. unfold plain_program, header_program in P. rewrite <- compression_ok_iff.
  destruct (compression_ok (header f)); [|discriminate].
  destruct (auxiliary_security_header (header f)); [discriminate|]. auto.
Qed.

Lemma write_plain_bytes f m buf n buf' : frame_ok f -> write_plain f m buf = (Ok n, buf') ->
  n = List.length (wire_frame m f) /\ firstn n buf' = wire_frame m f.
Proof.
  intros Hok W. destruct (write_plain_allowed f m buf n buf' Hok W) as [Hc Ha].
  destruct (encodes_ok _ _ _ _ _ (C18_plain_frame_layout f m Hok Ha Hc) W) as (-> & -> & _). auto.
Qed.

(** The returned length is the sum of the parts. *)
Theorem C18_plain_frame_length : forall f m buf n buf', frame_ok f ->
  write_plain f m buf = (Ok n, buf') ->
  n = (mhr_len (header f) + List.length (wire_content br_zero mr_zero (content f))
       + List.length (payload f) + match m with Footer_None => 0 | Footer_Explicit => 2 end)%nat.
Proof.
  intros f m buf n buf' Hok W.
  destruct (write_plain_allowed f m buf n buf' Hok W) as [Hc Ha].
  destruct (encodes_ok _ _ _ _ _ (C18_plain_frame_layout f m Hok Ha Hc) W) as (-> & _).
  unfold wire_frame. rewrite !app_length, wire_header_length.
  assert (Eh : header_len (header_sent 0 (header f)) = mhr_len (header f)).
  { rewrite <- (wire_header_length LE LE false 0), wire_sent_mhr by now apply compression_ok_iff.
    now rewrite Ha, app_nil_r, wire_mhr_length. }
  rewrite Eh. destruct m; cbn [wire_footer List.length]; lia.
Qed.

(** The caller's context is left alone. *)
Theorem C18_context_untouched : forall f m buf,
  fst (snd (try_write_frame c E f (FrameSerDesContext_no_security m) buf)) = FrameSerDesContext_no_security m.
Proof.
  intros f m buf. change (FrameSerDesContext_no_security m) with (plain_ctx (K := K) m).
  now rewrite try_write_plain.
Qed.

(** ** C19 Frame reading partitions the input *)
Theorem C19_frame_read_exact : forall m bs f n, octets bs -> cfg_ok c ->
  (try_read_frame c m bs = Ok (f, n) <-> n = List.length bs /\ frame_parts m bs f).
Proof.
  intros m bs f n Hb Hc. split; [now apply try_read_frame_sound|].
  intros [-> P]. now apply try_read_frame_complete.
Qed.

(** ** C20, C21 Frame round trips *)
Lemma octets_wire_frame m f : frame_ok f -> compression_allowed (header f) -> octets (wire_frame m f).
Proof.
  intros (Hh & Hct & Hp & F1 & F2) Hc. unfold wire_frame.
  apply octets_app; split; [|apply octets_app; split; [|apply octets_app; split]].
  - apply octets_wire_header; [reflexivity|]. apply header_sent_decoded; [assumption| |reflexivity].
    now apply compression_ok_iff.
  - now apply octets_wire_content.
  - assumption.
  - destruct m; [constructor|]. cbn [wire_footer]. repeat constructor; assumption.
Qed.

Lemma wire_frame_parts m f : frame_ok f -> auxiliary_security_header (header f) = None ->
  compression_allowed (header f) -> content_canonical (content f) -> frame_consistent f ->
  (content_open_ended (content f) = true -> payload f = [] /\ m = Footer_None) ->
  frame_parts m (wire_frame m f) (frame_sent m 0 f).
Proof.
  intros (Hh & Hct & Hp & F1 & F2) Ha Hc Hcc Hcons Ho.
  assert (Hd : header_decoded (header_sent 0 (header f))).
  { apply header_sent_decoded; [assumption| |reflexivity]. now apply compression_ok_iff. }
  unfold frame_parts. cbn [frame_sent header content payload footer].
  split. { cbn [header_sent auxiliary_security_header]. now rewrite Ha. }
  split; [exact Hd|]. split; [assumption|]. split; [exact Hcons|]. split; [exact Ho|].
  split. { intros ->. reflexivity. }
  exists false, br_zero, mr_zero. split.
  - destruct (content f) as [b| | |cmd| | |]; try exact I. apply br_zero_fit, Hct.
  - unfold wire_frame. destruct m; reflexivity.
Qed.

Theorem C20_frame_round_trip_none : forall f buf n buf', frame_ok f -> cfg_ok c ->
  content_canonical (content f) -> frame_consistent f ->
  (content_open_ended (content f) = true -> payload f = []) ->
  write_plain f Footer_None buf = (Ok n, buf') ->
  try_read_frame c Footer_None (firstn n buf') = Ok (frame_sent Footer_None 0 f, n).
Proof.
  intros f buf n buf' Hok Hcfg Hcc Hcons Ho W.
  destruct (write_plain_allowed _ _ _ _ _ Hok W) as [Hc Ha].
  destruct (write_plain_bytes _ _ _ _ _ Hok W) as [-> ->].
  apply try_read_frame_complete; [now apply octets_wire_frame|assumption|].
  apply wire_frame_parts; auto.
Qed.

Theorem C21_frame_round_trip_explicit : forall f buf n buf', frame_ok f -> cfg_ok c ->
  content_canonical (content f) -> frame_consistent f ->
  content_open_ended (content f) = false ->
  write_plain f Footer_Explicit buf = (Ok n, buf') ->
  try_read_frame c Footer_Explicit (firstn n buf') = Ok (frame_sent Footer_Explicit 0 f, n).
Proof.
  intros f buf n buf' Hok Hcfg Hcc Hcons Ho W.
  destruct (write_plain_allowed _ _ _ _ _ Hok W) as [Hc Ha].
  destruct (write_plain_bytes _ _ _ _ _ Hok W) as [-> ->].
  apply try_read_frame_complete; [now apply octets_wire_frame|assumption|].
  apply wire_frame_parts; auto. rewrite Ho. discriminate.
Qed.

(** ** C22 Realignment without channel page: what reading back gives *)

Definition with_page (d : CoordinatorRealignmentData) (p : option N) : CoordinatorRealignmentData :=
  {| cr_pan_id := cr_pan_id d; cr_coordinator_address := cr_coordinator_address d;
     cr_channel := cr_channel d; cr_device_address := cr_device_address d; cr_channel_page := p |}.

Lemma swallow_wire d x : cr_channel_page d = None ->
  wire_command mr_zero (CoordinatorRealignment d) ++ [x]
  = wire_command mr_zero (CoordinatorRealignment (with_page d (Some x))).
Proof.
  intros Hp. cbn [wire_command]. unfold wire_realignment. cbn [with_page cr_pan_id cr_coordinator_address
    cr_channel cr_device_address cr_channel_page]. rewrite Hp. rewrite <- !app_assoc. reflexivity.
Qed.

(** A payload octet after such a command is taken as the channel page, in either footer mode. *)
Theorem C22_payload_octet_swallowed : forall f d x p m buf n buf', frame_ok f -> cfg_ok c ->
  frame_consistent f -> content f = FC_Command (CoordinatorRealignment d) ->
  cr_channel_page d = None -> payload f = x :: p ->
  write_plain f m buf = (Ok n, buf') ->
  try_read_frame c m (firstn n buf')
  = Ok ({| header := header_sent 0 (header f);
           content := FC_Command (CoordinatorRealignment (with_page d (Some x)));
           payload := p;
           footer := match m with Footer_None => (0, 0) | Footer_Explicit => footer f end |}, n).
Proof.
  intros f d x p m buf n buf' Hok Hcfg Hcons Ect Hpg Ep W.
  destruct (write_plain_allowed _ _ _ _ _ Hok W) as [Hc Ha].
  destruct (write_plain_bytes _ _ _ _ _ Hok W) as [-> ->].
  set (g := {| header := header f; content := FC_Command (CoordinatorRealignment (with_page d (Some x)));
               payload := p; footer := footer f |}).
  assert (Ew : wire_frame m f = wire_frame m g).
  { unfold wire_frame, g. cbn [header content payload footer]. rewrite Ect, Ep. cbn [wire_content].
    rewrite <- swallow_wire by assumption. rewrite <- !app_assoc. destruct m; reflexivity. }
  destruct Hok as (Hh & Hct & Hpl & Hf). rewrite Ect in Hct. rewrite Ep in Hpl.
  apply octets_cons in Hpl. destruct Hpl as [Hx Hpl].
  assert (Hcok : command_ok (CoordinatorRealignment (with_page d (Some x)))).
  { destruct Hct as (H1 & H2 & H3 & H4 & H5). repeat split; assumption. }
  assert (Hg : frame_ok g) by (repeat split; assumption || apply Hh || apply Hcok || apply Hf).
  rewrite Ew. change ({| header := header_sent 0 (header f); content := _; payload := p; footer := _ |})
    with (frame_sent m 0 g).
  apply try_read_frame_complete; [now apply octets_wire_frame|assumption|].
  apply wire_frame_parts; try assumption.
  - split; [exact Hcok|exact I].
  - unfold frame_consistent in *. rewrite Ect in Hcons. exact Hcons.
  - discriminate.
Qed.

(** With an explicit footer and no payload the first checksum octet is taken, after which a
    footer octet is missing: reading the library's own output panics or fails. *)
Theorem C22_footer_octet_swallowed : forall f d buf n buf', frame_ok f -> cfg_ok c ->
  frame_consistent f -> content f = FC_Command (CoordinatorRealignment d) ->
  cr_channel_page d = None -> payload f = [] ->
  write_plain f Footer_Explicit buf = (Ok n, buf') ->
  try_read_frame c Footer_Explicit (firstn n buf')
  = if overflow_checks c then Panic else Err Incomplete.
Proof.
  intros f d buf n buf' Hok Hcfg Hcons Ect Hpg Ep W.
  destruct (write_plain_allowed _ _ _ _ _ Hok W) as [Hc Ha].
  destruct (write_plain_bytes _ _ _ _ _ Hok W) as [-> ->].
  assert (Hob := octets_wire_frame Footer_Explicit f Hok Hc).
  rewrite try_read_frame_eq by assumption.
  assert (Hd : header_decoded (header_sent 0 (header f))).
  { apply header_sent_decoded; [apply Hok| |reflexivity]. now apply compression_ok_iff. }
  assert (Ha' : auxiliary_security_header (header_sent 0 (header f)) = None)
    by (cbn [header_sent auxiliary_security_header]; now rewrite Ha).
  set (bs := wire_frame Footer_Explicit f) in *.
  assert (Eb : bs = wire_header LE (native c) false 0 (header_sent 0 (header f))
     ++ wire_command mr_zero (CoordinatorRealignment (with_page d (Some (fst (footer f))))) ++ [snd (footer f)]).
  { unfold bs, wire_frame. rewrite Ect, Ep. cbn [wire_content wire_footer app].
    rewrite <- swallow_wire by assumption. rewrite <- !app_assoc. f_equal. now apply wire_header_plain. }
  rewrite Eb at 1. rewrite try_read_header_complete by (reflexivity || assumption).
  rewrite Eb at 1. rewrite skipn_app_exact' by now rewrite wire_header_length.
  change (wire_command mr_zero (CoordinatorRealignment (with_page d (Some (fst (footer f))))))
    with (wire_content br_zero mr_zero (FC_Command (CoordinatorRealignment (with_page d (Some (fst (footer f))))))) at 1.
  rewrite try_read_content_complete.
  - replace (has_security (header_sent 0 (header f))) with false by (unfold has_security; now rewrite Ha').
    rewrite <- skipn_skipn'. rewrite Eb at 1. rewrite skipn_app_exact' by now rewrite wire_header_length.
    rewrite skipn_app_exact. reflexivity.
  - destruct Hok as (_ & Hct & _ & F1 & _). rewrite Ect in Hct. destruct Hct as (H1 & H2 & H3 & H4 & _).
    repeat split; assumption.
  - unfold frame_consistent in Hcons. rewrite Ect in Hcons. exact Hcons.
  - exact I.
  - discriminate.
Qed.

(** ** C23 How reading a frame ends *)
Theorem C23_frame_read_verdict : forall m bs, octets bs -> cfg_ok c ->
  match frame_verdict (overflow_checks c) m bs with
  | Ok n => exists f, try_read_frame c m bs = Ok (f, n)
  | Err e => try_read_frame c m bs = Err e
  | Panic => try_read_frame c m bs = Panic
  end.
Proof. intros m bs Hb Hc. now apply frame_read_fate. Qed.

Theorem C23_never_panics_without_footer : forall bs, octets bs -> cfg_ok c ->
  try_read_frame c Footer_None bs <> Panic.
Proof.
  intros bs Hb Hc H. pose proof (C23_frame_read_verdict Footer_None bs Hb Hc) as F.
  unfold frame_verdict in F. cbv zeta in F.
  destruct (header_verdict bs); [congruence|].
  destruct (content_verdict _ _); [congruence|].
  destruct (_ =? 1); [congruence|]. destruct F as [f F]. congruence.
Qed.

(** The panic, exactly: overflow checks, explicit footer, a valid header and content without
    security, and fewer than two octets left after them. *)
Theorem C23_panics_iff : forall m bs, octets bs -> cfg_ok c ->
  (try_read_frame c m bs = Panic <->
   overflow_checks c = true /\ m = Footer_Explicit /\
   exists h n1 ct n2, try_read_header c bs = Ok (h, n1) /\
     auxiliary_security_header h = None /\
     try_read_content h (skipn n1 bs) = Ok (ct, n2) /\
     (List.length bs < n1 + n2 + 2)%nat).
Proof.
  intros m bs Hb Hc. rewrite try_read_frame_eq by assumption. split.
  - destruct (try_read_header c bs) as [[h n1]|e|] eqn:EH; try discriminate.
    2: { intros _. exfalso. now apply (C04_header_decode_never_panics c bs). }
    destruct (try_read_content h (skipn n1 bs)) as [[ct n2]|e|] eqn:EC; try discriminate.
    2: { intros _. exfalso. pose proof (try_read_content_fate h (skipn n1 bs) (octets_skipn _ _ Hb)) as F.
         destruct (content_verdict _ _); [congruence|]. destruct F as [x F]. congruence. }
    destruct (has_security h) eqn:Hs; [discriminate|].
    unfold frame_rest. destruct m; [discriminate|]. rewrite skipn_length.
    destruct (Nat.ltb_spec (List.length bs - (n1 + n2)) 2) as [L|L]; [|discriminate].
    destruct (overflow_checks c); [|discriminate]. intros _. split; [reflexivity|]. split; [reflexivity|].
    exists h, n1, ct, n2. repeat split; try assumption; [now apply has_security_none|lia].
  - intros (Ho & -> & h & n1 & ct & n2 & EH & Ha & EC & L). rewrite EH, EC.
    replace (has_security h) with false by (unfold has_security; now rewrite Ha).
    unfold frame_rest. rewrite skipn_length.
    replace (List.length bs - (n1 + n2) <? 2)%nat with true by (symmetry; apply Nat.ltb_lt; lia).
    now rewrite Ho.
Qed.

(** ** C24 Plain reading never accepts a secured frame *)
Theorem C24_plain_read_refuses_security : forall m bs, octets bs -> cfg_ok c ->
  octet bs 0 / 8 mod 2 = 1 -> exists e, try_read_frame c m bs = Err e.
Proof.
  intros m bs Hb Hc Hbit. pose proof (C23_frame_read_verdict m bs Hb Hc) as F.
  unfold frame_verdict in F. cbv zeta in F.
  assert (S1 : (field (input_word bs) 3 1 =? 1) = true).
  { unfold field, input_word. change (2 ^ 3) with 8. change (2 ^ 1) with 2. lia. }
  rewrite S1 in F.
  destruct (header_verdict bs); [eauto|]. destruct (content_verdict _ _); eauto.
Qed.

(** and what it says when everything else is right. *)
Theorem C24_plain_read_names_security : forall m bs h n1 ct n2, octets bs -> cfg_ok c ->
  try_read_header c bs = Ok (h, n1) -> auxiliary_security_header h <> None ->
  try_read_content h (skipn n1 bs) = Ok (ct, n2) ->
  try_read_frame c m bs = Err (BadInput "SecurityEnabled (use Frame::try_read_and_unsecure)").
Proof.
  intros m bs h n1 ct n2 Hb Hc EH Ha EC. rewrite try_read_frame_eq, EH, EC by assumption.
  unfold has_security. now destruct (auxiliary_security_header h).
Qed.

(** ** C26 Small buffers give errors, not panics *)
Theorem C26_plain_write_decision : forall f m buf, frame_ok f ->
  fst (write_plain f m buf)
  = match fst (try_write_header (K := K) c (header f) None buf) with
    | Ok _ => if (List.length buf <? List.length (wire_frame m f))%nat then Err Incomplete
              else Ok (List.length (wire_frame m f))
    | Err e => Err e
    | Panic => Panic
    end.
Proof.
  intros f m buf Hok. rewrite write_plain_eq.
  pose proof (emits_header c (header f) (None (A := SecurityContext K)) (proj1 Hok) buf) as [H1 H2].
  pose proof (emits_plain (K := K) c f m Hok buf) as [P1 P2].
  unfold plain_program in *.
  destruct (header_program c (header f) None) as [hb st] eqn:Ep. cbn [fst snd] in *.
  destruct st as [[]|e|]; cbn [fst snd] in *.
  - assert (Hca : compression_allowed (header f) /\ auxiliary_security_header (header f) = None).
    { unfold header_program in Ep. rewrite <- compression_ok_iff.
      destruct (compression_ok (header f)); [|discriminate].
      destruct (auxiliary_security_header (header f)); [discriminate|auto]. }
    destruct Hca as [Hc Ha]. pose proof (plain_program_ok f m Ha Hc) as Ew. unfold plain_program in Ew.
    rewrite Ep in Ew. assert (Ew' : hb ++ wire_content br_zero mr_zero (content f) ++ payload f ++ wire_footer m f
      = wire_frame m f) by congruence.
    rewrite Ew' in *.
    assert (Lw : (List.length hb <= List.length (wire_frame m f))%nat) by (rewrite <- Ew', app_length; lia).
    destruct (Nat.ltb_spec (List.length buf) (List.length (wire_frame m f))) as [L|L].
    + destruct (P2 L) as (k & _ & ->). cbn [fst].
      destruct (Nat.le_gt_cases (List.length hb) (List.length buf)) as [L'|L'].
      * now rewrite (H1 L').
      * now destruct (H2 L') as (k' & _ & ->).
    + rewrite (P1 L), (H1 ltac:(lia)). reflexivity.
  - destruct (Nat.le_gt_cases (List.length hb) (List.length buf)) as [L'|L'].
    + now rewrite (H1 L'), (P1 L').
    + destruct (H2 L') as (k' & _ & ->). now destruct (P2 L') as (k & _ & ->).
  - destruct (Nat.le_gt_cases (List.length hb) (List.length buf)) as [L'|L'].
    + now rewrite (H1 L'), (P1 L').
    + destruct (H2 L') as (k' & _ & ->). now destruct (P2 L') as (k & _ & ->).
Qed.

Theorem C26_plain_write_never_panics : forall f m buf, frame_ok f ->
  fst (write_plain f m buf) <> Panic.
Proof.
  intros f m buf Hok. rewrite C26_plain_write_decision by assumption.
  pose proof (C02_header_write_never_panics (K := K) c (header f) None buf (proj1 Hok)) as H.
  destruct (fst (try_write_header c (header f) None buf)); [|discriminate|congruence].
  destruct (_ <? _)%nat; discriminate.
Qed.

Theorem C26_outcome_by_length_only : forall f m buf1 buf2, frame_ok f ->
  List.length buf1 = List.length buf2 -> fst (write_plain f m buf1) = fst (write_plain f m buf2).
Proof.
  intros f m b1 b2 Hok L. rewrite !C26_plain_write_decision, !C02_header_write_decision by apply Hok || assumption.
  now rewrite L.
Qed.

(** ** C39 (writing half) *)
Theorem C39_write_without_context : forall f m buf, frame_ok f ->
  auxiliary_security_header (header f) <> None ->
  exists e, fst (try_write_frame c E f (FrameSerDesContext_no_security m) buf) = Err e.
Proof.
  intros f m buf Hok Ha. change (fst (try_write_frame c E f (FrameSerDesContext_no_security m) buf))
    with (fst (write_plain f m buf)).
  rewrite C26_plain_write_decision, C02_header_write_decision by apply Hok || assumption.
  destruct (auxiliary_security_header (header f)); [|congruence].
  repeat match goal with |- context [if ?b then _ else _] => destruct b end; eauto.
Qed.

(** ** C45 Different frames have different bytes *)
Lemma app_same_tail {A} (a b x y : list A) : List.length x = List.length y -> a ++ x = b ++ y -> a = b /\ x = y.
Proof.
  intros L H. assert (La : List.length a = List.length b).
  { apply (f_equal (@List.length A)) in H. rewrite !app_length in H. lia. }
  split.
  - rewrite <- (firstn_app_exact a x), <- (firstn_app_exact b y), La. now rewrite H.
  - rewrite <- (skipn_app_exact a x), <- (skipn_app_exact b y), La. now rewrite H.
Qed.

Theorem C45_frames_injective : forall m f g buf1 buf2 n n' buf1' buf2', cfg_ok c ->
  frame_ok f -> content_canonical (content f) -> frame_consistent f ->
  (content_open_ended (content f) = true -> payload f = []) ->
  frame_ok g -> content_canonical (content g) -> frame_consistent g ->
  (content_open_ended (content g) = true -> payload g = []) ->
  write_plain f m buf1 = (Ok n, buf1') -> write_plain g m buf2 = (Ok n', buf2') ->
  firstn n buf1' = firstn n' buf2' ->
  frame_sent m 0 f = frame_sent m 0 g.
Proof.
  intros m f g b1 b2 n n' b1' b2' Hcfg Hf Cf Kf Of Hg Cg Kg Og W1 W2 Eq.
  destruct (write_plain_allowed _ _ _ _ _ Hf W1) as [Hc1 Ha1].
  destruct (write_plain_allowed _ _ _ _ _ Hg W2) as [Hc2 Ha2].
  rewrite (proj2 (write_plain_bytes _ _ _ _ _ Hf W1)), (proj2 (write_plain_bytes _ _ _ _ _ Hg W2)) in Eq.
  assert (T : forall x, wire_frame m x = wire_frame Footer_None x ++ wire_footer m x).
  { intros x. unfold wire_frame. cbn [wire_footer]. now rewrite app_nil_r, <- !app_assoc. }
  rewrite !T in Eq. apply app_same_tail in Eq; [|destruct m; reflexivity]. destruct Eq as [Eq Ef].
  assert (R : forall x, frame_ok x -> content_canonical (content x) -> frame_consistent x ->
    (content_open_ended (content x) = true -> payload x = []) -> compression_allowed (header x) ->
    auxiliary_security_header (header x) = None ->
    try_read_frame c Footer_None (wire_frame Footer_None x)
    = Ok (frame_sent Footer_None 0 x, List.length (wire_frame Footer_None x))).
  { intros x H1 H2 H3 H4 H5 H6. apply try_read_frame_complete; [now apply octets_wire_frame|assumption|].
    apply wire_frame_parts; auto. }
  pose proof (R f Hf Cf Kf Of Hc1 Ha1) as R1. pose proof (R g Hg Cg Kg Og Hc2 Ha2) as R2.
  rewrite Eq in R1. rewrite R1 in R2. apply Ok_inj in R2. destruct R2 as [R2 _].
  unfold frame_sent in *. destruct m; [exact R2|].
  cbn [wire_footer] in Ef. destruct (footer f) as [f1 f2], (footer g) as [g1 g2]. cbn [fst snd] in Ef.
  assert (E1 := f_equal header R2). assert (E2 := f_equal content R2). assert (E3 := f_equal payload R2).
  cbn [header content payload] in E1, E2, E3. injection Ef as -> ->. now rewrite E1, E2, E3.
Qed.

(** ** C46 Decoding depends only on the consumed octets *)
Theorem C46_header_locality : forall bs bs' h n, octets bs -> octets bs' ->
  try_read_header c bs = Ok (h, n) ->
  (n <= List.length bs)%nat /\
  (firstn n bs' = firstn n bs -> try_read_header c bs' = Ok (h, n)).
Proof.
  intros bs bs' h n Hb Hb' R. apply C03_header_decode_exact in R; [|assumption].
  destruct R as (Hd & Ln & r7 & rs & Hr & W). split; [assumption|]. intros Ef.
  apply C03_header_decode_exact; [assumption|]. split; [assumption|]. split.
  - apply (f_equal (@List.length N)) in Ef. rewrite !firstn_length in Ef. lia.
  - exists r7, rs. split; [assumption|]. now rewrite Ef.
Qed.

Theorem C46_beacon_locality : forall bs bs' b n, octets bs -> octets bs' ->
  try_read_beacon bs = Ok (b, n) ->
  (n <= List.length bs)%nat /\ (firstn n bs' = firstn n bs -> try_read_beacon bs' = Ok (b, n)).
Proof.
  intros bs bs' h n Hb Hb' R. apply C13_beacon_read in R; [|assumption].
  destruct R as (Ln & Hd & r & Hr & W). split; [assumption|]. intros Ef.
  apply C13_beacon_read; [assumption|]. split; [|split; [assumption|]].
  - apply (f_equal (@List.length N)) in Ef. rewrite !firstn_length in Ef. lia.
  - exists r. split; [assumption|]. now rewrite Ef.
Qed.

Theorem C46_pending_locality : forall bs bs' p n, octets bs -> octets bs' ->
  try_read_pending bs = Ok (p, n) ->
  (n <= List.length bs)%nat /\ (firstn n bs' = firstn n bs -> try_read_pending bs' = Ok (p, n)).
Proof.
  intros bs bs' h n Hb Hb' R. apply C12_pending_read in R; [|assumption].
  destruct R as (Ln & Hd & r3 & r7 & W). split; [assumption|]. intros Ef.
  apply C12_pending_read; [assumption|]. split; [|split; [assumption|]].
  - apply (f_equal (@List.length N)) in Ef. rewrite !firstn_length in Ef. lia.
  - exists r3, r7. now rewrite Ef.
Qed.

Theorem C46_superframe_locality : forall bs bs' s n, octets bs -> octets bs' ->
  try_read_superframe bs = Ok (s, n) ->
  (n <= List.length bs)%nat /\ (firstn n bs' = firstn n bs -> try_read_superframe bs' = Ok (s, n)).
Proof.
  intros bs bs' h n Hb Hb' R. apply C09_superframe_read in R; [|assumption].
  destruct R as (-> & Ln & Hd & r5 & W). split; [assumption|]. intros Ef.
  apply C09_superframe_read; [assumption|]. repeat split; try assumption; try apply Hd.
  - apply (f_equal (@List.length N)) in Ef. rewrite !firstn_length in Ef. lia.
  - exists r5. now rewrite Ef.
Qed.

(** Commands likewise, except the realignment without channel page. *)
Theorem C46_command_locality : forall bs bs' cmd n, octets bs -> octets bs' ->
  try_read_command bs = Ok (cmd, n) ->
  (n <= List.length bs)%nat /\
  (open_ended cmd = false -> firstn n bs' = firstn n bs -> try_read_command bs' = Ok (cmd, n)).
Proof.
  intros bs bs' h n Hb Hb' R. apply C15_command_read in R; [|assumption].
  destruct R as (Ln & Hd & Ho & r & W). split; [assumption|]. intros Hno Ef.
  apply C15_command_read; [assumption|]. split; [|split; [assumption|split]].
  - apply (f_equal (@List.length N)) in Ef. rewrite !firstn_length in Ef. lia.
  - congruence.
  - exists r. now rewrite Ef.
Qed.

(** ** C47 Errors are well-typed *)
Definition read_errors : list byte_error :=
  [Incomplete; BadInput "InvalidFrameVersion"; BadInput "InvalidFrameType";
   BadInput "InvalidAddressMode"; BadInput "InvalidValue";
   BadInput "SecurityEnabled (use Frame::try_read_and_unsecure)"].

Theorem C47_plain_read_errors : forall m bs e, octets bs -> cfg_ok c ->
  try_read_frame c m bs = Err e -> In e read_errors.
Proof.
  intros m bs e Hb Hc H. pose proof (C23_frame_read_verdict m bs Hb Hc) as F.
  unfold frame_verdict in F. cbv zeta in F.
  destruct (header_verdict bs) as [e'|] eqn:V.
  { assert (e' = e) by congruence. subst e'. clear F H. unfold header_verdict in V.
    repeat match type of V with (if ?x then _ else _) = _ =>
      destruct x; [injection V as <-; cbn [In read_errors]; tauto|] end. discriminate. }
  destruct (content_verdict _ _) as [e'|] eqn:V2.
  { assert (e' = e) by congruence. subst e'. clear F H. unfold content_verdict in V2.
    destruct (type_of_code _); try discriminate.
    - destruct (_ <? _)%nat; [|discriminate]. injection V2 as <-. cbn [In read_errors]. tauto.
    - unfold command_verdict in V2. destruct (skipn _ bs); [injection V2 as <-; cbn [In read_errors]; tauto|].
      repeat match type of V2 with (if ?x then _ else _) = _ =>
        destruct x; [injection V2 as <-; cbn [In read_errors]; tauto|] end. discriminate. }
  destruct (_ =? 1). { assert (BadInput "SecurityEnabled (use Frame::try_read_and_unsecure)" = e) by congruence.
    subst e. cbn [In read_errors]. tauto. }
  destruct m; [destruct F; congruence|].
  destruct (_ <? _)%nat; [|destruct F; congruence]. destruct (overflow_checks c); [congruence|].
  assert (Incomplete = e) by congruence. subst e. cbn [In read_errors]. tauto.
Qed.

Theorem C47_plain_write_errors : forall f m buf e, frame_ok f ->
  fst (write_plain f m buf) = Err e ->
  In e [Incomplete; BadInput "DisallowedPanIdCompress"; BadInput "MissingSecurityCtx"].
Proof.
  intros f m buf e Hok. rewrite C26_plain_write_decision, C02_header_write_decision by apply Hok || assumption.
  repeat match goal with
  | |- context [if ?b then _ else _] => destruct b
  | |- context [match auxiliary_security_header ?h with _ => _ end] => destruct (auxiliary_security_header h)
  end; intros H; inversion H; subst; cbn [In]; tauto.
Qed.

(** ** C49 Content that does not match the frame type is written silently *)
Definition no_content (t : FrameType) : option FrameContent :=
  match t with
  | Beacon_t | MacCommand_t => None
  | Data_t => Some FC_Data | Acknowledgement_t => Some FC_Acknowledgement
  | Multipurpose_t => Some FC_Multipurpose | FragOrFragAck_t => Some FC_FragOrFragAck
  | Extended_t => Some FC_Extended
  end.

(** For the types without content of their own: a foreign beacon or command comes back as the
    beginning of the payload. *)
Theorem C49_mismatch_becomes_payload : forall f ct buf n buf', frame_ok f -> cfg_ok c ->
  no_content (frame_type (header f)) = Some ct ->
  write_plain f Footer_None buf = (Ok n, buf') ->
  try_read_frame c Footer_None (firstn n buf')
  = Ok ({| header := header_sent 0 (header f); content := ct;
           payload := wire_content br_zero mr_zero (content f) ++ payload f;
           footer := (0, 0) |}, n).
Proof.
  intros f ct buf n buf' Hok Hcfg Hn W.
  destruct (write_plain_allowed _ _ _ _ _ Hok W) as [Hc Ha].
  destruct (write_plain_bytes _ _ _ _ _ Hok W) as [-> ->].
  set (g := {| header := header f; content := ct;
               payload := wire_content br_zero mr_zero (content f) ++ payload f; footer := footer f |}).
  assert (Ew : wire_frame Footer_None f = wire_frame Footer_None g).
  { unfold wire_frame, g. cbn [header content payload footer wire_footer].
    replace (wire_content br_zero mr_zero ct) with (@nil N).
    - cbn [app]. now rewrite <- !app_assoc.
    - destruct (frame_type (header f)); try discriminate; injection Hn as <-; reflexivity. }
  assert (Hg : frame_ok g).
  { destruct Hok as (Hh & Hct & Hp & F1 & F2). split; [exact Hh|]. split.
    - cbn [g content]. destruct (frame_type (header f)); try discriminate; injection Hn as <-; exact I.
    - split; [|split; assumption]. cbn [g payload]. apply octets_app. split; [|assumption].
      now apply octets_wire_content. }
  rewrite Ew. change ({| header := header_sent 0 (header f); content := ct; payload := _; footer := (0, 0) |})
    with (frame_sent Footer_None 0 g).
  apply try_read_frame_complete; [now apply octets_wire_frame|assumption|].
  apply wire_frame_parts; try assumption; cbn [g content header frame_consistent]; unfold frame_consistent;
    destruct (frame_type (header f)) eqn:Et; try discriminate; injection Hn as <-;
    cbn [content header content_type content_canonical content_open_ended]; try exact I; try discriminate;
    cbn [g content header content_type]; congruence.
Qed.

End Plain.

(** ** The naive statements of C22, C45 and C49 fail: witnesses *)
Definition realignment_frame (payload : list N) (page : option N) : Frame :=
  {| header := mk_header MacCommand_t false false false Ieee802154_2003
                 (Some (Short 0x1234 0xffff)) (Some (Short 0x1234 0)) 7 None;
     content := FC_Command (CoordinatorRealignment {| cr_pan_id := 0x1234; cr_coordinator_address := 0;
       cr_channel := 11; cr_device_address := 0x5678; cr_channel_page := page |});
     payload := payload; footer := (0xAA, 0xBB) |}.

Lemma realignment_frame_ok p page : octets p -> opt_ok u8_ok page -> frame_ok (realignment_frame p page).
Proof. intros H Hp. repeat split; try reflexivity; assumption. Qed.

Theorem C22_every_written_frame_reads_back_refuted : forall c, cfg_ok c ->
  exists f buf n buf', frame_ok f /\ frame_consistent f /\ content_canonical (content f) /\
    write_plain c aes_cipher f Footer_Explicit buf = (Ok n, buf') /\
    try_read_frame c Footer_Explicit (firstn n buf')
    = if overflow_checks c then Panic else Err Incomplete.
Proof.
  intros c Hc. set (f := realignment_frame [] None).
  assert (Hok : frame_ok f) by (apply realignment_frame_ok; [constructor|exact I]).
  pose proof (C18_plain_frame_layout c aes_cipher f Footer_Explicit Hok eq_refl) as W.
  assert (Ha : compression_allowed (header f)) by discriminate. specialize (W Ha (repeat 0 21)).
  rewrite (proj2 (Nat.leb_le _ _)) in W.
  2: { vm_compute. repeat constructor. }
  exists f, (repeat 0 21). do 2 eexists. split; [exact Hok|]. split; [reflexivity|].
  split; [repeat split; reflexivity|]. split; [exact W|].
  eapply (C22_footer_octet_swallowed c aes_cipher f); try eassumption; reflexivity.
Qed.

Theorem C45_without_exclusion_refuted : forall c, exists f g m buf n buf',
  frame_ok f /\ frame_ok g /\ frame_consistent f /\ frame_consistent g /\
  content_canonical (content f) /\ content_canonical (content g) /\
  write_plain c aes_cipher f m buf = (Ok n, buf') /\ write_plain c aes_cipher g m buf = (Ok n, buf') /\
  frame_sent m 0 f <> frame_sent m 0 g.
Proof.
  intros c. exists (realignment_frame [5] None), (realignment_frame [] (Some 5)), Footer_None, (repeat 0 32).
  set (f := realignment_frame [5] None). set (g := realignment_frame [] (Some 5)).
  assert (Hf : frame_ok f) by (apply realignment_frame_ok; [repeat constructor|exact I]).
  assert (Hg : frame_ok g) by (apply realignment_frame_ok; [constructor|reflexivity]).
  pose proof (C18_plain_frame_layout c aes_cipher f Footer_None Hf eq_refl ltac:(discriminate) (repeat 0 32)) as W1.
  pose proof (C18_plain_frame_layout c aes_cipher g Footer_None Hg eq_refl ltac:(discriminate) (repeat 0 32)) as W2.
  rewrite (proj2 (Nat.leb_le _ _)) in W1 by (apply Nat.leb_le; vm_compute; reflexivity).
  rewrite (proj2 (Nat.leb_le _ _)) in W2 by (apply Nat.leb_le; vm_compute; reflexivity).
  do 2 eexists. split; [exact Hf|]. split; [exact Hg|]. split; [reflexivity|]. split; [reflexivity|].
  split; [repeat split; reflexivity|]. split; [repeat split; reflexivity|].
  split; [exact W1|]. split; [exact W2|]. discriminate.
Qed.

Theorem C49_mismatch_is_refused_refuted : forall c, cfg_ok c -> exists f g buf n buf',
  frame_ok f /\ ~ frame_consistent f /\
  write_plain c aes_cipher f Footer_None buf = (Ok n, buf') /\
  try_read_frame c Footer_None (firstn n buf') = Ok (g, n) /\
  content g <> content f /\ payload g <> payload f.
Proof.
  intros c Hc.
  set (f := {| header := mk_header Data_t false false false Ieee802154_2003 None None 7 None;
               content := FC_Command (AssociationResponse 0x1234 AS_AccessDenied);
               payload := [1; 2]; footer := (0, 0) |}).
  assert (Hok : frame_ok f) by (repeat split; try reflexivity; repeat constructor).
  pose proof (C18_plain_frame_layout c aes_cipher f Footer_None Hok eq_refl ltac:(discriminate) (repeat 0 32)) as W.
  rewrite (proj2 (Nat.leb_le _ _)) in W by (apply Nat.leb_le; vm_compute; reflexivity).
  exists f. do 2 eexists. exists (List.length (wire_frame Footer_None f)). eexists.
  split; [exact Hok|]. split; [discriminate|]. split; [exact W|].
  split; [eapply (C49_mismatch_becomes_payload c aes_cipher f); [exact Hok|exact Hc|reflexivity|exact W]|].
  split; discriminate.
Qed.

(** ** Non-vacuity *)
Definition sample_plain : Frame :=
  {| header := mk_header Beacon_t true false true Ieee802154_2006
       (Some (Extended 0x1234 0x1122334455667788)) (Some (Short 0x4321 0x9abc)) 0xff None;
     content := FC_Beacon sample_beacon; payload := [0xde; 0xf0; 0x99]; footer := (0x12, 0x34) |}.
Example sample_plain_meets :
  frame_ok sample_plain /\ content_canonical (content sample_plain) /\ frame_consistent sample_plain /\
  content_open_ended (content sample_plain) = false /\ compression_allowed (header sample_plain) /\
  cfg_ok host.
Proof.
  assert (B := sample_beacon_ok). destruct B as [B1 B2]. apply C13_beacon_api_values in B1.
  split; [|split; [exact B2|]].
  - split; [repeat split; reflexivity|]. split; [exact B1|]. split; [repeat constructor|]. split; reflexivity.
  - split; [reflexivity|]. split; [reflexivity|]. split; [split; discriminate|]. discriminate.
Qed.
Example sample_plain_round_trip :
  let '(r, buf) := write_plain host aes_cipher sample_plain Footer_Explicit (repeat 0xEE 45) in
  r = Ok 41%nat /\ skipn 36 buf = [0xde; 0xf0; 0x99; 0x12; 0x34; 0xEE; 0xEE; 0xEE; 0xEE] /\
  try_read_frame host Footer_Explicit (firstn 41 buf) = Ok (frame_sent Footer_Explicit 0 sample_plain, 41%nat).
Proof. vm_compute. auto. Qed.
Example sample_plain_reads :
  let bs := [0x01; 0x98; 0x00; 0x12; 0x34; 0x56; 0x78; 0x12; 0x34; 0x9a; 0xbc; 0xde] in
  octets bs /\ try_read_frame host Footer_Explicit bs = Panic /\
  try_read_frame host Footer_None bs <> Panic /\
  try_read_frame host Footer_None ([0x09; 0x00; 0x01; 0x05] ++ [1; 2; 3; 4; 9])
  = Err (BadInput "SecurityEnabled (use Frame::try_read_and_unsecure)").
Proof. vm_compute. repeat split; repeat constructor; discriminate. Qed.

Print Assumptions C18_plain_frame_layout.
Print Assumptions C18_plain_frame_length.
Print Assumptions C18_context_untouched.
Print Assumptions C19_frame_read_exact.
Print Assumptions C20_frame_round_trip_none.
Print Assumptions C21_frame_round_trip_explicit.
Print Assumptions C22_payload_octet_swallowed.
Print Assumptions C22_footer_octet_swallowed.
Print Assumptions C22_every_written_frame_reads_back_refuted.
Print Assumptions C23_frame_read_verdict.
Print Assumptions C23_never_panics_without_footer.
Print Assumptions C23_panics_iff.
Print Assumptions C24_plain_read_refuses_security.
Print Assumptions C24_plain_read_names_security.
Print Assumptions C26_plain_write_decision.
Print Assumptions C26_plain_write_never_panics.
Print Assumptions C26_outcome_by_length_only.
Print Assumptions C39_write_without_context.
Print Assumptions C45_frames_injective.
Print Assumptions C45_without_exclusion_refuted.
Print Assumptions C46_header_locality.
Print Assumptions C46_beacon_locality.
Print Assumptions C46_pending_locality.
Print Assumptions C46_superframe_locality.
Print Assumptions C46_command_locality.
Print Assumptions C47_plain_read_errors.
Print Assumptions C47_plain_write_errors.
Print Assumptions C49_mismatch_becomes_payload.
Print Assumptions C49_mismatch_is_refused_refuted.
