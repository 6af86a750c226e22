(** Property C58: decoding a frame without security and encoding the result. *)
From Coq Require Import List Arith NArith ZArith Bool String Lia ZifyBool ZifyNat ZifyN.
From Verif Require Import ByteCrate Types HeaderModel BeaconModel CommandModel CcmModel FrameModel
  Spec ProofLib HeaderProofs HeaderReadProofs BeaconProofs CommandProofs FrameProofs RepoTests
  Aes128 PropHeader PropContent PropFrame.
Import ListNotations.
Open Scope N_scope.
Open Scope list_scope.
Ltac Zify.zify_post_hook ::= Z.div_mod_to_equations.

(** [x] has no bit that [y] lacks. *)
Definition within (x y : N) : Prop := N.land x y = x.
(** Same length, and octet by octet no new bits. *)
Definition bits_within (xs ys : list N) : Prop := Forall2 within xs ys.

(** The header with the two flags that are never sent. *)
Definition unsent_flags_cleared (h : Header) : Header :=
  {| frame_type := frame_type h; frame_pending := frame_pending h; ack_request := ack_request h;
     pan_id_compress := pan_id_compress h; seq_no_suppress := false; ie_present := false;
     version := version h; seq := seq h; destination := destination h; source := source h;
     auxiliary_security_header := auxiliary_security_header h |}.

Lemma within_refl x : within x x.
Proof. apply N.land_diag. Qed.
Lemma within_0 y : within 0 y.
Proof. reflexivity. Qed.
Lemma land_split k a b x y : a < 2 ^ k -> b < 2 ^ k ->
  N.land (a + 2 ^ k * x) (b + 2 ^ k * y) = N.land a b + 2 ^ k * N.land x y.
Proof.
  intros Ha Hb.
  assert (Low : forall u v, u < 2 ^ k -> u + 2 ^ k * v = N.lor u (N.shiftl v k)).
  { intros u v Hu. rewrite N.shiftl_mul_pow2, (N.mul_comm v).
    rewrite <- N.lxor_lor, <- N.add_nocarry_lxor; [reflexivity| |];
      apply N.bits_inj; intros j; rewrite N.land_spec, N.bits_0, N.mul_comm;
      (destruct (N.lt_ge_cases j k); [rewrite N.mul_pow2_bits_low by assumption; apply andb_false_r|]);
      (destruct (N.eq_dec u 0) as [->|Hn]; [now rewrite N.bits_0|]);
      rewrite (N.bits_above_log2 u); try reflexivity;
      apply N.log2_lt_pow2 in Hu; lia. }
  assert (Hab : N.land a b < 2 ^ k).
  { destruct (N.eq_dec a 0) as [->|Hn]; [rewrite N.land_0_l; lia|].
    assert (N.land a b <= a); [|lia].
    rewrite <- (N.lor_ldiff_and a b) at 2. rewrite N.lor_comm.
    rewrite <- N.lxor_lor, <- N.add_nocarry_lxor; [lia| |];
      apply N.bits_inj; intros j; rewrite !N.land_spec, N.ldiff_spec, N.bits_0;
      destruct (N.testbit a j), (N.testbit b j); reflexivity. }
  rewrite !Low by assumption. apply N.bits_inj. intros j. rewrite N.land_spec, !N.lor_spec, N.land_spec.
  destruct (N.lt_ge_cases j k) as [L|L].
  - rewrite !N.shiftl_spec_low by assumption. now rewrite !orb_false_r.
  - rewrite !N.shiftl_spec_high' by assumption. rewrite N.land_spec.
    assert (Z : forall u, u < 2 ^ k -> N.testbit u j = false).
    { intros u Hu. destruct (N.eq_dec u 0) as [->|Hn]; [apply N.bits_0|].
      apply N.bits_above_log2. apply N.log2_lt_pow2 in Hu; lia. }
    rewrite !Z by assumption. reflexivity.
Qed.
Lemma within_split k a b x y : a < 2 ^ k -> b < 2 ^ k -> within a b -> within x y ->
  within (a + 2 ^ k * x) (b + 2 ^ k * y).
Proof. intros Ha Hb H1 H2. unfold within in *. now rewrite land_split, H1, H2. Qed.
Lemma within_mod x k : within (x mod 2 ^ k) x.
Proof.
  rewrite (N.div_mod' x (2 ^ k)) at 2. rewrite N.add_comm.
  replace (x mod 2 ^ k) with (x mod 2 ^ k + 2 ^ k * 0) at 1 by lia.
  apply within_split; try (apply N.mod_lt, N.pow_nonzero; discriminate); [apply within_refl|apply within_0].
Qed.
Lemma within_high x k : within (2 ^ k * (x / 2 ^ k)) x.
Proof.
  rewrite (N.div_mod' x (2 ^ k)) at 2. rewrite N.add_comm.
  replace (2 ^ k * (x / 2 ^ k)) with (0 + 2 ^ k * (x / 2 ^ k)) at 1 by lia.
  apply within_split; [apply N.neq_0_lt_0, N.pow_nonzero; discriminate|apply N.mod_lt, N.pow_nonzero; discriminate|apply within_0|apply within_refl].
Qed.

Lemma bits_within_refl l : bits_within l l.
Proof. induction l; constructor; [apply within_refl|assumption]. Qed.
Lemma bits_within_app a b x y : bits_within a x -> bits_within b y -> bits_within (a ++ b) (x ++ y).
Proof. apply Forall2_app. Qed.
Lemma bits_within_length a b : bits_within a b -> List.length a = List.length b.
Proof. induction 1; cbn; congruence. Qed.

Lemma Forall2_map_seq {A B} (P : A -> B -> Prop) f g n : forall s,
  (forall i, (s <= i < s + n)%nat -> P (f i) (g i)) -> Forall2 P (map f (List.seq s n)) (map g (List.seq s n)).
Proof.
  induction n as [|n IH]; intros s H; cbn; constructor.
  - apply H. lia.
  - apply IH. intros i Hi. apply H. lia.
Qed.
Lemma clear_within k bs : bits_within (clear_unsent k bs) bs.
Proof.
  enough (H : bits_within (clear_unsent k bs) (map (octet bs) (List.seq 0 (List.length bs)))) by now rewrite map_octet in H.
  unfold clear_unsent. apply Forall2_map_seq. intros i _.
  destruct (i =? 0)%nat; [apply within_mod|]. destruct (i =? 1)%nat; [apply within_high|].
  destruct k as [k|]; [destruct (i =? k)%nat; [apply within_mod|]|]; apply within_refl.
Qed.

Lemma flag_lt b : flag b < 2.
Proof. destruct b; reflexivity. Qed.
Lemma within_flag b : within 0 (flag b).
Proof. apply within_0. Qed.
Lemma direction_within slots r : within (direction_octet slots 0) (direction_octet slots r).
Proof.
  induction slots as [|d l IH]; cbn [direction_octet]; [apply within_0|].
  change 2 with (2 ^ 1). apply within_split; try apply flag_lt; [apply within_refl|exact IH].
Qed.
Lemma gts_within r rd g : (gts_slot_count g <= 7)%nat -> r < 16 -> bits_within (wire_gts 0 0 g) (wire_gts r rd g).
Proof.
  intros Hc Hr. unfold wire_gts. apply bits_within_app.
  - constructor; [|constructor].
    replace (N.of_nat (gts_slot_count g) + 2 ^ 3 * 0 + 2 ^ 7 * flag (gts_permit g))
      with (N.of_nat (gts_slot_count g) + 2 ^ 3 * (0 + 2 ^ 4 * flag (gts_permit g)))
      by (change (2 ^ 7) with 128; change (2 ^ 3) with 8; change (2 ^ 4) with 16; lia).
    replace (N.of_nat (gts_slot_count g) + 2 ^ 3 * r + 2 ^ 7 * flag (gts_permit g))
      with (N.of_nat (gts_slot_count g) + 2 ^ 3 * (r + 2 ^ 4 * flag (gts_permit g)))
      by (change (2 ^ 7) with 128; change (2 ^ 3) with 8; change (2 ^ 4) with 16; lia).
    repeat apply within_split; try apply within_refl; try apply within_0; try (change (2 ^ 3) with 8; lia); try (change (2 ^ 4) with 16; lia).
  - destruct (active_slots g) as [|d l]; [constructor|]. constructor; [apply direction_within|apply bits_within_refl].
Qed.
Lemma pending_within r3 r7 p : (short_address_count p <= 7)%nat -> (extended_address_count p <= 7)%nat ->
  bits_within (wire_pending false false p) (wire_pending r3 r7 p).
Proof.
  intros Hs He. unfold wire_pending. apply bits_within_app; [|apply bits_within_refl]. constructor; [|constructor].
  set (s := N.of_nat (short_address_count p)). set (e := N.of_nat (extended_address_count p)).
  assert (Hs' : s < 8) by lia. assert (He' : e < 8) by lia. clearbody s e.
  assert (X : forall a b, s + 2 ^ 3 * flag a + 2 ^ 4 * e + 2 ^ 7 * flag b = s + 2 ^ 3 * (flag a + 2 ^ 1 * (e + 2 ^ 3 * flag b))).
  { intros a b. change (2 ^ 3) with 8. change (2 ^ 4) with 16. change (2 ^ 7) with 128. change (2 ^ 1) with 2. lia. }
  rewrite !X. cbn [flag].
  repeat apply within_split; try apply within_refl; try apply within_0; try apply flag_lt; try reflexivity; assumption.
Qed.
Lemma superframe_within r s : bits_within (wire_superframe false s) (wire_superframe r s).
Proof.
  unfold wire_superframe. constructor; [apply within_refl|]. constructor; [|constructor].
  set (f := final_cap_slot s mod 16). assert (Hf : f < 16) by (apply N.mod_lt; discriminate). clearbody f.
  assert (X : forall a, f + 2 ^ 4 * flag (battery_life_extension s) + 2 ^ 5 * flag a
      + 2 ^ 6 * flag (pan_coordinator s) + 2 ^ 7 * flag (association_permit s)
    = f + 2 ^ 4 * (flag (battery_life_extension s) + 2 ^ 1 * (flag a + 2 ^ 1 * (flag (pan_coordinator s) + 2 ^ 1 * flag (association_permit s))))).
  { intros a. change (2 ^ 4) with 16. change (2 ^ 5) with 32. change (2 ^ 6) with 64. change (2 ^ 7) with 128. change (2 ^ 1) with 2. lia. }
  rewrite !X. cbn [flag].
  repeat apply within_split; try apply within_refl; try apply within_0; try apply flag_lt; try reflexivity; assumption.
Qed.
Lemma command_within mr cmd : bits_within (wire_command mr_zero cmd) (wire_command mr cmd).
Proof.
  destruct cmd; cbn [wire_command]; try apply bits_within_refl.
  - constructor; [apply within_refl|]. constructor; [|constructor].
    match goal with |- context [wire_capability _ _ _ ?i] => destruct mr as [[] [] []], i as [[] [] [] [] []] end; reflexivity.
  - constructor; [apply within_refl|]. constructor; [|constructor].
    unfold wire_gts_characteristics. set (cnt := gtsc_count _ mod 16).
    assert (Hg : cnt < 16) by (apply N.mod_lt; discriminate). clearbody cnt.
    match goal with |- within (_ + _ * ?a + _ * ?b + _ + _) _ => set (fa := a) in *; set (fb := b) in * end.
    assert (X : forall p q, cnt + 2 ^ 4 * fa + 2 ^ 5 * fb + 2 ^ 6 * flag p + 2 ^ 7 * flag q
      = cnt + 2 ^ 4 * (fa + 2 ^ 1 * (fb + 2 ^ 1 * (flag p + 2 ^ 1 * flag q)))).
    { intros p q. change (2 ^ 4) with 16. change (2 ^ 5) with 32. change (2 ^ 6) with 64. change (2 ^ 7) with 128. change (2 ^ 1) with 2. lia. }
    rewrite !X. cbn [mr_zero mr_a mr_b flag].
    repeat apply within_split; try apply within_refl; try apply within_0; try apply flag_lt; try reflexivity; assumption.
Qed.
Lemma content_within br mr ct : content_canonical ct -> reserved_fit br ct ->
  bits_within (wire_content br_zero mr_zero ct) (wire_content br mr ct).
Proof.
  intros Hc Hr. destruct ct; cbn [wire_content]; try solve [constructor].
  - destruct Hc as (_ & (G & _) & (P1 & P2 & _)). destruct Hr as [Hr _]. unfold wire_beacon.
    apply bits_within_app; [apply superframe_within|]. apply bits_within_app; [now apply gts_within|now apply pending_within].
  - apply command_within.
Qed.

Section Reencode.
Context {K : Type} (c : cfg) (E : block_cipher K).

(** What a decoded header looks like to the next receiver. *)
Lemma sent_cleared h : header_decoded h -> auxiliary_security_header h = None -> header_sent 0 h = unsent_flags_cleared h.
Proof.
  intros Hd Ha. rewrite (header_decoded_sent h 0 Hd); [reflexivity|]. intros a Ha'. congruence.
Qed.

(** A decoded frame is within the ranges of its types. *)
Lemma parts_ok m bs f : octets bs -> frame_parts m bs f -> frame_ok f.
Proof.
  intros Hb (Ha & Hd & Hcc & Hcon & Ho & Hf & r7 & br & mr & Hr & ->).
  apply octets_app in Hb. destruct Hb as [_ Hb]. apply octets_app in Hb. destruct Hb as [_ Hb].
  apply octets_app in Hb. destruct Hb as [Hp Hft].
  split; [apply Hd|]. split; [|split; [exact Hp|]].
  - destruct (content f); try exact I; [|apply Hcc].
    destruct Hcc as (C1 & C2). split; [now apply superframe_canonical_ok|exact C2].
  - destruct m; [rewrite Hf by reflexivity; split; reflexivity|].
    cbn [wire_footer] in Hft. apply octets_cons in Hft. destruct Hft as [H1 Hft]. apply octets_cons in Hft. now destruct Hft.
Qed.

(** ** C58 Decoding and encoding again *)
(** A frame that was decoded, written into a buffer of at least the length of its octets: the
    result has the length of the input; header and content are those octets with all reserved and
    never-sent bits zero and no other bit changed; payload and footer are the same octets; and it
    decodes to the same frame but for the two flags that are never sent. *)
Theorem C58_decode_then_encode : forall m bs f n buf, octets bs -> cfg_ok c ->
  try_read_frame c m bs = Ok (f, n) ->
  (pan_id_compress (header f) = true -> source (header f) <> None) ->
  (n <= List.length buf)%nat ->
  exists out,
    write_plain c E f m buf = (Ok n, out ++ skipn n buf) /\
    List.length out = n /\ n = List.length bs /\
    bits_within out bs /\
    (exists front front', bs = front ++ payload f ++ wire_footer m f /\ out = front' ++ payload f ++ wire_footer m f) /\
    (exists r7 br mr, reserved_fit br (content f) /\
       bs = wire_header LE LE r7 0 (header f) ++ wire_content br mr (content f) ++ payload f ++ wire_footer m f) /\
    out = wire_header LE LE false 0 (unsent_flags_cleared (header f)) ++ wire_content br_zero mr_zero (content f)
          ++ payload f ++ wire_footer m f /\
    try_read_frame c m out
    = Ok ({| header := unsent_flags_cleared (header f); content := content f; payload := payload f; footer := footer f |}, n).
Proof.
  intros m bs f n buf Hb Hc R Hsrc Lb. apply C19_frame_read_exact in R; [|assumption|assumption]. destruct R as [-> P].
  pose proof (parts_ok m bs f Hb P) as Hok.
  destruct P as (Ha & Hd & Hcc & Hcon & Ho & Hf & r7 & br & mr & Hr & Eb).
  assert (Hca : compression_allowed (header f)).
  { intros Hp. destruct Hd as (_ & Hd & _). destruct (Hd Hp) as (d & -> & _). split; [discriminate|now apply Hsrc]. }
  pose proof (C18_plain_frame_layout c E f m Hok Ha Hca buf) as W.
  assert (Ew : wire_frame m f = wire_header LE LE false 0 (unsent_flags_cleared (header f))
     ++ wire_content br_zero mr_zero (content f) ++ payload f ++ wire_footer m f)
    by (unfold wire_frame; now rewrite sent_cleared).
  assert (B : bits_within (wire_frame m f) bs).
  { rewrite Ew, Eb. apply bits_within_app; [|apply bits_within_app; [now apply content_within|apply bits_within_refl]].
    unfold unsent_flags_cleared. rewrite (wire_header_cleared LE r7 0). apply clear_within. }
  pose proof (bits_within_length _ _ B) as L. rewrite L in W. replace (_ <=? _)%nat with true in W by lia.
  exists (wire_frame m f). split; [exact W|]. split; [exact L|]. split; [reflexivity|]. split; [exact B|].
  split.
  { eexists _, _. split; [rewrite Eb; now rewrite app_assoc|rewrite Ew; now rewrite app_assoc]. }
  split; [exists r7, br, mr; auto|]. split; [exact Ew|].
  apply C19_frame_read_exact; [now apply octets_wire_frame|assumption|]. split; [congruence|].
  pose proof (wire_frame_parts m f Hok Ha Hca Hcc Hcon Ho) as Q.
  replace {| header := unsent_flags_cleared (header f); content := content f; payload := payload f; footer := footer f |}
    with (frame_sent m 0 f); [exact Q|].
  unfold frame_sent. rewrite sent_cleared by assumption. destruct m; [rewrite Hf by reflexivity|]; reflexivity.
Qed.

(** Doing it twice changes nothing more: the second time, octets and frame stay the same. *)
Theorem C58_encoding_is_stable : forall m bs f n buf out f2 n2 buf2, octets bs -> cfg_ok c ->
  try_read_frame c m bs = Ok (f, n) ->
  write_plain c E f m buf = (Ok n, out) ->
  try_read_frame c m (firstn n out) = Ok (f2, n2) -> (n <= List.length buf2)%nat ->
  n2 = n /\ write_plain c E f2 m buf2 = (Ok n, firstn n out ++ skipn n buf2).
Proof.
  intros m bs f n buf out f2 n2 buf2 Hb Hc R W R2 L2.
  assert (Hok : frame_ok f).
  { apply C19_frame_read_exact in R; [|assumption|assumption]. now apply (parts_ok m bs). }
  destruct (write_plain_allowed c E f m buf n out Hok W) as [Hca Ha].
  assert (Hsrc : pan_id_compress (header f) = true -> source (header f) <> None) by (intros Hp; now apply Hca).
  assert (Lb : (n <= List.length buf)%nat).
  { destruct (encodes_ok _ _ _ _ _ (C18_plain_frame_layout c E f m Hok Ha Hca) W) as (-> & _ & _ & H). exact H. }
  destruct (C58_decode_then_encode m bs f n buf Hb Hc R Hsrc Lb) as (o & W1 & Lo & _ & _ & _ & _ & Eo & R1).
  assert (Eout : out = o ++ skipn n buf) by congruence.
  assert (Ef : firstn n out = o) by (rewrite Eout, firstn_app, Lo, Nat.sub_diag, firstn_O, app_nil_r; apply firstn_all2; lia).
  rewrite Ef in *. rewrite R1 in R2. injection R2 as <- <-.
  set (g := {| header := unsent_flags_cleared (header f); content := content f; payload := payload f; footer := footer f |}) in *.
  assert (Ho : octets o).
  { rewrite Eo. rewrite <- sent_cleared; [|apply C19_frame_read_exact in R; [apply R|assumption|assumption]|assumption].
    now apply (octets_wire_frame m f). }
  split; [reflexivity|].
  destruct (C58_decode_then_encode m o g n buf2 Ho Hc R1 Hsrc L2) as (o2 & W2 & _ & _ & _ & _ & _ & Eo2 & _).
  rewrite W2. f_equal. f_equal. rewrite Eo2, Eo. reflexivity.
Qed.

(** Which inputs come back octet for octet: exactly those without reserved or never-sent bits. *)
Theorem C58_identity_iff : forall m bs f n buf, octets bs -> cfg_ok c ->
  try_read_frame c m bs = Ok (f, n) ->
  (pan_id_compress (header f) = true -> source (header f) <> None) ->
  (n <= List.length buf)%nat ->
  (write_plain c E f m buf = (Ok n, bs ++ skipn n buf) <-> bs = wire_frame m f).
Proof.
  intros m bs f n buf Hb Hc R Hsrc Lb.
  destruct (C58_decode_then_encode m bs f n buf Hb Hc R Hsrc Lb) as (o & W1 & Lo & En & _ & _ & _ & Eo & R1).
  assert (Ew : wire_frame m f = o).
  { rewrite Eo. unfold wire_frame. apply C19_frame_read_exact in R; [|assumption|assumption].
    destruct R as (_ & Ha & Hd & _). now rewrite sent_cleared. }
  rewrite Ew, W1. split.
  - intros H. injection H as H. apply (f_equal (firstn n)) in H.
    rewrite !firstn_app, Lo, <- En, Nat.sub_diag, firstn_O, !app_nil_r, !firstn_all2 in H by lia. now symmetry.
  - now intros <-.
Qed.

End Reencode.

(** ** Concrete cases *)
(** An association request with reserved bit 7, sequence number suppression and IE flag set in the
    frame control field and all reserved bits of the capability octet set. *)
Definition dirty_command : list N := [0xE3; 0xCB; 7; 0x22; 0x22; 0x11; 0x11; 1; 0; 0; 0; 0; 0; 0; 0; 0x01; 0xFF; 5; 6; 0xAA; 0xBB].
Example dirty_reencoded :
  octets dirty_command /\
  exists f, try_read_frame host Footer_Explicit dirty_command = Ok (f, 21%nat) /\
    (pan_id_compress (header f) = true -> source (header f) <> None) /\
    write_plain host aes_cipher f Footer_Explicit (repeat 0 22)
    = (Ok 21%nat, [0x63; 0xC8; 7; 0x22; 0x22; 0x11; 0x11; 1; 0; 0; 0; 0; 0; 0; 0; 0x01; 0xCE; 5; 6; 0xAA; 0xBB; 0]).
Proof.
  split; [repeat constructor|]. eexists. split; [vm_compute; reflexivity|]. split; [intros _; discriminate|].
  vm_compute. reflexivity.
Qed.
Definition clean_data : list N := [0x41; 0x88; 7; 0x22; 0x22; 0x11; 0x11; 1; 0; 5; 6].
Example clean_unchanged :
  exists f, try_read_frame host Footer_None clean_data = Ok (f, 11%nat) /\ clean_data = wire_frame Footer_None f /\
    write_plain host aes_cipher f Footer_None (repeat 0 11) = (Ok 11%nat, clean_data).
Proof. eexists. split; [vm_compute; reflexivity|]. split; vm_compute; reflexivity. Qed.

Print Assumptions C58_decode_then_encode.
Print Assumptions C58_encoding_is_stable.
Print Assumptions C58_identity_iff.
