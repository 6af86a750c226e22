(** Properties C01 - C08: MAC header and bit conversions. *)
From Coq Require Import List Arith NArith ZArith Bool String Lia ZifyBool ZifyNat ZifyN.
From Verif Require Import ByteCrate Types HeaderModel CcmModel Spec ProofLib HeaderProofs
  HeaderReadProofs BeaconProofs RepoTests.
Import ListNotations.
Open Scope N_scope.
Open Scope list_scope.
Ltac Zify.zify_post_hook ::= Z.div_mod_to_equations.

(** Frame counter a context contributes (irrelevant without one). *)
Definition counter_of {K} (sc : option (SecurityContext K)) : N :=
  match sc with Some s => sc_frame_counter s | None => 0 end.

Section Header.
Context {K : Type} (c : cfg).

Lemma program_length h (sc : option (SecurityContext K)) :
  compression_ok h = true -> (auxiliary_security_header h <> None -> sc <> None) ->
  header_program c h sc
  = (wire_header (native c) (native c) false 0 (header_sent (counter_of sc) h), Ok tt).
Proof.
  intros Hc Ha. unfold header_program. rewrite Hc, wire_sent_mhr by assumption.
  destruct (auxiliary_security_header h) as [a|] eqn:Ea.
  - destruct sc as [s|]; [reflexivity|]. exfalso. now apply Ha.
  - now rewrite app_nil_r.
Qed.

Lemma write_ok_program h (sc : option (SecurityContext K)) buf n buf' : header_ok h ->
  try_write_header c h sc buf = (Ok n, buf') ->
  compression_ok h = true /\ (auxiliary_security_header h <> None -> sc <> None).
Proof.
  intros Hok E. pose proof (emits_header c h sc Hok buf) as [P1 P2].
  destruct (Nat.le_gt_cases (List.length (fst (header_program c h sc))) (List.length buf)) as [L|L].
  - specialize (P1 L). rewrite E in P1. unfold header_program in P1.
    destruct (compression_ok h) eqn:Hc; [|discriminate]. split; [reflexivity|].
    destruct (auxiliary_security_header h) as [a|]; [|congruence].
    destruct sc as [s|]; [discriminate|]. discriminate.
  - destruct (P2 L) as (k & _ & Ek). rewrite E in Ek. discriminate.
Qed.

(** ** C01 Header wire layout *)
Theorem C01_header_wire_layout : forall h (sc : option (SecurityContext K)) buf n buf',
  header_ok h ->
  try_write_header c h sc buf = (Ok n, buf') ->
  buf' = wire_header (native c) (native c) false 0 (header_sent (counter_of sc) h) ++ skipn n buf /\
  n = List.length (wire_header (native c) (native c) false 0 (header_sent (counter_of sc) h)) /\
  (n <= List.length buf)%nat.
Proof.
  intros h sc buf n buf' Hok E.
  destruct (write_ok_program h sc buf n buf' Hok E) as [Hc Ha].
  pose proof (emits_header c h sc Hok buf) as [P1 P2]. rewrite (program_length h sc Hc Ha) in *.
  cbn [fst snd] in *.
  destruct (Nat.le_gt_cases (List.length (wire_header (native c) (native c) false 0
    (header_sent (counter_of sc) h))) (List.length buf)) as [L|L].
  - specialize (P1 L). rewrite E in P1. cbn [result_of] in P1.
    injection P1 as -> ->. auto.
  - destruct (P2 L) as (k & _ & Ek). rewrite E in Ek. discriminate.
Qed.

(** ** C02 Header write decides success exactly *)
Theorem C02_header_write_decision : forall h (sc : option (SecurityContext K)) buf,
  header_ok h ->
  fst (try_write_header c h sc buf)
  = (if List.length buf <? 3 then Err Incomplete
     else if pan_id_compress h && negb (is_some (destination h) && is_some (source h))
     then Err (BadInput "DisallowedPanIdCompress")
     else if List.length buf <? mhr_len h then Err Incomplete
     else match auxiliary_security_header h, sc with
          | None, _ => Ok (mhr_len h)
          | Some _, None => Err (BadInput "MissingSecurityCtx")
          | Some _, Some _ =>
              if List.length buf <? header_len h then Err Incomplete else Ok (header_len h)
          end)%nat.
Proof.
  intros h sc buf Hok. pose proof (emits_header c h sc Hok buf) as [P1 P2].
  assert (L3 : (3 <= mhr_len h)%nat) by (unfold mhr_len; lia).
  assert (Lh : (mhr_len h <= header_len h)%nat) by (unfold header_len; lia).
  replace (pan_id_compress h && negb (is_some (destination h) && is_some (source h)))
    with (negb (compression_ok h)) by
    (unfold compression_ok; destruct (pan_id_compress h), (destination h), (source h); reflexivity).
  assert (F : forall bs st, header_program c h sc = (bs, st) ->
     fst (try_write_header c h sc buf)
     = if (List.length buf <? List.length bs)%nat then Err Incomplete
       else result_of st (List.length bs)).
  { intros bs st Ep. rewrite Ep in *. cbn [fst snd] in *.
    destruct (Nat.ltb_spec (List.length buf) (List.length bs)) as [L|L].
    - destruct (P2 L) as (k & _ & Ek). now rewrite Ek.
    - now rewrite (P1 L). }
  clear P1 P2. destruct (compression_ok h) eqn:Hc; cbn [negb].
  - destruct (auxiliary_security_header h) as [a|] eqn:Ea.
    + destruct sc as [s|].
      * rewrite (F _ _ (program_length h (Some s) Hc ltac:(discriminate))).
        rewrite wire_header_length. cbn [result_of counter_of].
        replace (header_len (header_sent (sc_frame_counter s) h)) with (header_len h).
        2: { pose proof (wire_header_length LE LE false 0 (header_sent (sc_frame_counter s) h)) as W.
             rewrite wire_sent_mhr, Ea, app_length, wire_mhr_length, wire_aux_length in W by assumption.
             rewrite <- W. unfold header_len. rewrite Ea. unfold aux_len. reflexivity. }
        destruct (Nat.ltb_spec (List.length buf) 3); destruct (Nat.ltb_spec (List.length buf) (mhr_len h));
          destruct (Nat.ltb_spec (List.length buf) (header_len h)); try lia; reflexivity.
      * assert (Ep : header_program c h (None (A := SecurityContext K)) = (wire_mhr h, Err (BadInput "MissingSecurityCtx")))
          by (unfold header_program; now rewrite Hc, Ea).
        rewrite (F _ _ Ep), wire_mhr_length. cbn [result_of].
        destruct (Nat.ltb_spec (List.length buf) 3); destruct (Nat.ltb_spec (List.length buf) (mhr_len h));
          try lia; reflexivity.
    + assert (Ep : header_program c h sc = (wire_mhr h, Ok tt))
        by (unfold header_program; now rewrite Hc, Ea).
      rewrite (F _ _ Ep), wire_mhr_length. cbn [result_of].
      destruct (Nat.ltb_spec (List.length buf) 3); destruct (Nat.ltb_spec (List.length buf) (mhr_len h));
        try lia; reflexivity.
  - assert (Ep : header_program c h sc = (le 2 (control_word false (header_sent 0 h)) ++ [seq h],
        Err (BadInput "DisallowedPanIdCompress"))) by (unfold header_program; now rewrite Hc).
    rewrite (F _ _ Ep), app_length, le_length. cbn [result_of List.length Nat.add].
    destruct (Nat.ltb_spec (List.length buf) 3); reflexivity.
Qed.

Theorem C02_header_write_never_panics : forall h (sc : option (SecurityContext K)) buf,
  header_ok h -> fst (try_write_header c h sc buf) <> Panic.
Proof.
  intros h sc buf Hok. rewrite C02_header_write_decision by assumption.
  repeat match goal with |- context [if ?x then _ else _] => destruct x end; try discriminate;
    destruct (auxiliary_security_header h), sc;
    repeat match goal with |- context [if ?x then _ else _] => destruct x end; discriminate.
Qed.

(** ** C03 Header decode is exact *)
Theorem C03_header_decode_exact : forall bs h n, octets bs ->
  (try_read_header c bs = Ok (h, n) <->
   header_decoded h /\ (n <= List.length bs)%nat /\
   exists r7 rs, rs < 8 /\ firstn n bs = wire_header LE (native c) r7 rs h).
Proof.
  intros bs h n Hb. split.
  - intros E. apply try_read_header_sound in E; [|assumption]. tauto.
  - intros (Hd & Hn & r7 & rs & Hr & W).
    assert (En : n = header_len h).
    { rewrite <- (wire_header_length LE (native c) r7 rs h), <- W, firstn_length. lia. }
    rewrite <- (firstn_skipn n bs), W, En. now apply try_read_header_complete.
Qed.

(** ** C04 Header decode is total with the right error *)
Theorem C04_header_decode_verdict : forall bs,
  match header_verdict bs with
  | Some e => try_read_header c bs = Err e
  | None => exists h, try_read_header c bs = Ok (h, header_need bs)
  end.
Proof. intros bs. apply try_read_header_fate. Qed.

Theorem C04_header_decode_never_panics : forall bs, try_read_header c bs <> Panic.
Proof.
  intros bs. pose proof (C04_header_decode_verdict bs) as F.
  destruct (header_verdict bs) as [e|]; [congruence|]. destruct F as [h F]. congruence.
Qed.

Lemma input_word_app bs tail : (2 <= List.length bs)%nat -> input_word (bs ++ tail) = input_word bs.
Proof. destruct bs as [|a [|b r]]; cbn [List.length]; try lia. reflexivity. Qed.

Lemma mhr_need_le w : (mhr_need w <= 23)%nat.
Proof.
  unfold mhr_need. assert (forall x, (mode_len x <= 8)%nat).
  { intros x. unfold mode_len. destruct x as [|[[p|p|]|[p|p|]|]]; lia. }
  pose proof (H (field w 10 2)). pose proof (H (field w 14 2)).
  repeat match goal with |- context [if ?x then _ else _] => destruct x end; lia.
Qed.

Lemma aux_need_le b : (aux_need b <= 14)%nat.
Proof. unfold aux_need. destruct (field b 3 2) as [|[p|p|]]; try lia; destruct p; lia. Qed.

Lemma header_need_le bs : (header_need bs <= 37)%nat.
Proof.
  unfold header_need. pose proof (mhr_need_le (input_word bs)).
  destruct (_ =? 1); [|lia]. destruct (nth_error bs _) as [b|]; [|lia]. pose proof (aux_need_le b). lia.
Qed.

(** Incomplete is reported only when octets are missing: past the three fixed octets, more
    input always helps. *)
Theorem C04_incomplete_means_missing_octets : forall bs,
  try_read_header c bs = Err Incomplete ->
  (List.length bs < 3)%nat \/
  forall tail, (37 <= List.length (bs ++ tail))%nat ->
    exists h n, try_read_header c (bs ++ tail) = Ok (h, n).
Proof.
  intros bs E. destruct (Nat.lt_ge_cases (List.length bs) 3) as [L|L]; [now left|right].
  intros tail Lt. pose proof (C04_header_decode_verdict (bs ++ tail)) as F.
  pose proof (C04_header_decode_verdict bs) as F0.
  assert (V : header_verdict bs = Some Incomplete).
  { destruct (header_verdict bs) as [e|]; [congruence|]. destruct F0 as [h F0]. congruence. }
  assert (V' : header_verdict (bs ++ tail) = None).
  { revert V. unfold header_verdict. rewrite input_word_app by lia.
    replace (List.length bs <? 3)%nat with false by lia.
    replace (List.length (bs ++ tail) <? 3)%nat with false by lia.
    repeat match goal with |- context [if ?x then Some (BadInput _) else _] => destruct x; [discriminate|] end.
    intros _. pose proof (header_need_le (bs ++ tail)).
    now replace (_ <? _)%nat with false by lia. }
  rewrite V' in F. destruct F as [h F]. eauto.
Qed.

(** A rejected header stays rejected, with the same message, whatever follows. *)
Theorem C04_rejection_is_final : forall bs tail m,
  try_read_header c bs = Err (BadInput m) -> try_read_header c (bs ++ tail) = Err (BadInput m).
Proof.
  intros bs tail m E. pose proof (C04_header_decode_verdict (bs ++ tail)) as F.
  pose proof (C04_header_decode_verdict bs) as F0.
  assert (V : header_verdict bs = Some (BadInput m)).
  { destruct (header_verdict bs) as [e|]; [congruence|]. destruct F0 as [h F0]. congruence. }
  assert (V' : header_verdict (bs ++ tail) = Some (BadInput m)).
  { revert V. unfold header_verdict.
    destruct (Nat.ltb_spec (List.length bs) 3) as [L|L]; [discriminate|].
    rewrite input_word_app by lia. rewrite app_length.
    replace (List.length bs + List.length tail <? 3)%nat with false by lia.
    repeat match goal with |- context [if ?x then Some (BadInput _) else _] => destruct x; [tauto|] end.
    destruct (_ <? _)%nat; discriminate. }
  now rewrite V' in F.
Qed.

(** ** C05 Header round trip *)
Lemma header_sent_decoded h fc : header_ok h -> compression_ok h = true -> u32_ok fc ->
  header_decoded (header_sent fc h).
Proof.
  intros (Hseq & Hd & Hs & Ha) Hc Hfc. unfold compression_ok in Hc. split; [|split].
  - repeat split; cbn [header_sent seq destination source auxiliary_security_header]; try assumption.
    + destruct (source h) as [s|], (destination h) as [d|]; cbn [opt_ok] in *; try assumption.
      destruct (pan_id_compress h); [|assumption]. destruct s, d; cbn [with_pan pan_id address_ok] in *; tauto.
    + destruct (auxiliary_security_header h) as [a|]; [|exact I]. split; [exact Hfc|apply Ha].
  - cbn [header_sent pan_id_compress destination source]. intros Hp. rewrite Hp in *. cbn [negb orb] in Hc.
    destruct (destination h) as [d|]; [|discriminate]. destruct (source h) as [s|]; [|discriminate].
    exists d. split; [reflexivity|]. intros s' Es. injection Es as <-. destruct s; reflexivity.
  - cbn [header_sent auxiliary_security_header].
    destruct (auxiliary_security_header h) as [a|]; intros a' Ea; [|discriminate].
    injection Ea as <-. reflexivity.
Qed.

Theorem C05_header_round_trip : forall h (sc : option (SecurityContext K)) buf n buf' tail,
  header_ok h -> u32_ok (counter_of sc) ->
  native c = LE \/ auxiliary_security_header h = None ->
  try_write_header c h sc buf = (Ok n, buf') ->
  try_read_header c (firstn n buf' ++ tail) = Ok (header_sent (counter_of sc) h, n).
Proof.
  intros h sc buf n buf' tail Hok Hfc Hn E.
  destruct (write_ok_program h sc buf n buf' Hok E) as [Hc _].
  destruct (C01_header_wire_layout h sc buf n buf' Hok E) as (Eb & En & _).
  assert (Ew : wire_header (native c) (native c) false 0 (header_sent (counter_of sc) h)
             = wire_header LE (native c) false 0 (header_sent (counter_of sc) h)).
  { destruct Hn as [->|Ha]; [reflexivity|].
    rewrite !wire_sent_mhr by assumption. now rewrite Ha. }
  rewrite Eb, firstn_app_exact' by assumption. rewrite Ew in *.
  rewrite try_read_header_complete; [|reflexivity|now apply header_sent_decoded].
  now rewrite En, wire_header_length.
Qed.

(** ** C06 Decoded headers re-encode to their own bytes *)
Lemma header_decoded_sent h a0 : header_decoded h ->
  (forall a, auxiliary_security_header h = Some a -> frame_counter a = a0) ->
  header_sent a0 h =
  {| frame_type := frame_type h; frame_pending := frame_pending h; ack_request := ack_request h;
     pan_id_compress := pan_id_compress h; seq_no_suppress := false; ie_present := false;
     version := version h; seq := seq h; destination := destination h; source := source h;
     auxiliary_security_header := auxiliary_security_header h |}.
Proof.
  intros (_ & Hp & Hk) Hfc. unfold header_sent. f_equal.
  - destruct (source h) as [s|]; [|reflexivity]. destruct (destination h) as [d|] eqn:Ed; [|reflexivity].
    destruct (pan_id_compress h); [|reflexivity]. f_equal.
    destruct (Hp eq_refl) as (d' & E & Hs). specialize (Hs s eq_refl). injection E as <-.
    destruct s; cbn [with_pan pan_id] in *; now rewrite Hs.
  - destruct (auxiliary_security_header h) as [[ctl fc k]|]; [|reflexivity].
    specialize (Hk _ eq_refl). specialize (Hfc _ eq_refl). cbn in *. subst fc.
    destruct ctl; cbn in *. now subst.
Qed.

Lemma map_octet bs : map (octet bs) (List.seq 0 (List.length bs)) = bs.
Proof.
  apply nth_ext with (d := 0) (d' := 0); rewrite map_length, seq_length; [reflexivity|].
  intros i Hi. rewrite nth_indep with (d' := octet bs 0) by now rewrite map_length, seq_length.
  rewrite map_nth, seq_nth by assumption. reflexivity.
Qed.

Lemma map_seq_shift {A} (f : nat -> A) k n : map f (List.seq k n) = map (fun i => f (k + i)%nat) (List.seq 0 n).
Proof.
  revert k. induction n as [|n IH]; intros k; [reflexivity|]. cbn [List.seq map].
  rewrite Nat.add_0_r. f_equal. rewrite (IH (S k)), <- (seq_shift n 0), map_map.
  apply map_ext. intros i. f_equal. lia.
Qed.

Lemma clear_none o0 o1 rest :
  clear_unsent None (o0 :: o1 :: rest) = o0 mod 128 :: 4 * (o1 / 4) :: rest.
Proof.
  unfold clear_unsent. cbn [List.length List.seq map]. cbn [Nat.eqb].
  change (octet (o0 :: o1 :: rest) 0) with o0. change (octet (o0 :: o1 :: rest) 1) with o1.
  do 2 f_equal. rewrite map_seq_shift.
  transitivity (map (octet rest) (List.seq 0 (List.length rest))); [|apply map_octet].
  apply map_ext. intros i. reflexivity.
Qed.

Lemma clear_some o0 o1 mid x rest :
  clear_unsent (Some (2 + List.length mid)%nat) (o0 :: o1 :: mid ++ x :: rest)
  = o0 mod 128 :: 4 * (o1 / 4) :: mid ++ x mod 32 :: rest.
Proof.
  unfold clear_unsent. cbn [List.length List.seq map]. cbn [Nat.eqb].
  change (octet (o0 :: o1 :: ?r) 0) with o0. change (octet (o0 :: o1 :: ?r) 1) with o1.
  do 2 f_equal. rewrite map_seq_shift, app_length. cbn [List.length].
  rewrite seq_app, map_app. cbn [List.seq map]. f_equal.
  - transitivity (map (octet mid) (List.seq 0 (List.length mid))); [|apply map_octet].
    apply map_ext_in. intros i Hi. apply in_seq in Hi. cbn [Nat.add Nat.eqb].
    replace (i =? List.length mid)%nat with false by lia.
    unfold octet. cbn [nth]. apply app_nth1. lia.
  - f_equal.
    + cbn [Nat.add Nat.eqb]. rewrite Nat.eqb_refl. unfold octet. cbn [nth].
      rewrite app_nth2, Nat.sub_diag by lia. reflexivity.
    + rewrite map_seq_shift.
      transitivity (map (octet rest) (List.seq 0 (List.length rest))); [|apply map_octet].
      apply map_ext. intros i.
      change ((if (S (List.length mid + i) =? List.length mid)%nat
              then octet (o0 :: o1 :: mid ++ x :: rest) (S (S (S (List.length mid + i)))) mod 2 ^ 5
              else octet (o0 :: o1 :: mid ++ x :: rest) (S (S (S (List.length mid + i))))) = octet rest i).
      replace (S (List.length mid + i) =? List.length mid)%nat with false
        by (symmetry; apply Nat.eqb_neq; lia).
      unfold octet. cbn [nth]. rewrite app_nth2 by lia.
      now replace (S (List.length mid + i) - List.length mid)%nat with (S i) by lia.
Qed.

Lemma wire_header_cleared ko r7 rs h :
  wire_header LE ko false 0
   {| frame_type := frame_type h; frame_pending := frame_pending h; ack_request := ack_request h;
     pan_id_compress := pan_id_compress h; seq_no_suppress := false; ie_present := false;
     version := version h; seq := seq h; destination := destination h; source := source h;
     auxiliary_security_header := auxiliary_security_header h |}
  = clear_unsent (match auxiliary_security_header h with None => None | Some _ => Some (mhr_len h) end)
                 (wire_header LE ko r7 rs h).
Proof.
  set (h' := {| frame_type := _ |}).
  assert (W : le 2 (control_word false h') =
    [octet (le 2 (control_word r7 h)) 0 mod 128; 4 * (octet (le 2 (control_word r7 h)) 1 / 4)] /\
    le 2 (control_word r7 h) = [octet (le 2 (control_word r7 h)) 0; octet (le 2 (control_word r7 h)) 1]).
  { rewrite !le_S, !le_0. unfold octet. cbn [nth]. split; [|reflexivity].
    unfold h', control_word. cbn [frame_type frame_pending ack_request pan_id_compress seq_no_suppress
      ie_present version seq destination source auxiliary_security_header].
    pose proof (type_code_lt (frame_type h)). pose proof (version_code_lt (version h)).
    pose proof (mode_code_lt (destination h)). pose proof (mode_code_lt (source h)).
    generalize dependent (type_code (frame_type h)). generalize dependent (version_code (version h)).
    generalize dependent (addr_mode_code (destination h)). generalize dependent (addr_mode_code (source h)).
    clear h'.
    assert (B : forall b, flag b < 2) by apply flag_lt.
    pose proof (B r7). pose proof (B (frame_pending h)). pose proof (B (ack_request h)).
    pose proof (B (is_some (auxiliary_security_header h))). pose proof (B (pan_id_compress h)).
    pose proof (B (seq_no_suppress h)). pose proof (B (ie_present h)). clear B.
    generalize dependent (flag r7). generalize dependent (flag (frame_pending h)).
    generalize dependent (flag (ack_request h)). generalize dependent (flag (is_some (auxiliary_security_header h))).
    generalize dependent (flag (pan_id_compress h)). generalize dependent (flag (seq_no_suppress h)).
    generalize dependent (flag (ie_present h)). clear. cbn [flag].
    intros. change (2^3) with 8. change (2^4) with 16. change (2^5) with 32. change (2^6) with 64.
    change (2^7) with 128. change (2^8) with 256. change (2^9) with 512. change (2^10) with 1024.
    change (2^12) with 4096. change (2^14) with 16384.
    f_equal; [lia|f_equal; lia]. }
  destruct W as [W1 W2]. unfold wire_header. rewrite W1, W2. clear W1 W2.
  cbn [app]. unfold h'. cbn [seq destination source pan_id_compress auxiliary_security_header]. clear h'.
  destruct (auxiliary_security_header h) as [a|].
  - set (D := match destination h with None => [] | Some a => wire_address a end).
    set (S' := match source h with None => [] | Some a => _ end).
    assert (Lm : (2 + List.length (seq h :: D ++ S') = mhr_len h)%nat).
    { rewrite <- wire_mhr_length. unfold wire_mhr. fold D S'. rewrite !app_length, le_length.
      cbn [List.length]. rewrite app_length. lia. }
    rewrite <- Lm. unfold wire_aux. cbn [app].
    pose proof (clear_some (octet (le 2 (control_word r7 h)) 0) (octet (le 2 (control_word r7 h)) 1)
      (seq h :: D ++ S')
      (level_code (security_level (control a)) + 2 ^ 3 * key_mode_code (mode_of_key (key_identifier a)) + 2 ^ 5 * rs)
      (in_order LE 4 (frame_counter a) ++ match key_identifier a with Some k => wire_key_identifier ko k | None => [] end)) as C.
    cbn [app] in C. rewrite <- !app_assoc in C. rewrite C. clear C.
    do 3 f_equal. do 3 f_equal.
    pose proof (level_code_lt (security_level (control a))).
    pose proof (key_mode_code_lt (mode_of_key (key_identifier a))).
    change (2 ^ 3) with 8. change (2 ^ 5) with 32. lia.
  - rewrite clear_none. reflexivity.
Qed.

Theorem C06_decoded_header_reencodes : forall bs h n (sc : option (SecurityContext K)) buf,
  octets bs -> try_read_header c bs = Ok (h, n) ->
  (pan_id_compress h = true -> source h <> None) ->
  (forall a, auxiliary_security_header h = Some a ->
     native c = LE /\ exists s, sc = Some s /\ sc_frame_counter s = frame_counter a) ->
  (n <= List.length buf)%nat ->
  try_write_header c h sc buf
  = (Ok n, clear_unsent (match auxiliary_security_header h with
                         | None => None | Some _ => Some (mhr_len h) end) (firstn n bs)
           ++ skipn n buf).
Proof.
  intros bs h n sc buf Hb E Hsrc Haux Hl.
  destruct (try_read_header_sound c bs h n Hb E) as (Ln & Hd & r7 & rs & Hr & W).
  assert (Hc : compression_ok h = true).
  { unfold compression_ok. destruct (pan_id_compress h) eqn:Ep; [|reflexivity].
    destruct Hd as (_ & Hp & _). destruct (Hp Ep) as (d & -> & _).
    specialize (Hsrc eq_refl). destruct (source h); [reflexivity|contradiction]. }
  assert (Ha : auxiliary_security_header h <> None -> sc <> None).
  { destruct (auxiliary_security_header h) as [a|] eqn:Ea; [|congruence].
    destruct (Haux a eq_refl) as (_ & s & -> & _). discriminate. }
  pose proof (emits_header c h sc (proj1 Hd) buf) as [P1 _].
  rewrite (program_length h sc Hc Ha) in P1. cbn [fst snd result_of] in P1.
  assert (Ew : wire_header (native c) (native c) false 0 (header_sent (counter_of sc) h)
    = clear_unsent (match auxiliary_security_header h with
                         | None => None | Some _ => Some (mhr_len h) end) (firstn n bs)).
  { rewrite W, <- wire_header_cleared with (r7 := r7) (rs := rs), <- (header_decoded_sent h (counter_of sc) Hd).
    - rewrite !wire_sent_mhr by assumption. f_equal.
      destruct (auxiliary_security_header h) as [a|] eqn:Ea; [|reflexivity].
      destruct (Haux a eq_refl) as (-> & _). reflexivity.
    - intros a Ea. destruct (Haux a Ea) as (_ & s & -> & Es). now rewrite <- Es. }
  rewrite Ew in P1.
  assert (Lc : List.length (clear_unsent (match auxiliary_security_header h with
                         | None => None | Some _ => Some (mhr_len h) end) (firstn n bs)) = n).
  { unfold clear_unsent. rewrite map_length, seq_length, firstn_length. lia. }
  rewrite Lc in P1. now apply P1.
Qed.

(** The excluded case: such headers are accepted by the decoder and refused by the encoder. *)
Theorem C06_reencode_every_decoded_header_refuted :
  exists bs h n, octets bs /\ try_read_header c bs = Ok (h, n) /\
    forall (sc : option (SecurityContext K)) buf, (n <= List.length buf)%nat ->
      fst (try_write_header c h sc buf) = Err (BadInput "DisallowedPanIdCompress").
Proof.
  exists [0x41; 0x08; 0x01; 0x34; 0x12; 0x78; 0x56].
  eexists. eexists. split; [repeat constructor|]. split; [vm_compute; reflexivity|].
  intros sc buf Hl. rewrite C02_header_write_decision.
  - destruct (Nat.ltb_spec (List.length buf) 3); [lia|]. reflexivity.
  - repeat split; reflexivity.
Qed.

(** ** C07 Header size function versus encoded size *)
Theorem C07_octet_size : forall h (sc : option (SecurityContext K)) buf n buf',
  header_ok h -> try_write_header c h sc buf = (Ok n, buf') ->
  (header_octet_size h
   + match auxiliary_security_header h with None => 0 | Some a => aux_octet_size a end
   = n + if pan_id_compress h then 2 else 0)%nat.
Proof.
  intros h sc buf n buf' Hok E.
  destruct (write_ok_program h sc buf n buf' Hok E) as [Hc _].
  assert (En : n = header_len h).
  { destruct (C01_header_wire_layout h sc buf n buf' Hok E) as (_ & -> & _).
    rewrite wire_sent_mhr, app_length, wire_mhr_length by assumption. unfold header_len.
    destruct (auxiliary_security_header h) as [a|]; [|reflexivity]. now rewrite wire_aux_length. }
  subst n. unfold header_octet_size, header_len, mhr_len, dest_len, source_len, compression_ok in *.
  assert (A : match auxiliary_security_header h with None => 0 | Some a => aux_octet_size a end%nat
            = match auxiliary_security_header h with None => 0 | Some a => aux_len a end%nat).
  { destruct (auxiliary_security_header h) as [a|]; [|reflexivity].
    unfold aux_octet_size, aux_len, key_len. destruct (key_identifier a) as [[[[v|v]|] i]|]; reflexivity. }
  rewrite A. clear A. destruct (pan_id_compress h), (destination h) as [[]|], (source h) as [[]|];
    cbn in Hc; try discriminate; cbn [address_octet_size addr_len]; lia.
Qed.

(** So with compression the size function is wrong. *)
Theorem C07_octet_size_is_encoded_size_refuted :
  exists h buf n buf', header_ok h /\
    try_write_header c h (None (A := SecurityContext K)) buf = (Ok n, buf') /\
    header_octet_size h <> n.
Proof.
  exists (mk_header Data_t false false true Ieee802154_2003
            (Some (Short 0x1234 0x5678)) (Some (Short 0x1234 0x9abc)) 1 None), (repeat 0 20).
  eexists. eexists. split; [repeat split; reflexivity|]. split; [vm_compute; reflexivity|].
  discriminate.
Qed.

End Header.

(** ** C08 Bit conversions are exact inverses *)
Theorem C08_frame_type_bits : forall b t, frame_type_from_bits b = Some t <-> b = type_code t.
Proof. intros b t. split; [apply type_from_inv|intros ->; apply type_from_code]. Qed.
Theorem C08_frame_version_bits : forall b v, frame_version_from_bits b = Some v <-> b = version_code v.
Proof. intros b v. split; [apply version_from_inv|intros ->; apply version_from_code]. Qed.
Theorem C08_address_mode_bits : forall b,
  match address_mode_from_bits b with
  | Ok Mode_None => b = 0
  | Ok Mode_Short => b = 2
  | Ok Mode_Extended => b = 3
  | Err e => b <> 0 /\ b <> 2 /\ b <> 3 /\ e = InvalidAddressMode b
  | Panic => False
  end.
Proof. intros b. destruct b as [|[[p|p|]|[p|p|]|]]; cbn; repeat split; congruence. Qed.
Theorem C08_security_level_bits : forall b l, security_level_from_bits b = Some l <-> b = level_code l.
Proof. intros b l. split; [apply level_from_inv|intros ->; apply level_from_code]. Qed.
Theorem C08_key_id_mode_bits : forall b m, key_id_mode_from_bits b = Some m <-> b = key_mode_code m.
Proof. intros b m. split; [apply key_mode_from_inv|intros ->; apply key_mode_from_code]. Qed.
Theorem C08_discriminants : (forall t, frame_type_bits t = type_code t) /\
  (forall v, frame_version_bits v = version_code v) /\
  (forall l, security_level_to_bits l = level_code l) /\
  (forall m, key_id_mode_to_bits m = key_mode_code m) /\
  (forall a, address_mode_bits (address_mode_of a) = addr_mode_code a) /\
  (forall a, address_mode_of (Some a) = address_mode_of_address a) /\
  (forall l, mic_octet_size l = tag_len l).
Proof. repeat split; intros x; destruct x as [[]|]; reflexivity || (destruct x; reflexivity). Qed.
Theorem C08_broadcast : forall m,
  address_mode_of (address_broadcast m) = m /\
  forall a, address_broadcast m = Some a ->
    pan_id a = 2 ^ 16 - 1 /\
    match a with Short _ s => s = 2 ^ 16 - 1 | Extended _ x => x = 2 ^ 64 - 1 end.
Proof. intros [| |]; split; try reflexivity; intros a E; inversion E; split; reflexivity. Qed.

(** ** Non-vacuity: concrete cases meeting the hypotheses *)
Definition sample_header : Header :=
  {| frame_type := Data_t; frame_pending := true; ack_request := true; pan_id_compress := true;
     seq_no_suppress := true; ie_present := true; version := Ieee802154; seq := 0x91;
     destination := Some (Extended 0x208f 0x1122334455667788); source := Some (Short 0x4444 0x9abc);
     auxiliary_security_header :=
       Some {| control := SecurityControl_new SL_ENCMIC64; frame_counter := 7;
               key_identifier := Some {| key_source := Some (KS_Long 0x0102030405060708); key_index := 3 |} |} |}.
Definition sample_sc : SecurityContext (list N) := SecurityContext_new 0xAABB 0x01020304 static_key_lookup.

Example sample_header_writes :
  header_ok sample_header /\ u32_ok (counter_of (Some sample_sc)) /\ native host = LE /\
  try_write_header host sample_header (Some sample_sc) (repeat 0xEE 32) =
  (Ok 29%nat, [0x79; 0xac; 0x91; 0x8f; 0x20; 0x88; 0x77; 0x66; 0x55; 0x44; 0x33; 0x22; 0x11; 0xbc; 0x9a;
     0x1e; 0x04; 0x03; 0x02; 0x01; 0x08; 0x07; 0x06; 0x05; 0x04; 0x03; 0x02; 0x01; 0x03; 0xEE; 0xEE; 0xEE]).
Proof. repeat split; vm_compute; reflexivity. Qed.

Definition sample_header_bytes : list N :=
  [0xf9; 0xaf; 0x91; 0x8f; 0x20; 0x88; 0x77; 0x66; 0x55; 0x44; 0x33; 0x22; 0x11; 0xbc; 0x9a;
   0xfe; 0x04; 0x03; 0x02; 0x01; 0x08; 0x07; 0x06; 0x05; 0x04; 0x03; 0x02; 0x01; 0x03; 0x55].
Example sample_header_reads :
  exists h, try_read_header host sample_header_bytes = Ok (h, 29%nat) /\ octets sample_header_bytes /\
    pan_id_compress h = true /\ source h = Some (Short 0x208f 0x9abc) /\
    (exists a, auxiliary_security_header h = Some a /\ frame_counter a = sc_frame_counter sample_sc).
Proof. eexists. split; [vm_compute; reflexivity|]. repeat split; try reflexivity; repeat constructor. eexists. split; reflexivity. Qed.
Example sample_header_incomplete :
  try_read_header host (firstn 20 sample_header_bytes) = Err Incomplete /\
  try_read_header host [0x04; 0x00; 0x00] = Err (BadInput "InvalidFrameType").
Proof. split; vm_compute; reflexivity. Qed.

Print Assumptions C01_header_wire_layout.
Print Assumptions C02_header_write_decision.
Print Assumptions C02_header_write_never_panics.
Print Assumptions C03_header_decode_exact.
Print Assumptions C04_header_decode_verdict.
Print Assumptions C04_header_decode_never_panics.
Print Assumptions C04_incomplete_means_missing_octets.
Print Assumptions C04_rejection_is_final.
Print Assumptions C05_header_round_trip.
Print Assumptions C06_decoded_header_reencodes.
Print Assumptions C06_reencode_every_decoded_header_refuted.
Print Assumptions C07_octet_size.
Print Assumptions C07_octet_size_is_encoded_size_refuted.
Print Assumptions C08_discriminants.
Print Assumptions C08_broadcast.
