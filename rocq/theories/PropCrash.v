(** Property C90: calls that are cut short. *)
From Coq Require Import List Arith NArith ZArith Bool String Lia Sorting.Sorted ZifyBool ZifyNat ZifyN.
From Verif Require Import ByteCrate Types HeaderModel BeaconModel CommandModel CcmModel FrameModel CrashModel
  Spec ProofLib HeaderProofs HeaderReadProofs FrameProofs RepoTests Aes128 CcmProofs
  SecSpec SecureProofs PropSecure PropReceive HistorySpec RestartSpec PropHistory PropRestart PropReconfig.
Import ListNotations.
Open Scope N_scope.
Open Scope list_scope.

(** * Specification *)

(** [mid] is [old] with some of its octets replaced by those of [new] at the same place: what is to be
    seen while [new] is being written over [old], in any order. *)
Definition partly (old new mid : list N) : Prop :=
  List.length mid = List.length old /\
  forall i, octet mid i = octet old i \/ ((i < List.length new)%nat /\ octet mid i = octet new i).

(** A call that goes through the states [pts] (a counter or a store, and the buffer) is stopped at [z]:
    in one of the states, or somewhere between one and the next. *)
Definition stopped {A} (pts : list (A * list N)) (z : A * list N) : Prop :=
  exists i p q, nth_error pts i = Some p /\ (q = p \/ nth_error pts (S i) = Some q) /\
    (fst z = fst p \/ fst z = fst q) /\ partly (snd p) (snd q) (snd z).

(** A sender whose calls may each be stopped anywhere, and that goes on every time with the frame counter
    that it finds in its context, or a later one. A call that is not stopped is one that is stopped at its
    end. Listed are the call, the counter before and the counter found afterwards. *)
Inductive goes_on {K} (c : cfg) (E : block_cipher K) (sc : SecurityContext K) : N -> list (call * N * N) -> Prop :=
| goes_end n : goes_on c E sc n []
| goes_step n x z n2 rest : frame_ok (c_frame x) ->
    stopped (write_points c E (c_frame x) (c_mode x) (at_counter sc n) (c_buffer x)) z ->
    fst z <= n2 -> u32_ok n2 -> goes_on c E sc n2 rest ->
    goes_on c E sc n ((x, n, fst z) :: rest).
(** The nonces of the calls that had come as far as to increment the counter. *)
Definition nonces_begun {K} (sc : SecurityContext K) (log : list (call * N * N)) : list (list N) :=
  map (fun e => mac_nonce (sc_euid sc) (snd (fst e))
         (match auxiliary_security_header (header (c_frame (fst (fst e)))) with
          | Some a => security_level (control a) | None => SL_None end))
      (filter (fun e => snd (fst e) <? snd e) log).

(** How a reception ended: it came to its end, or it was stopped and this is what was found. *)
Inductive ending (D : Type) := Completed | Stopped (z : D * list N).
Arguments Completed {D}. Arguments Stopped {D} z.
Section Receptions.
Context {K D : Type} (c : cfg) (E : block_cipher K).
Implicit Types e : reception K D * ending D.
Definition possible e : Prop :=
  match snd e with
  | Completed => True
  | Stopped z => stopped (read_points c E (a_bytes (p_arrival (fst e))) (a_ctx (p_arrival (fst e))) (p_lookup (fst e)) (p_store (fst e))) z
  end.
(** The device store found afterwards. *)
Definition found e : D := match snd e with Completed => snd (received_once c E (fst e)) | Stopped z => fst z end.
(** The frames for device [x] that the application has been given: only by receptions that came to their end. *)
Definition given (x : N) (events : list (reception K D * ending D)) : list (list N * Frame) :=
  flat_map (fun e => match snd e with Completed => taken_for c E x (fst e) | Stopped _ => [] end) events.
(** Between two receptions the counter of device [x] is not lowered, compared to what was found. *)
Definition found_never_lowered (get : D -> N -> DeviceDescriptor) (x : N) (events : list (reception K D * ending D)) : Prop :=
  Sorted (fun a b => dev_frame_counter (get (found a) x) <= dev_frame_counter (get (p_store (fst b)) x)) events.
End Receptions.

(** * Lemmas *)

Lemma partly_refl old new : partly old new old.
Proof. split; [reflexivity|]. intros i. now left. Qed.
Lemma partly_prefix old new k : (k <= List.length new)%nat -> (k <= List.length old)%nat ->
  partly old new (firstn k new ++ skipn k old).
Proof.
  intros H1 H2. split; [rewrite app_length, firstn_length, skipn_length; lia|].
  intros i. destruct (Nat.ltb_spec i k) as [L|L].
  - right. split; [lia|]. rewrite octet_app_l by (rewrite firstn_length; lia). now apply octet_firstn.
  - left. rewrite octet_app_r by (rewrite firstn_length; lia). rewrite octet_skipn. f_equal. rewrite firstn_length. lia.
Qed.
Lemma partly_torn old new a b m : partly old new a -> partly old new b -> partly a b m -> partly old new m.
Proof.
  intros (La & Ha) (Lb & Hb) (Lm & Hm). split; [congruence|]. intros i.
  destruct (Hm i) as [->|(_ & ->)]; [apply Ha|apply Hb].
Qed.
Lemma partly_more old new more mid : partly old new mid -> partly old (new ++ more) mid.
Proof.
  intros (L & H). split; [exact L|]. intros i. destruct (H i) as [X|(Li & X)]; [now left|right].
  split; [rewrite app_length; lia|]. now rewrite octet_app_l by assumption.
Qed.
Lemma partly_after front old new mid : partly old new mid -> partly (front ++ old) (front ++ new) (front ++ mid).
Proof.
  intros (L & H). split; [rewrite !app_length; lia|]. intros i. destruct (Nat.ltb_spec i (List.length front)) as [Li|Li].
  - left. now rewrite !octet_app_l by assumption.
  - rewrite !octet_app_r by assumption. destruct (H (i - List.length front)%nat) as [X|(Lx & X)]; [now left|right].
    split; [rewrite app_length; lia|exact X].
Qed.
Lemma partly_trans old new mid : forall mid2, partly old new mid -> partly mid new mid2 -> partly old new mid2.
Proof.
  intros mid2 (L1 & H1) (L2 & H2). split; [congruence|]. intros i. destruct (H2 i) as [->|X]; [apply H1|now right].
Qed.

Section Sender.
Context {K : Type} (c : cfg) (E : block_cipher K).
Hypothesis HE : cipher_ok E.

(** The steps of secure_frame. *)
Lemma secure_points_end f sc m tl :
  let '(r, (sc', tl')) := secure_frame c E f sc m tl in
  secure_points c E f sc m tl = [] /\ sc' = sc /\ tl' = tl \/
  exists l, secure_points c E f sc m tl = l ++ [(sc_frame_counter sc', tl')].
Proof.
  unfold secure_frame, secure_points. cbv zeta.
  destruct m; [|left; auto]. unfold has_security.
  destruct (auxiliary_security_header (header f)) as [a|]; [|left; destruct (frame_type (header f)); auto].
  destruct (frame_type (header f)); try (left; now auto).
  destruct (negb _); [left; auto|].
  destruct (write_with (write_slice (payload f)) (tl, 0%nat)) as [[[]|e|] [b off]];
    try (right; exists []; reflexivity).
  assert (G0 : exists l, [(sc_frame_counter sc, b)] = l ++ [(sc_frame_counter sc, b)]) by (exists []; reflexivity).
  destruct (security_level (control a)) eqn:El; try (right; exact G0);
    (destruct (sc_frame_counter sc =? 0xFFFFFFFF); [right; exact G0|]);
    (destruct (u32_add c (sc_frame_counter sc) 1) as [fc|e|]; try (right; exact G0));
    cbn [set_sc_frame_counter sc_frame_counter sc_key_provider];
    (destruct (sc_key_provider sc DstAddrMode (key_identifier a) (destination (header f))) as [[eui key]|];
      [|right; exists [(sc_frame_counter sc, b)]; reflexivity]);
    cbn [level_use]; try (right; exists [(sc_frame_counter sc, b)]; reflexivity);
    (destruct (off <=? List.length b)%nat; [|right; exists [(sc_frame_counter sc, b)]; reflexivity]);
    (destruct (do_secure E _ _ key _ (firstn off b)) as [[dd tag]|]; [|right; exists [(sc_frame_counter sc, b)]; reflexivity]);
    (destruct (write_with (write_slice tag) (dd ++ skipn off b, off)) as [[[]|e|] [b2 off2]];
     right; exists [(sc_frame_counter sc, b); (fc, b); (fc, dd ++ skipn off b)]; reflexivity).
Qed.

Lemma secure_frame_kind f sc m tl :
  let '(r, (sc', tl')) := secure_frame c E f sc m tl in
  match r with
  | Ok _ => m = Footer_None /\ secure_points c E f sc m tl <> []
  | Err SecurityNotEnabled => m = Footer_None /\ secure_points c E f sc m tl = [] /\ sc' = sc /\ tl' = tl
  | _ => True
  end.
Proof.
  unfold secure_frame, secure_points. cbv zeta.
  destruct m; [|exact I]. unfold has_security.
  destruct (auxiliary_security_header (header f)) as [a|]; [|destruct (frame_type (header f)); now auto].
  destruct (frame_type (header f)); try exact I.
  destruct (negb _); [exact I|].
  destruct (write_with (write_slice (payload f)) (tl, 0%nat)) as [[[]|e|] [b off]]; try exact I.
  destruct (security_level (control a)) eqn:El; try (split; [reflexivity|discriminate]);
    (destruct (sc_frame_counter sc =? 0xFFFFFFFF); [exact I|]);
    (destruct (u32_add c (sc_frame_counter sc) 1) as [fc|e|]; try exact I);
    cbn [set_sc_frame_counter sc_frame_counter sc_key_provider];
    (destruct (sc_key_provider sc DstAddrMode (key_identifier a) (destination (header f))) as [[eui key]|]; [|exact I]);
    cbn [level_use]; try exact I;
    (destruct (off <=? List.length b)%nat; [|exact I]);
    (destruct (do_secure E _ _ key _ (firstn off b)) as [[dd tag]|]; [|exact I]);
    (destruct (write_with (write_slice tag) (dd ++ skipn off b, off)) as [[[]|e|] [b2 off2]]; try exact I;
     split; [reflexivity|discriminate]).
Qed.

Lemma secure_points_shape f sc m tl : octets (payload f) -> u32_ok (sc_frame_counter sc) ->
  let fc := sc_frame_counter sc in
  secure_points c E f sc m tl = [] \/
  exists tl1, partly tl (payload f) tl1 /\
    (secure_points c E f sc m tl = [(fc, tl1)] \/
     exists rest, secure_points c E f sc m tl = (fc, tl1) :: (fc + 1, tl1) :: rest /\
       Forall (fun p => fst p = fc + 1 /\ List.length (snd p) = List.length tl) rest).
Proof using HE.
  intros Hp Hu fc. subst fc. unfold secure_points. cbv zeta.
  destruct m; [|now left]. destruct (frame_type (header f)); try (now left).
  destruct (auxiliary_security_header (header f)) as [a|]; [|now left].
  destruct (negb _) eqn:Lest; [now left|right].
  assert (W : write_with (write_slice (payload f)) (tl, 0%nat)
    = if (List.length tl <? List.length (payload f))%nat then (Err Incomplete, (tl, 0%nat))
      else (Ok tt, (payload f ++ skipn (List.length (payload f)) tl, List.length (payload f)))).
  { unfold write_with, write_slice. change (List.length tl <? 0)%nat with false. cbn [skipn firstn List.app].
    now destruct (_ <? _)%nat. }
  rewrite W. clear W. destruct (Nat.ltb_spec (List.length tl) (List.length (payload f))) as [Ls|Ls].
  { exists tl. split; [apply partly_refl|now left]. }
  set (tl1 := payload f ++ skipn (List.length (payload f)) tl). exists tl1.
  assert (L1 : List.length tl1 = List.length tl) by (unfold tl1; rewrite app_length, skipn_length; lia).
  split. { pose proof (partly_prefix tl (payload f) (List.length (payload f)) (le_n _) Ls) as X. now rewrite firstn_all in X. }
  assert (Hlen : N.of_nat (List.length (payload f)) < 2 ^ 16).
  { apply negb_false_iff, Nat.leb_le in Lest. change (2 ^ 16) with 65536. lia. }
  set (l := security_level (control a)) in *.
  destruct (level_is_none l) eqn:Eln. { left. destruct l; try discriminate. reflexivity. }
  replace (match l with SL_None => _ | _ => _ end) with
    (if sc_frame_counter sc =? 0xFFFFFFFF then []
            else
              match u32_add (E := SecurityError) c (sc_frame_counter sc) 1 with
              | Ok fc =>
                (fc, tl1) ::
                match sc_key_provider sc DstAddrMode (key_identifier a) (destination (header f)), level_use l with
                | Some (_, key), Some u =>
                  if (List.length (payload f) <=? List.length tl1)%nat then
                    match do_secure E u (level_tag_size l) key (calculate_nonce (sc_euid sc) (sc_frame_counter sc) l) (firstn (List.length (payload f)) tl1) with
                    | Some (data, tag) =>
                      let '(_, (buffer', _)) := write_with (write_slice tag) (data ++ skipn (List.length (payload f)) tl1, List.length (payload f)) in
                      [(fc, data ++ skipn (List.length (payload f)) tl1); (fc, buffer')]
                    | None => []
                    end
                  else []
                | _, _ => []
                end
              | _ => []
              end) by (destruct l; [discriminate|reflexivity..]).
  destruct (N.eqb_spec (sc_frame_counter sc) 0xFFFFFFFF) as [L|L]; [now left|].
  assert (Eu : u32_add (E := SecurityError) c (sc_frame_counter sc) 1 = Ok (sc_frame_counter sc + 1)).
  { unfold u32_add. unfold u32_ok in Hu. change (2 ^ 32) with 4294967296 in *.
    replace (sc_frame_counter sc + 1 <? 4294967296) with true by (symmetry; apply N.ltb_lt; lia). reflexivity. }
  rewrite Eu. right.
  destruct (sc_key_provider sc DstAddrMode (key_identifier a) (destination (header f))) as [[x key]|];
    [|eexists; split; [reflexivity|constructor]].
  destruct (level_use l) as [u|] eqn:Elu; [|eexists; split; [reflexivity|constructor]].
  replace (List.length (payload f) <=? List.length tl1)%nat with true by (symmetry; apply Nat.leb_le; lia).
  replace (firstn (List.length (payload f)) tl1) with (payload f) by (unfold tl1; now rewrite firstn_app_exact).
  rewrite (do_secure_eq E HE l u key) by assumption.
  destruct (write_with _ _) as [r2 [b2 o2]] eqn:W2.
  eexists. split; [reflexivity|].
  assert (Ld : List.length (secured_payload E key l (sc_euid sc) (sc_frame_counter sc) (payload f) ++ skipn (List.length (payload f)) tl1) = List.length tl)
    by (rewrite app_length, secured_payload_length, skipn_length; lia).
  constructor; [split; [reflexivity|exact Ld]|]. constructor; [split; [reflexivity|]|constructor]. cbn [snd].
  rewrite <- Ld. revert W2. generalize (secured_payload E key l (sc_euid sc) (sc_frame_counter sc) (payload f) ++ skipn (List.length (payload f)) tl1).
  intros d. unfold write_with, write_slice. destruct (Nat.ltb_spec (List.length d) (List.length (payload f))).
  { now intros [= _ <- _]. }
  rewrite skipn_length. destruct (Nat.ltb_spec (List.length d - List.length (payload f)) (List.length (secured_tag E key l (sc_euid sc) (sc_frame_counter sc) (payload f)))).
  { intros [= _ <- _]. now rewrite firstn_skipn. }
  intros [= _ <- _]. rewrite !app_length, firstn_length, !skipn_length. lia.
Qed.

(** ** The steps of a write *)

Lemma secure_points_last f sc m tl : sc_frame_counter sc = 0xFFFFFFFF ->
  Forall (fun p => fst p = 0xFFFFFFFF) (secure_points c E f sc m tl) /\
  sc_frame_counter (fst (snd (secure_frame c E f sc m tl))) = 0xFFFFFFFF.
Proof.
  intros H. unfold secure_points, secure_frame. cbv zeta. rewrite !H.
  destruct m; [|split; [constructor|exact H]]. unfold has_security.
  destruct (auxiliary_security_header (header f)) as [a|]; [|destruct (frame_type (header f)); split; (constructor || exact H)].
  destruct (frame_type (header f)); try (split; [constructor|exact H]).
  destruct (negb _); [split; [constructor|exact H]|].
  destruct (write_with (write_slice (payload f)) (tl, 0%nat)) as [[[]|e|] [b off]];
    try (split; [repeat constructor|exact H]).
  change (0xFFFFFFFF =? 0xFFFFFFFF) with true. cbv iota.
  destruct (security_level (control a)); (split; [repeat constructor|exact H]).
Qed.

(** With the last counter nothing is ever incremented. *)
Lemma write_points_last f m sc buf : sc_frame_counter sc = 0xFFFFFFFF ->
  Forall (fun p => fst p = 0xFFFFFFFF) (write_points c E f m sc buf).
Proof.
  intros H. unfold write_points. cbv zeta. rewrite !H. constructor; [reflexivity|].
  destruct ((write_with (try_write_header c (header f) (Some sc)) >> write_with (try_write_content (content f))) (buf, 0%nat))
    as [[[]|e|] [b off]]; try (repeat constructor).
  destruct (off <=? List.length b)%nat; [|constructor].
  destruct (secure_points_last f sc m (skipn off b) H) as [F X].
  destruct (secure_frame c E f sc m (skipn off b)) as [r [sc' tl']]. cbn [fst snd] in X. rewrite !X.
  apply Forall_app. split; [now apply Forall_map|].
  destruct r as [len|e|]; [|destruct e|]; repeat constructor.
Qed.
Lemma no_points_past_last f m sc buf pre b0 rest : sc_frame_counter sc = 0xFFFFFFFF ->
  write_points c E f m sc buf = pre ++ (sc_frame_counter sc, b0) :: (sc_frame_counter sc + 1, b0) :: rest -> False.
Proof.
  intros H Ew. pose proof (write_points_last f m sc buf H) as F. rewrite Ew in F. apply Forall_app in F.
  destruct F as [_ F]. inversion F as [|? ? _ F2]; subst. inversion F2 as [|? ? X _]; subst. cbn in X. rewrite H in X. discriminate.
Qed.

(** The list of states is right: it begins with the state before the call and ends with the one after it. *)
Theorem C90_write_states : forall f m sc buf,
  let '(r, (ctx, buf')) := try_write_frame c E f (ser_ctx m sc) buf in
  exists l sc', (sc_frame_counter sc, buf) :: l = write_points c E f m sc buf /\ ctx = ser_ctx m sc' /\
    last (write_points c E f m sc buf) (0, []) = (sc_frame_counter sc', buf').
Proof using Type.
  intros f m sc buf. unfold try_write_frame, write_points. cbv zeta. cbn [ser_ctx security_ctx footer_mode].
  destruct ((write_with (try_write_header c (header f) (Some sc)) >> write_with (try_write_content (content f))) (buf, 0%nat))
    as [[[]|e|] [b off]]; try (do 2 eexists; split; [reflexivity|]; split; reflexivity).
  destruct (off <=? List.length b)%nat; [|do 2 eexists; split; [reflexivity|]; split; reflexivity].
  pose proof (secure_points_end f sc m (skipn off b)) as Q.
  destruct (secure_frame c E f sc m (skipn off b)) as [r [sc' tl']].
  assert (L0 : last ((sc_frame_counter sc, buf) :: (sc_frame_counter sc, b) ::
                 map (fun p => (fst p, firstn off b ++ snd p)) (secure_points c E f sc m (skipn off b))) (0, [])
               = (sc_frame_counter sc', firstn off b ++ tl')).
  { destruct Q as [(-> & -> & ->)|(l & ->)]; [now rewrite firstn_skipn|].
    rewrite map_app. cbn [map fst snd]. now rewrite !app_comm_cons, last_last. }
  assert (G : forall z, last ((sc_frame_counter sc, buf) :: (sc_frame_counter sc, b) ::
                 map (fun p => (fst p, firstn off b ++ snd p)) (secure_points c E f sc m (skipn off b)) ++ [z]) (0, []) = z)
    by (intros z; now rewrite !app_comm_cons, last_last).
  destruct r as [len|e|].
  - destruct (write_tail f m true _) as [[[]|e|] [b2 o2]] eqn:W; do 2 eexists; (split; [reflexivity|]; split; [reflexivity|]); now rewrite G.
  - destruct e; try (do 2 eexists; (split; [reflexivity|]; split; [reflexivity|]); rewrite app_nil_r; exact L0).
    destruct (write_tail f m false _) as [[[]|e|] [b2 o2]] eqn:W; do 2 eexists; (split; [reflexivity|]; split; [reflexivity|]); now rewrite G.
  - do 2 eexists; (split; [reflexivity|]; split; [reflexivity|]); rewrite app_nil_r; exact L0.
Qed.

Lemma runs_partly mm bs st buf : runs mm bs st ->
  match mm (buf, 0%nat) with
  | (r, (b, off)) => partly buf bs b /\ (r = Ok tt -> exists bs', b = bs ++ bs' /\ off = List.length bs /\ (off <= List.length buf)%nat /\ bs' = skipn off buf)
  end.
Proof.
  intros R. destruct (R buf 0%nat (Nat.le_0_l _)) as [R1 R2].
  destruct (Nat.leb_spec (List.length bs) (List.length buf)) as [L|L].
  - destruct (R1 ltac:(lia)) as (off' & Ho & ->). cbn [firstn List.app]. rewrite Nat.add_0_l in *. split.
    + pose proof (partly_prefix buf bs (List.length bs) (le_n _) L) as X. now rewrite firstn_all in X.
    + intros Hr. specialize (Ho Hr). subst off'. exists (skipn (List.length bs) buf). auto.
  - destruct (R2 ltac:(lia)) as (k & off' & Hk & ->). cbn [firstn List.app]. rewrite Nat.add_0_l in *.
    split; [|discriminate]. replace (firstn k bs) with (firstn (Nat.min k (List.length bs)) bs).
    + destruct (Nat.leb_spec k (List.length bs)); [|lia]. replace (Nat.min k (List.length bs)) with k by lia. apply partly_prefix; lia.
    + destruct (Nat.leb_spec k (List.length bs)); [|lia]. f_equal. lia.
Qed.

(** The part of the states before the counter is incremented, and the part after. *)
Lemma write_points_shape f m sc buf : frame_ok f -> u32_ok (sc_frame_counter sc) ->
  let fc := sc_frame_counter sc in
  let clear := wire_front (native c) fc f ++ payload f in
  exists pre b0 post, write_points c E f m sc buf = pre ++ (fc, b0) :: post /\
    Forall (fun p => fst p = fc /\ partly buf clear (snd p)) (pre ++ [(fc, b0)]) /\
    (post = [] \/ exists rest, post = (fc + 1, b0) :: rest /\
       Forall (fun p => fst p = fc + 1 /\ List.length (snd p) = List.length buf) rest).
Proof using HE.
  intros Hok Hu fc clear. pose proof Hok as (Hh & Hc & Hp & _). unfold write_points. cbv zeta. fold fc.
  pose proof (runs_front c f sc Hh Hc) as RF.
  pose proof (runs_partly _ _ _ buf RF) as PF.
  assert (CF : forall b, partly buf (if compression_ok (header f) then wire_front (native c) fc f
       else le 2 (control_word false (header_sent fc (header f))) ++ [seq (header f)]) b -> partly buf clear b).
  { intros b X. destruct (compression_ok (header f)); [now apply partly_more|].
    unfold clear, wire_front, wire_header. change (seq (header_sent fc (header f))) with (seq (header f)).
    rewrite (app_assoc (le 2 _) [seq (header f)]), <- !app_assoc, (app_assoc (le 2 _) [seq (header f)]).
    now apply partly_more. }
  assert (P0 : fst (fc, buf) = fc /\ partly buf clear (snd (fc, buf))) by (split; [reflexivity|apply partly_refl]).
  fold fc in PF.
  destruct ((write_with (try_write_header c (header f) (Some sc)) >> write_with (try_write_content (content f))) (buf, 0%nat))
    as [r [b off]] eqn:WF.
  destruct PF as (PF & PO). apply CF in PF.
  assert (P1 : fst (fc, b) = fc /\ partly buf clear (snd (fc, b))) by (split; [reflexivity|exact PF]).
  destruct r as [[]|e|].
  2,3: exists [(fc, buf)], b, []; split; [reflexivity|]; split; [|now left]; repeat (constructor; [assumption|]); constructor.
  destruct (PO eq_refl) as (bs' & Eb & Eo & Lo & Ebs').
  assert (Hcomp : compression_ok (header f) = true).
  { destruct (compression_ok (header f)) eqn:X; [reflexivity|]. exfalso.
    destruct (RF buf 0%nat (Nat.le_0_l _)) as [R1 R2]. rewrite WF in R1, R2.
    destruct (Nat.leb_spec (0 + List.length (le 2 (control_word false (header_sent (sc_frame_counter sc) (header f))) ++ [seq (header f)])) (List.length buf)) as [L|L].
    - destruct (R1 L) as (? & _ & Y). discriminate.
    - destruct (R2 L) as (? & ? & _ & Y). discriminate. }
  rewrite Hcomp in Eb, Eo.
  assert (Lb : List.length b = List.length buf) by (destruct PF; assumption).
  replace (off <=? List.length b)%nat with true by (symmetry; apply Nat.leb_le; lia).
  pose proof (secure_points_shape f sc m (skipn off b) Hp Hu) as SH. fold fc in SH. cbv zeta in SH.
  pose proof (secure_points_end f sc m (skipn off b)) as SE.
  destruct (secure_frame c E f sc m (skipn off b)) as [r [sc' tl']] eqn:SF.
  assert (Efb : firstn off b = wire_front (native c) fc f) by (rewrite Eb, Eo; apply firstn_app_exact).
  assert (Esb : skipn off b = bs') by (rewrite Eb, Eo; apply skipn_app_exact).
  assert (Up : forall tl1, partly (skipn off b) (payload f) tl1 -> partly buf clear (firstn off b ++ tl1)).
  { intros tl1 X. apply (partly_trans _ _ b); [exact PF|].
    rewrite <- (firstn_skipn off b) at 1. unfold clear. rewrite <- Efb. now apply partly_after. }
  assert (Ll : forall x, List.length x = List.length (skipn off b) -> List.length (firstn off b ++ x) = List.length buf).
  { intros x X. rewrite app_length, firstn_length, X, skipn_length. lia. }
  pose proof (secure_frame_kind f sc m (skipn off b)) as SK. rewrite SF in SK.
  set (up := fun p : N * list N => (fst p, firstn off b ++ snd p)).
  destruct r as [len|e|].
  - destruct SK as (-> & NE).
    destruct SE as [(X & _ & _)|(l & El)]; [contradiction|].
    rewrite write_tail_secured. cbn [fst snd].
    destruct SH as [X|(tl1 & P & [X|(rest & X & FR)])]; [contradiction| |].
    + rewrite X in El |- *. destruct l as [|? [|? ?]]; try discriminate. injection El as <- <-.
      exists [(fc, buf); (fc, b); (fc, firstn off b ++ tl1)], (firstn off b ++ tl1), []. split; [reflexivity|].
      split; [|now left].
      assert (P2 : fst (fc, firstn off b ++ tl1) = fc /\ partly buf clear (snd (fc, firstn off b ++ tl1)))
        by (split; [reflexivity|now apply Up]).
      repeat (constructor; [assumption|]); constructor.
    + exists [(fc, buf); (fc, b)], (firstn off b ++ tl1), ((fc + 1, firstn off b ++ tl1) :: map up rest ++ [(sc_frame_counter sc', firstn off b ++ tl')]).
      split. { rewrite X. reflexivity. }
      assert (P2 : fst (fc, firstn off b ++ tl1) = fc /\ partly buf clear (snd (fc, firstn off b ++ tl1)))
        by (split; [reflexivity|now apply Up]).
      split; [repeat (constructor; [assumption|]); constructor|]. right. eexists. split; [reflexivity|].
      apply Forall_app. split.
      { apply Forall_map. eapply Forall_impl; [|exact FR]. intros [n x] [Hn Hx]. split; [exact Hn|]. now apply Ll. }
      constructor; [|constructor].
      assert (Q : (fun p : N * list N => fst p = fc + 1 /\ List.length (snd p) = List.length (skipn off b)) (sc_frame_counter sc', tl')).
      { assert (I : In (sc_frame_counter sc', tl') ((fc + 1, tl1) :: rest)).
        { rewrite X in El. destruct l as [|? l]; [discriminate|]. injection El as _ El. rewrite El. apply in_or_app. right. now left. }
        destruct I as [[= <- <-]|I]; [split; [reflexivity|destruct P; assumption]|].
        now apply (proj1 (Forall_forall _ _) FR). }
      destruct Q as [Q1 Q2]. split; [exact Q1|]. now apply Ll.
  - assert (G : forall tailp, (tailp = [] \/ secure_points c E f sc m (skipn off b) = [] /\ exists x, tailp = [(fc, x)] /\ partly buf clear x) ->
      exists pre b0 post, (fc, buf) :: (fc, b) :: map up (secure_points c E f sc m (skipn off b)) ++ tailp = pre ++ (fc, b0) :: post /\
      Forall (fun p => fst p = fc /\ partly buf clear (snd p)) (pre ++ [(fc, b0)]) /\
      (post = [] \/ exists rest, post = (fc + 1, b0) :: rest /\
         Forall (fun p => fst p = fc + 1 /\ List.length (snd p) = List.length buf) rest)).
    { intros tailp [->|(-> & x & -> & Hx)].
      - rewrite app_nil_r. destruct SH as [->|(tl1 & P & [->|(rest & -> & FR)])].
        + exists [(fc, buf)], b, []. split; [reflexivity|]. split; [repeat (constructor; [assumption|]); constructor|now left].
        + assert (P2 : fst (fc, firstn off b ++ tl1) = fc /\ partly buf clear (snd (fc, firstn off b ++ tl1)))
            by (split; [reflexivity|now apply Up]).
          exists [(fc, buf); (fc, b)], (firstn off b ++ tl1), []. split; [reflexivity|].
          split; [repeat (constructor; [assumption|]); constructor|now left].
        + assert (P2 : fst (fc, firstn off b ++ tl1) = fc /\ partly buf clear (snd (fc, firstn off b ++ tl1)))
            by (split; [reflexivity|now apply Up]).
          exists [(fc, buf); (fc, b)], (firstn off b ++ tl1), ((fc + 1, firstn off b ++ tl1) :: map up rest). split; [reflexivity|].
          split; [repeat (constructor; [assumption|]); constructor|right]. eexists. split; [reflexivity|].
          apply Forall_map. eapply Forall_impl; [|exact FR]. intros [n x] [Hn Hx]. split; [exact Hn|]. now apply Ll.
      - exists [(fc, buf); (fc, b)], x, []. split; [reflexivity|].
        assert (P2 : fst (fc, x) = fc /\ partly buf clear (snd (fc, x))) by (split; [reflexivity|exact Hx]).
        split; [repeat (constructor; [assumption|]); constructor|now left]. }
    destruct e; try (apply G; now left).
    destruct SK as (-> & SP & -> & ->). apply G. right. split; [exact SP|].
    eexists. split; [reflexivity|].
    rewrite firstn_skipn. unfold write_tail, wseq, wbind, write_with, wret, write_slice.
    replace (List.length b <? off)%nat with false by (symmetry; apply Nat.ltb_ge; lia).
    destruct (Nat.ltb_spec (List.length (skipn off b)) (List.length (payload f))) as [L|L]; cbn [fst snd].
    + rewrite firstn_skipn. exact PF.
    + apply Up. pose proof (partly_prefix (skipn off b) (payload f) (List.length (payload f)) (le_n _) L) as Z. now rewrite firstn_all in Z.
  - rewrite app_nil_r. destruct SH as [->|(tl1 & P & [->|(rest & -> & FR)])].
      + exists [(fc, buf)], b, []. split; [reflexivity|]. split; [repeat (constructor; [assumption|]); constructor|now left].
      + assert (P2 : fst (fc, firstn off b ++ tl1) = fc /\ partly buf clear (snd (fc, firstn off b ++ tl1)))
          by (split; [reflexivity|now apply Up]).
        exists [(fc, buf); (fc, b)], (firstn off b ++ tl1), []. split; [reflexivity|].
        split; [repeat (constructor; [assumption|]); constructor|now left].
      + assert (P2 : fst (fc, firstn off b ++ tl1) = fc /\ partly buf clear (snd (fc, firstn off b ++ tl1)))
          by (split; [reflexivity|now apply Up]).
        exists [(fc, buf); (fc, b)], (firstn off b ++ tl1), ((fc + 1, firstn off b ++ tl1) :: map up rest). split; [reflexivity|].
        split; [repeat (constructor; [assumption|]); constructor|right]. eexists. split; [reflexivity|].
        apply Forall_map. eapply Forall_impl; [|exact FR]. intros [n x] [Hn Hx]. split; [exact Hn|]. now apply Ll.
Qed.


(** Wherever a write is stopped: as long as the counter found in the context is the old one, the buffer
    holds nothing but its old octets and octets of header and payload in clear - nothing that depends on
    a key or a nonce; otherwise the counter is exactly one higher. The buffer keeps its length. *)
Theorem C90_write_stopped : forall f m sc buf n b, frame_ok f -> u32_ok (sc_frame_counter sc) ->
  stopped (write_points c E f m sc buf) (n, b) ->
  List.length b = List.length buf /\
  (n = sc_frame_counter sc /\ partly buf (wire_front (native c) (sc_frame_counter sc) f ++ payload f) b \/
   n = sc_frame_counter sc + 1 /\ sc_frame_counter sc <> 0xFFFFFFFF).
Proof using HE.
  intros f m sc buf n b Hf Hu (i & p & q & Hp & Hq & Hn & Hb). cbn [fst snd] in *.
  destruct (write_points_shape f m sc buf Hf Hu) as (pre & b0 & post & Ew & Fp & Po).
  set (fc := sc_frame_counter sc) in *. set (clear := wire_front (native c) fc f ++ payload f) in *.
  assert (Lall : Forall (fun p => List.length (snd p) = List.length buf) (write_points c E f m sc buf)).
  { rewrite Ew. apply Forall_app. apply Forall_app in Fp. destruct Fp as [F1 F2]. inversion F2 as [|? ? [_ Fb] _]; subst.
    split; [eapply Forall_impl; [|exact F1]; intros ? [_ [X _]]; exact X|].
    constructor; [apply Fb|]. destruct Po as [->|(rest & -> & FR)]; [constructor|].
    constructor; [apply Fb|]. eapply Forall_impl; [|exact FR]. now intros ? [_ X]. }
  assert (Lp : List.length (snd p) = List.length buf)
    by (apply (proj1 (Forall_forall _ _) Lall); eapply nth_error_In; exact Hp).
  split; [destruct Hb as [Hb _]; congruence|].
  assert (Late : forall k r, nth_error (write_points c E f m sc buf) k = Some r ->
     (k <= List.length pre)%nat /\ fst r = fc /\ partly buf clear (snd r) \/
     (List.length pre < k)%nat /\ fst r = fc + 1 /\ fc <> 0xFFFFFFFF /\ (k = S (List.length pre) -> snd r = b0)).
  { intros k r Hr. rewrite Ew in Hr. destruct (Nat.leb_spec k (List.length pre)) as [L|L].
    - left. split; [exact L|]. apply (proj1 (Forall_forall _ _) Fp). apply (nth_error_In _ k).
      rewrite <- Hr. change (pre ++ (fc, b0) :: post) with (pre ++ [(fc, b0)] ++ post). rewrite app_assoc.
      symmetry. apply nth_error_app1. rewrite app_length. cbn. lia.
    - right. split; [exact L|]. rewrite nth_error_app2 in Hr by lia.
      replace (k - List.length pre)%nat with (S (k - S (List.length pre))) in Hr by lia. cbn [nth_error] in Hr.
      destruct Po as [->|(rest & -> & FR)]; [now destruct (k - S (List.length pre))%nat|].
      assert (NL : fc <> 0xFFFFFFFF).
      { destruct (N.eq_dec fc 0xFFFFFFFF) as [X|X]; [|exact X]. exfalso. exact (no_points_past_last f m sc buf pre b0 rest X Ew). }
      split; [|split; [exact NL|]].
      + destruct (k - S (List.length pre))%nat as [|j]; cbn [nth_error] in Hr; [injection Hr as <-; reflexivity|].
        apply (proj1 (Forall_forall _ _) FR). eapply nth_error_In; exact Hr.
      + intros ->. replace (S (List.length pre) - S (List.length pre))%nat with 0%nat in Hr by lia. injection Hr as <-. reflexivity. }
  destruct (Late i p Hp) as [(Li & Ep & Pp)|(Li & Ep & NL & _)].
  2:{ right. split; [|exact NL]. destruct Hq as [->|Hq]; [destruct Hn; congruence|].
      destruct (Late _ q Hq) as [(X & _)|(_ & Eq & _)]; [lia|]. destruct Hn; congruence. }
  destruct Hq as [->|Hq].
  { left. split; [destruct Hn; congruence|]. exact (partly_torn _ _ _ _ _ Pp Pp Hb). }
  destruct (Late _ q Hq) as [(Lq & Eq & Pq)|(Lq & Eq & NL & Es)].
  - left. split; [destruct Hn; congruence|]. exact (partly_torn _ _ _ _ _ Pp Pq Hb).
  - destruct Hn as [-> | ->]; [left|right; auto]. split; [exact Ep|].
    assert (Ei : i = List.length pre) by lia. subst i. specialize (Es eq_refl).
    assert (Eb0 : snd p = b0).
    { rewrite Ew, nth_error_app2, Nat.sub_diag in Hp by lia. injection Hp as <-. reflexivity. }
    apply (partly_torn _ _ (snd p) (snd q) b Pp); [rewrite Es, <- Eb0; exact Pp|exact Hb].
Qed.

(** A sender that is stopped again and again, anywhere, and goes on with the counter it finds (or any
    later one), never uses a nonce twice: not for two frames it gets out, and not for a frame and one it was stopped
    in the middle of. *)
Theorem C90_resumed_nonces : forall sc n log, u64_ok (sc_euid sc) -> u32_ok n -> goes_on c E sc n log ->
  NoDup (nonces_begun sc log) /\
  StronglySorted N.lt (map (fun e => snd (fst e)) (filter (fun e => snd (fst e) <? snd e) log)).
Proof using HE.
  intros sc n log He Hu G.
  assert (Q : StronglySorted N.lt (map (fun e => snd (fst e)) (filter (fun e => snd (fst e) <? snd e) log)) /\
     Forall (fun e => n <= snd (fst e) /\ u32_ok (snd (fst e))) log).
  { induction G as [n|n x z n2 rest Hf St Le Hu2 G IH]; [split; constructor|].
    destruct (IH Hu2) as [I1 I2]. destruct z as [k b].
    destruct (C90_write_stopped _ _ (at_counter sc n) _ k b Hf Hu St) as [_ Hk]. cbn [at_counter sc_frame_counter fst] in *.
    split.
    - cbn [filter fst snd]. destruct (N.ltb_spec n k) as [L|L]; [|exact I1]. cbn [map fst snd]. constructor; [exact I1|].
      apply Forall_map. apply Forall_forall. intros e Hi. apply filter_In in Hi. destruct Hi as [Hi _].
      rewrite Forall_forall in I2. destruct (I2 e Hi) as [X _]. lia.
    - constructor; [cbn; split; [lia|exact Hu]|]. eapply Forall_impl; [|exact I2]. cbn. intros e [X Y]. split; [|exact Y].
      destruct Hk as [[-> _]|[-> _]]; lia. }
  destruct Q as [Q1 Q2]. split; [|exact Q1]. clear G. revert Q1 Q2. unfold nonces_begun.
  generalize log. clear log. intros log.
  assert (Fi : Forall (fun e => n <= snd (fst e) /\ u32_ok (snd (fst e))) log ->
     Forall (fun e => n <= snd (fst e) /\ u32_ok (snd (fst e))) (filter (fun e : call * N * N => snd (fst e) <? snd e) log)).
  { intros X. apply Forall_forall. intros e Hi. apply filter_In in Hi. rewrite Forall_forall in X. now apply X. }
  intros Q1 Q2. specialize (Fi Q2). revert Q1 Fi. generalize (filter (fun e : call * N * N => snd (fst e) <? snd e) log).
  clear log Q2. intros l. induction l as [|e l IH]; intros Q1 F; [constructor|]. cbn [map] in *.
  inversion Q1 as [|? ? S1 S2]; subst. inversion F as [|? ? F1 F2]; subst. constructor; [|now apply IH].
  intros Hin. apply in_map_iff in Hin. destruct Hin as (e2 & Ee & Hi). rewrite Forall_forall in S2, F2.
  specialize (S2 _ (in_map (fun e => snd (fst e)) l e2 Hi)). destruct (F2 e2 Hi) as [_ U2].
  apply C29_nonce_injective in Ee; try assumption; [|apply F1]. destruct Ee as (_ & X & _). cbn in *. lia.
Qed.

End Sender.

Section Receiver.
Context {K D : Type} (c : cfg) (E : block_cipher K).
Hypothesis HE : cipher_ok E.

Lemma unsecure_points_shape h (buf : list N) (sc : SecurityContext K) m (dl : DeviceLookup D) ds :
  let '(r, (tl, _, ds')) := unsecure_frame c E h buf sc m dl ds in
  last ((ds, buf) :: unsecure_points c E h buf sc m dl ds) (ds, []) = (ds', tl) /\
  (lawful_lookup dl ->
   exists pre, Forall (fun p => fst p = ds) pre /\
    (unsecure_points c E h buf sc m dl ds = pre /\ ds' = ds /\ (forall n, r <> Ok n) \/
     unsecure_points c E h buf sc m dl ds = pre ++ [(ds', tl)] /\ exists n, r = Ok n)).
Proof using Type.
  assert (Nil : forall r : outcome SecurityError nat, (forall n, r <> Ok n) -> lawful_lookup dl ->
    exists pre : list (D * list N), Forall (fun p => fst p = ds) pre /\
      (@nil (D * list N) = pre /\ ds = ds /\ (forall n, r <> Ok n) \/ [] = pre ++ [(ds, buf)] /\ exists n, r = Ok n)).
  { intros r Hr _. exists []. split; [constructor|left; auto]. }
  assert (NE : forall e n, @Err SecurityError nat e <> Ok n) by discriminate.
  assert (NP : forall n, @Panic SecurityError nat <> Ok n) by discriminate.
  unfold unsecure_frame, unsecure_points. cbv zeta. unfold has_security.
  destruct m; [|split; [reflexivity|now apply Nil]].
  destruct (auxiliary_security_header h) as [a|]; [|destruct (frame_type h), (version h); (split; [reflexivity|now apply Nil])].
  destruct (frame_type h); try (split; [reflexivity|now apply Nil]).
  assert (G : let '(r, (tl, _, ds')) :=
     match security_level (control a) with
     | SL_None => (Err UnsupportedSecurity, (buf, sc, ds))
     | _ =>
       match sc_key_provider sc SrcAddrMode (key_identifier a) (source h) with
       | None => (Err UnavailableKey, (buf, sc, ds))
       | Some (source_u64_address, key) =>
         match source h with
         | None => (Err NoSourceAddress, (buf, sc, ds))
         | Some source_addr =>
           match dl SrcAddrMode source_addr ds with
           | DevMissing ds => (Err UnavailableDevice, (buf, sc, ds))
           | DevFound device put =>
             if (dev_frame_counter device =? 0xFFFFFFFF) || (frame_counter a <? dev_frame_counter device)
             then (Err CounterError, (buf, sc, put device))
             else
               match level_use (security_level (control a)) with
               | None => (Err NotImplemented, (buf, sc, put device))
               | Some u =>
                 if (List.length buf <? mic_octet_size (security_level (control a)))%nat
                 then (Panic, (buf, sc, put device))
                 else
                   let '(verify, data) :=
                     do_unsecure E u (level_tag_size (security_level (control a))) key
                       (calculate_nonce source_u64_address (frame_counter a) (security_level (control a)))
                       (firstn (List.length buf - mic_octet_size (security_level (control a))) buf)
                       (skipn (List.length buf - mic_octet_size (security_level (control a))) buf) in
                   if verify then
                     match u32_add (E := SecurityError) c (frame_counter a) 1 with
                     | Ok fc => (Ok (mic_octet_size (security_level (control a))),
                         (data ++ skipn (List.length buf - mic_octet_size (security_level (control a))) buf, sc, put (set_dev_counter device fc)))
                     | _ => (Panic, (data ++ skipn (List.length buf - mic_octet_size (security_level (control a))) buf, sc, put device))
                     end
                   else (Err TransformationError, (data ++ skipn (List.length buf - mic_octet_size (security_level (control a))) buf, sc, put device))
               end
           end
         end
       end
     end in
     let pts := 
      match security_level (control a) with
      | SL_None => []
      | _ =>
        match sc_key_provider sc SrcAddrMode (key_identifier a) (source h), source h with
        | Some (source_u64_address, key), Some source_addr =>
          match dl SrcAddrMode source_addr ds with
          | DevMissing ds => [(ds, buf)]
          | DevFound device put =>
            (put device, buf) ::
            if (dev_frame_counter device =? 0xFFFFFFFF) || (frame_counter a <? dev_frame_counter device)
            then []
            else
              match level_use (security_level (control a)) with
              | None => []
              | Some u =>
                if (List.length buf <? mic_octet_size (security_level (control a)))%nat then []
                else
                  (match u with
                   | Use_EncMic => [(put device, apply_keystream E key (List.length (firstn (List.length buf - mic_octet_size (security_level (control a))) buf))
                       (calculate_nonce source_u64_address (frame_counter a) (security_level (control a))) 1 (firstn (List.length buf - mic_octet_size (security_level (control a))) buf) ++ skipn (List.length buf - mic_octet_size (security_level (control a))) buf)]
                   | Use_Mic => []
                   end) ++
                  let '(verify, data) := do_unsecure E u (level_tag_size (security_level (control a))) key
                       (calculate_nonce source_u64_address (frame_counter a) (security_level (control a)))
                       (firstn (List.length buf - mic_octet_size (security_level (control a))) buf)
                       (skipn (List.length buf - mic_octet_size (security_level (control a))) buf) in
                  (put device, data ++ skipn (List.length buf - mic_octet_size (security_level (control a))) buf) ::
                  if verify then
                    match u32_add (E := SecurityError) c (frame_counter a) 1 with
                    | Ok fc => [(put (set_dev_counter device fc), data ++ skipn (List.length buf - mic_octet_size (security_level (control a))) buf)]
                    | _ => []
                    end
                  else []
              end
          end
        | _, _ => []
        end
      end in
     last ((ds, buf) :: pts) (ds, []) = (ds', tl) /\
     (lawful_lookup dl ->
      exists pre, Forall (fun p => fst p = ds) pre /\
       (pts = pre /\ ds' = ds /\ (forall n, r <> Ok n) \/ pts = pre ++ [(ds', tl)] /\ exists n, r = Ok n))).
  { cbv zeta.
    destruct (level_is_none (security_level (control a))) eqn:EN.
    { destruct (security_level (control a)); try discriminate. split; [reflexivity|now apply Nil]. }
    assert (MM : forall (A : Type) (l : SecurityLevel) (x y : A), level_is_none l = false -> match l with SL_None => x | _ => y end = y)
      by (intros A l x y; now destruct l).
    rewrite !MM by exact EN. clear MM.
    destruct (sc_key_provider sc SrcAddrMode (key_identifier a) (source h)) as [[eui key]|]; [|split; [reflexivity|now apply Nil]].
    destruct (source h) as [src|]; [|split; [reflexivity|now apply Nil]].
    destruct (dl SrcAddrMode src ds) as [ds1|device put] eqn:Ed.
    { split; [reflexivity|]. intros HL. specialize (HL src ds). rewrite Ed in HL. subst ds1.
      exists [(ds, buf)]. split; [repeat constructor|left; auto]. }
    assert (One : lawful_lookup dl -> put device = ds) by (intros HL; specialize (HL src ds); now rewrite Ed in HL).
    destruct ((dev_frame_counter device =? 0xFFFFFFFF) || (frame_counter a <? dev_frame_counter device)).
    { split; [reflexivity|]. intros HL. rewrite (One HL). exists [(ds, buf)]. split; [repeat constructor|left; auto]. }
    destruct (level_use (security_level (control a))) as [u|].
    2:{ split; [reflexivity|]. intros HL. rewrite (One HL). exists [(ds, buf)]. split; [repeat constructor|left; auto]. }
    destruct (List.length buf <? mic_octet_size (security_level (control a)))%nat.
    { split; [reflexivity|]. intros HL. rewrite (One HL). exists [(ds, buf)]. split; [repeat constructor|left; auto]. }
    destruct (do_unsecure E u _ key _ _ _) as [verify data].
    destruct verify; [|].
    2:{ split; [now destruct u|]. intros HL. rewrite (One HL). eexists. split; [|left; split; [reflexivity|auto]].
        destruct u; repeat constructor. }
    destruct (u32_add c (frame_counter a) 1) as [fc|e|].
    - split; [now destruct u|]. intros HL. rewrite (One HL). rewrite app_comm_cons.
      exists (((ds, buf) :: match u with Use_Mic => [] | Use_EncMic => [(ds, apply_keystream E key (List.length (firstn (List.length buf - mic_octet_size (security_level (control a))) buf))
                       (calculate_nonce eui (frame_counter a) (security_level (control a))) 1 (firstn (List.length buf - mic_octet_size (security_level (control a))) buf) ++ skipn (List.length buf - mic_octet_size (security_level (control a))) buf)] end)
        ++ [(ds, data ++ skipn (List.length buf - mic_octet_size (security_level (control a))) buf)]).
      split; [destruct u; repeat constructor|]. right. split; [|eauto]. rewrite <- app_assoc. reflexivity.
    - split; [now destruct u|]. intros HL. rewrite (One HL). eexists. split; [|left; split; [reflexivity|auto]].
      destruct u; repeat constructor.
    - split; [now destruct u|]. intros HL. rewrite (One HL). eexists. split; [|left; split; [reflexivity|auto]].
      destruct u; repeat constructor. }
  destruct (version h); [split; [reflexivity|now apply Nil]|exact G..].
Qed.

(** The list of states of a reception begins with the state before and ends with the one after it. *)
Theorem C90_read_states : forall bs ctx (dl : DeviceLookup D) ds,
  let '(_, (bs', _, ds')) := try_read_and_unsecure c E bs ctx dl ds in
  hd_error (read_points c E bs ctx dl ds) = Some (ds, bs) /\
  last (read_points c E bs ctx dl ds) (ds, []) = (ds', bs').
Proof using Type.
  intros bs ctx dl ds. unfold try_read_and_unsecure, read_points.
  destruct (obind _ _) as [[[h ct] off]|e|]; try (split; reflexivity).
  destruct (security_ctx ctx) as [sc|] eqn:Es; [|destruct (has_security h); split; reflexivity].
  destruct (has_security h); cbn [andb]; [|split; reflexivity].
  destruct (off <=? List.length bs)%nat; [|split; reflexivity].
  pose proof (unsecure_points_shape h (skipn off bs) sc (footer_mode ctx) dl ds) as U.
  destruct (unsecure_frame c E h (skipn off bs) sc (footer_mode ctx) dl ds) as [r [[tl sc'] ds']].
  destruct U as [U _].
  assert (G : last ((ds, bs) :: map (fun p => (fst p, firstn off bs ++ snd p)) (unsecure_points c E h (skipn off bs) sc (footer_mode ctx) dl ds)) (ds, [])
    = (ds', firstn off bs ++ tl)).
  { destruct (unsecure_points c E h (skipn off bs) sc (footer_mode ctx) dl ds) as [|p l] using rev_ind.
    - cbn in U |- *. injection U as <- <-. now rewrite firstn_skipn.
    - rewrite map_app. cbn [map]. rewrite app_comm_cons, last_last. rewrite app_comm_cons, last_last in U. now rewrite U. }
  destruct r as [n|e|]; [|destruct e|]; (split; [reflexivity|exact G]).
Qed.

Lemma read_points_stores bs ctx (dl : DeviceLookup D) ds : lawful_lookup dl ->
  let '(r, (bs', _, ds')) := try_read_and_unsecure c E bs ctx dl ds in
  Forall (fun p => fst p = ds) (read_points c E bs ctx dl ds) /\ ds' = ds \/
  exists pre, read_points c E bs ctx dl ds = pre ++ [(ds', bs')] /\ Forall (fun p => fst p = ds) pre /\ 
    exists h ct off sc n, read_with (try_read_header c) bs 0 = Ok (h, ct) /\ security_ctx ctx = Some sc /\
      fst (unsecure_frame c E h (skipn off bs) sc (footer_mode ctx) dl ds) = Ok n.
Proof using Type.
  intros HL. pose proof (C90_read_states bs ctx dl ds) as RS.
  unfold try_read_and_unsecure, read_points in *.
  destruct (read_with (try_read_header c) bs 0) as [[h o1]|e|] eqn:RH; cbn [obind] in *; try (left; repeat constructor).
  destruct (read_with (try_read_content h) bs o1) as [[ct off]|e|]; cbn [obind] in *; try (left; repeat constructor).
  destruct (security_ctx ctx) as [sc|] eqn:Es; [|destruct (has_security h); left; repeat constructor].
  destruct (has_security h); cbn [andb] in *; [|left; repeat constructor].
  destruct (off <=? List.length bs)%nat; [|left; repeat constructor].
  pose proof (unsecure_points_shape h (skipn off bs) sc (footer_mode ctx) dl ds) as U.
  destruct (unsecure_frame c E h (skipn off bs) sc (footer_mode ctx) dl ds) as [r [[tl sc'] ds']] eqn:UF.
  destruct U as [_ U]. destruct (U HL) as (pre & Fp & [(-> & -> & Hr)|(Eu & n & ->)]); clear U.
  - assert (G : Forall (fun p => fst p = ds) ((ds, bs) :: map (fun p => (fst p, firstn off bs ++ snd p)) pre))
      by (constructor; [reflexivity|now apply Forall_map]).
    destruct r as [n|e|]; [now destruct (Hr n)|destruct e|]; left; auto.
  - right. rewrite Eu, map_app. exists ((ds, bs) :: map (fun p => (fst p, firstn off bs ++ snd p)) pre).
    split; [reflexivity|]. split; [constructor; [reflexivity|now apply Forall_map]|].
    exists h, o1, off, sc, n. rewrite UF. auto.
Qed.

(** Wherever a reception is stopped, the device store found is the one from before the call or the one
    the call would have left; there is no third state, and a frame that would not have been accepted changes nothing. *)
Theorem C90_read_stopped : forall bs ctx (dl : DeviceLookup D) ds ds1 b1, octets bs -> lawful_lookup dl ->
  stopped (read_points c E bs ctx dl ds) (ds1, b1) ->
  (ds1 = ds \/ ds1 = snd (snd (try_read_and_unsecure c E bs ctx dl ds))) /\
  ((forall fn, fst (try_read_and_unsecure c E bs ctx dl ds) <> Ok fn) -> ds1 = ds).
Proof using HE.
  intros bs ctx dl ds ds1 b1 Hb HL (i & p & q & Hp & Hq & Hn & _). cbn [fst] in Hn.
  pose proof (read_points_stores bs ctx dl ds HL) as R.
  destruct (try_read_and_unsecure c E bs ctx dl ds) as [r [[bs' ctx'] ds']] eqn:R0. cbn [fst snd].
  assert (A : Forall (fun p => fst p = ds \/ fst p = ds') (read_points c E bs ctx dl ds)).
  { destruct R as [(F & ->)|(pre & -> & F & _)]; [eapply Forall_impl; [|exact F]; auto|].
    apply Forall_app. split; [eapply Forall_impl; [|exact F]; auto|constructor; [now right|constructor]]. }
  assert (B : ds1 = ds \/ ds1 = ds').
  { rewrite Forall_forall in A. pose proof (A p (nth_error_In _ _ Hp)) as Ap.
    destruct Hn as [->| ->]; [exact Ap|]. destruct Hq as [->|Hq]; [exact Ap|]. exact (A q (nth_error_In _ _ Hq)). }
  split; [exact B|]. intros Hr. destruct B as [B|B]; [exact B|]. rewrite B.
  eapply C33_rejected_changes_nothing; [exact HE|exact Hb|exact HL|exact R0|exact Hr].
Qed.

Lemma header_of_read bs ctx (dl : DeviceLookup D) ds f n : fst (try_read_and_unsecure c E bs ctx dl ds) = Ok (f, n) ->
  exists k, read_with (try_read_header c) bs 0 = Ok (header f, k).
Proof using Type.
  unfold try_read_and_unsecure.
  destruct (read_with (try_read_header c) bs 0) as [[h o1]|e|]; cbn [obind]; try discriminate.
  destruct (read_with (try_read_content h) bs o1) as [[ct off]|e|]; cbn [obind]; try discriminate.
  assert (Fin : forall b o t, lift_sec (len <- usize_sub c (N.of_nat (List.length b)) (N.of_nat o) ;;
        len <- usize_sub c len (N.of_nat t) ;;
        '(p, off) <- read_with (read_bytes len) b o ;;
        Ok ({| header := h; content := ct; payload := p; footer := (0, 0) |}, off)) = Ok (f, n) -> header f = h).
  { intros b o t. unfold lift_sec.
    destruct (usize_sub c (N.of_nat (List.length b)) (N.of_nat o)) as [l1|e|]; cbn [obind]; try discriminate.
    destruct (usize_sub c l1 (N.of_nat t)) as [l2|e|]; cbn [obind]; try discriminate.
    destruct (read_with (read_bytes l2) b o) as [[p o2]|e|]; cbn [obind]; try discriminate.
    now intros [= <- _]. }
  destruct (has_security h).
  - destruct (security_ctx ctx) as [sc|]; [|discriminate]. destruct (off <=? List.length bs)%nat; [|discriminate].
    destruct (unsecure_frame c E h (skipn off bs) sc (footer_mode ctx) dl ds) as [[m|e|] [[tl sc'] ds']]; [|destruct e|]; cbn [fst]; try discriminate;
      (intros X; apply Fin in X; rewrite X; eauto).
  - cbn [fst]. intros X; apply Fin in X; rewrite X; eauto.
Qed.

(** A reception that is stopped has had no effect on the store - then the same octets are treated afterwards
    just as they would have been -, or the frame is lost: no later reception of these octets returns a frame
    unless the stored counter is lowered. It is never both delivered late and delivered again. *)
Theorem C90_lost_or_repeatable : forall bs ctx (dl : DeviceLookup D) resolve get ds ds1 b1, octets bs ->
  device_store dl resolve get -> stopped (read_points c E bs ctx dl ds) (ds1, b1) ->
  ds1 = ds \/
  exists f n s x, fst (try_read_and_unsecure c E bs ctx dl ds) = Ok (f, n) /\
    source (header f) = Some s /\ resolve s = Some x /\
    dev_frame_counter (get ds1 x) = (counter_in f + 1) mod 2 ^ 32 /\
    (counter_in f <> 0xFFFFFFFF ->
     forall ds2, dev_frame_counter (get ds1 x) <= dev_frame_counter (get ds2 x) ->
     forall fn, fst (try_read_and_unsecure c E bs ctx dl ds2) <> Ok fn).
Proof using HE.
  intros bs ctx dl resolve get ds ds1 b1 Hb Hs St.
  destruct (C90_read_stopped bs ctx dl ds ds1 b1 Hb (store_lawful dl resolve get Hs) St) as [[B|B] Rej]; [now left|].
  destruct (try_read_and_unsecure c E bs ctx dl ds) as [r [[bs' ctx'] ds']] eqn:R. cbn [fst snd] in *. subst ds1.
  destruct r as [[f n]|e|]; [|left; apply Rej; discriminate|left; apply Rej; discriminate].
  destruct (auxiliary_security_header (header f)) as [a|] eqn:Ha.
  2:{ left. eapply C33_unsecured_changes_nothing; [exact HE|exact Hb|exact R|exact Ha]. }
  right. pose proof (C33_accepted_sets_counter c E HE bs ctx dl ds f n bs' ctx' ds' a Hb R Ha) as (_ & s & d & put & Hsrc & Hd & Hle & Eds).
  pose proof (Hs s ds) as HS. destruct (resolve s) as [x|] eqn:Hr; [|congruence].
  destruct HS as (put' & Hd' & _ & Hg & _). assert (Ed : d = get ds x /\ put = put') by (split; congruence). destruct Ed as [-> ->].
  exists f, n, s, x. split; [reflexivity|]. split; [exact Hsrc|]. split; [exact Hr|].
  assert (Hct : counter_in f = frame_counter a) by (unfold counter_in; now rewrite Ha).
  assert (Eg : dev_frame_counter (get ds' x) = (counter_in f + 1) mod 2 ^ 32) by (rewrite Eds, Hg, Hct; reflexivity).
  split; [exact Eg|]. intros Hn ds2 L2 [f2 n2] R2.
  destruct (header_of_read bs ctx dl ds2 f2 n2 R2) as (k2 & H2).
  assert (H1 : fst (try_read_and_unsecure c E bs ctx dl ds) = Ok (f, n)) by now rewrite R.
  destruct (header_of_read bs ctx dl ds f n H1) as (k1 & H1').
  assert (Eh : header f2 = header f) by congruence.
  destruct (try_read_and_unsecure c E bs ctx dl ds2) as [r2 [[bs2 ctx2] ds2']] eqn:R2'. cbn [fst] in R2. subst r2.
  assert (Ha2 : auxiliary_security_header (header f2) = Some a) by now rewrite Eh.
  pose proof (C33_accepted_sets_counter c E HE bs ctx dl ds2 f2 n2 bs2 ctx2 ds2' a Hb R2' Ha2) as (_ & s2 & d2 & put2 & Hsrc2 & Hd2 & Hle2 & _).
  rewrite Eh in Hsrc2. assert (s2 = s) by congruence. subst s2.
  pose proof (Hs s ds2) as HS2. rewrite Hr in HS2. destruct HS2 as (put3 & Hd3 & _).
  assert (d2 = get ds2 x) by congruence. subst d2.
  assert (Hu : frame_counter a < 2 ^ 32).
  { pose proof (step_store c E HE dl resolve get Hs bs ctx ds (Ok (f, n)) bs' ctx' ds' x Hb R) as SS.
    destruct (accepted_for resolve x _) as [g|] eqn:Ag.
    - apply accepted_for_spec in Ag. destruct Ag as (n' & a' & s' & Er & _). cbn [r_result] in Er. injection Er as <- _.
      destruct SS as (U & _). rewrite Hct in U. exact U.
    - exfalso. unfold accepted_for in Ag. cbn [r_result] in Ag. rewrite Ha, Hsrc, Hr, N.eqb_refl in Ag. discriminate. }
  rewrite Eg, Hct in L2. rewrite Hct in Hn. change (2 ^ 32) with 4294967296 in *.
  rewrite N.mod_small in L2 by lia. lia.
Qed.

(** Receptions that are stopped anywhere do not weaken replay protection: of all frames the application
    is given for device [x], before and after, the counters are strictly increasing and no octets are taken twice. *)
Theorem C90_no_replays : forall get x (events : list (reception K D * ending D)), receptions_ok get (map fst events) ->
  Forall (possible c E) events -> found_never_lowered c E get x events ->
  overflow_checks c = true \/ Forall (fun fc => fc <> 0xFFFFFFFF) (counters (flat_map (taken_for c E x) (map fst events))) ->
  StronglySorted N.lt (counters (given c E x events)) /\ NoDup (map fst (given c E x events)).
Proof using HE.
  intros get x events Ko Po S Hc.
  set (start := fun e : reception K D * ending D => dev_frame_counter (get (p_store (fst e)) x)).
  set (fin := fun e : reception K D * ending D => dev_frame_counter (get (found c E e) x)).
  assert (Up : Forall (fun e => start e <= fin e) events).
  { apply Forall_forall. intros [p en] Hi.
    assert (Hp : In p (map fst events)) by (apply in_map_iff; exists (p, en); auto).
    unfold receptions_ok in Ko. rewrite Forall_forall in Ko, Po. destruct (Ko p Hp) as (Hb & Hs). specialize (Po _ Hi).
    assert (Fin : dev_frame_counter (get (p_store p) x) <= dev_frame_counter (get (snd (received_once c E p)) x)).
    { pose proof (reception_step c E HE get x p Hb Hs) as St.
      assert (NL : overflow_checks c = true \/ Forall (fun fc => fc <> 0xFFFFFFFF) (counters (taken_for c E x p))).
      { destruct Hc as [Hc|Hc]; [now left|right]. unfold counters in *. rewrite Forall_forall in *. intros z Hz. apply Hc.
        apply in_map_iff in Hz. destruct Hz as (w & <- & Hw). apply in_map_iff. exists w. split; [reflexivity|].
        apply in_flat_map. eauto. }
      destruct (taken_for c E x p) as [|[bs f] [|? ?]]; [now rewrite St| |contradiction].
      destruct St as (_ & Hu & Hle & Hoc & Haf).
      rewrite Haf, counter_after_eq by assumption. destruct (N.eqb_spec (counter_in f) last_counter) as [X|X]; [|lia].
      destruct NL as [NL|NL]; [rewrite (Hoc X) in NL; discriminate|]. inversion NL as [|? ? Y _]; subst. cbn in Y. now destruct Y. }
    unfold start, fin, found. cbn [fst snd]. destruct en as [|z]; [exact Fin|].
    unfold possible in Po. cbn [fst snd] in Po. destruct z as [ds1 b1]. cbn [fst].
    destruct (C90_read_stopped _ _ _ _ ds1 b1 Hb (store_lawful _ _ _ Hs) Po) as [[->| ->] _]; [lia|].
    unfold received_once in Fin. destruct (try_read_and_unsecure c E _ _ _ _) as [r [[? ?] ds']]. exact Fin. }
  assert (SS : StronglySorted (fun a b => fin a <= start b) events).
  { clear Hc Ko Po. unfold found_never_lowered in S. induction events as [|e es IH]; [constructor|].
    inversion S as [|? ? S' H]; subst. inversion Up as [|? ? U1 U2]; subst. specialize (IH S' U2). constructor; [exact IH|].
    destruct es as [|e2 es]; [constructor|]. inversion H as [|? ? H1]; subst. constructor; [exact H1|].
    inversion IH as [|? ? _ F]; subst. inversion U2 as [|? ? U3 _]; subst.
    eapply Forall_impl; [|exact F]. cbn. intros z Hz. unfold start, fin in *. lia. }
  set (done := fun e : reception K D * ending D => match snd e with Completed => true | Stopped _ => false end).
  assert (Eg : given c E x events = flat_map (taken_for c E x) (map fst (filter done events))).
  { unfold given. clear. induction events as [|[p en] es IH]; [reflexivity|]. cbn [flat_map filter done snd fst].
    destruct en; cbn [map flat_map fst]; now rewrite IH. }
  rewrite Eg. apply (C81_receiver_reconfigured c E HE get x).
  - unfold receptions_ok in *. rewrite Forall_forall in *. intros p Hp. apply Ko. apply in_map_iff in Hp.
    destruct Hp as (e & <- & He). apply filter_In in He. apply in_map. apply He.
  - unfold device_never_lowered. apply StronglySorted_Sorted.
    eapply (sorted_map_impl _ _ fst (fun e => done e = true)).
    + apply sorted_filter. exact SS.
    + apply Forall_forall. intros e He. now apply filter_In in He.
    + intros [p en] [q en2] Hx _ Hxy. unfold done, fin, start, found in *. cbn [fst snd] in *. destruct en; [exact Hxy|discriminate].
  - destruct Hc as [Hc|Hc]; [now left|right]. unfold counters in *. rewrite Forall_forall in *. intros z Hz. apply Hc.
    apply in_map_iff in Hz. destruct Hz as (w & <- & Hw). apply in_map_iff. exists w. split; [reflexivity|].
    apply in_flat_map in Hw. destruct Hw as (p & Hp & Hw). apply in_flat_map. exists p. split; [|exact Hw].
    apply in_map_iff in Hp. destruct Hp as (e & <- & He). apply filter_In in He. apply in_map. apply He.
Qed.

End Receiver.

(** * Concrete cases *)

Lemma octets_of_bits l : forallb (fun b => b <? 256) l = true -> octets l.
Proof. intros H. rewrite forallb_forall in H. apply Forall_forall. intros b Hb. apply N.ltb_lt. exact (H b Hb). Qed.

Lemma stopped_at {A} (l : list (A * list N)) i d : (i < List.length l)%nat -> stopped l (nth i l d).
Proof.
  intros L. exists i, (nth i l d), (nth i l d). split; [now apply nth_error_nth'|]. split; [now left|]. split; [now left|apply partly_refl].
Qed.

(** The states of writing a frame at level ENC-MIC-64: nothing, header, payload in clear, counter,
    ciphertext, tag. Stopped where the key provider is called (the fourth), the payload is in the buffer in clear. *)
Example write_states_of_a_frame :
  map (fun p => (fst p, firstn 12 (skipn 26 (snd p))))
    (write_points host aes_cipher (level_frame SL_ENCMIC64 true [1;2;3]) Footer_None (sender 41) (repeat 0 40))
  = [(41, [0;0;0;0;0;0;0;0;0;0;0;0]); (41, [3;0;0;0;0;0;0;0;0;0;0;0]); (41, [3;1;2;3;0;0;0;0;0;0;0;0]);
     (42, [3;1;2;3;0;0;0;0;0;0;0;0]); (42, [3;206;182;212;0;0;0;0;0;0;0;0]);
     (42, [3;206;182;212;45;11;219;57;37;234;161;96]); (42, [3;206;182;212;45;11;219;57;37;234;161;96])].
Proof. vm_compute. reflexivity. Qed.

(** A sender that is stopped in its key provider, sends a frame, is stopped before the increment, skips
    ahead and is stopped in the middle of writing the tag: three nonces. *)
Definition torn_tag : N * list N :=
  (60 + 1, firstn 32 (snd (nth 5 (write_points host aes_cipher (level_frame SL_ENCMIC64 true [7]) Footer_None (sender 60) (repeat 0 60)) (0, []))) ++ repeat 0 28).
Definition interrupted_log : list (call * N * N) :=
  [(at_level SL_ENCMIC64 true [1;2;3] 40, 41, 42); (at_level SL_ENCMIC64 true [1;2;3] 40, 42, 43);
   (at_level SL_MIC32 false [1] 40, 43, 43); (at_level SL_ENCMIC64 true [7] 60, 60, 61)].
Example an_interrupted_sender :
  goes_on host aes_cipher (sender 0) 41 interrupted_log /\
  map (fun e => snd (fst e)) (filter (fun e => snd (fst e) <? snd e) interrupted_log) = [41; 42; 60] /\
  ~ In torn_tag (write_points host aes_cipher (level_frame SL_ENCMIC64 true [7]) Footer_None (sender 60) (repeat 0 60)).
Proof.
  assert (At : forall n x i rest n2 k, frame_ok (c_frame x) -> u32_ok n2 -> k <= n2 ->
     option_map fst (nth_error (write_points host aes_cipher (c_frame x) (c_mode x) (sender n) (c_buffer x)) i) = Some k ->
     goes_on host aes_cipher (sender 0) n2 rest -> goes_on host aes_cipher (sender 0) n ((x, n, k) :: rest)).
  { intros n x i rest n2 k Hf Hu Hk Hi G. destruct (nth_error _ i) as [z|] eqn:Z; [|discriminate]. injection Hi as <-.
    apply goes_step with (n2 := n2); try assumption. exists i, z, z.
    change (at_counter (sender 0) n) with (sender n). split; [exact Z|]. split; [now left|]. split; [now left|apply partly_refl]. }
  assert (F1 : forall l b, frame_ok (level_frame l b [1;2;3])) by (intros; apply level_frame_ok; try reflexivity; repeat constructor).
  assert (F2 : forall l b, frame_ok (level_frame l b [1])) by (intros; apply level_frame_ok; try reflexivity; repeat constructor).
  assert (F3 : forall l b, frame_ok (level_frame l b [7])) by (intros; apply level_frame_ok; try reflexivity; repeat constructor).
  split; [|split].
  - apply (At 41 _ 3%nat _ 42 42); [apply F1|reflexivity|lia|vm_compute; reflexivity|].
    apply (At 42 _ 6%nat _ 43 43); [apply F1|reflexivity|lia|vm_compute; reflexivity|].
    apply (At 43 _ 1%nat _ 60 43); [apply F2|reflexivity|lia|vm_compute; reflexivity|].
    change 61 with (fst torn_tag). apply goes_step with (n2 := 61); [apply F3| |unfold torn_tag; cbn [fst]; lia|reflexivity|constructor].
    exists 4%nat. eexists. eexists. split; [vm_compute; reflexivity|]. split; [right; vm_compute; reflexivity|].
    split; [now left|]. cbn [snd]. split; [vm_compute; reflexivity|].
    intros i. do 60 (destruct i as [|i]; [vm_compute; first [left; reflexivity|right; split; [repeat constructor|reflexivity]]|]).
    left. unfold octet. rewrite !nth_overflow; [reflexivity| |]; vm_compute; lia.
  - vm_compute. reflexivity.
  - intros H. assert (X : existsb (fun p => same_octets (snd p) (snd torn_tag))
      (write_points host aes_cipher (level_frame SL_ENCMIC64 true [7]) Footer_None (sender 60) (repeat 0 60)) = false) by (vm_compute; reflexivity).
    enough (Y : existsb (fun p => same_octets (snd p) (snd torn_tag))
      (write_points host aes_cipher (level_frame SL_ENCMIC64 true [7]) Footer_None (sender 60) (repeat 0 60)) = true) by congruence.
    apply existsb_exists. exists torn_tag. split; [exact H|]. vm_compute. reflexivity.
Qed.

(** The states of receiving a frame. *)
Example read_states_of_a_frame :
  map (fun p => (dev_frame_counter (known_get (fst p) 1), firstn 3 (skipn 26 (snd p))))
    (read_points host aes_cipher (sent_bytes 2) (aes_ctx 7 0) (known_lookup [1]) (one_device 40))
  = [(40, [3;127;92]); (40, [3;127;92]); (40, [3;6;92]); (40, [3;6;92]); (46, [3;6;92])].
Proof. vm_compute. reflexivity. Qed.

(** A reception stopped after decryption, the frame again (taken), and again (refused); then another frame, stopped
    after the counter has been moved: it is lost, and refused when it comes again. *)
Definition trace_of ds bs := read_points host aes_cipher bs (aes_ctx 7 0) (known_lookup [5; 1]) ds.
Definition cut_at ds bs i : reception (list N) (known [5; 1]) * ending (known [5; 1]) :=
  (at_reception ds (arrives bs), Stopped (nth i (trace_of ds bs) (ds, []))).
Definition whole ds bs : reception (list N) (known [5; 1]) * ending (known [5; 1]) := (at_reception ds (arrives bs), Completed).
Definition cut_receptions : list (reception (list N) (known [5; 1]) * ending (known [5; 1])) :=
  [cut_at (table_of 9 40) (sent_bytes 0) 2; whole (table_of 9 40) (sent_bytes 0); whole (table_of 9 42) (sent_bytes 0);
   cut_at (table_of 9 42) (sent_bytes 2) 4; whole (table_of 9 46) (sent_bytes 2)].
Example an_interrupted_receiver :
  receptions_ok known_get (map fst cut_receptions) /\ Forall (possible host aes_cipher) cut_receptions /\
  found_never_lowered host aes_cipher known_get 1 cut_receptions /\ overflow_checks host = true /\
  map (fun e => dev_frame_counter (known_get (found host aes_cipher e) 1)) cut_receptions = [40; 42; 42; 46; 46] /\
  map (fun q => payload (snd q)) (given host aes_cipher 1 cut_receptions) = [[1;2;3]] /\
  map (fun q => payload (snd q)) (flat_map (taken_for host aes_cipher 1) (map fst cut_receptions)) = [[1;2;3]; [1;2;3]; [6]].
Proof.
  split; [|split; [|split; [|split; [|split; [|split]]]]].
  - assert (F : forallb (fun p => forallb (fun b => b <? 256) (a_bytes (p_arrival p))) (map fst cut_receptions) = true) by (vm_compute; reflexivity).
    rewrite forallb_forall in F. apply Forall_forall. intros p Hp. split.
    + specialize (F p Hp). rewrite forallb_forall in F. apply Forall_forall. intros b Hb. apply N.ltb_lt. now apply F.
    + destruct Hp as [<-|[<-|[<-|[<-|[<-|[]]]]]]; apply known_is_a_store.
  - assert (T : forall ds bs i, (i < List.length (trace_of ds bs))%nat -> possible host aes_cipher (cut_at ds bs i))
      by (intros ds bs i L; exact (stopped_at _ _ _ L)).
    constructor; [apply T; vm_compute; lia|]. constructor; [exact I|]. constructor; [exact I|].
    constructor; [apply T; vm_compute; lia|]. constructor; [exact I|constructor].
  - assert (X : map (fun e => (dev_frame_counter (known_get (p_store (fst e)) 1), dev_frame_counter (known_get (found host aes_cipher e) 1))) cut_receptions
      = [(40, 40); (40, 42); (42, 42); (42, 46); (46, 46)]) by (vm_compute; reflexivity).
    revert X. unfold found_never_lowered. generalize cut_receptions. intros l X.
    destruct l as [|a [|b [|d [|e [|g [|? ?]]]]]]; try discriminate. cbn [map] in X. injection X as A1 A2 B1 B2 D1 D2 E1 E2 G1 G2.
    repeat constructor; lia.
  - reflexivity.
  - vm_compute. reflexivity.
  - vm_compute. reflexivity.
  - vm_compute. reflexivity.
Qed.

(** Two claims that do not hold. A stopped reception leaves a buffer that can be used for another try: no, the store
    may be as before and the octets acceptable, while the buffer has been decrypted already and is refused. *)
Theorem C90_retry_from_buffer_refuted : exists bs d b1,
  stopped (read_points host aes_cipher bs (aes_ctx 7 0) basic_dev_lookup d) (d, b1) /\
  (exists fn, fst (try_read_and_unsecure host aes_cipher bs (aes_ctx 7 0) basic_dev_lookup d) = Ok fn) /\
  fst (try_read_and_unsecure host aes_cipher b1 (aes_ctx 7 0) basic_dev_lookup d) = Err TransformationError.
Proof.
  exists (sent_bytes 2), (dev 40). eexists. split; [|split].
  - exists 3%nat. eexists. eexists. split; [vm_compute; reflexivity|]. split; [left; reflexivity|].
    split; [left; vm_compute; reflexivity|apply partly_refl].
  - eexists. vm_compute. reflexivity.
  - vm_compute. reflexivity.
Qed.

(** And: the buffer of a stopped reception shows no payload that has not been authenticated. It does: the payload is decrypted
    before the tag is compared. Here the ciphertext octet of a frame has been changed on the way (6 becomes 7); the call, if it
    comes to its end, refuses the frame and erases the payload, but where it is stopped in between, the 7 is there. *)
Theorem C90_no_unverified_payload_refuted : exists bs d b1,
  octets bs /\
  stopped (read_points host aes_cipher bs (aes_ctx 7 0) basic_dev_lookup d) (d, b1) /\
  octet b1 27 = 7 /\ octet (sent_bytes 2) 27 = 127 /\ octet bs 27 = 126 /\
  match try_read_and_unsecure host aes_cipher bs (aes_ctx 7 0) basic_dev_lookup d with
  | (r, (bs', _, d')) => r = Err TransformationError /\ octet bs' 27 = 0 /\ d' = d
  end.
Proof.
  exists (flip_octet 27 (sent_bytes 2)), (dev 40). eexists.
  assert (Ho : forallb (fun b => b <? 256) (flip_octet 27 (sent_bytes 2)) = true) by (vm_compute; reflexivity).
  split; [|split; [|split; [|split; [|split]]]].
  - apply octets_of_bits. exact Ho.
  - exists 2%nat. eexists. eexists. split; [vm_compute; reflexivity|]. split; [left; reflexivity|].
    split; [left; vm_compute; reflexivity|apply partly_refl].
  - vm_compute. reflexivity.
  - vm_compute. reflexivity.
  - vm_compute. reflexivity.
  - vm_compute. repeat split.
Qed.

Print Assumptions C90_write_states.
Print Assumptions C90_write_stopped.
Print Assumptions C90_resumed_nonces.
Print Assumptions C90_read_states.
Print Assumptions C90_read_stopped.
Print Assumptions C90_lost_or_repeatable.
Print Assumptions C90_no_replays.
Print Assumptions C90_retry_from_buffer_refuted.
Print Assumptions C90_no_unverified_payload_refuted.
