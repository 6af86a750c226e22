(** Properties C65 - C67: truncated and extended inputs, footer modes that do not match, and
    independence of reading from the host. *)
From Coq Require Import List Arith NArith ZArith Bool String Lia ZifyBool ZifyNat ZifyN.
From Verif Require Import ByteCrate Types HeaderModel BeaconModel CommandModel CcmModel FrameModel
  Spec ProofLib HeaderProofs HeaderReadProofs BeaconProofs CommandProofs FrameProofs RepoTests
  Aes128 PropHeader PropContent PropFrame SecSpec SecureProofs PropSecure PropReceive.
Import ListNotations.
Open Scope N_scope.
Open Scope list_scope.
Ltac Zify.zify_post_hook ::= Z.div_mod_to_equations.

Section Stream.
Context (c : cfg).

Lemma header_error_kind bs e : try_read_header c bs = Err e -> e = Incomplete \/ exists s, e = BadInput s.
Proof.
  intros H. pose proof (C04_header_decode_verdict c bs) as V. destruct (header_verdict bs) as [e'|] eqn:Ev.
  - rewrite H in V. assert (e' = e) by congruence. subst e'. unfold header_verdict in Ev.
    repeat match type of Ev with (if ?x then _ else _) = _ => destruct x end; try discriminate;
    injection Ev as <-; eauto.
  - destruct V as [h V]. congruence.
Qed.

Lemma firstn_shorter (bs : list N) k n : (n <= k)%nat -> firstn n bs = firstn n (firstn k bs).
Proof. intros H. rewrite firstn_firstn. now rewrite Nat.min_l by lia. Qed.

(** ** C65 Truncated inputs *)

(** A header cut short is Incomplete, wherever it is cut. *)
Theorem C65_truncated_header : forall bs h n k, octets bs ->
  try_read_header c bs = Ok (h, n) -> (k < n)%nat -> try_read_header c (firstn k bs) = Err Incomplete.
Proof.
  intros bs h n k Hb R Hk. destruct (try_read_header c (firstn k bs)) as [[h' n']|e|] eqn:R'.
  - exfalso. pose proof (try_read_header_len c _ _ _ R') as L. rewrite firstn_length in L.
    destruct (C46_header_locality c (firstn k bs) bs h' n' (octets_firstn k bs Hb) Hb R') as [_ X].
    rewrite X in R; [injection R; lia|]. apply firstn_shorter. lia.
  - destruct (header_error_kind _ _ R') as [->|[s ->]]; [reflexivity|].
    pose proof (C04_rejection_is_final c _ (skipn k bs) s R') as X. rewrite firstn_skipn in X. congruence.
  - now apply C04_header_decode_never_panics in R'.
Qed.

(** So is a beacon. *)
Theorem C65_truncated_beacon : forall bs b n k, octets bs ->
  try_read_beacon bs = Ok (b, n) -> (k < n)%nat -> try_read_beacon (firstn k bs) = Err Incomplete.
Proof.
  intros bs b n k Hb R Hk. pose proof (C13_beacon_read_total (firstn k bs)) as T.
  destruct (_ <? _)%nat; [exact T|]. destruct T as [b' R']. exfalso.
  destruct (C46_beacon_locality (firstn k bs) bs b' _ (octets_firstn k bs Hb) Hb R') as [L X].
  rewrite firstn_length in L. rewrite X in R; [injection R; lia|]. apply firstn_shorter. lia.
Qed.

(** So is a command - except that a realignment cut just before its channel page is a complete
    realignment without channel page. *)
Definition cut_before_page (cmd : Command) : option Command :=
  match cmd with
  | CoordinatorRealignment d =>
      match cr_channel_page d with
      | Some _ => Some (CoordinatorRealignment (with_page d None))
      | None => None
      end
  | _ => None
  end.

Lemma command_need_size r cmd : List.length (wire_command r cmd)
  = match cut_before_page cmd with Some _ => 9%nat | None => command_need (nth 0 (wire_command r cmd) 0) end.
Proof.
  destruct cmd as [| | | | | | |d|]; try reflexivity. cbn [cut_before_page].
  cbn [wire_command]. unfold wire_realignment. destruct (cr_channel_page d); reflexivity.
Qed.

Theorem C65_truncated_command : forall bs cmd n k, octets bs ->
  try_read_command bs = Ok (cmd, n) -> (k < n)%nat ->
  try_read_command (firstn k bs)
  = match cut_before_page cmd with
    | Some cmd' => if (k =? n - 1)%nat then Ok (cmd', k) else Err Incomplete
    | None => Err Incomplete
    end.
Proof.
  intros bs cmd n k Hb R Hk. pose proof R as R0. apply C15_command_read in R; [|assumption].
  destruct R as (Ln & Hcan & Ho & r & W).
  assert (En : n = List.length (wire_command r cmd)) by (rewrite <- W, firstn_length; lia).
  rewrite command_need_size in En.
  assert (E0 : nth 0 (wire_command r cmd) 0 = nth 0 bs 0).
  { rewrite <- W. destruct bs as [|x bs]; [cbn in Ln; lia|]. destruct n; [lia|]. reflexivity. }
  pose proof (C16_command_verdict (firstn k bs) (octets_firstn k bs Hb)) as V.
  pose proof (C16_command_verdict bs Hb) as V0. rewrite R0 in V0.
  destruct bs as [|id bs]; [cbn in Ln; lia|].
  destruct k as [|k].
  { cbn [firstn command_verdict] in V |- *. rewrite V. destruct (cut_before_page cmd); [|reflexivity].
    replace (0 =? n - 1)%nat with false by lia. reflexivity. }
  cbn [firstn] in V |- *. cbn [nth] in E0. rewrite E0 in En.
  unfold command_verdict in V, V0.
  destruct (negb (octet_in id _)) eqn:Eid; [congruence|].
  destruct (cut_before_page cmd) as [cmd'|] eqn:Ec.
  - destruct cmd as [| | | | | | |d|]; try discriminate. cbn [cut_before_page] in Ec.
    destruct (cr_channel_page d) as [pg|] eqn:Epg; [|discriminate]. injection Ec as <-.
    assert (Eid8 : id = 8) by (cbn in E0; congruence). clear E0. subst id n.
    cbn [Nat.sub] in *. destruct (Nat.eqb_spec (S k) 8) as [Ek|Ek].
    + assert (k = 7%nat) by lia. subst k. clear V V0.
      apply C15_command_read.
      { apply octets_cons in Hb. destruct Hb as [H1 H2]. apply octets_cons. split; [assumption|]. now apply octets_firstn. }
      destruct Hcan as [(H1 & H2 & H3 & H4 & H5) _].
      assert (L8 : List.length (8 :: firstn 7 bs) = 8%nat)
        by (cbn [List.length]; rewrite firstn_length; cbn [List.length] in Ln; lia).
      split; [lia|]. split; [|split].
      * split; [repeat split; assumption|exact I].
      * intros _. now rewrite L8.
      * exists r. rewrite firstn_all2 by lia. change (8 :: firstn 7 bs) with (firstn 8 (8 :: bs)).
        rewrite (firstn_shorter (8 :: bs) 9 8) by lia. rewrite W.
        cbn [wire_command]. unfold wire_realignment.
        cbn [with_page cr_pan_id cr_coordinator_address cr_channel cr_device_address cr_channel_page].
        rewrite Epg. reflexivity.
    + replace (_ <? _)%nat with true in V; [exact V|].
      symmetry. apply Nat.ltb_lt. cbn [List.length command_need]. rewrite firstn_length. lia.
  - replace (_ <? _)%nat with true in V; [exact V|].
    symmetry. apply Nat.ltb_lt. cbn [List.length]. rewrite firstn_length. lia.
Qed.

(** ** C65 Rejections are final: no further octets can turn an input that is rejected for what
    it contains into an accepted one. *)
Theorem C65_command_rejection_is_final : forall bs tail s, octets bs -> octets tail ->
  try_read_command bs = Err (BadInput s) -> try_read_command (bs ++ tail) = Err (BadInput s).
Proof.
  intros bs tail s Hb Ht R.
  pose proof (C16_command_verdict bs Hb) as V.
  assert (Hbt : octets (bs ++ tail)) by now apply octets_app.
  pose proof (C16_command_verdict (bs ++ tail) Hbt) as V2. rewrite R in V.
  destruct bs as [|id bs]; [cbn in V; discriminate|]. cbn [app] in *.
  unfold command_verdict in V, V2.
  destruct (negb (octet_in id _)) eqn:Eid; [congruence|].
  destruct (Nat.ltb_spec (List.length (id :: bs)) (command_need id)) as [L|L]; [discriminate|].
  replace (_ <? _)%nat with false in V2
    by (symmetry; apply Nat.ltb_ge; cbn [List.length] in *; rewrite app_length; lia).
  assert (O : forall i, (i < List.length (id :: bs))%nat -> octet (id :: bs ++ tail) i = octet (id :: bs) i).
  { intros i Hi. unfold octet. change (id :: bs ++ tail) with ((id :: bs) ++ tail). now rewrite app_nth1. }
  destruct (N.eqb_spec id 2) as [->|N2].
  { cbn [command_need] in L. rewrite O in V2 by lia. cbn [andb] in V, V2.
    destruct (negb (octet_in (octet (2 :: bs) 3) _)); [congruence|].
    change (2 =? 3) with false in V. cbn [andb] in V. destruct V; congruence. }
  cbn [andb] in V, V2.
  destruct (N.eqb_spec id 3) as [->|N3].
  { cbn [command_need] in L. rewrite O in V2 by lia. cbn [andb] in V, V2.
    destruct (negb (octet_in (octet (3 :: bs) 1) _)); [congruence|]. destruct V; congruence. }
  cbn [andb] in V. destruct V; congruence.
Qed.

Lemma content_rejection_final h bs tail s : octets bs -> octets tail ->
  try_read_content h bs = Err (BadInput s) -> try_read_content h (bs ++ tail) = Err (BadInput s).
Proof.
  intros Hb Ht R. rewrite try_read_content_eq in R |- *.
  destruct (frame_type h) eqn:Et; try discriminate.
  - pose proof (C13_beacon_read_total bs) as T. destruct (_ <? _)%nat; [rewrite T in R; discriminate|].
    destruct T as [b T]. rewrite T in R. discriminate.
  - destruct (try_read_command bs) as [[cmd n]|e|] eqn:E; try discriminate.
    assert (e = BadInput s) by congruence. subst e.
    now rewrite (C65_command_rejection_is_final bs tail s Hb Ht E).
Qed.

Lemma header_extended bs tail h n : octets bs -> octets tail -> try_read_header c bs = Ok (h, n) ->
  try_read_header c (bs ++ tail) = Ok (h, n).
Proof.
  intros Hb Ht R. pose proof (try_read_header_len c _ _ _ R) as L.
  apply (C46_header_locality c bs (bs ++ tail) h n Hb); [now apply octets_app|assumption|].
  rewrite firstn_app. replace (n - List.length bs)%nat with 0%nat by lia. cbn [firstn]. apply app_nil_r.
Qed.

Lemma content_extended h bs tail ct k : octets bs -> try_read_content h bs = Ok (ct, k) ->
  content_open_ended ct = false ->
  try_read_content h (bs ++ tail) = Ok (ct, k).
Proof.
  intros Hb R Ho. destruct (try_read_content_sound h bs ct k Hb R) as (L & Hc & Ht & _ & br & mr & Hr & W).
  rewrite <- (firstn_skipn k bs) at 1. rewrite <- app_assoc, W.
  rewrite try_read_content_complete by (assumption || congruence).
  rewrite <- W, firstn_length. now rewrite Nat.min_l by lia.
Qed.

Theorem C65_frame_rejection_is_final : forall m bs tail s, octets bs -> octets tail -> cfg_ok c ->
  try_read_frame c m bs = Err (BadInput s) -> try_read_frame c m (bs ++ tail) = Err (BadInput s).
Proof.
  intros m bs tail s Hb Ht Hc R.
  assert (Hbt : octets (bs ++ tail)) by now apply octets_app.
  rewrite try_read_frame_eq in R |- * by assumption.
  destruct (try_read_header c bs) as [[h n]|e|] eqn:EH; [| |discriminate].
  2:{ assert (e = BadInput s) by congruence. subst e. now rewrite (C04_rejection_is_final c bs tail s EH). }
  rewrite (header_extended bs tail h n Hb Ht EH). pose proof (try_read_header_len c _ _ _ EH) as L.
  rewrite skipn_app. replace (n - List.length bs)%nat with 0%nat by lia. cbn [skipn].
  destruct (try_read_content h (skipn n bs)) as [[ct k]|e|] eqn:EC; [| |discriminate].
  2:{ assert (e = BadInput s) by congruence. subst e.
      now rewrite (content_rejection_final h (skipn n bs) tail s (octets_skipn n bs Hb) Ht EC). }
  destruct (has_security h) eqn:Hs.
  2:{ unfold frame_rest in R. destruct m; [discriminate|].
      destruct (_ <? _)%nat; [destruct (overflow_checks c); discriminate|discriminate]. }
  pose proof (try_read_content_fate h (skipn n bs ++ tail)) as F.
  assert (Hst : octets (skipn n bs ++ tail)) by (apply octets_app; split; [now apply octets_skipn|assumption]).
  specialize (F Hst). destruct (content_open_ended ct) eqn:Ho.
  2:{ now rewrite (content_extended h (skipn n bs) tail ct k (octets_skipn n bs Hb) EC Ho). }
  destruct (try_read_content_sound h (skipn n bs) ct k (octets_skipn n bs Hb) EC) as (Lk & Hcan & Hty & Hend & br & mr & Hr & W).
  specialize (Hend Ho). destruct ct as [| | |cmd| | |]; try discriminate. destruct cmd as [| | | | | | |d|]; try discriminate.
  destruct tail as [|t tail].
  { rewrite app_nil_r. now rewrite EC. }
  assert (W2 : skipn n bs ++ t :: tail
    = wire_content br mr (FC_Command (CoordinatorRealignment (with_page d (Some t)))) ++ tail).
  { cbn [content_open_ended open_ended] in Ho. destruct (cr_channel_page d) eqn:Ep; [discriminate|].
    rewrite firstn_all2 in W by (lia). rewrite W. cbn [wire_content wire_command].
    unfold wire_realignment. cbn [with_page cr_pan_id cr_coordinator_address cr_channel cr_device_address cr_channel_page].
    rewrite Ep. cbn. now rewrite <- ?app_assoc. }
  rewrite W2, try_read_content_complete.
  - exact R.
  - destruct Hcan as [(H1 & H2 & H3 & H4 & _) _]. apply octets_cons in Ht.
    split; [|exact I]. repeat split; try assumption. apply Ht.
  - exact Hty.
  - exact I.
  - discriminate.
Qed.

(** ** C65 Payloads grow and shrink with the input: nothing but the header and content part of
    a frame read in None mode says where it ends. *)
Definition with_payload (f : Frame) (p : list N) : Frame :=
  {| header := header f; content := content f; payload := p; footer := footer f |}.

Theorem C65_frame_extended : forall bs f n tail, octets bs -> octets tail -> cfg_ok c ->
  try_read_frame c Footer_None bs = Ok (f, n) -> content_open_ended (content f) = false ->
  try_read_frame c Footer_None (bs ++ tail)
  = Ok (with_payload f (payload f ++ tail), (n + List.length tail)%nat).
Proof.
  intros bs f n tail Hb Ht Hc R Ho.
  assert (Hbt : octets (bs ++ tail)) by now apply octets_app.
  apply C19_frame_read_exact in R; [|assumption..]. destruct R as [-> P].
  apply C19_frame_read_exact; [assumption..|]. rewrite app_length. split; [reflexivity|].
  destruct P as (Ha & Hd & Hcan & Hcons & Hopen & Hft & r7 & br & mr & Hr & W).
  unfold frame_parts. cbn [with_payload header content payload footer].
  repeat (split; [assumption || congruence|]).
  exists r7, br, mr. split; [assumption|]. rewrite W. cbn [wire_footer]. now rewrite !app_nil_r, <- !app_assoc.
Qed.

(** Octets of header and content of a frame read in None mode. *)
Definition front_len (f : Frame) (n : nat) : nat := (n - List.length (payload f))%nat.

Theorem C65_frame_truncated : forall bs f n k, octets bs -> cfg_ok c ->
  try_read_frame c Footer_None bs = Ok (f, n) -> (k <= n)%nat ->
  try_read_frame c Footer_None (firstn k bs)
  = if (front_len f n <=? k)%nat
    then Ok (with_payload f (firstn (k - front_len f n) (payload f)), k)
    else match content f with
         | FC_Command cmd =>
             match cut_before_page cmd with
             | Some cmd' =>
                 if (k =? front_len f n - 1)%nat
                 then Ok ({| header := header f; content := FC_Command cmd'; payload := []; footer := (0, 0) |}, k)
                 else Err Incomplete
             | None => Err Incomplete
             end
         | _ => Err Incomplete
         end.
Proof.
  intros bs f n k Hb Hc R Hk. pose proof R as R0. rewrite try_read_frame_eq in R by assumption.
  destruct (try_read_header c bs) as [[h n1]|e|] eqn:EH; try discriminate.
  destruct (try_read_content h (skipn n1 bs)) as [[ct n2]|e|] eqn:EC; try discriminate.
  destruct (has_security h) eqn:Hs; [discriminate|]. cbn [frame_rest] in R.
  assert (Ef : f = {| header := h; content := ct; payload := skipn (n1 + n2) bs; footer := (0, 0) |}) by congruence.
  assert (En : n = List.length bs) by congruence. clear R.
  pose proof (try_read_header_len c _ _ _ EH) as L1.
  pose proof (try_read_content_len h _ _ _ (octets_skipn n1 bs Hb) EC) as L2. rewrite skipn_length in L2.
  assert (Ehf : header f = h) by now rewrite Ef. assert (Ecf : content f = ct) by now rewrite Ef.
  assert (Eff : footer f = (0, 0)) by now rewrite Ef.
  assert (Epf : payload f = skipn (n1 + n2) bs) by now rewrite Ef.
  assert (Efl : front_len f n = (n1 + n2)%nat) by (unfold front_len; rewrite Epf, skipn_length; lia).
  unfold with_payload. rewrite Efl, Ehf, Ecf, Eff, Epf. clear Ef R0 Efl Ehf Ecf Eff Epf.
  rewrite try_read_frame_eq; [|now apply octets_firstn|assumption].
  assert (Lk : List.length (firstn k bs) = k) by (rewrite firstn_length; lia).
  destruct (Nat.leb_spec (n1 + n2) k) as [Hle|Hlt].
  - assert (EH' : try_read_header c (firstn k bs) = Ok (h, n1)).
    { apply (C46_header_locality c bs (firstn k bs) h n1 Hb); [now apply octets_firstn|assumption|].
      symmetry. apply firstn_shorter. lia. }
    rewrite EH'. rewrite skipn_firstn_comm.
    destruct (content_open_ended ct) eqn:Ho.
    + destruct (try_read_content_sound h (skipn n1 bs) ct n2 (octets_skipn n1 bs Hb) EC) as (_ & _ & _ & Hend & _).
      specialize (Hend Ho). rewrite skipn_length in Hend.
      rewrite (firstn_all2 (n := (k - n1)%nat)) by (rewrite skipn_length; lia). rewrite EC, Hs. cbn [frame_rest].
      rewrite Lk, (skipn_all2 (n := (n1 + n2)%nat) (firstn k bs)) by lia.
      rewrite (skipn_all2 (n := (n1 + n2)%nat) bs) by lia. now rewrite firstn_nil.
    + destruct (try_read_content_sound h (skipn n1 bs) ct n2 (octets_skipn n1 bs Hb) EC) as (_ & Hcan & Hty & _ & br & mr & Hr & W).
      assert (EC' : try_read_content h (firstn (k - n1) (skipn n1 bs)) = Ok (ct, n2)).
      { rewrite <- (firstn_skipn n2 (firstn (k - n1) (skipn n1 bs))).
        rewrite firstn_firstn, Nat.min_l by lia. rewrite W.
        rewrite try_read_content_complete by (assumption || congruence).
        rewrite <- W, firstn_length, skipn_length. now rewrite Nat.min_l by lia. }
      rewrite EC', Hs. cbn [frame_rest]. rewrite Lk, skipn_firstn_comm. reflexivity.
  - destruct (Nat.lt_ge_cases k n1) as [Hk1|Hk1].
    + rewrite (C65_truncated_header bs h n1 k Hb EH Hk1).
      destruct ct as [| | |cmd| | |]; try reflexivity. destruct (cut_before_page cmd) as [cmd'|] eqn:Ecut; [|reflexivity].
      replace (k =? n1 + n2 - 1)%nat with false; [reflexivity|]. symmetry. apply Nat.eqb_neq.
      rewrite try_read_content_eq in EC. destruct (frame_type h); try discriminate.
      { destruct (try_read_beacon _) as [[]| |]; discriminate. }
      destruct (try_read_command (skipn n1 bs)) as [[cmd0 n0]| |] eqn:E; try discriminate.
      assert (n0 = n2) by congruence. assert (cmd0 = cmd) by congruence. subst n0 cmd0.
      apply C15_command_read in E; [|now apply octets_skipn]. destruct E as (Ll & _ & _ & r & W).
      apply (f_equal (@List.length N)) in W. rewrite command_need_size, Ecut, firstn_length, skipn_length in W. lia.
    + assert (EH' : try_read_header c (firstn k bs) = Ok (h, n1)).
      { apply (C46_header_locality c bs (firstn k bs) h n1 Hb); [now apply octets_firstn|assumption|].
        symmetry. apply firstn_shorter. lia. }
      rewrite EH', skipn_firstn_comm, try_read_content_eq. rewrite try_read_content_eq in EC.
      destruct (frame_type h);
        try (assert (n2 = 0)%nat by congruence; lia).
      * destruct (try_read_beacon (skipn n1 bs)) as [[b n0]| |] eqn:E; try discriminate.
        assert (n0 = n2) by congruence. assert (ct = FC_Beacon b) by congruence. subst n0 ct.
        rewrite (C65_truncated_beacon (skipn n1 bs) b n2 (k - n1) (octets_skipn n1 bs Hb) E) by lia. reflexivity.
      * destruct (try_read_command (skipn n1 bs)) as [[cmd n0]| |] eqn:E; try discriminate.
        assert (n0 = n2) by congruence. assert (ct = FC_Command cmd) by congruence. subst n0 ct.
        rewrite (C65_truncated_command (skipn n1 bs) cmd n2 (k - n1) (octets_skipn n1 bs Hb) E) by lia.
        destruct (cut_before_page cmd) as [cmd'|]; [|reflexivity].
        destruct (Nat.eqb_spec (k - n1) (n2 - 1)); destruct (Nat.eqb_spec k (n1 + n2 - 1)); try lia; [|reflexivity].
        rewrite Hs. cbn [frame_rest]. rewrite Lk, skipn_all2 by lia. reflexivity.
Qed.

(** ** C66 Footer modes that do not match *)

(** Read with a footer what was read without: the last two payload octets become the footer. *)
Theorem C66_none_then_explicit : forall bs f n, octets bs -> cfg_ok c ->
  try_read_frame c Footer_None bs = Ok (f, n) ->
  try_read_frame c Footer_Explicit bs
  = let k := (List.length (payload f) - 2)%nat in
    if (List.length (payload f) <? 2)%nat then (if overflow_checks c then Panic else Err Incomplete)
    else Ok ({| header := header f; content := content f; payload := firstn k (payload f);
                footer := (nth k (payload f) 0, nth (S k) (payload f) 0) |}, n).
Proof.
  intros bs f n Hb Hc R. rewrite try_read_frame_eq in R |- * by assumption.
  destruct (try_read_header c bs) as [[h n1]|e|] eqn:EH; try discriminate.
  destruct (try_read_content h (skipn n1 bs)) as [[ct n2]|e|] eqn:EC; try discriminate.
  destruct (has_security h) eqn:Hs; [discriminate|]. cbn [frame_rest] in *.
  assert (Ef : f = {| header := h; content := ct; payload := skipn (n1 + n2) bs; footer := (0, 0) |}) by congruence.
  assert (En : n = List.length bs) by congruence. subst f n. cbn [header content payload].
  set (p := skipn (n1 + n2) bs). destruct (Nat.ltb_spec (List.length p) 2); [reflexivity|].
  unfold octet. now replace (List.length p - 1)%nat with (S (List.length p - 2)) by lia.
Qed.

(** Read without a footer what was read with one: the footer ends up in the payload. *)
Theorem C66_explicit_then_none : forall bs f n, octets bs -> cfg_ok c ->
  try_read_frame c Footer_Explicit bs = Ok (f, n) ->
  try_read_frame c Footer_None bs
  = Ok ({| header := header f; content := content f;
           payload := payload f ++ [fst (footer f); snd (footer f)]; footer := (0, 0) |}, n).
Proof.
  intros bs f n Hb Hc R. apply C19_frame_read_exact in R; [|assumption..]. destruct R as [-> P].
  apply C19_frame_read_exact; [assumption..|]. split; [reflexivity|].
  destruct P as (Ha & Hd & Hcan & Hcons & Hopen & Hft & r7 & br & mr & Hr & W).
  unfold frame_parts. cbn [header content payload footer].
  repeat (split; [assumption|]). split; [|split; [reflexivity|]].
  - intros H. destruct (Hopen H). discriminate.
  - exists r7, br, mr. split; [assumption|]. rewrite W. cbn [wire_footer]. now rewrite app_nil_r.
Qed.

End Stream.

(** ** C67 Reading does not depend on the host *)

Definition has_key_source (h : Header) : bool :=
  match auxiliary_security_header h with
  | Some {| key_identifier := Some {| key_source := Some _ |} |} => true
  | _ => false
  end.

(** The same key source octets, taken in as a number by hosts of byte orders [e1] and [e2]. *)
Definition same_key_octets (e1 e2 : endian) (k1 k2 : option KeySource) : Prop :=
  match k1, k2 with
  | None, None => True
  | Some (KS_Short v), Some (KS_Short w) => u32_ok w /\ in_order e1 4 v = in_order e2 4 w
  | Some (KS_Long v), Some (KS_Long w) => u64_ok w /\ in_order e1 8 v = in_order e2 8 w
  | _, _ => False
  end.

Definition key_source_of (h : Header) : option KeySource :=
  match auxiliary_security_header h with
  | Some {| key_identifier := Some k |} => key_source k
  | _ => None
  end.

(** [h] with another key source in place of its own. *)
Definition with_key_source (h : Header) (k' : option KeySource) : Header :=
  match auxiliary_security_header h with
  | Some {| control := ct; key_identifier := Some k; frame_counter := fc |} =>
      {| frame_type := frame_type h; frame_pending := frame_pending h; ack_request := ack_request h;
         pan_id_compress := pan_id_compress h; seq_no_suppress := seq_no_suppress h;
         ie_present := ie_present h; version := version h; seq := seq h;
         destination := destination h; source := source h;
         auxiliary_security_header :=
           Some {| control := ct; frame_counter := fc;
                   key_identifier := Some {| key_source := k'; key_index := key_index k |} |} |}
  | _ => h
  end.

Lemma with_own_key_source h : with_key_source h (key_source_of h) = h.
Proof.
  unfold with_key_source, key_source_of. destruct h as [? ? ? ? ? ? ? ? ? ? [a|]]; cbn; [|reflexivity].
  destruct a as [? ? [k|]]; [|reflexivity]. now destruct k.
Qed.

Section Hosts.
Context (c1 c2 : cfg).

(** The verdict on a header is the same everywhere, its errors included ... *)
Theorem C67_header_verdict : forall bs e,
  try_read_header c1 bs = Err e <-> try_read_header c2 bs = Err e.
Proof.
  intros bs e. pose proof (C04_header_decode_verdict c1 bs) as V1. pose proof (C04_header_decode_verdict c2 bs) as V2.
  destruct (header_verdict bs).
  - rewrite V1, V2. reflexivity.
  - destruct V1 as [h1 V1], V2 as [h2 V2]. rewrite V1, V2. split; discriminate.
Qed.

(** ... and so is what is read, but for the number a key source stands for, which depends on
    the byte order of the host. *)
Theorem C67_header_read : forall bs h n, octets bs -> try_read_header c1 bs = Ok (h, n) ->
  exists k, same_key_octets (native c1) (native c2) (key_source_of h) k /\
    try_read_header c2 bs = Ok (with_key_source h k, n).
Proof.
  intros bs h n Hb R. apply C03_header_decode_exact in R; [|assumption].
  destruct R as (Hd & Hn & r7 & rs & Hrs & W).
  destruct (key_source_of h) as [ks|] eqn:Ek.
  2:{ exists None. split; [exact I|]. rewrite <- Ek, with_own_key_source. apply C03_header_decode_exact; [assumption|].
      split; [assumption|split; [assumption|]]. exists r7, rs. split; [assumption|]. rewrite W.
      unfold key_source_of in Ek. unfold wire_header. destruct (auxiliary_security_header h) as [a|]; [|reflexivity].
      unfold wire_aux. destruct a as [ct fc [k|]]; [|reflexivity]. cbn in Ek |- *. unfold wire_key_identifier.
      now rewrite Ek. }
  unfold key_source_of in Ek. destruct h as [ft fp ar pc ss ie vv sq de so [a|]]; cbn in Ek; [|discriminate].
  destruct a as [ct fc [[k ki]|]]; [|discriminate]. cbn in Ek. subst k.
  unfold with_key_source. cbn.
  destruct Hd as ((H1 & H2 & H3 & H4 & H5 & H6) & Hp & Hm). cbn in H4, H5, H6, Hp, Hm.
  specialize (Hm _ eq_refl). cbn in Hm.
  destruct ks as [v|v].
  - exists (Some (KS_Short (num_val (native c2) (in_order (native c1) 4 v)))).
    assert (B : num_val (native c2) (in_order (native c1) 4 v) < 2 ^ 32)
      by (apply (num_val_bound (native c2) _ 4); [apply octets_in_order|apply in_order_length]).
    assert (X : in_order (native c1) 4 v = in_order (native c2) 4 (num_val (native c2) (in_order (native c1) 4 v)))
      by (symmetry; apply in_order_num_val; [apply octets_in_order|apply in_order_length]).
    split; [split; assumption|]. apply C03_header_decode_exact; [assumption|]. split; [|split; [assumption|]].
    + split; [|split; [exact Hp|]].
      * repeat split; assumption.
      * intros a Ea. injection Ea as <-. exact Hm.
    + exists r7, rs. split; [assumption|]. rewrite W. unfold wire_header, control_word, wire_aux, wire_key_identifier. cbn.
      now rewrite <- X.
  - exists (Some (KS_Long (num_val (native c2) (in_order (native c1) 8 v)))).
    assert (B : num_val (native c2) (in_order (native c1) 8 v) < 2 ^ 64)
      by (apply (num_val_bound (native c2) _ 8); [apply octets_in_order|apply in_order_length]).
    assert (X : in_order (native c1) 8 v = in_order (native c2) 8 (num_val (native c2) (in_order (native c1) 8 v)))
      by (symmetry; apply in_order_num_val; [apply octets_in_order|apply in_order_length]).
    split; [split; assumption|]. apply C03_header_decode_exact; [assumption|]. split; [|split; [assumption|]].
    + split; [|split; [exact Hp|]].
      * repeat split; assumption.
      * intros a Ea. injection Ea as <-. exact Hm.
    + exists r7, rs. split; [assumption|]. rewrite W. unfold wire_header, control_word, wire_aux, wire_key_identifier. cbn.
      now rewrite <- X.
Qed.

Lemma same_order_same_octets e k1 k2 :
  match k1 with None => True | Some (KS_Short v) => u32_ok v | Some (KS_Long v) => u64_ok v end ->
  same_key_octets e e k1 k2 -> k2 = k1.
Proof.
  destruct k1 as [[v|v]|], k2 as [[w|w]|]; cbn; try tauto; intros Hv [Hw X]; do 2 f_equal;
  apply (f_equal (num_val e)) in X; rewrite !num_val_in_order in X; try assumption; congruence.
Qed.

(** Hosts of one byte order read the same, and so do any two where no key source is sent. *)
Theorem C67_header_host_independent : forall bs, octets bs ->
  native c1 = native c2 \/ (forall h n, try_read_header c1 bs = Ok (h, n) -> has_key_source h = false) ->
  try_read_header c1 bs = try_read_header c2 bs.
Proof.
  intros bs Hb Hs. destruct (try_read_header c1 bs) as [[h n]|e|] eqn:R.
  - destruct (C67_header_read bs h n Hb R) as (k & Hk & R2). rewrite R2. f_equal. f_equal.
    destruct Hs as [Hs|Hs].
    + rewrite Hs in Hk. apply same_order_same_octets in Hk; [subst k; symmetry; apply with_own_key_source|].
      apply C03_header_decode_exact in R; [|assumption]. destruct R as ((Ho & _) & _).
      destruct Ho as (_ & _ & _ & Ho). unfold key_source_of. destruct (auxiliary_security_header h) as [a|]; [|exact I].
      destruct a as [ct fc [[k0 ki]|]]; [|exact I]. apply Ho.
    + specialize (Hs h n eq_refl). rewrite <- (with_own_key_source h) at 1. f_equal.
      unfold has_key_source in Hs. unfold key_source_of in Hk |- *. destruct (auxiliary_security_header h) as [a|].
      2:{ destruct k as [[|]|]; [contradiction|contradiction|reflexivity]. }
      destruct a as [ct fc [[k0 ki]|]]; cbn in *.
      * destruct k0; [discriminate|]. destruct k as [[|]|]; [contradiction|contradiction|reflexivity].
      * destruct k as [[|]|]; [contradiction|contradiction|reflexivity].
  - symmetry. exact (proj1 (C67_header_verdict bs e) R).
  - now apply C04_header_decode_never_panics in R.
Qed.

(** An unsecured frame is read alike on every host; the build matters only where a footer is
    expected and not even two octets are left (C23). *)
Theorem C67_frame_host_independent : forall m bs, octets bs -> cfg_ok c1 -> cfg_ok c2 ->
  overflow_checks c1 = overflow_checks c2 \/ m = Footer_None ->
  try_read_frame c1 m bs = try_read_frame c2 m bs.
Proof.
  intros m bs Hb H1 H2 Ho.
  pose proof (C23_frame_read_verdict c1 m bs Hb H1) as V1. pose proof (C23_frame_read_verdict c2 m bs Hb H2) as V2.
  assert (X : forall f n, try_read_frame c1 m bs = Ok (f, n) -> try_read_frame c1 m bs = try_read_frame c2 m bs).
  { intros f n R. rewrite R. symmetry. apply C19_frame_read_exact; [assumption..|].
    now apply C19_frame_read_exact in R. }
  destruct (try_read_frame c1 m bs) as [[f n]|e|] eqn:R1; [now apply (X f n)| |].
  - destruct (try_read_frame c2 m bs) as [[f n]|e'|] eqn:R2.
    + exfalso. apply C19_frame_read_exact in R2; [|assumption..]. apply (C19_frame_read_exact c1) in R2; congruence.
    + destruct Ho as [Ho| ->].
      * rewrite Ho in V1. destruct (frame_verdict (overflow_checks c2) m bs); [destruct V1; discriminate|congruence|discriminate].
      * replace (frame_verdict (overflow_checks c1) Footer_None bs)
          with (frame_verdict (overflow_checks c2) Footer_None bs) in V1 by reflexivity.
        destruct (frame_verdict (overflow_checks c2) Footer_None bs); [destruct V1; discriminate|congruence|discriminate].
    + destruct Ho as [Ho| ->]; [|exfalso; exact (C23_never_panics_without_footer c2 bs Hb H2 R2)].
      rewrite Ho in V1. destruct (frame_verdict (overflow_checks c2) m bs); [destruct V1; discriminate|congruence|discriminate].
  - destruct Ho as [Ho| ->]; [|exfalso; exact (C23_never_panics_without_footer c1 bs Hb H1 R1)].
    rewrite Ho in V1. destruct (frame_verdict (overflow_checks c2) m bs); [destruct V1; discriminate|discriminate|].
    now rewrite V2.
Qed.

(** A secured frame is received alike - outcome, buffer, security context, device store - on
    hosts of one byte order and one build mode, and on all byte orders if no key source is sent. *)
Theorem C67_receive_host_independent : forall K D (E : block_cipher K) bs ctx (dl : DeviceLookup D) ds,
  cipher_ok E -> octets bs -> cfg_ok c1 -> cfg_ok c2 ->
  overflow_checks c1 = overflow_checks c2 ->
  native c1 = native c2 \/ (forall h n, try_read_header c1 bs = Ok (h, n) -> has_key_source h = false) ->
  try_read_and_unsecure c1 E bs ctx dl ds = try_read_and_unsecure c2 E bs ctx dl ds.
Proof.
  intros K D E bs ctx dl ds HE Hb H1 H2 Ho Hs.
  pose proof (C67_header_host_independent bs Hb Hs) as EH.
  pose proof (C67_frame_host_independent Footer_None bs Hb H1 H2 (or_introl Ho)) as EF.
  pose proof (read_cases c1 E HE bs ctx dl ds Hb) as R1.
  pose proof (read_cases c2 E HE bs ctx dl ds Hb) as R2.
  destruct R1 as [(e1 & -> & A1)|[(h1 & n1 & A1 & B1 & f1 & C1 & D1 & ->)|(h1 & n1 & ct1 & k1 & a1 & A1 & B1 & C1 & D1 & _ & F1)]];
  destruct R2 as [(e2 & -> & A2)|[(h2 & n2 & A2 & B2 & f2 & C2 & D2 & ->)|(h2 & n2 & ct2 & k2 & a2 & A2 & B2 & C2 & D2 & _ & F2)]].
  - destruct A1 as [A1|(h & n & A1 & B1)], A2 as [A2|(h' & n' & A2 & B2)];
      rewrite EH in A1; rewrite A1 in A2.
    + injection A2 as ->. reflexivity.
    + discriminate A2.
    + discriminate A2.
    + injection A2 as <- <-. rewrite B1 in B2. injection B2 as ->. reflexivity.
  - exfalso. destruct A1 as [A1|(h & n & A1 & B1)]; rewrite EH in A1; [congruence|].
    rewrite try_read_frame_eq in D2 by assumption. rewrite A1, B1 in D2. discriminate.
  - exfalso. destruct A1 as [A1|(h & n & A1 & B1)]; rewrite EH in A1; congruence.
  - exfalso. destruct A2 as [A2|(h & n & A2 & B2)]; rewrite <- EH in A2; [congruence|].
    rewrite try_read_frame_eq in D1 by assumption. rewrite A2, B2 in D1. discriminate.
  - congruence.
  - exfalso. congruence.
  - exfalso. destruct A2 as [A2|(h & n & A2 & B2)]; rewrite <- EH in A2; congruence.
  - exfalso. congruence.
  - rewrite EH, A2 in A1. assert (h2 = h1) by congruence. assert (n2 = n1) by congruence. subst h2 n2.
    rewrite B2 in B1. assert (ct2 = ct1) by congruence. assert (k2 = k1) by congruence. subst ct2 k2.
    assert (a2 = a1) by congruence. subst a2.
    destruct (security_ctx ctx) as [sc|]; [|now rewrite F1, F2].
    destruct (footer_mode ctx); [|now rewrite F1, F2]. now rewrite F1, F2, Ho.
Qed.

End Hosts.

(** ** Non-vacuity *)

(** A realignment with channel page, cut at every place (C65). *)
Definition page_bytes : list N :=
  [0x03; 0x88; 7; 0x34; 0x12; 0xff; 0xff; 0x34; 0x12; 0; 0; 8; 0x34; 0x12; 0; 0; 11; 0x78; 0x56; 5; 1; 2; 3].
Example page_bytes_read :
  octets page_bytes /\ cfg_ok host /\
  try_read_frame host Footer_None page_bytes
  = Ok (with_payload (frame_sent Footer_None 0 (realignment_frame [] (Some 5))) [1; 2; 3], 23%nat) /\
  try_read_frame host Footer_None (firstn 21 page_bytes)
  = Ok (with_payload (frame_sent Footer_None 0 (realignment_frame [] (Some 5))) [1], 21%nat) /\
  try_read_frame host Footer_None (firstn 19 page_bytes)
  = Ok (frame_sent Footer_None 0 (realignment_frame [] None), 19%nat) /\
  Forall (fun k => try_read_frame host Footer_None (firstn k page_bytes) = Err Incomplete) (List.seq 0 19) /\
  try_read_frame host Footer_Explicit page_bytes
  = Ok ({| header := header (realignment_frame [] None); content := content (realignment_frame [] (Some 5));
           payload := [1]; footer := (2, 3) |}, 23%nat).
Proof.
  repeat match goal with |- _ /\ _ => split end; try (vm_compute; reflexivity).
  - repeat constructor.
  - discriminate.
  - vm_compute. repeat constructor.
Qed.
(** A beacon likewise; a command with an unknown identifier stays rejected. *)
Example more_truncations :
  let bs := written_bytes (try_write_frame host aes_cipher sample_plain (no_ctx Footer_None) (repeat 0 64)) in
  List.length bs = 39%nat /\
  try_read_header host bs = Ok (header (frame_sent Footer_None 0 sample_plain), 15%nat) /\
  match try_read_beacon (skipn 15 bs) with Ok (_, n) => n = 21%nat | _ => False end /\
  try_read_command [0x0b; 1; 2] = Err (BadInput "InvalidValue") /\
  try_read_frame host Footer_None ([0x03; 0x00; 9] ++ [0x0b; 1])
  = try_read_frame host Footer_None ([0x03; 0x00; 9] ++ [0x0b]).
Proof. vm_compute. repeat split. Qed.

(** A secured frame that names its key by a key source is accepted on the host it was written
    on and not found a key for on a host of the other byte order: the statement "a frame
    accepted on one host is accepted on every host with the same keys" is false (C67). *)
Definition one_key : KeyLookup (list N) := fun _ k _ =>
  match k with
  | Some {| key_source := Some (KS_Short v) |} =>
      if v =? 0x01020304 then Some (8, repeat 0xC0 16) else None
  | _ => None
  end.
Definition one_key_ctx (fc : N) : FrameSerDesContext (list N) :=
  {| footer_mode := Footer_None; security_ctx := Some (SecurityContext_new 8 fc one_key) |}.
Definition keyed_bytes : list N :=
  written_bytes (try_write_frame host aes_cipher
    (test_frame SL_MIC32 (Some {| key_source := Some (KS_Short 0x01020304); key_index := 1 |}) [1; 2; 3])
    (one_key_ctx 5) (repeat 0 64)).
Theorem C67_accepted_on_every_host_refuted :
  octets keyed_bytes /\ cfg_ok host /\ cfg_ok big_endian /\
  overflow_checks host = overflow_checks big_endian /\
  (exists f n s, try_read_and_unsecure host aes_cipher keyed_bytes (one_key_ctx 0) basic_dev_lookup (dev 1)
                 = (Ok (f, n), s) /\ payload f = [1; 2; 3]) /\
  fst (try_read_and_unsecure big_endian aes_cipher keyed_bytes (one_key_ctx 0) basic_dev_lookup (dev 1))
  = Err UnavailableKey.
Proof.
  split; [vm_compute; repeat constructor|]. split; [discriminate|]. split; [discriminate|]. split; [reflexivity|].
  split; [|vm_compute; reflexivity].
  destruct (try_read_and_unsecure host aes_cipher keyed_bytes (one_key_ctx 0) basic_dev_lookup (dev 1)) as [[[f n]|e|] s] eqn:E;
  vm_compute in E; try discriminate. exists f, n, s. split; [reflexivity|].
  inversion E. reflexivity.
Qed.
Print Assumptions C67_accepted_on_every_host_refuted.
Print Assumptions C67_receive_host_independent.
Print Assumptions C65_frame_truncated.
