(** Property C76: reflection. What a node does with its own frames when they are sent back to it. *)
From Coq Require Import List Arith NArith ZArith Bool String Lia ZifyBool ZifyNat ZifyN Sorting.Sorted.
From Verif Require Import ByteCrate Types HeaderModel BeaconModel CommandModel CcmModel FrameModel
  Spec SecSpec HistorySpec RestartSpec NodeSpec ProofLib HeaderProofs HeaderReadProofs BeaconProofs CommandProofs FrameProofs CcmProofs
  SecureProofs RepoTests Aes128 AesProofs PropHeader PropContent PropFrame PropSecure PropReceive PropHistory PropRestart PropNetwork
  PropAttacker PropNode.
Import ListNotations.
Open Scope N_scope.
Open Scope list_scope.

Section Reflect.
Context {K D : Type} (c : cfg) (E : block_cipher K) (dl : DeviceLookup D).
Hypothesis HE : cipher_ok E.

(** One step of a node. *)
Lemma act_write s x : frame_ok (c_frame x) -> u32_ok (sc_frame_counter (n_ctx s)) ->
  exists e n, act c E dl s (Write x) = (Wrote e, {| n_ctx := at_counter (n_ctx s) n; n_store := n_store s |}) /\
    send_all c E (n_ctx s) [x] = ([e], at_counter (n_ctx s) n).
Proof.
  intros Hok Hu.
  assert (R : exists e s1, act c E dl s (Write x) = (Wrote e, s1) /\ n_store s1 = n_store s).
  { cbn [act]. destruct (try_write_frame _ _ _ _ _) as [r [ctx buf]]. do 2 eexists. split; reflexivity. }
  destruct R as (e & s1 & A & St).
  assert (Rn : run c E dl s [Write x] = ([Wrote e], s1)) by (cbn [run]; rewrite A; reflexivity).
  assert (Hacts : Forall action_ok [Write x]) by (constructor; [exact Hok|constructor]).
  destruct (C73_sending_and_receiving_independent c E dl HE _ _ _ _ Hacts Hu Rn) as (S & _).
  cbn [writes flat_map app NodeSpec.wrote] in S.
  assert (Hc : calls_ok [x]) by (constructor; [exact Hok|constructor]).
  destruct (send_all_inv c E HE _ _ _ _ Hc Hu S) as (_ & _ & (n & Hn & _) & _).
  exists e, n. rewrite Hn in S. split; [|exact S]. rewrite A. f_equal. destruct s1 as [sc1 ds1]. cbn in *. now subst.
Qed.

(** A node sends a secured data frame and is handed the same octets back. If its own address is in its
    device store (with a counter that is not ahead), and its key provider answers for its own address
    as it did for the destination, it accepts its own frame as if it came from a peer. *)
Theorem C76_own_frame_accepted : forall s x e s1 a src eui key d put,
  frame_ok (c_frame x) -> u32_ok (sc_frame_counter (n_ctx s)) -> native c = LE ->
  act c E dl s (Write x) = (Wrote e, s1) -> secured e = true ->
  frame_consistent (s_frame e) -> version (header (s_frame e)) <> Ieee802154_2003 ->
  auxiliary_security_header (header (s_frame e)) = Some a ->
  source (header (as_received e)) = Some src ->
  sc_key_provider (n_ctx s) DstAddrMode (key_identifier a) (destination (header (s_frame e))) = Some (eui, key) ->
  sc_key_provider (n_ctx s) SrcAddrMode (key_identifier a) (Some src) = Some (sc_euid (n_ctx s), key) ->
  dl SrcAddrMode src (n_store s) = DevFound d put -> dev_frame_counter d <= s_before e ->
  act c E dl s1 (Read Footer_None (s_bytes e))
  = (Got Footer_None (s_bytes e) (Ok (as_received e, (List.length (s_bytes e) - tag_len (level_of e))%nat)),
     {| n_ctx := n_ctx s1;
        n_store := put {| dev_frame_counter := s_before e + 1; dev_exempt := dev_exempt d |} |}).
Proof using HE.
  intros s x e s1 a src eui key d put Hok Hu Hn A Hsec Hcons Hv Ha Hs Hk Hk' Hd Hle.
  destruct (act_write s x Hok Hu) as (e' & n & A' & S).
  assert (e' = e) by congruence. subst e'.
  assert (s1 = {| n_ctx := at_counter (n_ctx s) n; n_store := n_store s |}) by congruence. subst s1. clear A A'.
  assert (Hc : calls_ok [x]) by (constructor; [exact Hok|constructor]).
  assert (Hx : s_call e = x).
  { destruct (send_all_inv c E HE _ _ _ _ Hc Hu S) as (_ & I2 & _). cbn in I2. congruence. }
  assert (Hcons1 : Forall (fun z => frame_consistent (c_frame z)) [x]).
  { constructor; [|constructor]. rewrite <- Hx. exact Hcons. }
  assert (Sk : shares_keys (n_ctx s) [e] (ser_ctx Footer_None (at_counter (n_ctx s) n))).
  { intros e0 rsc a0 s0 eui0 key0 [<-|[]] _ Hr Ha0 Hs0 Hk0. injection Hr as <-. cbn [at_counter sc_key_provider sc_euid] in *.
    rewrite Ha in Ha0. injection Ha0 as <-. rewrite Hs in Hs0. injection Hs0 as <-. rewrite Hk in Hk0. injection Hk0 as <- <-.
    exact Hk'. }
  destruct (delivered E c c HE Hn Hn (n_ctx s) _ _ _ Hc Hcons1 Hu S dl e (at_counter (n_ctx s) n) src d put (n_store s)
    (or_introl eq_refl) Hsec Sk Hv Hs Hd Hle) as (bs' & Dv).
  cbn [act n_ctx n_store]. rewrite Dv. reflexivity.
Qed.

(** Whatever a node is handed with its own address as the source, its own frames above all: if the
    address is not in its device store, or the key provider does not answer for it, no secured frame
    is accepted, and nothing changes. *)
Theorem C76_own_address_refused : forall s m bs h n src r s1, octets bs -> lawful_lookup dl ->
  try_read_header c bs = Ok (h, n) -> auxiliary_security_header h <> None -> source h = Some src ->
  ((exists ds', dl SrcAddrMode src (n_store s) = DevMissing ds') \/
   (forall kid, sc_key_provider (n_ctx s) SrcAddrMode kid (Some src) = None)) ->
  act c E dl s (Read m bs) = (Got m bs r, s1) ->
  (forall f k, r <> Ok (f, k)) /\ s1 = s.
Proof using HE.
  intros s m bs h n src r s1 Hb Hlaw Hh Ha Hs Hno A.
  cbn [act] in A.
  destruct (try_read_and_unsecure c E bs (ser_ctx m (n_ctx s)) dl (n_store s)) as [r' [[bs' ctx'] ds']] eqn:T.
  assert (r' = r) by congruence. subst r'.
  assert (Hr : forall f k, r <> Ok (f, k)).
  { intros f k ->.
    assert (Hf : header f = h).
    { destruct (read_cases c E HE bs (ser_ctx m (n_ctx s)) dl (n_store s) Hb)
        as [(e & R & _)|[(h0 & n0 & Hh0 & _ & f0 & Hf0 & _ & R)|(h0 & n0 & ct & k0 & a0 & Hh0 & _ & _ & _ & _ & R)]].
      - congruence.
      - congruence.
      - rewrite Hh in Hh0. injection Hh0 as <- <-. cbn [ser_ctx security_ctx footer_mode] in R.
        destruct m; [|congruence].
        destruct (receive E (overflow_checks c) (n_ctx s) dl (n_store s) h a0 (skipn (n + k0) bs)) as [[q rest] dsx].
        rewrite R in T. destruct q as [p|e|]; [|discriminate T|discriminate T].
        assert (f = {| header := h; content := ct; payload := p; footer := (0, 0) |}) by congruence. now subst f. }
    destruct (auxiliary_security_header (header f)) as [a|] eqn:Ea; [|congruence].
    pose proof (proj1 (C32_accepted_iff c E HE bs (ser_ctx m (n_ctx s)) dl (n_store s) f k bs' ctx' ds' a Hb Ea) T) as Q.
    destruct Q as (sc & eui & key & d & put & r7 & rs & Q1 & _ & _ & _ & _ & (_ & _ & _ & _ & Q2 & (s0 & Q3 & Q4) & _) & _).
    rewrite Hf, Hs in Q3. injection Q3 as <-. rewrite Hf, Hs in Q2.
    unfold ser_ctx in Q1. assert (sc = n_ctx s) by congruence. subst sc.
    destruct Hno as [(x & Hx)|Hx]; congruence. }
  split; [exact Hr|].
  destruct (C33_rejected_changes_nothing c E HE _ _ _ _ _ _ _ _ Hb Hlaw T) as (-> & -> & _).
  { intros [f k]. apply Hr. }
  destruct s. cbn in *. congruence.
Qed.
End Reflect.

Section Origin.
Context {K D : Type} (c : N -> cfg) (E : block_cipher K) (dl : N -> DeviceLookup D).
Hypothesis HE : cipher_ok E.
Variables (st : N -> node_state K D) (member : N -> Prop)
  (resolve : N -> Address -> option N) (get : N -> D -> N -> DeviceDescriptor).
Hypothesis Hstore : forall y, device_store (dl y) (resolve y) (get y).
Hypothesis Htyped : forall x, u32_ok (sc_frame_counter (n_ctx (st x))) /\ u64_ok (sc_euid (n_ctx (st x))).
Hypothesis Hdistinct : forall x y, member x -> member y -> sc_euid (n_ctx (st x)) = sc_euid (n_ctx (st y)) -> x = y.
Hypothesis Hknown : forall y s x, resolve y s = Some x -> member x.
Hypothesis Hnames : forall y kid s eui key x,
  sc_key_provider (n_ctx (st y)) SrcAddrMode kid (Some s) = Some (eui, key) -> resolve y s = Some x ->
  eui = sc_euid (n_ctx (st x)).

Lemma got_is_a_read acts : forall st0 log st', run_system c E dl st0 acts = (log, st') ->
  forall y m bs r, In (y, Got m bs r) log ->
  In (y, Read m bs) acts /\
  exists sc ds, r = fst (try_read_and_unsecure (c y) E bs (ser_ctx m sc) (dl y) ds).
Proof.
  induction acts as [|[z b] acts IH]; intros st0 log st' R y m bs r Hin; cbn [run_system] in R.
  - injection R as <- <-. destruct Hin.
  - destruct (act (c z) E (dl z) (st0 z) b) as [e s] eqn:A. destruct (run_system c E dl _ acts) as [log1 st1] eqn:R1.
    injection R as <- <-. destruct Hin as [Hin|Hin].
    + assert (z = y) by congruence. assert (e = Got m bs r) by congruence. clear Hin. subst z e.
      destruct b as [x|m0 bs0]; cbn [act] in A.
      * destruct (try_write_frame _ _ _ _ _) as [r0 [ctx buf]]. discriminate A.
      * destruct (try_read_and_unsecure (c y) E bs0 (ser_ctx m0 (n_ctx (st0 y))) (dl y) (n_store (st0 y))) as [r0 [[b0 c0] d0]] eqn:T.
        assert (m0 = m) by congruence. assert (bs0 = bs) by congruence. assert (r0 = r) by congruence. subst.
        split; [now left|]. do 2 eexists. rewrite T. reflexivity.
    + destruct (IH _ _ _ R1 _ _ _ _ Hin) as (H1 & H2). split; [now right|exact H2].
Qed.

(** Every secured frame a node accepts was secured before - with its counter, level and payload - by
    the node its source address stands for. *)
Theorem C76_every_acceptance_has_an_origin : forall acts log st',
  Forall (fun p => action_ok (snd p) /\ member (fst p)) acts ->
  run_system c E dl st acts = (log, st') -> nothing_forged c E st log ->
  forall before y m bs f n after, log = before ++ (y, Got m bs (Ok (f, n))) :: after ->
  auxiliary_security_header (header f) <> None ->
  exists src x e, source (header f) = Some src /\ resolve y src = Some x /\
    In (x, Wrote e) before /\ secured e = true /\ substance f = substance_sent e.
Proof.
  intros acts log st' Ho R Nf before y m bs f n after El Ha.
  assert (Hin : In (y, Got m bs (Ok (f, n))) log) by (rewrite El; apply in_or_app; right; now left).
  destruct (got_is_a_read _ _ _ _ R _ _ _ _ Hin) as (Hact & sc & ds & Er).
  rewrite Forall_forall in Ho. pose proof (proj1 (Ho _ Hact)) as Hb. cbn [snd action_ok] in Hb.
  rewrite <- Forall_forall in Ho.
  destruct (auxiliary_security_header (header f)) as [a|] eqn:Ea; [clear Ha|congruence].
  destruct (try_read_and_unsecure (c y) E bs (ser_ctx m sc) (dl y) ds) as [r [[b' x'] d']] eqn:T. cbn [fst] in Er. subst r.
  destruct (C33_accepted_sets_counter (c y) E HE _ _ _ _ _ _ _ _ _ a Hb T Ea) as (_ & src & d & put & Hs & Hd & _).
  assert (Hx : exists x, resolve y src = Some x).
  { pose proof (Hstore y src ds) as Q. destruct (resolve y src) as [x|]; [now exists x|]. congruence. }
  destruct Hx as (x & Hx). exists src, x.
  pose proof (C74_system_order c E dl HE st member resolve get Hstore Htyped Hdistinct Hknown Hnames acts log st' Ho R Nf
                (before ++ [(y, Got m bs (Ok (f, n)))]) after ltac:(rewrite <- app_assoc; exact El) y x) as Sub.
  assert (Hf : In (substance f) (map substance (taken (resolve y) x (of_node y (before ++ [(y, Got m bs (Ok (f, n)))]))))).
  { apply in_map. rewrite of_node_app. unfold taken, got. rewrite !flat_map_app. apply in_or_app. right.
    cbn [of_node flat_map fst snd app]. rewrite N.eqb_refl. cbn [app flat_map frame_for]. rewrite Ea, Hs, Hx, N.eqb_refl. now left. }
  apply (subsequence_in _ _ Sub) in Hf. apply in_map_iff in Hf. destruct Hf as (e & Es & He).
  apply filter_In in He. destruct He as [He Hsec]. exists e.
  repeat (split; [assumption|]). split; [|split; [exact Hsec|now symmetry]].
  unfold NodeSpec.wrote in He. apply in_flat_map in He. destruct He as (ev & Hev & Hw).
  apply of_node_in in Hev. apply in_app_or in Hev. destruct Hev as [Hev|[Hev|[]]].
  - destruct ev as [e0|? ? ?]; [|destruct Hw]. destruct Hw as [<-|[]]. exact Hev.
  - assert (ev = Got m bs (Ok (f, n))) by congruence. subst ev. destruct Hw.
Qed.

(** So a node that does not list itself among its devices never accepts anything it secured itself,
    however the octets were altered, and even if all nodes share one key. *)
Theorem C76_own_frames_never_accepted : forall acts log st',
  Forall (fun p => action_ok (snd p) /\ member (fst p)) acts ->
  run_system c E dl st acts = (log, st') -> nothing_forged c E st log ->
  forall y, (forall src, resolve y src <> Some y) ->
  forall before m bs f n after, log = before ++ (y, Got m bs (Ok (f, n))) :: after ->
  auxiliary_security_header (header f) <> None ->
  exists x e, x <> y /\ In (x, Wrote e) before /\ secured e = true /\ substance f = substance_sent e.
Proof.
  intros acts log st' Ho R Nf y Hy before m bs f n after El Ha.
  destruct (C76_every_acceptance_has_an_origin acts log st' Ho R Nf before y m bs f n after El Ha)
    as (src & x & e & _ & Hx & Hin & Hsec & Es).
  exists x, e. split; [|auto]. intros ->. now apply (Hy src).
Qed.
End Origin.

(** * Concrete cases *)

Lemma octets_test bs : forallb (fun b => b <? 256) bs = true -> octets bs.
Proof.
  intros Hb. apply Forall_forall. intros b Hin. rewrite forallb_forall in Hb.
  exact (proj1 (N.ltb_lt b 256) (Hb b Hin)).
Qed.

(** Node 5 of the pair in PropNode.v lists itself, and accepts what it has sent. *)
Definition reflected : call := {| c_mode := Footer_None; c_frame := from_five [7; 7]; c_buffer := repeat 0 127 |}.
Definition reflected_event : sent :=
  match act host aes_cipher (known_lookup [5; 1]) (pair_state 5) (Write reflected) with (Wrote e, _) => e | _ => no_event end.
Definition reflected_after : node_state (list N) (known [5; 1]) :=
  snd (act host aes_cipher (known_lookup [5; 1]) (pair_state 5) (Write reflected)).
Example a_reflection :
  let e := reflected_event in
  frame_ok (c_frame reflected) /\ u32_ok (sc_frame_counter (n_ctx (pair_state 5))) /\ native host = LE /\
  act host aes_cipher (known_lookup [5; 1]) (pair_state 5) (Write reflected) = (Wrote e, reflected_after) /\ secured e = true /\
  frame_consistent (s_frame e) /\ version (header (s_frame e)) <> Ieee802154_2003 /\
  exists a src d put, auxiliary_security_header (header (s_frame e)) = Some a /\
  source (header (as_received e)) = Some src /\
  sc_key_provider (n_ctx (pair_state 5)) DstAddrMode (key_identifier a) (destination (header (s_frame e))) = Some (2, repeat 0 16) /\
  sc_key_provider (n_ctx (pair_state 5)) SrcAddrMode (key_identifier a) (Some src)
    = Some (sc_euid (n_ctx (pair_state 5)), repeat 0 16) /\
  known_lookup [5; 1] SrcAddrMode src (n_store (pair_state 5)) = DevFound d put /\ dev_frame_counter d <= s_before e /\
  fst (act host aes_cipher (known_lookup [5; 1]) reflected_after (Read Footer_None (s_bytes e)))
  = Got Footer_None (s_bytes e) (Ok (as_received e, 28%nat)).
Proof.
  cbv zeta. split; [repeat split; try reflexivity; repeat constructor|]. split; [reflexivity|]. split; [reflexivity|].
  split; [vm_compute; reflexivity|]. split; [vm_compute; reflexivity|]. split; [vm_compute; reflexivity|].
  split; [vm_compute; discriminate|].
  eexists _, _, _, _. split; [vm_compute; reflexivity|]. split; [vm_compute; reflexivity|].
  split; [vm_compute; reflexivity|]. split; [vm_compute; reflexivity|].
  split; [reflexivity|]. split; [vm_compute; discriminate|]. vm_compute. reflexivity.
Qed.

(** The same pair, but nobody lists himself. Node 1 is handed its own frame, then the same frame with
    the source changed to node 5's address; and a frame of node 5. *)
Definition not_self_resolve (y : N) (a : Address) : option N :=
  match known_resolve [5; 1] a with Some i => if i =? y then None else Some i | None => None end.
Definition not_self (y : N) : DeviceLookup (known [5; 1]) := fun m a ds =>
  match not_self_resolve y a with Some _ => known_lookup [5; 1] m a ds | None => DevMissing ds end.
Definition own_acts : list (N * action) :=
  [(1, from_node 1 SL_MIC32 [1; 2; 3]); (1, Read Footer_None (pair_bytes 1 0));
   (1, Read Footer_None (alter 15 5 (pair_bytes 1 0))); (5, Read Footer_None (pair_bytes 1 0));
   (5, from_node 5 SL_None [7; 7]); (1, Read Footer_None (pair_bytes 5 0)); (5, Read Footer_None (pair_bytes 5 0))].
Definition own_log : list (N * event) :=
  fst (run_system (fun _ => host) aes_cipher not_self pair_state own_acts).
Example nobody_lists_himself :
  (forall y, device_store (not_self y) (not_self_resolve y) known_get) /\
  (forall y s x, not_self_resolve y s = Some x -> in_pair x) /\
  (forall y kid s eui key x, sc_key_provider (n_ctx (pair_state y)) SrcAddrMode kid (Some s) = Some (eui, key) ->
     not_self_resolve y s = Some x -> eui = sc_euid (n_ctx (pair_state x))) /\
  (forall y src, not_self_resolve y src <> Some y) /\
  Forall (fun p => action_ok (snd p) /\ in_pair (fst p)) own_acts /\
  nothing_forged (fun _ => host) aes_cipher pair_state own_log /\
  map outcome_of own_log
  = [(1, inl (Ok 36%nat)); (1, inr (Err UnavailableDevice)); (1, inr (Err TransformationError));
     (5, inr (Ok (9, [1; 2; 3], 32%nat))); (5, inl (Ok 32%nat)); (1, inr (Ok (77, [7; 7], 28%nat)));
     (5, inr (Err UnavailableDevice))].
Proof.
  destruct a_pair_of_nodes as (H1 & _ & _ & H4 & H5 & _).
  assert (Hr : forall y s x, not_self_resolve y s = Some x -> known_resolve [5; 1] s = Some x /\ x <> y).
  { intros y s x. unfold not_self_resolve. destruct (known_resolve [5; 1] s) as [i|]; [|discriminate].
    destruct (N.eqb_spec i y); [discriminate|]. intros A. split; congruence. }
  split.
  { intros y a ds. unfold not_self. destruct (not_self_resolve y a) as [i|] eqn:Q; [|reflexivity].
    apply Hr in Q. destruct Q as [Q _]. pose proof (H1 y a ds) as P. rewrite Q in P. exact P. }
  split; [intros y s x A; apply Hr in A; apply (H4 y s x), A|].
  split; [intros y kid s eui key x Hk A; apply Hr in A; eapply H5; [exact Hk|apply A]|].
  split; [intros y src A; apply Hr in A; now apply (proj2 A)|].
  split. { assert (Ob : forall bs, forallb (fun b => b <? 256) bs = true -> octets bs).
    { intros bs Hb. apply Forall_forall. intros b Hin. rewrite forallb_forall in Hb. now apply N.ltb_lt, Hb. }
    repeat (constructor; [split; [|(now left) || (now right)]; cbn [snd from_node action_ok c_frame];
      first [apply Ob; vm_compute; reflexivity | apply level_frame_ok, Ob; vm_compute; reflexivity
            | repeat split; try reflexivity; apply Ob; vm_compute; reflexivity]|]). constructor. }
  split; [apply nothing_forged_test; vm_compute; reflexivity|].
  vm_compute. reflexivity.
Qed.

(** The second event above meets the hypotheses of C76_own_address_refused. *)
Example own_address_unlisted :
  exists h n a, try_read_header host (pair_bytes 1 0) = Ok (h, n) /\ auxiliary_security_header h = Some a /\
  source h = Some (Extended 0x111 1) /\ octets (pair_bytes 1 0) /\ lawful_lookup (not_self 1) /\
  not_self 1 SrcAddrMode (Extended 0x111 1) (n_store (pair_state 1)) = DevMissing (n_store (pair_state 1)).
Proof.
  eexists _, _, _. split; [vm_compute; reflexivity|]. split; [reflexivity|]. split; [reflexivity|].
  split; [apply octets_test; vm_compute; reflexivity|].
  split; [|reflexivity].
  intros a ds. pose proof (proj1 nobody_lists_himself 1 a ds) as P.
  destruct (not_self_resolve 1 a); [destruct P as (put & -> & P & _); exact P|now rewrite P].
Qed.

Print Assumptions C76_own_frame_accepted.
Print Assumptions C76_own_address_refused.
Print Assumptions C76_every_acceptance_has_an_origin.
Print Assumptions C76_own_frames_never_accepted.
