(** Property C70: what an active attacker can do who alters, forges, replays and drops frames at
    will but does not produce a tag that no sender ever produced. *)
From Coq Require Import List Arith NArith ZArith Bool String Lia ZifyBool ZifyNat ZifyN Sorting.Sorted.
From Verif Require Import ByteCrate Types HeaderModel BeaconModel CommandModel CcmModel FrameModel
  Spec SecSpec HistorySpec RestartSpec ProofLib HeaderProofs HeaderReadProofs BeaconProofs CommandProofs FrameProofs CcmProofs
  SecureProofs RepoTests Aes128 AesProofs PropHeader PropContent PropFrame PropSecure PropReceive PropHistory PropRestart PropNetwork.
Import ListNotations.
Open Scope N_scope.
Open Scope list_scope.
Ltac Zify.zify_post_hook ::= Z.div_mod_to_equations.

(** What the tag of a secured frame stands for. *)
Definition level_in (f : Frame) : SecurityLevel :=
  match auxiliary_security_header (header f) with Some a => security_level (control a) | None => SL_None end.
Definition substance (f : Frame) : N * SecurityLevel * list N := (counter_in f, level_in f, payload f).
Definition substance_sent (e : sent) : N * SecurityLevel * list N := (s_before e, level_of e, payload (s_frame e)).

Section Attacker.
Context {K D : Type} (E : block_cipher K) (c1 : N -> cfg) (c2 : cfg).
Hypothesis HE : cipher_ok E.

(** The sender known to the receiver as device [x]; keys may be shared between senders in any way. *)
Variables (sc : N -> SecurityContext K) (calls : N -> list call).
Hypothesis Hcalls : forall x, calls_ok (calls x).
Hypothesis Hfc : forall x, u32_ok (sc_frame_counter (sc x)).

(** Some sender secured payload [p] with this key and nonce. *)
Definition made (key : K) (nonce p : list N) : Prop :=
  exists x e a eui, In e (sent_by E c1 sc calls x) /\ secured e = true /\
    auxiliary_security_header (header (s_frame e)) = Some a /\
    sc_key_provider (sc x) DstAddrMode (key_identifier a) (destination (header (s_frame e))) = Some (eui, key) /\
    nonce = mac_nonce (sc_euid (sc x)) (s_before e) (level_of e) /\ p = payload (s_frame e).

(** No forgery: whatever arrives with a tag that verifies, under the key the receiver looks up for
    it, for some payload, has that tag from a sender that secured this payload with this nonce.
    The header around it is arbitrary. *)
Definition no_forgery (arrivals : list (arrival K)) : Prop :=
  forall y rsc h n a eui key p, In y arrivals -> security_ctx (a_ctx y) = Some rsc ->
    try_read_header c2 (a_bytes y) = Ok (h, n) -> auxiliary_security_header h = Some a ->
    authenticated (security_level (control a)) = true ->
    sc_key_provider rsc SrcAddrMode (key_identifier a) (source h) = Some (eui, key) ->
    verifies E key (security_level (control a)) eui (frame_counter a) (skipn n (a_bytes y)) p ->
    made key (mac_nonce eui (frame_counter a) (security_level (control a))) p.

Variables (dl : DeviceLookup D) (resolve : Address -> option N) (get : D -> N -> DeviceDescriptor).
Hypothesis Hstore : device_store dl resolve get.

(** The receiver's key provider gives the EUI-64 of sender [x] for every address of device [x]. *)
Definition names_sender (y : arrival K) : Prop :=
  forall rsc kid s eui key x, security_ctx (a_ctx y) = Some rsc ->
    sc_key_provider rsc SrcAddrMode kid (Some s) = Some (eui, key) -> resolve s = Some x ->
    eui = sc_euid (sc x).

(** A sender that sends, or that the receiver's device store knows. *)
Definition active (x : N) : Prop := calls x <> [] \/ exists s, resolve s = Some x.

(** Then what is accepted for each device is, in counter, level and payload, some of what its own
    sender sent, in the order in which it was sent, each at most once - although headers can be
    altered (C37), although senders may share keys, and whatever else is received. *)
Theorem C70_substance_in_order_at_most_once : forall arrivals ds log ds', arrivals_ok arrivals ->
  (forall x y, active x -> active y -> sc_euid (sc x) = sc_euid (sc y) -> x = y) ->
  (forall x, active x -> u64_ok (sc_euid (sc x))) ->
  receive_all c2 E dl ds arrivals = (log, ds') ->
  no_forgery arrivals -> Forall names_sender arrivals ->
  forall x, subsequence (map (fun p => substance (snd p)) (accepted resolve x log))
                        (map substance_sent (filter secured (sent_by E c1 sc calls x))).
Proof.
  intros arrivals ds log ds' Ho Hdist H64 Hr Hnf Hns x.
  (* what is accepted was made by sender x *)
  assert (Hin : incl (map (fun p => substance (snd p)) (accepted resolve x log))
                     (map substance_sent (filter secured (sent_by E c1 sc calls x)))).
  { assert (Hnf' : forall y, In y arrivals -> no_forgery [y] /\ names_sender y).
    { intros y Hy. split; [|rewrite Forall_forall in Hns; now apply Hns].
      intros y' rsc h n a eui key p [<-|[]]. intros. eapply Hnf; eassumption. }
    clear Hnf Hns. revert ds log ds' Ho Hr Hnf'. induction arrivals as [|y ys IH]; intros ds log ds' Ho Hr Hnf'.
    - cbn in Hr. injection Hr as <- <-. intros z [].
    - cbn [receive_all] in Hr. inversion Ho as [|? ? Hb Ho']; subst.
      destruct (try_read_and_unsecure c2 E (a_bytes y) (a_ctx y) dl ds) as [r [[b' x'] ds1]] eqn:R.
      destruct (receive_all c2 E dl ds1 ys) as [log2 ds2] eqn:R2. injection Hr as <- <-.
      rewrite accepted_cons, map_app. apply incl_app.
      2:{ eapply IH; [exact Ho'|exact R2|]. intros z Hz. apply Hnf'. now right. }
      destruct (accepted_for resolve x {| r_arrival := y; r_result := r |}) as [f|] eqn:A; [|intros z []].
      apply accepted_for_spec in A. destruct A as (n & a & s & Er & Ha & Hs & Hx). cbn [r_result] in Er. subst r.
      apply (C32_accepted_iff c2 E HE _ _ _ _ _ _ _ _ _ a Hb Ha) in R.
      destruct R as (rsc & eui & key & d & put & r7 & rs & Ec & _ & Hd & _ & _ & Adm & Hrs & Eb & H16 & _).
      destruct Adm as (_ & _ & _ & Hau & Hk & _).
      destruct (Hnf' y (or_introl eq_refl)) as [Nf Ns].
      assert (Hsc : security_ctx (a_ctx y) = Some rsc) by now rewrite Ec.
      assert (Ee : eui = sc_euid (sc x)).
      { rewrite Hs in Hk. exact (Ns rsc _ s eui key x Hsc Hk Hx). }
      assert (M : made key (mac_nonce eui (frame_counter a) (security_level (control a))) (payload f)).
      { refine (Nf y rsc (header f) (header_len (header f)) a eui key (payload f) (or_introl eq_refl) Hsc _ Ha Hau Hk _).
        - rewrite Eb. now apply try_read_header_complete.
        - split; [|exact H16]. rewrite Eb. apply skipn_app_exact'. now rewrite wire_header_length. }
      destruct M as (x0 & e & a0 & eui0 & Hin & Hsec & Ha0 & Hk0 & En & Ep).
      assert (Hf32 : u32_ok (frame_counter a)).
      { destruct Hd as ((_ & _ & _ & Hz) & _). rewrite Ha in Hz. apply Hz. }
      destruct (send_all (c1 x0) E (sc x0) (calls x0)) as [l0 sc0] eqn:S0.
      assert (El : sent_by E c1 sc calls x0 = l0) by (unfold sent_by; now rewrite S0).
      rewrite El in Hin.
      destruct (C29_secured_frame_uses_its_counter (c1 x0) E HE (sc x0) (calls x0) l0 sc0 e (Hcalls x0) (Hfc x0) S0 Hin Hsec) as (_ & Hlt & _).
      change last_counter with 0xFFFFFFFF in Hlt.
      assert (Hs32 : u32_ok (s_before e)) by (unfold u32_ok; change (2 ^ 32) with 0x100000000; lia).
      assert (Ax : active x) by (right; eauto).
      assert (Ax0 : active x0).
      { left. intros C. rewrite C in S0. cbn in S0. injection S0 as <- <-. destruct Hin. }
      assert (He64 : u64_ok eui) by (rewrite Ee; now apply H64).
      destruct (C29_nonce_injective _ _ _ _ _ _ He64 (H64 x0 Ax0) Hf32 Hs32 En) as (Exx & Ef & Elv).
      assert (x0 = x) by (apply Hdist; try assumption; congruence). subst x0.
      intros z [<-|[]]. cbn [snd]. apply in_map_iff. exists e. split.
      + unfold substance_sent, substance, counter_in, level_in. rewrite Ha. congruence.
      + apply filter_In. split; [|exact Hsec]. now rewrite El. }
  assert (Hlast : Forall (fun fc => fc <> 0xFFFFFFFF) (counters (accepted resolve x log))).
  { unfold counters. apply Forall_map. rewrite Forall_forall. intros p Hp.
    assert (Hq : In (substance (snd p)) (map substance_sent (filter secured (sent_by E c1 sc calls x))))
      by (apply Hin; now apply (in_map (fun p => substance (snd p)))).
    apply in_map_iff in Hq. destruct Hq as (e & Es & He). apply filter_In in He. destruct He as [He Hsec].
    unfold sent_by in He. destruct (send_all (c1 x) E (sc x) (calls x)) as [l0 sc0] eqn:S0. cbn [fst] in He.
    destruct (C29_secured_frame_uses_its_counter (c1 x) E HE (sc x) (calls x) l0 sc0 e (Hcalls x) (Hfc x) S0 He Hsec) as (_ & Hlt & _).
    unfold substance_sent, substance in Es. change last_counter with 0xFFFFFFFF in Hlt.
    assert (s_before e = counter_in (snd p)) by congruence. lia. }
  destruct (C34_accepted_counters_increase c2 E HE dl resolve get Hstore arrivals ds log ds' x Ho Hr (or_intror Hlast)) as (Hsort & _).
  apply (sorted_subsequence (fun q => fst (fst q))).
  - unfold sent_by. destruct (send_all (c1 x) E (sc x) (calls x)) as [l0 sc0] eqn:S0. cbn [fst].
    pose proof (C29_secured_counters_increase (c1 x) E HE (sc x) (calls x) l0 sc0 (Hcalls x) (Hfc x) S0) as S.
    revert S. generalize (filter secured l0). intros l. induction l as [|e l IH]; intros S; [constructor|].
    cbn [map] in *. inversion S as [|? ? S1 S2]; subst. constructor; [now apply IH|].
    apply Forall_map. rewrite Forall_forall in *. intros z Hz. cbn. apply S2. now apply in_map.
  - revert Hsort. unfold counters. generalize (accepted resolve x log). intros l. induction l as [|p l IH]; intros S; [constructor|].
    cbn [map] in *. inversion S as [|? ? S1 S2]; subst. constructor; [now apply IH|].
    apply Forall_map. rewrite Forall_forall in *. intros q Hq. cbn. apply S2. now apply (in_map (fun p => counter_in (snd p))).
  - exact Hin.
Qed.

End Attacker.

(** ** A concrete attack: all hypotheses are met *)

(** Octet [i] replaced. *)
Definition alter (i : nat) (v : N) (bs : list N) : list N := firstn i bs ++ v :: skipn (S i) bs.
(** Device 1's first frame with another sequence number; device 5's first frame
    with device 1's source address in it; a corrupted tag; a replay of the first with yet another
    sequence number; device 5's frame itself; device 1's third frame, altered. *)
Definition bytes_of x i := s_bytes (node_event x i).
Definition an_attack : list (arrival (list N)) :=
  map arrives
    [alter 2 200 (bytes_of 1 0); alter 13 1 (bytes_of 5 0); alter 35 0 (bytes_of 1 1); alter 2 201 (bytes_of 1 0);
     bytes_of 5 0; alter 2 7 (bytes_of 1 2); []].
Definition attacked := receive_all host aes_cipher (known_lookup [5; 1]) two_devices an_attack.

Lemma node_event_in x i : (i < List.length (filter secured (sent_by aes_cipher (fun _ => host) node node_calls x)))%nat ->
  In (node_event x i) (sent_by aes_cipher (fun _ => host) node node_calls x) /\ secured (node_event x i) = true.
Proof. intros H. apply filter_In. now apply nth_In. Qed.

(** The key, nonce and payload for which the tag of an arrival verifies. *)
Definition verified_for (y : arrival (list N)) : option (list N * list N * list N) :=
  match security_ctx (a_ctx y) with
  | None => None
  | Some rsc =>
    match try_read_header host (a_bytes y) with
    | Ok (h, n) =>
      match auxiliary_security_header h with
      | Some a =>
          match sc_key_provider rsc SrcAddrMode (key_identifier a) (source h) with
          | Some (eui, key) =>
              let l := security_level (control a) in
              let rest := skipn n (a_bytes y) in
              let k := (List.length rest - tag_len l)%nat in
              let plain := secured_payload aes_cipher key l eui (frame_counter a) (firstn k rest) in
              if (tag_len l <=? List.length rest)%nat &&
                 same_octets (secured_tag aes_cipher key l eui (frame_counter a) plain) (skipn k rest)
              then Some (key, mac_nonce eui (frame_counter a) l, plain) else None
          | None => None
          end
      | None => None
      end
    | _ => None
    end
  end.
Lemma no_forgery_one (y : arrival (list N)) : octets (a_bytes y) ->
  match verified_for y with Some (k, n, p) => made aes_cipher (fun _ => host) node node_calls k n p | None => True end ->
  no_forgery aes_cipher (fun _ => host) host node node_calls [y].
Proof.
  intros Hb H y' rsc h n a eui key p [<-|[]] Hsc R Ha _ Hk V.
  unfold verified_for in H. rewrite Hsc, R, Ha, Hk in H. cbv zeta in H.
  assert (L : (tag_len (security_level (control a)) <= List.length (skipn n (a_bytes y)))%nat).
  { destruct V as [V _]. rewrite V, app_length, secured_tag_length. lia. }
  destruct (verifies_test aes_cipher key (security_level (control a)) eui (frame_counter a)
              (skipn n (a_bytes y)) (octets_skipn n _ Hb) L) as [T U].
  cbv zeta in T, U. pose proof (U p V) as Ep. rewrite Ep in V |- *. apply T in V.
  apply Nat.leb_le in L. rewrite L in H. apply andb_true_iff in V. destruct V as [V _].
  rewrite V in H. exact H.
Qed.

Lemma no_forgery_all (l : list (arrival (list N))) :
  Forall (fun y => no_forgery aes_cipher (fun _ => host) host node node_calls [y]) l ->
  no_forgery aes_cipher (fun _ => host) host node node_calls l.
Proof.
  intros F y rsc h n a eui key p Hin. rewrite Forall_forall in F. intros.
  eapply (F y Hin); eauto. now left.
Qed.

Lemma made_event x i key nonce p : (i < List.length (filter secured (sent_by aes_cipher (fun _ => host) node node_calls x)))%nat ->
  (let e := node_event x i in
   match auxiliary_security_header (header (s_frame e)) with
   | Some a => match sc_key_provider (node x) DstAddrMode (key_identifier a) (destination (header (s_frame e))) with
               | Some (_, k) => k = key | None => False end
   | None => False
   end /\ nonce = mac_nonce (sc_euid (node x)) (s_before e) (level_of e) /\ p = payload (s_frame e)) ->
  made aes_cipher (fun _ => host) node node_calls key nonce p.
Proof.
  intros Hi H. destruct (node_event_in x i Hi) as [Hin Hsec]. cbv zeta in H. destruct H as (H & Hn & Hp).
  destruct (auxiliary_security_header _) as [a|] eqn:Ha; [|destruct H].
  destruct (sc_key_provider (node x) DstAddrMode (key_identifier a) (destination (header (s_frame (node_event x i))))) as [[eui k]|] eqn:Hk; [|destruct H]. subst k.
  exists x, (node_event x i), a, eui. repeat (split; [assumption|]). exact Hp.
Qed.

Example an_attack_meets_the_hypotheses :
  (forall x, calls_ok (node_calls x)) /\ (forall x, u32_ok (sc_frame_counter (node x))) /\ arrivals_ok an_attack /\
  (forall x y, active node_calls (known_resolve [5; 1]) x -> active node_calls (known_resolve [5; 1]) y ->
     sc_euid (node x) = sc_euid (node y) -> x = y) /\
  (forall x, active node_calls (known_resolve [5; 1]) x -> u64_ok (sc_euid (node x))) /\
  no_forgery aes_cipher (fun _ => host) host node node_calls an_attack /\
  Forall (names_sender node (known_resolve [5; 1])) an_attack /\
  map (fun e => match r_result e with Ok (f, n) => Ok (seq (header f), payload f, n) | Err x => Err x | Panic => Panic end) (fst attacked)
  = [Ok (200, [1; 2; 3], 32%nat); Err CounterError; Err TransformationError; Err CounterError; Ok (77, [7; 7], 28%nat);
     Ok (7, [6], 28%nat); Err (WriteError Incomplete)].
Proof.
  split; [apply a_network|]. split; [apply a_network|].
  split; [apply arrivals_octets; vm_compute; reflexivity|].
  split; [intros x y _ _ H; exact H|].
  split. { intros x A. enough (x = 1 \/ x = 5) as [->| ->]; [reflexivity|reflexivity|].
    destruct A as [A|[s A]].
    - unfold node_calls in A. destruct (N.eqb_spec x 1) as [E1|_]; [now left|].
      destruct (N.eqb_spec x 5) as [E5|_]; [now right|]. now destruct A.
    - destruct s as [|p z]; [discriminate|]. cbn [known_resolve existsb] in A.
      destruct (N.eqb_spec z 5) as [E5|_]; [right; cbn in A; congruence|].
      destruct (N.eqb_spec z 1) as [E1|_]; [left; cbn in A; congruence|]. discriminate. }
  split. { apply no_forgery_all. unfold an_attack. cbn [map].
    assert (G : forall bs, forallb (fun b => b <? 256) bs = true ->
      match verified_for (arrives bs) with Some (k, n, p) => made aes_cipher (fun _ => host) node node_calls k n p | None => True end ->
      no_forgery aes_cipher (fun _ => host) host node node_calls [arrives bs]).
    { intros bs Hb. apply no_forgery_one. cbn [a_bytes arrives]. rewrite forallb_forall in Hb.
      apply Forall_forall. intros b Hi. now apply N.ltb_lt, Hb. }
    Ltac one x i := constructor; [match goal with G : forall bs, _ |- no_forgery _ _ _ _ _ [arrives ?b] =>
        apply (G b); [vm_compute; reflexivity|];
        let v := eval vm_compute in (verified_for (arrives b)) in
        replace (verified_for (arrives b)) with v by (vm_compute; reflexivity) end;
        first [exact I | apply (made_event x i); [apply Nat.ltb_lt; vm_compute; reflexivity | vm_compute; auto]]|].
    one 1%N 0%nat. one 1%N 0%nat. one 1%N 0%nat. one 1%N 0%nat. one 5%N 0%nat. one 1%N 2%nat. one 1%N 0%nat. constructor. }
  split. { unfold an_attack. cbn [map].
    assert (G : forall bs, names_sender node (known_resolve [5; 1]) (arrives bs)).
    { intros bs rsc kid s eui key x Hs Hk Hx. injection Hs as <-. destruct s as [|p z]; [discriminate|].
      cbn [known_resolve] in Hx. destruct (existsb _ _); [|discriminate]. injection Hx as <-.
      cbn in Hk. now injection Hk as <- _. }
    repeat (constructor; [apply G|]). constructor. }
  vm_compute. reflexivity.
Qed.

Print Assumptions C70_substance_in_order_at_most_once.
Print Assumptions an_attack_meets_the_hypotheses.
