(** Properties C71 - C74: what a block cipher is asked to encrypt, how many frames a key lasts for,
    nodes that both send and receive, and systems of such nodes. *)
From Coq Require Import List Arith NArith ZArith Bool String Lia ZifyBool ZifyNat ZifyN Sorting.Sorted.
From Verif Require Import ByteCrate Types HeaderModel BeaconModel CommandModel CcmModel FrameModel
  Spec SecSpec HistorySpec RestartSpec NodeSpec ProofLib HeaderProofs HeaderReadProofs BeaconProofs CommandProofs FrameProofs CcmProofs
  SecureProofs RepoTests Aes128 AesProofs PropHeader PropContent PropFrame PropSecure PropReceive PropHistory PropRestart PropNetwork
  PropAttacker.
Import ListNotations.
Open Scope N_scope.
Open Scope list_scope.
Ltac Zify.zify_post_hook ::= Z.div_mod_to_equations.

(** ** C73 Sending and receiving do not interfere *)

Section Node.
Context {K D : Type} (c : cfg) (E : block_cipher K) (dl : DeviceLookup D).
Hypothesis HE : cipher_ok E.

(** What can happen: frames that Rust's types allow, octets. *)
Definition action_ok (a : action) : Prop :=
  match a with Write x => frame_ok (c_frame x) | Read _ bs => octets bs end.

(** Reading with a context does not depend on its frame counter, and does not change it. *)
Lemma read_any_counter bs m sc n (ds : D) : octets bs ->
  let r1 := try_read_and_unsecure c E bs (ser_ctx m sc) dl ds in
  let r2 := try_read_and_unsecure c E bs (ser_ctx m (at_counter sc n)) dl ds in
  fst r1 = fst r2 /\ snd (snd r1) = snd (snd r2) /\ snd (fst (snd r1)) = ser_ctx m sc.
Proof.
  intros Hb. cbv zeta.
  destruct (C44_unsecuring_queries c E HE bs m sc (at_counter sc n) dl dl ds Hb) as (A & _ & B); [auto|].
  split; [exact A|]. split; [exact B|]. now apply C33_context_never_changes.
Qed.

Definition received_with (sc : SecurityContext K) (l : list (FooterMode * list N)) : list (arrival K) :=
  map (fun p => {| a_ctx := ser_ctx (fst p) sc; a_bytes := snd p |}) l.

Lemma receive_any_counter l sc n (ds : D) : Forall (fun p => octets (snd p)) l ->
  map r_result (fst (receive_all c E dl ds (received_with (at_counter sc n) l)))
  = map r_result (fst (receive_all c E dl ds (received_with sc l))) /\
  snd (receive_all c E dl ds (received_with (at_counter sc n) l)) = snd (receive_all c E dl ds (received_with sc l)).
Proof.
  revert ds. induction l as [|[m bs] l IH]; intros ds Ho; [split; reflexivity|].
  inversion Ho as [|? ? Hb Ho']; subst. cbn [received_with map receive_all a_bytes a_ctx fst snd].
  destruct (read_any_counter bs m sc n ds Hb) as (A & B & _).
  destruct (try_read_and_unsecure c E bs (ser_ctx m sc) dl ds) as [r1 [[b1 x1] d1]].
  destruct (try_read_and_unsecure c E bs (ser_ctx m (at_counter sc n)) dl ds) as [r2 [[b2 x2] d2]].
  cbn [fst snd] in A, B. subst r2 d2. destruct (IH d1 Ho') as (I1 & I2).
  unfold received_with in I1, I2.
  destruct (receive_all c E dl d1 (map (fun p => {| a_ctx := ser_ctx (fst p) (at_counter sc n); a_bytes := snd p |}) l)) as [l1 e1].
  destruct (receive_all c E dl d1 (map (fun p => {| a_ctx := ser_ctx (fst p) sc; a_bytes := snd p |}) l)) as [l2 e2].
  cbn [fst snd map r_result] in *. split; [f_equal; exact I1|exact I2].
Qed.

(** Any interleaving of writes and reads with one security context and one device store: the
    writes do what they would do without the reads, and the reads what they would do without the
    writes. *)
Theorem C73_sending_and_receiving_independent : forall acts s log s', Forall action_ok acts ->
  u32_ok (sc_frame_counter (n_ctx s)) ->
  run c E dl s acts = (log, s') ->
  send_all c E (n_ctx s) (writes acts) = (NodeSpec.wrote log, n_ctx s') /\
  exists rlog,
    receive_all c E dl (n_store s) (received_with (n_ctx s) (reads acts)) = (rlog, n_store s') /\
    map r_result rlog = got log.
Proof.
  induction acts as [|a acts IH]; intros s log s' Ho Hf R.
  - cbn in R. injection R as <- <-. split; [reflexivity|]. exists []. split; reflexivity.
  - inversion Ho as [|? ? Ha Ho']; subst. cbn [run] in R. destruct (act c E dl s a) as [e s1] eqn:A.
    destruct (run c E dl s1 acts) as [log1 s2] eqn:R1. injection R as <- <-.
    destruct a as [x|m bs]; cbn [act] in A.
    + cbn [action_ok] in Ha.
      destruct (write_context c E HE (c_frame x) (c_mode x) (n_ctx s) (c_buffer x) Ha Hf) as (n & Ec & Hn & _).
      destruct (try_write_frame c E (c_frame x) (ser_ctx (c_mode x) (n_ctx s)) (c_buffer x)) as [r [ctx buf]] eqn:W.
      cbn [fst snd] in Ec. subst ctx. cbn [ser_ctx security_ctx] in A. injection A as <- <-.
      destruct (IH {| n_ctx := at_counter (n_ctx s) n; n_store := n_store s |} _ _ Ho' Hn R1) as (I1 & rlog & I2 & I3).
      cbn [n_ctx n_store] in *. split.
      * unfold writes, NodeSpec.wrote in *. cbn [flat_map app send_all]. rewrite W. cbn [ser_ctx security_ctx]. now rewrite I1.
      * unfold got, reads in *. cbn [flat_map app].
        destruct (receive_any_counter (reads acts) (n_ctx s) n (n_store s)) as (X & Y).
        { clear - Ho'. unfold reads. induction acts as [|[x|m bs] acts IH]; [constructor| |]; inversion Ho'; subst; unfold reads in *; cbn; auto. }
        destruct (receive_all c E dl (n_store s) (received_with (n_ctx s) (reads acts))) as [rlog2 d2] eqn:Z.
        unfold reads in X, Y, Z. exists rlog2. rewrite I2 in X, Y. cbn [fst snd] in X, Y.
        split; [|congruence]. rewrite Z. congruence.
    + cbn [action_ok] in Ha.
      pose proof (C33_context_never_changes c E HE bs (ser_ctx m (n_ctx s)) dl (n_store s) Ha) as Cx.
      destruct (try_read_and_unsecure c E bs (ser_ctx m (n_ctx s)) dl (n_store s)) as [r [[b' ctx] ds]] eqn:W.
      cbn [fst snd] in Cx. subst ctx. cbn [ser_ctx security_ctx] in A. injection A as <- <-.
      destruct (IH {| n_ctx := n_ctx s; n_store := ds |} _ _ Ho' Hf R1) as (I1 & rlog & I2 & I3).
      cbn [n_ctx n_store] in *. split.
      * exact I1.
      * exists ({| r_arrival := {| a_ctx := ser_ctx m (n_ctx s); a_bytes := bs |}; r_result := r |} :: rlog).
        unfold got, reads, received_with in *. cbn [flat_map app map fst snd receive_all a_bytes a_ctx]. rewrite W, I2.
        split; [reflexivity|]. cbn [r_result]. now rewrite I3.
Qed.
End Node.

(** ** C74 Systems of nodes *)

Lemma of_node_app {A} x (l1 l2 : list (N * A)) : of_node x (l1 ++ l2) = of_node x l1 ++ of_node x l2.
Proof. unfold of_node. apply flat_map_app. Qed.
Lemma of_node_in {A} x (l : list (N * A)) y : In y (of_node x l) <-> In (x, y) l.
Proof.
  unfold of_node. rewrite in_flat_map. split.
  - intros ([z w] & Hin & Hy). cbn in Hy. destruct (N.eqb_spec z x) as [->|_]; [|destruct Hy].
    destruct Hy as [<-|[]]. exact Hin.
  - intros Hin. exists (x, y). split; [exact Hin|]. cbn. rewrite N.eqb_refl. now left.
Qed.

Lemma sorted_app_r {A} (R : A -> A -> Prop) l1 l2 : StronglySorted R (l1 ++ l2) -> StronglySorted R l2.
Proof. induction l1 as [|z l1 IH]; cbn; intros I; [exact I|inversion I; auto]. Qed.
Lemma forallb_map' {A B} (f : A -> B) p l : forallb p (map f l) = forallb (fun x => p (f x)) l.
Proof. induction l as [|x l IH]; [reflexivity|]. cbn. now rewrite IH. Qed.
Lemma subsequence_in {A} (xs ys : list A) : subsequence xs ys -> forall x, In x xs -> In x ys.
Proof. induction 1; intros z Hz; [exact Hz|right; auto|]. destruct Hz as [->|Hz]; [now left|right; auto]. Qed.

Section System.
Context {K D : Type} (c : N -> cfg) (E : block_cipher K) (dl : N -> DeviceLookup D).
Hypothesis HE : cipher_ok E.

(** A node in a system does what it would do by itself. *)
Lemma system_node acts : forall st log st' x, run_system c E dl st acts = (log, st') ->
  run (c x) E (dl x) (st x) (of_node x acts) = (of_node x log, st' x).
Proof.
  induction acts as [|[y a] acts IH]; intros st log st' x R.
  - cbn in R. injection R as <- <-. reflexivity.
  - cbn [run_system] in R. destruct (act (c y) E (dl y) (st y) a) as [e s] eqn:A.
    destruct (run_system c E dl _ acts) as [log1 st1] eqn:R1. injection R as <- <-.
    specialize (IH _ _ _ x R1). cbn beta in IH. unfold of_node in *. cbn [flat_map fst snd].
    rewrite (N.eqb_sym x y) in IH. destruct (N.eqb_spec y x) as [->|_]; [|exact IH].
    cbn [app run]. rewrite A, IH. reflexivity.
Qed.

Lemma system_prefix acts1 : forall st acts2 log st', run_system c E dl st (acts1 ++ acts2) = (log, st') ->
  exists st1, run_system c E dl st acts1 = (firstn (List.length acts1) log, st1).
Proof.
  induction acts1 as [|[y a] acts1 IH]; intros st acts2 log st' R.
  - exists st. reflexivity.
  - cbn [app run_system] in R |- *. destruct (act (c y) E (dl y) (st y) a) as [e s] eqn:A.
    destruct (run_system c E dl _ (acts1 ++ acts2)) as [log1 st1] eqn:R1. injection R as <- <-.
    destruct (IH _ _ _ _ R1) as (st2 & R2). rewrite R2. eexists. reflexivity.
Qed.

Lemma system_length acts : forall st log st', run_system c E dl st acts = (log, st') -> List.length log = List.length acts.
Proof.
  induction acts as [|[y a] acts IH]; intros st log st' R; cbn [run_system] in R.
  - now injection R as <- <-.
  - destruct (act (c y) E (dl y) (st y) a) as [e s]. destruct (run_system c E dl _ acts) as [log1 st1] eqn:R1.
    injection R as <- <-. cbn. f_equal. eapply IH, R1.
Qed.

(** Every octet string read is in the log. *)
Lemma reads_logged (cc : cfg) (dd : DeviceLookup D) acts : forall s log s', run cc E dd s acts = (log, s') ->
  forall m bs, In (m, bs) (reads acts) -> exists r, In (Got m bs r) log.
Proof.
  induction acts as [|a acts IH]; intros s log s' R m bs Hin; [destruct Hin|].
  cbn [run] in R. destruct (act cc E dd s a) as [e s1] eqn:A. destruct (run cc E dd s1 acts) as [log1 s2] eqn:R1.
  injection R as <- <-. unfold reads in Hin. cbn [flat_map] in Hin. apply in_app_or in Hin. destruct Hin as [Hin|Hin].
  - destruct a as [x|m0 bs0]; [destruct Hin|]. destruct Hin as [Hin|[]]. injection Hin as -> ->.
    cbn [act] in A. destruct (try_read_and_unsecure _ _ _ _ _ _) as [r [[b' x'] d']]. injection A as <- <-.
    exists r. now left.
  - destruct (IH _ _ _ R1 m bs Hin) as (r & Hr). exists r. now right.
Qed.

(** Nodes as they start: contexts, device stores; which nodes there are; how each node's device
    store numbers devices (by the number of the node). *)
Variables (st : N -> node_state K D) (member : N -> Prop)
  (resolve : N -> Address -> option N) (get : N -> D -> N -> DeviceDescriptor).
Hypothesis Hstore : forall y, device_store (dl y) (resolve y) (get y).
Hypothesis Htyped : forall x, u32_ok (sc_frame_counter (n_ctx (st x))) /\ u64_ok (sc_euid (n_ctx (st x))).
Hypothesis Hdistinct : forall x y, member x -> member y -> sc_euid (n_ctx (st x)) = sc_euid (n_ctx (st y)) -> x = y.
Hypothesis Hknown : forall y s x, resolve y s = Some x -> member x.
(** A node's key provider names each device by that node's EUI-64. *)
Hypothesis Hnames : forall y kid s eui key x,
  sc_key_provider (n_ctx (st y)) SrcAddrMode kid (Some s) = Some (eui, key) -> resolve y s = Some x ->
  eui = sc_euid (n_ctx (st x)).

(** In the events so far some node secured payload [p] with this key and nonce. *)
Definition made_before (before : list (N * event)) (key : K) (nonce p : list N) : Prop :=
  exists x e a eui, In (x, Wrote e) before /\ secured e = true /\
    auxiliary_security_header (header (s_frame e)) = Some a /\
    sc_key_provider (n_ctx (st x)) DstAddrMode (key_identifier a) (destination (header (s_frame e))) = Some (eui, key) /\
    nonce = mac_nonce (sc_euid (n_ctx (st x))) (s_before e) (level_of e) /\ p = payload (s_frame e).

(** No forgery: when a node is given octets whose tag verifies under the key it looks up for them,
    some node has secured that payload with that key and nonce earlier. *)
Definition nothing_forged (log : list (N * event)) : Prop :=
  forall before y m bs r after h n a eui key p, log = before ++ (y, Got m bs r) :: after ->
    try_read_header (c y) bs = Ok (h, n) -> auxiliary_security_header h = Some a ->
    authenticated (security_level (control a)) = true ->
    sc_key_provider (n_ctx (st y)) SrcAddrMode (key_identifier a) (source h) = Some (eui, key) ->
    verifies E key (security_level (control a)) eui (frame_counter a) (skipn n bs) p ->
    made_before before key (mac_nonce eui (frame_counter a) (security_level (control a))) p.

Lemma forged_prefix l1 l2 : nothing_forged (l1 ++ l2) -> nothing_forged l1.
Proof.
  intros H before y m bs r after h n a eui key p ->. intros. eapply H; try eassumption.
  now rewrite <- app_assoc.
Qed.

Lemma taken_accepted (rs : Address -> option N) x (rlog : list (received K)) log : map r_result rlog = got log ->
  taken rs x log = map snd (accepted rs x rlog).
Proof.
  intros H. unfold taken. rewrite <- H. clear H. induction rlog as [|e l IH]; [reflexivity|].
  cbn [map flat_map]. rewrite IH. unfold accepted. cbn [flat_map]. rewrite map_app. f_equal.
  unfold frame_for, accepted_for. destruct (r_result e) as [[f n]| |]; try reflexivity.
  destruct (auxiliary_security_header (header f)), (source (header f)) as [s|]; try reflexivity.
  destruct (rs s) as [i|]; [|reflexivity]. destruct (i =? x); reflexivity.
Qed.

Lemma system_at_end acts log st' : Forall (fun p => action_ok (snd p) /\ member (fst p)) acts ->
  run_system c E dl st acts = (log, st') -> nothing_forged log ->
  forall y x, subsequence (map substance (taken (resolve y) x (of_node y log)))
                          (map substance_sent (filter secured (NodeSpec.wrote (of_node x log)))).
Proof.
  intros Ho R Nf y x.
  assert (Ok1 : forall z, Forall action_ok (of_node z acts)).
  { intros z. apply Forall_forall. intros a Ha. apply of_node_in in Ha. rewrite Forall_forall in Ho. apply (Ho _ Ha). }
  assert (P : forall z, send_all (c z) E (n_ctx (st z)) (writes (of_node z acts)) = (NodeSpec.wrote (of_node z log), n_ctx (st' z)) /\
    exists rlog, receive_all (c z) E (dl z) (n_store (st z)) (received_with (n_ctx (st z)) (reads (of_node z acts))) = (rlog, n_store (st' z)) /\
    map r_result rlog = got (of_node z log)).
  { intros z. eapply C73_sending_and_receiving_independent; [exact HE|apply Ok1|apply Htyped|]. now apply system_node. }
  destruct (P y) as (_ & rlog & Rr & Rg).
  rewrite (taken_accepted _ _ _ _ Rg), map_map.
  assert (Sx : forall z, sent_by E c (fun z => n_ctx (st z)) (fun z => writes (of_node z acts)) z = NodeSpec.wrote (of_node z log)).
  { intros z. unfold sent_by. destruct (P z) as [-> _]. reflexivity. }
  rewrite <- Sx.
  assert (Hw : forall z, writes (of_node z acts) <> [] -> member z).
  { intros z Hz. destruct (of_node z acts) as [|a l] eqn:El; [now destruct Hz|].
    assert (Ha : In a (of_node z acts)) by (rewrite El; now left). apply of_node_in in Ha.
    rewrite Forall_forall in Ho. apply (Ho _ Ha). }
  assert (Ha : forall z, active (fun z => writes (of_node z acts)) (resolve y) z -> member z).
  { intros z [Hz|[s Hs]]; [now apply Hw|]. eapply Hknown, Hs. }
  eapply (C70_substance_in_order_at_most_once E c (c y) HE (fun z => n_ctx (st z)) (fun z => writes (of_node z acts))) with
    (arrivals := received_with (n_ctx (st y)) (reads (of_node y acts))) (dl := dl y) (get := get y).
  - intros z. unfold calls_ok. pose proof (Ok1 z) as O. clear - O. unfold writes.
    induction (of_node z acts) as [|[x|m bs] l IH]; [constructor| |]; inversion O; subst; cbn; auto.
  - intros z. apply Htyped.
  - apply Hstore.
  - unfold arrivals_ok. unfold received_with. apply Forall_map. pose proof (Ok1 y) as O. clear - O. unfold reads.
    induction (of_node y acts) as [|[x|m bs] l IH]; [constructor| |]; inversion O; subst; cbn; auto.
  - intros z w Az Aw. apply Hdistinct; auto.
  - intros z _. apply Htyped.
  - exact Rr.
  - intros y0 rsc h n a eui key p Hin Hsc Rh Hau Hlv Hk V.
    apply in_map_iff in Hin. destruct Hin as ([m bs] & <- & Hin). cbn [a_ctx a_bytes fst snd] in *. injection Hsc as <-.
    pose proof (system_node acts st log st' y R) as Ry.
    destruct (reads_logged _ _ _ _ _ _ Ry _ _ Hin) as (r & Hr). apply of_node_in in Hr.
    apply in_split in Hr. destruct Hr as (before & after & Hl).
    destruct (Nf before y m bs r after h n a eui key p Hl Rh Hau Hlv Hk V) as (z & e & a0 & eui0 & Hi & Hs & Ha0 & Hk0 & Hn & Hp).
    exists z, e, a0, eui0. split; [|repeat (split; [assumption|]); assumption].
    rewrite Sx. unfold NodeSpec.wrote. apply in_flat_map. exists (Wrote e). split; [|now left].
    apply of_node_in. rewrite Hl. apply in_or_app. now left.
  - unfold received_with. apply Forall_map. apply Forall_forall. intros [m bs] _ rsc kid s eui key z Hsc Hk Hz.
    cbn [a_ctx fst snd] in Hsc. injection Hsc as <-. eapply Hnames; eassumption.
Qed.

(** Any number of nodes send and receive in any interleaving, and any octets may be delivered to
    anyone at any time. At any moment, what node [y] has accepted so far for node [x] is - in
    counter, level and payload - some of what [x] has sent so far, in the order it was sent, each at
    most once. *)
Theorem C74_system_order : forall acts log st', Forall (fun p => action_ok (snd p) /\ member (fst p)) acts ->
  run_system c E dl st acts = (log, st') -> nothing_forged log ->
  forall so_far later, log = so_far ++ later ->
  forall y x, subsequence (map substance (taken (resolve y) x (of_node y so_far)))
                          (map substance_sent (filter secured (NodeSpec.wrote (of_node x so_far)))).
Proof.
  intros acts log st' Ho R Nf so_far later -> y x.
  pose proof (system_length acts st _ st' R) as Len. rewrite app_length in Len.
  rewrite <- (firstn_skipn (List.length so_far) acts) in R, Ho.
  destruct (system_prefix _ _ _ _ _ R) as (st1 & R1).
  rewrite firstn_length, Nat.min_l, firstn_app_exact' in R1 by lia.
  eapply system_at_end; [|exact R1|eapply forged_prefix, Nf].
  apply Forall_app in Ho. apply Ho.
Qed.

(** The writes of a node in a system, as a history of their own. *)
Lemma system_writes acts log st' x : Forall (fun p => action_ok (snd p) /\ member (fst p)) acts ->
  run_system c E dl st acts = (log, st') ->
  calls_ok (writes (of_node x acts)) /\
  send_all (c x) E (n_ctx (st x)) (writes (of_node x acts)) = (NodeSpec.wrote (of_node x log), n_ctx (st' x)).
Proof.
  intros Ho R.
  assert (Ok1 : Forall action_ok (of_node x acts)).
  { apply Forall_forall. intros a Ha. apply of_node_in in Ha. rewrite Forall_forall in Ho. apply (Ho _ Ha). }
  split.
  - unfold calls_ok, writes. clear - Ok1.
    induction (of_node x acts) as [|[y|m bs] l IH]; [constructor| |]; inversion Ok1; subst; cbn; auto.
  - eapply C73_sending_and_receiving_independent; [exact HE|exact Ok1|apply Htyped|]. now apply system_node.
Qed.

(** All frame counters used up at different times in a system give different nonces. *)
Theorem C74_system_nonces : forall acts log st', Forall (fun p => action_ok (snd p) /\ member (fst p)) acts ->
  run_system c E dl st acts = (log, st') ->
  forall l1 x1 e1 l2 x2 e2 l3, log = l1 ++ (x1, Wrote e1) :: l2 ++ (x2, Wrote e2) :: l3 ->
  used e1 = true -> used e2 = true ->
  mac_nonce (sc_euid (n_ctx (st x1))) (s_before e1) (level_of e1)
  <> mac_nonce (sc_euid (n_ctx (st x2))) (s_before e2) (level_of e2).
Proof using HE Htyped Hdistinct.
  clear Hstore Hnames Hknown get resolve.
  intros acts log st' Ho R l1 x1 e1 l2 x2 e2 l3 El U1 U2 En.
  assert (M : forall x e, In (x, Wrote e) log -> member x /\ u32_ok (s_before e)).
  { intros x e Hin. destruct (system_writes acts log st' x Ho R) as (Hc & S).
    assert (He : In e (NodeSpec.wrote (of_node x log))).
    { unfold NodeSpec.wrote. apply in_flat_map. exists (Wrote e). split; [now apply of_node_in|now left]. }
    destruct (send_all_inv (c x) E HE _ _ _ _ Hc (proj1 (Htyped x)) S) as (I1 & I2 & _).
    rewrite Forall_forall in I1. destruct (I1 e He) as (_ & Hb & _). split; [|exact Hb].
    assert (Hw : In (s_call e) (writes (of_node x acts))) by (rewrite <- I2; now apply in_map).
    unfold writes in Hw. apply in_flat_map in Hw. destruct Hw as (a & Ha & _). apply of_node_in in Ha.
    rewrite Forall_forall in Ho. apply (Ho _ Ha). }
  destruct (M x1 e1) as (M1 & B1); [rewrite El; apply in_or_app; right; now left|].
  destruct (M x2 e2) as (M2 & B2); [rewrite El; apply in_or_app; right; right; apply in_or_app; right; now left|].
  destruct (C29_nonce_injective _ _ _ _ _ _ (proj2 (Htyped x1)) (proj2 (Htyped x2)) B1 B2 En) as (Ee & Ec & _).
  assert (x1 = x2) by now apply Hdistinct. subst x2.
  destruct (system_writes acts log st' x1 Ho R) as (Hc & S).
  pose proof (C29_used_counters_increase (c x1) E HE _ _ _ _ Hc (proj1 (Htyped x1)) S) as Inc.
  rewrite El in Inc. rewrite of_node_app in Inc. unfold NodeSpec.wrote, of_node in Inc.
  repeat (rewrite ?flat_map_app, ?filter_app, ?map_app in Inc; cbn [flat_map fst snd app filter] in Inc; rewrite ?N.eqb_refl in Inc).
  rewrite U1, U2 in Inc. cbn [map] in Inc.
  apply sorted_app_r in Inc. rename Inc into Inc2.
  inversion Inc2 as [|? ? _ F]; subst. rewrite Forall_forall in F.
  assert (s_before e1 < s_before e2); [|lia]. apply F. apply in_or_app. right. now left.
Qed.

(** A frame that a node has written, delivered later and unchanged to a node that knows the sender and
    its key, is accepted as sent - unless that node has meanwhile accepted a frame of this sender
    with the same or a greater counter; then the answer is CounterError. *)
Theorem C74_system_delivery : forall acts log st', Forall (fun p => action_ok (snd p) /\ member (fst p)) acts ->
  run_system c E dl st acts = (log, st') -> nothing_forged log ->
  forall before x e y r after a s eui eui' key,
  log = before ++ (y, Got Footer_None (s_bytes e) r) :: after ->
  In (x, Wrote e) before -> secured e = true ->
  native (c x) = LE -> native (c y) = LE -> cfg_ok (c y) ->
  frame_consistent (s_frame e) -> version (header (s_frame e)) <> Ieee802154_2003 ->
  auxiliary_security_header (header (s_frame e)) = Some a ->
  source (header (as_received e)) = Some s -> resolve y s = Some x ->
  sc_key_provider (n_ctx (st x)) DstAddrMode (key_identifier a) (destination (header (s_frame e))) = Some (eui, key) ->
  sc_key_provider (n_ctx (st y)) SrcAddrMode (key_identifier a) (Some s) = Some (eui', key) ->
  dev_frame_counter (get y (n_store (st y)) x) <= s_before e ->
  r = if forallb (fun f => counter_in f <? s_before e) (taken (resolve y) x (of_node y before))
      then Ok (as_received e, (List.length (s_bytes e) - tag_len (level_of e))%nat)
      else Err CounterError.
Proof.
  intros acts log st' Ho R Nf before x e y r after a s eui eui' key El Hin Hsec Nx Ny Hcfg Hcons Hv Ha Hs Hres Hk Hk' Hd.
  (* the event *)
  destruct (system_writes acts log st' x Ho R) as (Hc & S).
  assert (He : In e (NodeSpec.wrote (of_node x log))).
  { unfold NodeSpec.wrote. apply in_flat_map. exists (Wrote e). split; [|now left]. apply of_node_in. rewrite El. apply in_or_app. now left. }
  destruct (send_all_inv (c x) E HE _ _ _ _ Hc (proj1 (Htyped x)) S) as (I1 & _).
  destruct (C29_secured_frame_uses_its_counter (c x) E HE _ _ _ _ e Hc (proj1 (Htyped x)) S He Hsec) as (_ & Hlast & _).
  rewrite Forall_forall in I1. pose proof (I1 e He) as (Hok & Hb & _ & W).
  assert (S1 : send_all (c x) E (at_counter (n_ctx (st x)) (s_before e)) [s_call e] = ([e], at_counter (n_ctx (st x)) (s_after e))).
  { cbn [send_all]. change (c_frame (s_call e)) with (s_frame e). rewrite W. cbn [ser_ctx security_ctx at_counter sc_frame_counter].
    destruct e; reflexivity. }
  assert (Hcons1 : Forall (fun z => frame_consistent (c_frame z)) [s_call e]) by (constructor; [exact Hcons|constructor]).
  assert (Hc1 : calls_ok [s_call e]) by (constructor; [exact Hok|constructor]).
  (* node y before the event *)
  pose proof (system_length acts st _ st' R) as Len. rewrite El, app_length in Len. cbn [List.length] in Len.
  pose proof R as R0. pose proof Ho as Ho0.
  rewrite <- (firstn_skipn (List.length before) acts) in R0, Ho0.
  destruct (system_prefix _ _ _ _ _ R0) as (st1 & R1).
  rewrite El, firstn_length, Nat.min_l, firstn_app_exact' in R1 by lia.
  apply Forall_app in Ho0. destruct Ho0 as [Ho1 _].
  assert (Nf1 : nothing_forged before) by (apply (forged_prefix before ((y, Got Footer_None (s_bytes e) r) :: after)); now rewrite <- El).
  pose proof (system_at_end _ _ _ Ho1 R1 Nf1 y x) as Sub.
  set (acts1 := firstn (List.length before) acts) in *.
  assert (Ok1 : Forall action_ok (of_node y acts1)).
  { apply Forall_forall. intros b Hb'. apply of_node_in in Hb'. rewrite Forall_forall in Ho1. apply (Ho1 _ Hb'). }
  pose proof (system_node acts1 st before st1 y R1) as Ry.
  destruct (C73_sending_and_receiving_independent (c y) E (dl y) HE _ _ _ _ Ok1 (proj1 (Htyped y)) Ry) as (Sy & rlog & Rr & Rg).
  (* the reception itself: the node's context differs from the first one in the counter only *)
  assert (Er : exists n, r = fst (try_read_and_unsecure (c y) E (s_bytes e) (ser_ctx Footer_None (at_counter (n_ctx (st y)) n)) (dl y) (n_store (st1 y)))).
  { assert (Hn : exists n, n_ctx (st1 y) = at_counter (n_ctx (st y)) n).
    { destruct (system_writes acts1 before st1 y Ho1 R1) as (Hcy & Sy2).
      destruct (send_all_inv (c y) E HE _ _ _ _ Hcy (proj1 (Htyped y)) Sy2) as (_ & _ & (n & -> & _) & _). now exists n. }
    destruct Hn as (n & Hn). exists n. rewrite <- Hn.
    assert (Ra : run_system c E dl st1 (skipn (List.length before) acts) = ((y, Got Footer_None (s_bytes e) r) :: after, st')).
    { clear - R R1 El Len. revert R. rewrite <- (firstn_skipn (List.length before) acts) at 1. fold acts1.
      subst log. revert R1. generalize (skipn (List.length before) acts). intros acts2.
      generalize ((y, Got Footer_None (s_bytes e) r) :: after). intros tl.
      generalize st. clear Len. clearbody acts1. revert before.
      induction acts1 as [|[z b] l IH]; intros before st0 R1 R.
      - cbn in R1. injection R1 as <- <-. exact R.
      - cbn [app run_system] in R, R1. destruct (act (c z) E (dl z) (st0 z) b) as [ev sv].
        destruct (run_system c E dl _ l) as [lg sg] eqn:Q1. injection R1 as <- <-.
        destruct (run_system c E dl _ (l ++ acts2)) as [lg2 sg2] eqn:Q2. cbn [app] in R.
        injection R as R <-. subst lg2. eapply IH; [exact Q1|exact Q2]. }
    destruct (skipn (List.length before) acts) as [|[z b] l]; [discriminate|].
    cbn [run_system] in Ra. destruct (act (c z) E (dl z) (st1 z) b) as [ev sv] eqn:A.
    destruct (run_system c E dl _ l) as [lg sg]. 
    assert (Ez : z = y) by congruence. assert (Ee : ev = Got Footer_None (s_bytes e) r) by congruence. clear Ra. subst z ev.
    destruct b as [x0|m bs]; cbn [act] in A.
    - destruct (try_write_frame (c y) E (c_frame x0) (ser_ctx (c_mode x0) (n_ctx (st1 y))) (c_buffer x0)) as [r0 [b0 x1]]. discriminate A.
    - destruct (try_read_and_unsecure (c y) E bs (ser_ctx m (n_ctx (st1 y))) (dl y) (n_store (st1 y))) as [rr [[bb xx] dd]] eqn:T.
      assert (m = Footer_None) by congruence. assert (bs = s_bytes e) by congruence. assert (rr = r) by congruence.
      clear A. subst m bs rr. rewrite T. reflexivity. }
  destruct Er as (n & Er).
  assert (Hoct : octets (s_bytes e)).
  { destruct (secured_event E (c x) (c y) HE Nx Ny (at_counter (n_ctx (st x)) (s_before e)) _ _ _ Hc1 Hcons1 Hb S1 e (or_introl eq_refl) Hsec) as (_ & _ & O & _). exact O. }
  destruct (read_any_counter (c y) E (dl y) HE (s_bytes e) Footer_None (n_ctx (st y)) n (n_store (st1 y)) Hoct) as (Eq & _).
  rewrite <- Eq in Er. rewrite Er.
  (* accepted by the store y started with *)
  pose proof (Hstore y s (n_store (st y))) as Hst. rewrite Hres in Hst. destruct Hst as (put & Hdl & _).
  assert (Sk : shares_keys (at_counter (n_ctx (st x)) (s_before e)) [e] (ser_ctx Footer_None (n_ctx (st y)))).
  { intros e0 rsc a0 s0 eui0 key0 [<-|[]] _ Hr Ha0 Hs0 Hk0. injection Hr as <-. cbn [at_counter sc_key_provider sc_euid] in *.
    rewrite Ha in Ha0. injection Ha0 as <-. rewrite Hs in Hs0. injection Hs0 as <-. rewrite Hk in Hk0. injection Hk0 as <- <-.
    rewrite Hk'. f_equal. f_equal. eapply Hnames; eassumption. }
  destruct (delivered E (c x) (c y) HE Nx Ny (at_counter (n_ctx (st x)) (s_before e)) _ _ _ Hc1 Hcons1 Hb S1 (dl y) e (n_ctx (st y)) s _ put (n_store (st y))
    (or_introl eq_refl) Hsec Sk Hv Hs Hdl Hd) as (bs' & Dv).
  (* and later *)
  assert (Hcn : counter_in (as_received e) = s_before e).
  { unfold counter_in, as_received, frame_sent, header_sent. cbn [header auxiliary_security_header]. now rewrite Ha. }
  assert (Hcounters : counters (accepted (resolve y) x rlog) = map counter_in (taken (resolve y) x (of_node y before))).
  { unfold counters. rewrite (taken_accepted _ _ _ _ Rg), map_map. reflexivity. }
  assert (Ho3 : arrivals_ok (received_with (n_ctx (st y)) (reads (of_node y acts1)))).
  { unfold arrivals_ok, received_with. apply Forall_map. clear - Ok1. unfold reads.
    induction (of_node y acts1) as [|[z|m bs] l IH]; [constructor| |]; inversion Ok1; subst; cbn; auto. }
  rewrite (C68_accepted_later_iff (c y) E HE (dl y) (resolve y) (get y) (Hstore y) _ _ _ _ x (s_bytes e)
             (ser_ctx Footer_None (n_ctx (st y))) (as_received e) (List.length (s_bytes e) - tag_len (level_of e))%nat s Hcfg Ho3 Hoct Rr).
  - rewrite Hcn, Hcounters, forallb_map'. reflexivity.
  - rewrite Dv. reflexivity.
  - unfold as_received, frame_sent, header_sent. cbn [header auxiliary_security_header]. rewrite Ha. discriminate.
  - exact Hs.
  - exact Hres.
  - rewrite Hcn. change last_counter with 0xFFFFFFFF in Hlast. lia.
  - right. rewrite Hcounters. apply Forall_map. apply Forall_forall. intros f Hf.
    assert (Hq : In (substance f) (map substance_sent (filter secured (NodeSpec.wrote (of_node x before))))).
    { eapply subsequence_in; [exact Sub|]. now apply in_map. }
    apply in_map_iff in Hq. destruct Hq as (e0 & Es & He0). apply filter_In in He0. destruct He0 as [He0 Hsec0].
    destruct (system_writes acts1 before st1 x Ho1 R1) as (Hcx & Sx).
    destruct (C29_secured_frame_uses_its_counter (c x) E HE _ _ _ _ e0 Hcx (proj1 (Htyped x)) Sx He0 Hsec0) as (_ & Hl0 & _).
    change last_counter with 0xFFFFFFFF in Hl0. unfold substance_sent, substance in Es.
    assert (s_before e0 = counter_in f) by congruence. lia.
Qed.
End System.

(** * Concrete cases *)

(** Two nodes that send to each other and are sent other things: each reads the other's frame, a
    replay, one with an altered sequence number, an altered tag, an empty one. *)
Definition pair_state (x : N) : node_state (list N) (known [5; 1]) :=
  {| n_ctx := SecurityContext_new (if x =? 1 then 1 else 5) (if x =? 1 then 41 else 9) static_key_lookup;
     n_store := two_devices |}.
Definition in_pair (x : N) : Prop := x = 1 \/ x = 5.
Definition from_node x l p : action :=
  Write {| c_mode := Footer_None; c_frame := if x =? 1 then level_frame l false p else from_five p; c_buffer := repeat 0 127 |}.
Definition pair_bytes x i : list N := bytes_of x i.
Definition pair_acts : list (N * action) :=
  [(1, from_node 1 SL_MIC32 [1; 2; 3]); (5, Read Footer_None (pair_bytes 1 0)); (5, from_node 5 SL_None [7; 7]);
   (1, Read Footer_None (pair_bytes 5 0)); (5, Read Footer_None (pair_bytes 1 0)); (1, from_node 1 SL_ENC [1]);
   (1, from_node 1 SL_ENCMIC64 [4; 5]); (5, Read Footer_None (alter 35 0 (pair_bytes 1 0))); (1, Read Footer_None []);
   (5, from_node 5 SL_None [8]); (1, Read Footer_None (alter 2 99 (pair_bytes 5 1))); (5, Read Footer_None (pair_bytes 5 0))].
Definition pair_log : list (N * event) :=
  fst (run_system (fun _ => host) aes_cipher (fun _ => known_lookup [5; 1]) pair_state pair_acts).

(** A test for [nothing_forged]. *)
Definition made_before_b (before : list (N * event)) (key nonce p : list N) : bool :=
  existsb (fun q => match q with
    | (x, Wrote e) =>
        secured e &&
        match auxiliary_security_header (header (s_frame e)) with
        | Some a => match sc_key_provider (n_ctx (pair_state x)) DstAddrMode (key_identifier a) (destination (header (s_frame e))) with
                    | Some (_, k) => same_octets k key | None => false end
        | None => false
        end &&
        same_octets nonce (mac_nonce (sc_euid (n_ctx (pair_state x))) (s_before e) (level_of e)) &&
        same_octets p (payload (s_frame e))
    | _ => false
    end) before.
Lemma same_octets_eq a b : same_octets a b = true -> a = b.
Proof. unfold same_octets. now destruct (list_eq_dec N.eq_dec a b). Qed.
Lemma made_before_test before key nonce p : made_before_b before key nonce p = true -> made_before pair_state before key nonce p.
Proof.
  intros H. apply existsb_exists in H. destruct H as ([x [e|? ? ?]] & Hin & H); [|discriminate].
  apply andb_true_iff in H. destruct H as [H Hp]. apply andb_true_iff in H. destruct H as [H Hn].
  apply andb_true_iff in H. destruct H as [Hs H].
  destruct (auxiliary_security_header _) as [a|] eqn:Ha; [|discriminate].
  destruct (sc_key_provider _ _ _ _) as [[eui k]|] eqn:Hk; [|discriminate].
  apply same_octets_eq in H, Hn, Hp. subst k.
  exists x, e, a, eui. repeat (split; [assumption|]). exact Hp.
Qed.
Fixpoint checked (before todo : list (N * event)) : bool :=
  match todo with
  | [] => true
  | p :: rest =>
      match p with
      | (_, Got _ bs _) =>
          forallb (fun b => b <? 256) bs &&
          match verified_for (arrives bs) with Some (k, n, q) => made_before_b before k n q | None => true end
      | _ => true
      end && checked (before ++ [p]) rest
  end.
Lemma nothing_forged_test log : checked [] log = true -> nothing_forged (fun _ => host) aes_cipher pair_state log.
Proof.
  assert (G : forall todo pre, checked pre todo = true ->
    forall before y m bs r after, todo = before ++ (y, Got m bs r) :: after ->
    octets bs /\ match verified_for (arrives bs) with
                 | Some (k, n, q) => made_before_b (pre ++ before) k n q = true | None => True end).
  { induction todo as [|p todo IH]; intros pre H before y m bs r after Eq; [now destruct before|].
    cbn [checked] in H. apply andb_true_iff in H. destruct H as [H H'].
    destruct before as [|p' before]; cbn [app] in Eq.
    - injection Eq as Ep _. subst p. apply andb_true_iff in H. destruct H as [Hb H]. split.
      + apply Forall_forall. intros b Hin. rewrite forallb_forall in Hb. now apply N.ltb_lt, Hb.
      + rewrite app_nil_r. destruct (verified_for _) as [[[k n] q]|]; [exact H|exact I].
    - injection Eq as Ep Et. subst p'. specialize (IH _ H' _ _ _ _ _ _ Et). now rewrite <- app_assoc in IH. }
  intros H before y m bs r after h n a eui key p El Hr Ha Hau Hk V.
  destruct (G log [] H before y m bs r after El) as (Hb & Q). cbn [app] in Q.
  unfold verified_for in Q. cbn [arrives a_ctx a_bytes security_ctx aes_ctx] in Q. rewrite Hr, Ha in Q.
  change (sc_key_provider (SecurityContext_new 7 0 static_key_lookup)) with static_key_lookup in Q.
  change (sc_key_provider (n_ctx (pair_state y))) with static_key_lookup in Hk. rewrite Hk in Q. cbv zeta in Q.
  assert (L : (tag_len (security_level (control a)) <= List.length (skipn n bs))%nat).
  { destruct V as [V _]. rewrite V, app_length, secured_tag_length. lia. }
  destruct (verifies_test aes_cipher key (security_level (control a)) eui (frame_counter a)
              (skipn n bs) (octets_skipn n _ Hb) L) as [T U].
  cbv zeta in T, U. pose proof (U p V) as Ep. rewrite Ep in V |- *. apply T in V.
  apply Nat.leb_le in L. rewrite L in Q. apply andb_true_iff in V. destruct V as [V _].
  rewrite V in Q. now apply made_before_test.
Qed.

Definition outcome_of (p : N * event) : N * (bres nat + outcome SecurityError (N * list N * nat)) :=
  (fst p, match snd p with
          | Wrote e => inl (s_result e)
          | Got _ _ r => inr (match r with Ok (f, n) => Ok (seq (header f), payload f, n) | Err x => Err x | Panic => Panic end)
          end).

(** All hypotheses of C73 and C74 hold of it, and this is what happens. *)
Example a_pair_of_nodes :
  (forall y : N, device_store (known_lookup [5; 1]) (known_resolve [5; 1]) known_get) /\
  (forall x, u32_ok (sc_frame_counter (n_ctx (pair_state x))) /\ u64_ok (sc_euid (n_ctx (pair_state x)))) /\
  (forall x y, in_pair x -> in_pair y -> sc_euid (n_ctx (pair_state x)) = sc_euid (n_ctx (pair_state y)) -> x = y) /\
  (forall (y : N) s x, known_resolve [5; 1] s = Some x -> in_pair x) /\
  (forall y kid s eui key x, sc_key_provider (n_ctx (pair_state y)) SrcAddrMode kid (Some s) = Some (eui, key) ->
     known_resolve [5; 1] s = Some x -> eui = sc_euid (n_ctx (pair_state x))) /\
  Forall (fun p => action_ok (snd p) /\ in_pair (fst p)) pair_acts /\
  nothing_forged (fun _ => host) aes_cipher pair_state pair_log /\
  map outcome_of pair_log
  = [(1, inl (Ok 36%nat)); (5, inr (Ok (9, [1; 2; 3], 32%nat))); (5, inl (Ok 32%nat)); (1, inr (Ok (77, [7; 7], 28%nat)));
     (5, inr (Err CounterError)); (1, inl (Err (BadInput "NotImplemented"))); (1, inl (Ok 39%nat));
     (5, inr (Err CounterError)); (1, inr (Err (WriteError Incomplete))); (5, inl (Ok 31%nat)); (1, inr (Ok (99, [8], 27%nat)));
     (5, inr (Ok (77, [7; 7], 28%nat)))].
Proof.
  assert (Hr : forall s x, known_resolve [5; 1] s = Some x -> in_pair x /\ exists p, s = Extended p x).
  { intros s x A. destruct s as [|p z]; [discriminate|]. cbn [known_resolve existsb] in A.
    destruct (N.eqb_spec z 5) as [E5|_]; [cbn in A; assert (z = x) by congruence; subst; split; [now right|eauto]|].
    destruct (N.eqb_spec z 1) as [E1|_]; [cbn in A; assert (z = x) by congruence; subst; split; [now left|eauto]|]. discriminate. }
  split; [intros _; apply known_is_a_store|].
  split; [intros x; unfold pair_state; cbn; destruct (x =? 1); split; reflexivity|].
  split; [intros x y [->| ->] [->| ->] H; try reflexivity; discriminate H|].
  split; [intros _ s x A; exact (proj1 (Hr s x A))|].
  split. { intros y kid s eui key x Hk A. destruct (Hr s x A) as ([->| ->] & p & ->); cbn in Hk |- *; congruence. }
  split. { assert (Ob : forall bs, forallb (fun b => b <? 256) bs = true -> octets bs).
    { intros bs Hb. apply Forall_forall. intros b Hin. rewrite forallb_forall in Hb. now apply N.ltb_lt, Hb. }
    repeat (constructor; [split; [|(now left) || (now right)]; cbn [snd from_node action_ok c_frame];
      first [apply Ob; vm_compute; reflexivity | apply level_frame_ok, Ob; vm_compute; reflexivity
            | repeat split; try reflexivity; apply Ob; vm_compute; reflexivity]|]). constructor. }
  split; [apply nothing_forged_test; vm_compute; reflexivity|].
  vm_compute. reflexivity.
Qed.

(** The first frame of node 1, read by node 5, meets the remaining hypotheses of C74_system_delivery. *)
Definition first_sent : sent := match nth 0 pair_log (0, Got Footer_None [] Panic) with (_, Wrote e) => e | _ => no_event end.
Example a_delivery :
  let e := first_sent in
  exists r a s, pair_log = firstn 1 pair_log ++ (5, Got Footer_None (s_bytes e) r) :: skipn 2 pair_log /\
  In (1, Wrote e) (firstn 1 pair_log) /\ secured e = true /\ native host = LE /\ cfg_ok host /\
  frame_consistent (s_frame e) /\ version (header (s_frame e)) <> Ieee802154_2003 /\
  auxiliary_security_header (header (s_frame e)) = Some a /\
  source (header (as_received e)) = Some s /\ known_resolve [5; 1] s = Some 1 /\
  sc_key_provider (n_ctx (pair_state 1)) DstAddrMode (key_identifier a) (destination (header (s_frame e))) = Some (2, repeat 0 16) /\
  sc_key_provider (n_ctx (pair_state 5)) SrcAddrMode (key_identifier a) (Some s) = Some (1, repeat 0 16) /\
  dev_frame_counter (known_get (n_store (pair_state 5)) 1) <= s_before e /\ r = Ok (as_received e, 32%nat).
Proof.
  cbv zeta. exists (match nth 1 pair_log (0, Got Footer_None [] Panic) with (_, Got _ _ r) => r | _ => Panic end).
  eexists _, _. split; [vm_compute; reflexivity|]. split; [vm_compute; left; reflexivity|].
  split; [vm_compute; reflexivity|]. split; [reflexivity|]. split; [discriminate || reflexivity || (vm_compute; auto)|].
  split; [vm_compute; reflexivity|]. split; [vm_compute; discriminate|]. split; [vm_compute; reflexivity|].
  split; [vm_compute; reflexivity|]. split; [vm_compute; reflexivity|]. split; [vm_compute; reflexivity|].
  split; [vm_compute; reflexivity|]. split; [vm_compute; discriminate|]. vm_compute. reflexivity.
Qed.

Print Assumptions C73_sending_and_receiving_independent.
Print Assumptions C74_system_order.
Print Assumptions C74_system_nonces.
Print Assumptions C74_system_delivery.
Print Assumptions a_pair_of_nodes.
