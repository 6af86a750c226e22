(** C98: applications that keep their frame counters in memory that survives a loss of power. *)
From Coq Require Import List Arith NArith ZArith Bool String Lia ZifyBool ZifyNat ZifyN Sorting.Sorted.
From Verif Require Import ByteCrate Types HeaderModel BeaconModel CommandModel CcmModel FrameModel CrashModel
  Spec SecSpec HistorySpec RestartSpec ProofLib HeaderProofs HeaderReadProofs FrameProofs RepoTests Aes128 CcmProofs
  SecureProofs PropSecure PropReceive PropHistory PropRestart PropReconfig PropCrash.
Import ListNotations.
Open Scope N_scope.
Open Scope list_scope.

(** * Specification: the sender *)

(** What happens to a sender: it starts (for the first time, or after a loss of power at any point before),
    it saves a counter, or it calls the code under study; listed are the counter before and the one found
    after the call, which may have been stopped anywhere. *)
Inductive happening := Started | Saved | Called (x : call) (before after : N).

(** A sender with a number in memory that survives, and a frame counter in memory that does not ([None]
    before the first start). When it starts, it takes the number saved for its frame counter.
    With [ahead], a call is only made with a counter below the number saved; where the two have met, the
    sender saves a number that is [R] further (and no further than the last counter) first. Without [ahead] it calls whenever
    it likes and saves the counter it has at any time, as one would without thinking.
    A write to the memory that survives is taken to happen or not to happen; a loss of power during a call shows the
    states [write_points] lists. *)
Inductive keeps {K} (c : cfg) (E : block_cipher K) (R : N) (ahead : bool) (sc : SecurityContext K) :
    N -> option N -> list happening -> N -> Prop :=
| k_end nv ram : keeps c E R ahead sc nv ram [] nv
| k_start nv ram l nv' : keeps c E R ahead sc nv (Some nv) l nv' -> keeps c E R ahead sc nv ram (Started :: l) nv'
| k_save nv k l nv' : (ahead = true -> nv = k /\ k < 0xFFFFFFFF) ->
    keeps c E R ahead sc (if ahead then N.min (k + R) 0xFFFFFFFF else k) (Some k) l nv' ->
    keeps c E R ahead sc nv (Some k) (Saved :: l) nv'
| k_call nv k x z l nv' : (ahead = true -> k < nv) -> frame_ok (c_frame x) ->
    stopped (write_points c E (c_frame x) (c_mode x) (at_counter sc k) (c_buffer x)) z ->
    keeps c E R ahead sc nv (Some (fst z)) l nv' ->
    keeps c E R ahead sc nv (Some k) (Called x k (fst z) :: l) nv'.

(** The calls made, over all lives. *)
Definition calls_made (l : list happening) : list (call * N * N) :=
  flat_map (fun h => match h with Called x k k' => [(x, k, k')] | _ => [] end) l.
(** How many counters were used up by calls, how many starts and how many saves there were. *)
Definition counters_used (l : list happening) : N :=
  N.of_nat (List.length (filter (fun e => snd (fst e) <? snd e) (calls_made l))).
Definition starts (l : list happening) : N :=
  N.of_nat (List.length (filter (fun h => match h with Started => true | _ => false end) l)).
Definition saves (l : list happening) : N :=
  N.of_nat (List.length (filter (fun h => match h with Saved => true | _ => false end) l)).

(** * Specification: the receiver *)

(** What happens to a receiver: it starts with the device store saved, it saves the store it has, or it
    receives (and may be stopped anywhere in between); of a reception that came to its end it may act on the frame. *)
Inductive taking {K D} := Restarted | Stored | Received (e : reception K D * ending D) (acts : bool).
Arguments taking : clear implicits.

(** With [first], the application saves the store before it acts on the frame; without, it acts first and
    saves at any time. *)
Inductive takes {K D} (c : cfg) (E : block_cipher K) (first : bool) : D -> D -> list (taking K D) -> Prop :=
| t_end nv ram : takes c E first nv ram []
| t_start nv ram l : takes c E first nv nv l -> takes c E first nv ram (Restarted :: l)
| t_store nv ram l : takes c E first ram ram l -> takes c E first nv ram (Stored :: l)
| t_pass nv ram e l : p_store (fst e) = ram -> possible c E e ->
    takes c E first nv (found c E e) l -> takes c E first nv ram (Received e false :: l)
| t_act nv ram p l : p_store p = ram ->
    takes c E first (if first then snd (received_once c E p) else nv) (snd (received_once c E p)) l ->
    takes c E first nv ram (Received (p, Completed) true :: l).

(** All receptions, and those whose frame the application acted on. *)
Definition all_received {K D} (l : list (taking K D)) : list (reception K D) :=
  flat_map (fun t => match t with Received e _ => [fst e] | _ => [] end) l.
Definition acted_on {K D} (l : list (taking K D)) : list (reception K D) :=
  flat_map (fun t => match t with Received e true => [fst e] | _ => [] end) l.

(** * Proofs: the sender *)

Section Sender.
Context {K : Type} (c : cfg) (E : block_cipher K).
Hypothesis HE : cipher_ok E.

Lemma call_step sc k x z : frame_ok (c_frame x) -> u32_ok k ->
  stopped (write_points c E (c_frame x) (c_mode x) (at_counter sc k) (c_buffer x)) z ->
  fst z = k \/ fst z = k + 1 /\ k <> 0xFFFFFFFF.
Proof using HE.
  intros Hf Hu St. destruct z as [n b].
  destruct (C90_write_stopped c E HE _ _ (at_counter sc k) _ n b Hf Hu St) as [_ [[H _]|[H1 H2]]]; cbn in *; [left; exact H|right; split; assumption].
Qed.

Lemma used_cons x k k' l : counters_used (Called x k k' :: l) = (if k <? k' then 1 else 0) + counters_used l.
Proof using Type. unfold counters_used, calls_made. cbn [flat_map List.app filter snd fst]. destruct (k <? k'); cbn [List.length]; lia. Qed.

Lemma keeps_goes_on R sc nv ram l nv' : keeps c E R true sc nv ram l nv' ->
  nv <= 0xFFFFFFFF -> (forall k, ram = Some k -> k <= nv) ->
  exists n, match ram with Some k => k | None => nv end <= n /\ u32_ok n /\ goes_on c E sc n (calls_made l).
Proof using HE.
  intros H. induction H as [nv ram|nv ram l nv' H IH|nv k l nv' Hs H IH|nv k x z l nv' Hlt Hf St H IH]; intros Hn Hr.
  - exists (match ram with Some k => k | None => nv end). split; [lia|]. split; [|constructor].
    unfold u32_ok. change (2 ^ 32) with 4294967296. destruct ram as [k|]; [specialize (Hr k eq_refl)|]; lia.
  - destruct (IH Hn) as (n & L & U & G). { intros k X. injection X as <-. lia. }
    exists n. split; [|split; assumption]. destruct ram as [k|]; [specialize (Hr k eq_refl)|]; lia.
  - destruct (Hs eq_refl) as [-> Hk].
    destruct IH as (n & L & U & G). { lia. } { intros j X. injection X as <-. lia. }
    exists n. split; [exact L|]. split; assumption.
  - specialize (Hlt eq_refl). assert (Hu : u32_ok k) by (unfold u32_ok; change (2 ^ 32) with 4294967296; lia).
    pose proof (call_step sc k x z Hf Hu St) as Z.
    destruct IH as (n & L & U & G). { exact Hn. } { intros j X. injection X as <-. lia. }
    exists k. split; [lia|]. split; [exact Hu|]. exact (goes_step c E sc k x z n _ Hf St L U G).
Qed.

(** Whenever the power is lost, and however often: a sender that calls only with counters below the number it
    has saved never uses a nonce twice - no two frames it gets out, nor a frame and one it was stopped in. *)
Theorem C98_saved_ahead : forall R sc nv l nv', u64_ok (sc_euid sc) -> nv <= 0xFFFFFFFF ->
  keeps c E R true sc nv None l nv' -> NoDup (nonces_begun sc (calls_made l)).
Proof using HE.
  intros R sc nv l nv' He Hn H. destruct (keeps_goes_on R sc nv None l nv' H Hn) as (n & _ & U & G); [discriminate|].
  exact (proj1 (C90_resumed_nonces c E HE sc n _ He U G)).
Qed.

Lemma keeps_cost R sc nv ram l nv' : keeps c E R true sc nv ram l nv' -> nv <= 0xFFFFFFFF ->
  (forall k, ram = Some k -> k <= nv /\ nv <= k + R) ->
  match ram with
  | Some k => nv' <= k + counters_used l + R * (starts l + 1) /\ R * saves l + nv <= counters_used l + R * (starts l + 1) + k
  | None => nv' <= nv + counters_used l + R * starts l /\ R * saves l <= counters_used l + R * starts l
  end.
Proof using HE.
  intros H. induction H as [nv ram|nv ram l nv' H IH|nv k l nv' Hs H IH|nv k x z l nv' Hlt Hf St H IH]; intros Hn Hr.
  - change (starts []) with 0. change (saves []) with 0. change (counters_used []) with 0.
    destruct ram as [k|]; [destruct (Hr k eq_refl)|]; lia.
  - destruct (IH Hn) as [I1 I2]. { intros k X. injection X as <-. lia. }
    assert (S1 : starts (Started :: l) = 1 + starts l) by (unfold starts; cbn [filter List.length]; lia).
    assert (S2 : saves (Started :: l) = saves l) by reflexivity.
    assert (S3 : counters_used (Started :: l) = counters_used l) by reflexivity.
    rewrite S1, S2, S3. destruct ram as [k|]; [destruct (Hr k eq_refl)|]; nia.
  - destruct (Hs eq_refl) as [-> Hk].
    destruct IH as [I1 I2]. { lia. } { intros j X. injection X as <-. lia. }
    assert (S1 : starts (Saved :: l) = starts l) by reflexivity.
    assert (S2 : saves (Saved :: l) = 1 + saves l) by (unfold saves; cbn [filter List.length]; lia).
    assert (S3 : counters_used (Saved :: l) = counters_used l) by reflexivity.
    rewrite S1, S2, S3. split; [exact I1|].
    destruct (N.leb_spec (k + R) 0xFFFFFFFF) as [L|L]; [rewrite N.min_l in I2 by exact L; nia|].
    assert (No : saves l = 0).
    { assert (X : forall nv ram l nv', keeps c E R true sc nv ram l nv' -> nv = 0xFFFFFFFF -> saves l = 0).
      { clear. intros nv ram l nv' H. induction H as [nv ram|nv ram l nv' H IH|nv k l nv' Hs H IH|nv k x z l nv' Hlt Hf St H IH]; intros Hn.
        - reflexivity.
        - exact (IH Hn).
        - destruct (Hs eq_refl). lia.
        - exact (IH Hn). }
      apply (X _ _ _ _ H). lia. }
    rewrite No. nia.
  - specialize (Hlt eq_refl). assert (Hu : u32_ok k) by (unfold u32_ok; change (2 ^ 32) with 4294967296; lia).
    pose proof (call_step sc k x z Hf Hu St) as Z. destruct (Hr k eq_refl) as [_ Hg].
    destruct IH as [I1 I2]. { exact Hn. } { intros j X. injection X as <-. lia. }
    assert (S1 : starts (Called x k (fst z) :: l) = starts l) by reflexivity.
    assert (S2 : saves (Called x k (fst z) :: l) = saves l) by reflexivity.
    rewrite S1, S2, used_cons. destruct (N.ltb_spec k (fst z)); lia.
Qed.

(** What that costs: every start wastes at most [R] counters; and the sender saves once for [R] counters
    used and once more for every start. *)
Theorem C98_cost : forall R sc nv l nv', nv <= 0xFFFFFFFF -> keeps c E R true sc nv None l nv' ->
  nv' <= nv + counters_used l + R * starts l /\ R * saves l <= counters_used l + R * starts l.
Proof using HE.
  intros R sc nv l nv' Hn H. apply (keeps_cost R sc nv None l nv' H Hn). discriminate.
Qed.

End Sender.

(** * Proofs: the receiver *)

Section Receiver.
Context {K D : Type} (c : cfg) (E : block_cipher K).
Hypothesis HE : cipher_ok E.

Lemma reception_up get x (p : reception K D) (en : ending D) : octets (a_bytes (p_arrival p)) -> device_store (p_lookup p) (p_resolve p) get ->
  overflow_checks c = true \/ Forall (fun fc => fc <> 0xFFFFFFFF) (counters (taken_for c E x p)) -> possible c E (p, en) ->
  dev_frame_counter (get (p_store p) x) <= dev_frame_counter (get (found c E (p, en)) x).
Proof using HE.
  intros Hb Hs NL Po.
  assert (Fin : dev_frame_counter (get (p_store p) x) <= dev_frame_counter (get (snd (received_once c E p)) x)).
  { pose proof (reception_step c E HE get x p Hb Hs) as St.
    destruct (taken_for c E x p) as [|[bs f] [|? ?]]; [now rewrite St| |contradiction].
    destruct St as (_ & Hu & Hle & Hoc & Haf).
    rewrite Haf, counter_after_eq by assumption. destruct (N.eqb_spec (counter_in f) last_counter) as [X|X]; [|lia].
    destruct NL as [NL|NL]; [rewrite (Hoc X) in NL; discriminate|]. inversion NL as [|? ? Y _]; subst. cbn in Y. now destruct Y. }
  unfold found. cbn [fst snd]. destruct en as [|z]; [exact Fin|].
  unfold possible in Po. cbn [fst snd] in Po. destruct z as [ds1 b1]. cbn [fst].
  destruct (C90_read_stopped c E HE _ _ _ _ ds1 b1 Hb (store_lawful _ _ _ Hs) Po) as [[->| ->] _]; [lia|].
  unfold received_once in Fin. destruct (try_read_and_unsecure c E _ _ _ _) as [r [[? ?] ds']]. exact Fin.
Qed.

Lemma takes_up get x (nv ram : D) l : takes c E true nv ram l -> receptions_ok get (all_received l) ->
  overflow_checks c = true \/ Forall (fun fc => fc <> 0xFFFFFFFF) (counters (flat_map (taken_for c E x) (all_received l))) ->
  dev_frame_counter (get nv x) <= dev_frame_counter (get ram x) ->
  StronglySorted (fun p q => dev_frame_counter (get (snd (received_once c E p)) x) <= dev_frame_counter (get (p_store q) x)) (acted_on l) /\
  Forall (fun p => dev_frame_counter (get nv x) <= dev_frame_counter (get (p_store p) x)) (acted_on l).
Proof using HE.
  intros H. induction H as [nv ram|nv ram l H IH|nv ram l H IH|nv ram e l Es Po H IH|nv ram p l Es H IH]; intros Ko Hc Le.
  - split; constructor.
  - exact (IH Ko Hc (N.le_refl _)).
  - destruct (IH Ko Hc (N.le_refl _)) as [I1 I2]. split; [exact I1|].
    eapply Forall_impl; [|exact I2]. intros q Hq. exact (N.le_trans _ _ _ Le Hq).
  - destruct e as [p en].
    change (all_received (Received (p, en) false :: l)) with (p :: all_received l) in *.
    change (acted_on (Received (p, en) false :: l)) with (acted_on l).
    unfold receptions_ok in Ko. inversion Ko as [|? ? [Hb Hs] Ko2]; subst. cbn [flat_map] in Hc. unfold counters in Hc. rewrite map_app in Hc.
    assert (Hc1 : overflow_checks c = true \/ Forall (fun fc => fc <> 0xFFFFFFFF) (counters (taken_for c E x p)))
      by (destruct Hc as [Hc|Hc]; [now left|right; apply Forall_app in Hc; apply Hc]).
    assert (Hc2 : overflow_checks c = true \/ Forall (fun fc => fc <> 0xFFFFFFFF) (counters (flat_map (taken_for c E x) (all_received l))))
      by (destruct Hc as [Hc|Hc]; [now left|right; apply Forall_app in Hc; apply Hc]).
    pose proof (reception_up get x p en Hb Hs Hc1 Po) as Up. cbn [fst] in *.
    apply IH; [exact Ko2|exact Hc2|exact (N.le_trans _ _ _ Le Up)].
  - change (all_received (Received (p, Completed) true :: l)) with (p :: all_received l) in *.
    change (acted_on (Received (p, Completed) true :: l)) with (p :: acted_on l).
    unfold receptions_ok in Ko. inversion Ko as [|? ? [Hb Hs] Ko2]; subst. cbn [flat_map] in Hc. unfold counters in Hc. rewrite map_app in Hc.
    assert (Hc1 : overflow_checks c = true \/ Forall (fun fc => fc <> 0xFFFFFFFF) (counters (taken_for c E x p)))
      by (destruct Hc as [Hc|Hc]; [now left|right; apply Forall_app in Hc; apply Hc]).
    assert (Hc2 : overflow_checks c = true \/ Forall (fun fc => fc <> 0xFFFFFFFF) (counters (flat_map (taken_for c E x) (all_received l))))
      by (destruct Hc as [Hc|Hc]; [now left|right; apply Forall_app in Hc; apply Hc]).
    pose proof (reception_up get x p Completed Hb Hs Hc1 I) as Up. unfold found in Up. cbn [snd fst] in Up.
    destruct (IH Ko2 Hc2 (N.le_refl _)) as [I1 I2]. split.
    + constructor; [exact I1|exact I2].
    + constructor; [exact Le|]. eapply Forall_impl; [|exact I2]. cbn. intros q Hq. lia.
Qed.

(** Whenever the power is lost, and however often: a receiver that saves its device store before it acts on
    a frame acts, for every device, on strictly increasing counters, and on no octets twice. *)
Theorem C98_saved_first : forall get x (nv : D) l, takes c E true nv nv l -> receptions_ok get (all_received l) ->
  overflow_checks c = true \/ Forall (fun fc => fc <> 0xFFFFFFFF) (counters (flat_map (taken_for c E x) (all_received l))) ->
  StronglySorted N.lt (counters (flat_map (taken_for c E x) (acted_on l))) /\
  NoDup (map fst (flat_map (taken_for c E x) (acted_on l))).
Proof using HE.
  intros get x nv l H Ko Hc. destruct (takes_up get x nv nv l H Ko Hc (N.le_refl _)) as [S _].
  assert (Sub : forall p, In p (acted_on l) -> In p (all_received l)).
  { unfold acted_on, all_received. intros p Hp. apply in_flat_map in Hp. destruct Hp as (t & Ht & Hp). apply in_flat_map. exists t. split; [exact Ht|].
    destruct t as [| |e [|]]; try contradiction. exact Hp. }
  apply (C81_receiver_reconfigured c E HE get x).
  - unfold receptions_ok in *. rewrite Forall_forall in *. intros p Hp. apply Ko. now apply Sub.
  - unfold device_never_lowered. apply StronglySorted_Sorted. exact S.
  - destruct Hc as [Hc|Hc]; [now left|right]. unfold counters in *. rewrite Forall_forall in *. intros z Hz. apply Hc.
    apply in_map_iff in Hz. destruct Hz as (w & <- & Hw). apply in_map_iff. exists w. split; [reflexivity|].
    apply in_flat_map in Hw. destruct Hw as (p & Hp & Hw). apply in_flat_map. exists p. split; [now apply Sub|exact Hw].
Qed.

End Receiver.

(** * Concrete cases *)

Lemma mic_frames_ok l b p : octets p -> frame_ok (level_frame l b p).
Proof. intros Hp. apply level_frame_ok; try reflexivity. exact Hp. Qed.

Lemma call_at n x i k : option_map fst (nth_error (write_points host aes_cipher (c_frame x) (c_mode x) (sender n) (c_buffer x)) i) = Some k ->
  exists z, stopped (write_points host aes_cipher (c_frame x) (c_mode x) (at_counter (sender 0) n) (c_buffer x)) z /\ fst z = k.
Proof.
  intros H. destruct (nth_error _ i) as [z|] eqn:Z; [|discriminate]. injection H as H. exists z. split; [|exact H].
  exists i, z, z. change (at_counter (sender 0) n) with (sender n).
  split; [exact Z|]. split; [now left|]. split; [now left|apply partly_refl].
Qed.

(** Numbers saved in steps of 2, beginning with 40: it starts, saves 42, sends with 40, loses the power while it sends with 41
    (the counter is never seen again), starts at 42, saves 44, is stopped in the key provider, sends with 42,
    starts at 44 and has not used 43. *)
Definition mic_call : call := at_level SL_ENCMIC64 true [1;2;3] 40.
Definition power_losses : list happening :=
  [Started; Saved; Called mic_call 40 41; Called mic_call 41 42; Started; Saved;
   Called mic_call 42 42; Called mic_call 42 43; Started; Saved].
Lemma keeps_call R ahead n x i k l nv nv' : frame_ok (c_frame x) -> (ahead = true -> n < nv) ->
  option_map fst (nth_error (write_points host aes_cipher (c_frame x) (c_mode x) (sender n) (c_buffer x)) i) = Some k ->
  keeps host aes_cipher R ahead (sender 0) nv (Some k) l nv' ->
  keeps host aes_cipher R ahead (sender 0) nv (Some n) (Called x n k :: l) nv'.
Proof.
  intros Hf Hn Hi H. destruct (call_at n x i k Hi) as (z & St & <-). exact (k_call _ _ _ _ _ nv n x z l nv' Hn Hf St H).
Qed.
Example a_sender_that_saves_ahead :
  keeps host aes_cipher 2 true (sender 0) 40 None power_losses 46 /\
  map (fun e => snd (fst e)) (filter (fun e => snd (fst e) <? snd e) (calls_made power_losses)) = [40; 41; 42] /\
  counters_used power_losses = 3 /\ starts power_losses = 3 /\ saves power_losses = 3.
Proof.
  assert (F : frame_ok (c_frame mic_call)) by (apply mic_frames_ok; repeat constructor).
  split; [|split; [|split; [|split]]]; [|reflexivity..].
  unfold power_losses. apply k_start. apply k_save; [split; reflexivity|].
  apply (keeps_call _ _ 40 mic_call 6%nat); [exact F|reflexivity|vm_compute; reflexivity|].
  apply (keeps_call _ _ 41 mic_call 4%nat); [exact F|reflexivity|vm_compute; reflexivity|].
  apply k_start. apply k_save; [split; reflexivity|].
  apply (keeps_call _ _ 42 mic_call 2%nat); [exact F|reflexivity|vm_compute; reflexivity|].
  apply (keeps_call _ _ 42 mic_call 6%nat); [exact F|reflexivity|vm_compute; reflexivity|].
  apply k_start. apply k_save; [split; reflexivity|]. apply k_end.
Qed.

(** Where the counter is saved after the frame has been sent, one loss of power in between is enough. *)
Theorem C98_saved_behind_refuted : exists R nv l nv', nv <= 0xFFFFFFFF /\
  keeps host aes_cipher R false (sender 0) nv None l nv' /\ ~ NoDup (nonces_begun (sender 0) (calls_made l)).
Proof.
  assert (F : frame_ok (c_frame mic_call)) by (apply mic_frames_ok; repeat constructor).
  exists 1, 40, [Started; Called mic_call 40 41; Started; Called mic_call 40 41; Saved], 41.
  split; [lia|]. split.
  - apply k_start. apply (keeps_call _ _ 40 mic_call 6%nat); [exact F|discriminate|vm_compute; reflexivity|].
    apply k_start. apply (keeps_call _ _ 40 mic_call 6%nat); [exact F|discriminate|vm_compute; reflexivity|].
    apply k_save; [discriminate|]. apply k_end.
  - intros N. vm_compute in N. inversion N as [|? ? X _]; subst. apply X. now left.
Qed.

(** A receiver: a frame is accepted and the store saved, but the power is lost before the application acts: that frame is
    lost. The next is acted on, and refused after the next loss of power. *)
Definition taking_turns : list (taking (list N) (known [5; 1])) :=
  [Received (whole (table_of 9 40) (sent_bytes 0)) false; Stored; Restarted;
   Received (whole (table_of 9 42) (sent_bytes 2)) true; Restarted;
   Received (whole (table_of 9 46) (sent_bytes 2)) false].
Lemma same_entries : forall l l2 : list (N * DeviceDescriptor),
  map (fun p => (fst p, dev_frame_counter (snd p))) l = map (fun p => (fst p, dev_frame_counter (snd p))) l2 ->
  map (fun p => dev_exempt (snd p)) l = map (fun p => dev_exempt (snd p)) l2 -> l = l2.
Proof.
  intros l. induction l as [|[x [n e]] l IH]; intros [|[x2 [n2 e2]] l2] H1 H2; try discriminate; [reflexivity|].
  cbn in H1, H2. injection H1 as -> -> H1. injection H2 as -> H2. f_equal. now apply IH.
Qed.
Lemma whole_leaves ds bs ds' : map (fun p => (fst p, dev_frame_counter (snd p))) (proj1_sig (found host aes_cipher (whole ds bs)))
    = map (fun p => (fst p, dev_frame_counter (snd p))) (proj1_sig ds') ->
  map (fun p => dev_exempt (snd p)) (proj1_sig (found host aes_cipher (whole ds bs))) = map (fun p => dev_exempt (snd p)) (proj1_sig ds') ->
  found host aes_cipher (whole ds bs) = ds'.
Proof. intros H1 H2. apply known_eq. exact (same_entries _ _ H1 H2). Qed.
Example a_receiver_that_saves_first :
  takes host aes_cipher true (table_of 9 40) (table_of 9 40) taking_turns /\
  receptions_ok known_get (all_received taking_turns) /\ overflow_checks host = true /\
  map (fun q => payload (snd q)) (flat_map (taken_for host aes_cipher 1) (all_received taking_turns)) = [[1;2;3]; [6]] /\
  map (fun q => payload (snd q)) (flat_map (taken_for host aes_cipher 1) (acted_on taking_turns)) = [[6]].
Proof.
  assert (S1 : found host aes_cipher (whole (table_of 9 40) (sent_bytes 0)) = table_of 9 42) by (apply whole_leaves; vm_compute; reflexivity).
  assert (S2 : snd (received_once host aes_cipher (at_reception (table_of 9 42) (arrives (sent_bytes 2)))) = table_of 9 46)
    by (apply (whole_leaves (table_of 9 42) (sent_bytes 2)); vm_compute; reflexivity).
  assert (S3 : found host aes_cipher (whole (table_of 9 46) (sent_bytes 2)) = table_of 9 46) by (apply whole_leaves; vm_compute; reflexivity).
  split; [|split; [|split; [|split]]].
  - unfold taking_turns. apply t_pass; [reflexivity|exact I|]. rewrite S1. apply t_store. apply t_start.
    apply t_act; [reflexivity|]. rewrite S2. apply t_start. apply t_pass; [reflexivity|exact I|]. apply t_end.
  - assert (F : forallb (fun p => forallb (fun b => b <? 256) (a_bytes (p_arrival p))) (all_received taking_turns) = true) by (vm_compute; reflexivity).
    rewrite forallb_forall in F. apply Forall_forall. intros p Hp. split.
    + specialize (F p Hp). rewrite forallb_forall in F. apply Forall_forall. intros b Hb. apply N.ltb_lt. now apply F.
    + destruct Hp as [<-|[<-|[<-|[]]]]; apply known_is_a_store.
  - reflexivity.
  - vm_compute. reflexivity.
  - vm_compute. reflexivity.
Qed.

(** Where the application acts first, one loss of power before it saves makes it act on the same octets twice. *)
Theorem C98_acted_first_refuted : exists nv l,
  takes host aes_cipher false nv nv l /\ receptions_ok (known_get (keys := [5; 1])) (all_received l) /\
  ~ NoDup (map fst (flat_map (taken_for host aes_cipher 1) (acted_on l))).
Proof.
  exists (table_of 9 40), [Received (whole (table_of 9 40) (sent_bytes 0)) true; Restarted; Received (whole (table_of 9 40) (sent_bytes 0)) true; Stored].
  split; [|split].
  - apply t_act; [reflexivity|]. apply t_start. apply t_act; [reflexivity|]. apply t_store. apply t_end.
  - assert (F : forallb (fun b => b <? 256) (sent_bytes 0) = true) by (vm_compute; reflexivity).
    assert (R : octets (sent_bytes 0)) by (apply octets_of_bits; exact F).
    assert (R2 : octets (a_bytes (p_arrival (at_reception (table_of 9 40) (arrives (sent_bytes 0)))))) by exact R.
    constructor; [split; [exact R2|apply known_is_a_store]|]. constructor; [split; [exact R2|apply known_is_a_store]|constructor].
  - assert (X : List.length (map fst (flat_map (taken_for host aes_cipher 1) (acted_on
       [Received (whole (table_of 9 40) (sent_bytes 0)) true; Restarted; Received (whole (table_of 9 40) (sent_bytes 0)) true; Stored]))) = 2%nat) by (vm_compute; reflexivity).
    change (acted_on [Received (whole (table_of 9 40) (sent_bytes 0)) true; Restarted; Received (whole (table_of 9 40) (sent_bytes 0)) true; Stored])
      with [at_reception (table_of 9 40) (arrives (sent_bytes 0)); at_reception (table_of 9 40) (arrives (sent_bytes 0))] in *.
    cbn [flat_map] in *. revert X. generalize (taken_for host aes_cipher 1 (at_reception (table_of 9 40) (arrives (sent_bytes 0)))).
    intros t X N. rewrite app_nil_r, map_app in *. rewrite app_length in X.
    destruct (map fst t) as [|b [|? ?]]; cbn in X; try lia. inversion N as [|? ? Y _]; subst. apply Y. now left.
Qed.

Print Assumptions C98_saved_ahead.
Print Assumptions C98_cost.
Print Assumptions C98_saved_first.
Print Assumptions C98_saved_behind_refuted.
Print Assumptions C98_acted_first_refuted.
