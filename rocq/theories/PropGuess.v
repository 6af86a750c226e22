(** Property C82: guessing the tag of a secured frame. Exactly one tag of the right length is
    accepted for a header and payload; wrong guesses cost the guesser nothing; after the right one
    every further guess is refused as a replay. *)
From Coq Require Import List Arith NArith ZArith Bool String Lia ZifyBool ZifyNat ZifyN.
From Verif Require Import ByteCrate Types HeaderModel BeaconModel CommandModel CcmModel FrameModel
  Spec SecSpec ProofLib HeaderProofs HeaderReadProofs BeaconProofs CommandProofs FrameProofs CcmProofs
  SecureProofs RepoTests Aes128 AesProofs HistorySpec PropHeader PropContent PropFrame PropSecure PropReceive PropHistory.
Import ListNotations.
Open Scope N_scope.
Open Scope list_scope.
Ltac Zify.zify_post_hook ::= Z.div_mod_to_equations.

(** * Specification *)

(** A tag: so many octets. *)
Definition tag_string (t : nat) (x : list N) : Prop := List.length x = t /\ octets x.

(** One attempt: header octets [hd], payload octets [q] as they stand on the air, a guessed tag. *)
Definition attempt {K} (sc : SecurityContext K) (hd q tag : list N) : arrival K :=
  {| a_ctx := ser_ctx Footer_None sc; a_bytes := hd ++ q ++ tag |}.

(** The receiver would go on to verify such a frame: the header decodes, a key and a device are
    found and the counter is fresh (SecSpec.admitted); the payload is not longer than can be
    decrypted; the counter is not the last one (which C35 describes). *)
Definition awaits_a_tag {K D} (c : cfg) (sc : SecurityContext K) (dl : DeviceLookup D) (ds : D)
    (hd q : list N) (h : Header) (a : AuxiliarySecurityHeader) : Prop :=
  octets hd /\ octets q /\ try_read_header c hd = Ok (h, List.length hd) /\
  (exists eui key d put, admitted sc dl ds h a eui key d put) /\
  (encrypting (security_level (control a)) = true -> N.of_nat (List.length q) < 2 ^ 16) /\
  frame_counter a <> 0xFFFFFFFF.

(** * Proofs *)

Section Guess.
Context {K D : Type} (c : cfg) (E : block_cipher K).
Hypothesis HE : cipher_ok E.
Variables (dl : DeviceLookup D) (resolve : Address -> option N) (get : D -> N -> DeviceDescriptor).
Hypothesis Hstore : device_store dl resolve get.

Lemma header_prefix hd x h : octets hd -> octets x -> try_read_header c hd = Ok (h, List.length hd) ->
  try_read_header c (hd ++ x) = Ok (h, List.length hd).
Proof.
  intros Hh Hx R. apply (C03_header_decode_exact c hd h _ Hh) in R. destruct R as (Hd & _ & r7 & rs & Hrs & Ef).
  apply (C03_header_decode_exact c); [now apply octets_app|]. split; [exact Hd|]. split; [rewrite app_length; lia|].
  exists r7, rs. split; [exact Hrs|]. rewrite firstn_app_exact' by reflexivity. now rewrite firstn_all in Ef.
Qed.

(** What one attempt does. *)
Lemma attempt_result sc ds hd q h a eui key d put tag : octets hd -> octets q ->
  try_read_header c hd = Ok (h, List.length hd) -> admitted sc dl ds h a eui key d put ->
  (encrypting (security_level (control a)) = true -> N.of_nat (List.length q) < 2 ^ 16) ->
  frame_counter a <> 0xFFFFFFFF -> tag_string (tag_len (security_level (control a))) tag ->
  let l := security_level (control a) in
  let p := secured_payload E key l eui (frame_counter a) q in
  let right := secured_tag E key l eui (frame_counter a) p in
  let r := try_read_and_unsecure c E (hd ++ q ++ tag) (ser_ctx Footer_None sc) dl ds in
  if same_octets right tag
  then fst r = Ok ({| header := h; content := FC_Data; payload := p; footer := (0, 0) |},
                   (List.length hd + List.length q)%nat) /\
       snd (snd r) = put {| dev_frame_counter := frame_counter a + 1; dev_exempt := dev_exempt d |}
  else fst r = Err TransformationError /\ snd (snd r) = ds.
Proof using HE Hstore.
  intros Hh Hq R A He Hfc [Lt Ot] l p right r.
  assert (Ob : octets (q ++ tag)) by now apply octets_app.
  assert (Ha : auxiliary_security_header h = Some a) by apply A.
  assert (Ht : frame_type h = Data_t) by apply A.
  pose proof (header_prefix hd (q ++ tag) h Hh Ob R) as EH.
  assert (EC : try_read_content h (skipn (List.length hd) (hd ++ q ++ tag)) = Ok (FC_Data, 0%nat)).
  { now rewrite try_read_content_eq, Ht. }
  assert (Er : r = let '(r0, rest', ds') := receive E (overflow_checks c) sc dl ds h a (q ++ tag) in
    (match r0 with
     | Ok p => Ok ({| header := h; content := FC_Data; payload := p; footer := (0, 0) |},
                   (List.length (hd ++ q ++ tag) - tag_len l)%nat)
     | Err e => Err e | Panic => Panic end,
     (hd ++ rest', ser_ctx Footer_None sc, ds'))).
  { unfold r. rewrite (read_and_unsecure_eq c E HE _ _ _ _ _ _ _ _ _ (proj2 (octets_app _ _) (conj Hh Ob)) EH EC Ha).
    rewrite Nat.add_0_r, skipn_app_exact', firstn_app_exact' by reflexivity. reflexivity. }
  rewrite (admitted_receive E _ _ _ _ _ _ _ _ _ _ (q ++ tag) A) in Er. cbv zeta in Er. fold l in Er.
  assert (En : (List.length (q ++ tag) - tag_len l)%nat = List.length q) by (rewrite app_length; unfold l; lia).
  rewrite En, firstn_app_exact', skipn_app_exact' in Er by reflexivity. fold p in Er. fold right in Er.
  replace (List.length (q ++ tag) <? tag_len l)%nat with false in Er
    by (symmetry; apply Nat.ltb_ge; rewrite app_length; unfold l; lia).
  replace (negb (encrypting l && (2 ^ 16 <=? N.of_nat (List.length q)))) with true in Er.
  2:{ symmetry. apply negb_true_iff, andb_false_iff. destruct (encrypting l) eqn:X; [right|now left].
      apply N.leb_gt. now apply He. }
  rewrite andb_true_r in Er.
  replace (frame_counter a =? last_counter) with false in Er by (symmetry; now apply N.eqb_neq).
  destruct (same_octets right tag) eqn:X; rewrite Er; cbn [fst snd].
  - split; [|reflexivity]. f_equal. f_equal. rewrite !app_length. unfold l. lia.
  - split; [reflexivity|]. destruct A as (_ & _ & _ & _ & _ & (s & _ & Hd) & _).
    pose proof (store_lawful dl resolve get Hstore s ds) as L. now rewrite Hd in L.
Qed.

(** After the counter was taken a further attempt is a replay. *)
Lemma attempt_again sc ds hd q h a eui key d put tag : octets hd -> octets q ->
  try_read_header c hd = Ok (h, List.length hd) -> admitted sc dl ds h a eui key d put ->
  frame_counter a <> 0xFFFFFFFF -> octets tag ->
  let ds1 := put {| dev_frame_counter := frame_counter a + 1; dev_exempt := dev_exempt d |} in
  let r := try_read_and_unsecure c E (hd ++ q ++ tag) (ser_ctx Footer_None sc) dl ds1 in
  fst r = Err CounterError /\ snd (snd r) = ds1.
Proof using HE Hstore.
  intros Hh Hq R A Hfc Ot ds1 r.
  assert (Ob : octets (q ++ tag)) by now apply octets_app.
  destruct A as (Ha & Ht & Hv & Hl & Hk & (s & Hs & Hd) & Hm & Hc).
  pose proof (header_prefix hd (q ++ tag) h Hh Ob R) as EH.
  assert (EC : try_read_content h (skipn (List.length hd) (hd ++ q ++ tag)) = Ok (FC_Data, 0%nat)).
  { now rewrite try_read_content_eq, Ht. }
  pose proof (Hstore s ds) as S0. pose proof (Hstore s ds1) as S1. destruct (resolve s) as [i|]; [|congruence].
  destruct S0 as (put0 & E0 & _ & G0 & _). rewrite Hd in E0.
  assert (d = get ds i) by congruence. assert (put = put0) by congruence. subst put0.
  destruct S1 as (put1 & E1 & P1 & _). unfold ds1 in P1 at 1. rewrite G0 in P1.
  assert (Er : r = (Err CounterError, (hd ++ q ++ tag, ser_ctx Footer_None sc, ds1))).
  { unfold r. rewrite (read_and_unsecure_eq c E HE _ _ _ _ _ _ _ _ _ (proj2 (octets_app _ _) (conj Hh Ob)) EH EC Ha).
    rewrite Nat.add_0_r, skipn_app_exact', firstn_app_exact' by reflexivity.
    unfold receive, is_data. apply authenticated_level in Hl. destruct Hl as [El Ee].
    rewrite Ht, El, Hk, Hs, E1. cbn [negb].
    replace (match version h with Ieee802154_2003 => true | _ => false end) with false by (destruct (version h); congruence).
    replace (get ds1 i) with {| dev_frame_counter := frame_counter a + 1; dev_exempt := dev_exempt d |} by (symmetry; apply G0).
    cbn [dev_frame_counter dev_exempt].
    replace (frame_counter a <? frame_counter a + 1) with true by (symmetry; apply N.ltb_lt; lia).
    rewrite orb_true_r, P1. reflexivity. }
  rewrite Er. split; reflexivity.
Qed.

Lemma same_octets_refl x : same_octets x x = true.
Proof. now apply same_octets_eq. Qed.

(** Exactly one tag is right; it delivers the decrypted payload and moves the device's counter
    just past the frame's; any other tag is refused and changes nothing. *)
Theorem C82_one_right_tag : forall sc ds hd q h a, awaits_a_tag c sc dl ds hd q h a ->
  exists right f n, tag_string (tag_len (security_level (control a))) right /\
    header f = h /\ List.length (payload f) = List.length q /\
    (encrypting (security_level (control a)) = false -> payload f = q) /\
    forall tag, tag_string (tag_len (security_level (control a))) tag ->
      let r := try_read_and_unsecure c E (hd ++ q ++ tag) (ser_ctx Footer_None sc) dl ds in
      (tag = right -> fst r = Ok (f, n) /\ n = (List.length hd + List.length q)%nat /\
         forall s x, source h = Some s -> resolve s = Some x ->
           dev_frame_counter (get (snd (snd r)) x) = frame_counter a + 1) /\
      (tag <> right -> fst r = Err TransformationError /\ snd (snd r) = ds).
Proof using HE Hstore.
  intros sc ds hd q h a (Hh & Hq & R & (eui & key & d & put & A) & He & Hfc).
  set (l := security_level (control a)) in *.
  set (p := secured_payload E key l eui (frame_counter a) q).
  exists (secured_tag E key l eui (frame_counter a) p),
    {| header := h; content := FC_Data; payload := p; footer := (0, 0) |}, (List.length hd + List.length q)%nat.
  assert (Op : octets p) by now apply octets_secured_payload.
  split; [split; [apply secured_tag_length|now apply octets_secured_tag]|]. split; [reflexivity|].
  split; [apply secured_payload_length|].
  split; [intros X; cbn [payload]; unfold p; destruct l; try discriminate X; reflexivity|].
  intros tag T r.
  pose proof (attempt_result sc ds hd q h a eui key d put tag Hh Hq R A He Hfc T) as X.
  cbv zeta in X. fold l p r in X. split.
  - intros ->. rewrite same_octets_refl in X. destruct X as [X1 X2]. split; [exact X1|]. split; [reflexivity|].
    intros s x Hs Hx. destruct A as (_ & _ & _ & _ & _ & (s' & Hs' & Hd) & _).
    assert (s' = s) by congruence. subst s'. pose proof (Hstore s ds) as S. rewrite Hx in S.
    destruct S as (put0 & E0 & _ & G & _). assert (put = put0) by congruence. subst put0.
    rewrite X2, G. reflexivity.
  - intros N. replace (same_octets _ tag) with false in X; [exact X|].
    symmetry. apply not_true_is_false. intros Y. apply same_octets_eq in Y. now apply N.
Qed.

Notation results log := (map (fun e : received K => r_result e) log).

Lemma wrong_guesses sc ds hd q h a right : awaits_a_tag c sc dl ds hd q h a ->
  (forall tag, tag_string (tag_len (security_level (control a))) tag -> tag <> right ->
     let r := try_read_and_unsecure c E (hd ++ q ++ tag) (ser_ctx Footer_None sc) dl ds in
     fst r = Err TransformationError /\ snd (snd r) = ds) ->
  forall pre, Forall (tag_string (tag_len (security_level (control a)))) pre -> ~ In right pre ->
  forall rest, exists log1,
    results log1 = map (fun _ => Err TransformationError) pre /\
    receive_all c E dl ds (map (attempt sc hd q) (pre ++ rest))
    = (log1 ++ fst (receive_all c E dl ds (map (attempt sc hd q) rest)),
       snd (receive_all c E dl ds (map (attempt sc hd q) rest))).
Proof.
  intros _ W pre. induction pre as [|t pre IH]; intros Hp Hn rest.
  - exists []. split; [reflexivity|]. cbn [app]. now destruct (receive_all _ _ _ _ _).
  - inversion Hp as [|? ? Ht Hp']; subst. cbn [In] in Hn.
    destruct (IH Hp' (fun X => Hn (or_intror X)) rest) as (log1 & L1 & L2).
    destruct (W t Ht) as [W1 W2]; [intros ->; apply Hn; now left|].
    exists ({| r_arrival := attempt sc hd q t; r_result := Err TransformationError |} :: log1).
    split; [cbn [map r_result]; now rewrite L1|].
    cbn [app map receive_all attempt a_bytes a_ctx].
    destruct (try_read_and_unsecure c E (hd ++ q ++ t) (ser_ctx Footer_None sc) dl ds) as [r0 [[b0 c0] d0]].
    cbn [fst snd] in W1, W2. subst r0 d0. rewrite L2. reflexivity.
Qed.

(** Any list of guesses: as long as the right tag is not among them every one is refused alike
    and the receiver's table of devices stays as it was - there is no limit to the attempts; the
    right tag is accepted however many wrong ones came before; what comes after it is refused as
    a replay, whether right or wrong. *)
Theorem C82_guesses : forall sc ds hd q h a, awaits_a_tag c sc dl ds hd q h a ->
  exists right, tag_string (tag_len (security_level (control a))) right /\
    forall pre, Forall (tag_string (tag_len (security_level (control a)))) pre -> ~ In right pre ->
      (let '(log, ds') := receive_all c E dl ds (map (attempt sc hd q) pre) in
       results log = map (fun _ => Err TransformationError) pre /\ ds' = ds) /\
      forall post, Forall octets post ->
        let '(log, _) := receive_all c E dl ds (map (attempt sc hd q) (pre ++ right :: post)) in
        exists f n, header f = h /\
          results log = map (fun _ => Err TransformationError) pre ++ Ok (f, n) :: map (fun _ => Err CounterError) post.
Proof using HE Hstore.
  intros sc ds hd q h a Aw. pose proof Aw as (Hh & Hq & R & (eui & key & d & put & A) & He & Hfc).
  set (l := security_level (control a)) in *.
  set (p := secured_payload E key l eui (frame_counter a) q).
  set (right := secured_tag E key l eui (frame_counter a) p).
  assert (Op : octets p) by now apply octets_secured_payload.
  exists right.
  assert (T : tag_string (tag_len l) right) by (split; [apply secured_tag_length|now apply octets_secured_tag]).
  split; [exact T|].
  assert (W : forall tag, tag_string (tag_len l) tag -> tag <> right ->
     let r := try_read_and_unsecure c E (hd ++ q ++ tag) (ser_ctx Footer_None sc) dl ds in
     fst r = Err TransformationError /\ snd (snd r) = ds).
  { intros tag Tt N r. pose proof (attempt_result sc ds hd q h a eui key d put tag Hh Hq R A He Hfc Tt) as X.
    cbv zeta in X. fold l p right r in X. replace (same_octets right tag) with false in X; [exact X|].
    symmetry. apply not_true_is_false. intros Y. apply same_octets_eq in Y. now apply N. }
  intros pre Hp Hn. split.
  - destruct (wrong_guesses sc ds hd q h a right Aw W pre Hp Hn []) as (log1 & L1 & L2).
    cbn [map receive_all fst snd] in L2. rewrite !app_nil_r in L2. rewrite L2. split; [exact L1|reflexivity].
  - intros post Ho.
    destruct (wrong_guesses sc ds hd q h a right Aw W pre Hp Hn (right :: post)) as (log1 & L1 & L2). rewrite L2.
    cbn [map receive_all attempt a_bytes a_ctx].
    pose proof (attempt_result sc ds hd q h a eui key d put right Hh Hq R A He Hfc T) as X.
    cbv zeta in X. fold l p right in X. rewrite same_octets_refl in X. destruct X as [X1 X2].
    destruct (try_read_and_unsecure c E (hd ++ q ++ right) (ser_ctx Footer_None sc) dl ds) as [r0 [[b0 c0] d0]].
    cbn [fst snd] in X1, X2. subst r0.
    assert (Tail : forall post, Forall octets post ->
      results (fst (receive_all c E dl d0 (map (attempt sc hd q) post))) = map (fun _ => Err CounterError) post).
    { clear Ho L2 post. induction post as [|t post IH]; intros Ho; [reflexivity|]. inversion Ho as [|? ? Ot Ho']; subst.
      cbn [map receive_all attempt a_bytes a_ctx].
      pose proof (attempt_again sc ds hd q h a eui key d put t Hh Hq R A Hfc Ot) as [Y1 Y2].
      destruct (try_read_and_unsecure c E (hd ++ q ++ t) (ser_ctx Footer_None sc) dl _) as [r1 [[b1 c1] d1]].
      cbn [fst snd] in Y1, Y2. subst r1 d1. specialize (IH Ho').
      destruct (receive_all c E dl _ (map (attempt sc hd q) post)) as [log2 ds2]. cbn [fst] in IH |- *.
      cbn [map r_result]. now rewrite IH. }
    specialize (Tail post Ho). fold (attempt sc hd q right).
    destruct (receive_all c E dl d0 (map (attempt sc hd q) post)) as [log2 ds2]. cbn [fst snd] in Tail |- *.
    eexists _, _. split; [|rewrite map_app; cbn [map r_result]; rewrite L1, Tail; reflexivity]. reflexivity.
Qed.

(** All the tags there are: 256^t of them. *)
Fixpoint all_tags (t : nat) : list (list N) :=
  match t with
  | O => [[]]
  | S t => flat_map (fun x => map (cons x) (all_tags t)) (map N.of_nat (List.seq 0 256))
  end.
Lemma flat_map_length {A B} (f : A -> list B) k l : (forall x, List.length (f x) = k) ->
  List.length (flat_map f l) = (List.length l * k)%nat.
Proof. intros H. induction l as [|x l IH]; [reflexivity|]. cbn [flat_map]. rewrite app_length, IH, H. cbn [List.length]. lia. Qed.
Lemma all_tags_length t : N.of_nat (List.length (all_tags t)) = 256 ^ N.of_nat t.
Proof.
  induction t as [|t IH]; [reflexivity|]. cbn [all_tags].
  rewrite (flat_map_length _ (List.length (all_tags t))) by (intros x; apply map_length).
  rewrite map_length, seq_length, Nat2N.inj_mul, IH, (Nat2N.inj_succ t), N.pow_succ_r'. reflexivity.
Qed.
Lemma all_tags_in t x : In x (all_tags t) <-> tag_string t x.
Proof.
  revert x. induction t as [|t IH]; intros x.
  - unfold tag_string. cbn [all_tags In]. split.
    + intros [<-|[]]. split; [reflexivity|exact octets_nil].
    + intros [L _]. left. destruct x; [reflexivity|discriminate].
  - cbn [all_tags]. rewrite in_flat_map. split.
    + intros (y & Hy & Hx). apply in_map_iff in Hx. destruct Hx as (z & <- & Hz). apply IH in Hz. destruct Hz as [Lz Oz].
      apply in_map_iff in Hy. destruct Hy as (k & <- & Hk). apply in_seq in Hk.
      split; [cbn [List.length]; now rewrite Lz|]. constructor; [lia|exact Oz].
    + intros [L O]. destruct x as [|y z]; [discriminate|]. inversion O as [|? ? Hy Oz]; subst. exists y. split.
      * apply in_map_iff. exists (N.to_nat y). split; [now rewrite N2Nat.id|]. apply in_seq. lia.
      * apply in_map. apply IH. split; [now injection L|exact Oz].
Qed.

(** Trying all 256^t tags, in any order, always gets the frame accepted, exactly once; and no
    set of guesses that leaves out the right tag ever does. *)
Theorem C82_exhaustive_search : forall sc ds hd q h a guesses, awaits_a_tag c sc dl ds hd q h a ->
  Forall (tag_string (tag_len (security_level (control a)))) guesses -> NoDup guesses ->
  N.of_nat (List.length guesses) = 256 ^ N.of_nat (tag_len (security_level (control a))) ->
  exists before after f n,
    results (fst (receive_all c E dl ds (map (attempt sc hd q) guesses)))
    = repeat (Err TransformationError) before ++ Ok (f, n) :: repeat (Err CounterError) after /\ header f = h.
Proof using HE Hstore.
  intros sc ds hd q h a guesses Aw Hg Hd Hl. destruct (C82_guesses sc ds hd q h a Aw) as (right & T & G).
  assert (I : In right guesses).
  { pose proof (NoDup_length_incl (l := guesses) (l' := all_tags (tag_len (security_level (control a)))) Hd) as X.
    assert (X1 : (List.length (all_tags (tag_len (security_level (control a)))) <= List.length guesses)%nat).
    { pose proof (all_tags_length (tag_len (security_level (control a)))). lia. }
    assert (X2 : incl guesses (all_tags (tag_len (security_level (control a))))).
    { intros x Hx. apply all_tags_in. rewrite Forall_forall in Hg. now apply Hg. }
    apply (X X1 X2). now apply all_tags_in. }
  apply in_split in I. destruct I as (pre & post & ->).
  assert (Hn : ~ In right pre).
  { intros Hi. apply NoDup_remove_2 in Hd. apply Hd. apply in_or_app. now left. }
  apply Forall_app in Hg. destruct Hg as [Hp Hq]. inversion Hq as [|? ? _ Hpost]; subst.
  destruct (G pre Hp Hn) as [_ G2].
  assert (Ho : Forall octets post) by (eapply Forall_impl; [|exact Hpost]; intros x Hx; apply Hx).
  specialize (G2 post Ho).
  destruct (receive_all c E dl ds (map (attempt sc hd q) (pre ++ right :: post))) as [log ds'].
  destruct G2 as (f & n & Ef & Er). cbn [fst]. exists (List.length pre), (List.length post), f, n.
  split; [|exact Ef]. rewrite Er.
  assert (Rep : forall (B : Type) (y : B) (z : list (list N)), map (fun _ => y) z = repeat y (List.length z)).
  { intros B y z. induction z as [|w z IH]; [reflexivity|]. cbn [map List.length repeat]. now rewrite IH. }
  now rewrite !Rep.
Qed.

End Guess.

(** * Concrete case: a guesser takes the header of a frame that was sent, puts a payload of his own
    behind it and tries tags; the fourth one happens to be right. *)
Definition some_sc : SecurityContext (list N) :=
  match security_ctx (aes_ctx 7 0) with Some sc => sc | None => SecurityContext_new 7 0 (fun _ _ _ => None) end.
Definition some_front : list N := firstn 29 (sent_bytes 0).
Definition right_guess : list N :=
  match try_read_header host some_front with
  | Ok (h, _) =>
      match auxiliary_security_header h, sc_key_provider some_sc SrcAddrMode None (source h) with
      | Some a, Some (eui, key) =>
          let l := security_level (control a) in
          secured_tag aes_cipher key l eui (frame_counter a) (secured_payload aes_cipher key l eui (frame_counter a) [9; 9])
      | _, _ => []
      end
  | _ => []
  end.
Definition some_guesses : list (list N) :=
  [skipn 32 (sent_bytes 0); repeat 0 4; repeat 255 4; right_guess; right_guess; repeat 1 4].
Example guessing :
  (exists h a, awaits_a_tag host some_sc (known_lookup [5; 1]) two_devices some_front [9; 9] h a /\
     tag_len (security_level (control a)) = 4%nat) /\
  Forall (tag_string 4) some_guesses /\ right_guess = [63; 198; 21; 182] /\
  map (fun e => match r_result e with Ok (f, n) => Ok (payload f, n) | Err x => Err x | Panic => Panic end)
    (fst (receive_all host aes_cipher (known_lookup [5; 1]) two_devices (map (attempt some_sc some_front [9; 9]) some_guesses)))
  = [Err TransformationError; Err TransformationError; Err TransformationError;
     Ok ([9; 9], 31%nat); Err CounterError; Err CounterError].
Proof.
  assert (F : some_front = [41; 220; 9; 17; 1; 2; 0; 0; 0; 0; 0; 0; 0; 17; 1; 1; 0; 0; 0; 0; 0; 0; 0; 9; 41; 0; 0; 0; 3])
    by (vm_compute; reflexivity).
  assert (G : some_guesses = [[212; 238; 126; 126]; repeat 0 4; repeat 255 4; [63; 198; 21; 182]; [63; 198; 21; 182]; repeat 1 4])
    by (vm_compute; reflexivity).
  split; [|split; [|split; vm_compute; reflexivity]].
  - rewrite F. unfold awaits_a_tag. do 2 eexists.
    split; [split; [|split; [|split; [vm_compute; reflexivity|]]]|].
    + repeat constructor.
    + repeat constructor.
    + split; [do 4 eexists; split; [reflexivity|]|].
      * split; [reflexivity|]. split; [discriminate|]. split; [reflexivity|]. split; [reflexivity|].
        split; [eexists; split; reflexivity|]. split; [vm_compute; discriminate|]. vm_compute. discriminate.
      * split; [discriminate|discriminate].
    + reflexivity.
  - rewrite G. repeat constructor; vm_compute; reflexivity.
Qed.
