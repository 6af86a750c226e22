(** C99: several items in one buffer, one after another. *)
From Coq Require Import List Arith NArith ZArith Bool String Lia ZifyBool ZifyNat ZifyN.
From Verif Require Import ByteCrate Types HeaderModel BeaconModel CommandModel CcmModel FrameModel
  Spec SecSpec ProofLib HeaderProofs HeaderReadProofs BeaconProofs CommandProofs RepoTests PropHeader PropContent PropFrame PropCodec.
Import ListNotations.
Open Scope N_scope.
Open Scope list_scope.

(** * Specification *)

(** What an application can put into a buffer with [BytesExt::write_with] and get out of it with
    [BytesExt::read_with], besides frames (a frame reads to the end of its input, C19). *)
Inductive item {K : Type} :=
| I_Header (h : Header) (sc : option (SecurityContext K)) | I_Beacon (b : Beacon) | I_Command (cmd : Command)
| I_Superframe (s : SuperframeSpecification) | I_Gts (g : GtsInformation) | I_Pending (p : PendingAddress)
| I_Pan (p : N) | I_Short (s : N) | I_Extended (x : N).
Arguments item : clear implicits.
Inductive kind := K_Header | K_Beacon | K_Command | K_Superframe | K_Gts | K_Pending | K_Pan | K_Short | K_Extended.
Inductive value := V_Header (h : Header) | V_Beacon (b : Beacon) | V_Command (cmd : Command)
| V_Superframe (s : SuperframeSpecification) | V_Gts (g : GtsInformation) | V_Pending (p : PendingAddress)
| V_Pan (p : N) | V_Short (s : N) | V_Extended (x : N).

Definition kind_of {K} (i : item K) : kind :=
  match i with
  | I_Header _ _ => K_Header | I_Beacon _ => K_Beacon | I_Command _ => K_Command | I_Superframe _ => K_Superframe
  | I_Gts _ => K_Gts | I_Pending _ => K_Pending | I_Pan _ => K_Pan | I_Short _ => K_Short | I_Extended _ => K_Extended
  end.
(** What is to be read back: the item, a header as it was sent (C05). *)
Definition value_of {K} (i : item K) : value :=
  match i with
  | I_Header h sc => V_Header (header_sent (counter_of sc) h)
  | I_Beacon b => V_Beacon b | I_Command cmd => V_Command cmd | I_Superframe s => V_Superframe s
  | I_Gts g => V_Gts g | I_Pending p => V_Pending p | I_Pan p => V_Pan p | I_Short s => V_Short s | I_Extended x => V_Extended x
  end.

Definition kind_of_value (v : value) : kind :=
  match v with
  | V_Header _ => K_Header | V_Beacon _ => K_Beacon | V_Command _ => K_Command | V_Superframe _ => K_Superframe
  | V_Gts _ => K_Gts | V_Pending _ => K_Pending | V_Pan _ => K_Pan | V_Short _ => K_Short | V_Extended _ => K_Extended
  end.

Section Calls.
Context {K : Type} (c : cfg).
(** The crate's writer and reader of each type (byte crate: TryWrite, TryRead). *)
Definition write_item (i : item K) : writer :=
  match i with
  | I_Header h sc => try_write_header c h sc
  | I_Beacon b => try_write_beacon b | I_Command cmd => try_write_command cmd | I_Superframe s => try_write_superframe s
  | I_Gts g => try_write_gts_information g | I_Pending p => try_write_pending p
  | I_Pan p => try_write_pan_id p | I_Short s => try_write_short s | I_Extended x => try_write_extended x
  end.
Definition as_value {A} (v : A -> value) (r : reader A) : reader value := fun bs =>
  match r bs with Ok (a, n) => Ok (v a, n) | Err e => Err e | Panic => Panic end.
Definition read_item (k : kind) : reader value :=
  match k with
  | K_Header => as_value V_Header (try_read_header c)
  | K_Beacon => as_value V_Beacon try_read_beacon | K_Command => as_value V_Command try_read_command
  | K_Superframe => as_value V_Superframe try_read_superframe | K_Gts => as_value V_Gts try_read_gts_information
  | K_Pending => as_value V_Pending try_read_pending
  | K_Pan => as_value V_Pan try_read_pan_id | K_Short => as_value V_Short try_read_short
  | K_Extended => as_value V_Extended try_read_extended
  end.
(** [buf.write_with(&mut offset, item, ctx)?] for one item after the other. *)
Fixpoint write_items (items : list (item K)) (buf : list N) (off : nat) : bres nat * list N :=
  match items with
  | [] => (Ok off, buf)
  | i :: rest =>
      match write_with (write_item i) (buf, off) with
      | (Ok _, (buf', off')) => write_items rest buf' off'
      | (Err e, (buf', _)) => (Err e, buf')
      | (Panic, (buf', _)) => (Panic, buf')
      end
  end.
(** [buf.read_with(&mut offset, ctx)?] for one kind after the other. *)
Fixpoint read_items (kinds : list kind) (buf : list N) (off : nat) : bres (list value * nat) :=
  match kinds with
  | [] => Ok ([], off)
  | k :: rest =>
      '(v, off) <- read_with (read_item k) buf off ;;
      '(vs, off) <- read_items rest buf off ;;
      Ok (v :: vs, off)
  end.

(** Values that can be written and read back (C05, C09, C10, C12, C13, C15). *)
Definition writable (i : item K) : Prop :=
  match i with
  | I_Header h sc => header_ok h /\ compression_allowed h /\ u32_ok (counter_of sc) /\
      (auxiliary_security_header h = None \/ (sc <> None /\ native c = LE))
  | I_Beacon b => beacon_canonical b | I_Command cmd => command_canonical cmd | I_Superframe s => superframe_canonical s
  | I_Gts g => gts_from_api g | I_Pending p => pending_from_api p
  | I_Pan p => u16_ok p | I_Short s => u16_ok s | I_Extended x => u64_ok x
  end.
End Calls.

(** A realignment without channel page takes the next octet for one (C17), so nothing may follow it; a GTS
    information with slots can only be read if something follows it (C11). *)
Definition takes_what_follows {K} (i : item K) : bool := match i with I_Command cmd => open_ended cmd | _ => false end.
Definition needs_what_follows {K} (i : item K) : bool := match i with I_Gts g => negb (gts_slot_count g =? 0)%nat | _ => false end.
Fixpoint well_placed {K} (items : list (item K)) (tail : list N) : Prop :=
  match items with
  | [] => True
  | i :: rest => (takes_what_follows i = true -> rest = [] /\ tail = []) /\
                 (needs_what_follows i = true -> rest <> [] \/ tail <> []) /\ well_placed rest tail
  end.

(** * Proofs *)

Section Proofs.
Context {K : Type} (c : cfg).

Lemma encodes_emits w bs : encodes_as w bs -> emits w bs (Ok tt).
Proof using Type.
  intros H buf. specialize (H buf). destruct (Nat.leb_spec (List.length bs) (List.length buf)) as [L|L]; split; intros X; try lia.
  - exact H.
  - exact H.
Qed.


(** The octets of an item. *)
Definition item_octets (i : item K) : list N :=
  match i with
  | I_Header h sc => wire_header LE (native c) false 0 (header_sent (counter_of sc) h)
  | I_Beacon b => wire_beacon br_zero b | I_Command cmd => wire_command mr_zero cmd | I_Superframe s => wire_superframe false s
  | I_Gts g => wire_gts 0 0 g | I_Pending p => wire_pending false false p
  | I_Pan p => le 2 p | I_Short s => le 2 s | I_Extended x => le 8 x
  end.

Lemma item_emits (i : item K) : writable c i -> emits (write_item c i) (item_octets i) (Ok tt).
Proof using Type.
  destruct i as [h sc|b|cmd|s|g|p|p|s|x]; cbn [writable write_item item_octets]; intros W.
  - destruct W as (Hok & Hc & Hu & Ha). pose proof (emits_header c h sc Hok) as X.
    assert (Hc' : compression_ok h = true) by (now apply compression_ok_iff).
    assert (Hs : auxiliary_security_header h <> None -> sc <> None) by (destruct Ha as [->|[Ha _]]; [congruence|auto]).
    rewrite (program_length c h sc Hc' Hs) in X. cbn [fst snd] in X. eapply emits_eq; [exact X|].
    destruct Ha as [Ha|[_ ->]]; [|reflexivity]. rewrite !wire_sent_mhr by assumption. now rewrite Ha.
  - apply encodes_emits, C13_beacon_write. apply C13_beacon_api_values. destruct W as (C1 & C2). split; [now apply superframe_canonical_ok|exact C2].
  - apply encodes_emits, C15_command_write. apply W.
  - apply emits_superframe.
  - apply encodes_emits, C10_gts_write, W.
  - apply encodes_emits, C12_pending_write, W.
  - apply emits_pan.
  - apply emits_short.
  - apply emits_extended.
Qed.

Lemma item_reads (i : item K) tail : writable c i -> (takes_what_follows i = true -> tail = []) ->
  (needs_what_follows i = true -> tail <> []) ->
  read_item c (kind_of i) (item_octets i ++ tail) = Ok (value_of i, List.length (item_octets i)).
Proof using Type.
  intros W T F. pose proof (item_emits i W (item_octets i)) as [X _]. specialize (X (le_n _)).
  rewrite skipn_all, app_nil_r in X. cbn [result_of] in X.
  assert (Y : read_item c (kind_of i) (firstn (List.length (item_octets i)) (item_octets i) ++ tail) = Ok (value_of i, List.length (item_octets i)));
    [|now rewrite firstn_all in Y].
  destruct i as [h sc|b|cmd|s|g|p|p|s|x]; cbn [writable write_item kind_of value_of read_item takes_what_follows needs_what_follows] in *; unfold as_value.
  - destruct W as (Hok & Hc & Hu & Ha).
    assert (HN : native c = LE \/ auxiliary_security_header h = None) by (destruct Ha as [Ha|[_ Ha]]; auto).
    now rewrite (C05_header_round_trip c h sc _ _ _ tail Hok Hu HN X).
  - now rewrite (C13_beacon_round_trip b _ _ _ tail W X).
  - now rewrite (C15_command_round_trip cmd _ _ _ tail W T X).
  - now rewrite (C09_superframe_round_trip s _ _ _ tail W X).
  - destruct tail as [|t tail].
    + rewrite app_nil_r. rewrite (C11_gts_own_bytes g _ _ _ W X).
      destruct (gts_slot_count g =? 0)%nat; [reflexivity|]. exfalso. now apply F.
    + now rewrite (C10_gts_round_trip g _ _ _ t tail W X).
  - now rewrite (C12_pending_round_trip p _ _ _ tail W X).
  - rewrite firstn_all. cbn [item_octets]. now rewrite (proj1 C52_addresses_round_trip p tail W).
  - rewrite firstn_all. cbn [item_octets]. now rewrite (proj1 (proj2 C52_addresses_round_trip) s tail W).
  - rewrite firstn_all. cbn [item_octets]. now rewrite (proj2 (proj2 C52_addresses_round_trip) x tail W).
Qed.

Lemma item_nonempty (i : item K) : writable c i -> item_octets i <> [].
Proof using Type.
  intros W H. destruct (needs_what_follows i) eqn:F.
  { destruct i; discriminate. }
  pose proof (item_reads i [] W (fun _ => eq_refl)) as R. rewrite H in R.
  assert (X : read_item c (kind_of i) [] = Ok (value_of i, 0%nat)) by (apply R; congruence).
  destruct i; cbn in X; discriminate.
Qed.

Definition all_octets_of (items : list (item K)) : list N := flat_map item_octets items.

Lemma write_items_eq items : Forall (writable c) items -> forall buf off, (off <= List.length buf)%nat ->
  if (off + List.length (all_octets_of items) <=? List.length buf)%nat
  then write_items c items buf off
       = (Ok (off + List.length (all_octets_of items))%nat,
          firstn off buf ++ all_octets_of items ++ skipn (off + List.length (all_octets_of items)) buf)
  else exists n, (off + n <= List.length buf)%nat /\
       write_items c items buf off = (Err Incomplete, firstn off buf ++ firstn n (all_octets_of items) ++ skipn (off + n) buf).
Proof using Type.
  intros W. induction W as [|i items Wi W IH]; intros buf off L.
  - cbn [all_octets_of flat_map List.length write_items]. rewrite Nat.add_0_r. destruct (Nat.leb_spec off (List.length buf)); [|lia].
    cbn [List.app]. now rewrite firstn_skipn.
  - cbn [all_octets_of flat_map write_items]. fold (all_octets_of items). rewrite app_length.
    pose proof (item_emits i Wi) as Em. destruct (runs_write _ _ _ Em buf off L) as [M1 M2].
    destruct (Nat.leb_spec (off + List.length (item_octets i)) (List.length buf)) as [L1|L1].
    + destruct (M1 L1) as (o1 & Ho & E1). specialize (Ho eq_refl). subst o1. rewrite E1.
      set (buf1 := firstn off buf ++ item_octets i ++ skipn (off + List.length (item_octets i)) buf).
      assert (Lb : List.length buf1 = List.length buf).
      { unfold buf1. rewrite !app_length, firstn_length, skipn_length. lia. }
      assert (F1 : firstn (off + List.length (item_octets i)) buf1 = firstn off buf ++ item_octets i).
      { unfold buf1. rewrite app_assoc. apply firstn_app_exact'. rewrite app_length, firstn_length. lia. }
      assert (S1 : forall n, skipn (off + List.length (item_octets i) + n) buf1 = skipn (off + List.length (item_octets i) + n) buf).
      { intros n. rewrite <- (skipn_skipn' n (off + List.length (item_octets i)) buf1).
        rewrite <- (skipn_skipn' n (off + List.length (item_octets i)) buf). f_equal.
        unfold buf1. rewrite app_assoc. apply skipn_app_exact'. rewrite app_length, firstn_length. lia. }
      specialize (IH buf1 (off + List.length (item_octets i))%nat ltac:(lia)). rewrite Lb in IH.
      rewrite Nat.add_assoc. rewrite F1 in IH.
      destruct (Nat.leb_spec (off + List.length (item_octets i) + List.length (all_octets_of items)) (List.length buf)) as [L2|L2].
      * rewrite IH, S1, <- !app_assoc. reflexivity.
      * destruct IH as (n & Hn & E2). exists (List.length (item_octets i) + n)%nat. split; [lia|].
        rewrite E2, S1. rewrite firstn_add, firstn_app_exact, skipn_app_exact. rewrite Nat.add_assoc, <- !app_assoc. reflexivity.
    + destruct (Nat.leb_spec (off + (List.length (item_octets i) + List.length (all_octets_of items))) (List.length buf)) as [L2|L2]; [lia|].
      destruct (M2 L1) as (n & o & Hn & E1). rewrite E1. exists (Nat.min n (List.length (item_octets i))).
      destruct (Nat.leb_spec n (List.length (item_octets i))) as [L3|L3]; [|lia].
      rewrite Nat.min_l by lia. split; [exact Hn|]. rewrite firstn_app.
      replace (n - List.length (item_octets i))%nat with 0%nat by lia. cbn [firstn]. now rewrite app_nil_r.
Qed.

Lemma all_octets_nonempty items : Forall (writable c) items -> items <> [] -> all_octets_of items <> [].
Proof using Type.
  intros W H. destruct W as [|i items Wi W]; [congruence|]. cbn [all_octets_of flat_map]. intros X.
  apply app_eq_nil in X. exact (item_nonempty i Wi (proj1 X)).
Qed.

Lemma read_items_eq (items : list (item K)) tail : Forall (writable c) items -> well_placed items tail -> forall pre,
  read_items c (map kind_of items) (pre ++ all_octets_of items ++ tail) (List.length pre)
  = Ok (map value_of items, (List.length pre + List.length (all_octets_of items))%nat).
Proof using Type.
  intros W. induction W as [|i items Wi W IH]; intros P pre.
  - cbn. now rewrite Nat.add_0_r.
  - destruct P as (P1 & P2 & P3). cbn [map read_items all_octets_of flat_map]. fold (all_octets_of items).
    rewrite read_with_eq by (rewrite app_length; lia). rewrite skipn_app_exact, <- app_assoc.
    rewrite (item_reads i (all_octets_of items ++ tail) Wi).
    + cbn [obind]. specialize (IH P3 (pre ++ item_octets i)). rewrite app_length in IH.
      rewrite <- app_assoc in IH. rewrite IH. cbn [obind]. now rewrite app_length, Nat.add_assoc.
    + intros T. destruct (P1 T) as [-> ->]. reflexivity.
    + intros T X. apply app_eq_nil in X. destruct X as [X ->]. destruct (P2 T) as [Y|Y]; [|congruence].
      exact (all_octets_nonempty items W Y X).
Qed.

(** Whatever is written one after another is read back one after another, from the same offset, and the offset ends
    at the same place; everything in front of and behind the items is left alone and does not matter. *)
Theorem C99_written_and_read : forall (items : list (item K)) buf off off' buf' tail, Forall (writable c) items -> well_placed items tail ->
  (off <= List.length buf)%nat -> write_items c items buf off = (Ok off', buf') ->
  List.length buf' = List.length buf /\ firstn off buf' = firstn off buf /\ skipn off' buf' = skipn off' buf /\ (off <= off' <= List.length buf)%nat /\
  read_items c (map kind_of items) (firstn off' buf' ++ tail) off = Ok (map value_of items, off').
Proof using Type.
  intros items buf off off' buf' tail W P L E. pose proof (write_items_eq items W buf off L) as X.
  destruct (Nat.leb_spec (off + List.length (all_octets_of items)) (List.length buf)) as [L1|L1];
    [|destruct X as (n & _ & X); rewrite X in E; discriminate].
  rewrite X in E. injection E as Eo <-. subst off'.
  assert (Lf : List.length (firstn off buf) = off) by (rewrite firstn_length; lia).
  split; [rewrite !app_length, Lf, skipn_length; lia|]. split; [now apply firstn_app_exact'|].
  split; [rewrite app_assoc; apply skipn_app_exact'; rewrite app_length; lia|]. split; [lia|].
  rewrite app_assoc, firstn_app_exact' by (rewrite app_length; lia). rewrite <- app_assoc.
  pose proof (read_items_eq items tail W P (firstn off buf)) as R. rewrite Lf in R. exact R.
Qed.

(** How many octets the item takes: what its writer reports, with room enough. *)
Definition reports (i : item K) (n : nat) : Prop := forall buf, (n <= List.length buf)%nat -> fst (write_item c i buf) = Ok n.

(** Writing a sequence succeeds exactly if the sum of what the items take fits behind the offset; otherwise it is
    Incomplete (BadOffset if the offset lies beyond the end). It never panics and never touches what is before the offset. *)
Theorem C99_fits_iff : forall (items : list (item K)) buf off, Forall (writable c) items -> items <> [] ->
  exists sizes, Forall2 reports items sizes /\ Forall (fun n => (0 < n)%nat) sizes /\
  let '(r, buf') := write_items c items buf off in
  r = (if (List.length buf <? off)%nat then Err (BadOffset off)
       else if (off + list_sum sizes <=? List.length buf)%nat then Ok (off + list_sum sizes)%nat else Err Incomplete) /\
  List.length buf' = List.length buf /\ firstn off buf' = firstn off buf.
Proof using Type.
  intros items buf off W Hne. exists (map (fun i => List.length (item_octets i)) items).
  assert (S : list_sum (map (fun i => List.length (item_octets i)) items) = List.length (all_octets_of items)).
  { clear. unfold all_octets_of. induction items as [|i items IH]; [reflexivity|]. cbn [map flat_map list_sum fold_right]. rewrite app_length.
    unfold list_sum in IH. now rewrite IH. }
  split; [|split].
  - clear Hne S. induction W as [|i items Wi W IH]; [constructor|]. cbn [map]. constructor; [|exact IH].
    intros b Lb. destruct (item_emits i Wi b) as [X _]. rewrite (X Lb). reflexivity.
  - apply Forall_map. eapply Forall_impl; [|exact W]. intros i Wi. pose proof (item_nonempty i Wi).
    destruct (item_octets i); [congruence|cbn; lia].
  - rewrite S. destruct (Nat.ltb_spec (List.length buf) off) as [L|L].
    + destruct items as [|i items]; [congruence|]. cbn [write_items]. unfold write_with.
      destruct (Nat.ltb_spec (List.length buf) off); [|lia]. split; [reflexivity|]. auto.
    + pose proof (write_items_eq items W buf off L) as X.
      assert (Lf : List.length (firstn off buf) = off) by (rewrite firstn_length; lia).
      destruct (Nat.leb_spec (off + List.length (all_octets_of items)) (List.length buf)) as [L1|L1].
      * rewrite X. split; [reflexivity|]. split; [rewrite !app_length, Lf, skipn_length; lia|now apply firstn_app_exact'].
      * destruct X as (n & Hn & X). rewrite X. split; [reflexivity|].
        split; [rewrite !app_length, Lf, skipn_length, firstn_length; lia|now apply firstn_app_exact'].
Qed.


Lemma item_read_total k bs : octets bs ->
  match read_item c k bs with
  | Ok (v, n) => (n <= List.length bs)%nat /\ kind_of_value v = k
  | Err Incomplete | Err (BadInput _) => True
  | Err (BadOffset _) | Panic => False
  end.
Proof using Type.
  intros Hb. destruct k; cbn [read_item]; unfold as_value.
  - pose proof (C04_header_decode_verdict c bs) as V. destruct (header_verdict bs) as [e|] eqn:He.
    + rewrite V. unfold header_verdict in He. cbv zeta in He.
      repeat match type of He with context [if ?b then _ else _] => destruct b end; try discriminate; injection He as <-; exact I.
    + destruct V as [h V]. rewrite V. destruct (C46_header_locality c bs bs h _ Hb Hb V). split; [assumption|reflexivity].
  - pose proof (C13_beacon_read_total bs) as V. destruct (List.length bs <? beacon_need bs)%nat eqn:L; [now rewrite V|].
    destruct V as [b V]. rewrite V. split; [lia|reflexivity].
  - pose proof (C16_command_verdict bs Hb) as V. destruct (command_verdict bs) as [e|] eqn:He.
    + rewrite V. unfold command_verdict in He. destruct bs as [|id r]; [injection He as <-; exact I|].
      repeat match type of He with context [if ?b then _ else _] => destruct b end; try discriminate; injection He as <-; exact I.
    + destruct V as [cmd V]. rewrite V. destruct (C46_command_locality bs bs cmd _ Hb Hb V). split; [assumption|reflexivity].
  - pose proof (C09_superframe_read_total bs) as V. destruct bs as [|a [|b r]]; [now rewrite V|now rewrite V|].
    destruct V as [v V]. rewrite V. cbn. split; [lia|reflexivity].
  - pose proof (C10_gts_read_total bs) as V. destruct bs as [|b r]; [now rewrite V|]. cbv zeta in V.
    destruct (N.to_nat (b mod 8) =? 0)%nat; [destruct V as [v V]; rewrite V; cbn; split; [lia|reflexivity]|].
    destruct (List.length (b :: r) <? 3 + 3 * N.to_nat (b mod 8))%nat eqn:L; [now rewrite V|].
    destruct V as [v V]. rewrite V. split; [lia|reflexivity].
  - pose proof (C12_pending_accepts bs) as V. destruct bs as [|b r]; [now rewrite V|].
    destruct (List.length (b :: r) <? 1 + 2 * N.to_nat (b mod 8) + 8 * N.to_nat (b / 16 mod 8))%nat eqn:L; [now rewrite V|].
    destruct V as [v V]. rewrite V. split; [lia|reflexivity].
  - pose proof (proj1 C52_addresses_read bs Hb) as V. destruct (Nat.leb_spec 2 (List.length bs)); [|now rewrite V].
    destruct V as (v & V & _). rewrite V. split; [lia|reflexivity].
  - pose proof (proj1 (proj2 C52_addresses_read) bs Hb) as V. destruct (Nat.leb_spec 2 (List.length bs)); [|now rewrite V].
    destruct V as (v & V & _). rewrite V. split; [lia|reflexivity].
  - pose proof (proj2 (proj2 C52_addresses_read) bs Hb) as V. destruct (Nat.leb_spec 8 (List.length bs)); [|now rewrite V].
    destruct V as (v & V & _). rewrite V. split; [lia|reflexivity].
Qed.

(** Reading any octets as any kinds of items: values of these kinds, and an offset inside the buffer, or one of two errors
    - BadOffset only for an offset beyond the end. It never panics. *)
Theorem C99_read_total : forall kinds bs off, octets bs ->
  if (List.length bs <? off)%nat then kinds <> [] -> read_items c kinds bs off = Err (BadOffset off)
  else match read_items c kinds bs off with
       | Ok (vs, off') => (off <= off' <= List.length bs)%nat /\ map kind_of_value vs = kinds
       | Err Incomplete | Err (BadInput _) => True
       | Err (BadOffset _) | Panic => False
       end.
Proof using Type.
  intros kinds bs off Hb. destruct (Nat.ltb_spec (List.length bs) off) as [L|L].
  - intros H. destruct kinds as [|k kinds]; [congruence|]. cbn [read_items]. unfold read_with.
    destruct (Nat.ltb_spec (List.length bs) off); [reflexivity|lia].
  - revert off L. induction kinds as [|k kinds IH]; intros off L; [cbn; split; [lia|reflexivity]|].
    cbn [read_items]. rewrite read_with_eq by exact L.
    pose proof (item_read_total k (skipn off bs) (octets_skipn _ _ Hb)) as V. rewrite skipn_length in V.
    destruct (read_item c k (skipn off bs)) as [[v n]|e|]; cbn [obind]; [|destruct e; auto|exact V].
    destruct V as [Ln Ev]. specialize (IH (off + n)%nat ltac:(lia)).
    destruct (read_items c kinds bs (off + n)) as [[vs o]|e|]; cbn [obind]; [|exact IH|exact IH].
    destruct IH as [I1 I2]. split; [lia|]. cbn [map]. now rewrite Ev, I2.
Qed.

(** Reading at an offset looks at nothing before it. *)
Theorem C99_reads_from_offset : forall kinds pre bs, octets bs ->
  read_items c kinds (pre ++ bs) (List.length pre)
  = match read_items c kinds bs 0 with
    | Ok (vs, off) => Ok (vs, (List.length pre + off)%nat)
    | Err e => Err e
    | Panic => Panic
    end.
Proof using Type.
  intros kinds pre bs Hb.
  assert (G : forall kinds off, (off <= List.length bs)%nat -> read_items c kinds (pre ++ bs) (List.length pre + off)
    = match read_items c kinds bs off with
    | Ok (vs, off) => Ok (vs, (List.length pre + off)%nat)
    | Err e => Err e
    | Panic => Panic
    end).
  { clear kinds. induction kinds as [|k kinds IH]; intros off L; [reflexivity|]. cbn [read_items].
    rewrite !read_with_eq by (rewrite ?app_length; lia).
    rewrite skipn_app, skipn_all2 by lia. cbn [List.app]. replace (List.length pre + off - List.length pre)%nat with off by lia.
    pose proof (item_read_total k (skipn off bs) (octets_skipn _ _ Hb)) as V. rewrite skipn_length in V.
    destruct (read_item c k (skipn off bs)) as [[v n]|e|]; cbn [obind]; [|reflexivity|reflexivity].
    rewrite <- Nat.add_assoc, IH by lia. destruct (read_items c kinds bs (off + n)) as [[vs o]|e|]; reflexivity. }
  specialize (G kinds 0%nat (Nat.le_0_l _)). now rewrite Nat.add_0_r in G.
Qed.

(** Different sequences of the same kinds have different octets. *)
Theorem C99_same_octets_same_values : forall (items items2 : list (item K)) buf buf2 n n2 buf' buf2' tail,
  Forall (writable c) items -> Forall (writable c) items2 -> map kind_of items = map kind_of items2 ->
  well_placed items tail -> well_placed items2 tail ->
  write_items c items buf 0 = (Ok n, buf') -> write_items c items2 buf2 0 = (Ok n2, buf2') ->
  firstn n buf' = firstn n2 buf2' -> map value_of items = map value_of items2.
Proof using Type.
  intros items items2 buf buf2 n n2 buf' buf2' tail W W2 Hk P P2 E E2 H.
  destruct (C99_written_and_read items buf 0 n buf' tail W P (Nat.le_0_l _) E) as (_ & _ & _ & _ & R).
  destruct (C99_written_and_read items2 buf2 0 n2 buf2' tail W2 P2 (Nat.le_0_l _) E2) as (_ & _ & _ & _ & R2).
  rewrite H, Hk, R2 in R. congruence.
Qed.
End Proofs.

(** * Concrete cases *)

Definition buffer_of n : list N := repeat 0xAA n.
Definition some_header : Header :=
  mk_header Data_t false true false Ieee802154_2006 (Some (Short 0x1234 0x5678)) None 9
    (Some {| control := {| security_level := SL_MIC32; key_id_mode := KIM_None |}; frame_counter := 0; key_identifier := None |}).
Definition six_items : list (item (list N)) :=
  [I_Pan 0x1234; I_Header some_header (Some (SecurityContext_new 1 77 static_key_lookup)); I_Gts sample_gts; I_Beacon sample_beacon;
   I_Command DataRequest; I_Extended 7].
Lemma header_writable : writable (K := list N) host (I_Header some_header (Some (SecurityContext_new 1 77 static_key_lookup))).
Proof.
  split; [|split; [|split]].
  - split; [reflexivity|]. repeat split; try reflexivity; intros; discriminate.
  - intros H; discriminate.
  - reflexivity.
  - right. split; [discriminate|reflexivity].
Qed.
Example six_items_in_a_row :
  Forall (writable host) six_items /\ well_placed six_items [] /\
  fst (write_items host six_items (buffer_of 70) 5) = Ok 57%nat /\
  fst (write_items host six_items (buffer_of 56) 5) = Err Incomplete /\
  fst (write_items host six_items (buffer_of 4) 5) = Err (BadOffset 5).
Proof.
  split; [|split; [|split; [|split]]].
  - constructor; [reflexivity|]. constructor; [exact header_writable|]. constructor; [exact sample_gts_api|].
    constructor; [exact (proj2 sample_beacon_ok)|]. constructor; [split; exact I|]. constructor; [reflexivity|constructor].
  - repeat split; try discriminate. intros _. left. discriminate.
  - vm_compute. reflexivity.
  - vm_compute. reflexivity.
  - vm_compute. reflexivity.
Qed.

(** Without the two conditions on the places this does not hold: a realignment without channel page swallows the first octet
    of what follows it, and a GTS information with slots cannot be read where nothing follows it. *)
Theorem C99_any_place_refuted :
  (exists items : list (item (list N)), Forall (writable host) items /\
     exists n buf', write_items host items (buffer_of 20) 0 = (Ok n, buf') /\
     read_items host (map kind_of items) (firstn n buf') 0 <> Ok (map value_of items, n) /\
     exists r, read_items host (map kind_of items) (firstn n buf' ++ [0]) 0 = Ok (r, S n)) /\
  (exists items : list (item (list N)), Forall (writable host) items /\
     exists n buf', write_items host items (buffer_of 20) 0 = (Ok n, buf') /\
     read_items host (map kind_of items) (firstn n buf') 0 = Err Incomplete).
Proof.
  split.
  - exists [I_Command (CoordinatorRealignment {| cr_pan_id := 1; cr_coordinator_address := 2; cr_channel := 3; cr_device_address := 4; cr_channel_page := None |}); I_Pan 0x1234].
    split; [repeat constructor|]. eexists. eexists. split; [vm_compute; reflexivity|].
    split; [vm_compute; discriminate|]. eexists. vm_compute. reflexivity.
  - exists [I_Pan 5; I_Gts sample_gts]. split; [constructor; [reflexivity|constructor; [exact sample_gts_api|constructor]]|].
    eexists. eexists. split; vm_compute; reflexivity.
Qed.

Print Assumptions C99_written_and_read.
Print Assumptions C99_fits_iff.
Print Assumptions C99_reads_from_offset.
Print Assumptions C99_read_total.
Print Assumptions C99_same_octets_same_values.
Print Assumptions C99_any_place_refuted.
