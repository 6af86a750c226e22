(** C104: what Debug prints. *)
From Coq Require Import List Arith NArith Bool String Ascii DecimalString DecimalN DecimalFacts Lia.
From Verif Require Import ByteCrate Types BeaconModel CommandModel CcmModel FrameModel EqModel DebugModel Spec ProofLib
  PropEq PropFrame CcmProofs SecSpec PropSecure PropReceive RepoTests.
Import ListNotations.
Open Scope string_scope.
Open Scope list_scope.

(** * Specification *)

(** The characters that ASCII has a glyph or a blank for: no line breaks, no other control characters. *)
Definition graphic (a : ascii) : bool := let n := N_of_ascii a in ((32 <=? n) && (n <=? 126))%N.
Definition one_graphic_line (s : string) : Prop := Forall (fun a => graphic a = true) (list_ascii_of_string s).
(** A string that the formatter has nothing to escape in *)
Definition nothing_to_escape (s : string) : Prop :=
  Forall (fun a => graphic a = true /\ a <> """"%char /\ a <> "\"%char) (list_ascii_of_string s).
(** The strings in an error, if any *)
Definition byte_error_plain (e : byte_error) : Prop := match e with BadInput s => nothing_to_escape s | _ => True end.
Definition security_error_plain (e : SecurityError) : Prop := match e with WriteError e => byte_error_plain e | _ => True end.

(** * Proofs *)

(** ** Strings *)

Fixpoint every (p : ascii -> bool) (s : string) : bool :=
  match s with "" => true | String a s => p a && every p s end.
Definition plain (a : ascii) : bool :=
  let n := N_of_ascii a in
  ((48 <=? n) && (n <=? 57) || (65 <=? n) && (n <=? 90) || (97 <=? n) && (n <=? 122) || (n =? 95))%N.
Definition quotable (a : ascii) : bool := graphic a && negb (a =? """")%char.
Definition word (s : string) : bool := match s with "" => false | _ => every plain s end.

Lemma app_assoc_s a b d : ((a ++ b) ++ d = a ++ b ++ d)%string.
Proof. induction a as [|x a IH]; cbn; [reflexivity|now rewrite IH]. Qed.
Lemma every_app p a b : every p (a ++ b) = every p a && every p b.
Proof. induction a as [|x a IH]; cbn; [reflexivity|]. now rewrite IH, andb_assoc. Qed.
Lemma every_imp (p q : ascii -> bool) s : (forall a, p a = true -> q a = true) -> every p s = true -> every q s = true.
Proof. intros I. induction s as [|x s IH]; cbn; [trivial|]. rewrite !andb_true_iff. intros [A B]. auto. Qed.
Lemma every_graphic s : every graphic s = true -> one_graphic_line s.
Proof.
  unfold one_graphic_line. induction s as [|x s IH]; cbn; [constructor|]. rewrite andb_true_iff. intros [A B]. constructor; auto.
Qed.
Lemma plain_graphic a : plain a = true -> graphic a = true.
Proof.
  unfold plain, graphic. cbv zeta. rewrite !orb_true_iff, !andb_true_iff, !N.leb_le, N.eqb_eq. lia.
Qed.
Lemma quotable_graphic a : quotable a = true -> graphic a = true.
Proof. unfold quotable. rewrite andb_true_iff. tauto. Qed.
Lemma escape_quotable s : nothing_to_escape s -> every quotable s = true.
Proof.
  unfold nothing_to_escape. induction s as [|x s IH]; cbn; [trivial|]. intros H. inversion H as [|? ? (G & Q & _) T]; subst.
  rewrite IH by exact T. rewrite andb_true_r. unfold quotable. rewrite G. cbn.
  destruct (Ascii.eqb_spec x """"%char) as [E|E]; [now apply Q in E|reflexivity].
Qed.

(** No more of these follows. *)
Definition off (p : ascii -> bool) (r : string) : Prop := match r with "" => True | String a _ => p a = false end.
Lemma every_split p : forall a b r s, every p a = true -> every p b = true -> off p r -> off p s ->
  (a ++ r = b ++ s)%string -> a = b /\ r = s.
Proof.
  induction a as [|x a IH]; intros [|y b] r s Ha Hb Hr Hs H; cbn [String.append every] in *.
  - now split.
  - subst r. cbn in Hr. rewrite andb_true_iff in Hb. destruct Hb as [Hb _]. congruence.
  - subst s. cbn in Hs. rewrite andb_true_iff in Ha. destruct Ha as [Ha _]. congruence.
  - rewrite andb_true_iff in Ha, Hb. injection H as -> H. destruct (IH b r s) as [-> ->]; tauto.
Qed.

(** ** Decimals *)

Lemma uint_plain d : every plain (NilEmpty.string_of_uint d) = true.
Proof. induction d; cbn; try assumption; reflexivity. Qed.
Lemma decimal_word n : word (decimal n) = true.
Proof.
  unfold decimal, word. pose proof (uint_plain (N.to_uint n)) as P.
  destruct (NilEmpty.string_of_uint (N.to_uint n)) as [|x s] eqn:E; [|exact P]. exfalso. clear P.
  destruct n as [|p]; [discriminate E|]. cbn in E.
  pose proof (DecimalPos.Unsigned.to_uint_nonnil p) as Z. destruct (Pos.to_uint p); try discriminate E. now apply Z.
Qed.
Lemma decimal_inj n m : decimal n = decimal m -> n = m.
Proof.
  intros H. unfold decimal in H. apply (f_equal NilEmpty.uint_of_string) in H. rewrite !NilEmpty.usu in H.
  injection H as H. now apply Unsigned.to_uint_inj.
Qed.

(** ** Trees *)

Section TreeInd.
  Variable P : tree -> Prop.
  Hypothesis HW : forall w, P (Word w).
  Hypothesis HQ : forall s, P (Quoted s).
  Hypothesis HF : forall n l, Forall (fun p => P (snd p)) l -> P (Fields n l).
  Hypothesis HA : forall n l, Forall P l -> P (Args n l).
  Hypothesis HI : forall l, Forall P l -> P (Items l).
  Fixpoint tree_ind2 (t : tree) : P t :=
    match t with
    | Word w => HW w
    | Quoted s => HQ s
    | Fields n l => HF n l ((fix go l := match l return Forall (fun p => P (snd p)) l with
                                         | [] => Forall_nil _ | p :: l => Forall_cons _ (tree_ind2 (snd p)) (go l) end) l)
    | Args n l => HA n l ((fix go l := match l return Forall P l with
                                       | [] => Forall_nil _ | t :: l => Forall_cons _ (tree_ind2 t) (go l) end) l)
    | Items l => HI l ((fix go l := match l return Forall P l with
                                    | [] => Forall_nil _ | t :: l => Forall_cons _ (tree_ind2 t) (go l) end) l)
    end.
End TreeInd.

Definition some_of {A} (l : list A) : bool := match l with [] => false | _ => true end.
Fixpoint good (t : tree) : bool :=
  match t with
  | Word w => word w
  | Quoted s => every quotable s
  | Fields n l => word n && some_of l && forallb (fun p => word (fst p) && good (snd p)) l
  | Args n l => word n && some_of l && forallb good l
  | Items l => forallb good l
  end.

(** What can follow a value: nothing, a comma, or an end. *)
Definition ends (r : string) : Prop :=
  match r with
  | String ")" _ | String "]" _ | String " " (String "}" _) => True
  | _ => False
  end.
Definition stops (r : string) : Prop := r = "" \/ ends r \/ exists r', r = ("," ++ r')%string.
Lemma stops_off r : stops r -> off plain r.
Proof.
  intros [->|[E|(r' & ->)]]; [exact I| |reflexivity]. destruct r as [|a r]; [exact I|].
  cbn. destruct (plain a) eqn:Pa; [|reflexivity]. exfalso.
  destruct a as [[|] [|] [|] [|] [|] [|] [|] [|]]; try discriminate Pa; exact E.
Qed.
Lemma ends_stops r : ends r -> stops r.
Proof. intros H. right. now left. Qed.
Lemma ends_not_comma r s : ends r -> r <> ("," ++ s)%string.
Proof. intros H ->. exact H. Qed.
Lemma stops_not_open r s : stops r -> r <> (" { " ++ s)%string.
Proof. intros [->|[E|(r' & ->)]] H; [discriminate H|subst r; exact E|discriminate H]. Qed.
Lemma stops_not_paren r s : stops r -> r <> ("(" ++ s)%string.
Proof. intros [->|[E|(r' & ->)]] H; [discriminate H|subst r; exact E|discriminate H]. Qed.
Lemma word_plain w : word w = true -> every plain w = true.
Proof. destruct w; [discriminate|trivial]. Qed.
Lemma word_split a b r s : word a = true -> word b = true -> off plain r -> off plain s -> (a ++ r = b ++ s)%string -> a = b /\ r = s.
Proof. intros A B. apply every_split; now apply word_plain. Qed.

(** Values one after another with commas between them *)
Lemma commas_split {A} (f : A -> string) (ok : A -> Prop) : forall l1 l2 r s,
  Forall (fun x => forall y r s, ok y -> stops r -> stops s -> (f x ++ r = f y ++ s)%string -> x = y /\ r = s) l1 ->
  Forall ok l2 -> l1 <> [] -> l2 <> [] -> ends r -> ends s ->
  (concat ", " (map f l1) ++ r = concat ", " (map f l2) ++ s)%string -> l1 = l2 /\ r = s.
Proof.
  assert (Step : forall x y (l : list A) r, (concat ", " (map f (x :: y :: l)) ++ r = f x ++ "," ++ " " ++ concat ", " (map f (y :: l)) ++ r)%string).
  { intros x y l r. cbn [map concat]. rewrite !app_assoc_s. reflexivity. }
  assert (One : forall x r, (concat ", " (map f [x]) ++ r = f x ++ r)%string) by reflexivity.
  induction l1 as [|x l1 IH]; [now intros|]. intros [|y l2] r s H1 H2 _ Ne2 Er Es H; [now destruct Ne2|].
  inversion H1 as [|? ? Hx H1']; subst. inversion H2 as [|? ? Hy H2']; subst.
  destruct l1 as [|x1 l1], l2 as [|y1 l2]; rewrite ?One, ?Step in H.
  - destruct (Hx y r s Hy (ends_stops r Er) (ends_stops s Es) H) as [-> ->]. now split.
  - destruct (Hx y r _ Hy (ends_stops r Er) (or_intror (or_intror (ex_intro _ _ eq_refl))) H) as [_ Z].
    now apply ends_not_comma in Z.
  - destruct (Hx y _ s Hy (or_intror (or_intror (ex_intro _ _ eq_refl))) (ends_stops s Es) H) as [_ Z].
    symmetry in Z. now apply ends_not_comma in Z.
  - destruct (Hx y _ _ Hy (or_intror (or_intror (ex_intro _ _ eq_refl))) (or_intror (or_intror (ex_intro _ _ eq_refl))) H) as [-> Z].
    cbn [String.append] in Z. injection Z as Z. 
    destruct (IH (y1 :: l2) r s H1' H2' ltac:(discriminate) ltac:(discriminate) Er Es Z) as [-> ->]. now split.
Qed.

Ltac cut H := let X := fresh in assert (X := H); apply word_split in X; [destruct X as [_ X]; clear H; rename X into H|..]; try (assumption || reflexivity || now apply stops_off).
(** A value starts with a letter, a digit, a quotation mark or an opening bracket. *)
Lemma show_starts t r s : good t = true -> ends r -> (r = show t ++ s)%string -> False.
Proof.
  intros G E ->. destruct t as [w|q|n l|n l|l]; cbn [show good] in *; rewrite ?andb_true_iff in G.
  - destruct w as [|a w]; [discriminate G|]. cbn [word every] in G. rewrite andb_true_iff in G. destruct G as [G _].
    destruct a as [[|] [|] [|] [|] [|] [|] [|] [|]]; try discriminate G; exact E.
  - exact E.
  - destruct G as [[G _] _]. destruct n as [|a n]; [discriminate G|]. cbn [word every] in G. rewrite andb_true_iff in G. destruct G as [G _].
    destruct a as [[|] [|] [|] [|] [|] [|] [|] [|]]; try discriminate G; exact E.
  - destruct G as [[G _] _]. destruct n as [|a n]; [discriminate G|]. cbn [word every] in G. rewrite andb_true_iff in G. destruct G as [G _].
    destruct a as [[|] [|] [|] [|] [|] [|] [|] [|]]; try discriminate G; exact E.
  - exact E.
Qed.

(** A name is not confused with a string or a list. *)
Lemma word_first n r a s : word n = true -> plain a = false -> (n ++ r)%string <> String a s.
Proof.
  intros W P H. destruct n as [|b n]; [discriminate W|]. cbn in H. injection H as -> _. cbn in W. rewrite P in W. discriminate W.
Qed.

Theorem show_split : forall t1, good t1 = true -> forall t2 r s, good t2 = true -> stops r -> stops s ->
  (show t1 ++ r = show t2 ++ s)%string -> t1 = t2 /\ r = s.
Proof.
  assert (Go : forall f g, forallb good g = true -> Forall (fun t1 => good t1 = true -> forall t2 r s, good t2 = true -> stops r -> stops s ->
      (show t1 ++ r = show t2 ++ s)%string -> t1 = t2 /\ r = s) f -> forallb good f = true ->
    forall r s, ends r -> ends s -> f <> [] -> g <> [] ->
    (concat ", " (map show f) ++ r = concat ", " (map show g) ++ s)%string -> f = g /\ r = s).
  { intros f g Gg IH Gf r s Er Es Nf Ng H. rewrite forallb_forall in Gf, Gg.
    refine (commas_split show (fun t => good t = true) f g r s _ _ Nf Ng Er Es H).
    - rewrite Forall_forall in *. intros x Hx. apply (IH x Hx), Gf, Hx.
    - apply Forall_forall. exact Gg. }
  intros t1. induction t1 as [w|q|n l IH|n l IH|l IH] using tree_ind2; intros G1 [w2|q2|n2 l2|n2 l2|l2] r s G2 R S H;
    cbn [show good] in *; rewrite ?app_assoc_s in H; rewrite ?andb_true_iff in G1; rewrite ?andb_true_iff in G2.
  - destruct (word_split w w2 r s G1 G2 (stops_off r R) (stops_off s S) H) as [-> ->]. now split.
  - exfalso. revert H. now apply word_first.
  - exfalso. destruct G2 as [[G2 _] _]. cut H. revert H. now apply stops_not_open.
  - exfalso. destruct G2 as [[G2 _] _]. cut H. revert H. now apply stops_not_paren.
  - exfalso. revert H. now apply word_first.
  - exfalso. symmetry in H. revert H. now apply word_first.
  - cbn [String.append] in H. injection H as H.
    destruct (every_split quotable q q2 (String """" r) (String """" s) G1 G2 eq_refl eq_refl H) as [-> E]. cbn in E. injection E as ->. now split.
  - exfalso. destruct G2 as [[G2 _] _]. symmetry in H. revert H. now apply word_first.
  - exfalso. destruct G2 as [[G2 _] _]. symmetry in H. revert H. now apply word_first.
  - discriminate H.
  - exfalso. destruct G1 as [[G1 _] _]. symmetry in H. cut H. revert H. now apply stops_not_open.
  - exfalso. destruct G1 as [[G1 _] _]. revert H. now apply word_first.
  - destruct G1 as [[W1 S1] F1], G2 as [[W2 S2] F2].
    assert (E : n = n2) by (apply word_split in H; [destruct H as [E _]; exact E|assumption || reflexivity..]). cut H. subst n2.
    cbn [String.append] in H. injection H as H.
    assert (X : l = l2 /\ (" }" ++ r = " }" ++ s)%string).
    { refine (commas_split (fun p => (fst p ++ ": " ++ show (snd p))%string) (fun p => word (fst p) = true /\ good (snd p) = true) l l2 (" }" ++ r)%string (" }" ++ s)%string _ _ _ _ I I H).
      - rewrite forallb_forall in F1. rewrite Forall_forall in *. intros [f t] Hx [f2 t2] r' s' [Wf Gt] R' S' E. cbn [fst snd] in *.
        specialize (F1 _ Hx). cbn [fst snd] in F1. rewrite andb_true_iff in F1. destruct F1 as [Wf1 Gt1]. rewrite !app_assoc_s in E.
        assert (Ef : f = f2) by (apply word_split in E; [destruct E as [Ef _]; exact Ef|assumption || reflexivity..]). cut E. subst f2. cbn [String.append] in E. injection E as E.
        destruct (IH _ Hx Gt1 t2 r' s' Gt R' S' E) as [Et ->]. cbn [snd] in Et. subst t2. now split.
      - rewrite forallb_forall in F2. apply Forall_forall. intros x Hx. specialize (F2 x Hx). now rewrite andb_true_iff in F2.
      - intros ->. discriminate S1.
      - intros ->. discriminate S2. }
    destruct X as [-> X]. cbn in X. injection X as ->. now split.
  - exfalso. destruct G1 as [[G1 _] _], G2 as [[G2 _] _]. cut H. discriminate H.
  - exfalso. destruct G1 as [[G1 _] _]. revert H. now apply word_first.
  - exfalso. destruct G1 as [[G1 _] _]. symmetry in H. cut H. revert H. now apply stops_not_paren.
  - exfalso. destruct G1 as [[G1 _] _]. revert H. now apply word_first.
  - exfalso. destruct G1 as [[G1 _] _], G2 as [[G2 _] _]. cut H. discriminate H.
  - destruct G1 as [[W1 S1] F1], G2 as [[W2 S2] F2].
    assert (E : n = n2) by (apply word_split in H; [destruct H as [E _]; exact E|assumption || reflexivity..]). cut H. subst n2.
    cbn [String.append] in H. injection H as H.
    apply (Go l l2 F2 IH F1) in H; [|exact I|exact I|intros ->; discriminate S1|intros ->; discriminate S2].
    destruct H as [-> H]. injection H as ->. now split.
  - exfalso. destruct G1 as [[G1 _] _]. revert H. now apply word_first.
  - exfalso. symmetry in H. revert H. now apply word_first.
  - discriminate H.
  - exfalso. destruct G2 as [[G2 _] _]. symmetry in H. revert H. now apply word_first.
  - exfalso. destruct G2 as [[G2 _] _]. symmetry in H. revert H. now apply word_first.
  - cbn [String.append] in H. injection H as H.
    destruct l as [|x l], l2 as [|y l2].
    + cbn in H. injection H as ->. now split.
    + exfalso. cbn [map] in H. cbn [forallb] in G2. rewrite andb_true_iff in G2. destruct G2 as [G2 _].
      destruct l2 as [|z l2]; cbn [map concat] in H; rewrite ?app_assoc_s in H; now apply (show_starts y ("]" ++ r)%string _ G2 I) in H.
    + exfalso. cbn [map] in H. cbn [forallb] in G1. rewrite andb_true_iff in G1. destruct G1 as [G1 _]. symmetry in H.
      destruct l as [|z l]; cbn [map concat] in H; rewrite ?app_assoc_s in H; now apply (show_starts x ("]" ++ s)%string _ G1 I) in H.
    + apply (Go (x :: l) (y :: l2) G2 IH G1) in H; [|exact I|exact I|discriminate|discriminate].
      destruct H as [-> H]. injection H as ->. now split.
Qed.

(** ** The types *)

Local Open Scope nat_scope.

(** The trees of a type have good names, and different values different trees. *)
Definition told {A} (d : A -> tree) : Prop := (forall x, good (d x) = true) /\ (forall x y, d x = d y -> x = y).
Lemma told_good {A} (d : A -> tree) x : told d -> good (d x) = true.
Proof. intros [G _]. apply G. Qed.
Lemma told_inj {A} (d : A -> tree) x y : told d -> d x = d y -> x = y.
Proof. intros [_ I]. apply I. Qed.
Create HintDb told.
Lemma good_fields n l : word n = true -> some_of l = true -> Forall (fun p => word (fst p) = true /\ good (snd p) = true) l -> good (Fields n l) = true.
Proof.
  intros W S F. cbn [good]. rewrite W, S. cbn. apply forallb_forall. intros p Hp. rewrite Forall_forall in F. destruct (F p Hp) as [-> ->]. reflexivity.
Qed.
Lemma good_args n l : word n = true -> some_of l = true -> Forall (fun t => good t = true) l -> good (Args n l) = true.
Proof. intros W S F. cbn [good]. rewrite W, S. cbn. apply forallb_forall. now rewrite Forall_forall in F. Qed.
Definition child (k : nat) (t : tree) : tree :=
  match t with Fields _ l => nth k (map snd l) (Word "") | Args _ l => nth k l (Word "") | _ => Word "" end.

Ltac goods := match goal with
  | |- good (Fields _ _) = true => apply good_fields; [reflexivity|reflexivity|]
  | |- good (Args _ _) = true => apply good_args; [reflexivity|reflexivity|]
  | _ => reflexivity
  end;
  repeat (apply Forall_cons || apply Forall_nil || (apply conj; cbn [fst snd]));
  match goal with |- word _ = true => reflexivity | |- good _ = true => apply told_good; solve [auto with told] end.
Ltac kid H k := let E := fresh "E" in pose proof (f_equal (child k) H) as E; cbn [child nth map snd] in E.
Ltac same := repeat match goal with
  | E : ?d ?a = ?d ?b |- _ => apply (told_inj d) in E; [|solve [auto with told]]
  | E : debug_option ?d ?a = debug_option ?d ?b |- _ => apply (told_inj (debug_option d)) in E; [|solve [auto with told]]
  | E : debug_slice ?d ?a = debug_slice ?d ?b |- _ => apply (told_inj (debug_slice d)) in E; [|solve [auto with told]]
  end; subst; try reflexivity.

Lemma told_num : told debug_num.
Proof. split; [intros x; exact (decimal_word x)|]. intros x y H. injection H as H. now apply decimal_inj. Qed.
#[local] Hint Resolve told_num : told.
Lemma told_usize : told debug_usize.
Proof. split; [intros x; exact (decimal_word _)|]. intros x y H. apply (told_inj debug_num) in H; [|apply told_num]. now apply Nat2N.inj. Qed.
Lemma told_bool : told debug_bool.
Proof. split; [intros []; reflexivity|intros [] []; (reflexivity || discriminate)]. Qed.
#[local] Hint Resolve told_usize told_bool : told.
Lemma told_option {A} (d : A -> tree) : told d -> told (debug_option d).
Proof.
  intros T. split.
  - intros [a|]; [|reflexivity]. cbn [debug_option]. goods.
  - intros [a|] [b|] H; cbn [debug_option] in H; try discriminate H; [|reflexivity]. kid H 0. now apply (told_inj d) in E as ->.
Qed.
Lemma told_slice {A} (d : A -> tree) : told d -> told (debug_slice d).
Proof.
  intros T. split.
  - intros l. cbn [debug_slice good]. apply forallb_forall. intros t Ht. apply in_map_iff in Ht. destruct Ht as (a & <- & _). now apply told_good.
  - intros l l2 H. assert (M : map d l = map d l2) by (unfold debug_slice in H; congruence). clear H.
    revert l2 M. induction l as [|a l IH]; intros [|b l2] M; try discriminate M; [reflexivity|].
    cbn [map] in M. assert (E1 : d a = d b) by congruence. assert (E2 : map d l = map d l2) by congruence.
    apply (told_inj d) in E1; [|exact T]. subst b. now rewrite (IH l2 E2).
Qed.
#[local] Hint Resolve told_option told_slice : told.
Lemma told_frame_type : told debug_frame_type.
Proof. split; [intros []; reflexivity|intros [] []; (reflexivity || discriminate)]. Qed.
Lemma told_frame_version : told debug_frame_version.
Proof. split; [intros []; reflexivity|intros [] []; (reflexivity || discriminate)]. Qed.
Lemma told_address_mode : told debug_address_mode.
Proof. split; [intros []; reflexivity|intros [] []; (reflexivity || discriminate)]. Qed.
Lemma told_security_level : told debug_security_level.
Proof. split; [intros []; reflexivity|intros [] []; (reflexivity || discriminate)]. Qed.
Lemma told_key_id_mode : told debug_key_id_mode.
Proof. split; [intros []; reflexivity|intros [] []; (reflexivity || discriminate)]. Qed.
Lemma told_direction : told debug_direction.
Proof. split; [intros []; reflexivity|intros [] []; (reflexivity || discriminate)]. Qed.
Lemma told_command_id : told debug_command_id.
Proof. split; [intros []; reflexivity|intros [] []; (reflexivity || discriminate)]. Qed.
Lemma told_status : told debug_association_status.
Proof. split; [intros []; reflexivity|intros [] []; (reflexivity || discriminate)]. Qed.
Lemma told_reason : told debug_disassociation_reason.
Proof. split; [intros []; reflexivity|intros [] []; (reflexivity || discriminate)]. Qed.
#[local] Hint Resolve told_frame_type told_frame_version told_security_level told_key_id_mode told_direction told_status told_reason : told.
Lemma told_pan_id : told debug_pan_id.
Proof. split; [intros x; unfold debug_pan_id; goods|]. intros x y H. unfold debug_pan_id in H. kid H 0. now same. Qed.
Lemma told_short_address : told debug_short_address.
Proof. split; [intros x; unfold debug_short_address; goods|]. intros x y H. unfold debug_short_address in H. kid H 0. now same. Qed.
Lemma told_extended_address : told debug_extended_address.
Proof. split; [intros x; unfold debug_extended_address; goods|]. intros x y H. unfold debug_extended_address in H. kid H 0. now same. Qed.
#[local] Hint Resolve told_pan_id told_short_address told_extended_address : told.
Lemma told_address : told debug_address.
Proof.
  split; [intros []; cbn [debug_address]; goods|].
  intros [p a|p a] [q b|q b] H; cbn [debug_address] in H; try discriminate H; kid H 0; kid H 1; same.
Qed.
Lemma told_security_control : told debug_security_control.
Proof.
  split; [intros []; unfold debug_security_control; goods|]. intros [a b] [a' b'] H. unfold debug_security_control in H.
  cbn [security_level key_id_mode] in H. kid H 0; kid H 1; same.
Qed.
Lemma told_key_source : told debug_key_source.
Proof.
  split; [intros []; cbn [debug_key_source]; goods|].
  intros [a|a] [b|b] H; cbn [debug_key_source] in H; try discriminate H; kid H 0; same.
Qed.
#[local] Hint Resolve told_address told_security_control told_key_source : told.
Lemma told_key_identifier : told debug_key_identifier.
Proof.
  split; [intros []; unfold debug_key_identifier; goods|]. intros [a b] [a' b'] H. unfold debug_key_identifier in H.
  cbn [key_source key_index] in H. kid H 0; kid H 1; same.
Qed.
#[local] Hint Resolve told_key_identifier : told.
Lemma told_aux_header : told debug_aux_header.
Proof.
  split; [intros []; unfold debug_aux_header; goods|]. intros [a b d] [a' b' d'] H. unfold debug_aux_header in H.
  cbn [control frame_counter key_identifier] in H. kid H 0; kid H 1; kid H 2; same.
Qed.
#[local] Hint Resolve told_aux_header : told.
Lemma told_header : told debug_header.
Proof.
  split; [intros []; unfold debug_header; goods|].
  intros [a b d e f g h i j k l] [a' b' d' e' f' g' h' i' j' k' l'] H. unfold debug_header in H.
  cbn [frame_type frame_pending ack_request pan_id_compress seq_no_suppress ie_present version seq destination source
       auxiliary_security_header] in H.
  kid H 0; kid H 1; kid H 2; kid H 3; kid H 4; kid H 5; kid H 6; kid H 7; kid H 8; kid H 9; kid H 10; same.
Qed.
Lemma told_beacon_order : told debug_beacon_order.
Proof.
  split; [intros []; cbn [debug_beacon_order]; goods|].
  intros [a|] [b|] H; cbn [debug_beacon_order] in H; try discriminate H; [kid H 0; same|reflexivity].
Qed.
Lemma told_superframe_order : told debug_superframe_order.
Proof.
  split; [intros []; cbn [debug_superframe_order]; goods|].
  intros [a|] [b|] H; cbn [debug_superframe_order] in H; try discriminate H; [kid H 0; same|reflexivity].
Qed.
#[local] Hint Resolve told_header told_beacon_order told_superframe_order : told.
Lemma told_superframe : told debug_superframe.
Proof.
  split; [intros []; unfold debug_superframe; goods|]. intros [a b d e f g] [a' b' d' e' f' g'] H. unfold debug_superframe in H.
  cbn [beacon_order superframe_order final_cap_slot battery_life_extension pan_coordinator association_permit] in H.
  kid H 0; kid H 1; kid H 2; kid H 3; kid H 4; kid H 5; same.
Qed.
Lemma told_gts_descriptor : told debug_gts_descriptor.
Proof.
  split; [intros []; unfold debug_gts_descriptor; goods|]. intros [a b d e] [a' b' d' e'] H. unfold debug_gts_descriptor in H.
  cbn [gts_short_address gts_starting_slot gts_length gts_direction] in H. kid H 0; kid H 1; kid H 2; kid H 3; same.
Qed.
#[local] Hint Resolve told_superframe told_gts_descriptor : told.
Lemma told_gts_information : told debug_gts_information.
Proof.
  split; [intros []; unfold debug_gts_information; goods|]. intros [a b d] [a' b' d'] H. unfold debug_gts_information in H.
  cbn [gts_permit gts_slot_count gts_slots] in H. kid H 0; kid H 1; kid H 2; same.
Qed.
Lemma told_pending : told debug_pending.
Proof.
  split; [intros []; unfold debug_pending; goods|]. intros [a b d e] [a' b' d' e'] H. unfold debug_pending in H.
  cbn [short_address_count short_addresses extended_address_count extended_addresses] in H. kid H 0; kid H 1; kid H 2; kid H 3; same.
Qed.
#[local] Hint Resolve told_gts_information told_pending : told.
Lemma told_beacon : told debug_beacon.
Proof.
  split; [intros []; unfold debug_beacon; goods|]. intros [a b d] [a' b' d'] H. unfold debug_beacon in H.
  cbn [superframe_spec guaranteed_time_slot_info pending_address] in H. kid H 0; kid H 1; kid H 2; same.
Qed.
Lemma told_capability : told debug_capability.
Proof.
  split; [intros []; unfold debug_capability; goods|]. intros [a b d e f] [a' b' d' e' f'] H. unfold debug_capability in H.
  cbn [full_function_device mains_power idle_receive frame_protection allocate_address] in H.
  kid H 0; kid H 1; kid H 2; kid H 3; kid H 4; same.
Qed.
Lemma told_realignment : told debug_realignment.
Proof.
  split; [intros []; unfold debug_realignment; goods|]. intros [a b d e f] [a' b' d' e' f'] H. unfold debug_realignment in H.
  cbn [cr_pan_id cr_coordinator_address cr_channel cr_device_address cr_channel_page] in H.
  kid H 0; kid H 1; kid H 2; kid H 3; kid H 4; same.
Qed.
Lemma told_characteristics : told debug_characteristics.
Proof.
  split; [intros []; unfold debug_characteristics; goods|]. intros [a b d] [a' b' d'] H. unfold debug_characteristics in H.
  cbn [gtsc_count gtsc_receive_only gtsc_allocation] in H. kid H 0; kid H 1; kid H 2; same.
Qed.
#[local] Hint Resolve told_beacon told_capability told_realignment told_characteristics : told.
Lemma told_command : told debug_command.
Proof.
  split; [intros []; cbn [debug_command]; goods|].
  intros [] [] H; cbn [debug_command] in H; try reflexivity; try discriminate H; kid H 0; try kid H 1; same.
Qed.
#[local] Hint Resolve told_command : told.
Lemma told_content : told debug_content.
Proof.
  split; [intros []; cbn [debug_content]; goods|].
  intros [] [] H; cbn [debug_content] in H; try reflexivity; try discriminate H; kid H 0; same.
Qed.
#[local] Hint Resolve told_content : told.
Lemma told_frame : told debug_frame.
Proof.
  split; [intros [a b d [e f]]; unfold debug_frame; goods|]. intros [a b d [e f]] [a' b' d' [e' f']] H. unfold debug_frame in H.
  cbn [header content payload footer fst snd] in H. kid H 0; kid H 1; kid H 2; kid H 3.
  same.
  match goal with E : [_; _] = [_; _] |- _ => now injection E as -> -> end.
Qed.

(** ** What is printed is graphic *)

Lemma commas_graphic l : Forall (fun s => every graphic s = true) l -> every graphic (concat ", " l) = true.
Proof.
  induction l as [|x l IH]; intros H; [reflexivity|]. inversion H as [|? ? Hx Hl]; subst. destruct l as [|y l]; [exact Hx|].
  change (concat ", " (x :: y :: l)) with (x ++ ", " ++ concat ", " (y :: l))%string. rewrite !every_app, Hx, IH by exact Hl. reflexivity.
Qed.
Lemma word_graphic w : word w = true -> every graphic w = true.
Proof. intros W. apply (every_imp plain); [exact plain_graphic|now apply word_plain]. Qed.
Lemma show_graphic : forall t, good t = true -> every graphic (show t) = true.
Proof.
  intros t. induction t as [w|q|n l IH|n l IH|l IH] using tree_ind2; intros G; cbn [show good] in *; rewrite ?andb_true_iff in G.
  - now apply word_graphic.
  - rewrite !every_app. rewrite (every_imp quotable graphic q quotable_graphic G). reflexivity.
  - destruct G as [[W S] F]. rewrite !every_app, (word_graphic n W), commas_graphic; [reflexivity|].
    rewrite forallb_forall in F. rewrite Forall_forall in *. intros s Hs. apply in_map_iff in Hs. destruct Hs as (p & <- & Hp).
    specialize (F p Hp). rewrite andb_true_iff in F. destruct F as [Fw Fg]. rewrite !every_app, (word_graphic _ Fw), (IH p Hp Fg). reflexivity.
  - destruct G as [[W S] F]. rewrite !every_app, (word_graphic n W), commas_graphic; [reflexivity|].
    rewrite forallb_forall in F. rewrite Forall_forall in *. intros s Hs. apply in_map_iff in Hs. destruct Hs as (p & <- & Hp).
    apply (IH p Hp), F, Hp.
  - rewrite !every_app, commas_graphic; [reflexivity|].
    rewrite forallb_forall in G. rewrite Forall_forall in *. intros s Hs. apply in_map_iff in Hs. destruct Hs as (p & <- & Hp).
    apply (IH p Hp), G, Hp.
Qed.
Lemma app_nil_s a : (a ++ "")%string = a.
Proof. induction a as [|x a IH]; cbn; [reflexivity|now rewrite IH]. Qed.
Lemma show_inj t u : good t = true -> good u = true -> show t = show u -> t = u.
Proof.
  intros T U H. destruct (show_split t T u "" "" U) as [E _]; [now left|now left|now rewrite !app_nil_s|exact E].
Qed.
Lemma told_text {A} (d : A -> tree) : told d -> forall x y, show (d x) = show (d y) <-> x = y.
Proof. intros [G I] x y. split; [|now intros ->]. intros H. apply I, show_inj; auto. Qed.
Lemma told_line {A} (d : A -> tree) : told d -> forall x, one_graphic_line (show (d x)).
Proof. intros [G _] x. now apply every_graphic, show_graphic. Qed.

(** ** Errors *)

Lemma told_decode_error : told debug_decode_error.
Proof.
  split; [intros []; cbn [debug_decode_error]; goods|].
  intros [] [] H; cbn [debug_decode_error] in H; try reflexivity; try discriminate H; kid H 0; same.
Qed.
Lemma told_encode_error : told debug_encode_error.
Proof. split; [intros []; reflexivity|intros [] []; (reflexivity || discriminate)]. Qed.
Lemma byte_error_good e : byte_error_plain e -> good (debug_byte_error e) = true.
Proof.
  destruct e as [|n|s]; intros P; cbn [debug_byte_error].
  - reflexivity.
  - goods.
  - apply good_fields; [reflexivity..|]. constructor; [|constructor]. split; [reflexivity|]. cbn [snd good]. now apply escape_quotable.
Qed.
Lemma byte_error_inj e f : debug_byte_error e = debug_byte_error f -> e = f.
Proof.
  destruct e as [|n|s], f as [|m|s2]; cbn [debug_byte_error]; intros H; try reflexivity; try discriminate H.
  - kid H 0. now apply (told_inj debug_usize) in E as ->; [|auto with told].
  - kid H 0. congruence.
Qed.
Lemma security_error_good e : security_error_plain e -> good (debug_security_error e) = true.
Proof.
  destruct e; intros P; cbn [debug_security_error]; try reflexivity.
  apply good_args; [reflexivity..|]. constructor; [|constructor]. now apply byte_error_good.
Qed.
Lemma security_error_inj e f : debug_security_error e = debug_security_error f -> e = f.
Proof.
  destruct e, f; cbn [debug_security_error]; intros H; try reflexivity; try discriminate H.
  kid H 0. f_equal. now apply byte_error_inj.
Qed.

(** * Theorems *)

(** Two values print the same exactly if they are equal, as [==] says. *)
Theorem C104_same_text_same_value :
  (forall x y, text debug_frame x = text debug_frame y <-> frame_eqb x y = true) /\
  (forall x y, text debug_header x = text debug_header y <-> header_eqb x y = true) /\
  (forall x y, text debug_address x = text debug_address y <-> address_eqb x y = true) /\
  (forall x y, text debug_aux_header x = text debug_aux_header y <-> aux_header_eqb x y = true) /\
  (forall x y, text debug_content x = text debug_content y <-> content_eqb x y = true) /\
  (forall x y, text debug_beacon x = text debug_beacon y <-> beacon_eqb x y = true) /\
  (forall x y, text debug_command x = text debug_command y <-> command_eqb x y = true).
Proof.
  destruct C75_eq_decides_equality as (E1 & E2 & E3 & E4 & E5 & E6 & E7).
  repeat split; intros H;
    first [ apply E1 || apply E2 || apply E3 || apply E4 || apply E5 || apply E6 || apply E7;
            first [ revert H; apply told_text; first [exact told_frame|exact told_header|exact told_address|exact told_aux_header
                    |exact told_content|exact told_beacon|exact told_command] ]
          | apply E1 in H || apply E2 in H || apply E3 in H || apply E4 in H || apply E5 in H || apply E6 in H || apply E7 in H; now subst ].
Qed.
(** So do options and slices of frames, and errors; and what is printed is never both a frame and an error. *)
Theorem C104_options_lists_errors :
  (forall x y, text (debug_option debug_frame) x = text (debug_option debug_frame) y <-> x = y) /\
  (forall l l2, text (debug_slice debug_frame) l = text (debug_slice debug_frame) l2 <-> l = l2) /\
  (forall e f, text debug_decode_error e = text debug_decode_error f <-> e = f) /\
  (forall e f, text debug_encode_error e = text debug_encode_error f <-> e = f) /\
  (forall e f, byte_error_plain e -> byte_error_plain f -> (text debug_byte_error e = text debug_byte_error f <-> e = f)) /\
  (forall e f, security_error_plain e -> security_error_plain f -> (text debug_security_error e = text debug_security_error f <-> e = f)) /\
  (forall x e, byte_error_plain e -> text debug_frame x <> text debug_byte_error e) /\
  (forall x e, security_error_plain e -> text debug_frame x <> text debug_security_error e).
Proof.
  split; [apply told_text; apply told_option, told_frame|]. split; [apply told_text; apply told_slice, told_frame|].
  split; [apply told_text, told_decode_error|]. split; [apply told_text, told_encode_error|].
  split; [|split; [|split]].
  - intros e f He Hf. split; [|now intros ->]. intros H. apply byte_error_inj, show_inj; [now apply byte_error_good..|exact H].
  - intros e f He Hf. split; [|now intros ->]. intros H. apply security_error_inj, show_inj; [now apply security_error_good..|exact H].
  - intros x e He H. apply show_inj in H; [|apply (told_good debug_frame), told_frame|now apply byte_error_good].
    destruct e; discriminate H.
  - intros x e He H. apply show_inj in H; [|apply (told_good debug_frame), told_frame|now apply security_error_good].
    destruct e; discriminate H.
Qed.

(** The same for the remaining types of the crate. *)
Definition looks_told {A} (d : A -> tree) : Prop :=
  (forall x y, text d x = text d y <-> x = y) /\ (forall x, one_graphic_line (text d x)).
Theorem C104_every_other_type :
  looks_told debug_frame_type /\ looks_told debug_frame_version /\ looks_told debug_address_mode /\ looks_told debug_pan_id /\
  looks_told debug_short_address /\ looks_told debug_extended_address /\ looks_told debug_security_level /\ looks_told debug_key_id_mode /\
  looks_told debug_security_control /\ looks_told debug_key_source /\ looks_told debug_key_identifier /\ looks_told debug_beacon_order /\
  looks_told debug_superframe_order /\ looks_told debug_superframe /\ looks_told debug_gts_descriptor /\ looks_told debug_gts_information /\
  looks_told debug_pending /\ looks_told debug_capability /\ looks_told debug_realignment /\ looks_told debug_characteristics /\
  looks_told debug_command_id /\ looks_told debug_association_status /\ looks_told debug_disassociation_reason.
Proof.
  assert (L : forall A (d : A -> tree), told d -> looks_told d) by (intros A d T; split; [now apply told_text|now apply told_line]).
  repeat match goal with |- looks_told _ /\ _ => split end;
    apply L; first [exact told_frame_type|exact told_frame_version|exact told_address_mode|exact told_pan_id|exact told_short_address
    |exact told_extended_address|exact told_security_level|exact told_key_id_mode|exact told_security_control|exact told_key_source
    |exact told_key_identifier|exact told_beacon_order|exact told_superframe_order|exact told_superframe|exact told_gts_descriptor
    |exact told_gts_information|exact told_pending|exact told_capability|exact told_realignment|exact told_characteristics
    |exact told_command_id|exact told_status|exact told_reason].
Qed.

(** Everything is printed as one line of graphic characters. *)
Theorem C104_one_line :
  (forall f, one_graphic_line (text debug_frame f)) /\ (forall h, one_graphic_line (text debug_header h)) /\
  (forall a, one_graphic_line (text debug_address a)) /\ (forall a, one_graphic_line (text debug_aux_header a)) /\
  (forall x, one_graphic_line (text debug_content x)) /\ (forall b, one_graphic_line (text debug_beacon b)) /\
  (forall x, one_graphic_line (text debug_command x)) /\
  (forall e, one_graphic_line (text debug_decode_error e)) /\ (forall e, one_graphic_line (text debug_encode_error e)) /\
  (forall e, byte_error_plain e -> one_graphic_line (text debug_byte_error e)) /\
  (forall e, security_error_plain e -> one_graphic_line (text debug_security_error e)).
Proof.
  repeat split; intros x; try (apply told_line; first [exact told_frame|exact told_header|exact told_address|exact told_aux_header
    |exact told_content|exact told_beacon|exact told_command|exact told_decode_error|exact told_encode_error]);
    intros P; now apply every_graphic, show_graphic, byte_error_good || apply every_graphic, show_graphic, security_error_good.
Qed.

Lemma escape_check s : forallb (fun a => graphic a && negb (a =? """")%char && negb (a =? "\")%char) (list_ascii_of_string s) = true -> nothing_to_escape s.
Proof.
  intros H. apply Forall_forall. intros a Ha. rewrite forallb_forall in H. specialize (H a Ha). rewrite !andb_true_iff, !negb_true_iff in H.
  destruct H as [[G Q] B]. split; [exact G|]. split; intros ->; cbn in *; congruence.
Qed.
Lemma all_plain : forall e, In e (Incomplete :: read_errors ++ decode_errors ++
  [BadInput "DisallowedPanIdCompress"; BadInput "MissingSecurityCtx"; BadInput "NotImplemented"; BadInput "FrameTooLong";
   BadInput "CounterError"; BadInput "UnavailableKey"]) -> byte_error_plain e.
Proof.
  intros e H. cbn in H. repeat (destruct H as [<-|H]; [first [exact I | cbn; apply escape_check; vm_compute; reflexivity]|]). destruct H.
Qed.
(** Whatever is received and whatever a write is refused for, what can be printed of the result is one line, and different results are
    printed differently. *)
Definition outcome_text {E A} (de : E -> tree) (r : outcome E (Frame * A)) : option string :=
  match r with Ok (f, _) => Some (text debug_frame f) | Err e => Some (text de e) | Panic => None end.
Definition outcome_seen {E A} (r : outcome E (Frame * A)) : option (Frame + E) :=
  match r with Ok (f, _) => Some (inl f) | Err e => Some (inr e) | Panic => None end.
Lemma outcomes_told {E A} (de : E -> tree) (ok : E -> Prop) (r1 r2 : outcome E (Frame * A)) :
  (forall e, ok e -> one_graphic_line (text de e)) -> (forall e f, ok e -> ok f -> (text de e = text de f <-> e = f)) ->
  (forall x e, ok e -> text debug_frame x <> text de e) -> (forall e, r1 = Err e -> ok e) -> (forall e, r2 = Err e -> ok e) ->
  (forall s, outcome_text de r1 = Some s -> one_graphic_line s) /\ (outcome_text de r1 = outcome_text de r2 <-> outcome_seen r1 = outcome_seen r2).
Proof.
  intros L I X O1 O2. split.
  - destruct r1 as [[f n]|e|]; cbn; intros s [= <-]; [apply C104_one_line|now apply L, O1].
  - destruct r1 as [[f n]|e|], r2 as [[g m]|e2|]; cbn [outcome_text outcome_seen]; split; intros H; try discriminate H; try reflexivity.
    + assert (H' : text debug_frame f = text debug_frame g) by congruence. apply (told_text debug_frame told_frame) in H'. now subst.
    + assert (f = g) by congruence. now subst.
    + assert (H' : text debug_frame f = text de e2) by congruence. now apply X in H'; [|apply O2].
    + assert (H' : text debug_frame g = text de e) by congruence. now apply X in H'; [|apply O1].
    + assert (H' : text de e = text de e2) by congruence. apply I in H'; [now subst|now apply O1|now apply O2].
    + assert (e = e2) by congruence. now subst.
Qed.
Theorem C104_reading : forall c m1 m2 bs1 bs2, cfg_ok c -> octets bs1 -> octets bs2 ->
  let r1 := try_read_frame c m1 bs1 in let r2 := try_read_frame c m2 bs2 in
  (forall s, outcome_text debug_byte_error r1 = Some s -> one_graphic_line s) /\
  (outcome_text debug_byte_error r1 = outcome_text debug_byte_error r2 <-> outcome_seen r1 = outcome_seen r2).
Proof.
  intros c m1 m2 bs1 bs2 Hc H1 H2. cbv zeta.
  destruct C104_options_lists_errors as (_ & _ & _ & _ & I & _ & X & _). destruct C104_one_line as (_ & _ & _ & _ & _ & _ & _ & _ & _ & L & _).
  apply (outcomes_told debug_byte_error byte_error_plain); [exact L|exact I|exact X| |];
    intros e R; apply all_plain; right; apply in_or_app; left; [apply (C47_plain_read_errors c m1 bs1)|apply (C47_plain_read_errors c m2 bs2)]; assumption.
Qed.
Theorem C104_receiving : forall {K D} c (E : block_cipher K) bs1 bs2 ctx1 ctx2 (dl : DeviceLookup D) ds1 ds2, cipher_ok E -> octets bs1 -> octets bs2 ->
  let r1 := fst (try_read_and_unsecure c E bs1 ctx1 dl ds1) in let r2 := fst (try_read_and_unsecure c E bs2 ctx2 dl ds2) in
  (forall s, outcome_text debug_security_error r1 = Some s -> one_graphic_line s) /\
  (outcome_text debug_security_error r1 = outcome_text debug_security_error r2 <-> outcome_seen r1 = outcome_seen r2).
Proof.
  intros K D c E bs1 bs2 ctx1 ctx2 dl ds1 ds2 HE H1 H2. cbv zeta.
  destruct C104_options_lists_errors as (_ & _ & _ & _ & _ & I & _ & X). destruct C104_one_line as (_ & _ & _ & _ & _ & _ & _ & _ & _ & _ & L).
  assert (P : forall bs ctx ds e, octets bs -> fst (try_read_and_unsecure c E bs ctx dl ds) = Err e -> security_error_plain e).
  { intros bs ctx ds e Hb R. destruct (C47_receive_errors c E HE bs ctx dl ds e Hb R) as [(e' & -> & He)|He].
    - apply all_plain. right. apply in_or_app. right. apply in_or_app. now left.
    - cbn in He. repeat (destruct He as [<-|He]; [exact Logic.I|]). destruct He. }
  apply (outcomes_told debug_security_error security_error_plain); [exact L|exact I|exact X| |]; intros e R; [exact (P _ _ _ e H1 R)|exact (P _ _ _ e H2 R)].
Qed.
Theorem C104_writing : forall {K} c (E : block_cipher K) f m sc buf e, cipher_ok E -> frame_ok f -> u32_ok (sc_frame_counter sc) ->
  (fst (write_plain c E f m buf) = Err e \/ fst (try_write_frame c E f (ser_ctx m sc) buf) = Err e) ->
  one_graphic_line (text debug_byte_error e).
Proof.
  intros K c E f m sc buf e HE Hf Hsc H. apply C104_one_line, all_plain.
  destruct H as [H|H]; [apply C47_plain_write_errors in H|apply C47_secured_write_errors in H]; try assumption; cbn in *; tauto.
Qed.

(** ** Over several lines *)

Lemma cancel a x y : (a ++ x = a ++ y)%string -> x = y.
Proof. induction a as [|b a IH]; cbn; intros H; [exact H|]. injection H as H. auto. Qed.
Definition stops_line (r : string) : Prop := r = "" \/ exists r', r = ("," ++ r')%string.
Lemma stops_line_stops r : stops_line r -> stops r.
Proof. intros [->|H]; [now left|right; now right]. Qed.
Lemma stops_line_open r s : stops_line r -> r <> (" {" ++ s)%string.
Proof. intros [->|(r' & ->)] H; discriminate H. Qed.
Lemma stops_line_paren r s : stops_line r -> r <> ("(" ++ s)%string.
Proof. intros [->|(r' & ->)] H; discriminate H. Qed.

Definition line {A} (ind : string) (f : A -> string) (x : A) : string := (ind ++ "    " ++ f x ++ "," ++ newline)%string.
Lemma concat_cons x l : concat "" (x :: l) = (x ++ concat "" l)%string.
Proof. destruct l as [|y l]; cbn; [now rewrite app_nil_s|reflexivity]. Qed.
Lemma line_app {A} ind (f : A -> string) x r : (line ind f x ++ r = ind ++ "    " ++ f x ++ "," ++ newline ++ r)%string.
Proof. unfold line. now rewrite ?app_assoc_s. Qed.
Lemma lines_split {A} (f : A -> string) (ok : A -> Prop) ind (close : ascii) : close <> " "%char -> forall l1 l2 r s,
  Forall (fun x => forall y r s, ok y -> stops_line r -> stops_line s -> (f x ++ r = f y ++ s)%string -> x = y /\ r = s) l1 ->
  Forall ok l2 ->
  (concat "" (map (line ind f) l1) ++ ind ++ String close r = concat "" (map (line ind f) l2) ++ ind ++ String close s)%string ->
  l1 = l2 /\ r = s.
Proof.
  intros Hc. induction l1 as [|x l1 IH]; intros [|y l2] r s H1 H2 H; cbn [map] in H; rewrite ?concat_cons in H; rewrite ?app_assoc_s in H;
    rewrite ?line_app in H.
  - cbn [concat String.append] in H. apply cancel in H. injection H as ->. now split.
  - cbn [concat String.append] in H. apply cancel in H. cbn in H. injection H as H _. now destruct Hc.
  - cbn [concat String.append] in H. apply cancel in H. cbn in H. injection H as H _. symmetry in H. now destruct Hc.
  - inversion H1 as [|? ? Hx H1']; subst. inversion H2 as [|? ? Hy H2']; subst.
    apply cancel in H. apply (cancel "    ") in H.
    destruct (Hx y _ _ Hy (or_intror (ex_intro _ _ eq_refl)) (or_intror (ex_intro _ _ eq_refl)) H) as [-> Z].
    apply (cancel ",") in Z. apply (cancel newline) in Z. destruct (IH l2 r s H1' H2' Z) as [-> ->]. now split.
Qed.

Lemma pretty_fields ind n l : show_pretty ind (Fields n l)
  = (n ++ " {" ++ newline ++ concat "" (map (line ind (fun p => (fst p ++ ": " ++ show_pretty (ind ++ "    ") (snd p))%string)) l) ++ ind ++ "}")%string.
Proof.
  cbn [show_pretty]. f_equal. f_equal. f_equal. f_equal. f_equal. apply map_ext. intros p. unfold line. now rewrite ?app_assoc_s.
Qed.
Lemma pretty_args ind n l : show_pretty ind (Args n l)
  = (n ++ "(" ++ newline ++ concat "" (map (line ind (show_pretty (ind ++ "    "))) l) ++ ind ++ ")")%string.
Proof. reflexivity. Qed.
Lemma pretty_items ind x l : show_pretty ind (Items (x :: l))
  = ("[" ++ newline ++ concat "" (map (line ind (show_pretty (ind ++ "    "))) (x :: l)) ++ ind ++ "]")%string.
Proof. reflexivity. Qed.
Ltac name_then H := let X := fresh in assert (X := H); apply word_split in X;
  [destruct X as [_ X]; clear H; rename X into H|..];
  try (assumption || reflexivity || (apply stops_off, stops_line_stops; assumption)).
Ltac bad H := first [discriminate H | exfalso; revert H; apply word_first; [assumption|reflexivity]
  | exfalso; symmetry in H; revert H; apply word_first; [assumption|reflexivity]].
Theorem pretty_split : forall t1, good t1 = true -> forall ind t2 r s, good t2 = true -> stops_line r -> stops_line s ->
  (show_pretty ind t1 ++ r = show_pretty ind t2 ++ s)%string -> t1 = t2 /\ r = s.
Proof.
  assert (Go : forall ind f g (close : ascii), close <> " "%char -> forallb good g = true ->
    Forall (fun t1 => good t1 = true -> forall ind t2 r s, good t2 = true -> stops_line r -> stops_line s ->
      (show_pretty ind t1 ++ r = show_pretty ind t2 ++ s)%string -> t1 = t2 /\ r = s) f -> forallb good f = true ->
    forall r s, (concat "" (map (line ind (show_pretty (ind ++ "    "))) f) ++ ind ++ String close r
                 = concat "" (map (line ind (show_pretty (ind ++ "    "))) g) ++ ind ++ String close s)%string -> f = g /\ r = s).
  { intros ind f g close Hc Gg IH Gf r s H. rewrite forallb_forall in Gf, Gg.
    refine (lines_split (show_pretty (ind ++ "    ")) (fun t => good t = true) ind close Hc f g r s _ _ H).
    - rewrite Forall_forall in *. intros x Hx. intros y r' s'. apply (IH x Hx), Gf, Hx.
    - apply Forall_forall. exact Gg. }
  intros t1. induction t1 as [w|q|n l IH|n l IH|l IH] using tree_ind2; intros G1 ind [w2|q2|n2 l2|n2 l2|l2] r s G2 R S H;
    rewrite ?pretty_fields, ?pretty_args in H; cbn [good] in *; rewrite ?app_assoc_s in H;
    rewrite ?andb_true_iff in G1; rewrite ?andb_true_iff in G2.
  - cbn [show_pretty] in H.
    destruct (word_split w w2 r s G1 G2 (stops_off r (stops_line_stops r R)) (stops_off s (stops_line_stops s S)) H) as [-> ->]. now split.
  - exfalso. cbn [show_pretty] in H. bad H.
  - exfalso. destruct G2 as [[G2 _] _]. cbn [show_pretty] in H. name_then H. exact (stops_line_open _ _ R H).
  - exfalso. destruct G2 as [[G2 _] _]. cbn [show_pretty] in H. name_then H. exact (stops_line_paren _ _ R H).
  - exfalso. destruct l2 as [|y l2]; [cbn [show_pretty] in H|rewrite pretty_items, ?app_assoc_s in H; cbn [show_pretty] in H]; bad H.
  - exfalso. cbn [show_pretty] in H. bad H.
  - cbn [show_pretty] in H. rewrite ?app_assoc_s in H. cbn [String.append] in H. injection H as H.
    destruct (every_split quotable q q2 (String """" r) (String """" s) G1 G2 eq_refl eq_refl H) as [-> E]. injection E as ->. now split.
  - exfalso. destruct G2 as [[G2 _] _]. cbn [show_pretty] in H. bad H.
  - exfalso. destruct G2 as [[G2 _] _]. cbn [show_pretty] in H. bad H.
  - exfalso. destruct l2 as [|y l2]; [|rewrite pretty_items, ?app_assoc_s in H]; cbn [show_pretty] in H; discriminate H.
  - exfalso. destruct G1 as [[G1 _] _]. cbn [show_pretty] in H. symmetry in H. name_then H. exact (stops_line_open _ _ S H).
  - exfalso. destruct G1 as [[G1 _] _]. cbn [show_pretty] in H. bad H.
  - destruct G1 as [[W1 S1] F1], G2 as [[W2 S2] F2].
    assert (E : n = n2) by (apply word_split in H; [destruct H as [E _]; exact E|assumption || reflexivity..]). name_then H. subst n2.
    apply (cancel " {") in H. apply (cancel newline) in H.
    assert (X : l = l2 /\ r = s).
    { refine (lines_split (fun p => (fst p ++ ": " ++ show_pretty (ind ++ "    ") (snd p))%string)
        (fun p => word (fst p) = true /\ good (snd p) = true) ind "}"%char ltac:(discriminate) l l2 r s _ _ H).
      - rewrite forallb_forall in F1. rewrite Forall_forall in *. intros [f t] Hx [f2 t2] r' s' [Wf Gt] R' S' E. cbn [fst snd] in *.
        specialize (F1 _ Hx). cbn [fst snd] in F1. rewrite andb_true_iff in F1. destruct F1 as [Wf1 Gt1]. rewrite !app_assoc_s in E.
        assert (Ef : f = f2) by (apply word_split in E; [destruct E as [Ef _]; exact Ef|assumption || reflexivity..]). name_then E. subst f2.
        apply (cancel ": ") in E.
        destruct (IH _ Hx Gt1 _ t2 r' s' Gt R' S' E) as [Et ->]. cbn [snd] in Et. subst t2. now split.
      - rewrite forallb_forall in F2. apply Forall_forall. intros x Hx. specialize (F2 x Hx). now rewrite andb_true_iff in F2. }
    destruct X as [-> ->]. now split.
  - exfalso. destruct G1 as [[G1 _] _], G2 as [[G2 _] _]. name_then H. discriminate H.
  - exfalso. destruct G1 as [[G1 _] _]. destruct l2 as [|y l2]; [|rewrite pretty_items, ?app_assoc_s in H]; cbn [show_pretty] in H; bad H.
  - exfalso. destruct G1 as [[G1 _] _]. cbn [show_pretty] in H. symmetry in H. name_then H. exact (stops_line_paren _ _ S H).
  - exfalso. destruct G1 as [[G1 _] _]. cbn [show_pretty] in H. bad H.
  - exfalso. destruct G1 as [[G1 _] _], G2 as [[G2 _] _]. name_then H. discriminate H.
  - destruct G1 as [[W1 S1] F1], G2 as [[W2 S2] F2].
    assert (E : n = n2) by (apply word_split in H; [destruct H as [E _]; exact E|assumption || reflexivity..]). name_then H. subst n2.
    apply (cancel "(") in H. apply (cancel newline) in H.
    apply (Go ind l l2 ")"%char ltac:(discriminate) F2 IH F1) in H. destruct H as [-> ->]. now split.
  - exfalso. destruct G1 as [[G1 _] _]. destruct l2 as [|y l2]; [|rewrite pretty_items, ?app_assoc_s in H]; cbn [show_pretty] in H; bad H.
  - exfalso. destruct l as [|x l]; [|rewrite pretty_items, ?app_assoc_s in H]; cbn [show_pretty] in H; bad H.
  - exfalso. destruct l as [|x l]; [|rewrite pretty_items, ?app_assoc_s in H]; cbn [show_pretty] in H; discriminate H.
  - exfalso. destruct G2 as [[G2 _] _]. destruct l as [|x l]; [|rewrite pretty_items, ?app_assoc_s in H]; cbn [show_pretty] in H; bad H.
  - exfalso. destruct G2 as [[G2 _] _]. destruct l as [|x l]; [|rewrite pretty_items, ?app_assoc_s in H]; cbn [show_pretty] in H; bad H.
  - destruct l as [|x l], l2 as [|y l2]; rewrite ?pretty_items in H; rewrite ?app_assoc_s in H.
    + cbn [show_pretty] in H. apply (cancel "[]") in H. subst. now split.
    + discriminate H.
    + discriminate H.
    + apply (cancel "[") in H. apply (cancel newline) in H.
      apply (Go ind (x :: l) (y :: l2) "]"%char ltac:(discriminate) G2 IH G1) in H. destruct H as [-> ->]. now split.
Qed.

Definition broken_lines (s : string) : Prop := Forall (fun a => graphic a = true \/ a = "010"%char) (list_ascii_of_string s).
Definition in_lines (a : ascii) : bool := graphic a || (a =? "010")%char.
Lemma every_lines s : every in_lines s = true -> broken_lines s.
Proof.
  unfold broken_lines. induction s as [|x s IH]; cbn; [constructor|]. rewrite andb_true_iff. intros [A B]. constructor; auto.
  unfold in_lines in A. rewrite orb_true_iff, Ascii.eqb_eq in A. exact A.
Qed.
Lemma graphic_lines s : every graphic s = true -> every in_lines s = true.
Proof. apply every_imp. intros a G. unfold in_lines. now rewrite G. Qed.
Lemma concat_lines l : Forall (fun s => every in_lines s = true) l -> every in_lines (concat "" l) = true.
Proof. induction l as [|x l IH]; intros H; [reflexivity|]. inversion H; subst. rewrite concat_cons, every_app, IH by assumption. now rewrite andb_true_r. Qed.
Lemma pretty_lines : forall t, good t = true -> forall ind, every in_lines ind = true -> every in_lines (show_pretty ind t) = true.
Proof.
  assert (Line : forall {A} ind (f : A -> string) x, every in_lines ind = true -> every in_lines (f x) = true -> every in_lines (line ind f x) = true).
  { intros A ind f x Hi Hf. unfold line. now rewrite !every_app, Hi, Hf. }
  assert (Deep : forall ind, every in_lines ind = true -> every in_lines (ind ++ "    ") = true) by (intros ind Hi; now rewrite every_app, Hi).
  intros t. induction t as [w|q|n l IH|n l IH|l IH] using tree_ind2; intros G ind Hi; rewrite ?pretty_fields, ?pretty_args;
    cbn [good] in *; rewrite ?andb_true_iff in G.
  - now apply graphic_lines, word_graphic.
  - apply graphic_lines. cbn [show_pretty]. rewrite !every_app. rewrite (every_imp quotable graphic q quotable_graphic G). reflexivity.
  - destruct G as [[W S] F]. rewrite !every_app, (graphic_lines n (word_graphic n W)), Hi, concat_lines; [reflexivity|].
    rewrite forallb_forall in F. rewrite Forall_forall in *. intros s Hs. apply in_map_iff in Hs. destruct Hs as (p & <- & Hp).
    specialize (F p Hp). rewrite andb_true_iff in F. destruct F as [Fw Fg]. apply Line; [exact Hi|].
    rewrite !every_app, (graphic_lines _ (word_graphic _ Fw)), (IH p Hp Fg) by now apply Deep. reflexivity.
  - destruct G as [[W S] F]. rewrite !every_app, (graphic_lines n (word_graphic n W)), Hi, concat_lines; [reflexivity|].
    rewrite forallb_forall in F. rewrite Forall_forall in *. intros s Hs. apply in_map_iff in Hs. destruct Hs as (p & <- & Hp).
    apply Line; [exact Hi|]. apply (IH p Hp); [apply F, Hp|now apply Deep].
  - destruct l as [|x l]; [reflexivity|]. rewrite pretty_items, !every_app, Hi, concat_lines; [reflexivity|].
    rewrite forallb_forall in G. rewrite Forall_forall in *. intros s Hs. apply in_map_iff in Hs. destruct Hs as (p & <- & Hp).
    apply Line; [exact Hi|]. apply (IH p Hp); [apply G, Hp|now apply Deep].
Qed.
Lemma pretty_inj ind t u : good t = true -> good u = true -> show_pretty ind t = show_pretty ind u -> t = u.
Proof.
  intros T U H. destruct (pretty_split t T ind u "" "" U) as [E _]; [now left|now left|now rewrite !app_nil_s|exact E].
Qed.

(** With [{:#?}], two values print the same exactly if they print the same with [{:?}], exactly if they are equal; nothing but graphic characters
    and line breaks is printed. *)
Definition pretty_told {A} (d : A -> tree) : Prop :=
  (forall x y, pretty d x = pretty d y <-> x = y) /\ (forall x, broken_lines (pretty d x)).
Theorem C104_over_several_lines :
  pretty_told debug_frame /\ pretty_told debug_header /\ pretty_told debug_address /\ pretty_told debug_aux_header /\
  pretty_told debug_content /\ pretty_told debug_beacon /\ pretty_told debug_command /\ pretty_told debug_decode_error /\
  pretty_told debug_encode_error /\ pretty_told (debug_option debug_frame) /\ pretty_told (debug_slice debug_frame) /\
  (forall e, security_error_plain e -> broken_lines (pretty debug_security_error e)) /\
  (forall e f, security_error_plain e -> security_error_plain f -> (pretty debug_security_error e = pretty debug_security_error f <-> e = f)) /\
  (forall x e, security_error_plain e -> pretty debug_frame x <> pretty debug_security_error e).
Proof.
  assert (L : forall A (d : A -> tree), told d -> pretty_told d).
  { intros A d [G I]. split.
    - intros x y. split; [|now intros ->]. intros H. apply I. unfold pretty in H. apply pretty_inj in H; auto.
    - intros x. apply every_lines. apply pretty_lines; [apply G|reflexivity]. }
  repeat match goal with |- pretty_told _ /\ _ => split; [apply L; first [exact told_frame|exact told_header|exact told_address|exact told_aux_header
    |exact told_content|exact told_beacon|exact told_command|exact told_decode_error|exact told_encode_error
    |apply told_option, told_frame|apply told_slice, told_frame]|] end.
  split; [|split].
  - intros e He. apply every_lines. apply pretty_lines; [now apply security_error_good|reflexivity].
  - intros e f He Hf. split; [|now intros ->]. intros H. apply security_error_inj. unfold pretty in H.
    apply pretty_inj in H; [exact H|now apply security_error_good..].
  - intros x e He H. unfold pretty in H. apply pretty_inj in H; [|apply (told_good debug_frame), told_frame|now apply security_error_good].
    destruct e; discriminate H.
Qed.

(** * Concrete cases *)

(** A received frame and its text, a realignment, a refusal, an error with a string in it *)
Local Open Scope N_scope.
Definition received_octets : list N := [0x01; 0x98; 0x01; 0x12; 0x34; 0x56; 0x78; 0x34; 0x12; 0x78; 0x56; 0x68; 0x69; 0x56; 0x78].
Example a_received_frame :
  match try_read_frame host Footer_Explicit received_octets with
  | Ok (f, _) => text debug_frame f
  | _ => ""
  end = ("Frame { header: Header { frame_type: Data, frame_pending: false, ack_request: false, pan_id_compress: false, "
      ++ "seq_no_suppress: false, ie_present: false, version: Ieee802154_2006, seq: 1, "
      ++ "destination: Some(Short(PanId(13330), ShortAddress(30806))), source: Some(Short(PanId(4660), ShortAddress(22136))), "
      ++ "auxiliary_security_header: None }, content: Data, payload: [104, 105], footer: [86, 120] }")%string.
Proof. vm_compute. reflexivity. Qed.
Example other_texts :
  text debug_command (CoordinatorRealignment {| cr_pan_id := 1; cr_coordinator_address := 0; cr_channel := 15; cr_device_address := 65535; cr_channel_page := Some 7 |})
  = "CoordinatorRealignment(CoordinatorRealignmentData { pan_id: PanId(1), coordinator_address: ShortAddress(0), channel: 15, device_address: ShortAddress(65535), channel_page: Some(7) })"%string /\
  text debug_security_error (WriteError (BadInput "InvalidValue")) = "WriteError(BadInput { err: ""InvalidValue"" })"%string /\
  text debug_security_error (WriteError (BadOffset 12)) = "WriteError(BadOffset(12))"%string /\
  (forall s, outcome_text debug_byte_error (try_read_frame host Footer_None [0x09; 0x98; 0x01]) = Some s -> one_graphic_line s) /\
  outcome_text debug_byte_error (try_read_frame host Footer_None [0x09; 0x98; 0x01]) = Some "Incomplete"%string.
Proof.
  split; [reflexivity|]. split; [reflexivity|]. split; [reflexivity|]. split; [|vm_compute; reflexivity].
  apply (C104_reading host Footer_None Footer_None [0x09; 0x98; 0x01] [0x09; 0x98; 0x01]).
  - vm_compute. discriminate.
  - repeat constructor.
  - repeat constructor.
Qed.
Example over_several_lines :
  pretty debug_command (AssociationResponse 258 AS_Successful)
  = ("AssociationResponse(" ++ newline ++ "    ShortAddress(" ++ newline ++ "        258," ++ newline ++ "    )," ++ newline
     ++ "    Successful," ++ newline ++ ")")%string /\
  pretty debug_key_identifier {| key_source := None; key_index := 3 |}
  = ("KeyIdentifier {" ++ newline ++ "    key_source: None," ++ newline ++ "    key_index: 3," ++ newline ++ "}")%string /\
  pretty (debug_slice debug_num) [] = "[]"%string.
Proof. repeat split; vm_compute; reflexivity. Qed.

Print Assumptions C104_same_text_same_value.
Print Assumptions C104_options_lists_errors.
Print Assumptions C104_every_other_type.
Print Assumptions C104_one_line.
Print Assumptions C104_over_several_lines.
Print Assumptions C104_reading.
Print Assumptions C104_receiving.
Print Assumptions C104_writing.
Print Assumptions a_received_frame.
Print Assumptions other_texts.
