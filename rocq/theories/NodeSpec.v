(** Nodes that send and receive with one security context and one device store, and systems of any
    number of such nodes running in any interleaving. The calls are those of the model
    (FrameModel.v). *)
From Coq Require Import List Arith NArith Bool.
From Verif Require Import ByteCrate Types HeaderModel CcmModel FrameModel Spec SecSpec HistorySpec.
Import ListNotations.
Open Scope N_scope.
Open Scope list_scope.

(** * One node *)

(** What a node does: a call of Frame::try_write, or of Frame::try_read_and_unsecure. *)
Inductive action :=
| Write (x : call)
| Read (m : FooterMode) (bs : list N).
(** What came of it. *)
Inductive event :=
| Wrote (e : sent)
| Got (m : FooterMode) (bs : list N) (r : outcome SecurityError (Frame * nat)).

(** What a node keeps between calls. *)
Record node_state (K D : Type) := { n_ctx : SecurityContext K; n_store : D }.
Arguments n_ctx {K D}. Arguments n_store {K D}.

Section Node.
Context {K D : Type} (c : cfg) (E : block_cipher K) (dl : DeviceLookup D).

(** One step; each call gets the context and the store the call before it left. *)
Definition act (s : node_state K D) (a : action) : event * node_state K D :=
  match a with
  | Write x =>
      let '(r, (ctx, buf)) := try_write_frame c E (c_frame x) (ser_ctx (c_mode x) (n_ctx s)) (c_buffer x) in
      let sc := match security_ctx ctx with Some sc => sc | None => n_ctx s end in
      (Wrote {| s_call := x; s_before := sc_frame_counter (n_ctx s); s_result := r;
                s_after := sc_frame_counter sc; s_buffer := buf |},
       {| n_ctx := sc; n_store := n_store s |})
  | Read m bs =>
      let '(r, (_, ctx, ds)) := try_read_and_unsecure c E bs (ser_ctx m (n_ctx s)) dl (n_store s) in
      let sc := match security_ctx ctx with Some sc => sc | None => n_ctx s end in
      (Got m bs r, {| n_ctx := sc; n_store := ds |})
  end.
Fixpoint run (s : node_state K D) (acts : list action) : list event * node_state K D :=
  match acts with
  | [] => ([], s)
  | a :: rest => let (e, s1) := act s a in let (log, s2) := run s1 rest in (e :: log, s2)
  end.

End Node.

(** The writes among the actions, and the reads. *)
Definition writes (acts : list action) : list call :=
  flat_map (fun a => match a with Write x => [x] | Read _ _ => [] end) acts.
Definition reads (acts : list action) : list (FooterMode * list N) :=
  flat_map (fun a => match a with Write _ => [] | Read m bs => [(m, bs)] end) acts.
(** What came of the writes, and of the reads. *)
Definition wrote (log : list event) : list sent :=
  flat_map (fun e => match e with Wrote x => [x] | Got _ _ _ => [] end) log.
Definition got (log : list event) : list (outcome SecurityError (Frame * nat)) :=
  flat_map (fun e => match e with Wrote _ => [] | Got _ _ r => [r] end) log.
(** The frames a node accepted for device [x], in order. *)
Definition frame_for (resolve : Address -> option N) (x : N) (r : outcome SecurityError (Frame * nat)) : list Frame :=
  match r with
  | Ok (f, _) =>
      match auxiliary_security_header (header f), source (header f) with
      | Some _, Some s => match resolve s with Some i => if i =? x then [f] else [] | None => [] end
      | _, _ => []
      end
  | _ => []
  end.
Definition taken (resolve : Address -> option N) (x : N) (log : list event) : list Frame :=
  flat_map (frame_for resolve x) (got log).

(** * A system of nodes *)

Section System.
Context {K D : Type} (c : N -> cfg) (E : block_cipher K) (dl : N -> DeviceLookup D).

(** Nodes are numbered; any node may take the next step, with any octets to read. *)
Fixpoint run_system (st : N -> node_state K D) (acts : list (N * action))
  : list (N * event) * (N -> node_state K D) :=
  match acts with
  | [] => ([], st)
  | (x, a) :: rest =>
      let (e, s) := act (c x) E (dl x) (st x) a in
      let (log, st') := run_system (fun z => if z =? x then s else st z) rest in
      ((x, e) :: log, st')
  end.

End System.

(** What one node did, or saw, in a system. *)
Definition of_node {A} (x : N) (l : list (N * A)) : list A :=
  flat_map (fun p => if fst p =? x then [snd p] else []) l.
