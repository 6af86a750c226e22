(** Restarts and several devices: histories (HistorySpec.v) put together. A crash loses what is
    in memory; an application comes back with a frame counter, or a device store, of its own
    choice. The code under study keeps nothing on its own, so a crash can be placed between any
    two calls; calls that are cut short in the middle are the subject of CrashModel.v and PropCrash.v. *)
From Coq Require Import List Arith NArith Bool Sorting.Sorted.
From Verif Require Import ByteCrate Types HeaderModel CcmModel FrameModel Spec SecSpec HistorySpec.
Import ListNotations.
Open Scope N_scope.
Open Scope list_scope.

(** * Senders *)

(** One life of a sender, from start to crash: the counter it starts with and the calls it makes. *)
Record life := { l_start : N; l_calls : list call }.
(** What it did, and the counter in memory when it crashed. *)
Record lived := { d_life : life; d_log : list sent; d_end : N }.

Section Senders.
Context {K : Type} (c : cfg) (E : block_cipher K).

(** A sender with the EUI-64 and keys of [sc] through any number of lives. *)
Definition live (sc : SecurityContext K) (l : life) : lived :=
  let '(log, sc') := send_all c E (at_counter sc (l_start l)) (l_calls l) in
  {| d_life := l; d_log := log; d_end := sc_frame_counter sc' |}.

(** Every life starts with a counter at or beyond where every earlier one ended. *)
Definition resumes_ahead (lives : list lived) : Prop :=
  StronglySorted (fun a b => d_end a <= l_start (d_life b)) lives.

(** The nonces used by a sender, in order. *)
Definition nonces (sc : SecurityContext K) (log : list sent) : list (list N) :=
  map (fun e => mac_nonce (sc_euid sc) (s_before e) (level_of e)) (filter used log).

End Senders.

(** * Receivers *)

Section Receivers.
Context {K : Type} (c : cfg).

(** The octets claim to come from device [x] (which the sender of the octets can choose freely). *)
Definition claims (resolve : Address -> option N) (x : N) (y : arrival K) : bool :=
  match try_read_header c (a_bytes y) with
  | Ok (h, _) => match source h with
                 | Some s => match resolve s with Some i => i =? x | None => false end
                 | None => false
                 end
  | _ => false
  end.

(** A frame came out. *)
Definition was_accepted (e : received K) : bool :=
  match r_result e with Ok _ => true | _ => false end.

End Receivers.
