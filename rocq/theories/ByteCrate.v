(** Model of the external crate [byte] 0.2.7 (Cargo.toml:24), restricted to the
    functions /repo calls, and of the Rust notions (Result, panic, wrapping
    arithmetic) the other model files need.  The crate is not in the sandbox:
    this file is written from its documentation.  The one point on which its
    versions differ ([offset == len] is accepted by [read_with]) is fixed by
    the repo's own test src/mac/frame/mod.rs:564 (decode_ver0_ack). *)
From Coq Require Import List Arith NArith Bool String.
Import ListNotations.
Open Scope N_scope.

(** Result<A, E> plus an explicit panic. *)
Inductive outcome (E A : Type) : Type :=
| Ok (a : A)
| Err (e : E)
| Panic.
Arguments Ok {E A} a.
Arguments Err {E A} e.
Arguments Panic {E A}.

(** The [?] operator: stop at the first error (or panic). *)
Definition obind {E A B} (x : outcome E A) (f : A -> outcome E B) : outcome E B :=
  match x with
  | Ok a => f a
  | Err e => Err e
  | Panic => Panic
  end.

Notation "x <- e ;; f" := (obind e (fun x => f))
  (at level 61, e at next level, right associativity).
Notation "' p <- e ;; f" := (obind e (fun p => f))
  (at level 61, p pattern, e at next level, right associativity).

(** Option::ok_or(e)? *)
Definition ok_or {E A} (o : option A) (e : E) : outcome E A :=
  match o with Some a => Ok a | None => Err e end.

(** byte::Error (byte 0.2.7 lib.rs). *)
Inductive byte_error : Type :=
| Incomplete
| BadOffset (offset : nat)
| BadInput (err : string).

(** byte::Result<A>. *)
Definition bres (A : Type) := outcome byte_error A.

(** byte::ctx::Endian. *)
Inductive endian := LE | BE.

(** Everything the behaviour of the Rust program depends on besides its inputs:
    - [overflow_checks]: debug (true) or release (false) arithmetic;
    - [native]: target_endian, which is the [byte] crate's default [Endian]
      (used by [bytes.read]/[bytes.write] of integers without a context);
    - [usize_bits]: target_pointer_width. *)
Record cfg := {
  overflow_checks : bool;
  native : endian;
  usize_bits : N
}.

(** usize subtraction: panics on underflow with overflow checks, wraps
    otherwise. *)
Definition usize_sub (c : cfg) (a b : N) : bres N :=
  if b <=? a then Ok (a - b)
  else if overflow_checks c then Panic
  else Ok (a + 2 ^ usize_bits c - b).

(** u32 addition: panics on overflow with overflow checks, wraps otherwise. *)
Definition u32_add {E} (c : cfg) (a b : N) : outcome E N :=
  if a + b <? 2 ^ 32 then Ok (a + b)
  else if overflow_checks c then Panic
  else Ok ((a + b) mod 2 ^ 32).

(** [<<] on u8 and u16: bits shifted out are lost (shift amounts in the code are
    constants below the width, so no panic). *)
Definition u8_shl (a k : N) : N := N.shiftl a k mod 256.
Definition u16_shl (a k : N) : N := N.shiftl a k mod 65536.

(** [as u8] on a u16/usize: truncation. *)
Definition as_u8 (a : N) : N := a mod 256.

(** [b as u16] for a bool. *)
Definition bool_n (b : bool) : N := if b then 1 else 0.

(** Octets of an integer, least significant first, and back. *)
Fixpoint le_bytes (size : nat) (v : N) : list N :=
  match size with
  | O => []
  | S k => (v mod 256) :: le_bytes k (v / 256)
  end.

Fixpoint le_val (bs : list N) : N :=
  match bs with
  | [] => 0
  | b :: r => b + 256 * le_val r
  end.

Definition num_bytes (e : endian) (size : nat) (v : N) : list N :=
  match e with LE => le_bytes size v | BE => rev (le_bytes size v) end.

Definition num_val (e : endian) (bs : list N) : N :=
  match e with LE => le_val bs | BE => le_val (rev bs) end.

(** byte::check_len: Err(Incomplete) iff the slice is shorter. *)
Definition check_len (bs : list N) (len : N) : bres unit :=
  if N.of_nat (List.length bs) <? len then Err Incomplete else Ok tt.

(** TryRead::try_read(bytes, ctx) -> Result<(Self, usize)>, ctx already applied. *)
Definition reader (A : Type) := list N -> bres (A * nat).

(** BytesExt::read_with / read: read at an offset and advance it. The new offset
    is returned beside the value. *)
Definition read_with {A} (rd : reader A) (bs : list N) (off : nat) : bres (A * nat) :=
  if (List.length bs <? off)%nat then Err (BadOffset off)
  else
    '(t, size) <- rd (skipn off bs) ;;
    Ok (t, (off + size)%nat).

(** TryRead<Endian> for u8/u16/u32/u64 ([size] octets). *)
Definition read_num (size : nat) (e : endian) : reader N := fun bs =>
  _ <- check_len bs (N.of_nat size) ;;
  Ok (num_val e (firstn size bs), size).

(** TryRead<Bytes> for &[u8] with Bytes::Len(len). *)
Definition read_bytes (len : N) : reader (list N) := fun bs =>
  _ <- check_len bs len ;;
  Ok (firstn (N.to_nat len) bs, N.to_nat len).

(** TryWrite::try_write(self, bytes: &mut [u8], ctx) -> Result<usize>: returns the
    result and the final contents of the slice (whatever the outcome). *)
Definition writer := list N -> bres nat * list N.

(** Body of a try_write function: a computation over the state
    (slice contents, *offset). *)
Definition wm (A : Type) := (list N * nat) -> bres A * (list N * nat).

Definition wret {A} (a : A) : wm A := fun s => (Ok a, s).
Definition werr {A} (e : byte_error) : wm A := fun s => (Err e, s).
Definition wpanic {A} : wm A := fun s => (Panic, s).

Definition wbind {A B} (m : wm A) (f : A -> wm B) : wm B := fun s =>
  match m s with
  | (Ok a, s') => f a s'
  | (Err e, s') => (Err e, s')
  | (Panic, s') => (Panic, s')
  end.

(** m ; k *)
Definition wseq (m k : wm unit) : wm unit := wbind m (fun _ => k).

Notation "m >> k" := (wseq m k) (at level 61, right associativity).

(** BytesExt::write_with / write: write at the offset and advance it. *)
Definition write_with (w : writer) : wm unit := fun s =>
  let '(bs, off) := s in
  if (List.length bs <? off)%nat then (Err (BadOffset off), s)
  else
    let '(r, tl) := w (skipn off bs) in
    let bs' := firstn off bs ++ tl in
    match r with
    | Ok size => (Ok tt, (bs', (off + size)%nat))
    | Err e => (Err e, (bs', off))
    | Panic => (Panic, (bs', off))
    end.

(** [let offset = &mut 0; <body>; Ok( *offset )] *)
Definition try_write_body (m : wm unit) : writer := fun bs =>
  match m (bs, 0%nat) with
  | (Ok _, (bs', off)) => (Ok off, bs')
  | (Err e, (bs', _)) => (Err e, bs')
  | (Panic, (bs', _)) => (Panic, bs')
  end.

(** TryWrite<Endian> for u8/u16/u32/u64. *)
Definition write_num (size : nat) (e : endian) (v : N) : writer := fun bs =>
  if (List.length bs <? size)%nat then (Err Incomplete, bs)
  else (Ok size, num_bytes e size v ++ skipn size bs).

(** TryWrite for u8. *)
Definition write_u8 (v : N) : writer := write_num 1 LE v.

(** TryWrite for &[u8]. *)
Definition write_slice (data : list N) : writer := fun bs =>
  if (List.length bs <? List.length data)%nat then (Err Incomplete, bs)
  else (Ok (List.length data), data ++ skipn (List.length data) bs).

(** A run of writes, in order (a [for] loop of [bytes.write(offset, x)?]). *)
Fixpoint write_all (ws : list (wm unit)) : wm unit :=
  match ws with
  | [] => wret tt
  | w :: r => w >> write_all r
  end.
