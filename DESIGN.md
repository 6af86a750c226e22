# Formal model of rust-ieee802.15.4 in Rocq (Coq 8.16.1)

## 1. What is modelled

Function-by-function Gallina transcription of all the non-test code that
computes something in `/repo/src`. Every definition cites the file and lines it models.

| model file (rocq/theories)  | models |
|---|---|
| `ByteCrate.v`   | the part of the external crate `byte` 0.2.7 the code calls: `check_len`, `BytesExt::{read,read_with,write,write_with}`, integer and slice `TryRead`/`TryWrite`, `Endian`, `byte::Error` |
| `Types.v`       | data types of `frame_control.rs`, `header.rs`, `beacon.rs`, `command.rs`, `security/*.rs` and the conversions on them (`from_bits`, `to_bits`, `extended_enum!`, `get_octet_size`, constructors, defaults, error conversions) |
| `HeaderModel.v` | `header.rs`, `auxiliary_security_header.rs`, `security_control.rs` readers and writers |
| `BeaconModel.v` | `beacon.rs` |
| `CommandModel.v`| `command.rs` |
| `CcmModel.v`    | the external crate `ccm` 0.4 over an arbitrary 16-octet block cipher (RFC 3610, L = 2) |
| `FrameModel.v`  | `frame/mod.rs`, `frame/security/mod.rs`, `security/default.rs` (`secure_frame`, `unsecure_frame`, `calculate_nonce`, `try_write`, `try_read`, `try_read_and_unsecure`, `Unimplemented`) |
| `StatefulModel.v` | the same `secure_frame`, `unsecure_frame`, `try_write`, `try_read_and_unsecure` with a key provider that changes its state when asked |
| `CrashModel.v` | the states `try_write` and `try_read_and_unsecure` go through, assignment by assignment, for calls that are cut short |
| `WriteSpec.v` | (specification) fields of a frame and the complete outcome of a write, for buffers of any size |
| `ReadSpec.v` | (specification) what each reader returns for every input, field by field and by position |
| `EqModel.v`     | the `==` that `derive(PartialEq)` generates for frames, headers, beacons, commands and what is in them |
| `HashModel.v`   | the octets `derive(Hash)` (and `Hash32`) feed a hasher for the same types; not what a hasher makes of them |
| `SerdeModel.v` | the calls the derived `serde::Serialize` makes and the values the derived `serde::Deserialize` accepts, for the four types that have them |
| `DebugModel.v` | the text that the derived `Debug` gives for `{:?}` and `{:#?}`, for every type of the crate that has it, and core's formatting of integers, `bool`, `Option`, tuples and slices |
| `Aes128.v`      | AES-128 (FIPS 197), for concrete witnesses, test vectors and the AES corollaries of C78 and C79: the theorems themselves quantify over every block cipher |
| `RepoTests.v`   | every unit test of `/repo/src` that runs the code and the doc examples, replayed on the model (fidelity tests, not proofs) |

Specifications, which use no reader, writer, mask or shift of the model:

| file | contents |
|---|---|
| `Spec.v`        | wire formats as arithmetic on octets, value ranges (`*_ok`, `*_reachable`), the CCM transformation, `cipher_ok`, `cfg_ok` |
| `SecSpec.v`     | what a secured write puts where and how it ends (`write_plan`), what receiving a secured frame does (`receive`, `admitted`, `verifies`) |
| `HistorySpec.v` | histories of writes with one context and of receptions with one device store |
| `RestartSpec.v` | crashes and restarts, several devices |
| `NodeSpec.v`    | nodes that write and read with one context and one store; systems of nodes taking steps in any order |

Proof files: `ProofLib`, `HeaderProofs`, `HeaderReadProofs`, `BeaconProofs`, `CommandProofs`,
`FrameProofs`, `CcmProofs`, `AesProofs`, `AesPerm`, `SecureProofs`. The theorems that count for a property are
named `Cxx_...` and are in the `Prop*.v` files, each next to concrete cases that meet its hypotheses.

Conventions

* `u8/u16/u32/u64` are `N`; shifts and additions that can lose bits are reduced
  mod 2^w in the model. Rust's typing ("a u16 is < 65536") is the
  predicate `*_ok` on values; every decoder is proved to return `_ok` values from
  octets < 256. Lengths, offsets, counts are `nat`; the length handed to
  `Bytes::Len` is an `N` because it can wrap.
* `Result` is data; `Panic` is a third explicit outcome (`Ok | Err | Panic`):
  slice-index failures, `unimplemented!()`, `assert!`, `unwrap`, and arithmetic
  overflow under overflow checks.
* A `&mut [u8]` writer takes the buffer and returns the new buffer in every
  outcome, also on errors (partially written buffers are modelled). Histories go on after a
  `Panic` with the state the panic left (an application may catch it; on `no_std` targets it
  resets, which is the crash model of `RestartSpec.v`).
* `cfg` is the build/host configuration the code's behaviour depends on:
  `overflow_checks` (debug/release), `native` byte order (the `byte` crate's
  default `Endian`), `usize_bits`. `cfg_ok`: a slice's length fits `usize`.
* The block cipher, key provider (`KeyDescriptorLookup`) and device lookup
  (`DeviceDescriptorLookup`) are universally quantified parameters of the
  functions. `lookup_device` returns the descriptor and a write-back function
  (the meaning of `Option<&mut DeviceDescriptor>`).
* `cipher_ok` asks of a block cipher only that it maps 16 octets to 16 octets and that a failed
  decryption leaves a buffer of the same length. `AesProofs.v` proves it for AES-128 and the
  identity cipher (`Unimplemented`) has it too. What `ccm` leaves in the buffer when a tag does not
  verify is otherwise an arbitrary function of key, nonce and buffer (`on_auth_failure`).
  C78 and C79 also ask that the cipher encrypts no two blocks alike under one key (`permuting`), which
  `AesPerm.v` proves of AES-128.
* `lawful_lookup` (single receptions) and `device_store` (histories) say what a device lookup of
  an application is assumed to be: handing back an unchanged descriptor changes nothing; an address
  stands for at most one device; updating one leaves the others alone. Concrete stores are shown to
  have it (`known_is_a_store`).

Not modelled: derives other than `PartialEq`, `Hash`, `Hash32`, `Debug` (`{:?}`, `{:#?}`) and `serde`'s (`defmt`, `Clone`), `PhantomData`,
lifetimes (a user's key provider is a pure function in FrameModel.v; providers that change their state
when asked are modelled in StatefulModel.v),
constant-time comparison and timing, memory safety of the Rust compiler's output.
No CRC is computed by the code, hence none in the model. In `ccm`: exhaustion of the 32-bit
key-stream counter of the `ctr` crate (needs more than 2^32 blocks; payloads above 2^16 - 1 octets are
refused first, which is modelled); `GenericArray::from_slice` panics on a wrong length, which
cannot occur because the tag sizes passed agree.

## 2. Trusted base

* Coq's kernel (8.16.1). `Print Assumptions` under each theorem of `Prop*.v` reports
  "Closed under the global context": **no axioms**. No plugins, functors, module types; only the
  Coq standard library. `coqchk`, which looks at whole libraries and
  not only at what the theorems use, additionally lists seven parameters of the standard library
  file `Coq.ssr.ssrunder` (`Under_rel.{Under_rel, Under_rel_from_rel, Under_relE, under_rel_done,
  Over_rel, over_rel, over_rel_done}`); no theorem here depends on them.
* The reading of `/repo` and of the two external crates (`byte`, `ccm`; not
  available in the sandbox: modelled from their documented behaviour and
  cross-checked in `RepoTests.v`, where the model - with an AES-128 written in Gallina -
  reproduces the byte vectors in `/repo`'s tests and doc examples, including the
  CCM-protected ones, RFC 3610 and FIPS 197 vectors). Point fixed by the repo's tests:
  `BytesExt::read_with` accepts `offset == len` (`decode_ver0_ack`).
* Theorems whose name ends in `_refuted` prove the negation of the desirable property by a
  counterexample (often a general family), beside theorems giving the exact behaviour.

## 3. Specification

`Spec.v` gives, independently of the model's control flow and bit operations,
the wire formats as arithmetic byte lists (`wire_header`, `wire_beacon`, `wire_command`,
`wire_frame`, ...), with reserved bits as explicit arguments, the CCM transformation,
and the normalisation of values on the wire. `SecSpec.v` does the same for security, as decision
lists over those. Theorems relate the API functions to them.

## 4. Properties: model and proof method

Codec theorems are proved from two composition principles: `emits w bs`
(a writer that writes exactly `bs`, in every buffer, on success and failure) closed
under sequencing, and symbolic evaluation of readers on `bs ++ tail`. Finite parts
(control words, octets) are decided by exhaustive computation lifted by a lemma.

| id | plan |
|---|---|
| C01 | `Header::try_write` result = `wire_header`, through `emits` |
| C02 | case analysis on the writer, every buffer length |
| C03 | iff between `try_read` and `wire_header` (both directions); 2^16 control words by computation |
| C04 | no `Panic`; error classification by decision list |
| C05 | corollary of C01 and C03 |
| C06 | corollary of C01 and C03; asymmetry as `_refuted` witness |
| C07 | length of `wire_header` |
| C08 | finite sweep over 256 octets lifted to all u8 |
| C09 | 2^16 wire values / sweep; write from nibble lemmas |
| C10 | induction over the slot list, direction mask by bits |
| C11 | `_refuted` for every reachable information with a slot |
| C12 | induction over both lists |
| C13 | composition of C09, C10, C12 |
| C14 | decoders return `_reachable` values; writers total on those |
| C15 | case analysis, flag octets by sweep |
| C16 | case analysis, sweep |
| C17 | `_refuted`, plus the exact behaviour |
| C18 | `emits` for frames |
| C19 | from reader equations |
| C20, C21 | C18 + readers |
| C22 | `_refuted` witness for both build modes |
| C23 | iff characterisation of `Panic` |
| C24 | from the header theorem |
| C25, C26 | from `emits` |
| C27 | `secure_frame` equation against Spec's CCM |
| C28 | CCM correctness (decrypt (encrypt m) = m for any block cipher) + codec theorems |
| C29, C30 | invariant over histories (`fold_left`), key-independence when the counter stays |
| C31 | length arithmetic |
| C32 | inversion of `try_read_and_unsecure` |
| C33 | inversion, all error paths |
| C34 | invariant over histories with a store of descriptors |
| C35 | `_refuted` by a constructed history |
| C36, C40 | iff characterisation of `Panic` |
| C37 | `_refuted` generally: any two headers agreeing on source, key id, counter, level are treated alike |
| C38, C39 | equational |
| C41 | unsecured part proved for every `cfg`; secured part `_refuted` by witness |
| C42, C50 | case analysis of `secure_frame`/`unsecure_frame` |
| C43 | sender history + schedule + receiver history, induction |
| C44 | congruence in the key provider |
| C45 | corollary of C20/C21 |
| C46 | from C03/C13 iff |
| C47 | case analysis over readers |
| C48 | sweep |
| C49 | `_refuted` witness |
| C51 | instances of C27/C32 for the default providers; xor cancellation for the identity cipher |
| C52 | reader/writer equations of the parts (from `emits`), iff with the wire lists |
| C53 | `write_plan` gives the buffer in every outcome; counterexample for "no clear payload" |
| C54 | from the exact reception equation |
| C55 | C29 for each sender + injectivity of the nonce |
| C56 | congruence of `receive` in the counters; induction over receptions |
| C57 | CCM model against RFC 3610 blocks written as list functions; xor cancellation |
| C58 | C19 + C18, canonical reserved bits |
| C59, C60 | histories concatenated over lives; counterexamples by concrete runs |
| C61 | simulation between the full and the filtered history |
| C62, C63 | equational; injectivity by case analysis |
| C64 | `try_read_and_unsecure` as one decision list over header/content spec and `receive` |
| C65 | from the iff of C03, C13, C15, C19 and lengths of wire lists |
| C66 | from C19 for both modes |
| C67 | the two hosts' readers compared; counterexample for keys looked up by number |
| C68 | step lemma of the device store + C64 |
| C69 | per-sender histories interleaved; induction over the traffic |
| C70 | C32 + nonce injectivity + C29/C34, then a sorted-subsequence lemma |
| C71 | injectivity of the counter block encoding on top of C29/C74; first octet of B_0 |
| C72 | induction over `send_all` with the exact write outcome (C27); a strictly sorted list in an interval is no longer than it |
| C73 | induction over the actions; reading neither uses nor changes the frame counter (C44, C33) |
| C74 | every node of a system runs its own history (projection lemma), then C70's argument on prefixes, C29 and C68 |
| C75 | one lemma per type that `==` decides equality; reachable arrays are determined by their used part (C10, C12); round trips from C20, C21, C28 |
| C76 | C28 with receiver = sender; C32 for the refusal; C74 on the prefix up to the acceptance |
| C77 | the standard's nonce and frame written down separately and checked against the three test vectors of its annex C; C27's layout compared with it; refutations by computation with AES |
| C78 | AES-128 shown injective round by round (inverse S-box by table, inverse MixColumns by linearity); CBC-MAC of strings differing in one block differ (induction over blocks); C32 for the rest. Collisions for short tags found by search outside, checked by computation |
| C79 | C71's cipher inputs are distinct (C74's nonces); a permutation keeps them distinct; xor with equal plaintext |
| C80 | a mask computed from the octets alone; agreement outside it is shown, part by part, to be the same as having the same fields (C19's exact decoding) with other reserved bits |
| C81 | every call gets its own context (and store); single-call lemmas of C29, C34 and C32, then sortedness of counters; condition stated between neighbouring calls only |
| C82 | one attempt computed from the admitted case of reception (C32); induction over the guesses before the right one, then over those after it; exhaustive search by the pigeonhole principle over an enumeration of all tags |
| C83 | octets fed to the hasher modelled type by type (`HashModel.v`); each type's stream shown to be a prefix code by composition; together with C75 |
| C84 | cipher independence: outcome is a function of the cipher's values on an explicit block list (PropCipher.v), empty unless every other check passes; relational proof through C64_receive_exact and secure_frame_eq; block counts by arithmetic; `only_four_blocks` shows each listed block is needed |
| C85 | two-run (noninterference) statement over `try_write_frame` and `send_all` (PropShows.v); secure_frame_eq for both runs, induction over histories |
| C86 | possibilistic confidentiality over `send_all` of any set of senders (PropSecret.v): a cipher is constructed that reads sender and counter out of the block it is given and answers with the key stream and MAC chain needed; C29 (counters never repeat) makes the construction consistent |
| C87 | `was_sent`, `explains` in PropForge.v: the ciphers that reproduce every observation of every sender. The C86 cipher is twisted at the first block of CBC-MAC where the forged payload leaves the recorded one (or on a dummy entry for an unused nonce), so that it yields any wanted tag; C64 reduces reception to the tag comparison. Converse by C29 and injectivity of nonces |
| C88 | length bounds of `wire_header`, `wire_beacon`, `wire_command` (PropCapacity.v); C18 and C27 turn them into statements on writes; the limits are shown to be reached by concrete frames |
| C89 | The four functions that pass the provider around are modelled a second time with its state threaded through (StatefulModel.v). A stateful run is proved equal to the stateless one with the provider's present answers, with one question at most; histories then reduce to C81's reconfiguration histories. In-step theorem by induction over the conversation with C28; falling out of step by computed examples |
| C90 | CrashModel.v lists the states of the two calls in program order; proved that the first and last are those of FrameModel.v. `stopped` (specification): in a state or torn between two, octet by octet. Shape lemma: everything before the counter step is old octets or header and payload in clear. Resumed histories by induction with C29's nonce injectivity; receivers by reduction to C81. Two refutations by computation with AES. |
| C91 | WriteSpec.v (specification): the sizes of a frame's fields in order, `whole` = as many as fit, and the outcome of a write as one function of frame, context and buffer. Proved by giving every writer of the model its field sizes (a second, size-only invariant beside the octet-level one of ProofLib.v) and joining the two: the octets of a field are fixed by its behaviour in large buffers. |
| C92 | ReadSpec.v (specification): a decoder by position, written without the byte crate, reader state or offsets that move: each field is a slice of the input at a position computed from the preceding octets. Proved per reader by unfolding the model's reads to slices and comparing; frames and receptions by composition with C23 and C64. |
| C93 | SerdeModel.v: the derived (de)serializers against serde's data model. `shows` (in PropSerde.v, an inductive relation) says how a faithful format may present what it was given; proved that deserializing gives `a` exactly from what shows the serialization of `a`, by cases on the presented value. |
| C94 | `attempts` and `on_copies` (specification, in PropTrial.v): the application's loop on one buffer and on copies. What a failed attempt leaves is read off C64 and C33; the loops are compared by induction on the contexts. Refutation by computation with AES. |
| C95 | PropTrial.v: C01 gives the octets the relay writes, C03 what it reads, C37 that the receiver accepts them. Refutation by computation with AES. |
| C96 | PropCopies.v: `act` (specification) runs a pool of contexts, copies by field. Induction on what the application does, with the invariant that every context is the original at some counter; reading is C64's `receive`, which looks at the key provider only; nonces by C29. Refutation by computation with AES. |
| C97 | PropAlias.v: `whose` (specification) is the EUI-64 and counter of an accepted frame. Each such pair is an acceptance of C34 for one descriptor (C32), whose counters increase; the alias attack is C32 read from right to left. Refutation by computation with AES: one frame accepted under an extended and a short address. |
| C98 | PropPersist.v: `keeps` and `takes` (specification) are what an application does, as rules over the memory that survives, the memory that does not, and calls stopped at any of the states of CrashModel.v. `keeps` implies `goes_on` of C90 (induction over the rules, counter <= number saved), so C90 gives the nonces; cost by two potential functions over the same induction; `takes` implies that the counters of the receptions acted on are never lowered, the hypothesis of C81. Refutations by computation with AES. |
| C99 | PropSequence.v: `item`, `kind`, `value` and the two loops `write_items`/`read_items` (what an application writes with the byte crate's BytesExt) are the specification; `well_placed` the two conditions. Induction over the sequence with the round trips of C05, C09, C10-C13, C15, C17, C52 and the totality theorems C04, C16 for single items; the two refutations by computation. |
| C100 | PropRekey.v: `key_for`/`key_nonces`, `other_keys_than`, `key_found`, `never_lowered_per_key`, `key_octets` are the specification. Sender from C29 (distinct nonces in a history, injective nonces) and the single write of C81; receiver by induction over pairs of receptions with the reception step of C81 and C32; two keys from C32's wire form and the fixed length of header, ciphertext and tag. A device that is re-keyed with counters from 0 on both sides, its old frame refused, is computed. |
| C101 | PropOrder.v: `fits`, `heard`, `before` are the specification. What one reception does, by C81's acceptance from any other store and the store step of C34; induction over the arrivals for the position, the stored counter and the largest counter; agreement of two receivers from C34 and the header the octets determine. The exception and four orders of the same frames are computed. |
| C102 | PropBuilds.v: `build` is the specification. Reading from the reader's closed form and C23; writing from C41; receiving by the decision list C64, case by case; histories by induction. |
| C103 | PropBinding.v: `cipher_inputs`, `fits_inputs` are the specification. Acceptance restated by C32 in these terms, for the same and another receiver; equal payloads since encryption is its own inverse. |
| C104 | DebugModel.v: what each derived `fmt` hands to the formatter, as a tree, and how the formatter prints trees. Printing is injective on trees whose words are words, by induction on trees (values followed by a comma or an end); then injectivity type by type, `==` from C75, errors from C47. |
