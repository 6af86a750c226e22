{
 "C01": {
  "note": "Layout proved for every header, context, buffer and host; bytes are given by wire_header."
 },
 "C06": {
  "note": "Re-encoding proved with the exact set of cleared bits; the excluded case (compression flag without source) is proved to be accepted by the decoder and refused by the encoder."
 },
 "C07": {
  "note": "Exact relation proved; that the size function equals the encoded size is refuted (two octets too many under compression)."
 },
 "C11": {
  "note": "Exact behaviour proved; the desirable property is refuted for every value with a slot."
 },
 "C17": {
  "note": "Exact behaviour proved; self-delimitation refuted for realignment without channel page and proved for every other command."
 },
 "C22": {
  "note": "The desirable property is refuted for both footer modes; the exact behaviour (which octet is swallowed) is proved."
 },
 "C35": {
  "note": "Replay protection is refuted for an accepted counter 0xFFFFFFFF: exact behaviour with and without overflow checks proved."
 },
 "C37": {
  "note": "Authentication of headers is refuted in general: any two headers agreeing on source, key identifier, counter and level are interchangeable."
 },
 "C41": {
  "note": "Unsecured frames proved host independent; for secured frames host independence is refuted and the exact difference proved. C41_write_same_on_hosts covers failed writes and their buffers as well."
 },
 "C45": {
  "note": "Injectivity proved outside realignment without page; without that exclusion it is refuted."
 },
 "C49": {
  "note": "Exact behaviour proved; that a mismatch is refused is refuted."
 },
 "C67": {
  "note": "Exact host dependence of reading proved; that acceptance is the same on every host is refuted for key sources."
 },
 "C77": {
  "note": "Conformance of secured frames is refuted at every level with a tag; the exact relation to the standard (reversed octets in the nonce, header not covered by the tag) is proved. The standard's side is checked against the three test vectors of its annex C."
 },
 "C78": {
  "note": "Proved for 16-octet tags (payload) and all tags (tag); refuted for payload damage at the levels with 4- and 8-octet tags."
 },
 "C79": {
  "note": "Proved for whole blocks and payloads of 16 octets or more; refuted for shorter payloads."
 },
 "C86": {
  "note": "Proved for arbitrary functions on blocks as ciphers; refuted for counter reuse and for permutations (what each of these reveals is the content of C59 and C79)."
 },
 "C89": {
  "note": "The refuted part is a finding about the design (the provider is asked before authentication), shown on a computed case."
 },
 "C90": {
  "note": "The order of assignments is that of the source; for power failures the memory must be written back in program order. The crate's CCM call is taken to decrypt before comparing the tag (ccm 0.4). The two refuted halves are theorems with the suffix _refuted."
 },
 "C91": {
  "note": "Exact; also holds for content that disagrees with the frame type. The byte crate's writes are modelled as all-or-nothing per field (its documented behaviour)."
 },
 "C92": {
  "note": "Exact. Where the code reads a key source in the host's byte order, the function takes that order as a parameter (C67). Receptions are for every block cipher whose output is 16 octets."
 },
 "C93": {
  "note": "Exact at the level of serde's data model; the derived code and serde's integer implementations are modelled from their documentation. File formats themselves are not modelled."
 },
 "C94": {
  "note": "Device lookups are assumed lawful (an unchanged descriptor handed back changes nothing). What the cipher leaves after a failed decryption is an arbitrary function; the refutation uses one that clears the buffer."
 },
 "C95": {
  "note": "A consequence of the header not being authenticated (C37) and of the header codec (C01, C03); stated for little-endian hosts because the counter is written in the host's byte order (C41)."
 },
 "C96": {
  "note": "The key provider is a function, so its copy is itself; a provider with interior mutability is outside the model. Contexts of different applications are C55."
 },
 "C97": {
  "note": "The condition is on the application's key provider and device lookup; the library does not impose it, and its DeviceDescriptorLookup interface, keyed by address, does not suggest it."
 },
 "C98": {
  "note": "sender: C98_saved_ahead, C98_cost; receiver: C98_saved_first; the other orders are refuted. A write to memory that survives is taken to be atomic; interruptions of calls are those of C90's model."
 },
 "C99": {
  "note": "the loops over items are the application's; write_with/read_with are ByteCrate.v's. Frames read to the end of their input (C19) and are therefore no items."
 },
 "C100": {
  "note": "that no octets fit two keys is a property of the cipher and not claimed; C82 and C87 count the guesses."
 },
 "C101": {
  "note": "devices whose descriptors are found under several addresses: C97; stores that are changed meanwhile: C81, C100."
 },
 "C102": {
  "note": "what overflow checks do is fixed in ByteCrate.v (u32_add, usize_sub); shifts lose their high bits in both builds. Goes on from C92_builds."
 },
 "C103": {
  "note": "the standard also covers the MAC header by the tag; this program does not (C37). Goes on from C37 and C97."
 },
 "C104": {
  "note": "Assumes of the standard library what DebugModel.v says of {:?} and {:#?}; {:x?} not modelled. SecurityError has no ==; two of them are compared by equality."
 }
}