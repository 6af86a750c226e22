{"id": "C01", "title": "Header wire layout", "statement": "Whenever writing a Header into a byte buffer succeeds, the bytes produced are exactly: 2-byte little-endian frame control (type bits 0-2, security 3, pending 4, ack 5, PAN-ID-compression 6, destination mode 10-11, version 12-13, source mode 14-15, every other bit 0), the sequence number, destination PAN and address, source PAN (omitted under compression) and address, then the auxiliary security header (control, frame counter of the security context, key source, key index); multi-byte fields little endian on a little-endian host.", "quantifier": "every header value, every security context, every buffer", "why_tests_cant": "The field product space (7 types x 3 versions x flags x address modes x 64-bit addresses x key identifiers) is too large to enumerate; tests check four layouts.", "anchors": ["src/mac/frame/header.rs:Header::try_write", "src/mac/frame/header.rs:Address::try_write", "src/mac/frame/security/auxiliary_security_header.rs:AuxiliarySecurityHeader::try_write", "src/mac/frame/security/security_control.rs:SecurityControl::try_write", "src/mac/frame/frame_control.rs:offset"]}
{"id": "C02", "title": "Header write decides success exactly", "statement": "Writing a header never panics; it succeeds exactly when the buffer holds the encoded size, PAN-ID compression is only set with both addresses present, and a security context is given if the auxiliary security header is present; otherwise it reports Incomplete / DisallowedPanIdCompress / MissingSecurityCtx, in the order in which the fields are laid out.", "quantifier": "every header, context option and buffer length", "why_tests_cant": "Needs all buffer lengths against all headers; the changelog records a real panic here (#26).", "anchors": ["src/mac/frame/header.rs:Header::try_write", "src/mac/frame/mod.rs:EncodeError"]}
{"id": "C03", "title": "Header decode is exact", "statement": "Reading a header succeeds with value h and n consumed bytes if and only if the first n bytes are a wire form of h (reserved bit 7 free), h respects PAN-ID compression (destination present, source PAN equal to destination PAN) and its key identifier mode matches its key identifier.", "quantifier": "every byte string, every header", "why_tests_cant": "Quantifies over all byte strings.", "anchors": ["src/mac/frame/header.rs:Header::try_read", "src/mac/frame/security/auxiliary_security_header.rs:AuxiliarySecurityHeader::try_read", "src/mac/frame/security/security_control.rs:SecurityControl::try_read", "src/mac/frame/frame_control.rs:from_bits"]}
{"id": "C04", "title": "Header decode is total with the right error", "statement": "Reading a header never panics on any bytes; it reports Incomplete only when bytes are missing, and otherwise the error names the first offending field: frame version 3, frame type 4, address mode 1, or compression without destination.", "quantifier": "every byte string", "why_tests_cant": "All byte strings, including every truncation of every frame.", "anchors": ["src/mac/frame/header.rs:Header::try_read", "src/mac/frame/mod.rs:DecodeError"]}
{"id": "C05", "title": "Header round trip", "statement": "Reading back a successfully written header (followed by any bytes) consumes exactly what was written and yields the same header, except: seq_no_suppress and ie_present come back false (they are never written), the source PAN ID becomes the destination's under compression, and the auxiliary header shows the context's frame counter and the mode of its key identifier.", "quantifier": "every header that can be written, every trailing byte string, little-endian hosts", "why_tests_cant": "Infinite domain; which fields are lost is exactly what examples miss.", "anchors": ["src/mac/frame/header.rs:Header::try_write", "src/mac/frame/header.rs:Header::try_read"]}
{"id": "C06", "title": "Decoded headers re-encode to their own bytes", "statement": "A header decoded from bytes and written again (with a context whose counter is the decoded one, on a little-endian host if there is an auxiliary security header) reproduces those bytes with bits 7, 8 and 9 of the frame control and bits 5-7 of the security control octet cleared - provided compression is not flagged without a source address; in that case the decoder accepts the header and the encoder refuses it with DisallowedPanIdCompress.", "quantifier": "every byte string that decodes", "why_tests_cant": "All byte strings; the accept/refuse asymmetry is invisible to round-trip tests that start from values.", "anchors": ["src/mac/frame/header.rs:Header::try_read", "src/mac/frame/header.rs:Header::try_write"]}
{"id": "C07", "title": "Header size function versus encoded size", "statement": "Header::get_octet_size plus the auxiliary header's size equals the encoded length for every header without PAN-ID compression, and exceeds it by exactly two with compression.", "quantifier": "every header that can be written", "why_tests_cant": "Must hold for all address/aux combinations; the compression case shows the function is not the encoded size.", "anchors": ["src/mac/frame/header.rs:Header::get_octet_size", "src/mac/frame/security/auxiliary_security_header.rs:get_octet_size"]}
{"id": "C08", "title": "Bit conversions are exact inverses", "statement": "FrameType, FrameVersion, AddressMode, SecurityLevel, KeyIdentifierMode: from_bits accepts exactly the discriminants, inverts the discriminant, and rejects every other octet; the address mode of an address reflects its form; broadcast addresses have the requested mode and all-ones fields.", "quantifier": "every u8, every enum value, every address", "why_tests_cant": "Total statement over all octets and over all addresses.", "anchors": ["src/mac/frame/frame_control.rs:FrameType", "src/mac/frame/frame_control.rs:FrameVersion", "src/mac/frame/frame_control.rs:AddressMode", "src/mac/frame/security/security_control.rs:SecurityLevel", "src/mac/frame/security/security_control.rs:KeyIdentifierMode", "src/mac/frame/header.rs:Address::broadcast"]}
{"id": "C09", "title": "Superframe specification codec", "statement": "Writing emits exactly two octets (beacon order low nibble, superframe order high nibble; final CAP slot low nibble, BLE bit 4, coordinator bit 6, association bit 7); reading accepts any two octets, ignores bit 5, yields orders 0..14 or the 15 marker, and round-trips every value whose orders are below 15 (or the marker) and slot below 16; out-of-range orders are truncated to their low nibble.", "quantifier": "every specification value and every byte string", "why_tests_cant": "All 2^16 wire values times all u8 field values.", "anchors": ["src/mac/beacon.rs:SuperframeSpecification", "src/mac/beacon.rs:BeaconOrder", "src/mac/beacon.rs:SuperframeOrder"]}
{"id": "C10", "title": "GTS information codec", "statement": "For every GTS information obtainable through the API, writing emits count|permit, a direction octet (bit i set iff slot i transmits) when there are slots, and 3 octets per slot; reading what was written, followed by at least one more octet, restores it exactly.", "quantifier": "every reachable GTS information, every non-empty tail", "why_tests_cant": "Slot counts 0..7 with arbitrary 16-bit addresses and nibbles; loop/array indexing.", "anchors": ["src/mac/beacon.rs:GuaranteedTimeSlotInformation", "src/mac/beacon.rs:GuaranteedTimeSlotDescriptor"]}
{"id": "C11", "title": "GTS information read from exactly its own bytes", "statement": "Reading a GTS information from exactly the octets its own writer produced, with nothing after them, restores it if it has no slot and is Incomplete whenever it has one (the length check demands one octet too many), so the intuitive claim that every written GTS information decodes on its own is refuted.", "quantifier": "every reachable GTS information", "why_tests_cant": "Needs the exact-length boundary for each slot count; inside a beacon the trailing pending-address octet hides it.", "anchors": ["src/mac/beacon.rs:GuaranteedTimeSlotInformation::try_read"]}
{"id": "C12", "title": "Pending address codec", "statement": "For every pending-address list obtainable through the API, writing emits the count octet, short addresses then extended addresses, and reading it back (any tail) restores it; reading accepts exactly the byte strings long enough for the counts in their first octet.", "quantifier": "every reachable list, every byte string", "why_tests_cant": "All counts, all 64-bit addresses, all truncations.", "anchors": ["src/mac/beacon.rs:PendingAddress"]}
{"id": "C13", "title": "Beacon codec", "statement": "Writing then reading a beacon (any tail) restores it; a byte string decodes as a beacon b of n octets if and only if its first n octets are a wire form of b, reserved bits free. Encoded size is at most 96 octets.", "quantifier": "every reachable beacon, every byte string", "why_tests_cant": "Product of three variable-length lists.", "anchors": ["src/mac/beacon.rs:Beacon"]}
{"id": "C14", "title": "Beacon values can never trip an assertion or index out of range", "statement": "Every beacon obtained by decoding any bytes, or from the constructors, can be written without panic, and its slot/short/extended accessors return lists of at most 7 entries without panicking.", "quantifier": "every byte string decoded, every buffer", "why_tests_cant": "The asserts and fixed-size arrays must be safe on all attacker-controlled inputs.", "anchors": ["src/mac/beacon.rs:GuaranteedTimeSlotInformation::try_write", "src/mac/beacon.rs:PendingAddress::try_write", "src/mac/beacon.rs:slots", "src/mac/beacon.rs:short_addresses", "src/mac/beacon.rs:extended_addresses"]}
{"id": "C15", "title": "Command codec", "statement": "Writing a command emits its identifier octet and parameters exactly as specified; reading accepts a byte string as command c of n octets iff the first n octets are a wire form of c (reserved bits free), and round-trips every command (GTS count below 16), with the caveat that a realignment without channel page must be the end of the input.", "quantifier": "every command, every byte string", "why_tests_cant": "Nine layouts with 16-bit parameters and reserved bits.", "anchors": ["src/mac/command.rs:Command", "src/mac/command.rs:CapabilityInformation", "src/mac/command.rs:CoordinatorRealignmentData", "src/mac/command.rs:GuaranteedTimeSlotCharacteristics"]}
{"id": "C16", "title": "Invalid commands are rejected", "statement": "Reading a command never panics; identifiers outside 1..9, association statuses outside {0,1,2,3,0x80} and disassociation reasons outside {1,2} give InvalidValue; missing octets give Incomplete.", "quantifier": "every byte string", "why_tests_cant": "All octet values and all truncations.", "anchors": ["src/mac/command.rs:Command::try_read", "src/utils.rs:extended_enum"]}
{"id": "C17", "title": "Which commands are self-delimiting", "statement": "A command read from its own octets followed by any tail decodes to itself and consumes its own length, for every command except a realignment without channel page; that one decodes to itself only at the end of the input and otherwise takes the next octet - payload or checksum - as its channel page and consumes one octet more. The claim that all commands are self-delimiting is refuted.", "quantifier": "every command with a GTS count below 16, every tail", "why_tests_cant": "A counterexample needs a tail, which codec tests do not append.", "anchors": ["src/mac/command.rs:CoordinatorRealignmentData::try_read"]}
{"id": "C18", "title": "Unsecured frame wire layout", "statement": "Writing a frame without security and without a security context yields header bytes, content bytes, payload verbatim and, in Explicit footer mode only, the two footer octets; the returned length is the sum; no host-endianness dependence.", "quantifier": "every frame without auxiliary security header, every buffer", "why_tests_cant": "Arbitrary payloads and contents.", "anchors": ["src/mac/frame/mod.rs:Frame::try_write", "src/mac/frame/mod.rs:FrameContent::try_write"]}
{"id": "C19", "title": "Frame reading partitions the input", "statement": "When reading a frame succeeds, the consumed length is the whole input and the input is header bytes, content bytes, payload, footer in this order, payload and footer verbatim; nothing is dropped or duplicated. In None mode the footer is zero.", "quantifier": "every byte string, both footer modes", "why_tests_cant": "All byte strings.", "anchors": ["src/mac/frame/mod.rs:Frame::try_read"]}
{"id": "C20", "title": "Frame round trip without footer", "statement": "Reading back a written unsecured frame in None mode yields the frame (header normalised as in C05, footer zero) for every frame whose content matches its frame type and holds only values its fields can carry on the wire (4-bit beacon and GTS fields), excluding a realignment without channel page followed by a non-empty payload.", "quantifier": "every such frame", "why_tests_cant": "Infinite domain.", "anchors": ["src/mac/frame/mod.rs:Frame::try_write", "src/mac/frame/mod.rs:Frame::try_read"]}
{"id": "C21", "title": "Frame round trip with explicit footer", "statement": "Same in Explicit mode, including the footer octets, for every frame whose content matches its frame type, holds only values its fields can carry on the wire and is not a realignment without channel page.", "quantifier": "every such frame", "why_tests_cant": "Infinite domain.", "anchors": ["src/mac/frame/mod.rs:Frame::try_write", "src/mac/frame/mod.rs:Frame::try_read"]}
{"id": "C22", "title": "Frames with a realignment without channel page read back differently", "statement": "A written unsecured frame carrying a realignment without channel page and a non-empty payload reads back, in either footer mode, with the first payload octet as channel page and the rest as payload; with an empty payload and an Explicit footer, reading the library's own output panics in builds with overflow checks and is Incomplete in builds without. The claim that every frame written in Explicit mode can be read back is refuted.", "quantifier": "every such frame, both footer modes, both build modes", "why_tests_cant": "Needs the combination of one command form with one footer mode.", "anchors": ["src/mac/frame/mod.rs:Frame::try_read", "src/mac/command.rs:CoordinatorRealignmentData::try_read"]}
{"id": "C23", "title": "Frame reading panics only in one characterised case", "statement": "Frame reading never panics in None mode; in Explicit mode it panics exactly when the build has overflow checks and an otherwise valid unsecured frame has fewer than two octets after header and content (without overflow checks this is Incomplete).", "quantifier": "every byte string, both footer modes, both build modes", "why_tests_cant": "All truncations of all frames; robustness against attacker-controlled input.", "anchors": ["src/mac/frame/mod.rs:Frame::try_read"]}
{"id": "C24", "title": "Plain reading never accepts a secured frame", "statement": "If the security bit of the frame control is set, Frame::try_read returns an error for every input.", "quantifier": "every byte string with the bit set", "why_tests_cant": "All byte strings.", "anchors": ["src/mac/frame/mod.rs:Frame::try_read", "src/mac/frame/mod.rs:DecodeError"]}
{"id": "C25", "title": "Writers stay inside what they report", "statement": "Every successful write leaves the buffer length unchanged and every octet past the returned length untouched; the octets written do not depend on the previous buffer contents. In every other outcome too, errors and panics, the buffer keeps its length and holds a prefix of one octet string determined by the value and the context, followed by its old contents.", "quantifier": "every writable value, every buffer", "why_tests_cant": "All buffers and sizes.", "anchors": ["src/mac/frame/header.rs:try_write", "src/mac/beacon.rs:try_write", "src/mac/command.rs:try_write", "src/mac/frame/mod.rs:Frame::try_write"]}
{"id": "C26", "title": "Small buffers give errors, not panics", "statement": "Writing an unsecured frame (no security context) into any buffer of any size never panics: too small a buffer gives Incomplete, and success depends only on the buffer length.", "quantifier": "every frame, every buffer length", "why_tests_cant": "All truncation points.", "anchors": ["src/mac/frame/mod.rs:Frame::try_write"]}
{"id": "C27", "title": "Secured frame wire layout", "statement": "A successful write of a frame with an auxiliary header of an authenticated level yields header, content, then payload (encrypted for ENC-MIC levels, verbatim for MIC levels) and a 4/8/16-octet tag, which are exactly CCM under the key found for the destination with the 13-octet nonce EUI-64 (LE) | frame counter (LE) | level, and advances the counter by one.", "quantifier": "every frame, context, key provider, block cipher and buffer", "why_tests_cant": "Arbitrary keys, ciphers and payloads.", "anchors": ["src/mac/frame/security/mod.rs:secure_frame", "src/mac/frame/security/mod.rs:calculate_nonce", "src/mac/frame/mod.rs:Frame::try_write"]}
{"id": "C28", "title": "Secured round trip", "statement": "A secured frame written by one context and read by Frame::try_read_and_unsecure with a key provider returning the same key and EUI-64 for the source, and a device counter not beyond the frame's, is accepted, yields the original payload and normalised header, and sets the device counter to the frame counter plus one.", "quantifier": "every frame, level, cipher, key and peer state", "why_tests_cant": "Six levels x arbitrary keys, payloads, addresses.", "anchors": ["src/mac/frame/security/mod.rs:secure_frame", "src/mac/frame/security/mod.rs:unsecure_frame", "src/mac/frame/mod.rs:Frame::try_read_and_unsecure"]}
{"id": "C29", "title": "Nonces are never reused", "statement": "Over any sequence of write calls on one security context - whatever frames, buffers and failures - the counter never decreases, every call that uses the key consumes a fresh counter value, and the frame counters carried by successfully secured frames are strictly increasing.", "quantifier": "every history of write calls", "why_tests_cant": "Quantifies over histories including failing calls.", "anchors": ["src/mac/frame/security/mod.rs:secure_frame", "src/mac/frame/mod.rs:Frame::try_write"]}
{"id": "C30", "title": "Sender counter exhaustion", "statement": "With the counter at 0xFFFFFFFF every write of a frame at a level above None fails and leaves the context unchanged; the counter never wraps in any history.", "quantifier": "every frame, every buffer, every history", "why_tests_cant": "Boundary of a 2^32 state space over all frames.", "anchors": ["src/mac/frame/security/mod.rs:secure_frame"]}
{"id": "C31", "title": "Secured frames fit a PHY packet", "statement": "Every successful secured write whose content matches its Data type produces at most 125 octets (127 with FCS); longer frames are refused with FrameTooLong before the context or payload area is touched.", "quantifier": "every frame, context and buffer", "why_tests_cant": "All lengths.", "anchors": ["src/mac/frame/security/mod.rs:secure_frame"]}
{"id": "C32", "title": "Nothing is accepted without a valid tag", "statement": "If Frame::try_read_and_unsecure returns a frame with security, the last 4/8/16 octets of the input equal the CCM tag over the returned payload under the key and EUI the provider returned for the source address, with the counter and level in the received header; the level is never None or ENC.", "quantifier": "every byte string, context, key provider, device lookup and cipher", "why_tests_cant": "All forged inputs.", "anchors": ["src/mac/frame/security/mod.rs:unsecure_frame", "src/mac/frame/mod.rs:Frame::try_read_and_unsecure"]}
{"id": "C33", "title": "Rejected frames do not move the replay window", "statement": "If reading and unsecuring fails (any error), the device descriptor found is unchanged and the security context too; on success only that device's frame counter changes.", "quantifier": "every input and state", "why_tests_cant": "All error paths.", "anchors": ["src/mac/frame/security/mod.rs:unsecure_frame"]}
{"id": "C34", "title": "Replay protection over any history", "statement": "Over any sequence of received buffers, the frame counters of accepted secured frames resolved to one device descriptor are strictly increasing, so no secured frame is accepted twice - as long as no accepted frame carries counter 0xFFFFFFFF (or the build has overflow checks, where that panics).", "quantifier": "every history of receptions, every device table, changing key providers", "why_tests_cant": "Histories of unbounded length.", "anchors": ["src/mac/frame/security/mod.rs:unsecure_frame"]}
{"id": "C35", "title": "Replay protection ends at counter 0xFFFFFFFF", "statement": "When a frame that passes every check and verifies carries counter 0xFFFFFFFF, a build with overflow checks panics and leaves the device store as it was; a build without them accepts it, stores counter 0 for the device, and accepts the very same octets again. The claim that replay protection survives that counter is refuted by a concrete history.", "quantifier": "every input, context, key provider and device store, both build modes", "why_tests_cant": "Needs the wrap-around state.", "anchors": ["src/mac/frame/security/mod.rs:unsecure_frame"]}
{"id": "C36", "title": "Receiving panics only in characterised cases", "statement": "Frame::try_read_and_unsecure panics exactly when the frame is a secured one, a context is present and: the footer mode is Explicit; or (lookups and counter check having passed at an authenticated level) fewer octets than the tag remain; or the tag verifies with counter 0xFFFFFFFF under overflow checks. In particular a short unauthenticated frame can panic the receiver.", "quantifier": "every byte string, state and build mode", "why_tests_cant": "All truncations of all secured frames.", "anchors": ["src/mac/frame/security/mod.rs:unsecure_frame", "src/mac/frame/mod.rs:Frame::try_read_and_unsecure"]}
{"id": "C37", "title": "The header of a secured frame is not authenticated", "statement": "Whenever a secured frame is accepted, replacing its header octets by any other Data header of a version other than 2003 with the same source address and the same auxiliary security header - any sequence number, flags, destination, reserved bits - gives octets that the same receiver accepts with the same payload and the same change of the device store. The claim that the MAC header is authenticated is refuted.", "quantifier": "every accepted input and every such header", "why_tests_cant": "Requires reasoning about all header modifications.", "anchors": ["src/mac/frame/security/mod.rs:secure_frame", "src/mac/frame/security/mod.rs:unsecure_frame"]}
{"id": "C38", "title": "Unsecured frames are read alike by both readers", "statement": "On input without the security bit, try_read_and_unsecure behaves exactly like try_read in None mode (same frame, length and error), whatever footer mode, context and device lookup; it changes neither buffer nor device state.", "quantifier": "every byte string without security bit, every context", "why_tests_cant": "All byte strings.", "anchors": ["src/mac/frame/mod.rs:Frame::try_read_and_unsecure", "src/mac/frame/mod.rs:Frame::try_read"]}
{"id": "C39", "title": "Missing security context is an error", "statement": "Writing a frame with an auxiliary security header without context never succeeds; reading a secured frame without context never succeeds and reports InvalidSecContext once header and content decode.", "quantifier": "every frame, every byte string, every buffer", "why_tests_cant": "All inputs.", "anchors": ["src/mac/frame/header.rs:Header::try_write", "src/mac/frame/mod.rs:Frame::try_read_and_unsecure"]}
{"id": "C40", "title": "Writing panics only in characterised cases", "statement": "Frame::try_write panics exactly when a security context is supplied, the footer mode is Explicit and header and content have been written (even for a frame without security).", "quantifier": "every frame with API-reachable content, context, buffer and build mode", "why_tests_cant": "All combinations.", "anchors": ["src/mac/frame/security/mod.rs:secure_frame", "src/mac/frame/mod.rs:Frame::try_write"]}
{"id": "C41", "title": "When wire bytes depend on the host", "statement": "Two hosts write the same octets, results and context for every frame if they have the same byte order or the frame has no auxiliary security header; on a big-endian host a secured header written by the library is read back by the library with its frame counter byte-swapped. That secured frames have host-independent octets, and that a big-endian host accepts its own frames, is refuted.", "quantifier": "every frame, context and buffer, both host byte orders", "why_tests_cant": "Tests run on one host.", "anchors": ["src/mac/frame/security/auxiliary_security_header.rs:AuxiliarySecurityHeader::try_write", "src/mac/frame/security/auxiliary_security_header.rs:KeyIdentifier::try_write", "src/mac/frame/security/auxiliary_security_header.rs:AuxiliarySecurityHeader::try_read"]}
{"id": "C42", "title": "Security level semantics", "statement": "Level None writes the payload verbatim, no tag, and leaves the counter alone; such a frame is refused by the receiver (UnsupportedSecurity). Level ENC is refused by both sides (NotImplemented) and never emits an unauthenticated ciphertext. Tag length is 0/4/8/16 as the level says.", "quantifier": "every frame and context", "why_tests_cant": "All contexts and payloads.", "anchors": ["src/mac/frame/security/mod.rs:secure_frame", "src/mac/frame/security/mod.rs:unsecure_frame", "src/mac/frame/security/security_control.rs:get_mic_octet_size"]}
{"id": "C43", "title": "End-to-end ordering over an unreliable network", "statement": "If one sender secures any sequence of frames and the network drops, duplicates and reorders them arbitrarily, the receiver's accepted payloads are a subsequence of the sent ones - in order, each at most once; with in-order lossless delivery all are accepted.", "quantifier": "every sequence of frames, every delivery schedule, every cipher", "why_tests_cant": "Unbounded schedules.", "anchors": ["src/mac/frame/mod.rs:Frame::try_write", "src/mac/frame/mod.rs:Frame::try_read_and_unsecure"]}
{"id": "C44", "title": "Key lookups use the right end", "statement": "Securing consults the key provider only for (destination mode, the frame's key identifier, destination address) and unsecuring only for (source mode, received key identifier, source address): providers agreeing there give identical results.", "quantifier": "every pair of key providers, every frame/input", "why_tests_cant": "Quantifies over provider functions.", "anchors": ["src/mac/frame/security/mod.rs:secure_frame", "src/mac/frame/security/mod.rs:unsecure_frame"]}
{"id": "C45", "title": "Different frames have different bytes", "statement": "Two unsecured frames (content matching type, holding only values the wire can carry, no payload after a realignment without channel page) that encode to the same bytes under the same footer mode are equal up to the header fields that are not transmitted (and the footer in None mode). Without the exclusion the claim is refuted.", "quantifier": "every pair of frames", "why_tests_cant": "Pairs of unbounded values.", "anchors": ["src/mac/frame/mod.rs:Frame::try_write"]}
{"id": "C46", "title": "Decoding depends only on the consumed bytes", "statement": "If a header, beacon or superframe/pending-address part decodes with n consumed octets, any input sharing those n octets decodes identically (beacons, headers), and n never exceeds the input length.", "quantifier": "every pair of byte strings", "why_tests_cant": "Pairs of unbounded strings.", "anchors": ["src/mac/frame/header.rs:Header::try_read", "src/mac/beacon.rs:Beacon::try_read"]}
{"id": "C47", "title": "Errors are well-typed", "statement": "No public read or write ever surfaces BadOffset; plain frame reading fails only with Incomplete or one of the documented BadInput messages.", "quantifier": "every input to every codec", "why_tests_cant": "All error paths.", "anchors": ["src/mac/frame/mod.rs:DecodeError", "src/mac/frame/mod.rs:EncodeError", "src/mac/frame/security/mod.rs:SecurityError"]}
{"id": "C48", "title": "extended_enum conversions", "statement": "For command ids, association statuses and disassociation reasons: u8 -> enum inverts enum -> u8, accepts exactly the listed values, From panics exactly where the optional conversion returns None, and u8 == enum holds iff the octet is its code.", "quantifier": "every u8, every enum value", "why_tests_cant": "Total over octets.", "anchors": ["src/utils.rs:extended_enum", "src/mac/command.rs:CommandId", "src/mac/command.rs:AssociationStatus", "src/mac/command.rs:DisassociationReason"]}
{"id": "C49", "title": "Content that does not match the frame type becomes payload", "statement": "Frame::try_write does not refuse a frame whose content does not match its frame type: for every frame type that carries no content, the octets of the mismatched content are written and reading them back gives a frame with no content and those octets in front of the payload. The claim that mismatches are refused is refuted.", "quantifier": "every frame of a type without content, every buffer, both build modes", "why_tests_cant": "Needs adversarial values.", "anchors": ["src/mac/frame/mod.rs:Frame::try_write", "src/mac/frame/mod.rs:FrameContent::try_read"]}
{"id": "C50", "title": "Sender state on failed writes", "statement": "A failed secured write leaves the counter unchanged if it fails with FrameTooLong, for a non-Data type, on header/content/payload space, or on CounterError, and has advanced it by exactly one if it fails on key lookup, level ENC or tag space.", "quantifier": "every frame, context and buffer", "why_tests_cant": "All failure paths.", "anchors": ["src/mac/frame/security/mod.rs:secure_frame"]}
{"id": "C51", "title": "Default providers and cipher protect or accept nothing", "statement": "With the default (unimplemented) key lookup no write ever returns Ok for a frame whose security level is not None, and with the default key lookup or default device lookup no secured frame is ever accepted. With the default (unimplemented) cipher the octets written and the octets accepted do not depend on the key: a frame secured under one key is accepted by a receiver holding any other.", "quantifier": "every frame, context, buffer, key and store", "why_tests_cant": "A statement about every frame and every key; a test only shows one failing call.", "anchors": ["src/mac/frame/security/mod.rs:Unimplemented", "src/mac/frame/security/mod.rs:KeyDescriptorLookup", "src/mac/frame/security/mod.rs:DeviceDescriptorLookup", "src/mac/frame/mod.rs:FrameSerDesContext::no_security"]}
{"id": "C52", "title": "Stand-alone codecs for addresses, security control, auxiliary header, key identifier and GTS descriptor", "statement": "Each public TryRead/TryWrite implementation smaller than the header reads exactly the octets it writes, consumes exactly as many as it produced, fails with Incomplete exactly when octets are missing and never panics. The auxiliary header written carries the counter of the context, not the one stored in the value.", "quantifier": "every value, every octet string, every tail", "why_tests_cant": "Exact characterisation over every octet string.", "anchors": ["src/mac/frame/header.rs:ShortAddress", "src/mac/frame/header.rs:ExtendedAddress", "src/mac/frame/header.rs:PanId", "src/mac/frame/security/security_control.rs", "src/mac/frame/security/auxiliary_security_header.rs", "src/mac/beacon.rs:GuaranteedTimeSlotDescriptor"]}
{"id": "C53", "title": "Buffer contents after a failed secured write", "statement": "When a write of a frame at an encrypting level returns an error, the octets behind header and content in the caller's buffer are: the payload in clear exactly for CounterError and UnavailableKey; the encrypted payload without tag when only the tag did not fit; otherwise what was there before. (That a failed write never leaves the plaintext in the buffer is false.)", "quantifier": "every frame, context, key provider, footer mode and buffer", "why_tests_cant": "Covers every failure path and every buffer length; a test sees one buffer after one failure.", "anchors": ["src/mac/frame/security/mod.rs:secure_frame", "src/mac/frame/mod.rs:Frame::try_write"]}
{"id": "C54", "title": "Buffer contents after receiving", "statement": "Frame::try_read_and_unsecure never changes the length, the header octets or the trailing tag octets of the caller's buffer in any outcome, changes nothing unless the level encrypts, and after acceptance the payload lies in clear between the header and the returned offset.", "quantifier": "every input, context and device lookup, every outcome including panics", "why_tests_cant": "Quantifies over rejected and panicking inputs too.", "anchors": ["src/mac/frame/mod.rs:Frame::try_read_and_unsecure", "src/mac/frame/security/mod.rs:unsecure_frame"]}
{"id": "C55", "title": "Senders with different EUI-64 never share a nonce", "statement": "For any set of senders with pairwise different EUI-64, each making any history of Frame writes from any frame counter, no two encryptions, by one sender or by two, use the same CCM* nonce.", "quantifier": "every number of senders, every history of each, every starting counter", "why_tests_cant": "Quantifies over unbounded histories of unboundedly many senders.", "anchors": ["src/mac/frame/security/mod.rs:calculate_nonce", "src/mac/frame/security/mod.rs:secure_frame"]}
{"id": "C56", "title": "The exempt flag of a device descriptor has no effect", "statement": "Receiving gives the same result and leaves the same buffer for two device lookups that differ only in the exempt flags; the flag is never changed.", "quantifier": "every input, context and pair of lookups", "why_tests_cant": "A non-interference statement over two runs.", "anchors": ["src/mac/frame/security/mod.rs:DeviceDescriptor", "src/mac/frame/security/mod.rs:unsecure_frame"]}
{"id": "C57", "title": "CCM* agrees with RFC 3610", "statement": "For every 13-octet nonce, associated data, message, key and tag length the encryption used when writing is CBC-MAC plus counter mode as in RFC 3610; decryption accepts exactly when the tag is the one encryption would have produced; decryption inverts encryption; any other tag is rejected.", "quantifier": "every nonce, associated data, message, tag and block cipher", "why_tests_cant": "Vectors check finitely many lengths and block boundaries.", "anchors": ["src/mac/frame/security/mod.rs:secure_frame", "src/mac/frame/security/mod.rs:unsecure_frame"]}
{"id": "C58", "title": "Decoding and re-encoding an unsecured frame", "statement": "Writing a frame obtained from Frame::try_read (unless it has the compression flag without a source) into a buffer of at least the input's length returns the input's length; the octets differ from the input only in reserved and never-sent bits, which become 0 (no bit is ever set); payload and footer octets are identical; reading them gives the same frame except that seq_no_suppress and ie_present are false; repeating the cycle changes nothing more; the octets are the input iff it has no such bits set.", "quantifier": "every byte string Frame::try_read accepts, both footer modes, every buffer", "why_tests_cant": "Quantifies over all accepted inputs including all reserved-bit patterns.", "anchors": ["src/mac/frame/mod.rs:Frame::try_read", "src/mac/frame/mod.rs:Frame::try_write"]}
{"id": "C59", "title": "Sender restarts and nonce reuse", "statement": "A sender that crashes and restarts any number of times never uses a nonce twice provided each life starts with a frame counter at or beyond the one in memory at the end of every earlier life; if a counter is reused with the same key and level, the exclusive or of the two ciphertexts equals that of the two payloads, octet by octet; a sender restored with a stale counter does reuse a nonce.", "quantifier": "every number of lives, every crash point, every sequence of calls in each life", "why_tests_cant": "Crash points and lives are unbounded.", "anchors": ["src/mac/frame/security/mod.rs:secure_frame", "src/mac/frame/security/mod.rs:SecurityContext::frame_counter"]}
{"id": "C60", "title": "Receiver restarts and replay", "statement": "A receiver that goes on from a saved copy of its device descriptors accepts nothing whose counter it had accepted before saving; frames it accepted after saving and before the crash can be replayed (shown by a concrete run).", "quantifier": "every history before saving, between saving and crash, and after the restart", "why_tests_cant": "Crash points and histories are unbounded.", "anchors": ["src/mac/frame/security/mod.rs:unsecure_frame", "src/mac/frame/security/mod.rs:DeviceDescriptor"]}
{"id": "C61", "title": "Devices do not interfere and refused input leaves no trace", "statement": "In any history of receptions, deleting every input that does not claim to come from a device changes neither the results for that device's inputs nor its final descriptor; deleting every input that was not accepted changes neither the results of the accepted ones nor the final descriptors.", "quantifier": "every history of receptions, every device", "why_tests_cant": "Non-interference over two runs of unbounded histories.", "anchors": ["src/mac/frame/security/mod.rs:unsecure_frame", "src/mac/frame/security/mod.rs:DeviceDescriptorLookup"]}
{"id": "C62", "title": "Constructors, defaults and the no-security context", "statement": "With the default footer mode a read frame's payload reaches to the end of the input with a zero footer and a written frame carries no footer. A frame whose security header comes from AuxiliarySecurityHeader::new and SecurityControl::new, written with a context made by SecurityContext::new and FrameSerDesContext::new, carries exactly the given level, key identifier and the context's counter, uses the given provider's key and the given EUI-64, and leaves the context one counter further. A frame without security header is written identically whatever security context is given (no explicit footer). SecurityContext::no_security starts at counter 0 with no keys: a protected frame is refused with UnavailableKey. GTS information and pending addresses made by their new functions are empty (no slots, slots not permitted, no addresses), each is written as one zero octet and one zero octet reads back as that value; a new GTS descriptor is for the broadcast address, slot 0, length 0, receiving.", "quantifier": "every frame, level, key identifier, EUI-64, counter, key provider and buffer", "why_tests_cant": "Quantifies over all values passed to the constructors and their effect on whole frames.", "anchors": ["src/mac/frame/mod.rs:FooterMode", "src/mac/frame/mod.rs:FrameSerDesContext::new", "src/mac/frame/security/mod.rs:SecurityContext::new", "src/mac/frame/security/mod.rs:SecurityContext::no_security", "src/mac/frame/security/auxiliary_security_header.rs:AuxiliarySecurityHeader::new"]}
{"id": "C63", "title": "Error sets and conversions", "statement": "Frame::try_read, Frame::try_write and Frame::try_read_and_unsecure return only errors from a fixed documented list each (never BadOffset). Converting decode, encode and security errors to byte::Error keeps different errors different (up to the number carried), maps only NotEnoughBytes to Incomplete, and gives a wrapped write error back unchanged.", "quantifier": "every input, frame, context and buffer; every pair of errors", "why_tests_cant": "An exclusion over all inputs: no input may produce an undocumented error.", "anchors": ["src/mac/frame/mod.rs:DecodeError", "src/mac/frame/mod.rs:EncodeError", "src/mac/frame/security/mod.rs:SecurityError"]}
{"id": "C64", "title": "Receiving, the complete decision list", "statement": "For every byte string, context, device lookup and device state, Frame::try_read_and_unsecure returns exactly what the following list decides, and leaves exactly the buffer, context and device state it names: header and content part are decoded (errors come out wrapped and change nothing); a frame without security is returned as it is, with everything after its content as payload; without a security context a secured frame is InvalidSecContext; with an Explicit footer it panics; then, in this order, a frame that is not a data frame is NotImplemented, one of version 2003 UnsupportedLegacy, one of level None UnsupportedSecurity, one whose key provider has no key UnavailableKey, one without source NoSourceAddress, one without device UnavailableDevice, one whose counter is behind (or whose device is exhausted) CounterError, one of level ENC NotImplemented, one shorter than its tag panics, one with a wrong tag TransformationError; all others are accepted. Secured beacons, commands and acknowledgements are refused whatever the key provider and device lookup would say.", "quantifier": "all byte strings, contexts, key providers, device lookups, device states, hosts and build modes", "why_tests_cant": "the order in which a dozen checks decide, and that nothing else can come out, ranges over all byte strings and all lookup functions", "anchors": ["src/mac/frame/mod.rs: Frame::try_read_and_unsecure", "src/mac/frame/security/mod.rs: unsecure_frame"]}
{"id": "C65", "title": "Truncated and extended inputs", "statement": "A header, beacon or command that was decoded from a byte string is reported Incomplete when the string is cut anywhere before its end - except a coordinator realignment with channel page cut just before the page, which decodes as a realignment without one. A frame read without footer, cut anywhere, is Incomplete if the cut is in its header or content (same exception) and otherwise the same frame with a shorter payload; extended, it is the same frame with a longer payload, unless its content is a realignment without channel page. An input rejected for what it contains (BadInput) stays rejected with the same message whatever follows.", "quantifier": "all byte strings, all cut positions, all continuations", "why_tests_cant": "ranges over all inputs and all their prefixes and extensions", "anchors": ["src/mac/frame/header.rs: Header::try_read", "src/mac/beacon.rs: Beacon::try_read", "src/mac/command.rs: Command::try_read", "src/mac/frame/mod.rs: Frame::try_read"]}
{"id": "C66", "title": "Footer modes that do not match", "statement": "If a byte string reads as a frame without footer, then with an explicit footer it reads as the same frame whose last two payload octets have become the footer, unless the payload has fewer than two octets, when reading panics with overflow checks and is Incomplete without. If it reads as a frame with explicit footer, it reads without footer as the same frame with the footer at the end of the payload.", "quantifier": "all byte strings", "why_tests_cant": "ranges over all byte strings in both modes", "anchors": ["src/mac/frame/mod.rs: Frame::try_read, FooterMode"]}
{"id": "C67", "title": "Reading and the host", "statement": "Whether a header is accepted, and with which error it is not, is the same on every host; what is read is the same too except for the number a key source stands for, which is read in the host's byte order. Unsecured frames are read alike on all hosts (and, without footer, in all builds). Receiving gives the same result, buffer, context and device state on hosts of one byte order and build mode, and on all byte orders for frames without key source. A secured frame with a key source accepted on one host can be refused for lack of a key on a host of the other byte order.", "quantifier": "all byte strings, all pairs of hosts, ciphers, contexts, lookups and device states", "why_tests_cant": "tests run on one host; the claim compares all pairs of hosts on all inputs", "anchors": ["src/mac/frame/header.rs: Header::try_read", "src/mac/frame/security/auxiliary_security_header.rs: KeyIdentifier", "src/mac/frame/mod.rs: Frame::try_read, Frame::try_read_and_unsecure"]}
{"id": "C68", "title": "What earlier traffic can do to a later frame", "statement": "A secured frame that a receiver would accept is, after any further receptions, accepted with the same result if every frame accepted meanwhile for the same device had a smaller counter, and refused with CounterError otherwise (frames with counter 0xFFFFFFFF aside, see C35). Input that is not accepted for its device therefore can never keep it out.", "quantifier": "all sequences of receptions with arbitrary octets and contexts, all device stores, all frames", "why_tests_cant": "ranges over all histories of arbitrary octets", "anchors": ["src/mac/frame/security/mod.rs: unsecure_frame", "src/mac/frame/mod.rs: Frame::try_read_and_unsecure"]}
{"id": "C69", "title": "Networks of many senders", "statement": "Any number of senders, each known to one receiver as a device of its own, send any frames; their octets arrive interleaved with one another and with arbitrary other traffic. If the frames of each sender that arrive do so in sending order, each once, and nothing else is accepted in their name, every one of them is accepted exactly as sent. With duplication, reordering and loss, what is accepted for each device is always a subsequence of what its sender sent, provided no tag is forged.", "quantifier": "all numbers of senders, all calls they make, all interleavings, losses, duplications and reorderings, all other traffic", "why_tests_cant": "ranges over all schedules of all senders and all octets in between", "anchors": ["src/mac/frame/mod.rs: Frame::try_write, Frame::try_read_and_unsecure", "src/mac/frame/security/mod.rs: secure_frame, unsecure_frame"]}
{"id": "C70", "title": "What an active attacker can achieve", "statement": "Any number of senders with different EUI-64, possibly sharing keys, send to one receiver. An attacker who sees everything delivers any octets in any order - altered headers, replays, moved source addresses, garbage - but no tag that verifies for a payload which no sender secured with that key and nonce. Then for each device the sequence of (frame counter, security level, payload) the receiver accepts is a subsequence of what that device's own sender sent: nothing is accepted twice, out of order, or in the name of another device. (Headers are not covered: see C37.)", "quantifier": "all senders, all calls they make, all octets and orders of delivery, all block ciphers and key providers", "why_tests_cant": "ranges over all attacker behaviours and all histories", "anchors": ["src/mac/frame/mod.rs: Frame::try_write, Frame::try_read_and_unsecure", "src/mac/frame/security/mod.rs: secure_frame, unsecure_frame, calculate_nonce"]}
{"id": "C71", "title": "Key stream is never reused", "statement": "Whatever a system of nodes with different EUI-64 sends and receives, in any order and even if all share one key: the inputs of the block cipher for all key stream blocks (tag block and payload blocks of every frame that used up a counter value) are pairwise different, and none is the first block of an authentication. The payload of an encrypted frame on the air is the plaintext combined with exactly these blocks.", "quantifier": "all systems of nodes, all frames, payload lengths, levels, interleavings, block ciphers", "why_tests_cant": "needs all pairs of blocks of all frames of all histories", "anchors": ["src/mac/frame/mod.rs: Frame::try_write, Frame::try_read_and_unsecure", "src/mac/frame/security/mod.rs: secure_frame, unsecure_frame, calculate_nonce"]}
{"id": "C72", "title": "How many frames a key lasts for", "statement": "A security context's frame counter advances by exactly the number of calls that used it up, so at most 0xFFFFFFFF - start frames are ever secured with it; if every call is an ordinary one (data frame, authenticated level, not too long, key available, room in the buffer) the first 0xFFFFFFFF - start of them all succeed and all later ones fail with CounterError. A receiver accepts at most 0xFFFFFFFF - start frames from one device, however many arrive.", "quantifier": "all histories of calls or arrivals, of any length, all starting counters", "why_tests_cant": "the limit is 2^32 - 1 calls", "anchors": ["src/mac/frame/mod.rs: Frame::try_write, Frame::try_read_and_unsecure", "src/mac/frame/security/mod.rs: secure_frame, unsecure_frame, calculate_nonce"]}
{"id": "C73", "title": "Sending and receiving do not interfere", "statement": "A node uses one security context and one device store for writing and reading in any interleaving: its writes produce what they would produce if it never read anything, and its reads yield what they would yield (and leave the store as they would) if it never wrote anything.", "quantifier": "all interleavings of writes and reads with any frames and octets", "why_tests_cant": "ranges over all interleavings and inputs", "anchors": ["src/mac/frame/mod.rs: Frame::try_write, Frame::try_read_and_unsecure", "src/mac/frame/security/mod.rs: secure_frame, unsecure_frame, calculate_nonce"]}
{"id": "C74", "title": "Systems of nodes that send and receive", "statement": "Nodes with different EUI-64 take steps in any order: write any frame, read any octets. If no tag is forged (a tag that verifies belongs to a payload secured earlier in the run with that key and nonce), then at every moment what node y has accepted for node x (counter, level, payload) is a subsequence of what x has secured so far; nonces are never reused across the system; and a secured frame of x, read unchanged by y, is accepted exactly as sent if all frames y accepted for x before have smaller counters, and refused with CounterError otherwise.", "quantifier": "all numbers of nodes, all schedules, all frames and all octets given to readers", "why_tests_cant": "ranges over all schedules of a concurrent system", "anchors": ["src/mac/frame/mod.rs: Frame::try_write, Frame::try_read_and_unsecure", "src/mac/frame/security/mod.rs: secure_frame, unsecure_frame, calculate_nonce"]}
{"id": "C75", "title": "What == says about frames", "statement": "== on frames, headers, addresses, auxiliary headers, contents, beacons and commands holds exactly for equal values. Although == also compares the unused parts of the arrays inside beacons, two beacons a program can get hold of are == exactly when everything it can see of them (superframe specification, permit flag, slots, short and extended addresses) is equal, and two decoded beacons exactly when they encode to the same octets. A frame written and read back is == to the original exactly when sequence-number suppression and IE flags are clear, compressed PAN identifiers agree, and an unsent footer was zero; for a secured frame the frame counter stored in its auxiliary header must moreover be the sender's counter and its key identifier mode must fit its key identifier.", "quantifier": "all pairs of values; all frames, buffers, hosts, ciphers, contexts and device stores for the round trips", "why_tests_cant": "== on values with private arrays depends on every way of producing them; tests compare single frames", "anchors": ["src/mac/frame/mod.rs:154 derive(PartialEq) for Frame", "src/mac/frame/header.rs:24 Header", "src/mac/beacon.rs:237 GuaranteedTimeSlotInformation", "src/mac/beacon.rs:356 PendingAddress", "src/mac/command.rs:226 Command"]}
{"id": "C76", "title": "Reflection of a node's own frames", "statement": "A node whose device store has its own address, and whose key provider answers for it with its own EUI-64 and the key it sent with, accepts its own secured frame when it is handed the octets back unchanged. If its address is not in its store or has no key, nothing secured that carries the address is accepted and nothing changes. In any system of nodes without forged tags, every secured frame accepted was secured earlier, with its counter, level and payload, by the node its source address stands for; hence a node that does not list itself never accepts anything it secured itself, however altered and even under one shared key.", "quantifier": "all nodes, contexts, stores and frames; all systems, schedules and octets delivered", "why_tests_cant": "the tests read a frame with the context that wrote it and a device store that answers for every address, so they depend on reflection being accepted; nothing tests what is refused over histories", "anchors": ["src/mac/frame/mod.rs Frame::try_read_and_unsecure", "src/mac/frame/security/mod.rs unsecure_frame", "src/mac/frame/security/mod.rs DeviceDescriptorLookup", "src/mac/frame/security/mod.rs KeyDescriptorLookup"]}
{"id": "C77", "title": "Frame protection compared with the IEEE standard", "statement": "The nonce used for a secured frame is the standard's nonce (address, counter, level, most significant octet first) for the same address and counter exactly when the octets of both read the same in both directions, and always the standard's nonce for the octet-reversed address and counter. A secured frame written is its header followed by the standard's protection of the payload under an empty header with that reversed address and counter; so for palindromic address and counter all but the tag is as in the standard. It is not the case that frames conform: at each of the six levels with a tag there is a frame whose octets differ from the standard's, and the receiver accepts the former and refuses the latter with TransformationError.", "quantifier": "all addresses, counters, levels, frames, contexts, buffers, ciphers and hosts for the characterisation; for each level a concrete AES frame for the refutation", "why_tests_cant": "the crate's tests only read back what the crate wrote, so a deviation common to both directions cannot show", "anchors": ["src/mac/frame/security/mod.rs:300 calculate_nonce", "src/mac/frame/security/mod.rs secure_frame", "src/mac/frame/security/mod.rs unsecure_frame"]}
{"id": "C78", "title": "Damage that is always noticed", "statement": "Take octets that a receiver accepts as a secured frame. If its tag is replaced by any other of the same length, it is refused with TransformationError, whatever the level. If the level has a 16-octet tag (MIC-128, ENC-MIC-128) and the block cipher encrypts no two blocks alike - AES-128 does not - then any damage to the payload confined to one cipher block, in particular any change of any single octet of payload or tag, is refused with certainty, not merely with high probability. Refusals leave context and device store as they were, so the undamaged frame is still accepted after any number of damaged copies. With 4- and 8-octet tags this does not hold: there are accepted frames that differ from each other in one payload octet (4-octet tag) or within one block (8-octet tag) only.", "quantifier": "all accepted frames, contexts, device stores, damage patterns, hosts and ciphers (permutations); all keys for AES; concrete AES collisions for the refutation", "why_tests_cant": "there are 2^8 changes per octet of every possible frame, key and counter; a test flips a few bits of one frame", "anchors": ["src/mac/frame/security/mod.rs unsecure_frame", "src/mac/frame/mod.rs Frame::try_read_and_unsecure"]}
{"id": "C79", "title": "Equal payloads never look equal on the air", "statement": "In any system of nodes with distinct extended addresses, whatever they send and receive in any order: two 16-octet blocks of payload encrypted under one key - in two frames of one node, of two nodes, or at two places of one frame - that have equal plaintext appear as different octets on the air, provided the block cipher encrypts no two blocks alike (AES-128 does not). So a payload of at least 16 octets that is sent again looks different each time. For shorter payloads this does not hold.", "quantifier": "all systems, schedules, histories, keys, frames and blocks; ciphers that are permutations, AES-128 in particular", "why_tests_cant": "it compares every pair of frames of every history; a test sees a few frames", "anchors": ["src/mac/frame/security/mod.rs secure_frame", "src/mac/frame/security/mod.rs:300 calculate_nonce", "src/mac/frame/mod.rs Frame::try_write"]}
{"id": "C80", "title": "Exactly the reserved bits are ignored", "statement": "If reading an octet string without security gives a frame, then another octet string gives the same frame exactly if it is equally long and differs only in reserved bits: bit 7 of the frame control field; in a beacon bit 5 of the second superframe octet, bits 3-6 of the GTS specification, the bits of the GTS directions octet beyond the slot count and bits 3 and 7 of the pending address specification; in a command bits 0, 4 and 5 of the capability information and bits 6 and 7 of the GTS characteristics. So inverting one bit leaves the result alone exactly if it is one of these, and a frame of any other type has exactly one other octet string that reads the same.", "quantifier": "all pairs of octet strings of any length, both footer modes, all hosts; all octet and bit positions", "why_tests_cant": "that no other bit is ignored, and that none of these has an effect, ranges over all inputs of all lengths and over pairs of them", "anchors": ["src/mac/frame/mod.rs Frame::try_read", "src/mac/frame/header.rs Header::try_read", "src/mac/beacon.rs", "src/mac/command.rs"]}
{"id": "C81", "title": "Changing keys, identities and tables at any time", "statement": "An application may change keys, key provider, EUI-64 and footer mode before every write: as long as it does not lower the frame counter from one write to the next, the counters used up are strictly increasing and no two writes use the same nonce. It may change keys, device lookup, address assignments and the device table before every reception: as long as it does not lower the counter stored for a device, the counters accepted for that device are strictly increasing and no octets are accepted twice (counter 0xFFFFFFFF aside, C35). That condition is the only one: a frame once accepted is accepted again, with the same keys, exactly if the counter then stored for its device is not beyond the frame's and is not 0xFFFFFFFF.", "quantifier": "all sequences of writes and of receptions, each with an arbitrary context, provider, lookup and store of its own", "why_tests_cant": "tests keep one context and one table; the claim ranges over every way of changing them at every point of every history", "anchors": ["src/mac/frame/security/mod.rs secure_frame", "src/mac/frame/security/mod.rs unsecure_frame", "src/mac/frame/security/mod.rs SecurityContext", "src/mac/frame/security/mod.rs KeyDescriptorLookup, DeviceDescriptorLookup"]}
{"id": "C82", "title": "Guessing tags", "statement": "For a header the receiver would go on to verify (key and device found, counter fresh and not the last) and any payload octets behind it, exactly one tag of the level's length is accepted; it delivers a payload of the same length (the octets themselves unless the level encrypts) and moves the device's counter just past the frame's. Every other tag of that length gives TransformationError and leaves the device table as it was, however often this is tried: there is no limit to the attempts and wrong guesses do not lock out the right one. After the right one every further attempt gives CounterError. Trying all 256^t tags of t octets, in any order, therefore always gets the frame accepted exactly once.", "quantifier": "all headers, payloads of any length, keys and device tables; all lists of guesses of any length and order", "why_tests_cant": "the set of tags (up to 256^16) and the set of orders cannot be enumerated; the claim is about every history of attempts", "anchors": ["src/mac/frame/security/mod.rs unsecure_frame", "src/mac/frame/mod.rs Frame::try_read_and_unsecure"]}
{"id": "C83", "title": "Hashing fits ==", "statement": "Values of the crate can be keys of hash tables: two frames, headers, auxiliary headers, addresses, contents, beacons or commands that are == feed a hasher the same octets; two that are not == feed it different octets, also if more is hashed after them (so a pair of addresses is as good a key as one); collisions can only come from the hasher. PAN identifiers and addresses alone (Hash and Hash32) likewise.", "quantifier": "all pairs of values a program can hold, all hosts (byte orders and word sizes), whatever is hashed afterwards", "why_tests_cant": "ranges over all pairs of values; that unused parts of arrays, lengths and variants never make two streams coincide cannot be enumerated", "anchors": ["src/mac/frame/mod.rs derive(Hash) Frame, FrameContent", "src/mac/frame/header.rs derive(Hash, Hash32) PanId, ShortAddress, ExtendedAddress, derive(Hash) Address, Header", "src/mac/beacon.rs derive(Hash)", "src/mac/command.rs derive(Hash)", "src/utils.rs extended_enum!"]}
{"id": "C84", "title": "Only the key found is used, on a fixed list of blocks, and only for frames that pass every other check", "statement": "Writing or receiving a frame evaluates the block cipher only under the key that the key provider returned for it, and only on the blocks CCM prescribes for this frame: those of the CBC-MAC, the block that covers the tag and, at encrypting levels, one block per 16 octets of payload begun. Two ciphers that agree on those blocks under that key cannot be told apart by the result, the buffer, the context or the device store, whatever they do elsewhere. If the frame is refused before that point (bad compression, not a data frame, too long, no key, counter exhausted or stale, unknown device, buffer too small for header and payload, level without tag, ...), no cipher is involved at all: the outcome is the same for every cipher. The number of blocks is 2 + 2*ceil(n/16) at encrypting levels and 2 + ceil((n+2)/16) (2 if n = 0) at the MIC levels, and never more than 18 for a frame that is sent.", "quantifier": "all frames, buffers, contexts, key providers, device stores, received octet strings and all pairs of block ciphers", "why_tests_cant": "a test runs one cipher; independence from everything the cipher does elsewhere, and absence of key use on every refusing path, range over all ciphers and inputs", "anchors": ["src/mac/frame/security/mod.rs: secure_frame, unsecure_frame", "src/mac/frame/mod.rs: Frame::try_write, Frame::try_read_and_unsecure"]}
{"id": "C85", "title": "What a write shows besides the protected payload", "statement": "How a write with a security context ends, what it does to the context, the number of octets it produces and every octet outside payload and tag depend on the header, the content and the length of the payload only: two frames that differ just in the octets of their payloads give the same result, the same context afterwards and buffers that differ nowhere but in the payload and tag area, for every buffer, on success and on every failure. So do two whole histories of frames of the same shapes. The length of the payload is visible: a successful write returns front + payload + tag octets.", "quantifier": "all pairs of frames of one shape, contexts, key providers, ciphers, buffers; all pairs of histories of frames of one shape", "why_tests_cant": "a noninterference statement: it compares runs on all pairs of payloads, for every buffer size and failure", "anchors": ["src/mac/frame/mod.rs: Frame::try_write", "src/mac/frame/security/mod.rs: secure_frame"]}
{"id": "C86", "title": "Whatever was sent fits any other secrets", "statement": "Take any number of senders with different extended addresses, any history of writes of each (successes, refusals, failures, all levels), and for each an alternative history that differs only in the octets of payloads to be encrypted. Then there is a block cipher under which the alternative histories give exactly the same observations: the same frame counters, results and octets on the air, frame by frame. So the octets tell nothing about encrypted payloads beyond their lengths unless one uses that the cipher is a particular one. The claim fails, as it must, if a sender uses a counter twice (equal ciphertexts prove equal payloads, whatever the cipher), and if only ciphers that are permutations are considered (equal ciphertext blocks in one payload prove different plaintext blocks).", "quantifier": "all ciphers, key providers, contexts, sets of senders with distinct addresses, histories of any length, and all alternative payloads", "why_tests_cant": "an existence statement about ciphers for every pair of histories", "anchors": ["src/mac/frame/security/mod.rs: secure_frame", "src/mac/frame/mod.rs: Frame::try_write", "src/mac/frame/security/mod.rs: SecurityContext"]}
{"id": "C87", "title": "Forged frames: acceptance is not decided by what was heard", "statement": "Take any set of senders with different extended addresses and any frames they wrote with the library, and a frame that reaches tag verification at a receiver (header parses, key and device found, counter fresh and below the last) whose protected payload was not sent under that address, frame counter and level. Then among the block ciphers consistent with every frame heard (same octets, results, counters) there is one under which the receiver accepts the frame and one under which it returns TransformationError: no cutting, pasting or re-tagging of overheard frames is sure to be accepted or refused for reasons of the library's own. Conversely, a protected payload that was sent is accepted under every consistent cipher with exactly the tag it was sent with, and refused with any other.", "quantifier": "all sets of senders, contexts and write histories, all received octets, key and device stores, security levels, and all ciphers", "why_tests_cant": "It quantifies over every history, every forged frame and over all ciphers that explain the history; a test runs one cipher on one frame.", "anchors": ["src/mac/frame/security/mod.rs: unsecure_frame", "src/mac/frame/security/mod.rs: secure_frame", "src/mac/frame/mod.rs: Frame::try_read_and_unsecure"]}
{"id": "C88", "title": "How much fits a frame", "statement": "An unsecured write takes at most 23 octets beside the payload for data, acknowledgement and other frames without content, 32 for commands and 119 for beacons (two more with an explicit footer), so frames with at most 102, 93 and 6 octets of payload always fit a 127-octet PHY packet with its checksum. Nothing limits unsecured frames otherwise: any payload is written if the buffer has room (so that every written frame fits a PHY packet is false). A secured data frame (key found, counter not exhausted, buffer of 127 octets) is written exactly if its payload is at most 125 octets less the header (counted with both PAN identifiers, even if one is compressed away), the security header and the tag, and refused with FrameTooLong otherwise; that capacity is never below 72 nor above 113 octets.", "quantifier": "every frame, context, payload and buffer", "why_tests_cant": "bounds over all headers, beacons, commands and payloads; exact thresholds for every combination of addressing, key identifier and level", "anchors": ["src/mac/frame/mod.rs: Frame::try_write", "src/mac/frame/security/mod.rs: secure_frame", "src/mac/frame/header.rs: Header::get_octet_size", "src/mac/beacon.rs: Beacon::try_write"]}
{"id": "C89", "title": "Key providers with a state of their own", "statement": "A key provider may change its state when it is asked (it gets &self, but may use interior mutability or hardware). Writing then gives the same result, octets and counter as with the provider's answers at the moment of the call; the provider is asked at most once, about the frame's key identifier and destination, and exactly in those calls that use up a frame counter. Reading likewise, and the provider is asked exactly once, about the key identifier and source address, for every byte string that looks like a secured data frame with a security level, before the sender's counter or the tag is checked. Whatever the provider does, and whatever else changes its state between calls, no nonce is used twice by one context and no frame is accepted twice from one device. A sender and a receiver whose providers go through the same keys understand each other as long as exactly the sent frames arrive, in order; one forged or repeated frame moves the receiver's provider on, and (refuted) genuine frames are then no longer accepted.", "quantifier": "every stateful provider, state, frame, buffer, byte string, device store, and history of calls with arbitrary changes of the provider's state in between", "why_tests_cant": "A test has one provider; the claim ranges over all provider state machines and all interleavings of their changes with calls.", "anchors": ["src/mac/frame/security/mod.rs:KeyDescriptorLookup", "src/mac/frame/security/mod.rs:secure_frame", "src/mac/frame/security/mod.rs:unsecure_frame", "src/mac/frame/mod.rs:Frame::try_write", "src/mac/frame/mod.rs:Frame::try_read_and_unsecure"]}
{"id": "C90", "title": "Calls that are cut short", "statement": "A write or a reception may end in the middle: power fails while context, device store and buffer survive, or user code it runs (key provider, cipher, device lookup) panics. Wherever a write is stopped, as long as the frame counter found in the context is the old one the buffer holds only old octets and header and payload in clear, nothing that depends on the key; otherwise the counter is exactly one higher. So a sender that is stopped any number of times anywhere and goes on with the counter it finds never uses a nonce twice. Wherever a reception is stopped, the device store is the one from before or the one the completed call would have left, and unchanged for a frame that would be rejected; so either the octets are treated afterwards as if nothing had happened, or the frame is lost and refused when it comes again; no frame is given to the application twice. Refuted: that the buffer can be reused for another try, and that it never shows an unauthenticated payload.", "quantifier": "every frame, buffer, context, key provider, byte string, device store, stopping point (between two assignments or inside one, with any octets of it done), and every history of stopped and completed calls", "why_tests_cant": "A test runs calls to their end; the claim is about every point at which one can be stopped and everything that may follow.", "anchors": ["src/mac/frame/security/mod.rs:secure_frame", "src/mac/frame/security/mod.rs:unsecure_frame", "src/mac/frame/mod.rs:Frame::try_write", "src/mac/frame/mod.rs:Frame::try_read_and_unsecure"]}
{"id": "C91", "title": "Writing, the complete outcome", "statement": "For every frame, context (with or without security, either footer mode) and buffer of any size, the result, the context and every octet of the buffer after a write are one explicit function: if the buffer holds what there is to write, the octets, the end (length, error or panic) and the counter use are those of the plan; otherwise the result is Incomplete, the buffer holds the fields of the frame, whole and in order, up to the first that does not fit, the rest of the buffer is untouched, and the frame counter is used up exactly if only the tag is missing. A write is Incomplete if and only if the buffer is smaller than what there is to write, and a buffer that is large enough gives the same outcome as any larger one. Two hosts of the same byte order, and any two if the frame is unsecured or there is no security context, do the same in all of this.", "quantifier": "every frame, context, cipher, host configuration and buffer content and length", "why_tests_cant": "buffer lengths times frame shapes times contexts; a test fixes one buffer size and usually looks only at the result", "anchors": ["src/mac/frame/mod.rs: Frame::try_write", "src/mac/frame/header.rs: Header::try_write", "src/mac/beacon.rs", "src/mac/command.rs", "src/mac/frame/security/mod.rs: secure_frame"]}
{"id": "C92", "title": "Reading, the complete outcome", "statement": "For every octet sequence, what the readers return is one explicit function of the octets: Header, Beacon and Command readers, Frame::try_read with either footer mode, and Frame::try_read_and_unsecure. The function takes every header, auxiliary security header, superframe, slot, pending-address and command field from its position in the input (numbers by byte order, flags by bit), gives the number of octets consumed, and names the first error if there is one; a secured reception also fixes the buffer, the context and the device store. The width of usize has no influence, and a build without overflow checks differs from one with them only where that one panics.", "quantifier": "every input of any length, footer mode, context, device store, cipher and host configuration", "why_tests_cant": "all octet sequences of all lengths; a test decodes a few frames and compares some fields", "anchors": ["src/mac/frame/header.rs: Header::try_read", "src/mac/frame/security/auxiliary_security_header.rs", "src/mac/beacon.rs", "src/mac/command.rs", "src/mac/frame/mod.rs: Frame::try_read, Frame::try_read_and_unsecure", "src/mac/frame/security/mod.rs: unsecure_frame"]}
{"id": "C93", "title": "Addresses survive serde", "statement": "With the serde feature: for every PanId, ShortAddress, ExtendedAddress and Address, deserializing gives the value back from every form in which a format can faithfully show its serialization (variants by number or by name, as text or octets; integers signed or unsigned; newtypes wrapped or as sequences; sequences that go on), and it gives that value from nothing else. Whatever is deserialized is in the range of its type - numbers that do not fit are refused, not cut -, no input stands for two addresses, and every address can be shown.", "quantifier": "every address and every value a serde format can present", "why_tests_cant": "all formats and all presented values; the repository has no test of the serde feature at all", "anchors": ["src/mac/frame/header.rs: derive(serde::Serialize, serde::Deserialize) on PanId, ShortAddress, ExtendedAddress, Address", "Cargo.toml: feature serde"]}
{"id": "C94", "title": "Trying several keys on a received frame", "statement": "An application that calls Frame::try_read_and_unsecure on one received buffer with one security context after another, until a call does not fail, gets the results, final buffer and final device store it would get by giving each call a fresh copy and the original store - provided the frame is not at an encrypting level, or no attempt fails at its tag, or the cipher leaves the buffer of a failed decryption as it was; with copies, the first context that accepts on its own decides and the failed attempts before it leave no trace. In every case a failed attempt leaves context and device store alone, and the buffer too unless an encrypted frame failed at its tag, when exactly the encrypted payload is replaced by what the cipher leaves. That the right key may be tried second in the same buffer is refuted.", "quantifier": "every input, list of contexts of any length, key providers, device lookup and store, block cipher", "why_tests_cant": "lists of keys of any length against every input; the crate's tests use one key and look at a failed buffer nowhere", "anchors": ["src/mac/frame/mod.rs: Frame::try_read_and_unsecure", "src/mac/frame/security/mod.rs: unsecure_frame"]}
{"id": "C95", "title": "Relaying secured frames without the key", "statement": "Whenever a receiver would accept a secured frame, a relay without any key that reads its header with Header::try_read, changes anything but source, frame type and security header (and does not make it version 2003), and writes it with Header::try_write and a context whose frame counter is the one in the frame, before the remaining octets, produces octets that this receiver accepts with the payload and the device store change of the original, and with exactly the header the relay wrote. With the relay's own counter in the context the claim is refuted.", "quantifier": "every accepted input, every header change, every relay context with that counter, key provider, device store and block cipher; little-endian hosts", "why_tests_cant": "every header against every accepted frame; a test relays a few", "anchors": ["src/mac/frame/header.rs: Header::try_read, Header::try_write", "src/mac/frame/mod.rs: Frame::try_read_and_unsecure", "src/mac/frame/security/auxiliary_security_header.rs: TryWrite"]}
{"id": "C96", "title": "Copies of a security context", "statement": "SecurityContext is Copy. An application that starts with one context and copies, writes and reads with its contexts in any order gets from reading, whichever context it uses, exactly what the untouched original would have given for the same octets (results and device store); as long as only one of the contexts writes, it writes what it would have written alone and no nonce is used twice. The frame counters a context uses up are consecutive from the one it was copied with, so if two copies both write, the k-th encryption of the one and the k-th of the other use the same counter, and the same nonce exactly if their levels are the same; copies whose counter ranges do not meet are safe. That two copies may both write is refuted: one nonce, and the exclusive or of the two ciphertexts is that of the payloads.", "quantifier": "every context, every sequence of copying, writing and reading with any number of copies, every frame, buffer and received octets, key provider, device store and block cipher", "why_tests_cant": "every interleaving of copies; a test uses one context", "anchors": ["src/mac/frame/security/mod.rs: SecurityContext (derive Clone, Copy)", "src/mac/frame/mod.rs: Frame::try_read_and_unsecure, TryWrite for Frame, FrameSerDesContext"]}
{"id": "C97", "title": "Devices with more than one address", "statement": "If all addresses for which the key provider gives one EUI-64 lead to one device descriptor, then over any history of receptions no frame counter is accepted twice for an EUI-64, whatever addresses the frames arrive under and however their headers were altered (counter 0xFFFFFFFF aside, C35). If a device has a descriptor for each of its addresses this is refuted: a frame once accepted is accepted again, with the same payload, under every other source address for which the provider gives the same EUI-64 and key and whose descriptor is not beyond the frame's counter; only the header is altered, which takes no key.", "quantifier": "every history of receptions with any octets, contexts and key providers, every device store and assignment of addresses to descriptors; every accepted frame and replacement header", "why_tests_cant": "every history and every header an attacker may put before a heard payload; a test uses one address per device", "anchors": ["src/mac/frame/mod.rs: Frame::try_read_and_unsecure", "src/mac/frame/security/mod.rs: unsecure_frame, KeyDescriptorLookup, DeviceDescriptorLookup"]}
{"id": "C98", "title": "Counters that survive a loss of power", "statement": "The library keeps frame counters in memory only. (Sender) An application that saves a number R ahead of its counter before it reaches it, never calls with a counter that is not below the number saved, and starts from that number after every loss of power - at any time, in the middle of a call too - never uses a nonce twice, whatever R. It wastes at most R counters for every start, and saves once for R counters used and once more for every start. (Receiver) An application that saves its device store after a reception and before it acts on the frame, and restarts from the store saved, acts on strictly increasing counters for every device and on no octets twice (counter 0xFFFFFFFF aside, C35). Refuted for the other order in both cases: saving the counter after the call, and saving the store after acting, one loss of power makes a nonce be used twice and a frame be acted on twice.", "quantifier": "every number saved and step R, every sequence of starts, saves and calls, each call stopped anywhere, every frame, buffer, key provider and block cipher; every sequence of restarts, saves and receptions, each stopped anywhere, every octets, contexts and lawful device store", "why_tests_cant": "every point in time at which the power may be lost, over any number of losses; a test cannot lose its memory at each of them", "anchors": ["src/mac/frame/mod.rs: TryWrite for Frame, Frame::try_read_and_unsecure", "src/mac/frame/security/mod.rs: SecurityContext::frame_counter, secure_frame, unsecure_frame, DeviceDescriptor"]}
{"id": "C99", "title": "Items one after another in one buffer", "statement": "Headers, beacons, commands, superframe specifications, GTS informations, pending addresses and PAN, short and extended addresses written one after another with write_with at a running offset come back with read_with at the same offsets, in order and equal (headers as sent, C05), and the offset ends at the same place; what is before the offset and behind the items is neither changed nor looked at. Writing a sequence succeeds exactly if the sum of what the items take fits behind the offset, is BadOffset exactly for an offset beyond the end of the buffer, otherwise Incomplete; it never panics. Reading any octets as any sequence of kinds never panics, stays inside the buffer, and BadOffset comes only from the offset given. Different sequences of the same kinds have different octets. Two conditions are needed, and shown to be: nothing after a realignment without channel page, and something after a GTS information with slots.", "quantifier": "every sequence of items of any length, every value writable and readable on its own, every buffer, offset and following octets; every octets and sequence of kinds for reading", "why_tests_cant": "every sequence of items at every offset; tests write single items at offset 0", "anchors": ["src/mac/frame/header.rs: TryRead/TryWrite for Header, PanId, ShortAddress, ExtendedAddress", "src/mac/beacon.rs: TryRead/TryWrite for Beacon, SuperframeSpecification, GuaranteedTimeSlotInformation, PendingAddress", "src/mac/command.rs: TryRead/TryWrite for Command"]}
{"id": "C100", "title": "New keys and counters that start again", "statement": "Counters may start again when the keys change. Sender: over any number of histories, each with a context, keys and a start counter of its own (0 every time, say), no key is ever used twice with one nonce as long as no key is found in two of the contexts; and one call at a time, with any contexts, as long as the counter is not lowered between two calls that find the same key and have the same EUI-64. Receiver: if the counter stored for a device is only lowered for frames that find another key, frames accepted for it with one key have strictly increasing counters, and the same octets are never accepted twice with one key. A frame accepted twice must therefore fit two keys: the ciphertext and the tag it carries are those of the first payload under the first key and of the second payload, of the same length, under the second.", "quantifier": "every sequence of contexts, key providers, frames, buffers, lookups, stores and received octets; every key and counter", "why_tests_cant": "every history over every number of key changes; tests use one key", "anchors": ["src/mac/frame/security/mod.rs: SecurityContext::new, KeyDescriptorLookup, secure_frame, unsecure_frame, DeviceDescriptorLookup", "src/mac/frame/mod.rs: Frame::try_read_and_unsecure, TryWrite for Frame"]}
{"id": "C101", "title": "The order of arrival", "statement": "A receiver accepts, for each device, exactly the arriving octets that fit a frame of it - that are accepted from some state of the device store - with a counter not below the one stored at the start and above the counter of everything that fits it heard before. The counter stored in the end is the larger of the one at the start and one more than the largest heard, so neither the order of arrival nor the number of copies matters for the descriptors stored in the end; the frame with the largest counter gets through in every order; hearing any of it again is never accepted and changes nothing; and two receivers that accept the same two frames of a device accept them in the same order, whatever else they hear. A frame with counter 0xFFFFFFFF where additions are not checked is the exception, and shown to be one.", "quantifier": "every sequence of arriving octets, every order and multiplicity, every context, lookup, device store and cipher", "why_tests_cant": "every order of arrival of every set of inputs; tests deliver in order", "anchors": ["src/mac/frame/mod.rs: Frame::try_read_and_unsecure", "src/mac/frame/security/mod.rs: unsecure_frame, DeviceDescriptorLookup, DeviceDescriptor"]}
{"id": "C102", "title": "Builds with and without overflow checks", "statement": "The program built with overflow checks (as in debugging) and without (as in a release) writes the same: results, buffers, contexts and any history of writes. Reading a frame differs only where the build with checks panics: the other then returns Incomplete. Receiving differs only for frames with counter 0xFFFFFFFF that verify: the build with checks panics and leaves the device store, the other accepts and stores 0; buffer and context are the same even then. Any history of receptions in which the one never panics or the other accepts nothing with that counter is the same in both. That all histories are the same is refuted.", "quantifier": "every frame, context, buffer, received octets, lookup, store, history, cipher and machine", "why_tests_cant": "compares two builds over all inputs and histories; tests run in one build", "anchors": ["src/mac/frame/mod.rs: Frame::try_read, Frame::try_read_and_unsecure, TryWrite for Frame", "src/mac/frame/security/mod.rs: secure_frame, unsecure_frame"]}
{"id": "C103", "title": "Exactly what a tag covers", "statement": "A secured frame's tag covers exactly its payload, frame counter, security level, and the EUI-64 and key that the receiver's provider finds. The rest of the header - key identifier and source address when the provider finds the same EUI-64 and key for them, sequence number, destination, acknowledge request and so on - can be replaced without the key: the protected octets are accepted as they are with the new header (of a data frame not of version 2003), by the same or another receiver in any state that admits the counter, with the same payload. Conversely, whenever the same protected octets are accepted with two headers, they are the payload and tag for both, and when receivers make the same of both headers for the cipher, the payloads are equal.", "quantifier": "every frame, header, received octets, context, lookup, store, cipher and machine", "why_tests_cant": "ranges over all replacement headers and all receivers; tests alter a few bits", "anchors": ["src/mac/frame/mod.rs: Frame::try_read_and_unsecure", "src/mac/frame/security/mod.rs: unsecure_frame, calculate_nonce"]}
{"id": "C104", "title": "What Debug prints", "statement": "Printed with {:?}, two frames, headers, addresses, security headers, contents, beacons or commands look the same exactly if they are equal (==), however long the payload and whatever the values; so do options and slices of frames, and errors; and no frame looks like an error. Everything is printed as one line of graphic ASCII characters, so whatever octets are received cannot add lines or control characters to a log that prints the frame or the error; results of reading or receiving that differ in frame or error look different. With {:#?} likewise, over several lines: equal exactly if equal, and nothing but graphic characters and the formatter's line breaks.", "quantifier": "every value of every type, every pair of values, every received octets, context, lookup, store and write", "why_tests_cant": "ranges over all pairs of values and payloads of any length; a test compares single texts", "anchors": ["src/mac/frame/mod.rs: Frame, FrameContent, DecodeError, EncodeError", "src/mac/frame/header.rs: Header, Address", "src/mac/frame/security/mod.rs: SecurityError", "src/mac/beacon.rs: Beacon", "src/mac/command.rs: Command"]}
