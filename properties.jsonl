{"id": "C01", "title": "ie.Parse is total", "statement": "ie.Parse called on any byte slice returns an IE or an error; it never panics, never reads outside the slice and always terminates, whatever predicate decides which types are grouped.", "quantifier": "every byte slice of every length; every (pure) IsGrouped predicate installed by SetIsGroupedFun/AddGroupedIEType", "why_tests_cant": "The input space is unbounded; a test or fuzzer samples finitely many inputs.", "anchors": ["ie/ie.go: Parse, (*IE).UnmarshalBinary, ParseMultiIEs", "ie/ie_grouped.go: IsGrouped"]}
{"id": "C02", "title": "ie.ParseMultiIEs is total and tiles its input", "statement": "ParseMultiIEs on any byte slice terminates without panic; when it succeeds the MarshalLen of the returned IEs sum to exactly len(b), every IE is at least 4 octets, and Marshal of them concatenated is b.", "quantifier": "every byte slice, every grouped predicate", "why_tests_cant": "The input space is unbounded; a test or fuzzer samples finitely many inputs.", "anchors": ["ie/ie.go: ParseMultiIEs"]}
{"id": "C03", "title": "Decoding then encoding an IE is byte exact", "statement": "If ie.Parse(b) succeeds, Marshal of the result is exactly the first MarshalLen() octets of b (nested IEs included).", "quantifier": "every byte slice accepted by ie.Parse", "why_tests_cant": "The input space is unbounded; a test or fuzzer samples finitely many inputs.", "anchors": ["ie/ie.go: Parse, Marshal, MarshalTo, MarshalLen"]}
{"id": "C04", "title": "Encoding then decoding an IE is the identity", "statement": "For every well-formed IE value (as built by the constructors, payload within 16-bit length), Parse of its Marshal output, followed by arbitrary trailing octets, returns an equal IE.", "quantifier": "every well-formed IE tree of any depth and any trailing bytes", "why_tests_cant": "The input space is unbounded; a test or fuzzer samples finitely many inputs.", "anchors": ["ie/ie.go: Marshal, Parse, New, NewVendorSpecificIE, newGroupedIE"]}
{"id": "C05", "title": "IE lists decode unambiguously", "statement": "ParseMultiIEs(concat of Marshal of a list of well-formed IEs) returns that list; two well-formed lists with the same encoding are equal.", "quantifier": "every pair of lists of well-formed IEs", "why_tests_cant": "Injectivity quantifies over pairs of unbounded values.", "anchors": ["ie/ie.go: ParseMultiIEs, Marshal"]}
{"id": "C06", "title": "Truncated IEs are rejected", "statement": "ie.Parse rejects every strict prefix of the encoding of a well-formed IE with an error, with one exact exception: the prefix that ends right after the header octets, which is accepted as an IE with an empty value and an untruthful Length (the intended claim without the exception is refuted by a witness). The same holds for the last IE of a list given to ParseMultiIEs.", "quantifier": "every well-formed IE and every cut point", "why_tests_cant": "The input space is unbounded; a test or fuzzer samples finitely many inputs.", "anchors": ["ie/ie.go: UnmarshalBinary (l <= offset early return)"]}
{"id": "C07", "title": "MarshalLen is exact and Marshal never fails", "statement": "For every IE value whatsoever (any field contents, nested arbitrarily, no nil children), Marshal succeeds and returns exactly MarshalLen() octets; MarshalTo into a buffer of at least that size writes exactly those octets and leaves every other octet of the buffer unchanged.", "quantifier": "every IE value, every buffer large enough", "why_tests_cant": "The input space is unbounded; a test or fuzzer samples finitely many inputs.", "anchors": ["ie/ie.go: Marshal, MarshalTo, MarshalLen"]}
{"id": "C08", "title": "MarshalTo into a short buffer reports an error", "statement": "What IE.MarshalTo does with a buffer shorter than MarshalLen() is determined by where the buffer ends within the encoding: in the first four octets of the element or of any element nested in it, it returns an error; in the rest of an element that is not grouped, it panics; in the enterprise ID of an element of a vendor-specific type registered as grouped, it returns an error if that element has children, panics if something follows it, and reports success, without the enterprise ID, if it comes last. With the built-in grouped types only the first two cases occur, and it never reports success. The intended claim (an error, never a panic) is refuted.", "quantifier": "every IE and every shorter buffer", "why_tests_cant": "The input space is unbounded; a test or fuzzer samples finitely many inputs.", "anchors": ["ie/ie.go: MarshalTo"]}
{"id": "C09", "title": "Constructors set Length to the encoded size", "statement": "New/NewVendorSpecificIE/NewGroupedIE set Length to (MarshalLen()-4) mod 2^16; so Length describes the encoding exactly when it fits 16 bits. Refuted beyond that, and for New called with a grouped type and a raw payload.", "quantifier": "every type, enterprise ID and payload of any size", "why_tests_cant": "Boundary at 2^16 and every size in between.", "anchors": ["ie/ie.go: SetLength, New, NewVendorSpecificIE, newGroupedIE"]}
{"id": "C10", "title": "Grouped IEs stay coherent under Add/Remove", "statement": "After any sequence of Add and Remove calls on a grouped IE built by NewGroupedIE or Parse, its Payload is the concatenation of its children's encodings and Length is its encoded length.", "quantifier": "every history of Add/Remove calls of any length", "why_tests_cant": "Quantifies over unbounded call histories.", "anchors": ["ie/ie_grouped.go: Add, Remove", "ie/ie.go: newGroupedIE"]}
{"id": "C11", "title": "Remove deletes exactly the IEs of the type", "statement": "Remove(t) leaves exactly the children whose type is not t, in order; FindByType(t) afterwards reports ErrIENotFound and FindByType of every other type is unchanged; Remove is idempotent; FindByType returns the first child of the type.", "quantifier": "every grouped IE, every type", "why_tests_cant": "The input space is unbounded; a test or fuzzer samples finitely many inputs.", "anchors": ["ie/ie_grouped.go: Remove, FindByType"]}
{"id": "C12", "title": "Add/Remove on non-grouped IEs do nothing", "statement": "If the IE is not grouped, Add and Remove leave it unchanged and FindByType returns ErrInvalidType.", "quantifier": "every non-grouped IE and arguments", "why_tests_cant": "The input space is unbounded; a test or fuzzer samples finitely many inputs.", "anchors": ["ie/ie_grouped.go: Add, Remove, FindByType"]}
{"id": "C13", "title": "Editing a nested child keeps the parent encodable", "statement": "After FindByType on a grouped IE and Add on the child it returned, the parent is stale: whenever the child's size changed no octets at all decode to the edited tree (the intended claim, that Marshal of the parent stays decodable, is refuted); calling Add() with no arguments on each ancestor, innermost first, repairs it.", "quantifier": "every tree, every path, every added IE", "why_tests_cant": "The input space is unbounded; a test or fuzzer samples finitely many inputs.", "anchors": ["ie/ie_grouped.go: Add, FindByType", "ie/ie.go: MarshalTo uses the stored Length"]}
{"id": "C14", "title": "Scalar IEs round-trip", "statement": "ValueAsUint8/16/32/64/String of NewUint8/16/32/64/StringIE returns the value given; on a shorter payload the accessor returns io.ErrUnexpectedEOF, on a grouped type InvalidTypeError, and extra octets are ignored.", "quantifier": "every value, every payload length", "why_tests_cant": "The input space is unbounded; a test or fuzzer samples finitely many inputs.", "anchors": ["ie/ie.go: NewUint*IE, ValueAs*"]}
{"id": "C15", "title": "PFCP header round-trip", "statement": "ParseHeader(h.Marshal()) returns h for every header built by NewHeader with one-bit flags and a 24-bit sequence number (a SEID given without the S flag is not sent and comes back as 0).", "quantifier": "every header field combination and payload", "why_tests_cant": "The input space is unbounded; a test or fuzzer samples finitely many inputs.", "anchors": ["message/header.go"]}
{"id": "C16", "title": "ParseHeader is total and honours the Length field", "statement": "ParseHeader never panics; it accepts exactly the well-formed headers and Payload is everything after the header octets. The Length field is ignored: the intended claim that Payload is what Length delimits is refuted in both directions.", "quantifier": "every byte slice", "why_tests_cant": "The input space is unbounded; a test or fuzzer samples finitely many inputs.", "anchors": ["message/header.go: UnmarshalBinary"]}
{"id": "C17", "title": "Header setters and getters agree", "statement": "After SetMP(p), MP() = p mod 16, but it is the FO flag that gets set and the MP flag is unchanged; after NewHeader(..., pri), MP() = pri/16. The intended claims (HasMP() true, HasFO() unchanged, MP() = pri) are refuted.", "quantifier": "every header and every priority", "why_tests_cant": "The input space is unbounded; a test or fuzzer samples finitely many inputs.", "anchors": ["message/header.go: SetMP, MP, HasMP, HasFO, NewHeader"]}
{"id": "C18", "title": "SEID and sequence number survive the wire", "statement": "SetSEID(x) then SEID() is x and stays x after Marshal/Parse; Sequence() after Marshal/Parse is the original value modulo 2^24; SEID() is 0 when the S flag is clear.", "quantifier": "every SEID, every sequence number, every message type", "why_tests_cant": "The input space is unbounded; a test or fuzzer samples finitely many inputs.", "anchors": ["message/header.go: SetSEID, seid, Sequence, MarshalTo", "message/misc.go"]}
{"id": "C19", "title": "message.Parse is total", "statement": "message.Parse on any byte slice returns a message or an error; it never panics and always terminates.", "quantifier": "every byte slice; every grouped predicate", "why_tests_cant": "The input space is unbounded; a test or fuzzer samples finitely many inputs.", "anchors": ["message/message.go: Parse", "message/*.go: UnmarshalBinary"]}
{"id": "C20", "title": "message.Parse dispatches on the type octet", "statement": "The dynamic type of the parsed message is determined by octet 2 alone: each of the 23 defined codes gives its own message type, all other codes give Generic; MessageType() of the result equals octet 2.", "quantifier": "every accepted byte slice", "why_tests_cant": "The input space is unbounded; a test or fuzzer samples finitely many inputs.", "anchors": ["message/message.go: Parse"]}
{"id": "C21", "title": "No IE is lost in decoding a message", "statement": "Decoding a message puts every IE of the body in the field for its type, slice fields in wire order; if no single-valued field is sent twice, the message holds exactly the IEs of the body. A repeated single-valued IE is lost (last wins) and a body of one octet is dropped silently: the unconditional claim is refuted.", "quantifier": "every accepted byte slice, every message type", "why_tests_cant": "The input space is unbounded; a test or fuzzer samples finitely many inputs.", "anchors": ["message/*.go: UnmarshalBinary"]}
{"id": "C22", "title": "Message decode/encode is idempotent", "statement": "If the body of b is a sequence of complete IEs, then Parse(b) = m succeeds, Marshal(m) succeeds, Parse of it gives the same fields and header (Length recomputed), and a further Marshal is the same bytes; likewise whenever the IEs arrived in struct order. Refuted in general: a last IE cut after its header can be moved forward by re-encoding, giving bytes that no longer parse.", "quantifier": "every accepted byte slice, every message type", "why_tests_cant": "The input space is unbounded; a test or fuzzer samples finitely many inputs.", "anchors": ["message/*.go: Marshal, MarshalTo, UnmarshalBinary"]}
{"id": "C23", "title": "Message encode/decode is the identity", "statement": "For every message built by its constructor from well-formed IEs, each given where its type belongs, Parse(Marshal(m)) has the same header fields and the same IE in every field.", "quantifier": "every message type, any number of IEs", "why_tests_cant": "The input space is unbounded; a test or fuzzer samples finitely many inputs.", "anchors": ["message/*.go: New*, Marshal, UnmarshalBinary"]}
{"id": "C24", "title": "Message length fields are right", "statement": "len(Marshal(m)) = MarshalLen(m), and the 16-bit Length on the wire is that minus 4 whenever it fits.", "quantifier": "every message value", "why_tests_cant": "The input space is unbounded; a test or fuzzer samples finitely many inputs.", "anchors": ["message/*.go: MarshalLen, SetLength"]}
{"id": "C25", "title": "Constructors tolerate nil optional IEs", "statement": "Passing nil among the trailing optional IEs is tolerated by exactly seven message constructors (listed) and panics in all others, in Generic.AddIE and in IE.Add; nil positional parameters are always fine; MarshalLen and Marshal skip nil in the IEs slice but panic on nil inside a named slice field. The intended claim (no constructor panics) is refuted.", "quantifier": "every message type and argument list", "why_tests_cant": "The input space is unbounded; a test or fuzzer samples finitely many inputs.", "anchors": ["message/generic.go, heartbeat-*.go, pfd-management-response.go: SetLength", "message/*.go: New*", "ie/ie_grouped.go: Add"]}
{"id": "C26", "title": "FQDN encoding round-trips", "statement": "EncodeFQDN never fails and writes each dot-separated label after the low octet of its length; DecodeFQDN returns on every octet string, reading labels while a complete one remains. DecodeFQDN(EncodeFQDN(s)) = s holds exactly for the strings whose labels are all shorter than 256 octets (the intended claim, for every string, is refuted: a longer label is silently corrupted).", "quantifier": "every string", "why_tests_cant": "The input space is unbounded; a test or fuzzer samples finitely many inputs.", "anchors": ["internal/utils/utils.go: EncodeFQDN, DecodeFQDN", "ie/ie.go: NewFQDNIE, ValueAsFQDN"]}
{"id": "C27", "title": "BCD digit strings round-trip", "statement": "For every digit string of odd length SwappedBytesToStr(StrToSwappedBytes(s), cut=true) = s, and for every one of even length SwappedBytesToStr(StrToSwappedBytes(s), cut=false) = s, with the nibble layout of TS 29.002; with cut=true an even-length string loses its last digit (so the intended claim, that a caller which always cuts gets the digits back, is refuted). StrToSwappedBytes fails exactly when some character is no hex digit; nothing panics.", "quantifier": "every digit string of any length", "why_tests_cant": "The input space is unbounded; a test or fuzzer samples finitely many inputs.", "anchors": ["internal/utils/utils.go: StrToSwappedBytes, SwappedBytesToStr, swap"]}
{"id": "C28", "title": "PLMN coding round-trips", "statement": "DecodePLMN(EncodePLMN(mcc, mnc)) = (mcc, mnc) for 3-digit MCC and 2- or 3-digit MNC, with the octet layout of TS 24.008; conversely every 3 octets decode and re-encode to themselves. The intended claim that other inputs give an error rather than a panic is refuted: DecodePLMN panics exactly on fewer than 3 octets, and EncodePLMN panics exactly when all characters are hex digits, the MNC has not 2 digits and one of the two strings has 2 or fewer.", "quantifier": "every MCC/MNC string", "why_tests_cant": "The input space is unbounded; a test or fuzzer samples finitely many inputs.", "anchors": ["internal/utils/utils.go: EncodePLMN, DecodePLMN"]}
{"id": "C29", "title": "24- and 40-bit conversions are inverse", "statement": "Uint24To32(Uint32To24(n)) = n mod 2^24 and conversely; likewise for 40 bits; ParseECI splits an ECI losslessly.", "quantifier": "every 32-bit / 64-bit value", "why_tests_cant": "The input space is unbounded; a test or fuzzer samples finitely many inputs.", "anchors": ["internal/utils/utils.go"]}
{"id": "C30", "title": "F-TEID fields round-trip", "statement": "F-TEID: decoding never panics and succeeds exactly on payloads that begin with a well-formed encoding, returning its fields; encoding is the TS 29.244 layout with MarshalLen octets and never fails; what NewFTEID is given comes back (unflagged fields dropped, IPv4 addresses in 4 octets) whenever the addresses its flags announce are supplied. If the flags announce an address that is nil the following address is decoded in its place (refuted beyond that condition).", "quantifier": "every flag octet, TEID, addresses, choose ID; every payload", "why_tests_cant": "The input space is unbounded; a test or fuzzer samples finitely many inputs.", "anchors": ["ie/f-teid.go"]}
{"id": "C31", "title": "F-SEID fields round-trip", "statement": "F-SEID: decoding never panics and succeeds exactly on payloads that begin with a well-formed encoding, returning its fields; encoding is the TS 29.244 layout with MarshalLen octets and never fails; everything NewFSEID is given comes back.", "quantifier": "every SEID and address pair; every payload", "why_tests_cant": "The input space is unbounded; a test or fuzzer samples finitely many inputs.", "anchors": ["ie/f-seid.go"]}
{"id": "C32", "title": "UE IP Address fields round-trip", "statement": "UE IP Address: decoding never panics; a successful decoding has the addresses at their TS 29.244 places and takes both the delegation bits and the prefix length from the same octet; encoding is the TS 29.244 layout and never fails. The round trip holds exactly when those two octets are not both present or are equal (refuted otherwise).", "quantifier": "every flag octet and address; every payload", "why_tests_cant": "The input space is unbounded; a test or fuzzer samples finitely many inputs.", "anchors": ["ie/ue-ip-address.go"]}
{"id": "C33", "title": "SDF Filter accessor is total and round-trips", "statement": "SDFFilter() panics exactly on payloads whose announced flow description is longer than the non-empty rest (that it never panics is refuted); it succeeds exactly on payloads that begin with a well-formed encoding, returning its fields; encoding never fails and is the TS 29.244 layout; what NewSDFFilter is given comes back iff some argument is non-empty (the unconditional round trip is refuted).", "quantifier": "every payload; every filter", "why_tests_cant": "The input space is unbounded; a test or fuzzer samples finitely many inputs.", "anchors": ["ie/sdf-filter.go"]}
{"id": "C34", "title": "Outer Header Creation accessor is total and round-trips", "statement": "OuterHeaderCreation() panics exactly when bit 7 or 8 of the second description octet is set and three octets follow the encoding (that it never panics is refuted); it succeeds exactly on payloads with those bits clear that begin with a well-formed encoding, returning its fields; encoding never fails; description, TEID, addresses and port come back, but tags never do, and a tag next to a port overwrites the port (the full round trip is refuted).", "quantifier": "every payload; every description and field values", "why_tests_cant": "The input space is unbounded; a test or fuzzer samples finitely many inputs.", "anchors": ["ie/outer-header-creation.go"]}
{"id": "C35", "title": "PFD Contents accessor is total and round-trips", "statement": "PFDContents() panics exactly when a present field announces more octets than follow it (that it never panics is refuted); it succeeds exactly on payloads that begin with a well-formed encoding in which every plain string at offset o has o+2 octets from there to the end, returning its fields, and refuses everything else. What NewPFDContents is given is encoded in the TS 29.244 layout, panicking iff a list takes 2^16 octets or more; it comes back, up to one empty string at the end of a list, iff that offset condition holds (the unconditional round trip is refuted).", "quantifier": "every payload; every content", "why_tests_cant": "The input space is unbounded; a test or fuzzer samples finitely many inputs.", "anchors": ["ie/pfd-contents.go"]}
{"id": "C36", "title": "Volume IEs round-trip", "statement": "VolumeMeasurement, VolumeQuota, VolumeThreshold and the Subsequent variants: decoding never panics and succeeds exactly on payloads of two octets or more that begin with a well-formed encoding, returning its fields; encoding is the TS 29.244 layout and never fails; what the constructor is given comes back (unflagged counters as 0) iff some counter is flagged. With no counter flagged the one-octet encoding is refused by its own decoder (the unconditional round trip is refuted).", "quantifier": "every flag octet and 64-bit counters; every payload", "why_tests_cant": "The input space is unbounded; a test or fuzzer samples finitely many inputs.", "anchors": ["ie/volume-measurement.go", "ie/volume-quota.go", "ie/volume-threshold.go", "ie/subsequent-volume-*.go"]}
{"id": "C37", "title": "User ID round-trips", "statement": "UserID: decoding never panics and succeeds exactly on well-formed encodings; the constructor panics exactly when a flagged IMSI, IMEI or MSISDN is not hexadecimal (that it never panics is refuted); NAI comes back, and a digit string comes back iff it is empty or has an odd number of digits, otherwise without its last digit (the unconditional round trip is refuted).", "quantifier": "every flag octet and digit strings; every payload", "why_tests_cant": "The input space is unbounded; a test or fuzzer samples finitely many inputs.", "anchors": ["ie/user-id.go"]}
{"id": "C38", "title": "Node ID round-trips", "statement": "NodeID() never panics and returns exactly the address octets or domain name of the payload; NewNodeID followed by NodeID() returns an IPv4 or IPv6 address given, and a domain name iff all its labels are under 256 octets; the guessing constructor builds the same payloads. A text that is no address is encoded as the unspecified address, and a payload of the wrong size decodes to a nil address without error (that an invalid address is reported is refuted).", "quantifier": "every address/FQDN; every payload", "why_tests_cant": "The input space is unbounded; a test or fuzzer samples finitely many inputs.", "anchors": ["ie/node-id.go"]}
{"id": "C39", "title": "Grouped accessors return the first matching descendant", "statement": "An accessor called on a grouped IE decodes the payload and applies itself to the first child (in wire order) of an accepted type; it returns ErrIENotFound if there is none, the decoding error if the payload is no list of IEs, ErrUnexpectedEOF if the payload is shorter than the accessor's own minimum, and ErrInvalidType for an IE it has no code for. Every call terminates and the result has the announced kind. For a group built from well-formed children a value comes back iff the first child of an accepted type has it. NetworkInstance on a PDI never succeeds (that it returns the PDI's Network Instance is refuted).", "quantifier": "every payload, every accessor", "why_tests_cant": "The input space is unbounded; a test or fuzzer samples finitely many inputs.", "anchors": ["ie/*.go: accessors with switch i.Type"]}
{"id": "C40", "title": "3GPP timestamps round-trip", "statement": "A time put into a timestamp IE comes back equal (to the second) exactly when it lies in the 2^32 seconds from 1970; other times between 1900 and 2192 come back modulo 2^32 seconds (that every instant of the era starting in 1900 comes back is refuted); any four octets decode to a time that encodes to them; decoding never panics.", "quantifier": "every instant", "why_tests_cant": "The input space is unbounded; a test or fuzzer samples finitely many inputs.", "anchors": ["ie/ie.go: valueAs3GPPTimestamp", "ie/recovery-time-stamp.go and the other timestamp IEs"]}
{"id": "C41", "title": "Logging functions never block forever", "statement": "In every interleaving of SetLogger, DisableLogging, internal log calls and Parse no schedule deadlocks, no lock is released unheld, every maximal run ends with every call returned, each call's effect on the logger happens once, in program order and atomically, and Parse logs exactly for message types outside 1-15 and 50-57. EnableLogging takes the logger lock twice: it never returns, and after it every other logging call (and Parse of an unknown type) blocks forever (that all of them return is refuted).", "quantifier": "every schedule of any number of goroutines", "why_tests_cant": "Quantifies over all interleavings.", "anchors": ["internal/logger/logger.go", "logger.go", "message/message.go: Parse"]}
{"id": "C42", "title": "Registering grouped types concurrently with parsing is safe", "statement": "While other goroutines call AddGroupedIEType, in every schedule: the registry's map is never read during a write, no deadlock and no infinite run occurs, Parse (message, IE, list of IEs) returns a value or an error and never panics, its result can be marshalled without a panic, and an IE that a registry in force covers marshals. While SetIsGroupedFun is also called: Parse can panic, SetIsGroupedFun(nil) makes the next Parse panic, the function variable is read and written without synchronisation, and an uncovered IE can panic in Marshal (that these are safe is refuted).", "quantifier": "every schedule of registrations against the parser's steps", "why_tests_cant": "Quantifies over all interleavings.", "anchors": ["ie/ie_grouped.go: AddGroupedIEType, SetIsGroupedFun, isGroupedFun", "ie/ie.go: ParseMultiIEs, MarshalLen"]}
{"id": "C43", "title": "UnmarshalBinary overwrites the receiver", "statement": "UnmarshalBinary on an already used value: an IE keeps its old payload/children when the input stops after the header, its old enterprise ID for 3GPP types and its old children for non-grouped types; a message appends to slice fields and IEs and keeps old single fields that are not sent again; a receiver with empty IE fields behaves like a fresh one. The intended claim (same result as on a fresh value) is refuted.", "quantifier": "every previous receiver state and every input", "why_tests_cant": "The input space is unbounded; a test or fuzzer samples finitely many inputs.", "anchors": ["ie/ie.go: UnmarshalBinary", "message/*.go: UnmarshalBinary"]}
{"id": "C44", "title": "Decoded IEs alias the input, encoded bytes do not", "statement": "Parse keeps windows of its argument: in any later memory the decoded IE (list, message) consists of the octets now at those fixed positions of the buffer, with types, lengths, enterprise IDs and tree shape unchanged, so writes elsewhere leave it alone. Marshal (IE or message) returns a new array: nothing existing changes, later writes through slices that existed do not reach it and writes to it reach nothing else; a message's payload left behind is another new array. MarshalTo writes only into its argument, with Marshal's octets if no payload overlaps it. New keeps the caller's slice; grouped constructors copy the payload but keep the children. (That decoded values are independent of the buffer, that MarshalTo into an overlapping buffer writes Marshal's octets, and that a grouped payload follows its children are refuted.)", "quantifier": "every sequence of buffer writes after Parse/Marshal", "why_tests_cant": "Quantifies over histories of writes.", "anchors": ["ie/ie.go: Parse note, UnmarshalBinary, Marshal"]}
{"id": "C45", "title": "ValidateApplyAction decides the TS 29.244 rule", "statement": "ValidateApplyAction accepts an Apply Action iff exactly one of DROP, FORW, BUFF, IPMA, IPMD is set, NOCP and BDPN only with BUFF, DUPL only with DROP, FORW, BUFF or NOCP, DFRT only with FORW, and DDPN only with DROP or BUFF; otherwise it returns ErrMalformed, and an InvalidTypeError for any other IE type. A missing octet counts as zeros.", "quantifier": "every Apply Action payload", "why_tests_cant": "The input space is unbounded; a test or fuzzer samples finitely many inputs.", "anchors": ["ie/apply-action.go"]}
{"id": "C46", "title": "Timers decode to the duration encoded", "statement": "A Timer-like IE gives back the duration it was built from exactly when the duration is at most 31 times 2 s, 1 min, 10 min, 1 h or 10 h, or infinite; other durations come back truncated modulo 32 units, or as infinite if not a whole number of 2 s (that a decoded duration is never longer is refuted); decoding never panics.", "quantifier": "every duration", "why_tests_cant": "The input space is unbounded; a test or fuzzer samples finitely many inputs.", "anchors": ["ie/timer.go", "ie/dl-buffering-duration.go", "ie/graceful-release-period.go"]}
{"id": "C47", "title": "Message names and request/response classification", "statement": "IsRequest() is right for every message type; MessageTypeName() is the TS 29.244 name for every message type except AssociationUpdateResponse (\"Association Update Request\") and SessionSetDeletionResponse (\"Node Report Response\"), for which it is refuted.", "quantifier": "every defined message type", "why_tests_cant": "A table-driven test copies the table it checks; here the table is independent of the code's and all entries are compared.", "anchors": ["message/*.go: MessageTypeName, IsRequest"]}
{"id": "C48", "title": "Every IE type is decoded into the field named after it", "statement": "In every message type, an IE of type t is stored in field f if and only if t is the IE type f is named after, with the single exception of SessionModificationResponse.PacketRateStatusReport, which collects type 252 instead of PacketRateStatusReportWithinSessionModificationResponse (264); for 264 the claim is refuted.", "quantifier": "every message type, every field and every 16-bit IE type", "why_tests_cant": "It compares some 250 switch cases against the IE type registry; the existing tests build messages with the same constants as the decoder.", "anchors": ["message/*.go: UnmarshalBinary", "message/session-modification-response.go", "ie/ie.go: IE type constants"]}
{"id": "C49", "title": "Alternative SMF / CP PFCP Entity IP Address fields", "statement": "Decoding never panics and succeeds exactly on payloads of at least two octets that begin with a well-formed encoding, returning its fields; encoding is the TS 29.244 layout with MarshalLen octets and never fails; the constructor's value round-trips if it has an address. With no address it builds a one-octet value its own decoder refuses (the unconditional round trip is refuted).", "quantifier": "every payload (any length, any octets) for decoding; every field value the constructor can be given for encoding", "why_tests_cant": "The payload layout depends on every flag combination, and the decoder must be right on all lengths and trailing octets; tests use one or two literal payloads.", "anchors": ["ie/alternative-smf-ip-address.go", "ie/cp-pfcp-entity-ip-address.go"]}
{"id": "C50", "title": "Source IP Address fields", "statement": "Decoding panics exactly when the mask prefix length is announced and the payload ends right before it (so totality is refuted); otherwise it succeeds exactly on payloads of at least two octets beginning with a well-formed encoding; encoding never fails, and values built by the constructor with an address or a mask round-trip.", "quantifier": "every payload (any length, any octets) for decoding; every field value the constructor can be given for encoding", "why_tests_cant": "The payload layout depends on every flag combination, and the decoder must be right on all lengths and trailing octets; tests use one or two literal payloads.", "anchors": ["ie/source-ip-address.go"]}
{"id": "C51", "title": "UE Link-Specific IP Address fields", "statement": "Decoding never panics and succeeds exactly on payloads that begin with a well-formed encoding, returning its fields; encoding is the TS 29.244 layout with MarshalLen octets and never fails; every value the constructor builds round-trips.", "quantifier": "every payload (any length, any octets) for decoding; every field value the constructor can be given for encoding", "why_tests_cant": "The payload layout depends on every flag combination, and the decoder must be right on all lengths and trailing octets; tests use one or two literal payloads.", "anchors": ["ie/ue-link-specific-ip-address.go"]}
{"id": "C52", "title": "MPTCP Address Information fields", "statement": "Decoding never panics and succeeds exactly on payloads that begin with a well-formed encoding, returning its fields; encoding is the TS 29.244 layout with MarshalLen octets and never fails; every value the constructor builds round-trips.", "quantifier": "every payload (any length, any octets) for decoding; every field value the constructor can be given for encoding", "why_tests_cant": "The payload layout depends on every flag combination, and the decoder must be right on all lengths and trailing octets; tests use one or two literal payloads.", "anchors": ["ie/mptcp-address-information.go"]}
{"id": "C53", "title": "PMF Address Information loses its MAC addresses", "statement": "Decoding never panics and succeeds exactly on payloads that begin with a well-formed encoding, returning all its fields except the two MAC addresses, which are always lost (the intended round trip is refuted); encoding is the TS 29.244 layout and never fails.", "quantifier": "every payload (any length, any octets) for decoding; every field value the constructor can be given for encoding", "why_tests_cant": "The payload layout depends on every flag combination, and the decoder must be right on all lengths and trailing octets; tests use one or two literal payloads.", "anchors": ["ie/pmf-address-information.go"]}
{"id": "C54", "title": "Remote GTP-U Peer fields", "statement": "Decoding panics exactly on a payload that ends in an empty Destination Interface; otherwise it returns the fields of the encoding the payload begins with. Encoding is the expected layout when bit 5 of the flags is clear or there is no address; with bit 5 set, encoding an address together with a network instance or a one-octet destination interface panics (totality of both directions is refuted).", "quantifier": "every payload (any length, any octets) for decoding; every field value the constructor can be given for encoding", "why_tests_cant": "The payload layout depends on every flag combination, and the decoder must be right on all lengths and trailing octets; tests use one or two literal payloads.", "anchors": ["ie/remote-gtp-u-peer.go"]}
{"id": "C55", "title": "IP Multicast Address fields", "statement": "Decoding never panics and succeeds exactly on payloads of at least two octets that begin with a well-formed encoding, returning its fields; encoding never panics; the constructor's values round-trip if they hold a start address; the 'any multicast address' value it builds otherwise is refused by the decoder (the unconditional round trip is refuted).", "quantifier": "every payload (any length, any octets) for decoding; every field value the constructor can be given for encoding", "why_tests_cant": "The payload layout depends on every flag combination, and the decoder must be right on all lengths and trailing octets; tests use one or two literal payloads.", "anchors": ["ie/ip-multicast-address.go"]}
{"id": "C56", "title": "Durations in seconds, milliseconds and other units come back", "statement": "A whole number of seconds representable in the field put into the 32- or 16-bit duration IEs comes back; milliseconds and 50 ms units come back truncated to the unit modulo the field; time offsets come back exactly. Reading SubsequentTimeQuota panics exactly on payloads under four octets; all the others never panic. That no decoded duration exceeds the encoded one is refuted: floating point rounds 2^24 s + 999999999 ns up.", "quantifier": "every duration; every payload", "why_tests_cant": "Floating-point conversion and modulo wrap depend on the whole 64-bit range.", "anchors": ["ie/*-timer.go", "ie/subsequent-time-quota.go", "ie/time-quota.go", "ie/time-threshold.go", "ie/measurement-period.go", "ie/time-offset-measurement.go"]}
{"id": "C57", "title": "Number of UE IP Addresses fields", "statement": "Decoding never panics and succeeds exactly on payloads that begin with a well-formed encoding, returning its fields; encoding is the TS 29.244 layout with MarshalLen octets and never fails; every value the constructor is given comes back, unflagged numbers as 0.", "quantifier": "every payload (any length, any octets) for decoding; every field value the constructor can be given for encoding", "why_tests_cant": "The payload layout depends on every flag combination, and the decoder must be right on all lengths and trailing octets; tests use one or two literal payloads.", "anchors": ["ie/number-of-ue-ip-addresses.go"]}
{"id": "C58", "title": "Packet Delay Thresholds and QoS Monitoring Measurement fields", "statement": "Decoding never panics and succeeds exactly on payloads that begin with a well-formed encoding, returning its fields; encoding is the TS 29.244 layout with MarshalLen octets and never fails; every value the constructor is given comes back, unflagged delays as 0.", "quantifier": "every payload (any length, any octets) for decoding; every field value the constructor can be given for encoding", "why_tests_cant": "The payload layout depends on every flag combination, and the decoder must be right on all lengths and trailing octets; tests use one or two literal payloads.", "anchors": ["ie/packet-delay-thresholds.go", "ie/qos-monitoring-measurement.go"]}
{"id": "C59", "title": "Packet Rate fields", "statement": "Decoding never panics and succeeds exactly on payloads of two octets or more that begin with a well-formed encoding, returning its fields; encoding is the TS 29.244 layout if some direction is flagged and fails with an error otherwise; flagged values come back.", "quantifier": "every payload (any length, any octets) for decoding; every field value the constructor can be given for encoding", "why_tests_cant": "The payload layout depends on every flag combination, and the decoder must be right on all lengths and trailing octets; tests use one or two literal payloads.", "anchors": ["ie/packet-rate.go"]}
{"id": "C60", "title": "DL Flow Level Marking fields", "statement": "Decoding never panics and succeeds exactly on payloads that begin with a well-formed encoding, returning its fields; encoding is the TS 29.244 layout if a field is flagged and fails otherwise (although the decoder accepts the empty encoding); flagged values come back. IE.HasTTC and IE.HasSCI report each other's flag (that they report presence is refuted).", "quantifier": "every payload (any length, any octets) for decoding; every field value the constructor can be given for encoding", "why_tests_cant": "The payload layout depends on every flag combination, and the decoder must be right on all lengths and trailing octets; tests use one or two literal payloads.", "anchors": ["ie/dl-flow-level-marking.go"]}
{"id": "C61", "title": "Packet Rate Status fields", "statement": "Decoding never panics and succeeds exactly on payloads that begin with a well-formed encoding, returning its fields; encoding is the TS 29.244 layout and never fails; counters the flags announce come back, and so does a time between 1900 and 2192 (to the second); other times come back changed (refuted).", "quantifier": "every payload (any length, any octets) for decoding; every field value the constructor can be given for encoding", "why_tests_cant": "The payload layout depends on every flag combination, and the decoder must be right on all lengths and trailing octets; tests use one or two literal payloads.", "anchors": ["ie/packet-rate-status.go"]}
{"id": "C62", "title": "C-TAG and S-TAG fields", "statement": "Decoding never panics, refuses payloads under three octets and otherwise returns PCP and DEI as in TS 29.244 but leaves the two parts of the VLAN identifier four bits apart; encoding is the TS 29.244 layout; so a tag comes back iff its VLAN identifier is below 256 (the unconditional round trip is refuted).", "quantifier": "every payload (any length, any octets) for decoding; every field value the constructor can be given for encoding", "why_tests_cant": "The payload layout depends on every flag combination, and the decoder must be right on all lengths and trailing octets; tests use one or two literal payloads.", "anchors": ["ie/c-tag.go", "ie/s-tag.go"]}
{"id": "C63", "title": "Header Enrichment fields", "statement": "Decoding never panics and succeeds exactly on payloads that begin with a well-formed encoding, returning its fields; encoding never fails; type, name and value come back when name and value are under 256 octets, and otherwise cut to their length modulo 256 (the unconditional round trip is refuted).", "quantifier": "every payload (any length, any octets) for decoding; every field value the constructor can be given for encoding", "why_tests_cant": "The payload layout depends on every flag combination, and the decoder must be right on all lengths and trailing octets; tests use one or two literal payloads.", "anchors": ["ie/header-enrichment.go"]}
{"id": "C64", "title": "Redirect Information fields", "statement": "Decoding never panics; it returns the type, the announced address, and as 'other address' the same number of octets taken two octets after the start of the address. The constructor panics iff it is given no address; otherwise type and address come back (that the other address comes back is refuted).", "quantifier": "every payload (any length, any octets) for decoding; every field value the constructor can be given for encoding", "why_tests_cant": "The payload layout depends on every flag combination, and the decoder must be right on all lengths and trailing octets; tests use one or two literal payloads.", "anchors": ["ie/redirect-information.go"]}
{"id": "C65", "title": "MAC Address fields", "statement": "Decoding never panics and succeeds exactly on payloads of two octets or more that begin with a well-formed encoding, returning its fields; the constructor's encoding is the TS 29.244 layout, panics iff a given address has fewer than six octets, and six-octet addresses come back iff at least one is given (with none its own decoder refuses the encoding).", "quantifier": "every payload (any length, any octets) for decoding; every field value the constructor can be given for encoding", "why_tests_cant": "The payload layout depends on every flag combination, and the decoder must be right on all lengths and trailing octets; tests use one or two literal payloads.", "anchors": ["ie/mac-address.go"]}
{"id": "C66", "title": "User Plane IP Resource Information fields", "statement": "Decoding panics exactly when the source interface is flagged and either a network instance is flagged too or the payload ends before the interface octet (that it never panics is refuted); it succeeds exactly when no network instance is flagged and the payload begins with a well-formed encoding, returning its fields; encoding is the TS 29.244 layout, or an error if nothing is flagged; what the constructor is given comes back iff no network instance is flagged. TEIDRI() panics exactly on the empty payload.", "quantifier": "every payload (any length, any octets) for decoding; every field value the constructor can be given for encoding", "why_tests_cant": "The payload layout depends on every flag combination, and the decoder must be right on all lengths and trailing octets; tests use one or two literal payloads.", "anchors": ["ie/user-plane-ip-resource-information.go"]}
{"id": "C67", "title": "Trace Information fields", "statement": "Decoding panics exactly when the payload ends where a length or the trace depth is expected (that it never panics is refuted); it succeeds exactly on complete encodings and returns PLMN, trace identity, depth and the three lengths; the triggering events, interfaces and collection address are never returned, although encoding writes them (the round trip is refuted for them).", "quantifier": "every payload (any length, any octets) for decoding; every field value the constructor can be given for encoding", "why_tests_cant": "The payload layout depends on every flag combination, and the decoder must be right on all lengths and trailing octets; tests use one or two literal payloads.", "anchors": ["ie/trace-information.go"]}
{"id": "C68", "title": "MAC Addresses Detected and Removed fields", "statement": "Decoding succeeds exactly on payloads with one address more than announced followed by an octet that fits as a tag length, panics exactly when the payload ends right after that extra address, and refuses everything else (that it never panics is refuted). The constructor panics on a nil tag, its encoding panics iff 256 or more addresses are given and otherwise is the TS 29.244 layout; no encoding comes back from the decoder (the round trip is refuted for every value).", "quantifier": "every payload (any length, any octets) for decoding; every field value the constructor can be given for encoding", "why_tests_cant": "The payload layout depends on every flag combination, and the decoder must be right on all lengths and trailing octets; tests use one or two literal payloads.", "anchors": ["ie/mac-address-detected.go", "ie/mac-address-removed.go"]}
{"id": "C69", "title": "Accessor calls that can panic", "statement": "Exactly 52 pairs of accessor and IE type can panic, each on octets that Parse accepts from the wire (that no accessor panics is refuted); every other accessor call returns a value or an error whatever the IE holds.", "quantifier": "every accessor of package ie (293), every IE, every grouped-type registration", "why_tests_cant": "The input space is unbounded and there are 293 accessors nested to any depth; tests call a handful of accessors on literal IEs.", "anchors": ["ie/*.go: accessors with switch i.Type"]}
{"id": "C70", "title": "Accessor calls that can succeed", "statement": "Every accessor call that has code for the IE's type succeeds on some octets that Parse accepts, except ten pairs which never succeed: CTAG and STAG on MAC Addresses Detected/Removed and Ethernet Context Information, FTEID on Created Traffic Endpoint, and the three Network Instance accessors on a PDI.", "quantifier": "every accessor of package ie (293), every IE, every grouped-type registration", "why_tests_cant": "The input space is unbounded and there are 293 accessors nested to any depth; tests call a handful of accessors on literal IEs.", "anchors": ["ie/*.go: accessors with switch i.Type"]}
{"id": "C71", "title": "Accessors read Type and Payload only", "statement": "Two IEs with the same Type and Payload give the same result to every accessor; a change of ChildIEs alone is never seen. The one exception is DL Buffering Suggested Packet Count, which also depends on Length (that Length never matters is refuted).", "quantifier": "every accessor of package ie (293), every IE, every grouped-type registration", "why_tests_cant": "The input space is unbounded and there are 293 accessors nested to any depth; tests call a handful of accessors on literal IEs.", "anchors": ["ie/*.go: accessors with switch i.Type", "ie/dl-buffering-suggested-packet-count.go"]}
{"id": "C72", "title": "LocalFTEIDN returns the n-th F-TEID", "statement": "On a Created Traffic Endpoint LocalFTEIDN(n) returns the value of the n-th F-TEID child counting from one, ErrIENotFound if there are fewer or n is below one; other IE types are refused; n = 1 is LocalFTEID.", "quantifier": "every IE, every n", "why_tests_cant": "The input space is unbounded.", "anchors": ["ie/created-traffic-endpoint.go: LocalFTEIDN, LocalFTEID"]}
{"id": "C73", "title": "Flag methods read the bit TS 29.244 assigns", "statement": "On an IE of the type a flag belongs to, the Has/Is method returns the bit the specification gives to the flag, and false if the payload is too short to hold it. Distinct flags of an IE are distinct bits. Exceptions: HasTTC/HasSCI of DL Flow Level Marking and HasIPv4/HasIPv6 of IP Version each read the other's bit (that they agree with the specification is refuted).", "quantifier": "every one of the 157 bool methods, every IE, every grouped-type registration", "why_tests_cant": "157 methods times all IE types and payloads; tests check a few literal octets per method.", "anchors": ["ie/*.go: bool methods of *IE"]}
{"id": "C74", "title": "Flag methods on groups", "statement": "On a grouped IE a flag method returns the flag of the first child of the type that holds it, false when there is no such child or the payload is no list of IEs.", "quantifier": "every one of the 157 bool methods, every IE, every grouped-type registration", "why_tests_cant": "157 methods times all IE types and payloads; tests check a few literal octets per method.", "anchors": ["ie/*.go: bool methods of *IE"]}
{"id": "C75", "title": "Flag methods elsewhere are false", "statement": "A flag method called on an IE of a type that does not carry the flag, directly or in a child, returns false.", "quantifier": "every one of the 157 bool methods, every IE, every grouped-type registration", "why_tests_cant": "157 methods times all IE types and payloads; tests check a few literal octets per method.", "anchors": ["ie/*.go: bool methods of *IE"]}
{"id": "C76", "title": "Flags computed from several bits", "statement": "HasIPv4 of a UE IP Address is V4 and not CHV4; HasIPv6 is V6 and not CHV4 (that it is V6 and not CHV6 is refuted). HasIPv4/HasIPv6 of F-SEID and F-TEID and the nine Outer Header Creation methods report the bit when the IE decodes, false when it does not. IsAllocatedByCPFunction of a URR ID is bit 8 and IsAllocatedByUPFunction its negation, the reverse of TS 29.244 8.2.54.", "quantifier": "every one of the 157 bool methods, every IE, every grouped-type registration", "why_tests_cant": "157 methods times all IE types and payloads; tests check a few literal octets per method.", "anchors": ["ie/ue-ip-address.go: HasIPv4, HasIPv6", "ie/urr-id.go: IsAllocatedByCPFunction, IsAllocatedByUPFunction", "ie/outer-header-creation.go", "ie/f-teid.go", "ie/f-seid.go"]}
{"id": "C77", "title": "Flag method calls that panic", "statement": "HasMAC panics on an empty TSN Bridge ID, and the nine Outer Header Creation methods panic exactly when its decoder does, on octets that Parse accepts (that no flag method panics is refuted); every other flag method call answers true or false.", "quantifier": "every one of the 157 bool methods, every IE, every grouped-type registration", "why_tests_cant": "157 methods times all IE types and payloads; tests check a few literal octets per method.", "anchors": ["ie/*.go: bool methods of *IE"]}
{"id": "C78", "title": "Flag methods of the field structs", "statement": "SetXFlag makes HasXFlag true, changes no other flag of the struct, keeps the octet an octet, and uses the bit TS 29.244 gives to the flag.", "quantifier": "every one of the 79 struct flags, every flag octet", "why_tests_cant": "The combination of flags and octets is checked for few cases by tests.", "anchors": ["ie/*.go: SetXxxFlag, HasXxx methods of XxxFields"]}
{"id": "C79", "title": "Constructors make the IE type they are named after", "statement": "NewXxx returns an IE whose type is the one named Xxx in the package's type constants (NewNetworkInstanceFQDN: Network Instance, NewNodeIDHeuristic: Node ID, NewRedundantTransmissionParametersInPDI and InFAR: both Redundant Transmission Parameters; NewUpdateBAR, NewUsageReport, NewTSCManagementInformation and NewPortManagementInformationForTSC: the type given). Marshal of it is the type, the length and the payload, and Parse of these octets gives an equal IE.", "quantifier": "every one of the 282 IE constructors, all arguments of the Go types, every grouped-type registration, every behaviour of float conversion out of range; payloads below 65536 octets", "why_tests_cant": "282 constructors with unbounded arguments; tests call each once or twice with literals.", "anchors": ["ie/*.go: New* functions returning *IE"]}
{"id": "C80", "title": "The accessor named after a constructor returns the value given", "statement": "Integers, strings, FQDNs (iff every label is below 256 octets), octet strings, times (to the second, iff within 2^32 s from 1970), timers (iff representable), whole seconds, milliseconds, 50 ms units and nanoseconds come back from the accessor of the same name; where a mask or modulus applies the statement gives it. For structured payloads the accessor decodes exactly the octets Marshal of the fields produced.", "quantifier": "every one of the 282 IE constructors, all arguments of the Go types, every grouped-type registration, every behaviour of float conversion out of range", "why_tests_cant": "282 constructors with unbounded arguments; tests call each once or twice with literals.", "anchors": ["ie/*.go: New* functions returning *IE", "ie/*.go: accessor methods"]}
{"id": "C81", "title": "Grouped constructors and their accessor", "statement": "The accessor named after a grouped constructor returns the non-nil children given, in order.", "quantifier": "every grouped constructor, all lists of children that have a wire form, nil ones included", "why_tests_cant": "282 constructors with unbounded arguments; tests call each once or twice with literals.", "anchors": ["ie/*.go: New* functions calling newGroupedIE", "ie/ie.go: newGroupedIE"]}
{"id": "C82", "title": "Flag constructors set the flag of each argument", "statement": "For constructors with one 0/1 argument per flag, the Has method of a flag returns whether its own argument was 1, independently of the others; NewIPVersion is the exception: HasIPv4 returns the IPv6 argument and HasIPv6 the IPv4 one (that it agrees is refuted).", "quantifier": "every flag constructor and every combination of arguments", "why_tests_cant": "282 constructors with unbounded arguments; tests call each once or twice with literals.", "anchors": ["ie/*.go: New* functions returning *IE", "ie/ip-version.go: NewIPVersion"]}
{"id": "C83", "title": "Constructors of several values, value by value", "statement": "For each constructor that packs several values, the accessor of each value returns it, reduced to the width of its place. Exceptions, stated exactly: NewDownlinkDataServiceInformation with one of PPI and QFI (QFI panics, PPI returns the QFI), CSIDs never returns a CSID, forwarding policy identifiers of 256 octets or more are cut, a feature octet after the fourth is dropped (that these come back is refuted).", "quantifier": "every such constructor, all arguments", "why_tests_cant": "282 constructors with unbounded arguments; tests call each once or twice with literals.", "anchors": ["ie/*.go: New* functions returning *IE"]}
{"id": "C84", "title": "When a constructor returns nil or panics", "statement": "For every constructor and all arguments: it panics exactly in the listed cases (NF instance ID below 16 octets, User ID with a flagged non-hexadecimal string, Redirect Information without address, MAC lists with a nil tag or 256 addresses or more, MAC Address shorter than 6 octets, PFD Contents lists over 65535 octets, Remote GTP-U Peer with bit 5 set, an address, and DI or NI, Trace Information with short PLMN), returns nil exactly in the listed cases, and otherwise returns an IE.", "quantifier": "every one of the 282 IE constructors, all arguments of the Go types, every grouped-type registration, every behaviour of float conversion out of range", "why_tests_cant": "Rare argument combinations, each of which crashes the caller or drops the IE silently.", "anchors": ["ie/*.go: New* functions returning *IE"]}
{"id": "C85", "title": "Members of the grouped IEs found by their accessor", "statement": "For every grouped IE of TS 29.244 (84 groups with 427 member types, tabulated from the specification) and every member type of it, calling the accessor method named after the member on the group returns a value exactly when the first IE of that type inside the group has one, and then returns that value; for the F-TEID of a PDI the first F-TEID or Redundant Transmission Parameters decides. For 31 listed members the accessor never returns a value, whatever the group contains (that every member is reachable is refuted). Outside its own type, the members, and an explicit list of deeper or non-standard look-ups, no accessor ever returns a value.", "quantifier": "all element types, all accessor methods, all payloads that are the encoding of a sequence of IEs, and all IsGrouped functions", "why_tests_cant": "there are some 300 accessors and 400 type codes, and a missing case in one switch shows only when that member is put into that group and read through that accessor", "anchors": ["ie/ie.go:ParseMultiIEs", "ie/pdi.go:PDI", "ie/pdr-id.go:PDRID", "ie/network-instance.go:NetworkInstance", "ie/access-availability-report.go:AccessAvailabilityReport", "ie/f-teid.go:FTEID"]}
{"id": "C86", "title": "Octets of the IEs that hold a single value", "statement": "For the 117 IE types of TS 29.244 that hold one integer, flag octet, text, name, time stamp or duration (tabulated from the specification with width, unit, epoch and byte order), the constructor of the type writes exactly the octets of the specification for every value that has a coding, and the accessor of the same name returns the value from those octets, ignoring trailing octets for the fixed-size ones; an integer with fewer octets than its width is refused with io.ErrUnexpectedEOF. Spare bits of one-octet values are ignored by PagingPolicyIndicator and TGPPInterfaceType only; the other 16 accessors return them as part of the value (that spare bits are ignored is refuted).", "quantifier": "all values with a coding, all payloads that start with it, all 117 types, their constructors and accessors, and all IsGrouped functions that do not claim the type", "why_tests_cant": "a constructor and an accessor that agree on a wrong width, unit or byte order pass every round-trip test; the claim is about the octets, for every value", "anchors": ["ie/ie.go:newUint8ValIE,newUint16ValIE,newUint32ValIE,newUint64ValIE,newStringIE,newFQDNIE", "ie/timer.go:NewTimer,Timer", "ie/time-quota.go:NewTimeQuota,TimeQuota", "ie/source-interface.go:NewSourceInterface,SourceInterface", "ie/recovery-time-stamp.go:NewRecoveryTimeStamp,RecoveryTimeStamp"]}
{"id": "C87", "title": "Structured constructors: the values given and the values read", "statement": "For each of the 35 constructors that take several values of a structured payload (NewFTEID, NewUEIPAddress, NewSDFFilter, NewOuterHeaderCreation, NewUserID, ...) and all arguments that fit their places and are present where the flags ask for them, the constructor returns an IE and the accessor of the same name returns a struct whose every field is given in terms of the arguments: the argument itself, or zero where its flag is not set. Exceptions, stated exactly: VLAN identifiers of 256 and more, the tags of Outer Header Creation, the lists and address of Trace Information, the MAC addresses of PMF Address Information, the prefix length of a UE IP Address with delegation bits, the second address of Redirect Information, an even number of digits in User ID, and the values for which the accessor refuses or panics (that all values come back is refuted).", "quantifier": "all 35 constructors, all arguments within the stated widths", "why_tests_cant": "each constructor has up to eight arguments of 2^8 to unbounded many values, with presence decided by flags", "anchors": ["ie/f-teid.go:NewFTEID", "ie/f-teid.go:FTEID", "ie/ue-ip-address.go:NewUEIPAddress", "ie/sdf-filter.go:NewSDFFilter", "ie/outer-header-creation.go:NewOuterHeaderCreation", "ie/user-id.go:NewUserID", "ie/pfd-contents.go:NewPFDContents", "ie/mac-address-detected.go:NewMACAddressesDetected"]}
{"id": "C88", "title": "Printed names of IE types", "statement": "IEType.String() never panics; a type with a constant prints as the name of the (first) constant of that value, every other type as IEType(n) with n in decimal without superfluous zeros; no two types print alike.", "quantifier": "every 16-bit type code", "why_tests_cant": "65536 codes against a 5070-character concatenated table; the tests never call String().", "anchors": ["ie/ietype_string.go: String", "ie/ie.go: IEType constants"]}
{"id": "C89", "title": "Heartbeat server", "statement": "The example server, on any run of datagrams: a datagram whose first 1500 octets are a Heartbeat Request with a decodable Recovery Time Stamp is answered to its sender, in order, with a Heartbeat Response carrying the time of handling and sequence number 1; a Heartbeat Request without any Recovery Time Stamp makes it panic and ends the run; every other datagram is ignored. (That the server survives every datagram, and that the answer copies the sequence number of the request, are refuted.)", "quantifier": "every finite sequence of datagrams of any length and content, senders and clock readings", "why_tests_cant": "Unbounded sequences of arbitrary datagrams; the examples have no tests.", "anchors": ["examples/heartbeat/hb-server/main.go: main"]}
{"id": "C90", "title": "Heartbeat client", "statement": "The example client goes by the first Heartbeat Response it receives, ignoring everything before it: it ends with the time in the response, reports a time stamp that is cut short, panics when there is none, and otherwise keeps waiting. The request it sends is answered by the server and the answer ends the client with the server's time in whole seconds. (That only a response with its own sequence number is accepted, and that it survives every datagram, are refuted.)", "quantifier": "every finite sequence of datagrams, every clock reading (1970 to 2106 for the exchange)", "why_tests_cant": "Unbounded sequences of arbitrary datagrams; the examples have no tests.", "anchors": ["examples/heartbeat/hb-client/main.go: main", "examples/heartbeat/hb-server/main.go: main"]}
{"id": "C91", "title": "Decoding into a struct that has been used", "statement": "UnmarshalBinary of the XxxFields structs on a struct with arbitrary earlier contents: for every type but PFD Contents it returns an error, panics or succeeds exactly as on a new struct, and on success every field the input carries has the value a new struct gets while every other field keeps its old value (octet strings that are copied into, and MAC lists that are appended to, are described exactly); doing it twice changes nothing more, except for the MAC lists, which grow. After any sequence of decodings the struct re-encodes as a new struct would, for 19 of the 28 layouts. PFD Contents also requires the input to be longer by the lengths left in the struct, so it refuses valid payloads; success is possible only where a new struct succeeds. A decoded MAC list always panics in Marshal. (That decoding is independent of the earlier contents, that it can be repeated, and, for nine layouts, that the encoding is free of them, are refuted.)", "quantifier": "every one of the 35 struct types, every earlier contents, every payload and sequence of payloads", "why_tests_cant": "The tests decode into new structs only; the defect shows only for combinations of two payloads and a struct.", "anchors": ["ie/*.go: XxxFields.UnmarshalBinary, XxxFields.Marshal, ParseXxxFields"]}
{"id": "C92", "title": "How much a datagram makes the decoder do", "statement": "Parse and ParseMultiIEs call UnmarshalBinary at most len/4 + 1 times and MarshalLen at most (len/4)^2 times, on accepted and refused octets alike. A decoded IE has at most len/4 IEs inside it, itself included, at most as many levels, and a decoded message of n octets at most (n-8)/4. On success there is exactly one UnmarshalBinary for each IE made and one MarshalLen for each pair of an IE and an enclosing one. Marshal of any IE calls MarshalLen at most (levels + 1) times for each IE in it. (That the work is linear in the size is refuted, for decoding and encoding: a chain of d+1 nested groups, of 4(d+1) octets, takes d(d+1)/2 calls of MarshalLen to decode, for every grouped type.)", "quantifier": "every octet string, accepted or not, every IE value, every set of grouped types", "why_tests_cant": "Benchmarks use typical messages; the worst case is a bound over all octet strings.", "anchors": ["ie/ie.go: Parse, ParseMultiIEs, UnmarshalBinary, MarshalLen, MarshalTo", "message/message.go: Parse"]}
{"id": "C93", "title": "Marshal called on one message by several goroutines", "statement": "For every message, every number of goroutines calling Marshal on it and every interleaving of their accesses to Header.Payload, its array and Header.Length: every call returns after at most 16 + 2n steps of its own (n IEs); a call that is not interrupted returns the right octets, whatever the memory holds and wherever the other calls stand; octets returned without an error have the right header apart from the Length field, and each octet after the header is the right one or 0; and for a message with neither SEID nor IEs nor a payload left from before every call returns the right octets. (That Marshal may be called concurrently on a message is refuted: for every message there is an interleaving of two calls where one returns, without error, zeros in place of all IEs; with an SEID one where both return a Length 8 too large; with an IE one where a call returns ErrInvalidLength; with two IEs one where a call panics.)", "quantifier": "every message of every kind, every number of calls, every interleaving, every initial contents of the memory", "why_tests_cant": "Interleavings are chosen by the scheduler; a test sees few of them, and the race detector reports an access, not what comes out.", "anchors": ["message/heartbeat-request.go: Marshal, MarshalTo, MarshalLen", "message/header.go: MarshalTo, MarshalLen, SetLength"]}
{"id": "C94", "title": "Textual addresses", "statement": "net.ParseIP, as called by the constructors, accepts exactly the dotted quads without leading zeros (each number at most 255) and the RFC 4291 texts of one to four hexadecimal digits per group, at most one :: standing for at least one group, and a dotted quad allowed as the last two groups; no zone. The text net.IP.String prints for 4 or 16 octets is read back as the same address; it is the dotted quad, or eight lower-case groups without leading zeros with the first of the longest runs of two or more zero groups replaced by ::; a dotted quad is printed unchanged. NewNodeIDHeuristic of an address is printed by NodeID in that form, and that text makes the same Node ID again; any other non-empty text is taken as a domain name, as by NewNodeID. NewFQCSID takes an address as such and any other text as hexadecimal digits, and no text is both. The XxxFields constructors taking textual addresses equal those taking the octets. (That malformed addresses are noticed is refuted: NewNodeID turns every non-empty text that is not an IPv4 address into 0.0.0.0, and one that is not an address into :: when it is given as IPv6, and the Fields constructors drop it. That the text of a Node ID identifies it is refuted: for every dotted quad the IPv4, IPv6 and domain-name Node IDs made from it are three different payloads with one text.)", "quantifier": "every text, every 4- or 16-octet address", "why_tests_cant": "Texts are unbounded; tests use a handful of well-formed addresses.", "anchors": ["ie/node-id.go: NewNodeID, NewNodeIDHeuristic, NodeID", "ie/fq-csid.go: NewFQCSID", "ie/ue-ip-address.go: NewUEIPAddressFields", "ie/outer-header-creation.go: NewOuterHeaderCreationFields", "ie/remote-gtp-u-peer.go: NewRemoteGTPUPeerFields", "ie/user-plane-ip-resource-information.go: NewUserPlaneIPResourceInformationFields"]}
{"id": "C95", "title": "Marshal of structs with arbitrary contents", "statement": "For each of the 28 exported XxxFields structs and any contents of its exported members, also those no constructor makes, the outcome of Marshal is exactly known: the octets, the error or the panic. A result always has the length MarshalLen announces. A string member is cut or zero-filled to its length member, which is written as it stands. Errors occur exactly for: Remote GTP-U Peer without room for anything, IP Multicast Address with more flagged octets than non-nil addresses give, Packet Rate and DL Flow Level Marking without a flag, User Plane IP Resource Information with nothing to write, User ID and Trace Information with non-hexadecimal digits, MAC Address with fewer non-nil than flagged addresses. Panics occur exactly for: Header Enrichment with length members above the real lengths, Trace Information with a PLMN of other than two digits MNC and fewer than three digits MCC or MNC, PFD Contents with length members below the strings of the lists, MAC Addresses Detected/Removed with more addresses than its number says, Remote GTP-U Peer with an empty destination interface member or addresses beside its CHOOSE-like bit without room, and MAC Address with a flagged short address. (That an address put in a struct is the address written is refuted: UE IP Address, Outer Header Creation, Remote GTP-U Peer and User Plane IP Resource Information write 0.0.0.0 for every IPv4 address given in its 16-octet form; F-TEID with a flagged nil IPv4 address writes the IPv6 address in its place, read back as two wrong addresses; Outer Header Creation with a tag loses its port number.)", "quantifier": "every struct of every XxxFields type, with any octet strings, numbers and flags", "why_tests_cant": "Tests marshal structs built by the constructors; inconsistent contents and the panics they cause are unbounded in number.", "anchors": ["ie/f-teid.go: FTEIDFields.Marshal", "ie/ue-ip-address.go: UEIPAddressFields.MarshalTo", "ie/outer-header-creation.go: OuterHeaderCreationFields.MarshalTo", "ie/remote-gtp-u-peer.go: RemoteGTPUPeerFields.MarshalTo", "ie/user-plane-ip-resource-information.go: UserPlaneIPResourceInformationFields.MarshalTo", "ie/pfd-contents.go: PFDContentsFields.MarshalTo", "ie/trace-information.go: TraceInformationFields.MarshalTo", "ie/mac-address.go: MACAddressFields.MarshalTo"]}
{"id": "C96", "title": "MarshalTo of structs into the caller's buffer", "statement": "For each of the 28 exported XxxFields structs with any contents: what MarshalTo writes does not depend on what the buffer holds, only on its size, and so does the error or panic. Octets beyond a sufficient buffer are left alone. Whenever Marshal succeeds, MarshalTo succeeds on every buffer of MarshalLen octets or more; on exactly MarshalLen octets the result is exactly known: the octets of Marshal, except at the places that are never written. The result is Marshal's for every buffer exactly if each flagged address has the right size, no string is shorter than its length member and what MarshalLen counts is what is written; such structs are never written to a shorter buffer. Twelve types answer a short buffer by an error and never panic; so does MAC Address if its flagged addresses have 6 octets. (That MarshalTo into a used buffer gives the octets of Marshal is refuted: SDF Filter and PFD Contents always leave the spare octet as it was, and Remote GTP-U Peer leaves the octets after the first of its destination interface. That a short buffer is answered by an error is refuted for the other fifteen types, which panic.)", "quantifier": "every struct of every XxxFields type, every buffer of any length and contents", "why_tests_cant": "Tests marshal into new buffers of the right size; used buffers and all sizes cannot be enumerated.", "anchors": ["ie/sdf-filter.go: SDFFilterFields.MarshalTo", "ie/pfd-contents.go: PFDContentsFields.MarshalTo", "ie/remote-gtp-u-peer.go: RemoteGTPUPeerFields.MarshalTo", "ie/f-teid.go: FTEIDFields.MarshalTo", "ie/source-ip-address.go: SourceIPAddressFields.MarshalTo", "ie/mac-address.go: MACAddressFields.MarshalTo"]}
{"id": "C97", "title": "What a peer with another set of grouped types receives", "statement": "Sender and receiver may differ in what SetIsGroupedFun tells the library. For every message a sender can build, and every receiver whose set of grouped types is any other predicate: the receiver accepts the message exactly if it can read the octets after the header as IEs with its own set, and then holds those. If no IE that the receiver decodes, at any depth, is grouped for the receiver only, the message is delivered: same message type, same header, each IE in the field of the same name with the same type, length, vendor number and value; child IEs are there where the receiver's set says grouped, and none elsewhere. Accessors of plain values and flag accessors then return the same on both sides; an accessor of a value inside groups returns the same if the groups on the way are grouped for both. If both agree on the types that occur, at any depth, the receiver holds exactly what the sender sent. (That a receiver which knows more grouped types than the sender still accepts what the sender sends is refuted: one IE whose value does not decode makes the whole message fail.)", "quantifier": "every message, every pair of grouped-type predicates, any nesting depth", "why_tests_cant": "A process has one predicate at a time; no test runs two versions of the library against each other, let alone all pairs of predicates.", "anchors": ["ie/ie.go: SetIsGroupedFun", "ie/ie.go: (*IE) UnmarshalBinary", "ie/ie.go: ParseMultiIEs", "message/message.go: Parse"]}
{"id": "C98", "title": "What UnmarshalBinary leaves in its receiver when it fails", "statement": "For every receiver and every sequence of octets, UnmarshalBinary of an IE, of a header and of each message returns an error or nil without a panic, and what it leaves in the receiver is exactly known, also on error. An IE keeps its value and child IEs unless all the announced octets were there; type and length are overwritten from 4 octets on. A header keeps sequence number, priority and payload. A message loses its Header (nil) if the datagram is too short for one, and then every method that uses the header panics; otherwise it has the new header. It keeps all its IEs, except that Generic loses them. The next datagram is decoded as if the failing one had not come. A message used again and again, errors ignored, holds the header of the last datagram and the IEs of all bodies that decoded. (That a receiver is unchanged after an error is refuted: sent on, a message whose body was refused tells the peer the old IEs under the new type, SEID and sequence number; an IE so left marshals to octets that do not parse; a message left with no header panics in Marshal, MarshalLen, SEID, Sequence and MessageType.)", "quantifier": "every receiver, every octet string, every sequence of octet strings of any length given to one receiver", "why_tests_cant": "Tests look at the error of a failing call, not at the receiver, and never use it again; the states reachable by sequences of datagrams are unbounded.", "anchors": ["ie/ie.go: (*IE) UnmarshalBinary", "ie/ie.go: ParseMultiIEs", "message/header.go: (*Header) UnmarshalBinary", "message/header.go: ParseHeader", "message/heartbeat-request.go: (*HeartbeatRequest) UnmarshalBinary", "message/generic.go: (*Generic) UnmarshalBinary"]}
{"id": "C99", "title": "Text of a header", "statement": "Header.String() of every header has one fixed layout: each number reads back, in its base, to the member it stands for, without superfluous zeros except the SEID, which has 16 digits, and the payload has two hexadecimal digits for each octet. Two headers print alike exactly if they agree in all members and in the three lowest bits of the flag octet; two received datagrams print alike exactly if they differ at most in the version and spare bits of their first octets. (That the text shows the version received is refuted: it says 1 always. That it shows only what is sent is refuted: the SEID set in a header without the S flag is printed.)", "quantifier": "every header, every pair of headers, every pair of datagrams", "why_tests_cant": "No test looks at the text; injectivity is a statement about all pairs.", "anchors": ["message/header.go: (*Header) String"]}
{"id": "C100", "title": "What accessor results become when the receive buffer is used again", "statement": "For every received element, every accessor and every later contents of the receive buffer: numbers, strings, node IDs, times and durations stay as they were; octet strings are a fixed window of the buffer and show whatever it holds then; IEs keep type, length, vendor number and nesting, and their values are windows; in a struct the IP addresses and the MAC addresses of a list are windows, at places given by the first octet of the value, and all other members are copies. Nothing outside the buffer matters. Structs of 20 kinds, MAC Address among them, do not change at all; for each of the other 15 there is a value that does. If the buffer then holds another value of the same kind with the same first octet, the struct kept shows the addresses of the new value beside the numbers of the old one. (That a result stays what it was is refuted: a kept F-SEID becomes the SEID of the first peer with the address of the second.)", "quantifier": "every element, every accessor, every earlier and later contents of memory", "why_tests_cant": "Tests decode from a buffer that nobody writes again; which members alias it is invisible to a test that compares values once.", "anchors": ["ie/f-seid.go: (*FSEIDFields) UnmarshalBinary", "ie/f-teid.go: (*FTEIDFields) UnmarshalBinary", "ie/ue-ip-address.go: (*UEIPAddressFields) UnmarshalBinary", "ie/mac-address.go: (*MACAddressFields) UnmarshalBinary", "ie/mac-address-detected.go: (*MACAddressesDetectedFields) UnmarshalBinary", "ie/apply-action.go: (*IE) ApplyAction", "ie/fq-csid.go: (*IE) NodeAddress", "ie/s-nssai.go: (*IE) SNSSAI", "ie/ie.go: (*IE) UnmarshalBinary"]}
{"id": "C101", "title": "Octets from behind an element", "statement": "Decoding takes no octet from behind the octets it is given, whatever lies there in the same buffer; the value of a decoded element is followed in memory by the rest of the datagram and then by what earlier datagrams left in the buffer. An accessor that does not panic on the element alone returns the same whatever lies behind the element, and so does, panic or not, every accessor but FlowDescription, PFDContents, SDFFilter and SubsequentTimeQuota, at thirteen pairs of accessor and type. These four, where the element alone would make them panic, take octets from behind it: an SDF Filter of nine octets yields a flow description with up to 65534 octets of the following elements or of earlier datagrams, PFDContents likewise, FlowDescription up to three octets, SubsequentTimeQuota up to four. (That an accessor's result depends on the element only is refuted for each of the thirteen pairs.)", "quantifier": "every datagram, every contents of the buffer behind it, every element, every accessor", "why_tests_cant": "Tests decode from slices without spare capacity, where the same inputs panic or are not tried; a leak shows only with a reused, larger receive buffer and an element that lies about a length.", "anchors": ["ie/sdf-filter.go: (*SDFFilterFields) UnmarshalBinary", "ie/pfd-contents.go: (*PFDContentsFields) UnmarshalBinary", "ie/flow-information.go: (*IE) FlowDescription", "ie/subsequent-time-quota.go: (*IE) SubsequentTimeQuota", "ie/ie.go: (*IE) UnmarshalBinary, ParseMultiIEs"]}
{"id": "C102", "title": "Writing past the end of the buffer", "statement": "MarshalTo of an IE, a header or a message never changes an octet behind the first MarshalLen octets of the memory its buffer lies in, and if the buffer is long enough it writes exactly the encoding. If the buffer is too short but its capacity is not, octets past its end are written: MarshalTo of an IE returns nil, with the whole encoding in memory, exactly if the buffer ends behind the header of the last element and that element is not grouped, and MarshalTo of a message returns nil for every buffer that holds the header alone. A buffer that ends inside the enterprise ID of a vendor-specific IE gets the payload where the enterprise ID should be, and nil is returned if nothing follows. After an error the memory holds the elements before the one in which the buffer ends, and its former contents behind them; after a panic it also holds the header or all of that element, as far as the capacity goes; a panic caused by a nil inside a list of a message leaves the buffer alone. (That MarshalTo stays within its buffer, or fails if the buffer is too short, is refuted.)", "quantifier": "every IE tree, every header, every message, every buffer and every capacity and contents of the memory behind it", "why_tests_cant": "Tests marshal into buffers made to measure; a write past len is invisible unless the array behind the slice is inspected, and the partial contents after an error or panic are never looked at.", "anchors": ["ie/ie.go: (*IE) MarshalTo", "message/header.go: (*Header) MarshalTo", "message/heartbeat-request.go: (*HeartbeatRequest) MarshalTo"]}
{"id": "C103", "title": "Which errors are returned", "statement": "Decoding an IE, a list of IEs or a message returns no error but io.ErrUnexpectedEOF and ErrInvalidLength, and ErrInvalidLength only if the octets hold the header of a vendor-specific IE with a Length below 2; the header and the structured payloads return io.ErrUnexpectedEOF only; MarshalTo returns no error but ErrInvalidLength. An accessor returns io.ErrUnexpectedEOF, ErrIENotFound, ErrInvalidLength (under the same condition on its payload), InvalidTypeError with the type of the IE or of one nested in it, ErrMalformed only on account of an FQ-CSID with a first octet of at least 48, InvalidNodeIDError with the first octet, at least 3, of a Node ID, and an error about LocalFTEID only on account of a Created Traffic Endpoint; ErrInvalidType and ErrElementNotFound never. FindByType returns ErrInvalidType exactly on a type that is not grouped and ErrIENotFound exactly if no child has the type. Different errors have different texts. MustAPNDNN returns the name, or the empty string for an error, and never panics.", "quantifier": "all octet strings, every receiver, every IE, every accessor and every grouped predicate", "why_tests_cant": "Tests compare one error on one input; that no input whatever yields an error a caller does not handle with errors.Is, or one with a misleading type number, ranges over all payloads and nestings.", "anchors": ["ie/errors.go: ErrInvalidLength, ErrIENotFound, ErrMalformed, InvalidTypeError, InvalidNodeIDError", "ie/ie.go: Parse, ParseMultiIEs, (*IE) UnmarshalBinary", "ie/ie_grouped.go: (*IE) FindByType", "ie/apn-dnn.go: (*IE) MustAPNDNN", "message/message.go: Parse"]}
{"id": "C104", "title": "Structured payloads: the statements as written and their meaning agree", "statement": "For each of the 35 XxxFields types, executing the statements of UnmarshalBinary, MarshalTo and MarshalLen as they are written, one after the other, on any struct and any argument, ends within len(b)+1 turns of any loop, returns the same nil, the same error or panics exactly as the layout of the payload used in the other properties says, and on success leaves every member of the struct, respectively every octet of the argument, as that layout says; so do Marshal and ParseXxxFields, which are made of them.", "quantifier": "every one of the 35 types, every struct (also one used before), every argument of any length and content", "why_tests_cant": "Tests run the statements on a few payloads; that the statements as written have the stated meaning on every struct and every argument, truncated and overlong ones included, is a statement about all executions.", "anchors": ["ie/f-teid.go: (*FTEIDFields) UnmarshalBinary, MarshalTo, MarshalLen", "ie/pfd-contents.go: (*PFDContentsFields) UnmarshalBinary, MarshalTo, MarshalLen", "ie/trace-information.go: (*TraceInformationFields) UnmarshalBinary, MarshalTo, MarshalLen", "ie/mac-address-detected.go: (*MACAddressesDetectedFields) UnmarshalBinary, MarshalTo, MarshalLen", "ie/user-plane-ip-resource-information.go: (*UserPlaneIPResourceInformationFields) UnmarshalBinary, MarshalTo, MarshalLen"]}
{"id": "C105", "title": "Structured payloads: what a method leaves alone", "statement": "Whichever way it ends, with nil, an error or a panic, UnmarshalBinary of an XxxFields struct leaves the octets of its argument as they were, MarshalTo leaves the struct as it was and its argument of the same length, and MarshalLen changes neither.", "quantifier": "every one of the 35 types, every struct, every argument, every way of ending", "why_tests_cant": "Tests look at results of successful calls; that no execution whatever, a failing or panicking one included, writes where it should not is a statement about all executions.", "anchors": ["ie/f-teid.go: (*FTEIDFields) UnmarshalBinary, MarshalTo, MarshalLen", "ie/pfd-contents.go: (*PFDContentsFields) UnmarshalBinary, MarshalTo, MarshalLen", "ie/trace-information.go: (*TraceInformationFields) UnmarshalBinary, MarshalTo, MarshalLen", "ie/mac-address-detected.go: (*MACAddressesDetectedFields) UnmarshalBinary, MarshalTo, MarshalLen", "ie/user-plane-ip-resource-information.go: (*UserPlaneIPResourceInformationFields) UnmarshalBinary, MarshalTo, MarshalLen"]}
{"id": "C106", "title": "What a failed UnmarshalBinary leaves in an XxxFields struct", "statement": "When UnmarshalBinary of an XxxFields struct fails or panics, what is left is a struct of the type. With fewer octets than the first check of the method asks for nothing is assigned; with that many the first member holds what the payload says (Trace Information aside, which starts with the digits of a PLMN), even though an error was returned: that a failed call leaves the struct as it was is refuted. After any sequence of calls, failed and panicking ones included, a later call decodes as on a new struct: the same error or panic, and on success every member the payload carries has the value a new struct would get. This holds for all types but PFD Contents, for which it is refuted.", "quantifier": "every one of the 35 types, every struct, every argument, every sequence of earlier calls and ways they ended", "why_tests_cant": "Tests decode into new structs and stop at the first error; what is left behind by every failing execution and how it influences every later one is a statement about all sequences of calls.", "anchors": ["ie/f-seid.go: (*FSEIDFields) UnmarshalBinary", "ie/pfd-contents.go: (*PFDContentsFields) UnmarshalBinary", "ie/trace-information.go: (*TraceInformationFields) UnmarshalBinary", "ie/mac-address-detected.go: (*MACAddressesDetectedFields) UnmarshalBinary"]}
{"id": "C107", "title": "Elements longer than this version knows", "statement": "Octets added behind the payload of an element are ignored: UnmarshalBinary of every XxxFields struct and every ParseXxxFields function that accepts a payload gives the same for the payload with anything behind it (so every accepted payload has a shortest accepted prefix, and cutting before its end fails), and an accessor gives the same value, except the 25 accessors that return the payload as it is and the seven that depend on its exact length. Elements added behind the children of a group do not change what an accessor finds in it. Refuted for Node ID, where octets behind an IPv4 address make the address nil without an error, and for TSN Bridge ID, where one octet is an error and two become part of the address.", "quantifier": "every payload, every added octets or elements, every accessor, every element type", "why_tests_cant": "Tests use payloads of the exact length; that anything at all behind any accepted payload is ignored by every decoder, with exactly the stated exceptions, ranges over all payloads and all extensions.", "anchors": ["ie/f-teid.go: ParseFTEIDFields", "ie/node-id.go: (*IE) NodeID", "ie/tsn-bridge-id.go: (*IE) TSNBridgeID", "ie/pdr-id.go: (*IE) PDRID", "ie/mbr.go: (*IE) MBRUL", "ie/create-pdr.go: (*IE) CreatePDR", "ie/ie.go: ParseMultiIEs"]}
{"id": "C108", "title": "Order of the elements, repeated and unknown elements", "statement": "The fields of a decoded message depend, for each type of element the message knows, only on the sequence of elements of that type: elements of different types may be exchanged and elements of other types put anywhere without changing a field (the elements the message does not know are kept, in their order). Of several elements for a field that holds one, a message keeps the last; of several children of the type it looks for, an accessor of a group reads the first. Accessors that look for one type do not depend on the order of children of different types; ten accessor and group pairs look for two, and for these it is refuted.", "quantifier": "every message type, every body, every rearrangement, every accessor and group", "why_tests_cant": "Tests decode bodies in the order the constructor writes them; independence of the order ranges over all rearrangements of all bodies.", "anchors": ["message/message.go: Parse", "message/heartbeat-request.go: (*HeartbeatRequest) UnmarshalBinary", "message/session-establishment-request.go: (*SessionEstablishmentRequest) UnmarshalBinary", "ie/pdr-id.go: (*IE) PDRID", "ie/f-teid.go: (*IE) FTEID"]}
{"id": "C109", "title": "A structured payload decoded and encoded again", "statement": "Marshal of what ParseXxxFields returned gives the octets at the start of the payload that was decoded, for the types F-TEID, F-SEID, Alternative SMF and CP PFCP Entity IP Address, Source IP Address, UE Link-Specific IP Address, MPTCP Address Information, IP Multicast Address, the five volume types, Number of UE IP Addresses, Packet Delay Thresholds, QoS Monitoring Measurement, MAC Address and Header Enrichment, and for UE IP Address without both of its length flags, Packet Rate and DL Flow Level Marking with something flagged and Outer Header Creation with no tag bit in its first octet; and these octets are decoded to the same struct unless they are a single one. For every other type, and these four in the other cases, it is refuted by a payload whose encoding differs, or whose encoding fails or panics.", "quantifier": "every payload of any length and content, every one of the 35 types", "why_tests_cant": "Tests encode and decode values they made; that nothing decoded from any payload whatever is altered when it is encoded again is a statement about all payloads.", "anchors": ["ie/f-teid.go: (*FTEIDFields) Marshal, UnmarshalBinary", "ie/ue-ip-address.go: (*UEIPAddressFields) Marshal, UnmarshalBinary", "ie/trace-information.go: (*TraceInformationFields) Marshal, UnmarshalBinary", "ie/sdf-filter.go: (*SDFFilterFields) Marshal, UnmarshalBinary"]}
{"id": "C110", "title": "An IE with a single value read and built again", "statement": "For the 117 IE types that hold one value: passing what the accessor returned to the constructor of the type gives an IE of the same type with the same octets, without those behind the value. For integers, flags, texts, times and durations this holds for every payload long enough; for names for every payload that is a sequence of labels without dots; for values of a few bits the octet is the same or lacks its spare bits. For the three timers every octet gives the same duration again, but that it gives the same octet is refuted: 30 units of 2 s become 1 minute, and a stopped timer (all bits zero) becomes 0 units of 10 hours. That undefined units count minutes, as the comment in the code says, is refuted: they give 0.", "quantifier": "every one of the 117 types, every payload, every accessor named after the type and every constructor of it", "why_tests_cant": "Tests start from a value and look at the octets it gives; that no payload received is altered by reading and building it again ranges over all payloads of all types.", "anchors": ["ie/timer.go: NewTimer, (*IE) Timer", "ie/pdr-id.go: NewPDRID, (*IE) PDRID", "ie/recovery-time-stamp.go: NewRecoveryTimeStamp", "ie/time-threshold.go: NewTimeThreshold", "ie/source-interface.go: NewSourceInterface", "ie/apn-dnn.go: NewAPNDNN, (*IE) APNDNN"]}
{"id": "C111", "title": "MarshalTo of the structured payloads into a slice with spare capacity", "statement": "MarshalTo of an XxxFields struct on a slice b of length L of a larger memory: if the call would not panic on a slice without spare capacity, then the spare capacity makes no difference: same result, same octets in b, and no octet behind b changes. So a slice of MarshalLen octets or more gets the encoding and nothing behind the encoding changes, for all types. For the types that check the length before every write, and for Source IP Address, MAC Address and Trace Information, no octet behind b changes whatever the length of b and the struct. That this holds for all types is refuted: each of the 15 other types (such as UE IP Address, SDF Filter, Outer Header Creation, User ID, PFD Contents) writes past the end of some slice that is too short and reports success, where without spare capacity it would panic.", "quantifier": "every struct type with a MarshalTo method, every value of its members, every memory and every length of the slice up to the end of the memory", "why_tests_cant": "Tests marshal into slices made to size, which have no spare capacity; silent writes to the neighbouring octets of a shared packet buffer show only with a slice that is both too short and part of a longer array.", "anchors": ["ie/ue-ip-address.go: (*UEIPAddressFields) MarshalTo", "ie/sdf-filter.go: (*SDFFilterFields) MarshalTo", "ie/outer-header-creation.go: (*OuterHeaderCreationFields) MarshalTo", "ie/f-teid.go: (*FTEIDFields) MarshalTo", "ie/trace-information.go: (*TraceInformationFields) MarshalTo", "ie/mac-address.go: (*MACAddressFields) MarshalTo", "ie/source-ip-address.go: (*SourceIPAddressFields) MarshalTo"]}
{"id": "C112", "title": "How far MarshalTo of the structured payloads writes behind a slice that is too short", "statement": "MarshalTo of an XxxFields struct whose Marshal succeeds, on a slice of any length of a memory: whatever the call returns, and also if it panics, nothing is written behind the first MarshalLen octets from the start of the slice, for all types. If the call reports success, then for every struct the memory is as if the slice had gone on to the end of the memory; if in addition the struct fills its buffer (C96), the memory holds the whole encoding, past the end of the slice if need be, and is otherwise unchanged. That a call that panics has not written behind the slice is refuted: UE IP Address writes the IPv4 address past the end and then panics.", "quantifier": "every struct type with a MarshalTo method, every value of its members, every memory and every length of the slice up to the end of the memory", "why_tests_cant": "Tests do not marshal into slices that are too short and part of a longer array, and the bound concerns each octet of every such array, after errors and panics too.", "anchors": ["ie/ue-ip-address.go: (*UEIPAddressFields) MarshalTo", "ie/sdf-filter.go: (*SDFFilterFields) MarshalTo", "ie/outer-header-creation.go: (*OuterHeaderCreationFields) MarshalTo", "ie/c-tag.go: (*CTAGFields) MarshalTo", "ie/user-id.go: (*UserIDFields) MarshalTo", "ie/pfd-contents.go: (*PFDContentsFields) MarshalTo"]}
{"id": "C113", "title": "What MarshalTo of the structured payloads has written when it fails", "statement": "MarshalTo of every XxxFields type is arranged so that, wherever the length of the argument decides whether the call goes on, all octets written so far are in front of all octets that can still be written. So however a call ends, by success, error or panic, and whatever the struct, the memory holds the first q octets of what the call on the whole memory would leave, for some q, and is unchanged behind them. If the struct fills its buffer (C96), these are the first q octets of the encoding, and an error on a slice that is too short leaves the first q octets of the encoding in it and its other octets unchanged. That a call that returns an error leaves the slice as it was is refuted (F-TEID into 8 octets). That no type writes an octet twice is refuted: Outer Header Creation with a port number and a C-TAG writes the tag over the port number.", "quantifier": "every struct type with a MarshalTo method, every value of its members, every memory and every length of the slice", "why_tests_cant": "Tests look at the error and discard the slice; what a failed call leaves in a shared buffer depends on the member at which it stopped, for each flag combination and length.", "anchors": ["ie/f-teid.go: (*FTEIDFields) MarshalTo", "ie/f-seid.go: (*FSEIDFields) MarshalTo", "ie/ue-ip-address.go: (*UEIPAddressFields) MarshalTo", "ie/outer-header-creation.go: (*OuterHeaderCreationFields) MarshalTo", "ie/redirect-information.go: (*RedirectInformationFields) MarshalTo", "ie/remote-gtp-u-peer.go: (*RemoteGTPUPeerFields) MarshalTo", "ie/trace-information.go: (*TraceInformationFields) MarshalTo"]}
