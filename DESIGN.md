# Formal model of wmnsk/go-pfcp in Rocq (Coq 8.16.1)

## Layout (rocq/theories)

| files | contents |
|-------|----------|
| Base, Bits, Codec, Codec2 | octets, Go slices, big-endian integers, result type; bit lemmas; the reading/writing idioms of the payload codecs |
| IETypes, IENames, IE | type codes and names, the generic codec of ie/ie.go and ie/ie_grouped.go |
| Spec, HeaderSpec, MsgSpec, MsgNames, FieldsSpec1-4, FlagSpec | independent specifications (wire formats as relations, tables from TS 29.244) used by the statements |
| Header, Message, MsgTables | message/header.go, misc.go, the 24 message types and message.Parse |
| Utils, Time, Fields1-4 | internal/utils, times and durations, every structured payload codec (XxxFields) |
| Access, AccTable, AccRun, AccNames | the ~300 accessor methods of *IE |
| Flags, FlagTable, FlagRun | the bool methods of *IE and of the XxxFields structs, ValidateApplyAction |
| New, NewTable, NewRun | the 282 IE constructors |
| Logger, Registry, Alias | goroutines over the logger's lock; goroutines over the grouped-type registry; memory (slices into arrays) |
| Members, Formats, Construct, ReuseSpec, AnySpec | further specifications: grouped IEs and codings after TS 29.244, what constructors give, structs with arbitrary contents |
| Reuse, Failed, Cost, Share, Errors, HeaderText, TypeString, NetText, Heartbeat | decoding into used receivers, receivers after failures, work done, concurrent Marshal, errors and their texts, printed names and headers, textual addresses, the heartbeat examples |
| Seen, SeenMem, Spare, Over | memory behind decoded values; slices with spare capacity, read and written |
| Go, GoFields, GoRep, GoMeta, GoType, GoShape | the deep model: syntax and meaning of the Go used by the XxxFields methods, their bodies, members and types |
| GoUn1-4, GoTo, GoTo1-3, GoLen | the deep model agrees with Fields1-4 and Reuse |
| GoOver, GoWithin, GoBound, GoFront | the bodies of MarshalTo on a slice with spare capacity: what is written where |
| *Proofs*, IEWf, IEWitness, IEProps, MsgProps* | lemmas |
| Props*.v | the property theorems `CNN_name`, each followed by `Print Assumptions`, with examples that meet the hypotheses |

Every model definition cites the file and lines it models.  `AccTable`, `FlagTable`, `NewTable`, `MsgTables`,
`IETypes` and `IENames` are generated from the Go text by the scripts in tools/ and committed; the scripts refuse
any function body that does not match one of the listed idioms, so nothing is skipped silently.

## Modelling conventions

* Octet = `N` with the explicit side condition `< 256` (`bytes`); lengths and offsets = `nat`; Go `uintN` = `N`
  with the wrap written as `mod 2^n` where the code wraps.
* Go error = `Err e`.  A Go run-time panic (index/slice out of range, nil dereference) **or** a slice
  expression that reaches past `len` into spare capacity = `Fault`.  (Go panics only beyond `cap`; reading
  between `len` and `cap` is an over-read.  Both are `Fault`, so "never Fault" is the stronger claim; where a
  theorem says "panics", the slice in question has no spare capacity.  Spare.v models the decoders and accessors with
  spare capacity, and C101 says exactly where it makes a difference; Over.v and C102, GoOver.v and C111 do so for MarshalTo.)
* Unbounded recursion and loops carry fuel; exhaustion is the separate value `Fuel`, and every theorem about
  them shows `Fuel` is impossible, which is the termination proof.
* `IsGrouped` is a parameter `g : N -> bool` of every definition, so theorems hold for every pure predicate
  installed with SetIsGroupedFun / AddGroupedIEType; `default_grouped` is the shipped table.
* nil IE pointers are `None` where the code distinguishes them; a nil and an empty byte slice are the same
  except where a codec tests for nil (`bslice`).
* Strings are lists of octets.
* Float-to-integer conversion of a value outside the target range is implementation-defined in Go: it is the
  parameter `beyond`, and theorems hold for every value of it.

## How each group is proved

| ids | approach |
|-----|----------|
| C01–C14, C43 | induction on fuel/length for decoding and on the tree for encoding; edits by path |
| C15–C18 | header codec against the wire relation |
| C19–C25, C47, C48 | generic theorems over a `kind` record, and computed checks of the 24 records against TS 29.244 tables |
| C26–C29 | list induction, bit lemmas |
| C30–C38, C49–C55, C57–C68 | per-codec: decode/encode against a wire relation, exact accepted set, exact failure set |
| C39, C69–C72 | generic theorem over the accessor tables (what is read, when an error, when a panic) |
| C40, C46, C56 | arithmetic over Z, SpecFloat for the float conversions |
| C45, C73–C78 | bool methods against FlagSpec |
| C85 | the accessor tables against the group composition of TS 29.244 (Members.v), by computation over all accessors and type codes |
| C86 | constructors and accessors against a table of codings (Formats.v) |
| C87 | structured constructors and their accessors against argument-to-field tables (Construct.v) |
| C88 | printed names of IE types (TypeString.v) |
| C89, C90 | the heartbeat server and client of examples/ as programs over runs of datagrams (Heartbeat.v) |
| C91 | UnmarshalBinary of the 35 XxxFields types on a struct with earlier contents (Reuse.v), against `kept`/`clean` of ReuseSpec.v |
| C92 | the generic decoder and encoder with a count of UnmarshalBinary and MarshalLen calls (Cost.v); the same results as IE.v |
| C93 | Marshal of one message as a program of single accesses to Header.Payload, its array and Header.Length, any number of calls interleaved (Share.v); simplified: sequentially consistent memory, a slice is read or written in one step, MarshalTo of one IE is one step and leaves nothing behind when it fails |
| C94 | net.ParseIP and IP.String on lists of octets (NetText.v), specified by inductive definitions of the texts (dotted, groups, v6_text in NetTextProofs.v); the constructors with text arguments are the ones of Fields/New applied to the parsed text |
| C95 | the exact outcome of Marshal for all 28 structs with arbitrary members is `expected` (AnySpec.v), written with cut-or-fill strings and no offsets; the model's MarshalTo functions (Fields1-4) are proved equal to it |
| C96 | MarshalTo into buffers of any size and contents: `expected_on z` (AnySpec.v) is the outcome in a buffer of octets z; BufferProofs.v shows that the octets written depend on the size of the buffer alone, BufferProofs2.v which structs (`filled`) write all of them. Slices are bounded by their length here: Go lets a slice expression reach the capacity of the buffer, so a write past the length is a panic only if there is no spare capacity |
| C97 | two grouped-type predicates g (sender) and g' (receiver): `seen g'` is an element as the receiver holds it, `understood` that no element it decodes is grouped for it alone (DeliverProofs.v); accessors are those of AccTable and FlagTable |
| C98 | UnmarshalBinary with the receiver returned on error as well (Failed.v; IE.v, Header.v and Message.v return it on success only, and the two are proved to agree); a message there may have no Header, which the other properties exclude. Nil receivers are not modelled |
| C08 | `found g i s x`: the element x starts at octet s of the encoding of i (ShortProofs.v, an inductive definition); the outcome for a buffer is read off the element it ends in (PropsShort.v) |
| C99 | Header.String with the verbs %v, %d, %#016x, %x, %#x of fmt as documented, on N and lists of octets (HeaderText.v) |
| C100 | a struct in memory is the function from later contents of its payload to what is read from it (Seen.v); the accessors over the heap of Alias.v (SeenMem.v), proved to return what AccRun.v returns; LocalFTEIDN not repeated there |
| C101 | the decoders and accessors again on a slice of length L of a memory M that goes on to the capacity (Spare.v, written by tools/genspare.py from Fields1.v to Fields4.v with the primitive operations exchanged; the leaf bodies and decoding by hand): `b[lo:hi]` is bounded by M, `b[i]`, `b[lo:]` and `len` by L. LocalFTEIDN not repeated there |
| C102 | MarshalTo of IEs, headers and messages again on a slice of length L of a memory M that goes on to the capacity, returning the memory with every outcome, panics included (Over.v); MarshalTo of the structs is C111 |
| C103 | `short_vendor`, `inside` and `acc_err` (Errors.v) say in terms of octets and decoded elements when an error may appear; the texts of encoding/hex are not modelled |
| C104 | A second, deep model: the syntax and meaning of the part of Go used (Go.v), the bodies of the 105 methods translated statement by statement from the text by tools/gengo.py (GoFields.v), the members by their Go names (GoRep.v). Proved equal to Reuse.v and AnySpec.v. `octet_members` says that six members of type uint8 are octets |
| C105 | `no_set` and `no_put` look for assignments to members and writes to the argument in the text of a method (GoMeta.v) |
| C106 | the struct with which a run of a method in Go.v ends, on errors and panics too; `fits` (GoType.v) gives the Go type of every member and GoShape.v shows that assignments keep it; `least` is the first length check of each method, `after` a sequence of calls |
| C107 | `stable` walks the table of accessors (AccTable.v) and says which of them read the start of the payload only or search the children; `payload_wide` and `length_bound` list the others by name |
| C108 | `of_type t` is the subsequence of elements of one type; the headers of the two datagrams may differ in everything but the message type |
| C109 | `faithful` says for which structs the encoding is what was decoded, `unfaithful` has a payload for every other type; proved from the exact decoding and encoding theorems of each type (PropsFields1.v to PropsFields3.v) |
| C110 | SameProofs.v, from the table of codings of C86: `encodes` is a function except for the timers, and in `whole` formats all octets are the coding of a value; PropsSame.v has the timers apart |
| C111 | The meaning of the Go bodies of C104 again with the argument as the first L octets of a memory (GoOver.v): b[i] = x is checked against L, slices b[i:j] against the whole memory. GoWithin.v is a check on the text (every slice write comes after a comparison of its end with len(b)), proved sufficient. `C111_reads`: the bodies read the argument through its length only |
| C112 | GoBound.v compares the call on the slice with two calls on the whole memory whose contents differ at one place; `C112_plain` is a check on the text (the length of the slice is used only to return io.ErrUnexpectedEOF). When a struct fills its buffer is `filled` (C96) |
| C113 | `front` (GoFront.v) is a check on the text that all types pass. It follows two places, sums of the same variables and lengths: all further writes are at the first or behind it, and nothing has been written at or behind the second. Where the length of the argument decides (a check of `l`, or b[i] = x) the second must not be behind the first. Once the length does not matter any more the second may be lost, which admits Outer Header Creation (the offset is not advanced after the port number) and Remote GTP-U Peer (advanced by DILength after one octet); a variable may be known to hold a number, which admits Redirect Information (b[1:3] where the offset is 1) |
| C79–C84 | constructors composed with Marshal, Parse and the accessors |
| C41, C42 | small-step interleavings; invariants, progress measure, schedules as witnesses |
| C44 | simulation between the memory model and the value model, windows on the buffer |

A property found false of the code is restated in properties.jsonl as what the code does, with
"(… is refuted)", and the refutation is a theorem `CNN_…_refuted` with a concrete witness.

## Trusted base

* The Coq 8.16.1 kernel, including `vm_compute`.
* `Print Assumptions` under every property theorem prints "Closed under the global context": no axiom is used,
  not even of the standard library.  (Loading the standard library's `ssreflect`-related files makes vcheck list
  `Coq.ssr.ssrunder.Under_rel.*`; these are the library's, and no theorem depends on them.)
* That the model says what the Go text says.  This is by reading; the code is never run here.  The generated tables
  additionally trust the scripts in tools/.
* The tables headed "TS 29.244" (message contents, flag bits, group members, codings) are the author's knowledge of that document,
  which was not available in the sandbox.
* Assumed about the Go runtime and standard library: `sync.Mutex`/`sync.RWMutex` are locks (no owner, a waiting
  writer blocks new readers), `encoding/binary` is big-endian, `encoding/hex` and `math` as defined in Utils/Time,
  `copy` is memmove, `append` to a slice made by the function itself never writes into somebody else's array.

## Modelled, with simplifications

* net.ParseIP / IP.String (Go 1.24) are modelled in NetText.v from knowledge of the standard library, whose source was not
  available; elsewhere constructors taking textual addresses take the parsed address (nil, 4 or 16 octets).
* time.Time is a number of nanoseconds since 1970 (Z), without monotonic reading or the wrap of time.Unix far
  beyond the year 2^32.
* Nested `if`s of a flag guard and a length guard are one idiom in the tables.
* HeaderEnrichment.Flags is not kept (never read by the codec).
* ParseXxxFields is modelled on a fresh struct (Fields1.v to Fields4.v) and UnmarshalBinary on a used one in Reuse.v, for
  IEs, headers and messages in C43. The struct left behind by a failed UnmarshalBinary is in Go.v only (C106), and the old
  slices of a struct are values (that `copy` into one also changes other structs sharing the array is not stated).
* Go.v treats slices as values, ints as natural numbers (the only subtraction is `n--` in
  UserPlaneIPResourceInformationFields, of a positive length) and `make`/`append` without capacity. tools/gengo.py is trusted to have copied the text; its output GoFields.v
  keeps the order and nesting of the statements and can be compared with the source by eye.
* In Heartbeat.v the socket delivers the first 1500 octets of each datagram; socket errors and the read deadline end the run.
* In Logger.v deferred unlocks happen at the return; *log.Logger methods are single steps.
* In Registry.v the map is read/written in two steps (begin/end) so that overlap is visible; the unsynchronised
  function variable is read in one step and overlap is stated as a race.
* In Alias.v a slice has no capacity; IE structs are values; Header.MarshalTo of a message writes through one slice
  and is one step there.

## Not modelled

The texts of errors made by encoding/hex, strconv and net (the library's own texts are in Errors.v), `log` output text, sockets, internal/testutil, tests, memory
and CPU cost beyond the call counts of Cost.v, and behaviour of racy programs below the level of the steps above.

## Mutation tests

tools/mutate.py copies the theories to a scratch directory, applies one edit to a definition and rebuilds what depends
on it; seeded/LOG.jsonl has one line per attempt with the theorems that failed and those that were tightened.
