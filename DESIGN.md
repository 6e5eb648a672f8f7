# A formal model of voltbras/go-ocpp

The code in `/repo` is modelled in Rocq (Coq 8.16.1), function by function, and the properties of
`properties.jsonl` are proved about the model. This file says what is modelled and how, how each property is
proved, what has to be trusted, and what was found.

Build: `cd rocq && coq_makefile -f _CoqProject -o Makefile && make -j4` (about 13 minutes on 4 cores).

## 1. The model

| Layer | Files in `rocq/theories` | Code modelled |
|---|---|---|
| Go's libraries | `GoBase`, `Utf8`, `Json`, `Float64`, `GoTime`, `Xml` | encoding/json on bytes (scanner, string quoting and unquoting, HTML escaping, number literals, duplicate keys, invalid UTF-8), strconv on binary64 (shortest decimal, correct rounding), time.Parse/Format of RFC 3339, encoding/xml's mapping between struct values and element trees |
| Message types | `Lang`, `Types` (generated), `Codec` | `messages/v1x/{cpreq,cpresp,csreq,csresp}/messages.go` with every field and tag, `json_encode.go`, `json_decode.go`: each generated MarshalJSON is an instruction list, each UnmarshalJSON a key table with its required keys, transcribed line by line by `tools/gen_types.py` and run by an interpreter on bytes |
| Registries | `Tables` (generated), `Registry` | `messages/v1x/*/` `Action()`, `GetResponse()`, `FromActionName` |
| Frames | `Any`, `Frame` | `ws/message.go`, and the decoding half of `ws/conn.go` (`UnmarshalMessage`, `callToRequest`, `callResultToResponse`) |
| One connection | `Conn` | `ws/conn.go`: `SendRequest`, `ReadMessage`, `ReadMessageAsync`, `sendMessage`, `SendResponse`, `Close`, with the select loops of `cs/cs.go:139-168` and `cp/json.go:34-65`. One step per map access, channel operation, mutex operation, socket operation; goroutines interleave freely; writes reach the socket in chunks; timers may fire whenever they run; reads and writes may fail |
| Central system | `CentralSystem` | `cs/cs.go`: `handleWebsocket` with every critical section a step of its own, the connection table, listeners, `GetServiceOf`, WaitConnect / WaitDisconnect, HTTP dispatch, the web page |
| Charge point | `ChargePoint` | `cp/cp.go`, `cp/json.go`, `cp/soap.go`, `ws.Dial`, `ws.Handshake`, URLs and sub-protocols |
| SOAP | `Soap` | `soap/*.go`, `internal/service/*.go`, the closures of `cs/cs.go` and `cp/soap.go` around them, on element trees |
| Two ends | `Net` | a central system's connection and a charge point's connection, joined by two FIFO queues of texts |
| The whole | `System` | one central system, any number of charge points, any other clients, one wire per upgrade request |
| Independent descriptions | `Schemas`, `Wsdl` (generated) | `ws/json/*.json` and `soap/wsdl/*.wsdl`, which the code does not read: they serve as specification |

Every definition of the model carries a comment with the file and lines it models; simplifications are stated there.

Specifications are the files `Spec*.v`. They define what the theorems talk about on their own: JSON texts and
values (`SpecCodec`, `SpecEnc`, `SpecFrame`, `SpecSchema`), readings of traces of observations (`SpecConn`, `SpecCS`,
`SpecCP`, `SpecNet`, `SpecSys`), XML characters and messages as the WSDL describes them (`SpecXmlText`, `SpecSoap`,
`SpecWsdl`), the Gregorian calendar and RFC 3339 (`SpecTime`).

The property theorems are those named `Cnn_*` in `Props*.v`, each with an `Example` showing a concrete case that meets
its hypotheses (`Cnn_ex`, or a witness inside an existence theorem). The other files contain lemmas.

Machines are functions `step : event -> state -> option (state * list observation)`: `None` when the event cannot
happen. A property of "every schedule" quantifies over all reachable states and the traces that led there
(`reach`, `creach`, `xreach`, `nreach`, `yreach`), that is over all finite sequences of events.

## 2. How each property is proved

| Property | Modelled by | Proof |
|---|---|---|
| C01 frames round-trip | Json, Any, Frame | parser run on the printer's output, by induction on values and strings; numbers by C07's float theorem |
| C02, C03 outcome of reading any text | Frame | case analysis after the parser; outcome type with an explicit panic |
| C04 whitespace | Json, JsonText | induction over the parser, for texts normalised as `ws/conn.go` does |
| C05–C08 strings, integers, floats, times | Utf8, Json, Float64, GoTime | arithmetic on binary64 (correct rounding, shortest decimals found by search with a proved bound); RFC 3339 digit by digit |
| C09 payload round-trip | Codec, RoundTrip | a checker on the transcribed encoder/decoder pairs, proved sound by induction on values, evaluated for the 71 struct types |
| C10 encoding succeeds and is well formed | Codec, EncProofs, EncTotal | a checker turns every encoder program into its list of members; soundness by induction |
| C11, C12, C15, C16 schemas | Codec, Schemas, SpecSchema | checkers relating key tables to schemas, proved sound, evaluated for all types |
| C13 order of keys | DecProofs | permutation argument (Go's map order is any permutation) |
| C14 local list entries | Codec | case analysis, witnesses |
| C17, C18 registries | Registry | case analysis on the tables, for all strings |
| C19–C36, C44 one connection | Conn | invariants (`ConnInv`, `ConnSend`, `ConnEvid`, `ConnMore`, `ConnFate`) by induction over all event sequences; negative findings by explicit runs |
| C37–C42, C45, C59–C61 central system | CentralSystem | invariants relating the state to the trace (`CSInv`), each connection projected to a run of Conn |
| C43, C48, C49, C62 | ChargePoint | case analysis on all URLs, transports, versions, answers; SOAP server's life as a machine |
| C46, C47 reconnecting, cancelling | ChargePoint | invariants (`CPInv`), each connection projected to a run of Conn |
| C50–C56, C63, C66, C67 SOAP | Xml, Soap | induction on element trees and on struct values; case analysis of the server and client functions; characters by induction on strings |
| C57, C58, C64, C65 two ends | Net | invariants of the product (`NetProofs`), texts followed from writer to reader, C01/C09 for their content; C64 constructs the run |
| C68, C69 WSDL | Xml, Wsdl, SpecWsdl | checkers relating tags to descriptions, proved sound by induction on elements, evaluated for all 1.5 types |
| C70 timestamps | GoTime, SpecTime | arithmetic; the calendar is specified independently (by the number of days since year 0) |
| C71–C73 the whole system | System | invariants (`SysInv`): every component runs as it does alone, every wire as Net has it, so that C57 etc. apply |
| C75 panicking handlers | Conn, CentralSystem, ChargePoint | invariants (`ConnInv`), runs of the cleanup constructed |
| C76–C78 progress | Conn, CentralSystem, ChargePoint, SpecLive | from every reachable state, a short run of the process's own steps is constructed (`ConnLive`, `LiveProofs`), by cases on where each goroutine is; invariants rule out the states from which there is none |
| C79–C81 coming to rest | Conn, CentralSystem, ChargePoint, SpecSettle | a lexicographic measure (where each goroutine is, bytes left to write) decreases with every own step (`ConnSettle`, `CSSettle`, `CPSettle`); where none is possible everything is at rest, by the invariants; well-founded induction |
| C82 every call answered | Net, SpecCalm, SpecSettle | a text in the network weighs what it can still cause; the weight of both ends and both queues decreases with every step (`NetSettle`); invariants of undisturbed histories (`NetCalm`); well-founded induction |
| C83, C84 answered once, no crash from the peer | Net | texts traced from the wire back to the reply or refusal that produced them (`NetCalm`), then one answer per request by the invariants; the causes of crashes (`ConnFate`) excluded one by one |
| C85–C90 SOAP on bytes | XmlSyntax, XmlWrite, SpecXml | documents as XML defines them (every spelling) against the tokenizer, by induction on the document (`XmlSyntaxProofs`); what the printer writes is such a document (`XmlWriteProofs`); the reader with its unread rest, monotone in the input, for cut-off documents (`XmlCut`); errors behind any well-formed beginning (`XmlBad`); the tokenizer's fuel is always enough (`XmlFuel`) |
| C91 broken sockets | Conn | invariant on the trace (`ConnRetry`); for the refutation, a run with n failed reads, by induction on n |
| C92 one process | Process | invariants relating the state to the trace |
| C93 the whole system settles | System | undisturbed histories keep each wire an undisturbed network (`SysCalm`); a measure over all goroutines, queues and dials decreases with every step; a state with no step is at rest (`SysSettle`) |
| C94 JSON texts | Json, JsonText (`parse`, `normalise`), Frame (`read_text`) | a grammar with its meaning (`SpecJson`, with UTF-8 by RFC 3629); the reader is complete (mutual induction over derivations) and sound (induction on its steps) for it; trimming equals its relational description, by self-synchronisation of UTF-8 (`JsonGrammar`) |
| C95 texts written | Json (`print`), Frame (`marshal_message`) | induction over the document: the printer yields the spelled-out form (`JsonWritten`); with C05, the exact bytes of each frame |
| C96 what a received message means | Codec, Tables (UnmarshalJSON tables), Frame | induction over the payload against the relation `reads` (SpecReads); which member a field takes is settled by computation on the tables; rounding error of `parse_float` bounded for integers |
| C97 what a sent message says | Codec, Frame | `SpecSays.v` states without encoders which object a value is written as: a member per field under its JSON name, left out only if listed and nil/zero, leaves by kind. Induction over values on the trees of `EncProofs.v`, with the correspondence of encoder keys and struct tags computed for all types (`SaysProofs.v`) |
| C98 what an accepted SOAP message means | Xml, Soap | `SpecTells.v` says without the decoder what an element tells about each field; the decoder gives a value iff the element tells it (`TellsProofs.v`: induction on the size of the element; a nested struct in pieces is one element with the children of all, which is no larger than the pieces); with C50, C53, C55 this says exactly when handler and caller get which message |
| C99 a number received is the nearest double | Float64, Any, Frame | `SpecNumber.v`: decimals and doubles as rationals, nearest with ties to even; the rounding is proved best against every other double (`FloatNear`, `NearProofs`), then lifted to documents and frames (`NumberProofs`, `WeighProofs`, `NumberSent`) |
| C100 the text of a number sent | Float64, Xml, Any, Frame | `SpecShort.v`: shortest, closest, layout; the search over 1 to 17 digits is proved to find it and the specification to determine it (`ShortText`, `ShortProofs`, `ShortFound`, `ShortUnique`) |
| C101 numbers received over SOAP | Xml, Soap | `SpecDouble.v`: decimal, hexadecimal, underscores, signs, names; the reader accepts exactly these texts and the double is the nearest (`DoubleProofs.v`, from the numbers of C99) |
| C102 which JSON messages are accepted, and as what | Codec, Types, Any, Frame | `SpecYields.v` says without decoders which object is accepted as which value: members for fields under their JSON names, no others in whole messages, the obligatory ones present (a table), leaves by kind, integers by the text of C100; the decoder gives a value iff the object yields it (`YieldsProofs.v`: induction over the received value; the loop over the members on `gturns`). For the two types without a decoder of their own, if no two members are meant for one field |
| C103 what a sent message is at the other end | Codec, Types, Any, Frame, Float64 | `SpecArrives.v` says without encoders and decoders which value arrives for a value sent; the frame says the value sent (C97), is accepted as what it yields (C102), and the two relations compose to `arrives` (`ArriveProofs.v`: induction over the value sent). What becomes of an integer: the text of its nearest double (C99, C100) has the digits of one integer, found by comparing with half a step of the doubles below 2^63 (`ArriveInt.v`). End to end on `Net` and `System` with the invariants of C57, C58, C71, C72 (`PropsArriveNet.v`) |
| C104 SOAP over HTTP | Http, XmlWrite, Soap, CentralSystem | `Http.v` puts methods, header lines, statuses and panicking handlers around the bytes of XmlWrite; the theorems compare it with the server of C85-C90 (`http_cases`); `SpecHttp.v` states what compressed bodies begin with (RFC 1950-1952), which no answer does |
| C105 listeners while they run | Listen, CentralSystem | `Listen.v` adds to the central system the listeners that were called and have not come back; every history projects to one of the central system (C105_history), calls are accounted for by a permutation, the lock is free after one step (`free_mux`) |
| C106 the whole does what its parts do | System, CentralSystem, ChargePoint, Net | projections of `yreach` onto `creach`, `xreach`, `reach` and `nreach` (SysInv.v); a part's own steps are enabled in the whole because the wires exist (y_len, y_all) and own steps take nothing from them, so C75, C77 and C78 lift by induction on the run |
| C107 left alone, the whole comes to rest | System, CentralSystem, ChargePoint | the measures of C80 and C81 added up over the processes; a state without an own step has every part settled, by C80, C81 and the lifting of C106 |
| C74 nothing is stuck | System | from every reachable state, a run is constructed: dial, accept, exchange (`SysLive`) |

No property needed a bound on sizes, depths or numbers of steps.

Where the claim one would like to make is false of the code, the property says what the code does instead, and a
theorem with suffix `_refuted` gives the counterexample to the stronger claim.

No theorem is partial.

## 3. Trusted base

* Coq's kernel, 8.16.1, and `vm_compute`, which the kernel uses to evaluate the checkers. Only the standard library
  is used. There are no axioms: `Print Assumptions` says "Closed under the global context" for every `Cnn_*` theorem.
  (Tools that list what is loaded may show axioms of libraries that come with the standard library's load path; no
  theorem depends on one.)
* That the model says what the code does. The transcription of message types, tables, schemas and service
  descriptions is done by `tools/gen_types.py`, `gen_tables.py`, `gen_schemas.py`, `gen_wsdl.py`; the rest is by hand.
* That the libraries below behave as the model has them.

### Modelled on assumption

* Go's encoding/json, strconv, unicode/utf8, time: modelled from their documentation and source as of the Go versions
  the module allows. time.Parse is that of Go before 1.20 (lenient about one-digit hours and offsets); only '.' starts a fraction.
* encoding/xml: modelled byte by byte (`XmlSyntax.v`: escaping, names, tags, references, CDATA, comments, instructions, directives,
  prefixes) from the source of Go 1.17–1.19; `Xml.v` and `Soap.v` work on the trees this yields, C85–C90 connect the two. Which characters beyond
  ASCII may be in names is left open (a parameter). TrimSpace knows Unicode's white space; strconv.ParseFloat is that of Go 1.13 or later (hexadecimal forms, underscores), with exponents taken as they are
  (strconv stops at five digits, which shows only in texts of more than 10000 digits); there is no nesting limit.
* gorilla/websocket: messages arrive whole, in order, and unaltered, or the read fails; a failed read is never followed
  by a successful one; a write may stop after any number of bytes with an error.
  (It panics on the thousandth failed read of a connection, which the code does not exclude: C91_bounded_refuted. That panic is not modelled.)
* google/uuid: `uuid.New()` never repeats on a connection. (Theorems about correlation use this, as an enabling condition of a
  call's event.)
* net/http, net/url: which handler a request reaches, the path a URL has. `Dial` succeeds only if the server's handshake did.
* Goroutines interleave at the granularity of map accesses, channel, mutex and socket operations. The concurrent map
  access that the Go runtime may punish by a crash is modelled as an observable overlap (C35, C59).

### Not modelled

* TLS, TCP, HTTP headers other than those the code sets or reads.
* The deadline and transport errors inside `ioutil.ReadAll` of a SOAP body: any prefix of the body may be what it delivers (C86, C88_disturbed).
* Panics of the body parser's callbacks. (A listener that panics is modelled, C105; a handler that does, C75 and C104, with
  net/http recovering the panic - after the deferred cleanup, for websockets; one that never returns is covered, the event need not happen.)
* Typed nil pointers as messages. Memory limits, stack depth, scheduling fairness: most progress
  theorems (C23_served, C20_answer_delivered, C64, C74, C76–C78) say that something can happen next; C79–C81 say what must
  have happened when a schedule stops, and that it stops; C82 says so of two connected processes, if nothing disturbs them.
* Real time: a timer may fire at any moment after it was started.
* The text of log output; `example/`.
* Restarts of processes (a restarted charge point is one more charge point of `System` with the same identity).

## 4. Testing the theorems

`seeded/LOG.jsonl` lists wrong programs: edits of model definitions as realistic bugs would change the program, with the claim
each breaks and the theorems whose proof then fails. `tools/mutate.py` applies the edits of `seeded/muts*.py` in scratch copies
and rebuilds. Edits that no theorem noticed led to new or tighter theorems (C59_api_waits, C66, C67, C69_sent, C69_present, C70); the
log says which.

## 5. Findings about the code

* A frame with fewer elements than its type needs panics the reader (C02_no_crash_refuted), a CALLRESULT to a
  DataTransfer request panics (C29_data_transfer_crash), since DataTransfer is missing from `FromActionName` (C17, C26).
* After the timeout of a call, the table keeps its entry (C33), and a late answer blocks the reader goroutine for good: the connection
  is never served again (C30, C60).
* Send inside a handler cannot get its answer (C31): the loop that would read it runs the handler.
* Two concurrent Sends, or a Send and an incoming answer, access the same map without a lock (C35); so do the web page and (if a debug logger is set) the log line of a new connection with the table of connections (C59).
* Every read leaves goroutines behind in some orders (C34); the SOAP charge point's server does not stop when cancelled (C62).
* A charge point's handler can be called with nil (C44); a central system never answers requests of the wrong direction (C44).
* Cancellation is not seen while redialling (C47).
* The sub-protocol is not checked against what was negotiated (C49); any identity is accepted from anybody (C73).
* GetServiceOf may return a service of a dead connection (C39), or of one nobody listens to (C73_ghost_refuted);
  New returns at a charge point before the central system knows it (C73_new_is_early_refuted).
* JSON: `csreq.IdTagInfo` with nil ExpiryDate panics (C14); local list entries lose data (C14); integers beyond 2^53 change (C06);
  years from 10000 cannot be read back (C70); missing required members are encoded (C16) or accepted by reflective decoding (C12).
* SOAP: malformed tags change an element name (C69_transfer_refuted); SendLocalList's list is lost (C68_local_list_refuted); elements are
  sent out of the order of the WSDL (C69_order_refuted) and required zero values are left out; large floats are sent in exponent form
  (C69_large_refuted); the identity header is always in the Cp namespace (C66); an error's text is used as a format string by `log.Error`.
* A listener that panics ends the process (C105_contained_refuted).
* SOAP answers are labelled `Content-Encoding: deflate` without being compressed (C104_not_deflate_refuted); a refused request gets an empty 200 (C104_reply).
* Attributes are matched by local name only, and `encoding/xml` presents declarations as attributes: a prefix called `unit` (or `context`, `format`, `location`,
  `measurand`) declared on a sampled value becomes the value of that attribute (C89_prefix_taken_refuted).
* Errors of `ioutil.ReadAll` are dropped on both sides of the SOAP transport; no harm comes of it, since no cut-off document is accepted (C86).
* `Run` registers its handler on `http.DefaultServeMux`: a second call in the process panics, also after a failed first one (C92). The errors of a SOAP
  charge point's server are dropped: New succeeds on a port in use (C92_silent_refuted).
