#!/usr/bin/env python3
"""Writes /verif/properties.jsonl (one object per line) from the list below."""
import json, os
P = []
def p(id, title, statement, quantifier, why, anchors):
    P.append(dict(id=id, title=title, statement=statement, quantifier=quantifier,
                  why_tests_cant=why, anchors=anchors))

# ---------------------------------------------------------------- OCPP-J frames
p("C01", "Frames round-trip",
  "Every OCPP-J message the library writes (CALL, CALLRESULT, CALLERROR), read back by the library's own frame reader, yields a message of the same kind with the same message id, action, error code, description and payload (strings up to replacement of invalid UTF-8 by U+FFFD; numbers as float64).",
  "all message ids, actions, payload objects, error codes and descriptions",
  "Infinite input space of nested JSON payloads and arbitrary byte strings.",
  ["ws/message.go: MarshalJSON (CallMessage, CallResultMessage, CallErrorMessage)", "ws/conn.go: UnmarshalMessage"])
p("C02", "Exact outcome of reading any frame",
  "For every byte string received: the reader crashes the process exactly when the text is JSON null, or a JSON array that is too short for the fields inspected; it returns an error when the text is not a JSON array or an inspected field has the wrong type; otherwise it yields exactly the fields of the array. In particular a remote peer can crash the process with '[]' (the claim 'no inbound text crashes the process' is refuted).",
  "all byte strings",
  "Unbounded set of inbound texts, including malicious ones.",
  ["ws/conn.go: UnmarshalMessage"])
p("C03", "Unknown message types",
  "A frame whose first element is a number other than 2, 3 or 4 with a string second element produces no message and no error, and the read of such a frame crashes the process (refutes 'unknown message types are ignored').",
  "all JSON arrays with a numeric first element not in {2,3,4}",
  "All real numbers and all tails.",
  ["ws/conn.go: UnmarshalMessage, ReadMessage"])
p("C04", "Whitespace normalisation preserves meaning",
  "Replacing newlines by spaces and trimming the received text never changes the meaning of a text that is already valid JSON: it parses to the same value.",
  "all byte strings that are valid JSON",
  "All placements of whitespace in all documents.",
  ["ws/conn.go: ReadMessage (bytes.TrimSpace, bytes.Replace)"])
p("C05", "String fidelity",
  "Any string put into an id, action, description or string field reaches the peer unchanged when it is valid UTF-8, and otherwise with each invalid byte replaced by U+FFFD; no string content can break the framing (no injection).",
  "all byte strings, in any position of a frame",
  "All byte strings including quotes, backslashes, control bytes, U+2028 and broken UTF-8.",
  ["ws/message.go", "messages/v1x/*/json_encode.go"])
p("C06", "Integer fidelity",
  "An integer field with |n| <= 2^53 reaches the peer exactly although payloads travel through float64; beyond that it can be altered silently (witness 2^53+1) or rejected (witness 2^63-1). 32-bit fields are therefore always exact.",
  "all integers in the field's Go range",
  "2^64 values; the failing ones are sparse.",
  ["ws/message.go: UnmarshalRequest", "ws/conn.go: callToRequest, callResultToResponse"])
p("C07", "Float fidelity",
  "A finite float64 field value reaches the peer exactly; NaN and infinities make the send fail with an error and nothing is written.",
  "all float64 values", "2^64 values.",
  ["messages/v1x/csreq/json_encode.go: UpdateFirmware, ChargingSchedule", "ws/message.go: UnmarshalRequest"])
p("C08", "Timestamps",
  "A timestamp field reaches the peer as the same civil time and offset truncated to whole seconds (years 0-9999, whole-minute offsets); sub-second precision is lost on OCPP-J (exact preservation is refuted).",
  "all timestamps with year 0..9999 and whole-minute UTC offset",
  "All dates and times.",
  ["messages/v1x/*/json_encode.go (Format(time.RFC3339))"])

# ---------------------------------------------------------------- payload codecs
p("C09", "JSON payload round-trip for every message type",
  "For every request and response type, decoding the JSON payload produced for a well-typed value gives back that value up to the documented normalisation (invalid UTF-8 replaced, timestamps truncated to seconds); the only type that loses data is the id-tag info inside SendLocalList (see C14).",
  "all 58 message types and all well-typed field values (any string, any int64, any finite float, any list length)",
  "All field values and list lengths of 58 types.",
  ["messages/v1x/*/json_encode.go", "messages/v1x/*/messages.go"])
p("C10", "Payload encoding always yields one well-formed JSON object",
  "For every message type and every well-typed value, the hand-written encoder either fails for a stated reason (missing required object, non-finite float, missing expiry date in a local list entry) or emits text that parses as one JSON object whose keys are exactly the type's property names, each at most once (the comma logic is right for every combination of absent optional fields).",
  "all message types, all well-typed values",
  "All combinations of present/absent optional fields and all values.",
  ["messages/v1x/*/json_encode.go: MarshalJSON"])
p("C11", "Unknown properties are rejected",
  "For every message type with a strict decoder, a payload object with any key that is not a property of the type is rejected, whatever else it contains; RemoteStartTransaction, RemoteStopTransaction and nested objects accept and ignore unknown keys.",
  "all payload objects", "All key strings and all payloads.",
  ["messages/v1x/*/json_encode.go: UnmarshalJSON"])
p("C12", "Required properties are demanded",
  "For every message type except RemoteStartTransaction and RemoteStopTransaction requests, a payload object that lacks a required property is rejected; the two exceptions accept an empty object. A required property that is present but null is accepted as the zero value (refutes 'an accepted message carries every required value').",
  "all payload objects", "All payloads.",
  ["messages/v1x/*/json_encode.go: UnmarshalJSON"])
p("C13", "Decoding does not depend on map iteration order",
  "For every message type and payload, success or failure of decoding and the decoded value are the same for every order in which Go may iterate over the property map.",
  "all permutations of the properties of all payload objects",
  "Go randomises the order per run; a test sees a few of n! orders.",
  ["messages/v1x/*/json_encode.go: UnmarshalJSON (range jsonMap)"])
p("C14", "Local authorization list entries lose data or crash",
  "A SendLocalList request whose entry carries an id-tag info with an expiry date arrives without its expiry date and parent tag; one whose id-tag info has no expiry date crashes the sender (round-trip for SendLocalList is refuted).",
  "all SendLocalList requests with at least one entry carrying id-tag info",
  "All list lengths, positions and field values.",
  ["messages/v1x/csreq/json_encode.go: IdTagInfo.MarshalJSON, IdTagInfo.UnmarshalJSON"])
p("C15", "Decoders agree with the bundled OCPP 1.6 JSON schemas",
  "For every message type: every payload object valid under the bundled schema's types (integers in range, parsable date-times) is accepted; conversely every accepted payload object has only the schema's properties, all the required ones, each of the schema's JSON type or null, at every depth (names and required lists are not enforced for nested optional objects' unknown keys, nor for RemoteStartTransaction and RemoteStopTransaction), and decodes to a well-typed value. Every request type has its action name and its response type.",
  "all 56 bundled schemas and all payload objects",
  "All schema-valid documents.",
  ["ws/json/*.json", "messages/v1x/*/json_encode.go"])
p("C16", "Encoded payloads versus the bundled schemas",
  "Every successfully encoded payload satisfies the bundled schema's property names, required list and JSON types, except that an unset (nil) list or optional object is written as null where the schema wants an array or object; in particular 'every payload the library sends is schema-valid' is refuted.",
  "all message types, all well-typed values", "All values.",
  ["ws/json/*.json", "messages/v1x/*/json_encode.go"])

# ---------------------------------------------------------------- registries
p("C17", "Action names identify request types",
  "For every action name, the request type looked up by name reports that same action name; every request type other than DataTransfer is found under its own action name; DataTransfer (either direction) and all other strings are unknown.",
  "all strings; all 29 request types", "All strings.",
  ["messages/req/actions.go: FromActionName", "messages/v1x/*/messages.go: Action"])
p("C18", "Response types match requests",
  "For every action name, the response type looked up by name is the response type of the request looked up by that name; every charge-point request has a charge-point response type and every central-system request a central-system response type.",
  "all strings; all 29 request types", "All strings.",
  ["messages/res/actions.go: FromActionName", "messages/v1x/*/messages.go: GetResponse"])
p("C19", "Send returns the response type of its request",
  "When Send over a websocket returns a response without error, the response has exactly the Go type paired with the request sent, so the direction check inside Send never fails and a type assertion by the user succeeds.",
  "all requests, all peers, all schedules", "All peer behaviours.",
  ["internal/service/cp.go", "internal/service/cs.go", "ws/conn.go: callResultToResponse"])

# ---------------------------------------------------------------- websocket connection
p("C20", "Responses are correlated with requests",
  "If SendRequest returns a response, the peer sent a CALLRESULT carrying the id of that very request, read since the call began (or being dealt with at that moment), and the response is the decoding of that payload as the response type of the request's action; if it returns a call error, the peer sent a CALLERROR with that id and the returned code, description and details are its. This holds for any number of concurrent senders and any interleaving.",
  "all schedules of senders, readers, peer frames, timers and failures",
  "Interleavings are unbounded; tests sample a few.",
  ["ws/conn.go: SendRequest, ReadMessage, callResultToResponse"])
p("C21", "Each response frame completes at most one request and each request at most once",
  "The number of completed requests with a given id never exceeds the number of response frames read with that id, and a given SendRequest call completes at most once.",
  "all schedules", "Interleavings.",
  ["ws/conn.go: SendRequest, ReadMessage"])
p("C22", "Unsolicited responses are rejected without effect",
  "A CALLRESULT/CALLERROR whose id was never used for a request on this connection is reported as a read error; it is delivered to nobody, writes nothing, leaves the pending requests unchanged and does not close the connection.",
  "all schedules, all ids", "All ids and interleavings.",
  ["ws/conn.go: ReadMessage"])
p("C23", "Requests are handled in arrival order, each exactly once",
  "The sequence of requests handed to the handler on a connection is exactly the sequence of well-formed supported CALLs in the order their frames arrived: none is skipped, duplicated or reordered (at most the last one read is still in flight).",
  "all schedules and frame sequences", "Interleavings of concurrently spawned reader goroutines.",
  ["ws/conn.go: ReadMessage, ReadMessageAsync", "cs/cs.go: handleWebsocket", "cp/json.go: handleWebsocketConnection"])
p("C24", "At most one reader is reading the socket",
  "Although a new reader goroutine is started on every loop turn, at any time at most one of them is between starting to read and having delivered what it read.",
  "all schedules", "Interleavings.",
  ["cs/cs.go: handleWebsocket", "cp/json.go", "ws/conn.go: ReadMessageAsync"])
p("C25", "One reply per handled request, with its id and content",
  "Replies written by the connection loop correspond one-to-one and in order to the requests for which the handler returned: the reply carries the request's id and is a CALLRESULT with the handler's response when it returned no error, and a CALLERROR InternalError with the error's text when it returned an error (nothing is written if encoding or the socket write fails). The handler returns from every request it was given, in order, except the one it is working on or panicked in.",
  "all schedules, handlers and requests", "All handlers and interleavings.",
  ["cs/cs.go: handleWebsocket", "cp/json.go", "ws/conn.go: SendResponse", "ws/message.go: unmarshalResponse"])
p("C26", "Unsupported actions are answered NotSupported",
  "A well-formed CALL with an unknown action (including DataTransfer) is answered with a CALLERROR NotSupported carrying the same id, never reaches the handler and does not close the connection.",
  "all action strings and payloads, all schedules", "All strings.",
  ["ws/conn.go: callToRequest, ReadMessage"])
p("C27", "Malformed payloads are answered FormationViolation",
  "A CALL with a known action whose payload is not accepted by that type's decoder is answered with a CALLERROR FormationViolation carrying the same id, never reaches the handler and does not close the connection.",
  "all payloads, all schedules", "All payloads.",
  ["ws/conn.go: callToRequest, ReadMessage"])
p("C28", "Bad frames do not harm the connection",
  "A frame that fails to decode leaves pending requests, the registry, the socket and the loop intact: the connection keeps reading.",
  "all schedules, all undecodable frames", "All byte strings and interleavings.",
  ["ws/conn.go: ReadMessage", "cs/cs.go: handleWebsocket"])
p("C29", "No crash under well-shaped peers",
  "If every inbound frame is either undecodable or a full-length frame of type 2, 3 or 4, no DataTransfer request is sent on the connection, no local list entry without an expiry date is sent and, at a charge point, the handler does not panic, no schedule crashes the process; conversely a CALLRESULT to a DataTransfer request crashes the process.",
  "all schedules", "Interleavings and all frames.",
  ["ws/conn.go: ReadMessage, callResultToResponse", "messages/req/actions.go"])
p("C30", "A response after the timeout wedges the connection",
  "If the answer to a request is read after that request timed out, the reader blocks forever: from then on no frame is ever read on that connection and no request is ever handled again until the connection is closed locally (refutes 'a late response is harmless').",
  "all continuations after the late response", "A permanent hang is a statement about all futures.",
  ["ws/conn.go: SendRequest (timeout branch), ReadMessage"])
p("C31", "Sending from inside the handler cannot succeed",
  "A Send issued from inside the message handler on the same connection never returns a response: no frame is read while the handler runs, so it can only time out or fail (refutes 'the handler may call Send').",
  "all schedules in which the handler is still running", "All schedules.",
  ["cs/cs.go: handleWebsocket", "ws/conn.go: SendRequest"])
p("C32", "Frames on the wire are never interleaved",
  "Messages written concurrently by the loop, by readers (error replies) and by any number of senders are written one after the other under the send lock: the byte stream is a concatenation of whole messages.",
  "all schedules", "Interleavings.",
  ["ws/conn.go: sendMessage (sendMux)"])
p("C33", "Pending-request table",
  "A request's id is in the pending table from registration until its response is received; a request that timed out or failed to be written stays in the table forever (unbounded growth; refutes 'the table only holds outstanding requests').",
  "all schedules", "Histories of any length.",
  ["ws/conn.go: SendRequest"])
p("C34", "Goroutine leak",
  "Every request handled leaves exactly one reader goroutine blocked forever, so the number of leaked goroutines equals the number of handled requests on the connection (refutes 'bounded resources per connection').",
  "all schedules", "Unbounded histories.",
  ["ws/conn.go: ReadMessageAsync", "cs/cs.go: handleWebsocket"])
p("C35", "Concurrent map access",
  "The pending-request maps are accessed without synchronisation: a schedule exists in which two goroutines are writing the same map at the same time (Go aborts the process); with at most one sender at a time two writers never overlap.",
  "all schedules", "Depends on the schedule.",
  ["ws/conn.go: SendRequest, ReadMessage (sentMessages, responsesOf)"])
p("C36", "Close notification",
  "WaitClose is signalled only after the connection was closed locally, a read failed, the context was cancelled or (at the central system) the handler panicked, and once signalled it stays signalled; after a failed read it is always signalled.",
  "all schedules", "Interleavings.",
  ["ws/conn.go: Close, WaitClose, ReadMessage"])

# ---------------------------------------------------------------- central system
p("C37", "A charge point is registered exactly while it has a live connection",
  "For every charge point id, the central system has a connection registered for it exactly when at least one websocket connection of that id has been accepted and not yet cleaned up, for any interleaving of connects, disconnects and cleanups.",
  "all histories of connects/disconnects over any number of ids", "Unbounded histories and interleavings.",
  ["cs/cs.go: handleWebsocket, connsCount, conns"])
p("C38", "WaitConnect",
  "The channel returned by WaitConnect(id) is closed exactly when the point is connected or a later connection of that id has been accepted; no waiter is lost, no channel is closed twice (no crash).",
  "all histories and all waiters", "Interleavings of waiters and connects.",
  ["cs/cs.go: WaitConnect, handleWebsocket"])
p("C39", "GetServiceOf returns the latest connection",
  "For V16, GetServiceOf(id) returns a service on the most recently accepted connection of that id if one is still registered and an error otherwise; for V15 always a SOAP service for the given url and id; for other versions an error. If the most recent connection closed first, an older live one is not used (refutes 'returns a live connection while one exists').",
  "all histories, ids, versions", "Unbounded histories.",
  ["cs/cs.go: GetServiceOf"])
p("C40", "Charge points do not interfere",
  "Connects, disconnects and cleanups of one id never change what GetServiceOf, WaitConnect and WaitDisconnect report for another id.",
  "all histories, all pairs of distinct ids", "Unbounded histories.",
  ["cs/cs.go: handleWebsocket"])
p("C41", "Connection listeners",
  "The connection listener is started exactly once per accepted connection and the disconnection listener exactly once per finished connection, with that connection's id, and is the function given in the last call of the setter; disconnections never outnumber connections; a failed handshake starts neither and changes nothing.",
  "all histories", "Unbounded histories.",
  ["cs/cs.go: handleWebsocket, SetChargePointConnectionListener"])
p("C42", "WaitDisconnect",
  "WaitDisconnect(id) returns an already closed channel when nothing is registered for id, and otherwise the close channel of the registered connection, which fires exactly when that connection closes.",
  "all histories", "Interleavings.",
  ["cs/cs.go: WaitDisconnect"])
p("C43", "Identity seen by the central system",
  "When a charge point dials 'ws://host' with an identity made of unreserved URL characters (and other than '.' and '..'), the central system sees exactly that identity, so that different charge points are told apart; in general this is refuted: an identity containing '?' or '#' is cut, '%41' becomes 'A', and '..' or '100%' cannot connect at all. A URL with a path prefix makes the prefix part of the identity.",
  "all identities", "All strings.",
  ["ws/conn.go: Dial", "cs/cs.go: handleWebsocket (TrimPrefix)"])
p("C44", "Requests in the wrong direction",
  "On the central system a CALL for a central-system request (e.g. Reset) is not answered at all and does not reach the handler; on the charge point a CALL for a charge-point request invokes the handler with a nil request (refutes 'every well-formed CALL is answered' and 'the handler never gets nil').",
  "all schedules, all 28 supported actions", "All schedules.",
  ["cs/cs.go: handleWebsocket", "cp/json.go: handleWebsocketConnection"])
p("C45", "HTTP dispatch",
  "Each HTTP request to the central system is handled in exactly one way: websocket upgrade, else GET yields the information page showing the number of registered charge points, else SOAP.",
  "all requests and registry states", "All requests.",
  ["cs/cs.go: Run"])

# ---------------------------------------------------------------- charge point
p("C46", "Charge point reconnects",
  "After the connection closes the charge point keeps dialling until it succeeds, and never has more than one open connection in use; the WaitConnect channel is closed exactly once per successful connection and never twice (no crash).",
  "all histories of closes, dial failures and successes", "Unbounded histories.",
  ["cp/json.go: getNewWebsocketConnection, handleWebsocketConnection"])
p("C47", "Cancellation",
  "When the context is cancelled while connected the loop can stop and close the connection; while it is redialling, cancellation is not looked at: as long as dialling fails the loop never stops (refutes 'cancel always stops the charge point').",
  "all histories", "A statement about all futures.",
  ["cp/json.go: handleWebsocketConnection"])
p("C48", "Construction",
  "cp.New with JSON returns an error exactly when dialling fails; with SOAP exactly when no port is given; with any other transport it succeeds with no service attached, so that Send crashes (refutes 'New rejects unknown transports').",
  "all transports, ports, dial outcomes", "All transport strings.",
  ["cp/cp.go: New"])
p("C49", "Sub-protocol",
  "The charge point offers exactly the sub-protocol of its version; the central system answers ocpp1.6 to every client whatever it offered (refutes 'the sub-protocol is negotiated').",
  "all versions and client offers", "All offers.",
  ["ws/conn.go: Dial, Handshake, ocppVersionToProtocol"])

# ---------------------------------------------------------------- SOAP
p("C50", "SOAP body dispatch",
  "For every SOAP body, each child element is decoded as the message type named by the element or rejected; the last decoded child wins; bodies with an unknown child are rejected; every 1.5 request type except the charge point's DataTransfer is found under its element name; of a fault, the text of the last Text in its Reason is read.",
  "all element names and bodies", "All strings and body sizes.",
  ["soap/marshal.go: receivedBody.UnmarshalXML"])
p("C51", "SOAP namespaces",
  "A message element in a namespace other than the one of its type is rejected; in particular a charge point's DataTransfer request can never be received over SOAP.",
  "all namespaces and bodies", "All strings.",
  ["soap/marshal.go", "messages/v1x/*/messages.go (XMLName)"])
p("C52", "SOAP payload round-trip",
  "For every OCPP 1.5 message but the charge point's data transfer, a well-typed value (timestamps writable as RFC 3339) is encoded, as request and as response, and decoding the document gives back that type and that value, up to the documented changes: characters XML cannot carry become U+FFFD, the phase of a sampled value is not sent, empty strings in lists and empty lists disappear, an optional negative zero becomes zero; values without these are unchanged. But an idTagInfo that a peer following the service description puts into its answer to StopTransaction is ignored, whatever it says (refutes 'the id-tag info of a StopTransaction answer reaches the charge point').",
  "all message types and field values", "All values.",
  ["soap/marshal.go", "messages/v1x/*/messages.go (xml tags)"])
p("C53", "SOAP identity",
  "The handler is called at most once per SOAP request, with the decoded request and the chargeBoxIdentity of the header; a request without a SOAP header crashes that request's goroutine.",
  "all envelopes", "All envelopes.",
  ["soap/server.go: Handle"])
p("C54", "SOAP errors become faults",
  "When the handler returns an error the answer contains a fault with the error's text, and the calling client returns an error, with the text that the fault's Reason/Text states, if any; the text is lost at the library's own client (refutes 'the caller sees the handler's error text').",
  "all handlers and errors", "All strings.",
  ["soap/server.go: Handle", "soap/marshal.go: Marshal", "soap/models.go", "soap/client.go: Call"])
p("C55", "SOAP call result",
  "A SOAP Send returns a response only if the answer's body held a message of exactly the response type of the request, and then returns its content; an answer with another message type or no message crashes the caller.",
  "all answers", "All peer behaviours.",
  ["soap/client.go: Call", "internal/service/soap.go"])
p("C56", "SOAP handling outcome",
  "A SOAP request whose body is not a request, or is a request of the other direction, never reaches the user's handler.",
  "all envelopes", "All envelopes.",
  ["soap/server.go", "cs/cs.go: handleSoap", "cp/soap.go"])

# ---------------------------------------------------------------- end to end
p("C57", "End-to-end: what Send returns is what the remote handler answered",
  "With this library on both ends of a websocket, if Send(req) returns a response, then the remote handler was invoked with that request (up to the documented normalisation) and returned, without error, that response (up to the same normalisation); if it returns a CALLERROR InternalError, the remote handler returned an error with that text.",
  "all schedules of both ends, any number of concurrent Sends in both directions",
  "Interleavings of two processes and a network.",
  ["ws/conn.go", "cs/cs.go", "cp/json.go"])
p("C58", "End-to-end: handler invocations come from sent requests",
  "With this library on both ends, every request the handler receives was sent by the peer's Send, at most once each and in sending order.",
  "all schedules", "Interleavings.",
  ["ws/conn.go", "cs/cs.go", "cp/json.go"])

p("C59", "Accesses to the table of connections",
  "The central system's goroutines that add or remove a connection exclude each other; but the information page, and the log line at the start of a new connection if a debug logger is set, read the same map without the lock, while it can be written (refutes 'the central system can be used from several goroutines without data races').",
  "all schedules", "A race is a property of schedules; a test sees one.",
  ["cs/cs.go"])
p("C60", "A late response freezes the connection for good",
  "If the central system reads a response to a request whose Send already gave up, then from that moment on, whatever the peer and the network do, that connection serves no further request, is never noticed to be closed (WaitDisconnect does not fire), the disconnection listener is never started, the connection is never removed, and GetServiceOf keeps returning it until the charge point connects again.",
  "all histories before and after", "It speaks of all futures.",
  ["cs/cs.go", "ws/conn.go"])
p("C61", "Cleanup completes",
  "In every reachable state a closed connection whose loop is waiting, or already left, can be cleaned up in a bounded number of further steps: the lock of the central system never stays held and cleanups never block each other.",
  "all reachable states", "Absence of deadlock over all schedules.",
  ["cs/cs.go"])

p("C62", "SOAP charge point server",
  "Cancelling the context given to New does not stop a SOAP charge point: its HTTP server goes on handing requests to the handler for as long as the listener lives; once the listener has ended no request reaches the handler any more; if the listener ends after the cancellation was seen, the server's goroutine is left behind for ever.",
  "all schedules of cancellation, requests and listener failure", "All schedules; unboundedly many requests after the cancellation.",
  ["cp/soap.go: handleSoap", "cp/cp.go: New"])
p("C63", "SOAP end to end",
  "With this library on both ends (either direction), Send of a 1.5 request calls the remote handler exactly once, with that request and the stated identity (up to the changes of C52); if the handler returns the response the request calls for, Send returns that response; if it returns an error, Send returns an error; if it returns another response or nothing, Send panics. The server's goroutine never panics on requests of this library's client.",
  "all requests, responses, handlers, identities", "All values and handlers.",
  ["soap/client.go: Call", "soap/server.go: Handle", "internal/service/soap.go", "cs/cs.go: handleSoap", "cp/soap.go"])
p("C64","End-to-end: a call can always run to its end",
  "With this library on both ends and both idle, a Send of any request that the peer decodes can be carried through: there is a schedule in which the remote handler gets the request, returns any non-nil response or error that can be encoded, and Send returns exactly that (or FormationViolation when the response does not decode); afterwards both ends are idle again, so this can be repeated without bound.",
  "every reachable idle state after any history, either side, every request and fresh id, every handler result",
  "A test shows one completed call from a fresh connection, not that no history leaves the pair unable to complete the next one.",
  ["ws/conn.go SendRequest/ReadMessageAsync/SendResponse","cs/cs.go handleWebsocket","cp/json.go handleIncomingMessages"])
p("C65","End-to-end: the network carries exactly what was written",
  "Everything that one end reports written entered the network, in that order, with at most one further message (one that is still being written or whose write was reported failed); everything the other end reads is a prefix of that.",
  "all schedules of both ends, all write failures",
  "Interleavings of writers on both ends, and failures at any byte.",
  ["ws/conn.go sendMessage","ws/conn.go ReadMessageAsync"])

p("C66","SOAP: what a client posts",
  "Sending a request over SOAP posts exactly one envelope, the same whatever is answered: a header that states the address (To), '/' followed by the action, 'uuid:' followed by the message identifier, the address for answers and the identity of the charge point, each once and in its namespace, and a body with the request's element and nothing else. Nothing is posted without an address or when the request cannot be encoded. (Finding: the identity header is always in the charge point service's namespace, also when the request goes to a central system, whose service description wants its own.)",
  "all request types and values, addresses, identities, message identifiers and answers of the peer",
  "All strings and all request values of 25 types; a test looks at one envelope.",
  ["soap/client.go Call","soap/models.go reqEnvelope","internal/service/soap.go Send"])
p("C67","SOAP: only characters of XML",
  "Whatever strings the application uses, every text and attribute that client and servers write consists of characters an XML 1.0 document may contain. A string arrives unchanged exactly when it consists of such characters in UTF-8; otherwise it arrives with the offending parts replaced.",
  "all messages of all types, all strings (byte sequences), error texts, addresses",
  "The strings are unbounded byte sequences, including invalid UTF-8 and control characters.",
  ["soap/marshal.go Marshal","soap/client.go Call","soap/server.go Handle"])

p("C68","SOAP: messages as described in the WSDL are understood",
  "Every message element that is as the OCPP 1.5 service descriptions say (except a charge point's data transfer) is accepted, as a message of the type the library has for that element, and, delivered in an envelope with an identity, reaches the handler with a value that says what the element says: integers with signs, zeros and white space, booleans, strings, times, lists and attributes. The same holds when the child elements come in another order, some are missing or unknown ones are there. A time that is not of RFC 3339 (e.g. without zone) is never accepted. (Findings: the authorisation list and hash of SendLocalList, the readings of StopTransaction and the tag info of its response are silently lost, because the element names of the Go types are not those of the description.)",
  "all 48 message elements of the two WSDL files and all XML elements that are as described there",
  "Unboundedly many documents for each of the message types; a test decodes a few.",
  ["messages/v1x/*/messages.go xml tags","soap/marshal.go Unmarshal","soap/wsdl/*.wsdl"])
p("C69","SOAP: messages are sent in the elements the WSDL describes",
  "Every OCPP 1.5 message (except the answer to a charge point's data transfer) whose times can be written and whose numbers are 32-bit integers, or whole numbers below a million where Go has doubles, is sent as one element with the name and namespace of its service description; its child elements are of the description or one of six known extensions, in the right namespace, at most once unless they may repeat, with text of the described simple type; and the element says what the message says. Its child elements are there exactly when the value has something to say there or, in the requests and responses of a charge point's service, when the tag does not allow leaving them out. (Findings: the answer to a charge point's data transfer has an element Data instead of data, by a malformed tag; the order of the description is not kept, so no StartTransaction request of this library is valid against the WSDL; zero values of required fields are left out; a heartbeat interval from 1000000 up is written as 1e+06, which is not an integer.)",
  "all values of all 1.5 message types",
  "Unboundedly many values of each message type.",
  ["messages/v1x/*/messages.go xml tags","soap/marshal.go Marshal","soap/wsdl/*.wsdl"])

p("C70","Timestamps",
  "A timestamp in a message is accepted exactly when it is an RFC 3339 date-time of a moment that exists in the Gregorian calendar (or one of Go's lenient forms: hours of one digit, offsets of any size with inner signs, fractions of any length), and then it has the date, time of day, fraction and offset that the text says. So no received message, over JSON or SOAP, holds a time that does not exist. Times are written as RFC 3339 texts of the same moment for years 0 to 9999 and offsets of whole minutes below a day. (Findings: years from 10000 are written in a way the library cannot read; seconds of an offset are cut off; texts that are not RFC 3339 are accepted.)",
  "all texts, all times, all received JSON payloads and SOAP documents",
  "Infinitely many texts and times; calendar rules (leap years of centuries) have rare corner cases.",
  ["messages/v1x/*/messages.go time.Time fields","messages/v1x/*/json_encode.go Format(time.RFC3339), UnmarshalJSON","soap/marshal.go Unmarshal"])

p("C71","The whole system: the service of GetServiceOf reaches that charge point",
  "A central system, any number of charge points that use this library and any other clients. If GetServiceOf(id) gave a service over connection k, that connection was made by one of the charge points, and a Send on it returned a response, then the handler of a charge point whose identity is id was called with that request, on that charge point's end of that connection, and returned that response, in this order; if Send returned a CALLERROR, that handler returned this error or the charge point's library refused the request without calling the handler. Conversely whenever a charge point's handler is called, the central system sent that request, over a connection for which GetServiceOf is asked under this charge point's identity and no other.",
  "all configurations of charge points, all schedules of the whole system, all connects and reconnects, all clients, all requests and answers",
  "Any number of processes, connections, reconnections and interleavings.",
  ["cs/cs.go GetServiceOf/handleWebsocket","internal/service/cp.go Send","cp/json.go","ws/conn.go Dial/SendRequest/ReadMessageAsync"])
p("C72","The whole system: what a charge point sends is handled under its own identity",
  "A response to a charge point's Send was returned by the central system's handler, called with that request under the identity of that charge point. Every call of the central system's handler on a connection made by one of the charge points stems from a Send of a charge point with the identity given to the handler; every text read there was written by that charge point.",
  "all configurations of charge points, all schedules of the whole system, all connects and reconnects, all clients, all requests and answers",
  "Any number of processes, connections, reconnections and interleavings.",
  ["cp/json.go","internal/service/cs.go Send","cs/cs.go handleWebsocket","ws/conn.go Dial/SendRequest/ReadMessageAsync"])
p("C73","The whole system: who is connected",
  "When a charge point has a connection in place, the central system was asked for it, under that charge point's identity, before, and its side of the handshake did not fail; one connection of the central system belongs to one connection of one charge point and conversely; an accepted connection that a charge point asked for is accepted under the identity of that charge point. (Findings, proved as counterexamples: New returns at the charge point before the central system has the connection, so GetServiceOf may still fail; a Dial that gave up leaves a connection that GetServiceOf offers though nobody listens; identities are not verified, any client can be any charge point.)",
  "all configurations of charge points, all schedules of the whole system, all clients",
  "Any number of processes, connections, reconnections and interleavings.",
  ["cp/cp.go New","cp/json.go getNewWebsocketConnection","cs/cs.go handleWebsocket/GetServiceOf","ws/conn.go Dial/Handshake"])

p("C74","The whole system never gets stuck: connecting, reconnecting and calling can always go well",
  "From every reachable state in which the central system and a charge point have not crashed: a charge point that has not dialled yet, or has lost its connection (however often, with whatever calls pending), can connect; the central system can accept it under its identity and GetServiceOf can give that connection; and then any list of calls, in both directions, that the ends may send and whose answers can be written, can take place on it one after the other, every handler called with the request sent and every Send returning what the handler returned, leaving the connection ready for the next. (This says that such a continuation exists, not that every schedule takes it.)",
  "all reachable states of the whole system, all charge points, all lists of exchanges",
  "There are infinitely many histories before the reconnection, and a stuck state may need a rare one.",
  ["cp/json.go","cp/cp.go New","cs/cs.go handleWebsocket/GetServiceOf","ws/conn.go"])

p('C75', 'A handler that panics',
  'When the handler given to the central system panics, the process goes on: only the connection the request came in on ends. Every request it handed over before has its reply, this one gets none, nothing more is handed over or answered on it, and it is closed, its disconnection listener started and its registration removed, which is at most seven steps away at every later moment; the registry and every other connection are untouched by the panic. When the handler given to a charge point panics, that is the end of the process: nothing at all happens afterwards.',
  'every history of the central system and of the charge point, every moment a handler can panic, including inside its own Send',
  'a test can make one handler panic once; the claim covers every state of every other goroutine at that moment and every schedule of the cleanup',
  ['cs/cs.go:handleWebsocket', 'cp/cp.go:New', 'cp/json.go:handleWebsocketConnection'])

p("C76","Nothing on a connection waits for ever: calls return, the write lock is released, the loop comes back",
  "From every reachable state of a connection whose process has not crashed, without any help from the peer or the user, given only that a socket write ends (with or without an error), that timers fire and that handlers return: a Send in progress can return within 9 steps (with the answer, the timeout or an error), the lock on writing can be free within 2, and the loop that reads messages can be back at waiting for the next one (or have left) within 17 - even when it is inside a handler that itself waits in Send.",
  "all reachable states of a connection, either role, all calls in progress",
  "A deadlock shows in a rare interleaving of the callers, the readers, the loop and the handler's own calls; tests run a few.",
  ["ws/conn.go SendRequest/sendMessage/ReadMessageAsync","cs/cs.go handleWebsocket","cp/json.go handleWebsocketConnection"])
p("C77","A closed connection is always cleaned up",
  "Whenever a registered connection of the central system has closed and the process has not crashed, its disconnection listener has been started and its registration undone, or at most 26 steps of the process's own goroutines away: no state of the other connections, of the registry's lock or of calls in progress prevents it.",
  "all reachable states of the central system, all connections",
  "Any number of connections, calls and listeners at every point of their execution.",
  ["cs/cs.go handleWebsocket"])
p("C78","A charge point stops when cancelled and reconnects when its connection closes",
  "Cancelled while a connection is in place that has not closed, whatever its goroutines are doing, a charge point closes that connection and stops after at most 20 steps of its own goroutines. Not cancelled and its connection closed, at most 19 such steps lead to the loss being noticed, and then after any number of failed dials the first that succeeds puts the next connection in place.",
  "all reachable states of the charge point, all numbers of failing dials",
  "Any history of connections, calls and failures before; a stuck state may need a rare one.",
  ["cp/json.go","cp/cp.go New","ws/conn.go Close/WaitClose"])

p("C79","Left alone, a connection comes to rest, whatever the schedule",
  "If the peer sends nothing and nobody starts a call or closes the connection, every schedule of the goroutines is finite (writes of no bytes not counted) and, unless the process crashes, cannot stop before: every call made has returned; every handler called has returned or panicked and its reply has been sent or given up; nobody holds the write lock; the loop has left a closed connection or waits for the peer on one that is not closed. The loop's wait is the socket read, or, if the last message read was a response nobody waits for any more, for ever (finding C30).",
  "all reachable states of a connection, all infinite and maximal schedules of its goroutines, writers and timers",
  "A test sees one schedule; this is about all, including the ones in which a writer fails at any byte.",
  ["ws/conn.go SendRequest/ReadMessageAsync/readMessage","cs/cs.go:139-165","cp/json.go:33-65"])
p("C80","Left alone, the central system comes to rest, whatever the schedule",
  "If no HTTP request, handshake, message or API call arrives, every schedule of the central system's goroutines is finite and, unless the process crashes, cannot stop before: the lock is free; every listener that was to be called has been called; every arrived client is still in its handshake, or failed it, or was accepted and announced and its connection is at rest as in C79, and if that is closed it was announced as disconnected and cleaned up. Then a charge point counts as connected exactly when one of its accepted connections has not closed.",
  "all reachable states of the central system, any number of clients, all schedules",
  "Deadlocks and lost cleanups show only in particular interleavings of several connections.",
  ["cs/cs.go handleWebsocket/GetServiceOf/WaitConnect"])
p("C81","Left alone, a charge point comes to rest, whatever the schedule",
  "If no dial ends, nothing is received and nobody uses the API, every schedule of a charge point's goroutines is finite and, unless the process crashes, cannot stop before: every connection it has had is at rest as in C79; each that closed was announced as lost, unless the charge point has stopped; and it is dialling, or New returned an error, or it has stopped, or it is connected and not cancelled, over a connection that is not closed. So a cancelled charge point stops unless it is dialling, and one that lost its connection dials.",
  "all reachable states of the charge point, any number of reconnects, all schedules",
  "Any history before; a lost wakeup may need a rare schedule.",
  ["cp/json.go","cp/cp.go New"])

p("C82","Undisturbed, every call is answered, whatever the schedule",
  "With this library on both ends, while no timer fires, nothing fails or is closed, no handler panics and none calls Send on the connection it serves: once no more calls are started, every interleaving of the two processes and the network is finite, and cannot stop before both ends are idle and unbroken, nothing is in the network, and every call made by either end has returned with its answer - except one whose request has no encoding (it returned that error) and one for which the peer's handler returned nil or a response with no encoding (it still waits for its timeout). Any number of calls may be in progress in both directions at once.",
  "all undisturbed histories of two connected ends with any number of concurrent calls both ways, all schedules from there on",
  "Crossing calls deadlock only in particular interleavings; a test sees a few of them.",
  ["ws/conn.go SendRequest/sendMessage/ReadMessageAsync/readMessage","cs/cs.go handleWebsocket","cp/json.go handleWebsocketConnection"])
p("C83","Nobody answers twice, or unasked",
  "With this library on both ends, in every history (timeouts, failed writes, closed connections, panicking handlers included) each end puts at most one CALLRESULT or CALLERROR for a message id on the wire, and only for an id under which the other end has put a request on the wire.",
  "all reachable states of two connected ends",
  "All interleavings of refusals by readers, replies by the loop, and failures.",
  ["ws/conn.go ReadMessageAsync/SendResponse/sendMessage","cs/cs.go handleWebsocket","cp/json.go"])
p("C84","Neither end can crash the other",
  "With this library on both ends, a process crashes only for a local reason: a request without its expiry date was passed to Send, or - at a charge point - a handler panicked. No order or timing of what the peer's library sends (requests, answers, refusals, late ones) does it.",
  "all reachable states of two connected ends, all messages passed to Send and returned by handlers",
  "The reader panics on malformed frames (C02) and on some answers (C29); that a peer running the same library never produces one is a claim about all its histories.",
  ["ws/conn.go readMessage/ReadMessageAsync","wsmessages/*"])

p("C85","SOAP documents are understood however they are written",
  "A received SOAP document has the effect of the elements it stands for, whatever its spelling: XML declaration or none, prefixes or default namespaces, either kind of quotes, white space in tags, character references, CDATA sections, comments, processing instructions, empty-element tags, anything behind the root. Two documents that stand for the same elements are handled identically by the server, and give the same result at the client.",
  "all well-formed documents (ASCII names; carriage returns only as references), all bytes behind them, both servers, the client, all handlers",
  "Infinitely many spellings of every document; encoders of other vendors choose differently.",
  ["soap/marshal.go Unmarshal","soap/server.go Handle","soap/client.go Call"])
p("C86","A SOAP document that is cut off is never acted upon",
  "If a request body is a proper prefix of a well-formed document (a dropped connection, whose read error the server ignores), the handler is not called and nothing is answered. If a response body is one, Send returns an error.",
  "all well-formed documents, all points at which they are cut off",
  "Any byte may be the last; some prefixes contain the whole message and lack only closing tags.",
  ["soap/server.go:19-31","soap/client.go:96-110","soap/marshal.go"])
p("C87","What the SOAP transport writes is well-formed XML, and complete",
  "The bytes that Send posts for a request and that the servers write for an answer are a well-formed XML document, whatever strings, identities and URLs the application passes in, and stand - apart from namespace declarations - for exactly the elements of C52, C54, C66 and C67. No part of them is accepted in their place, by server or client.",
  "all values of the message types, all strings in them (any bytes), all answers of handlers, all received bytes",
  "Escaping fails for particular characters in particular places; only a statement about all strings covers them.",
  ["soap/client.go:43-65","soap/marshal.go Marshal","soap/models.go","messages/v1x/*/messages.go"])
p("C88","SOAP client and server of this library understand each other, byte for byte",
  "For every request and every handler, the outcome of Send against the library's server, on bytes, is the one on documents: the handler is called once with the request and identity as XML carries them, the response it returns is what Send returns, its error makes Send fail (so C52 - C56 and C63 hold of the bytes). If the network cuts off the request or the response at any byte, or appends to them, Send returns an error or the result it would have returned.",
  "all requests of OCPP 1.5, all handlers that answer with typed values, all identities and URLs, all cuts and appended bytes",
  "All values of all message types, and every byte at which a transfer may end.",
  ["soap/client.go Call","soap/server.go Handle","cs/cs.go handleSoap","cp/soap.go ServeHTTP","internal/service/soap.go"])
p("C89","Namespace prefixes do not leak into messages, except those named like attributes",
  "Namespace declarations do not influence what the handler receives as long as no prefix is called context, format, location, measurand or unit. One that is - say xmlns:unit - on a sampled value is taken as the value of that attribute.",
  "all documents",
  "The choice of prefixes is the sender's; any name may occur.",
  ["messages/v1x/cpreq/messages.go SampledValue","soap/marshal.go"])
p("C90","SOAP documents with syntax errors are rejected",
  "A body that begins like a well-formed document and goes on with an error - the end of an element that is not the one open, a reference other than the five of XML and character numbers, characters outside XML or bytes that are not UTF-8, ]]> in text, '<' in an attribute, an attribute without value or without quotes - or with an XML declaration of another version than 1.0 or another encoding than UTF-8 is rejected whatever follows: the server calls no handler and answers nothing, Send returns an error, even if a whole message precedes the error.",
  "all well-formed beginnings, all errors of these kinds, all continuations",
  "Any place in any document; parsers that tolerate an error act on half a message.",
  ["soap/marshal.go Unmarshal","soap/server.go:19-31","soap/client.go:96-110"])

p("C91","Reading from a broken socket",
  "Between any two failed reads of a connection, the connection is signalled closed; whenever the application's loop waits for a read after a failed one, it can leave instead. But select may prefer the read each time: the number of failed reads is not bounded (refutes 'a read is not repeated after it failed'; gorilla/websocket panics on the thousandth).",
  "all histories of a connection, all schedules",
  "How often select prefers the failing read is up to the scheduler.",
  ["ws/conn.go ReadMessageAsync, WaitClose","cs/cs.go:135-165","cp/cp.go Run","cp/json.go"])
p("C92","Several servers in one process",
  "Run panics if and only if Run was called before in the same process - on any central system, whether or not that call succeeded; so a failed Run cannot be repeated, and at most one central system of a process ever serves, on one port. A first Run on a free port serves, and every request to that port reaches that system. SOAP charge points have servers of their own, any number of them; but New succeeds though the port of its server is taken, and no request ever reaches that charge point.",
  "all orders of calls of Run and New, starts and failures of listeners, and requests, in one process",
  "The claims speak of all histories of a process; tests start one server each.",
  ["cs/cs.go Run","cp/cp.go New","cp/soap.go"])

p("C93","The whole system settles",
 "Take one central system and any number of charge points that were created with New on its address, and leave them alone: no dial, handshake, read or write fails, no timer fires, no handler panics, nobody closes, cancels or connects from outside, no handler calls Send on its own connection, and no request is passed to Send without its expiry dates. Then, however their goroutines and the network are scheduled, after finitely many steps every charge point whose URL can be dialled has its connection: its New has returned, the central system has registered it under its identity, reports it online and has called the connection listener for it; every call made at either end of any connection has returned an answer (or its request had no encoding, or the peer's handler gave nothing to answer with); nothing is left in the network and every connection can take the next call. Until then there is always a step to take, and no schedule goes on for ever.",
 "all sets of charge points, all undisturbed histories with any calls made at any time, all schedules of all goroutines and all splits of the writes",
 "A test takes one schedule. A deadlock between the registration of one charge point and the traffic of another, a lost wakeup, or a livelock shows up only in some interleavings of some number of charge points.",
 ["cs/cs.go: Run, handleWebsocket, GetServiceOf","cp/json.go: newJSONChargePoint","ws/conn.go: Dial, Handshake, ReadMessage, SendRequest"])

p("C94","Received texts are read as RFC 8259 says",
 "Which documents ReadMessage sees in a received text is given by the grammar of RFC 8259 and nothing else: numbers, the eight short escapes, \\u escapes with either case of digits, surrogate pairs, white space (space, tab, line feed, carriage return) between tokens, any nesting; the grammar is unambiguous; two spellings of a frame are the same frame; a text that is no JSON is refused with an error. encoding/json's two liberties are part of the grammar: a byte that begins no UTF-8 character, and a lone surrogate escape, denote U+FFFD. Before that, line feeds are turned into spaces and Unicode white space is cut off at both ends (uniquely); this changes no JSON text's meaning.",
 "all byte sequences",
 "A reader can be wrong on any of infinitely many spellings (a surrogate pair at the edge of its range, a number with an exponent, a byte cut out of a character); tests name a few.",
 ["ws/conn.go UnmarshalMessage","ws/conn.go ReadMessage"])
p("C95","The texts written, byte for byte",
 "Every frame written is one JSON text without white space between tokens: [2,\"id\",\"Action\",payload], [3,\"id\",payload] or [4,\"id\",\"code\",\"description\",details]. Inside strings every character stands for itself, except quotation mark, backslash, control characters, <, >, & and U+2028/2029, each with its one fixed spelling. So no frame contains a line feed or another control character.",
 "all messages, ids and strings that can be sent",
 "Any of a million characters in any position; the escaping of a rare one is invisible until a peer's reader chokes on it.",
 ["ws/message.go MarshalJSON","ws/conn.go SendRequest, SendResponse, sendError"])
p("C96","Every field of a received message comes from the member of its name",
 "In every request handed to a handler and every response handed to a caller, each field holds the value of the payload member with the field's JSON name - strings, booleans and numbers as they are (integers exactly up to 2^53 and within the field's range), times as RFC 3339 text says, lists element by element, objects field by field - and the zero value when no member has that name. Only RemoteStartTransaction and RemoteStopTransaction also take a name that differs in letter case. The expiry date and parent of a local list entry are never filled in.",
 "all received texts, message types, payloads, members and nesting depths",
 "Decoders of fifty-odd types, each with its own table of keys; a swapped or missing key shows only for the one field and value a test happens to use.",
 ["messages/v1x/*/json_encode.go UnmarshalJSON","messages/v1x/*/messages.go","ws/conn.go callToRequest, callResultToResponse"])
p("C97","What a sent message says on the wire",
 "The text written for a request or a response is one JSON document, the frame of OCPP-J, whose payload is an object with exactly one member for each struct field that is not left out, under the JSON name of that field and under no other name. The member says the field: texts as they are (bytes that are not UTF-8 replaced), booleans, doubles exactly, integers as the double nearest to them, timestamps as RFC 3339 text of the time cut to seconds, nil as null, lists element by element in order, nested structs by the same rules. A field is left out only when it is nil or a zero number, and only where the library is documented to do so. This does not depend on who reads the text.",
 "every request and response of every message type with any field values, nested to any depth, that the library manages to encode",
 "The claim ranges over all values of all message types with nested lists and optional structs; a test compares one text.",
 ["messages/v1x/cpreq/json_encode.go", "messages/v1x/csreq/json_encode.go", "messages/v1x/cpresp/json_encode.go", "messages/v1x/csresp/json_encode.go", "ws/message.go: UnmarshalRequest, CallMessage.MarshalJSON, CallResultMessage.MarshalJSON"])

p("C98","What an accepted SOAP message means",
 "A request is handed to a SOAP handler, or a response to a SOAP caller, exactly if the message element says it (and the envelope, the names and the sender are in order), and an element says one message at most. It says of each field: the text of the child element (or the attribute, or the text of the element) with the field's XML name and namespace, read by the kind of the field - the text as it is, whole numbers and truth values without the white space around them, RFC 3339 times, doubles as in C101, nested elements by the same rules. A field about which nothing is said is the zero value; if a field of a plain kind (text, number, truth value, time) is named more than once the last one counts, though all have to be readable; the pieces of a nested struct that is named more than once are read as if they were one; a list field takes all, in order. Elements of other names or namespaces, text between elements and unknown attributes have no effect. White space is Unicode's. This holds of every element, conforming to the WSDL or not.",
 "all documents and message elements, with any children in any order, of all message types and nesting depths",
 "The elements accepted are far more than the WSDL allows: out of order, repeated, with foreign elements between. A test tries some.",
 ["soap/marshal.go Unmarshal", "soap/server.go", "soap/client.go", "messages/v1x/cpreq/messages.go", "messages/v1x/cpresp/messages.go", "messages/v1x/csreq/messages.go", "messages/v1x/csresp/messages.go"])

p("C99","A number received is the nearest double",
 "Each number in a received frame denotes a decimal by its digits, fraction and exponent. What the program gets for it is the double nearest to that decimal, the one with even significand if two are equally near, down to the subnormal ones and zero; the sign is kept. A frame with a number from half a step above the largest double on, anywhere in it, is refused with an error, and no number is refused otherwise. Lists keep their elements in order, objects the last member of each name. The fields of requests and responses get their numbers from these doubles.",
 "all number texts of any length and exponent, all documents and frames, all nestings",
 "There are infinitely many texts around each boundary between doubles, and errors of one unit in the last place occur at a few of them.",
 ["ws/conn.go UnmarshalMessage","ws/conn.go ReadMessage, callToRequest, callResultToResponse"])

p("C100","A number sent has the shortest text that is read back as it",
 "The text written for a double is read back as that double; it has at most 17 significant digits, no text that is read back has fewer, and of those with as many it is the closest, the one with an even last digit if two are equally close. In JSON it is written with an exponent (sign, no leading zeros) exactly below the double of 10^-6 and from 10^21 on, else plainly; in SOAP with an exponent of at least two digits below 10^-4 and from 10^6 on; without zeros at the end of the fraction; zero is 0, negative numbers have a minus sign. This determines the text. Every number in the payload of a sent request or error is written so; in a response every number is written so or is the digits of an integer.",
 "all finite doubles (in SOAP also the infinities and NaN), all requests, errors and responses that can be sent",
 "2^64 doubles, each with its own digits; a wrong last digit or a digit too many shows on few of them.",
 ["ws/message.go MarshalJSON","messages/v1x/*/json_encode.go MarshalJSON","soap/marshal.go Marshal"])

p("C101","A number received over SOAP is the nearest double",
 "The text of a number in a SOAP message - Unicode white space, a sign or none, and decimal digits with or without a point and a decimal exponent, or 0x, hexadecimal digits with or without a point and a binary exponent that must be there, underscores allowed only between digits (0x counts as one); or inf, infinity or nan in any mixture of capital and small letters, nan without a sign; or nothing at all, which is 0 - is taken as the nearest double to what it denotes, the one with even significand if two are equally near, with its sign. A message in which the text has another form, or the number is from half a step above the largest double on, is refused. An answer to BootNotification is accepted exactly if its interval is such a text, and the interval handed to the caller is that double: of the last such element, 0 if there is none.",
 "all texts of any length, and all answers posted back for every request",
 "There are infinitely many texts around each boundary between doubles and many ways to misplace an underscore or a sign; a test tries some.",
 ["soap/marshal.go Unmarshal", "soap/client.go call", "messages/v1x/cpresp/messages.go BootNotification", "messages/v1x/csreq/messages.go"])

p("C102","Which JSON messages are accepted, and as what",
 "A request is handed to the handler, or a response to the caller, exactly if the frame is one of OCPP-J, the action is known, and the payload is accepted as a value of its type: an object whose members are all called as fields of the message (objects inside messages may have others), with the obligatory members there (null will do), and each member of the kind of its field - text, truth value, number, a number whose shortest text is an integer within the bounds of the field, an RFC 3339 time that exists, a list, an object - or null. The value has the member's value in each field and the zero value where there is no member. Every other payload of a known action is a FormationViolation. RemoteStartTransaction and RemoteStopTransaction take members of other names and leave out obligatory ones, and names in other capital and small letters; for them the claim holds if no two members are meant for one field.",
 "all frames, all payloads with any members in any order and nesting, all message types, requests and responses",
 "There are infinitely many payloads on both sides of the boundary; a test tries some, and says nothing about members it does not think of.",
 ["messages/v1x/cpreq/json_encode.go UnmarshalJSON", "messages/v1x/csreq/json_encode.go UnmarshalJSON", "messages/v1x/cpresp/json_encode.go UnmarshalJSON", "messages/v1x/csresp/json_encode.go UnmarshalJSON", "ws/conn.go callToRequest, callResultToResponse"])

p("C103","What a sent message is at the other end, whatever its numbers",
 "A request that is sent (except DataTransfer, which no receiver takes) and whose times RFC 3339 can write is handed to the peer's handler exactly if every integer in it lies strictly between -(2^63 - 512) and 2^63 - 512, and else refused as a FormationViolation; an answer likewise. The value handed over is determined by the one sent: texts with what is not UTF-8 replaced, times cut to seconds, doubles and truth values as they were, lists element by element, nil for nil, the two fields of a local list entry that are lost as zero, and of each integer what becomes of it when it travels as the shortest text of its nearest double: up to 2^53 the same one, up to 2^k one at most 2^(k-52) away. So the id of a transaction or reservation above 2^53 may arrive as another one, silently. This is what every handler gets and every Send returns, between two ends and in the whole system of a central system and its charge points.",
 "all requests and answers of all message types with any field values and nesting, all integers of 64 bits, all histories of two connected ends and of the whole system",
 "An integer is changed on the way, or refused, only beyond 2^53, and which ones depends on their nearest double and its shortest text; a test tries some of 2^64.",
 ["messages/v1x/cpreq/json_encode.go", "messages/v1x/csreq/json_encode.go", "messages/v1x/cpresp/json_encode.go", "messages/v1x/csresp/json_encode.go", "ws/message.go", "ws/conn.go callToRequest, callResultToResponse"])

p("C104","SOAP over HTTP: statuses, header lines, handlers that panic",
 "Whatever a SOAP server of the library receives, it answers with status 200 or drops the connection - the latter exactly if the application's handler panicked, or an understood request had no header. A request that is refused gets an empty 200 (refutes 'errors show in the status'); one that is served gets a body under Content-Type application/soap+xml and Content-Encoding deflate, which is neither a zlib nor a bare deflate nor a gzip stream (refutes 'any HTTP client can read the answer'; the library's own client does not look at header lines). A panicking handler has been called once, with the request and the identity, and the caller's Send returns an error; requests for which it does not panic are served as C85-C90 say. Send posts its document once, with POST and two lines of Content-Type, and the central system takes what it posts as SOAP.",
 "all received bodies, all handlers that panic on some requests and not on others, all requests and identities, what the network makes of requests",
 "A test tries one handler and one body, and a test with this library's client does not see the header that other clients act on.",
 ["soap/server.go Handle", "soap/client.go Call", "cs/cs.go Run, handleSoap", "cp/soap.go ServeHTTP", "ws/ws.go IsWebSocketUpgrade"])

p("C105","Listeners while they run",
 "Whatever connection and disconnection listeners do - run for ever, call the API, return, panic - the central system's behaviour up to a panic is one of those described by C37-C42, C45, C59-C61, C76, C77 and C80: a running listener holds nobody up, and nobody holds it up: while the process lives, after at most one step of another goroutine each call of the API that it makes returns. Each call of a listener runs, has returned or has panicked, exactly once. A panic of a listener - of either kind, for any charge point - is the last thing the process does: it ends the service of every other charge point too (refutes 'charge points do not interfere' for panicking listeners; handlers, C75, end their own connection only).",
 "all histories of the central system with any number of connections and any interleaving with any number of running listeners",
 "How long listeners run and when they panic interleaves with every other goroutine; a test shows one schedule.",
 ["cs/cs.go handleWebsocket, SetChargePointConnectionListener, SetChargePointDisconnectionListener"])

p("C106","The whole system does what its parts do",
 "In a central system and any number of charge points and strangers joined by a network, the central system, each charge point, each of their connections and each wire with its two ends behaves as it does alone, so that every other claim made of one of them (C19-C49, C57-C62, C64, C65, C75-C84) holds of each of them there. Every step touches one process: the central system's leaves the charge points as they were, a charge point's the central system and the other charge points. A connection that has closed, or whose handler panicked, is cleaned up within 26 and 7 steps of the central system's own goroutines, a cancelled charge point stops within 20 of its own, from every reachable state of the whole: nobody else need do anything, nothing need be carried by the network, and the other processes stay as they are.",
 "all histories of a central system with any number of charge points and strangers, all connections and all interleavings",
 "What other processes are doing when a connection ends ranges over all their states; a test shows one process at a time or one schedule of several.",
 ["cs/cs.go handleWebsocket, Run, GetServiceOf","cp/cp.go New","cp/json.go","ws/conn.go"])

p("C107","Left alone, the whole comes to rest, whatever has happened to it",
 "From every reachable state of a central system with any number of charge points and strangers - connections lost or given up, processes dead of a panic, handlers running, calls waiting on both sides, a charge point cancelled - if from then on nothing is delivered and nobody dials or calls the API, every schedule of the goroutines of all processes ends after finitely many steps, and when it ends each process is dead or settled as C80 and C81 say: every call made has returned, every request handed over was answered, every closed connection was cleaned up and announced, locks are free. No process can keep another from it.",
 "all histories of the whole, all schedules of own steps of all processes together",
 "All interleavings of several processes from all reachable states, including those after failures; a test shows one.",
 ["cs/cs.go","cp/json.go","cp/cp.go New","ws/conn.go"])

if __name__ == "__main__":
    out = os.path.join(os.path.dirname(__file__), "..", "properties.jsonl")
    with open(out, "w") as f:
        for x in P: f.write(json.dumps(x, ensure_ascii=False) + "\n")
    print(len(P), "properties")
