(** One websocket connection: ws/conn.go together with the select loops of
    cs/cs.go:139-168 (role [CS]) and cp/json.go:34-65 (role [CP]), as a machine
    whose steps are single map accesses, lock, channel and socket operations.

    Goroutines: any number of callers of SendRequest, one goroutine per
    ReadMessageAsync call, and the loop.  An [event] says which goroutine moves
    and what the environment (peer, user, timer, network) supplies; any event
    that is enabled may happen next, so all interleavings are covered.

    Not modelled: time (a pending timeout may fire at any moment), control
    frames, log output, memory effects of data races (see [races] in
    SpecConn.v).  gorilla/websocket is taken to be: a read returns one whole text
    message or an error, and fails for ever after an error; a write puts the
    bytes of one message on the wire piece by piece, and fails for ever after a
    failure or a local close. *)
From Verif Require Import GoBase Utf8 Json Float64 Lang Types Codec Any Tables Registry Frame.
Open Scope string_scope.
Open Scope list_scope.

(** Which end uses the connection: the central system (cs/cs.go:95-166) or the charge point (cp/json.go:21-65). *)
Inductive role := CS | CP.

(** CallResponse (conn.go:23-26).  [CCode c]: err is the non-empty ErrorCode c. *)
Inductive cresp :=
| COk (m : msg)
| CCode (c : string)
| CErr (id c d : string) (det : any).

(** What SendRequest returns (conn.go:289-312). *)
Inductive outcome :=
| RResp (m : msg)
| RCode (c : string)                         (* conn.go:306, an ErrorCode *)
| RCallErr (id c d : string) (det : any)     (* conn.go:306, the CallErrorMessage *)
| RTimeout                                   (* conn.go:310 *)
| RNoCall                                    (* conn.go:293, the request cannot be encoded *)
| RSendErr.                                  (* conn.go:299 *)

(** conn.go:302-308: what SendRequest makes of the CallResponse it receives. *)
Definition outcome_of (r : cresp) : outcome :=
  match r with COk m => RResp m | CCode c => RCode c | CErr i c d x => RCallErr i c d x end.

(** A caller of SendRequest: the next thing it will do.
    ws/conn.go:289-312 and, for the sending, 265-280. *)
Inductive spc :=
| SReg1                       (* conn.go:295 sentMessages[id] = msg *)
| SReg2                       (* conn.go:296 responsesOf[id] = make(chan) *)
| SLock                       (* conn.go:266 sendMux.Lock() *)
| SWrite (text rest : string) (* conn.go:274 inside WriteMessage, [rest] not yet written *)
| SSel                        (* conn.go:302 evaluates c.responsesOf[id] *)
| SWait (ch : option nat)     (* conn.go:301 blocked in select; None is a nil channel *)
| SDel1 (r : cresp)           (* conn.go:303 delete(sentMessages) *)
| SDel2 (r : cresp)           (* conn.go:304 delete(responsesOf) *)
| SDone (o : outcome)
| SDead.                      (* panicked while encoding the request.
    One call of ws/conn.go:289-312. *)
Record sender := MkSender {
  sd_id : string;       (* the uuid *)
  sd_q : msg;           (* the request *)
  sd_inh : bool;        (* called by the handler itself, on the loop's goroutine *)
  sd_call : message;    (* the CallMessage *)
  sd_pc : spc }.

(** A goroutine of ReadMessageAsync (conn.go:167-173) running ReadMessage
    (conn.go:175-224).  Errors are kept only as far as ws.IsCloseError (ws.go:13)
    tells them apart: [Some true] is a *CloseError, [Some false] another error. *)
Inductive rpc :=
| RRead                              (* 176: blocked in the socket read *)
| RDecode (text : string)            (* 181-190, 199-203 *)
| RLook (m : message)                (* 191 sentMessages[msg.ID()] *)
| RConv (id : string) (p : payload)  (* 244 sentMessages[id] again *)
| RChan (id : string) (r : cresp)    (* 213, 218 evaluates c.responsesOf[id] *)
| RPut (ch : option nat) (r : cresp) (* 213, 218 blocked in the channel send *)
| RReq (q : msg) (id : string)       (* 206 blocked in c.requests <- ... *)
| RLock (id c : string)              (* 204, 266 *)
| RWrite (id c text rest : string)   (* 204, 274 *)
| RClose (b : bool)                  (* 178, 102 socket Close *)
| RCancel (b : bool)                 (* 178, 103 cancelCtx *)
| RRes (e : option bool)             (* 170 blocked sending the result *)
| RDone.

(** What a handler returns: a response (or nil), or an error with its text.
    The results of cs.ChargePointMessageHandler (cs/cs.go:27) and cp.CentralSystemMessageHandler (cp/cp.go:17). *)
Definition hret := (option msg + string)%type.

(** The loop.
    cs/cs.go:137-165, cp/json.go:34-64. *)
Inductive lpc :=
| LTop                                      (* about to evaluate the select's operands *)
| LSel (r : nat)                            (* blocked in the select; r is this turn's reader *)
| LDispatch (q : msg) (id : string)         (* cs.go:142-146, cp json.go:54-58 *)
| LRun (id : string)                        (* inside the user's handler *)
| LLock (id : string) (r : hret)            (* SendResponse, conn.go:262, 266 *)
| LWrite (id : string) (r : hret) (text rest : string)
| LClose                                    (* conn.go:102 *)
| LCancel                                   (* conn.go:103 *)
| LGone.                                    (* the loop no longer uses this connection *)

(** Who may hold sendMux (ws/conn.go:32): caller i of SendRequest (297), reader r (204), the loop (263). *)
Inductive who := WS (i : nat) | WR (r : nat) | WL.

(** The Conn of ws/conn.go:28-39 with the goroutines that use it.  sentMessages keeps only the action of the call, all that ws/conn.go:251 uses of it. *)
Record conn := MkConn {
  c_sent : list (string * string);   (* sentMessages: id to action of the call *)
  c_resp : list (string * nat);      (* responsesOf: id to channel; a channel is named by the
                                        caller that made it, each makes exactly one *)
  c_lock : option who;               (* sendMux *)
  c_wbroken : bool;                  (* a write failed *)
  c_rbroken : bool;                  (* a read failed *)
  c_closed : bool;                   (* socket closed locally *)
  c_done : bool;                     (* ctx cancelled: WaitClose fires *)
  c_closers : nat;                   (* user calls of Close() between conn.go:102 and 103 *)
  c_senders : list sender;
  c_readers : list rpc;
  c_loop : lpc;
  c_crash : bool }.

(** newConn (conn.go:41-54), then the loop starts *)
Definition conn0 : conn := MkConn [] [] None false false false false 0 [] [] LTop false.

(** One atomic step of one goroutine of ws/conn.go, cs/cs.go:137-165 or cp/json.go:34-64. *)
Inductive event :=
| ESend (inh : bool) (id : string) (q : msg)   (* SendRequest is called; uuid chosen *)
| EStep (i : nat)                              (* caller i takes its next step *)
| EReceive (i : nat) (r : nat)                 (* caller i receives from reader r *)
| ETimeout (i : nat)                           (* caller i's timer fires *)
| EChunk (w : who) (n : nat)                   (* n more bytes reach the wire *)
| EWritten (w : who)                           (* WriteMessage returns nil *)
| EWFail (w : who)                             (* WriteMessage returns an error *)
| ERead (r : nat) (text : string)              (* reader r gets a message *)
| EReadErr (r : nat) (b : bool)                (* reader r gets an error *)
| EReader (r : nat)                            (* reader r takes its next step *)
| ELoop                                        (* the loop takes its next step *)
| ETake (r : nat)                              (* select: request from reader r *)
| EResult                                      (* select: result of this turn's reader *)
| ESeeClose                                    (* select: WaitClose *)
| EStop                                        (* select: ctx.Done() (charge point) *)
| EReturn (r : hret)                           (* the handler returns *)
| EUserClose                                   (* user calls Close(): conn.go:102 *)
| EUserCancel                                  (* ... conn.go:103 *)
| EHPanic.                                     (* the handler panics *)

(** Outcome of sending one message.
    of sendMessage, ws/conn.go:265-280 *)
Inductive sendres := Written (text : string) | NotEncoded | WriteFailed.

(** What is seen from outside.
    The API of ws/conn.go:167-312, the handlers of cs/cs.go:27, cp/cp.go:17 and the socket (ws/conn.go:31). *)
Inductive obs :=
| OCall (i : nat) (id : string) (q : msg)      (* i-th call of SendRequest, with its uuid *)
| ORet (i : nat) (o : outcome)                 (* it returns *)
| ORead (text : string)                        (* message taken from the socket *)
| OReadErr (b : bool)                          (* read fails *)
| OBytes (s : string)                          (* bytes put on the wire *)
| OWrote (w : who) (text : string)             (* message completely written *)
| OReject (id c : string) (x : sendres)        (* reader's reply to a bad CALL: outcome *)
| OTaken (q : msg) (id : string)               (* loop receives a request *)
| OHandle (q : option msg) (id : string)       (* handler is called (None: nil request) *)
| OReturn (id : string) (r : hret)             (* handler returns *)
| OReply (id : string) (r : hret) (x : sendres) (* loop's reply: outcome *)
| OUserClose | OStop                           (* user closes / cancels *)
| OClosed                                      (* socket closed locally *)
| ODone                                        (* WaitClose fires *)
| OCrash                                       (* a goroutine panics, and the process ends *)
| OHPanic (id : string).                       (* the handler panics *)

(** Setters.
    field assignments of ws/conn.go:28-39, one per field *)
Definition set_sent x c := MkConn x (c_resp c) (c_lock c) (c_wbroken c) (c_rbroken c) (c_closed c) (c_done c) (c_closers c) (c_senders c) (c_readers c) (c_loop c) (c_crash c).
(** responsesOf, ws/conn.go:38. *)
Definition set_resp x c := MkConn (c_sent c) x (c_lock c) (c_wbroken c) (c_rbroken c) (c_closed c) (c_done c) (c_closers c) (c_senders c) (c_readers c) (c_loop c) (c_crash c).
(** sendMux, ws/conn.go:32. *)
Definition set_lock x c := MkConn (c_sent c) (c_resp c) x (c_wbroken c) (c_rbroken c) (c_closed c) (c_done c) (c_closers c) (c_senders c) (c_readers c) (c_loop c) (c_crash c).
(** The socket after a failed write, ws/conn.go:274. *)
Definition set_wbroken c := MkConn (c_sent c) (c_resp c) (c_lock c) true (c_rbroken c) (c_closed c) (c_done c) (c_closers c) (c_senders c) (c_readers c) (c_loop c) (c_crash c).
(** The socket after a failed read, ws/conn.go:176. *)
Definition set_rbroken c := MkConn (c_sent c) (c_resp c) (c_lock c) (c_wbroken c) true (c_closed c) (c_done c) (c_closers c) (c_senders c) (c_readers c) (c_loop c) (c_crash c).
(** The socket after Close, ws/conn.go:102. *)
Definition set_closed c := MkConn (c_sent c) (c_resp c) (c_lock c) (c_wbroken c) (c_rbroken c) true (c_done c) (c_closers c) (c_senders c) (c_readers c) (c_loop c) (c_crash c).
(** ctx after cancelCtx, ws/conn.go:103. *)
Definition set_done c := MkConn (c_sent c) (c_resp c) (c_lock c) (c_wbroken c) (c_rbroken c) (c_closed c) true (c_closers c) (c_senders c) (c_readers c) (c_loop c) (c_crash c).
(** Users between ws/conn.go:102 and 103. *)
Definition set_closers x c := MkConn (c_sent c) (c_resp c) (c_lock c) (c_wbroken c) (c_rbroken c) (c_closed c) (c_done c) x (c_senders c) (c_readers c) (c_loop c) (c_crash c).
(** Callers of SendRequest, ws/conn.go:289. *)
Definition set_senders x c := MkConn (c_sent c) (c_resp c) (c_lock c) (c_wbroken c) (c_rbroken c) (c_closed c) (c_done c) (c_closers c) x (c_readers c) (c_loop c) (c_crash c).
(** Goroutines of ws/conn.go:169-171. *)
Definition set_readers x c := MkConn (c_sent c) (c_resp c) (c_lock c) (c_wbroken c) (c_rbroken c) (c_closed c) (c_done c) (c_closers c) (c_senders c) x (c_loop c) (c_crash c).
(** The loop of cs/cs.go:137-165 or cp/json.go:34-64. *)
Definition set_loop x c := MkConn (c_sent c) (c_resp c) (c_lock c) (c_wbroken c) (c_rbroken c) (c_closed c) (c_done c) (c_closers c) (c_senders c) (c_readers c) x (c_crash c).
(** The process has panicked (for instance ws/conn.go:122). *)
Definition set_crash c := MkConn (c_sent c) (c_resp c) (c_lock c) (c_wbroken c) (c_rbroken c) (c_closed c) (c_done c) (c_closers c) (c_senders c) (c_readers c) (c_loop c) true.

(** Replace the i-th goroutine of a list (of ws/conn.go:169 or 289). *)
Fixpoint upd {A} (i : nat) (x : A) (l : list A) : list A :=
  match l, i with
  | [], _ => []
  | _ :: r, O => x :: r
  | y :: r, S j => y :: upd j x r
  end.
(** Caller i of ws/conn.go:289 moves on to p. *)
Definition set_spc (i : nat) (sd : sender) (p : spc) (c : conn) : conn :=
  set_senders (upd i (MkSender (sd_id sd) (sd_q sd) (sd_inh sd) (sd_call sd) p) (c_senders c)) c.
(** Reader r of ws/conn.go:169 moves on to p. *)
Definition set_rpc (r : nat) (p : rpc) (c : conn) : conn := set_readers (upd r p (c_readers c)) c.

(** m[k] = v and delete(m, k).
    Go maps, ws/conn.go:303-304 *)
Definition mdel {A} (k : string) (m : list (string * A)) : list (string * A) :=
  filter (fun kv => negb (String.eqb k (fst kv))) m.
(** Assignment to a Go map, ws/conn.go:295-296. *)
Definition mput {A} (k : string) (v : A) (m : list (string * A)) : list (string * A) := (k, v) :: mdel k m.

(** Has the call of ws/conn.go:289 returned? *)
Definition sdone (p : spc) : bool := match p with SDone _ => true | _ => false end.
(** A panic in a goroutine started by the library (ws/conn.go:169) ends the process. *)
Definition crash (c : conn) : conn * list obs := (set_crash c, [OCrash]).

(** SendRequest up to UnmarshalRequest (conn.go:290-294).  uuid.New is taken never
    to repeat and to give text.  A call by the handler itself can only happen while
    the handler runs and is not already inside such a call. *)
Definition send_ok (inh : bool) (id : string) (q : msg) (c : conn) : bool :=
  negb (existsb (fun sd => String.eqb id (sd_id sd)) (c_senders c)) && utf8_valid id && msg_ok q && is_request (m_ty q) &&
  (negb inh || match c_loop c with
               | LRun _ => negb (existsb (fun sd => sd_inh sd && negb (sdone (sd_pc sd))) (c_senders c))
               | _ => false
               end).
(** The id of the request that the handler of cs/cs.go:147 works on. *)
Definition handled (c : conn) : string := match c_loop c with LRun id => id | _ => "" end.

(** SendRequest, ws/conn.go:289-294: encodes the request (UnmarshalRequest, ws/message.go:141-152).  The encoder may panic: on a
    goroutine of the user, who is taken not to recover from it, or in the handler.  The central system's handler runs on a goroutine of
    net/http, whose server recovers from the panic after the deferred function of cs/cs.go:123-136 has run. *)
Definition do_send (ro : role) (inh : bool) (id : string) (q : msg) (c : conn) : option (conn * list obs) :=
  if negb (send_ok inh id q c) then None
  else
    let i := length (c_senders c) in
    let add call p := set_senders (c_senders c ++ [MkSender id q inh call p]) c in
    match unmarshal_request id q with
    | Ok call => Some (add call SReg1, [OCall i id q])
    | Err _ => Some (add (MCall id "" ANull) (SDone RNoCall), [OCall i id q; ORet i RNoCall])
    | Panic =>
      match inh, ro with
      | true, CS => Some (set_loop LClose (add (MCall id "" ANull) SDead), [OCall i id q; OHPanic (handled c)])
      | _, _ => Some (set_crash (add (MCall id "" ANull) SDead), [OCall i id q; OCrash])
      end
    end.

(** The Action of a CallMessage, ws/message.go:25-29. *)
Definition call_action (m : message) : string := match m with MCall _ a _ => a | _ => "" end.

(** SendRequest after that (conn.go:295-308) *)
Definition sender_step (i : nat) (sd : sender) (c : conn) : option (conn * list obs) :=
  match sd_pc sd with
  | SReg1 => Some (set_spc i sd SReg2 (set_sent (mput (sd_id sd) (call_action (sd_call sd)) (c_sent c)) c), [])
  | SReg2 => Some (set_spc i sd SLock (set_resp (mput (sd_id sd) i (c_resp c)) c), [])
  | SLock =>
    match c_lock c with
    | Some _ => None
    | None => match marshal_message (sd_call sd) with
              | Ok text => Some (set_spc i sd (SWrite text text) (set_lock (Some (WS i)) c), [])
              | Err _ => Some (set_spc i sd (SDone RSendErr) c, [ORet i RSendErr])
              | Panic => Some (crash c)
              end
    end
  | SSel => Some (set_spc i sd (SWait (lookup (sd_id sd) (c_resp c))) c, [])
  | SDel1 r => Some (set_spc i sd (SDel2 r) (set_sent (mdel (sd_id sd) (c_sent c)) c), [])
  | SDel2 r => Some (set_spc i sd (SDone (outcome_of r)) (set_resp (mdel (sd_id sd) (c_resp c)) c), [ORet i (outcome_of r)])
  | _ => None
  end.

(** ReadMessage after the socket read (conn.go:177-223) *)
Definition reject_desc := "on handling message".
(** ReadMessage, ws/conn.go:177-223, with callToRequest 226-240, callResultToResponse 242-261 and sendMessage 265-280. *)
Definition reader_step (r : nat) (p : rpc) (c : conn) : option (conn * list obs) :=
  match p with
  | RDecode text =>
    match read_text text with
    | Err _ => Some (set_rpc r (RRes (Some false)) c, [])
    | Panic => Some (crash c)
    | Ok (MCall id a pl) =>
      match call_to_request a pl with
      | inl q => Some (set_rpc r (RReq q id) c, [])
      | inr e => Some (set_rpc r (RLock id e) c, [])
      end
    | Ok m => Some (set_rpc r (RLook m) c, [])
    end
  | RLook m =>
    match lookup (id_of m) (c_sent c) with
    | None => Some (set_rpc r (RRes (Some false)) c, [])
    | Some _ =>
      match m with
      | MResult id pl => Some (set_rpc r (RConv id pl) c, [])
      | MError id e d det => Some (set_rpc r (RChan id (CErr id e d det)) c, [])
      | MCall _ _ _ => None
      end
    end
  | RConv id pl =>
    match lookup id (c_sent c) with
    | None => Some (set_rpc r (RChan id (CCode GenericError)) c, [])
    | Some a =>
      match result_to_response a (match pl with PAny x => x | _ => ANull end) with
      | Ok (inl m) => Some (set_rpc r (RChan id (COk m)) c, [])
      | Ok (inr e) => Some (set_rpc r (RChan id (CCode e)) c, [])
      | Err _ => None
      | Panic => Some (crash c)
      end
    end
  | RChan id x => Some (set_rpc r (RPut (lookup id (c_resp c)) x) c, [])
  | RLock id e =>
    match c_lock c with
    | Some _ => None
    | None => match marshal_message (new_call_error id e reject_desc) with
              | Ok text => Some (set_rpc r (RWrite id e text text) (set_lock (Some (WR r)) c), [])
              | Err _ => Some (set_rpc r (RRes (Some false)) c, [OReject id e NotEncoded])
              | Panic => Some (crash c)
              end
    end
  | RClose b => Some (set_rpc r (RCancel b) (set_closed c), [OClosed])
  | RCancel b => Some (set_rpc r (RRes (Some b)) (set_done c), [ODone])
  | _ => None
  end.

(** The loop outside its select (cs.go:142-157, cp json.go:54-62) *)
Definition loop_step (ro : role) (c : conn) : option (conn * list obs) :=
  match c_loop c with
  | LTop => Some (set_loop (LSel (length (c_readers c))) (set_readers (c_readers c ++ [RRead]) c), [])
  | LDispatch q id =>
    match ro with
    | CS => if is_cp_request (m_ty q) then Some (set_loop (LRun id) c, [OHandle (Some q) id])
            else Some (set_loop LTop c, [])
    | CP => Some (set_loop (LRun id) c, [OHandle (if is_cs_request (m_ty q) then Some q else None) id])
    end
  | LLock id r =>
    match c_lock c with
    | Some _ => None
    | None => match marshal_message (response_message id r) with
              | Ok text => Some (set_loop (LWrite id r text text) (set_lock (Some WL) c), [])
              | Err _ => Some (set_loop LTop c, [OReply id r NotEncoded])
              | Panic => Some (crash c)
              end
    end
  | LClose => Some (set_loop LCancel (set_closed c), [OClosed])
  | LCancel => Some (set_loop LGone (set_done c), [ODone])
  | _ => None
  end.

(** What a handler of the given side can return, by its Go type (cs/cs.go:27, cp/cp.go:17) *)
Definition hret_ok (ro : role) (r : hret) : bool :=
  match r with
  | inl (Some m) => msg_ok m && (match ro with CS => is_cp_response (m_ty m) | CP => is_cs_response (m_ty m) end)
  | _ => true
  end.

(** The handler can return or panic only after its own call of SendRequest returned.
    The handler is called at cs/cs.go:147, cp/json.go:58. *)
Definition calls_over (c : conn) : bool := negb (existsb (fun sd => sd_inh sd && negb (sdone (sd_pc sd))) (c_senders c)).
(** What the handler returns is of its type: cs/cs.go:147, cp/json.go:58. *)
Definition return_ok (ro : role) (r : hret) (c : conn) : bool := hret_ok ro r && calls_over c.

(** The write in progress, if [w] is writing: the whole text and what is left.
    ws/conn.go:274 *)
Definition writing (w : who) (c : conn) : option (string * string) :=
  match w with
  | WS i => match nth_error (c_senders c) i with Some sd => match sd_pc sd with SWrite t r => Some (t, r) | _ => None end | None => None end
  | WR j => match nth_error (c_readers c) j with Some (RWrite _ _ t r) => Some (t, r) | _ => None end
  | WL => match c_loop c with LWrite _ _ t r => Some (t, r) | _ => None end
  end.
(** Progress of the WriteMessage of ws/conn.go:274. *)
Definition set_rest (w : who) (rest : string) (c : conn) : conn :=
  match w with
  | WS i => match nth_error (c_senders c) i with Some sd => match sd_pc sd with SWrite t _ => set_spc i sd (SWrite t rest) c | _ => c end | None => c end
  | WR j => match nth_error (c_readers c) j with Some (RWrite id e t _) => set_rpc j (RWrite id e t rest) c | _ => c end
  | WL => match c_loop c with LWrite id r t _ => set_loop (LWrite id r t rest) c | _ => c end
  end.
(** WriteMessage returned and the lock is released: [ok] or not.
    ws/conn.go:274-279, and the callers 204, 263, 297-300 *)
Definition end_write (w : who) (ok : bool) (c : conn) : conn * list obs :=
  match w with
  | WS i => match nth_error (c_senders c) i with
            | Some sd => if ok then (set_spc i sd SSel c, []) else (set_spc i sd (SDone RSendErr) c, [ORet i RSendErr])
            | None => (c, [])
            end
  | WR j => match nth_error (c_readers c) j with
            | Some (RWrite id e t _) =>
              if ok then (set_rpc j (RRes None) c, [OReject id e (Written t)])
              else (set_rpc j (RRes (Some false)) c, [OReject id e WriteFailed])
            | _ => (c, [])
            end
  | WL => match c_loop c with
          | LWrite id r t _ => (set_loop LTop c, [OReply id r (if ok then Written t else WriteFailed)])
          | _ => (c, [])
          end
  end.

(** The bytes after the first n; pieces of the message of ws/conn.go:274. *)
Fixpoint sdrop (n : nat) (s : string) : string :=
  match n, s with S k, String _ r => sdrop k r | _, _ => s end.
(** The first n bytes; pieces of the message of ws/conn.go:274. *)
Fixpoint stake (n : nat) (s : string) : string :=
  match n, s with S k, String x r => String x (stake k r) | _, _ => "" end.

(** One step of ws/conn.go:101-312 together with the loop, cs/cs.go:137-165 or cp/json.go:34-64.
    A panic of the handler: see [do_send] for the central system; at the charge point it ends the process, since the loop runs on a
    goroutine of its own (cp/cp.go:56). *)
Definition step (ro : role) (e : event) (c : conn) : option (conn * list obs) :=
  if c_crash c then None else
  match e with
  | ESend inh id q => do_send ro inh id q c
  | EStep i => match nth_error (c_senders c) i with Some sd => sender_step i sd c | None => None end
  | EReceive i r =>
    match nth_error (c_senders c) i, nth_error (c_readers c) r with
    | Some sd, Some (RPut (Some ch) x) =>
      match sd_pc sd with
      | SWait (Some ch') => if Nat.eqb ch ch' then Some (set_rpc r (RRes None) (set_spc i sd (SDel1 x) c), []) else None
      | _ => None
      end
    | _, _ => None
    end
  | ETimeout i =>
    match nth_error (c_senders c) i with
    | Some sd => match sd_pc sd with SWait _ => Some (set_spc i sd (SDone RTimeout) c, [ORet i RTimeout]) | _ => None end
    | None => None
    end
  | EChunk w n =>
    match writing w c with
    | Some (t, rest) => if c_wbroken c || c_closed c then None
                        else Some (set_rest w (sdrop n rest) c, [OBytes (stake n rest)])
    | None => None
    end
  | EWritten w =>
    match writing w c with
    | Some (t, EmptyString) => if c_wbroken c then None else let '(c', o) := end_write w true (set_lock None c) in Some (c', OWrote w t :: o)
    | _ => None
    end
  | EWFail w =>
    match writing w c with
    | Some _ => Some (end_write w false (set_wbroken (set_lock None c)))
    | None => None
    end
  | ERead r text =>
    match nth_error (c_readers c) r with
    | Some RRead => if c_rbroken c then None else Some (set_rpc r (RDecode text) c, [ORead text])
    | _ => None
    end
  | EReadErr r b =>
    match nth_error (c_readers c) r with
    | Some RRead => Some (set_rpc r (RClose b) (set_rbroken c), [OReadErr b])
    | _ => None
    end
  | EReader r => match nth_error (c_readers c) r with Some p => reader_step r p c | None => None end
  | ELoop => loop_step ro c
  | ETake r =>
    match c_loop c, nth_error (c_readers c) r with
    | LSel _, Some (RReq q id) => Some (set_loop (LDispatch q id) (set_rpc r (RRes None) c), [OTaken q id])
    | _, _ => None
    end
  | EResult =>
    match c_loop c with
    | LSel r => match nth_error (c_readers c) r with
                | Some (RRes x) => Some (set_loop (match ro, x with CS, Some true => LClose | _, _ => LTop end) (set_rpc r RDone c), [])
                | _ => None
                end
    | _ => None
    end
  | ESeeClose =>
    match c_loop c with
    | LSel _ => if c_done c then Some (set_loop (match ro with CS => LClose | CP => LGone end) c, []) else None
    | _ => None
    end
  | EStop => match ro, c_loop c with CP, LSel _ => Some (set_loop LClose c, [OStop]) | _, _ => None end
  | EReturn r =>
    match c_loop c with
    | LRun id => if negb (return_ok ro r c) then None
                 else Some (set_loop (LLock id r) c, [OReturn id r])
    | _ => None
    end
  | EUserClose => Some (set_closers (S (c_closers c)) (set_closed c), [OUserClose; OClosed])
  | EUserCancel => match c_closers c with S n => Some (set_closers n (set_done c), [ODone]) | O => None end
  | EHPanic =>
    match c_loop c with
    | LRun id => if negb (calls_over c) then None
                 else Some (match ro with CS => (set_loop LClose c, [OHPanic id]) | CP => (set_crash (set_loop LGone c), [OHPanic id; OCrash]) end)
    | _ => None
    end
  end.

(** Runs: a list of events, and what was seen.
    Executions of ws/conn.go with its loop. *)
Fixpoint run (ro : role) (es : list event) (c : conn) : option (conn * list obs) :=
  match es with
  | [] => Some (c, [])
  | e :: r => match step ro e c with
              | Some (c1, o1) => match run ro r c1 with Some (c2, o2) => Some (c2, o1 ++ o2) | None => None end
              | None => None
              end
  end.

(** [reach ro c tr]: the connection can be in state c after showing tr.
    Executions of ws/conn.go with its loop. *)
Inductive reach (ro : role) : conn -> list obs -> Prop :=
| reach_0 : reach ro conn0 []
| reach_S : forall c tr e c' o, reach ro c tr -> step ro e c = Some (c', o) -> reach ro c' (tr ++ o).
