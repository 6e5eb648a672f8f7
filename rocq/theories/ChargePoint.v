(** The charge point: cp/cp.go and cp/json.go, with one connection machine (Conn.v)
    per successful dial; the SOAP server of cp/soap.go; ws.Dial and ws.Handshake
    (ws/conn.go:56-93); the URL a charge point dials and the path the central
    system's HTTP server sees.

    Goroutines: New's caller, then the goroutine of handleWebsocketConnection and
    the user's calls.  The fields conn, CentralSystem and connectedChan are written
    one at a time and read without a lock.

    Not modelled: time (the retry timer may fire at any moment), log output, use of
    the exported methods of the connection other than SendRequest, WaitClose and
    Close.  Whether a dial succeeds is the environment's choice. *)
From Verif Require Import GoBase Utf8 Json Float64 Lang Types Codec Any Tables Registry Frame Conn.
Open Scope string_scope.
Open Scope list_scope.

(** ** Construction (cp.go:42-66) *)
(** What New does, given the transport, whether a port is given and whether the
    dial succeeds; the service it leaves in the charge point.
    The embedded service.CentralSystem, cp/cp.go:30, set at cp/json.go:27 and cp/cp.go:59. *)
Inductive cpsvc := NoService | OverWebsocket | OverSoap (url id : string).
(** The results of New, cp/cp.go:42. *)
Inductive newres := NewError (text : string) | NewOk (svc : cpsvc) (soap_server : bool).
(** New, cp/cp.go:42-66. *)
Definition cp_new (transport id url : string) (port : option string) (dial : bool) : newres :=
  let json := String.eqb transport "json" in
  if json && negb dial then NewError "could not dial to central system: "
  else
    let svc := if json then OverWebsocket else NoService in
    if String.eqb transport "soap" then
      match port with
      | None => NewError "port must be set when running a SOAP ChargePoint"
      | Some _ => NewOk (OverSoap url id) true
      end
    else NewOk svc false.
(** cp.Send is the promoted method of the embedded interface (cp.go:30): calling it
    on a nil interface panics. *)
Definition cp_send_panics (svc : cpsvc) : bool := match svc with NoService => true | _ => false end.

(** ** ws.Dial and ws.Handshake: sub-protocols (conn.go:56-93) *)
(** ocppVersionToProtocol (conn.go:75-82) *)
Definition protocol_of (v : string) : string :=
  if String.eqb v "V15" then "ocpp1.5" else if String.eqb v "V16" then "ocpp1.6" else "".
(** Dial (conn.go:57-59): what the client offers *)
Definition offered (v : string) : list string := [protocol_of v].
(** gorilla's Upgrader.selectSubprotocol: with Subprotocols set, the first of them the
    client offers; without, the first Sec-WebSocket-Protocol of the given header.
    Called through upgrader.Upgrade, ws/conn.go:90. *)
Definition select_subprotocol (subprotocols : option (list string)) (client_offers header : list string) : string :=
  match subprotocols with
  | Some l => match find (fun s => existsb (String.eqb s) client_offers) l with Some s => s | None => "" end
  | None => match header with [] => "" | s :: _ => s end
  end.
(** the upgrader (conn.go:67-73): no Subprotocols *)
Definition upgrader_subprotocols : option (list string) := None.
(** Handshake (conn.go:84-92) *)
Definition handshake_protocol (supported : list string) (client_offers : list string) : string :=
  select_subprotocol upgrader_subprotocols client_offers (map protocol_of supported).
(** cs.go:102 *)
Definition cs_protocol (client_offers : list string) : string := handshake_protocol ["V16"] client_offers.

(** ** The identity (conn.go:60, cs.go:97) *)
(** strings.Cut before the first c.
    net/url parsing of the URL dialled at ws/conn.go:60 *)
Fixpoint upto (c : ascii) (s : string) : string :=
  match s with EmptyString => "" | String x r => if Ascii.eqb x c then "" else String x (upto c r) end.
(** the rest from the first c on.
    net/url parsing of the URL dialled at ws/conn.go:60 *)
Fixpoint from (c : ascii) (s : string) : string :=
  match s with EmptyString => "" | String x r => if Ascii.eqb x c then s else from c r end.
(** net/url unhex, for the URL dialled at ws/conn.go:60. *)
Definition hexval (c : ascii) : option nat :=
  let n := nat_of_ascii c in
  if (48 <=? n)%nat && (n <=? 57)%nat then Some (n - 48)
  else if (65 <=? n)%nat && (n <=? 70)%nat then Some (n - 55)
  else if (97 <=? n)%nat && (n <=? 102)%nat then Some (n - 87)
  else None.
(** net/url unescape(s, encodePath).
    For r.URL.Path, cs/cs.go:97 *)
Fixpoint unescape (s : string) : option string :=
  match s with
  | EmptyString => Some ""
  | String x r =>
    if Ascii.eqb x "%"%char then
      match r with
      | String a (String b q) =>
        match hexval a, hexval b with
        | Some h, Some l => match unescape q with Some t => Some (String (ascii_of_nat (16 * h + l)) t) | None => None end
        | _, _ => None
        end
      | _ => None
      end
    else match unescape r with Some t => Some (String x t) | None => None end
  end.
(** The segments between slashes.
    path.Clean, applied by the ServeMux of cs/cs.go:72 *)
Fixpoint segments (s : string) : list string :=
  match s with
  | EmptyString => [""]
  | String x r => if Ascii.eqb x "/"%char then "" :: segments r
                  else match segments r with [] => [String x ""] | h :: t => String x h :: t end
  end.
(** http.ServeMux redirects a path that path.Clean would change (net/http cleanPath);
    the websocket client then fails.  [p] starts with a slash.
    The ServeMux of cs/cs.go:72, 92. *)
Fixpoint clean_segments (l : list string) : bool :=
  match l with
  | [] => true
  | [x] => negb (String.eqb x "." || String.eqb x "..")
  | x :: r => negb (String.eqb x "" || String.eqb x "." || String.eqb x "..") && clean_segments r
  end.
(** Is the path its own path.Clean (net/http cleanPath, for the ServeMux of cs/cs.go:72)? *)
Definition clean_path (p : string) : bool := match segments p with "" :: r => clean_segments r | _ => false end.
(** A control byte makes url.Parse fail.
    ws/conn.go:60 *)
Fixpoint no_control (s : string) : bool :=
  match s with EmptyString => true | String x r => let n := nat_of_ascii x in (32 <=? n)%nat && negb (n =? 127)%nat && no_control r end.
(** The path the server sees for a URL "ws://" ++ authority ++ path... ([None]: the
    dial fails).  The fragment is cut by the client, the query by the server.
    From ws/conn.go:60 to cs/cs.go:97. *)
Definition url_path (url : string) : option string :=
  if negb (no_control url) then None
  else match url with
  | String "w" (String "s" (String ":" (String "/" (String "/" rest)))) =>
      let path := from "/"%char (upto "?"%char (upto "#"%char rest)) in
      match unescape path with
      | Some p => if clean_path p then Some p else None
      | None => None
      end
  | _ => None
  end.
(** Dial dials csURL ++ "/" ++ identity; the central system takes the path without its
    first slash.
    ws/conn.go:60, cs/cs.go:97 *)
Definition trim1 (s : string) : string := match s with String "/"%char r => r | _ => s end.
(** The ChargePointID of the central system (cs/cs.go:97) for a charge point that dials (ws/conn.go:60). *)
Definition identity_seen (csurl identity : string) : option string :=
  match url_path (csurl ++ "/" ++ identity) with Some p => Some (trim1 p) | None => None end.

(** ** Running over a websocket (json.go).
    What the goroutine of cp/json.go:21-66 (first New, cp/cp.go:51-56) does next. *)
Inductive ppc :=
| PDial       (* json.go:22 ws.Dial *)
| PSleep      (* 47 the retry timer *)
| PSetConn    (* 26 *)
| PSetSvc     (* 27 *)
| PCloseCh    (* 29 close(cp.connectedChan) *)
| PServe      (* 34-64 the select loop on cp.conn *)
| PMake       (* 41 cp.connectedChan = make(...) *)
| PStop       (* 37 cp.conn.Close() *)
| PEnd        (* 38 *)
| PFailed.    (* cp.go:54 New returns an error *)

(** chargePoint, cp/cp.go:29-38, with the connections it has had. *)
Record cpoint := MkP {
  p_pc : ppc;
  p_new : bool;              (* New has not returned yet *)
  p_conns : list conn;       (* a connection per successful dial, in order *)
  p_cur : nat;               (* cp.conn *)
  p_svc : nat;               (* the connection of cp.CentralSystem *)
  p_chan : nat;              (* cp.connectedChan *)
  p_nchan : nat;             (* channels made *)
  p_closed : list nat;       (* channels closed *)
  p_cancel : bool;           (* the context given to New is cancelled *)
  p_crash : bool }.

(** cp.go:43-50, then the dial of line 52 *)
Definition cpoint0 : cpoint := MkP PDial true [] 0 0 0 1 [] false false.

(** What the API of cp/cp.go:19-27, 42 and the environment can see. *)
Inductive pobs :=
| QDialed (ok : bool)
| QUp (k : nat)               (* the connect channel is closed: connection k is in place *)
| QNew (ok : bool)            (* New returns *)
| QLost (k : nat)             (* the loop has noticed that connection k closed: new connect channel *)
| QStopped
| QCancelled
| QWaitC (ch : nat)           (* WaitConnect returns this channel *)
| QWaitD (k : nat)            (* WaitDisconnect returns the close channel of connection k *)
| QSend (k : nat)             (* cp.Send goes to connection k *)
| QConn (k : nat) (o : obs)
| QPanic.

(** A step of cp/json.go:21-66, a call of the API (cp/cp.go:19-27) or an event of a connection. *)
Inductive pevent :=
| XDial (ok : bool)
| XStep
| XConn (k : nat) (e : event)
| XSend (inh : bool) (id : string) (q : msg)  (* cp.Send is called; uuid chosen *)
| XCancel
| XWaitC
| XWaitD.

(** The goroutine of cp/json.go:33-66 moves on. *)
Definition pset_pc x p := MkP x (p_new p) (p_conns p) (p_cur p) (p_svc p) (p_chan p) (p_nchan p) (p_closed p) (p_cancel p) (p_crash p).
(** The connections dialled at cp/json.go:22. *)
Definition pset_conns x p := MkP (p_pc p) (p_new p) x (p_cur p) (p_svc p) (p_chan p) (p_nchan p) (p_closed p) (p_cancel p) (p_crash p).
(** A panic: cp/json.go:29 on a closed channel, or a crash in a goroutine of ws/conn.go:169. *)
Definition pset_crash p := MkP (p_pc p) (p_new p) (p_conns p) (p_cur p) (p_svc p) (p_chan p) (p_nchan p) (p_closed p) (p_cancel p) true.

(** Straight-line steps of getNewWebsocketConnection (json.go:21-31) and of the loop (33-65) *)
Definition pstep (p : cpoint) : option (cpoint * list pobs) :=
  match p_pc p with
  | PSleep => Some (pset_pc PDial p, [])
  | PSetConn => Some (MkP PSetSvc (p_new p) (p_conns p) (length (p_conns p) - 1) (p_svc p) (p_chan p) (p_nchan p) (p_closed p) (p_cancel p) (p_crash p), [])
  | PSetSvc => Some (MkP PCloseCh (p_new p) (p_conns p) (p_cur p) (p_cur p) (p_chan p) (p_nchan p) (p_closed p) (p_cancel p) (p_crash p), [])
  | PCloseCh =>
    if existsb (Nat.eqb (p_chan p)) (p_closed p) then Some (pset_crash p, [QPanic])
    else Some (MkP PServe false (p_conns p) (p_cur p) (p_svc p) (p_chan p) (p_nchan p) (p_chan p :: p_closed p) (p_cancel p) (p_crash p),
               QUp (p_cur p) :: if p_new p then [QNew true] else [])
  | PMake => Some (MkP PDial (p_new p) (p_conns p) (p_cur p) (p_svc p) (p_nchan p) (S (p_nchan p)) (p_closed p) (p_cancel p) (p_crash p), [QLost (p_cur p)])
  | _ => None
  end.

(** Which events of connection k can happen.  The loop runs on cp.conn and only in
    the select; the user can have any connection that was ever in cp.conn.
    cp/json.go:34-64 *)
Definition pconn_ok (k : nat) (e : event) (p : cpoint) : bool :=
  negb (p_new p) && (k <=? p_cur p)%nat &&
  match e with
  | ELoop => Nat.eqb k (p_cur p) && match p_pc p with PServe | PStop => true | _ => false end
  | EStop => p_cancel p
  | _ => true
  end.
(** What an event of the loop does to the goroutine.
    cp/json.go:36-51 *)
Definition ppc_after (e : event) (c' : conn) (p : ppc) : ppc :=
  match e with
  | ESeeClose => PMake
  | EStop => PStop
  | ELoop => match p, c_loop c' with PStop, LGone => PEnd | _, _ => p end
  | _ => p
  end.
(** An event of connection k, in the loop of cp/json.go:34-64 or elsewhere. *)
Definition pconn (k : nat) (e : event) (p : cpoint) : option (cpoint * list pobs) :=
  match nth_error (p_conns p) k with
  | Some c =>
    if pconn_ok k e p then
      match step CP e c with
      | Some (c', o) =>
        let pc := ppc_after e c' (p_pc p) in
        let p1 := pset_pc pc (pset_conns (upd k c' (p_conns p)) p) in
        Some (if c_crash c' then pset_crash p1 else p1, map (QConn k) o ++ match pc, p_pc p with PEnd, PStop => [QStopped] | _, _ => [] end)
      | None => None
      end
    else None
  | None => None
  end.

(** One step: a dial (cp/json.go:22, 44-47), the goroutine (21-66), a connection, or the API (cp/cp.go:19-27, cp/json.go:68-74). *)
Definition xstep (x : pevent) (p : cpoint) : option (cpoint * list pobs) :=
  if p_crash p then None else
  match x with
  | XDial ok =>
    match p_pc p with
    | PDial =>
      if ok then Some (pset_pc PSetConn (pset_conns (p_conns p ++ [conn0]) p), [QDialed true])
      else if p_new p then Some (pset_pc PFailed p, [QDialed false; QNew false])
      else Some (pset_pc PSleep p, [QDialed false])
    | _ => None
    end
  | XStep => pstep p
  | XConn k e => pconn k e p
  | XSend inh id q =>
    match pconn (p_svc p) (ESend inh id q) p with
    | Some (p', o) => Some (p', QSend (p_svc p) :: o)
    | None => None
    end
  | XCancel => Some (MkP (p_pc p) (p_new p) (p_conns p) (p_cur p) (p_svc p) (p_chan p) (p_nchan p) (p_closed p) true (p_crash p), [QCancelled])
  | XWaitC => if p_new p then None else Some (p, [QWaitC (p_chan p)])
  | XWaitD => if p_new p then None else Some (p, [QWaitD (p_cur p)])
  end.
(** Executions of cp/json.go. *)
Fixpoint xrun (xs : list pevent) (p : cpoint) : option (cpoint * list pobs) :=
  match xs with
  | [] => Some (p, [])
  | x :: r => match xstep x p with
              | Some (p1, o1) => match xrun r p1 with Some (p2, o2) => Some (p2, o1 ++ o2) | None => None end
              | None => None
              end
  end.
(** Executions of cp/json.go: the state and what was seen so far. *)
Inductive xreach : cpoint -> list pobs -> Prop :=
| xreach_0 : xreach cpoint0 []
| xreach_S : forall p tr x p' o, xreach p tr -> xstep x p = Some (p', o) -> xreach p' (tr ++ o).

(** ** Running over SOAP (soap.go:14-28) *)
(** The server goroutine and handleSoap's select; [listen] says whether the port
    could be opened.
    cp/soap.go:22-27 *)
Inductive swait := SWaiting | SReturned (err : bool).
(** The http.Server of cp/soap.go:16-21 and the select of 22-27. *)
Record soapsrv := MkSrv { v_serving : bool; v_ended : bool; v_cancel : bool; v_wait : swait }.
(** cp/soap.go:15-21: the server has been started. *)
Definition soapsrv0 : soapsrv := MkSrv true false false SWaiting.
(** A request (cp/soap.go:32-45), ListenAndServe returning (20), the context being cancelled, and the two cases of the select (23-26). *)
Inductive sevent := TRequest | TEnds | TCancel | TSeeCancel | TSeeEnd.
(** Second component: whether a request was handed to the user's handler.
    cp/soap.go:14-45 *)
Definition srv_step (t : sevent) (v : soapsrv) : option (soapsrv * bool) :=
  match t with
  | TRequest => if v_serving v then Some (v, true) else None                                      (* soap.go:32-45 *)
  | TEnds => if v_serving v then Some (MkSrv false true (v_cancel v) (v_wait v), false) else None (* ListenAndServe returns, soap.go:20 *)
  | TCancel => Some (MkSrv (v_serving v) (v_ended v) true (v_wait v), false)
  | TSeeCancel => match v_cancel v, v_wait v with true, SWaiting => Some (MkSrv (v_serving v) (v_ended v) (v_cancel v) (SReturned false), false) | _, _ => None end
  | TSeeEnd => match v_ended v, v_wait v with true, SWaiting => Some (MkSrv (v_serving v) false (v_cancel v) (SReturned true), false) | _, _ => None end
  end.
(** A run, with the number of requests handed to the handler.
    cp/soap.go:14-45 *)
Fixpoint srv_run (ts : list sevent) (v : soapsrv) : option (soapsrv * nat) :=
  match ts with
  | [] => Some (v, 0)
  | t :: r => match srv_step t v with
              | Some (v1, h) => match srv_run r v1 with Some (v2, n) => Some (v2, (if h then S n else n)) | None => None end
              | None => None
              end
  end.
