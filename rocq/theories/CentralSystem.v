(** The central system: cs/cs.go, with one connection machine (Conn.v) per
    accepted websocket.

    Goroutines: one per HTTP request (net/http), the listener goroutines started
    with [go], and the user's calls of the API.  Everything between
    connMux.Lock() and Unlock() is one step; [s_mux] is kept so that unlocked
    accesses to the maps can be seen to overlap with it.

    Not modelled: the SOAP branch (Soap.v), ports and listening sockets, log
    output, a handler that panics.  The outcome of the websocket handshake is the
    environment's choice. *)
From Verif Require Import GoBase Utf8 Json Float64 Lang Types Codec Any Tables Registry Frame Conn.
Open Scope string_scope.
Open Scope list_scope.

(** handleWebsocket (cs.go:95-166): what the goroutine does next. *)
Inductive kpc :=
| KLog       (* 96: reads csys.conns for the log, without the lock (if a debug logger is set; internal/log has a nil logger by default) *)
| KShake     (* 102 ws.Handshake *)
| KLock1     (* 108 connMux.Lock() *)
| KReg       (* 109-118, holding the lock *)
| KListen    (* 121 go connListener(cpID) *)
| KServe     (* 139-165 the loop, then conn.Close() at 124 *)
| KDisc      (* 126 go disconnListener(cpID) *)
| KLock2     (* 127 connMux.Lock() *)
| KClean     (* 128-136, holding the lock *)
| KEnd
| KFailed.   (* 103-106 *)

(** One call of handleWebsocket, cs/cs.go:95-166: charge point id (97), where it is, its ws.Conn (102). *)
Record csconn := MkK { k_id : string; k_pc : kpc; k_conn : conn }.

(** centralSystem, cs/cs.go:49-58, with the goroutines of its HTTP server and its listeners. *)
Record csys := MkS {
  s_conns : list (string * nat);       (* conns: id to connection number *)
  s_chans : list (string * nat);       (* connChans: id to channel number *)
  s_connected : list (string * bool);  (* connsConnected *)
  s_count : list (string * Z);         (* connsCount *)
  s_mux : option nat;                  (* connMux, and the connection whose goroutine holds it *)
  s_nchan : nat;                       (* channels made so far *)
  s_closed : list nat;                 (* channels closed *)
  s_on : nat;                          (* connListener: the function set last *)
  s_off : nat;                         (* disconnListener *)
  s_ks : list csconn;
  s_goes : list (bool * nat * string); (* listener goroutines not yet run: on/off, function, id *)
  s_crash : bool }.

(** New (cs.go:60-69) *)
Definition csys0 : csys := MkS [] [] [] [] None 0 [] 0 0 [] [] false.

(** service.ChargePoint values, as far as GetServiceOf decides.
    internal/service/cp.go:10-52: over a websocket connection (cs/cs.go:200) or over SOAP to a URL (187-191). *)
Inductive service := SvcJSON (k : nat) | SvcSOAP (url id : string).

(** What the API of cs/cs.go:30-47 and the HTTP clients of 71-93 can see. *)
Inductive cobs :=
| OArrived (k : nat) (id : string)          (* an upgrade request, given this number *)
| OShakeFailed (k : nat)
| ORegistered (k : nat) (id : string)
| OCleaned (k : nat) (id : string)
| OStartOn (f k : nat) (id : string)        (* go connListener *)
| OStartOff (f k : nat) (id : string)       (* go disconnListener *)
| OCallOn (f : nat) (id : string)           (* that goroutine calls the function *)
| OCallOff (f : nat) (id : string)
| OConn (k : nat) (o : obs)                 (* something happens on connection k *)
| OPage (n : nat)                           (* the information page *)
| OSoap                                     (* passed on to handleSoap *)
| OService (id : string) (v url : string) (r : service + string)
| OWaitC (id : string) (ch : nat)           (* WaitConnect returns this channel *)
| OWaitD (id : string) (r : option nat)     (* WaitDisconnect returns: None, a closed channel;
                                               Some k, the close channel of connection k *)
| OPanic.                                   (* close of a closed channel *)

(** A step of cs/cs.go:71-234 or a call of its API (30-47). *)
Inductive cevent :=
| VHttp (upgrade : bool) (meth path : string)
| VStep (k : nat)
| VShake (k : nat) (ok : bool)
| VConn (k : nat) (e : event)
| VService (id v url : string)
| VWaitConnect (id : string)
| VWaitDisconnect (id : string)
| VSetOn (f : nat)
| VSetOff (f : nat)
| VCall (j : nat).

(** strings.TrimPrefix(s, "/").
    cs/cs.go:97 *)
Definition trim_slash (s : string) : string :=
  match s with String "/"%char r => r | _ => s end.

(** Run's HTTP handler (cs.go:72-90): which branch. *)
Inductive branch := BWebsocket | BPage | BSoap.
(** cs/cs.go:73-88. *)
Definition dispatch (upgrade : bool) (meth : string) : branch :=
  if upgrade then BWebsocket else if String.eqb meth "GET" then BPage else BSoap.

(** The goroutines of cs/cs.go:95. *)
Definition set_ks x s := MkS (s_conns s) (s_chans s) (s_connected s) (s_count s) (s_mux s) (s_nchan s) (s_closed s) (s_on s) (s_off s) x (s_goes s) (s_crash s).
(** Goroutine k of cs/cs.go:95-166 moves on to p. *)
Definition set_kpc (k : nat) (x : csconn) (p : kpc) (s : csys) : csys := set_ks (upd k (MkK (k_id x) p (k_conn x)) (s_ks s)) s.
(** connMux, cs/cs.go:55. *)
Definition set_mux m s := MkS (s_conns s) (s_chans s) (s_connected s) (s_count s) m (s_nchan s) (s_closed s) (s_on s) (s_off s) (s_ks s) (s_goes s) (s_crash s).
(** The goroutines started at cs/cs.go:121 and 126. *)
Definition set_goes g s := MkS (s_conns s) (s_chans s) (s_connected s) (s_count s) (s_mux s) (s_nchan s) (s_closed s) (s_on s) (s_off s) (s_ks s) g (s_crash s).
(** A panic: cs/cs.go:115 on a closed channel, or a crash in a goroutine of ws/conn.go:169. *)
Definition set_dead s := MkS (s_conns s) (s_chans s) (s_connected s) (s_count s) (s_mux s) (s_nchan s) (s_closed s) (s_on s) (s_off s) (s_ks s) (s_goes s) true.

(** Reading connsCount, cs/cs.go:110, 128; a missing key is 0. *)
Definition get_count (id : string) (s : csys) : Z := match lookup id (s_count s) with Some n => n | None => 0%Z end.
(** Reading connsConnected, cs/cs.go:114; a missing key is false. *)
Definition get_connected (id : string) (s : csys) : bool := match lookup id (s_connected s) with Some b => b | None => false end.
(** Is the channel closed (cs/cs.go:115)? *)
Definition is_closed (ch : nat) (s : csys) : bool := existsb (Nat.eqb ch) (s_closed s).

(** cs.go:109-118 *)
Definition do_register (k : nat) (x : csconn) (s : csys) : csys * list cobs :=
  let id := k_id x in
  let '(chans, ch, n) := match lookup id (s_chans s) with
                         | Some ch => (s_chans s, ch, s_nchan s)
                         | None => (mput id (s_nchan s) (s_chans s), s_nchan s, S (s_nchan s))
                         end in
  let ks := upd k (MkK id KListen (k_conn x)) (s_ks s) in
  if negb (get_connected id s) && is_closed ch s then (set_dead s, [OPanic])
  else
    (MkS (mput id k (s_conns s)) chans (mput id true (s_connected s)) (mput id (get_count id s + 1)%Z (s_count s)) None n
       (if get_connected id s then s_closed s else ch :: s_closed s) (s_on s) (s_off s) ks (s_goes s) (s_crash s),
     [ORegistered k id]).

(** cs.go:128-136 *)
Definition do_clean (k : nat) (x : csconn) (s : csys) : csys * list cobs :=
  let id := k_id x in
  let n := (get_count id s - 1)%Z in
  let ks := upd k (MkK id KEnd (k_conn x)) (s_ks s) in
  if (n =? 0)%Z then
    (MkS (mdel id (s_conns s)) (mput id (s_nchan s) (s_chans s)) (mput id false (s_connected s)) (mput id n (s_count s)) None (S (s_nchan s))
       (s_closed s) (s_on s) (s_off s) ks (s_goes s) (s_crash s), [OCleaned k id])
  else
    (MkS (s_conns s) (s_chans s) (s_connected s) (mput id n (s_count s)) None (s_nchan s)
       (s_closed s) (s_on s) (s_off s) ks (s_goes s) (s_crash s), [OCleaned k id]).

(** One step of connection k's goroutine other than the handshake and the loop (cs.go:95-137) *)
Definition kstep (k : nat) (x : csconn) (s : csys) : option (csys * list cobs) :=
  match k_pc x with
  | KLog => Some (set_kpc k x KShake s, [])
  | KLock1 => match s_mux s with None => Some (set_kpc k x KReg (set_mux (Some k) s), []) | Some _ => None end
  | KReg => Some (do_register k x s)
  | KListen => Some (set_kpc k x KServe (set_goes (s_goes s ++ [(true, s_on s, k_id x)]) s), [OStartOn (s_on s) k (k_id x)])
  | KServe => match c_loop (k_conn x) with LGone => Some (set_kpc k x KDisc s, []) | _ => None end
  | KDisc => Some (set_kpc k x KLock2 (set_goes (s_goes s ++ [(false, s_off s, k_id x)]) s), [OStartOff (s_off s) k (k_id x)])
  | KLock2 => match s_mux s with None => Some (set_kpc k x KClean (set_mux (Some k) s), []) | Some _ => None end
  | KClean => Some (do_clean k x s)
  | _ => None
  end.

(** Events of connection k that can happen: after it was registered anybody can
    get a service on it and send; the loop runs only in [KServe]; nobody but the
    library holds the connection itself, so nobody else closes it.
    cs/cs.go:108-165, 200 *)
Definition conn_event_ok (p : kpc) (e : event) : bool :=
  match p with KLog | KShake | KLock1 | KReg | KFailed => false
  | _ => match e with
         | EUserClose | EUserCancel => false
         | ELoop => match p with KServe => true | _ => false end
         | _ => true
         end
  end.

(** ocpp.V15 (ocpp.go), cs/cs.go:186. *)
Definition V15 := "V15".
(** ocpp.V16 (ocpp.go), cs/cs.go:193. *)
Definition V16 := "V16".
(** GetServiceOf (cs.go:185-203) *)
Definition get_service (id v url : string) (s : csys) : service + string :=
  if String.eqb v V15 then inl (SvcSOAP url id)
  else if String.eqb v V16 then
    match lookup id (s_conns s) with
    | None => inr "no connection to this charge point"
    | Some k => inl (SvcJSON k)
    end
  else inr "charge point has no configured OCPP version(1.5/1.6)".

(** Remove a started goroutine (cs/cs.go:121, 126) from the list. *)
Fixpoint drop_nth {A} (j : nat) (l : list A) : list A :=
  match l, j with [], _ => [] | _ :: r, O => r | x :: r, S i => x :: drop_nth i r end.

(** One step: an HTTP request (71-90), a goroutine of handleWebsocket (95-166), an
    API call (185-234), a listener goroutine.
    cs/cs.go:71-234. *)
Definition cstep (v : cevent) (s : csys) : option (csys * list cobs) :=
  if s_crash s then None else
  match v with
  | VHttp up meth path =>
    match dispatch up meth with
    | BWebsocket => let id := trim_slash path in
                    Some (set_ks (s_ks s ++ [MkK id KLog conn0]) s, [OArrived (length (s_ks s)) id])
    | BPage => Some (s, [OPage (length (s_conns s))])
    | BSoap => Some (s, [OSoap])
    end
  | VStep k => match nth_error (s_ks s) k with Some x => kstep k x s | None => None end
  | VShake k ok =>
    match nth_error (s_ks s) k with
    | Some x => match k_pc x with
                | KShake => if ok then Some (set_kpc k x KLock1 s, []) else Some (set_kpc k x KFailed s, [OShakeFailed k])
                | _ => None
                end
    | None => None
    end
  | VConn k e =>
    match nth_error (s_ks s) k with
    | Some x =>
      if conn_event_ok (k_pc x) e then
        match step CS e (k_conn x) with
        | Some (c', o) =>
          let s1 := set_ks (upd k (MkK (k_id x) (k_pc x) c') (s_ks s)) s in
          Some (if c_crash c' then set_dead s1 else s1, map (OConn k) o)
        | None => None
        end
      else None
    | None => None
    end
  | VService id v url =>
    match String.eqb v V16, s_mux s with
    | true, Some _ => None
    | _, _ => Some (s, [OService id v url (get_service id v url s)])
    end
  | VWaitConnect id =>
    match s_mux s with
    | Some _ => None
    | None => match lookup id (s_chans s) with
              | Some ch => Some (s, [OWaitC id ch])
              | None => Some (MkS (s_conns s) (mput id (s_nchan s) (s_chans s)) (s_connected s) (s_count s) (s_mux s) (S (s_nchan s)) (s_closed s) (s_on s) (s_off s) (s_ks s) (s_goes s) (s_crash s),
                              [OWaitC id (s_nchan s)])
              end
    end
  | VWaitDisconnect id =>
    match s_mux s with
    | Some _ => None
    | None => Some (s, [OWaitD id (lookup id (s_conns s))])
    end
  | VSetOn f => Some (MkS (s_conns s) (s_chans s) (s_connected s) (s_count s) (s_mux s) (s_nchan s) (s_closed s) f (s_off s) (s_ks s) (s_goes s) (s_crash s), [])
  | VSetOff f => Some (MkS (s_conns s) (s_chans s) (s_connected s) (s_count s) (s_mux s) (s_nchan s) (s_closed s) (s_on s) f (s_ks s) (s_goes s) (s_crash s), [])
  | VCall j =>
    match nth_error (s_goes s) j with
    | Some (on, f, id) => Some (set_goes (drop_nth j (s_goes s)) s, [if on then OCallOn f id else OCallOff f id])
    | None => None
    end
  end.

(** Executions of cs/cs.go. *)
Fixpoint crun (vs : list cevent) (s : csys) : option (csys * list cobs) :=
  match vs with
  | [] => Some (s, [])
  | v :: r => match cstep v s with
              | Some (s1, o1) => match crun r s1 with Some (s2, o2) => Some (s2, o1 ++ o2) | None => None end
              | None => None
              end
  end.

(** Executions of cs/cs.go: the state and what was seen so far. *)
Inductive creach : csys -> list cobs -> Prop :=
| creach_0 : creach csys0 []
| creach_S : forall s tr v s' o, creach s tr -> cstep v s = Some (s', o) -> creach s' (tr ++ o).
