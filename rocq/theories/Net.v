(** This library on both ends of one websocket: a central system (cs/cs.go:139-168)
    and a charge point (cp/json.go:34-65), each a connection of Conn.v, joined by
    the two directions of the socket.

    The network is taken to be what TCP and RFC 6455 give: each direction is a
    queue of complete text messages, a message enters the queue when its last byte
    has been accepted by the socket (whether or not WriteMessage then reports
    success), and a reader gets the messages in that order.  Messages still queued
    may be lost: reads may fail at any moment (Conn.EReadErr).  Whatever the
    schedulers of both processes do, nothing else happens.

    Each end calls Send only with its own kind of request, which is what the
    interfaces of internal/service/cp.go:10-12 and cs.go:10-12 allow. *)
From Verif Require Import GoBase Utf8 Json Float64 Lang Types Codec Any Tables Registry Frame Conn.
Open Scope string_scope.
Open Scope list_scope.

(** The two programs: a central system (cs/cs.go) and a charge point (cp/json.go). *)
Inductive side := Central | Point.
(** Whose loop runs at this end: cs/cs.go:139-165 or cp/json.go:34-64. *)
Definition role_of (s : side) : role := match s with Central => CS | Point => CP end.
(** The peer: of cs/cs.go it is cp/json.go, and the other way round. *)
Definition other (s : side) : side := match s with Central => Point | Point => Central end.

(** The ws.Conn (ws/conn.go:28-39) of each end, and the texts on their way in each direction. *)
Record net := MkNet { n_central : conn; n_point : conn; n_to_central : list string; n_to_point : list string }.
(** Both ends have just called newConn (ws/conn.go:41-54). *)
Definition net0 : net := MkNet conn0 conn0 [] [].
(** The ws.Conn of one end (cs/cs.go:102, cp/json.go:22). *)
Definition conn_of (s : side) (n : net) : conn := match s with Central => n_central n | Point => n_point n end.
(** Texts written at the other end (ws/conn.go:274) and not yet read here (176). *)
Definition queue_to (s : side) (n : net) : list string := match s with Central => n_to_central n | Point => n_to_point n end.
(** The ws.Conn of one end changes (ws/conn.go:28-39). *)
Definition set_conn (s : side) (c : conn) (n : net) : net :=
  match s with
  | Central => MkNet c (n_point n) (n_to_central n) (n_to_point n)
  | Point => MkNet (n_central n) c (n_to_central n) (n_to_point n)
  end.
(** The texts on their way to one end change (ws/conn.go:176, 274). *)
Definition set_queue (s : side) (q : list string) (n : net) : net :=
  match s with
  | Central => MkNet (n_central n) (n_point n) q (n_to_point n)
  | Point => MkNet (n_central n) (n_point n) (n_to_central n) q
  end.

(** What is seen: something at one end, or a message of that end enters the network.
    ws/conn.go:274 *)
Inductive nobs := NObs (s : side) (o : obs) | NSent (s : side) (w : who) (t : string).

(** The message that this event completes, if any.
    ws/conn.go:274 *)
Definition finished (e : event) (c : conn) : list (who * string) :=
  match e with
  | EChunk w k =>
    match writing w c with
    | Some (t, String x rest) => match sdrop k (String x rest) with EmptyString => [(w, t)] | _ => [] end
    | _ => []
    end
  | _ => []
  end.

(** The requests that Send accepts at each end (internal/service/cp.go:10-12 and cs.go:10-12) *)
Definition may_send (s : side) (q : msg) : bool :=
  match s with Central => is_cs_request (m_ty q) | Point => is_cp_request (m_ty q) end.

(** What is left of the queue towards [s] if the event may happen there.
    ws/conn.go:176 reads what the other end wrote; internal/service/cp.go:42, cs.go:42 send. *)
Definition allowed (s : side) (e : event) (n : net) : option (list string) :=
  match e with
  | ERead _ text => match queue_to s n with t :: q => if String.eqb t text then Some q else None | [] => None end
  | ESend _ _ q => if may_send s q then Some (queue_to s n) else None
  | _ => Some (queue_to s n)
  end.
(** One step at one end (ws/conn.go, cs/cs.go:139-165, cp/json.go:34-64) with its effect on the network. *)
Definition nstep (s : side) (e : event) (n : net) : option (net * list nobs) :=
  match allowed s e n, step (role_of s) e (conn_of s n) with
  | Some q, Some (c', o) =>
    let out := finished e (conn_of s n) in
    Some (set_queue (other s) (queue_to (other s) n ++ map snd out) (set_queue s q (set_conn s c' n)),
          map (NObs s) o ++ map (fun wt => NSent s (fst wt) (snd wt)) out)
  | _, _ => None
  end.
(** Executions of cs/cs.go:139-165 and cp/json.go:34-64 joined by the network. *)
Fixpoint nrun (es : list (side * event)) (n : net) : option (net * list nobs) :=
  match es with
  | [] => Some (n, [])
  | (s, e) :: r => match nstep s e n with
                   | Some (n1, o1) => match nrun r n1 with Some (n2, o2) => Some (n2, o1 ++ o2) | None => None end
                   | None => None
                   end
  end.
(** Executions of cs/cs.go:139-165 and cp/json.go:34-64 joined by the network: the state and what was seen so far. *)
Inductive nreach : net -> list nobs -> Prop :=
| nreach_0 : nreach net0 []
| nreach_S : forall n tr s e n' o, nreach n tr -> nstep s e n = Some (n', o) -> nreach n' (tr ++ o).
