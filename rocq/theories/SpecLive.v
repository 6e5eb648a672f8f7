(** What a process can do without help: the steps of its own goroutines, given
    that a socket write ends, timers fire and handlers return.  No message
    arrives, nobody starts a call, nobody closes anything. *)
From Verif Require Import GoBase Conn CentralSystem ChargePoint.
Open Scope list_scope.

Definition unaided (e : event) : bool :=
  match e with
  | EStep _ | ETimeout _ | EChunk _ _ | EWritten _ | EWFail _ | ELoop | EReturn _ => true
  | _ => false
  end.
(** The central system: also its connection goroutines, and noticing that a connection has closed. *)
Definition cs_unaided (v : cevent) : bool :=
  match v with VStep _ | VConn _ ESeeClose => true | VConn _ e => unaided e | _ => false end.
(** The charge point: also its goroutine, and noticing that the connection has closed or that it is cancelled. *)
Definition cp_unaided (x : pevent) : bool :=
  match x with XStep | XConn _ ESeeClose | XConn _ EStop => true | XConn _ e => unaided e | _ => false end.
(** Neither the socket nor the ending of the connection is worse than before. *)
Definition no_worse (c c' : conn) : Prop :=
  c_crash c' = c_crash c /\ c_closed c' = c_closed c /\ c_done c' = c_done c /\ (c_closed c = false -> c_wbroken c' = c_wbroken c).
