(** What must happen, whatever the schedule. *)
From Verif Require Import GoBase Conn CentralSystem ChargePoint.
Open Scope string_scope.
Open Scope list_scope.

(** A step of the process's own goroutines, none of them the start of a call or of a Close, and no message or error
    from the peer.  A write that moves no byte is not a step. *)
Definition own (e : event) : bool :=
  match e with
  | ESend _ _ _ | ERead _ _ | EReadErr _ _ | EStop | EUserClose => false
  | _ => true
  end.
Definition own_step (ro : role) (c c' : conn) (o : list obs) : Prop := exists e, own e = true /\ step ro e c = Some (c', o) /\ o <> [OBytes ""].
(** Whichever way the steps go, [P] holds after finitely many of them, and until then there is one that can be taken. *)
Inductive inevitably {S O : Type} (next : S -> S -> list O -> Prop) (P : S -> list O -> Prop) (s : S) (tr : list O) : Prop :=
| iv_now : P s tr -> inevitably next P s tr
| iv_later : (exists s' o, next s s' o) -> (forall s' o, next s s' o -> inevitably next P s' (tr ++ o)) -> inevitably next P s tr.

(** The central system's own steps: of its goroutines, connections and listeners; no HTTP request, no handshake, no
    call of its API. *)
Definition cs_own (v : cevent) : bool := match v with VStep _ | VCall _ => true | VConn _ e => own e | _ => false end.
Definition cs_own_step (s s' : csys) (o : list cobs) : Prop := exists v, cs_own v = true /\ cstep v s = Some (s', o) /\ forall k, o <> [OConn k (OBytes "")].
(** The charge point's own steps: of its goroutine, which also notices that it is cancelled, and its connections; no
    dial ends, nobody calls its API. *)
Definition cp_own (x : pevent) : bool := match x with XStep | XConn _ EStop => true | XConn _ e => own e | _ => false end.
Definition cp_own_step (p p' : cpoint) (o : list pobs) : Prop := exists x, cp_own x = true /\ xstep x p = Some (p', o) /\ forall k, o <> [QConn k (OBytes "")].
