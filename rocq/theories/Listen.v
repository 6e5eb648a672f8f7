(** Listeners of the central system at work: CentralSystem.v shows the call of a listener, here it also runs, calls the API, returns or panics. *)
From Verif Require Import GoBase Utf8 Json Float64 Lang Types Codec Any Tables Registry Frame Conn CentralSystem.
Open Scope string_scope.
Open Scope list_scope.

(** The central system, the listeners that were called and have not come back (connection listener or not, which function, id), and whether one
    has panicked: nothing recovers a panic in a goroutine of [go csys.connListener(cpID)], the process ends.
    cs/cs.go:121, 126 *)
Record lsys := MkL { l_cs : csys; l_running : list (bool * nat * string); l_dead : bool }.
(** cs/cs.go:60-69 New *)
Definition lsys0 : lsys := MkL csys0 [] false.

(** A step of the process, or of the i-th running listener: it calls the API (cs/cs.go:30-47), returns, panics.
    cs/cs.go:121, 126 *)
Inductive levent := LStep (v : cevent) | LApi (i : nat) (v : cevent) | LReturn (i : nat) | LPanic (i : nat).
(** What is seen; for listeners: whether it is the connection listener, which function, the id.
    cs/cs.go:121, 126 *)
Inductive lobs := LSeen (o : cobs) | LReturned (on : bool) (f : nat) (id : string) | LPanicked (on : bool) (f : nat) (id : string).

(** The methods of the interface, cs/cs.go:30-47, without Run. *)
Definition of_api (v : cevent) : bool :=
  match v with VService _ _ _ | VWaitConnect _ | VWaitDisconnect _ | VSetOn _ | VSetOff _ => true | _ => false end.
(** The listener that the goroutine about to run calls, cs/cs.go:121, 126. *)
Definition begun (v : cevent) (s : csys) : list (bool * nat * string) :=
  match v with VCall j => match nth_error (s_goes s) j with Some l => [l] | None => [] end | _ => [] end.

(** cs/cs.go:71-234 and the listeners. *)
Definition lstep (e : levent) (s : lsys) : option (lsys * list lobs) :=
  if l_dead s then None else
  match e with
  | LStep v =>
    match cstep v (l_cs s) with
    | Some (c, o) => Some (MkL c (l_running s ++ begun v (l_cs s)) false, map LSeen o)
    | None => None
    end
  | LApi i v =>
    match nth_error (l_running s) i, of_api v, cstep v (l_cs s) with
    | Some _, true, Some (c, o) => Some (MkL c (l_running s) false, map LSeen o)
    | _, _, _ => None
    end
  | LReturn i =>
    match nth_error (l_running s) i with
    | Some (on, f, id) => Some (MkL (l_cs s) (drop_nth i (l_running s)) false, [LReturned on f id])
    | None => None
    end
  | LPanic i =>
    match nth_error (l_running s) i with
    | Some (on, f, id) => Some (MkL (l_cs s) (drop_nth i (l_running s)) true, [LPanicked on f id])
    | None => None
    end
  end.

(** Executions of cs/cs.go with its listeners. *)
Fixpoint lrun (es : list levent) (s : lsys) : option (lsys * list lobs) :=
  match es with
  | [] => Some (s, [])
  | e :: r => match lstep e s with
              | Some (s1, o1) => match lrun r s1 with Some (s2, o2) => Some (s2, o1 ++ o2) | None => None end
              | None => None
              end
  end.
(** Executions of cs/cs.go with its listeners: the state and what was seen so far. *)
Inductive lreach : lsys -> list lobs -> Prop :=
| lreach_0 : lreach lsys0 []
| lreach_S s tr e s' o : lreach s tr -> lstep e s = Some (s', o) -> lreach s' (tr ++ o).
