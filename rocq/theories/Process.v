(** One process that uses the library: calls of Run of any number of central systems (cs/cs.go:71-93) and SOAP charge points (cp/cp.go:58-64,
    cp/soap.go:14-28), with what they share: the default ServeMux of net/http and the ports.

    Modelled of net/http: HandleFunc panics if the pattern is registered already; ListenAndServe fails if the address cannot be listened on
    (always if a listener of this process has it), and otherwise serves until the listener fails; a server with no handler of its own asks the
    default ServeMux.  Which other addresses are free is the environment's choice.  Requests to paths that the ServeMux redirects: see ChargePoint.v. *)
From Verif Require Import GoBase.
Open Scope string_scope.
Open Scope list_scope.

(** Who answers at an address: the default ServeMux, for a Run (cs/cs.go:92, handler nil), or the handler of a SOAP charge point (cp/soap.go:16). *)
Inductive server := SDefault (run : nat) | SPoint (j : nat).
(** The process: the system whose handler is at "/" of the default ServeMux (cs/cs.go:72), the listeners with their addresses (cs/cs.go:92,
    cp/soap.go:20), the charge points whose goroutine has still to listen (cp/cp.go:63), with their addresses. *)
Record proc := MkProc { p_mux : option nat; p_open : list (string * server); p_new : list (nat * string) }.
(** A process starts: nothing is registered (net/http DefaultServeMux; cs/cs.go:72). *)
Definition proc0 : proc := MkProc None [] [].

(** What can happen: Run of system i is called (cs/cs.go:71); New of SOAP charge point j is called (cp/cp.go:42); its goroutine listens
    (cp/soap.go:20); a request comes in (cs/cs.go:72, cp/soap.go:32); a listener fails (cs/cs.go:92, cp/soap.go:20). *)
Inductive gevent := GRun (i : nat) (port : string) (free : bool) | GNew (j : nat) (port : option string) | GListen (j : nat) (free : bool) | GRequest (port : string) | GFail (port : string).
(** What is seen: Run panics, returns an error, begins to serve; New returns (with an error or not); a request is handled by central system i or by
    charge point j (cs/cs.go:71-92, cp/cp.go:60-65, cp/soap.go:20-27). *)
Inductive gobs := ORun (i : nat) | ORunPanic (i : nat) | ORunErr (i : nat) | OServing (i : nat) (port : string) | ONew (j : nat) (ok : bool) | OAtCentral (port : string) (i : nat) | OAtPoint (port : string) (j : nat).

(** The listener at an address (net.Listen in cs/cs.go:92, cp/soap.go:20). *)
Fixpoint at_port (port : string) (l : list (string * server)) : option server :=
  match l with [] => None | (q, s) :: r => if String.eqb port q then Some s else at_port port r end.
(** The listener is gone (cs/cs.go:92, cp/soap.go:20). *)
Definition close_port (port : string) (l : list (string * server)) : list (string * server) := filter (fun qs => negb (String.eqb port (fst qs))) l.
(** Can it be listened on (net.Listen in cs/cs.go:92, cp/soap.go:20)? *)
Definition can_listen (port : string) (free : bool) (p : proc) : bool := match at_port port (p_open p) with Some _ => false | None => free end.
(** The address that charge point j was given, if its goroutine has not listened yet (cp/cp.go:63). *)
Fixpoint to_listen (j : nat) (l : list (nat * string)) : option string :=
  match l with [] => None | (k, q) :: r => if Nat.eqb j k then Some q else to_listen j r end.

(** One step of a process: cs/cs.go:71-93, cp/cp.go:58-64, cp/soap.go:14-45. *)
Definition gstep (e : gevent) (p : proc) : option (proc * list gobs) :=
  match e with
  | GRun i port free =>
    match p_mux p with
    | Some _ => Some (p, [ORun i; ORunPanic i])
    | None => if can_listen port free p then Some (MkProc (Some i) ((port, SDefault i) :: p_open p) (p_new p), [ORun i; OServing i port])
              else Some (MkProc (Some i) (p_open p) (p_new p), [ORun i; ORunErr i])
    end
  | GNew j port =>
    match port with
    | None => Some (p, [ONew j false])
    | Some q => match to_listen j (p_new p) with
                | Some _ => None
                | None => Some (MkProc (p_mux p) (p_open p) ((j, q) :: p_new p), [ONew j true])
                end
    end
  | GListen j free =>
    match to_listen j (p_new p) with
    | None => None
    | Some q => let l := filter (fun kq => negb (Nat.eqb j (fst kq))) (p_new p) in
                Some (MkProc (p_mux p) (if can_listen q free p then (q, SPoint j) :: p_open p else p_open p) l, [])
    end
  | GRequest port =>
    match at_port port (p_open p) with
    | None => None
    | Some (SPoint j) => Some (p, [OAtPoint port j])
    | Some (SDefault _) => match p_mux p with Some i => Some (p, [OAtCentral port i]) | None => None end
    end
  | GFail port =>
    match at_port port (p_open p) with
    | None => None
    | Some s => Some (MkProc (p_mux p) (close_port port (p_open p)) (p_new p), match s with SDefault i => [ORunErr i] | SPoint _ => [] end)
    end
  end.
(** Executions of one process (cs/cs.go, cp/cp.go). *)
Inductive greach : proc -> list gobs -> Prop :=
| greach_0 : greach proc0 []
| greach_S : forall p tr e p' o, greach p tr -> gstep e p = Some (p', o) -> greach p' (tr ++ o).
(** Executions of one process, by events (cs/cs.go, cp/cp.go). *)
Fixpoint grun (es : list gevent) (p : proc) : option (proc * list gobs) :=
  match es with
  | [] => Some (p, [])
  | e :: r => match gstep e p with Some (p1, o1) => match grun r p1 with Some (p2, o2) => Some (p2, o1 ++ o2) | None => None end | None => None end
  end.
