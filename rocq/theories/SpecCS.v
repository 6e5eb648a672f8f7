(** What the trace of a central system says, without looking at its state. *)
From Verif Require Import GoBase Conn CentralSystem.
Open Scope string_scope.
Open Scope list_scope.

Definition cpick {A} (f : cobs -> option A) (tr : list cobs) : list A :=
  flat_map (fun o => match f o with Some x => [x] | None => [] end) tr.

(** Connections of charge point [id] that were accepted, and that were cleaned up, in order *)
Definition regs (id : string) : list cobs -> list nat :=
  cpick (fun o => match o with ORegistered k i => if String.eqb id i then Some k else None | _ => None end).
Definition cleans (id : string) : list cobs -> list nat :=
  cpick (fun o => match o with OCleaned k i => if String.eqb id i then Some k else None | _ => None end).
(** [id] is connected: a connection of it was accepted and not yet cleaned up. *)
Definition online (id : string) (tr : list cobs) : Prop := exists k, In k (regs id tr) /\ ~ In k (cleans id tr).
Fixpoint last_of {A} (l : list A) : option A :=
  match l with [] => None | [x] => Some x | _ :: r => last_of r end.
(** The connection of [id] accepted last *)
Definition newest (id : string) (tr : list cobs) : option nat := last_of (regs id tr).

(** Everything that happens on connection k *)
Definition conn_trace (k : nat) : list cobs -> list obs :=
  cpick (fun o => match o with OConn j x => if Nat.eqb k j then Some x else None | _ => None end).
(** The life of connection k as the registry and the listeners see it *)
Definition life (k : nat) : list cobs -> list cobs :=
  cpick (fun o => let me j := if Nat.eqb k j then Some o else None in
    match o with
    | OArrived j _ | OShakeFailed j | ORegistered j _ | OCleaned j _ | OStartOn _ j _ | OStartOff _ j _ => me j
    | _ => None
    end).
(** Listener goroutines started and listener calls made: connected or not, function, id *)
Definition started : list cobs -> list (bool * nat * string) :=
  cpick (fun o => match o with OStartOn f _ id => Some (true, f, id) | OStartOff f _ id => Some (false, f, id) | _ => None end).
Definition called : list cobs -> list (bool * nat * string) :=
  cpick (fun o => match o with OCallOn f id => Some (true, f, id) | OCallOff f id => Some (false, f, id) | _ => None end).

(** What happened to charge point [id], as opposed to others *)
Definition history (id : string) (tr : list cobs) : list cobs :=
  filter (fun o => match o with ORegistered _ i | OCleaned _ i => String.eqb id i | _ => false end) tr.

(** [b] is followed by [o]. *)
Definition at_point (b : list cobs) (o : cobs) (tr : list cobs) : Prop := exists a, tr = b ++ o :: a.

(** Times a listener goroutine was started for [id] *)
Definition ons (id : string) : list cobs -> list nat :=
  cpick (fun o => match o with OStartOn _ k i => if String.eqb id i then Some k else None | _ => None end).
Definition offs (id : string) : list cobs -> list nat :=
  cpick (fun o => match o with OStartOff _ k i => if String.eqb id i then Some k else None | _ => None end).

(** Goroutine k is about to write, or to read, the map of connections: cs.go:109,
    132 under the lock; cs.go:96 without it. *)
Definition writes_conns (s : csys) (k : nat) : Prop := exists x, nth_error (s_ks s) k = Some x /\ (k_pc x = KReg \/ k_pc x = KClean).
Definition reads_conns (s : csys) (k : nat) : Prop := exists x, nth_error (s_ks s) k = Some x /\ k_pc x = KLog.
(** Connection k is past its loop: it was closed. *)
Definition closed_on (k : nat) (tr : list cobs) : Prop := In ODone (conn_trace k tr).
