(** What the trace of a whole system says, without looking at its state. *)
From Verif Require Import GoBase Conn CentralSystem ChargePoint Net System.
Open Scope string_scope.
Open Scope list_scope.

(** What the central system shows, and what charge point j shows *)
Definition central (tr : list yobs) : list cobs := flat_map (fun x => match x with AtCentral o => [o] | _ => [] end) tr.
Definition at_charge_point (j : nat) (tr : list yobs) : list pobs :=
  flat_map (fun x => match x with AtPoint j' o => if Nat.eqb j j' then [o] else [] | _ => [] end) tr.
(** These things happened, in this order. *)
Fixpoint in_turn (xs : list yobs) (tr : list yobs) : Prop :=
  match xs with
  | [] => True
  | x :: r => exists a b, tr = a ++ x :: b /\ in_turn r b
  end.
(** Charge point j of the configuration is known to the central system as [id] *)
Definition known_as (cfg : list (string * string)) (j : nat) (id : string) : Prop :=
  exists c, nth_error cfg j = Some c /\ identity_seen (fst c) (snd c) = Some id.
(** Connection k of the central system was made by one of the charge points, by charge point j *)
Definition ours (k : nat) (tr : list yobs) : Prop := exists j, In (Asked k j) tr.
(** Something seen at one end of connection k of the central system, which is connection i of charge point j *)
Definition seen (k j i : nat) (s : side) (o : obs) : yobs :=
  match s with Central => AtCentral (OConn k o) | Point => AtPoint j (QConn i o) end.
