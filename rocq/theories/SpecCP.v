(** What the trace of a charge point says, without looking at its state. *)
From Verif Require Import GoBase Conn ChargePoint.
Open Scope string_scope.
Open Scope list_scope.

Definition qpick {A} (f : pobs -> option A) (tr : list pobs) : list A :=
  flat_map (fun o => match f o with Some x => [x] | None => [] end) tr.
(** Connections put in place, and noticed to be lost, in order *)
Definition ups : list pobs -> list nat := qpick (fun o => match o with QUp k => Some k | _ => None end).
Definition losts : list pobs -> list nat := qpick (fun o => match o with QLost k => Some k | _ => None end).
(** Outcomes of the dials *)
Definition dials : list pobs -> list bool := qpick (fun o => match o with QDialed b => Some b | _ => None end).
(** Number of dials that succeeded *)
Definition connected (tr : list pobs) : nat := length (filter (fun x => x) (dials tr)).
(** n failed dials in a row *)
Fixpoint failures (n : nat) : list pobs := match n with O => [] | S m => QDialed false :: failures m end.
(** Everything that happens on connection k *)
Definition link (k : nat) : list pobs -> list obs :=
  qpick (fun o => match o with QConn j x => if Nat.eqb k j then Some x else None | _ => None end).
Definition link_closed (k : nat) (tr : list pobs) : Prop := In ODone (link k tr).
(** Connected, as far as the charge point knows: put in place and not noticed to be lost *)
Definition up_now (tr : list pobs) : bool := fold_left (fun u o => match o with QUp _ => true | QLost _ => false | _ => u end) tr false.
Definition follows (b : list pobs) (o : pobs) (tr : list pobs) : Prop := exists a, tr = b ++ o :: a.

(** Characters of an identity that need no care: letters, digits, '-', '_', '~', '.' *)
Definition unreserved (c : ascii) : bool :=
  let n := nat_of_ascii c in
  ((48 <=? n) && (n <=? 57) || (65 <=? n) && (n <=? 90) || (97 <=? n) && (n <=? 122) || (n =? 45) || (n =? 46) || (n =? 95) || (n =? 126))%nat.
Fixpoint all_chars (f : ascii -> bool) (s : string) : bool := match s with EmptyString => true | String c r => f c && all_chars f r end.
(** host[:port] *)
Definition plain_host (h : string) : bool := all_chars (fun c => unreserved c || Ascii.eqb c ":"%char) h.

(** The two names with a meaning in paths *)
Definition dots (s : string) : bool := String.eqb s "." || String.eqb s "..".
