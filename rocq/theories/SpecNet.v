(** Specification vocabulary for two connected ends. *)
From Verif Require Import GoBase Utf8 Json Float64 Lang Types Codec Any Tables Registry Frame Conn SpecConn Net.
Open Scope string_scope.
Open Scope list_scope.

(** What one end shows. *)
Definition view (s : side) (tr : list nobs) : list obs :=
  flat_map (fun x => match s, x with
                     | Central, NObs Central o => [o]
                     | Point, NObs Point o => [o]
                     | _, _ => []
                     end) tr.
(** Messages of one end that entered the network, in order. *)
Definition sent_by (s : side) (tr : list nobs) : list (who * string) :=
  flat_map (fun x => match s, x with
                     | Central, NSent Central w t => [(w, t)]
                     | Point, NSent Point w t => [(w, t)]
                     | _, _ => []
                     end) tr.
(** The calls of Send whose request entered the network, in that order. *)
Definition transmitted (s : side) (tr : list nobs) : list nat :=
  flat_map (fun x => match fst x with WS i => [i] | _ => [] end) (sent_by s tr).
(** These things happened, in this order. *)
Fixpoint happened (xs : list nobs) (tr : list nobs) : Prop :=
  match xs with
  | [] => True
  | x :: r => exists a b, tr = a ++ x :: b /\ happened r b
  end.
