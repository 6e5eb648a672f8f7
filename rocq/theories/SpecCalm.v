(** Undisturbed histories of two connected ends, and what must then happen. *)
From Verif Require Import GoBase Registry Frame SpecFrame Conn SpecConn Net.
Open Scope string_scope.
Open Scope list_scope.

(** Nothing goes wrong from outside: no timer fires, no read or write fails, no handler panics, nobody closes or cancels, and no
    handler calls Send on the connection it serves (it would time out, C31). *)
Definition calm (e : event) : bool :=
  match e with
  | ESend inh _ _ => negb inh
  | ETimeout _ | EWFail _ | EReadErr _ _ | EStop | EUserClose | EHPanic => false
  | _ => true
  end.
Inductive calm_reach : net -> list nobs -> Prop :=
| calm_0 : calm_reach net0 []
| calm_S : forall n tr s e n' o, calm_reach n tr -> calm e = true -> nstep s e n = Some (n', o) -> calm_reach n' (tr ++ o).
(** A step of either end, other than the start of a call.  A write that moves no byte is not a step. *)
Definition starts_call (e : event) : bool := match e with ESend _ _ _ => true | _ => false end.
Definition calm_step (n n' : net) (o : list nobs) : Prop :=
  exists s e, calm e = true /\ starts_call e = false /\ nstep s e n = Some (n', o) /\ o <> [NObs s (OBytes "")].
(** What has become of a call: it returned an answer; or it returned because the request has no encoding; or the peer's handler
    returned something no answer can be made of (nil, or a response that has no encoding), and the caller still waits. *)
Definition call_done (tr : list nobs) (s : side) (i : nat) (id : string) (q : msg) : Prop :=
  (exists o, In (NObs s (ORet i o)) tr /\ (answered o = true \/ forall t, request_text id q <> Ok t)) \/
  (exists r, In (NObs (other s) (OReturn id r)) tr /\ (r = inl None \/ In (NObs (other s) (OReply id r NotEncoded)) tr)).
