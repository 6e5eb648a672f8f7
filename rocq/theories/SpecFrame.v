(** Specification vocabulary for OCPP-J frames, independent of the reader's code. *)
From Verif Require Import GoBase Utf8 Json Float64 Codec Any Registry Frame.
Open Scope string_scope.
Open Scope list_scope.

(** The double [x] has the integer value [z] (by arithmetic, not by encoding). *)
Definition f64_is (x : f64) (z : Z) : bool :=
  match x with
  | FFin neg m e =>
    let n := (if neg then - m else m)%Z in
    if (0 <=? e)%Z then (n * 2 ^ e =? z)%Z else (n =? z * 2 ^ (- e))%Z
  | _ => false
  end.

(** What becomes of a received text. *)
Inductive verdict := Crash | Reject | Accept (m : message).

(** A frame of type CALL, CALLRESULT, CALLERROR or another type; [rest] is what
    follows the message id. *)
Definition call_verdict (id : string) (rest : list any) : verdict :=
  match rest with
  | [] => Crash
  | [AStr _] => Crash
  | AStr action :: AObj p :: _ => Accept (MCall id action (AObj p))
  | _ => Reject
  end.
Definition result_verdict (id : string) (rest : list any) : verdict :=
  match rest with
  | [] => Crash
  | AObj p :: _ => Accept (MResult id (PAny (AObj p)))
  | _ => Reject
  end.
Definition error_verdict (id : string) (rest : list any) : verdict :=
  match rest with
  | [] | [AStr _] | [AStr _; AStr _] => Crash
  | AStr c :: AStr d :: AObj p :: _ => Accept (MError id c d (AObj p))
  | _ => Reject
  end.
Definition frame_verdict (l : list any) : verdict :=
  match l with
  | [] => Crash
  | [ANum _] => Crash
  | ANum t :: AStr id :: rest =>
    if f64_is t 2 then call_verdict id rest
    else if f64_is t 3 then result_verdict id rest
    else if f64_is t 4 then error_verdict id rest
    else Crash
  | _ => Reject
  end.

(** The same for the parsed text ([None]: not JSON). *)
Definition text_verdict (j : option json) : verdict :=
  match j with
  | Some JNull => Crash
  | Some (JArr l) => match oall (map to_any l) with
                     | Some xs => frame_verdict xs
                     | None => Reject              (* a number too large for float64 *)
                     end
  | _ => Reject
  end.

Definition verdict_is (r : res message) (v : verdict) : Prop :=
  match v with
  | Crash => r = Panic
  | Reject => exists e, r = Err e
  | Accept m => r = Ok m
  end.

(** Sending a request and what the receiver makes of the text. *)
Definition request_text (id : string) (q : msg) : res string :=
  rbind (unmarshal_request id q) marshal_message.
Definition received_request (s : string) : res (string * (msg + string)) :=
  rbind (read_text s) (fun m =>
  match m with MCall id a p => Ok (id, call_to_request a p) | _ => Err "not a CALL" end).

(** Sending a response to a request with action [a], and what the sender of that
    request makes of the text. *)
Definition response_text (id : string) (q : msg) : res string :=
  marshal_message (response_message id (inl (Some q))).
Definition received_response (a s : string) : res (string * (msg + string)) :=
  rbind (read_text s) (fun m =>
  match m with
  | MResult id (PAny p) => rbind (result_to_response a p) (fun r => Ok (id, r))
  | _ => Err "not a CALLRESULT"
  end).
