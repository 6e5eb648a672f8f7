(** OCPP-J frames: ws/message.go and the decoding half of ws/conn.go. *)
From Verif Require Import GoBase Utf8 Json JsonText Float64 Lang Types Codec Any Registry.
Open Scope string_scope.
Open Scope list_scope.

(** ws/message.go:14-18 *)
Definition f64_small (z : Z) : f64 := match f64_of_Z z with Some x => x | None => FNaN end.
(** ws/message.go:10-18: Call = 2. *)
Definition t_call : f64 := f64_small 2.
(** ws/message.go:10-18: CallResult = 3. *)
Definition t_result : f64 := f64_small 3.
(** ws/message.go:10-18: CallError = 4. *)
Definition t_error : f64 := f64_small 4.

(** The Payload of a CallResultMessage (interface{}, ws/message.go:53): a typed
    response when sent, an untyped map when received. *)
Inductive payload : Type :=
| PAny (a : any)
| PMsg (m : msg)
| PNil.

(** ws/message.go:25, 51, 103; ids, actions and codes are strings.  An untyped
    map is an [any]. *)
Inductive message : Type :=
| MCall (id action : string) (p : any)
| MResult (id : string) (p : payload)
| MError (id ecode desc : string) (details : any).

(** Message.ID(), ws/message.go:36, 60, 118. *)
Definition id_of (m : message) : string :=
  match m with MCall i _ _ => i | MResult i _ => i | MError i _ _ _ => i end.

(** json.Marshal of one element of the []interface{}.
    ws/message.go:48, 71, 131 *)
Definition marshal_payload (p : payload) : res string :=
  match p with
  | PAny a => marshal_any a
  | PMsg m => marshal_msg (m_ty m) (m_val m)
  | PNil => Ok "null"
  end.
(** json.Marshal of a MessageType (a float64), ws/message.go:48, 71, 131. *)
Definition marshal_f64 (x : f64) : res string :=
  match fmt_float x with Some s => Ok s | None => Err "json: unsupported value" end.

(** The three MarshalJSON methods (ws/message.go:47, 70, 130): json.Marshal of an
    []interface{}; the outer json.Marshal compacts the result (conn.go:269). *)
Definition marshal_elems (m : message) : list (res string) :=
  match m with
  | MCall id action p => [marshal_f64 t_call; Ok (quote id); Ok (quote action); marshal_any p]
  | MResult id p => [marshal_f64 t_result; Ok (quote id); marshal_payload p]
  | MError id c desc det => [marshal_f64 t_error; Ok (quote id); Ok (quote c); Ok (quote desc); marshal_any det]
  end.
(** CallMessage.MarshalJSON (ws/message.go:47-49), CallResultMessage (70-72), CallErrorMessage (130-132), called at ws/conn.go:269. *)
Definition marshal_message (m : message) : res string :=
  rbind (rmap (fun x => x) (marshal_elems m)) (fun l => compact ("[" +++ join "," l +++ "]")).

(** ws/conn.go:116-165 UnmarshalMessage.  [Ok None] is (nil, nil).  frame[i] on a
    short slice panics.  Error texts are abbreviated. *)
Definition nth_any (l : list any) (i : nat) : res any :=
  match nth_error l i with Some a => Ok a | None => Panic end.
(** x.(string) of ws/conn.go:126, 133, 150, 154. *)
Definition as_str (a : any) (e : string) : res string := match a with AStr s => Ok s | _ => Err e end.
(** x.(float64) of ws/conn.go:122. *)
Definition as_num (a : any) (e : string) : res f64 := match a with ANum x => Ok x | _ => Err e end.
(** x.(map[string]interface{}) of ws/conn.go:138, 144, 158. *)
Definition as_map (a : any) (e : string) : res any := match a with AObj _ => Ok a | _ => Err e end.

(** == on float64 for the three constants (never NaN).
    switch MessageType(msgType), ws/conn.go:131 *)
Definition f64_eqb (a b : f64) : bool :=
  match a, b with
  | FFin n1 m1 e1, FFin n2 m2 e2 => Bool.eqb n1 n2 && Z.eqb m1 m2 && Z.eqb e1 e2
  | _, _ => false
  end.

(** json.Unmarshal into []interface{}, ws/conn.go:117-121. *)
Definition frame_of (s : string) : res (list any) :=
  match parse s with
  | Some JNull => Ok []          (* nil slice, no error *)
  | Some (JArr l) => match oall (map to_any l) with
                     | Some xs => Ok xs
                     | None => Err "on unmarshalling websocket message"
                     end
  | _ => Err "on unmarshalling websocket message"
  end.

(** UnmarshalMessage, ws/conn.go:116-165. *)
Definition unmarshal_message (s : string) : res (option message) :=
  rbind (frame_of s) (fun fr =>
  rbind (nth_any fr 0) (fun a0 => rbind (as_num a0 "first field is not a message type") (fun ty =>
  rbind (nth_any fr 1) (fun a1 => rbind (as_str a1 "second field is not a message ID") (fun id =>
  if f64_eqb ty t_call then
    rbind (nth_any fr 2) (fun a2 => rbind (as_str a2 "third field is not action") (fun action =>
    rbind (nth_any fr 3) (fun a3 => rbind (as_map a3 "fourth field is not payload") (fun p =>
    Ok (Some (MCall id action p))))))
  else if f64_eqb ty t_result then
    rbind (nth_any fr 2) (fun a2 => rbind (as_map a2 "third field is not payload") (fun p =>
    Ok (Some (MResult id (PAny p)))))
  else if f64_eqb ty t_error then
    rbind (nth_any fr 2) (fun a2 => rbind (as_str a2 "third field is not error code") (fun c =>
    rbind (nth_any fr 3) (fun a3 => rbind (as_str a3 "fourth field is not error description") (fun desc =>
    rbind (nth_any fr 4) (fun a4 => rbind (as_map a4 "fifth field is not error details") (fun det =>
    Ok (Some (MError id c desc det))))))))
  else Ok None))))).

(** ws/conn.go:175-190, the part of ReadMessage that depends on the text alone:
    trimming, decoding, and msg.Type() on the result, which panics on nil. *)
Definition read_text (s : string) : res message :=
  rbind (unmarshal_message (normalise s)) (fun o =>
  match o with Some m => Ok m | None => Panic end).

(** Error codes used by the library (ws/message.go:74-97) *)
Definition NotSupported := "NotSupported".
(** ws/message.go:74-101. *)
Definition InternalError := "InternalError".
(** ws/message.go:74-101. *)
Definition FormationViolation := "FormationViolation".
(** ws/message.go:74-101. *)
Definition GenericError := "GenericError".

(** ws/message.go:114 NewCallErrorMessage *)
Definition new_call_error (id c desc : string) : message := MError id c desc (AObj []).

(** ws/message.go:134-139 unmarshalResponse; the error is given by its text. *)
Definition response_message (id : string) (r : option msg + string) : message :=
  match r with
  | inr e => new_call_error id InternalError e
  | inl (Some m) => MResult id (PMsg m)
  | inl None => MResult id PNil
  end.

(** ws/message.go:141-152 UnmarshalRequest.  Decoding into map[string]interface{}
    of the text of a struct always gives an object. *)
Definition unmarshal_request (id : string) (q : msg) : res message :=
  rbind (marshal_msg (m_ty q) (m_val q)) (fun text =>
  match unmarshal_any text with
  | Some (AObj m) =>
    match action_of (m_ty q) with
    | Some a => Ok (MCall id a (AObj m))
    | None => Panic
    end
  | Some ANull => match action_of (m_ty q) with Some a => Ok (MCall id a ANull) | None => Panic end
  | _ => Err "json: cannot unmarshal"
  end).

(** ws/conn.go:226-240 callToRequest: a request or an error code. *)
Definition call_to_request (action : string) (p : any) : msg + string :=
  match req_from_action action with
  | None => inr NotSupported
  | Some ty =>
    match marshal_any p with
    | Ok text => match unmarshal_msg ty text with
                 | Some v => inl (MkMsg ty v)
                 | None => inr FormationViolation
                 end
    | _ => inr GenericError
    end
  end.

(** ws/conn.go:242-261 callResultToResponse for a result whose id belongs to a
    call with the given action; FromActionName(...) = nil makes GetResponse()
    panic. *)
Definition result_to_response (action : string) (p : any) : res (msg + string) :=
  match req_from_action action with
  | None => Panic
  | Some ty =>
    match response_of ty with
    | None => Panic
    | Some rty =>
      match marshal_any p with
      | Ok text => match unmarshal_msg rty text with
                   | Some v => Ok (inl (MkMsg rty v))
                   | None => Ok (inr FormationViolation)
                   end
      | _ => Ok (inr GenericError)
      end
    end
  end.

Example frame_ex1 : marshal_message (MCall "7" "Heartbeat" (AObj [])) = Ok "[2,""7"",""Heartbeat"",{}]".
Proof. vm_compute. reflexivity. Qed.
(** A raw newline inside a string is not JSON, but is replaced before parsing. *)
Example frame_ex2 : read_text "[4.0, ""a
b"" , ""c"", ""d"", {}, 17]" = Ok (MError "a b" "c" "d" (AObj [])).
Proof. vm_compute. reflexivity. Qed.
Example frame_ex3 : read_text " [4.0, ""ab"" , ""c"", ""d"", {}, 17] " = Ok (MError "ab" "c" "d" (AObj [])).
Proof. vm_compute. reflexivity. Qed.
