(** The SOAP transport: soap/marshal.go, soap/server.go, soap/client.go,
    soap/models.go, internal/service/soap.go, and the closures around it in
    cs/cs.go:handleSoap and cp/soap.go:ServeHTTP.  Documents are the trees of
    Xml.v; a body that is not well-formed XML is [None]. *)
From Verif Require Import GoBase Lang Types Codec Tables Registry Xml.
Open Scope string_scope.
Open Scope list_scope.

(** ** Received envelopes (soap/models.go:11-53) *)

(** [e_header]: chargeBoxIdentity of the header, if there is a header (the other
    header fields are never used); [e_fault]: the text of Reason>Text.
    soap/models.go:11-53 *)
Record envelope := MkE { e_header : option string; e_content : option msg; e_fault : option string }.

(** Text of a string field (soap/models.go:17-46) read from an element, encoding/xml read.go. *)
Definition elem_text (k : xml) : string := match k with XE _ _ _ ks => text_of ks | XT s => s end.

(** A string field named [nm] of a struct decoded from [kids]: the last such
    child wins.
    encoding/xml read.go, for the fields of soap/models.go:17-46. *)
Definition last_text (nm : string) (kids : list xml) (cur : string) : string :=
  fold_left (fun cur k => match k with
                          | XE _ l _ ks => if String.eqb l nm then text_of ks else cur
                          | XT _ => cur
                          end) kids cur.

(** soap/models.go:39-53 receivedFault decoded into a fresh value: Reason is a
    struct, so several of them are merged. *)
Definition fault_text (kids : list xml) : string :=
  fold_left (fun cur k => match k with
                          | XE _ l _ ks => if String.eqb l "Reason" then last_text "Text" ks cur else cur
                          | XT _ => cur
                          end) kids "".

(** soap/marshal.go:32-171 receivedBody.UnmarshalXML: children in order; character
    data is ignored; the last message and the last fault win. *)
Fixpoint dec_body (kids : list xml) (e : envelope) : option envelope :=
  match kids with
  | [] => Some e
  | XT _ :: r => dec_body r e
  | XE ns nm attrs ks as k :: r =>
    if String.eqb nm "Fault" then dec_body r (MkE (e_header e) (e_content e) (Some (fault_text ks)))
    else match lookup nm soap_names with
         | None => None                      (* not implemented unmarshal for this OCPP message *)
         | Some ty =>
           match xdec k (TStruct ty) (zero (TStruct ty)) with
           | None => None
           | Some v => dec_body r (MkE (e_header e) (Some (MkMsg ty v)) (e_fault e))
           end
         end
  end.

(** soap/models.go:11-15 receivedEnvelope: children named Header and Body in any
    namespace; others are skipped. *)
Fixpoint dec_env_kids (kids : list xml) (e : envelope) : option envelope :=
  match kids with
  | [] => Some e
  | XT _ :: r => dec_env_kids r e
  | XE _ nm _ ks :: r =>
    if String.eqb nm "Header" then
      dec_env_kids r (MkE (Some (last_text "chargeBoxIdentity" ks
                                   (match e_header e with Some s => s | None => "" end)))
                          (e_content e) (e_fault e))
    else if String.eqb nm "Body" then
      match dec_body ks e with None => None | Some e' => dec_env_kids r e' end
    else dec_env_kids r e
  end.

(** soap/marshal.go:13-20 Unmarshal *)
Definition dec_envelope (doc : option xml) : option envelope :=
  match doc with
  | Some (XE _ nm _ kids) => if String.eqb nm "Envelope" then dec_env_kids kids (MkE None None None) else None
  | _ => None
  end.

(** ** Sent envelopes (soap/models.go:55-98) *)

Definition soap_ns : string := "http://www.w3.org/2003/05/soap-envelope".
(** The addressing namespace: soap/client.go:45, soap/models.go:70. *)
Definition wsa_ns : string := "http://www.w3.org/2005/08/addressing".
(** soap/models.go:76. *)
Definition cp_ns : string := "urn://Ocpp/Cp/2012/06/".

(** A string field of soap/models.go:55-98 as encoding/xml writes it. *)
Definition leaf (ns nm s : string) : xml := XE ns nm [] (xtext (xml_clean s)).

(** The element of a message: Body.Content holds a pointer to the struct.
    soap/models.go:79-84 *)
Definition content (m : msg) : option (list xml) :=
  xenc "" ("", "Content") false (TPtr (TStruct (m_ty m))) (VPtr (m_val m)).

(** The fault of soap/marshal.go:24-26; the reason is left out when empty. *)
Definition fault (reason : string) : xml :=
  XE soap_ns "Fault" [] (if String.eqb reason "" then [] else [leaf "" "reason" reason]).

(** soap/marshal.go:22-30 Marshal: content first, then the fault; no header. *)
Definition marshal_reply (resp : option msg) (err : option string) : option xml :=
  match (match resp with Some m => content m | None => Some [] end) with
  | None => None
  | Some c => Some (XE soap_ns "Envelope" []
      [XE soap_ns "Body" [] (c ++ match err with Some e => [fault e] | None => [] end)])
  end.

(** The envelope of soap/client.go:43-65. *)
Definition request_envelope (url action mid from identity : string) (req : msg) : option xml :=
  match content req with
  | None => None
  | Some c => Some (XE soap_ns "Envelope" []
      [XE soap_ns "Header" []
         [leaf wsa_ns "To" url; leaf wsa_ns "Action" ("/" +++ action);
          leaf wsa_ns "MessageID" ("uuid:" +++ mid);
          XE wsa_ns "From" [] [leaf wsa_ns "Address" from];
          leaf cp_ns "chargeBoxIdentity" identity];
       XE soap_ns "Body" [] c])
  end.

(** ** Server (soap/server.go:16-50 Handle) *)

(** What the application's handler returns: a response (or nil) and an error (or
    nil).
    ocpp.go MessageHandler, soap/server.go:33 *)
Definition answer := (option msg * option string)%type.
(** The application: cs.ChargePointMessageHandler (cs/cs.go:27) or cp.CentralSystemMessageHandler (cp/cp.go:17). *)
Definition handler := msg -> string -> answer.

(** One handled HTTP request: the calls of the handler, the body written (None:
    nothing is written, so net/http sends 200 with an empty body), and whether
    the goroutine of the request panicked (net/http recovers and drops the
    connection).
    soap/server.go:16-50 *)
Record outcome := MkO { o_calls : list (msg * string); o_written : option xml; o_panic : bool }.

(** [h] is the closure given to Handle; it reports whether it called the
    application's handler.
    soap/server.go:16-50. *)
Definition handle (h : msg -> string -> answer * list (msg * string)) (doc : option xml) : outcome :=
  match dec_envelope doc with
  | None => MkO [] None false                        (* couldn't decode request *)
  | Some e =>
    match e_content e with
    | None => MkO [] None false                      (* received message is not a request *)
    | Some m =>
      if is_request (m_ty m) then
        match e_header e with
        | None => MkO [] None true                   (* reqEnv.Header.ChargeBoxIdentity, nil pointer *)
        | Some id =>
          let '((resp, err), calls) := h m id in
          match marshal_reply resp err with
          | None => MkO calls None false             (* couldn't encode response *)
          | Some x => MkO calls (Some x) false
          end
        end
      else MkO [] None false                         (* received message is not a request *)
    end
  end.

(** The closures of cs/cs.go:168-182 and cp/soap.go:32-45: a type assertion on
    the direction of the request. *)
Definition guarded (dir : string -> bool) (app : handler) (m : msg) (id : string) : answer * list (msg * string) :=
  if dir (m_ty m) then (app m id, [(m, id)])
  else ((None, Some "request is not a cprequest"), []).

(** cs/cs.go handleSoap *)
Definition cs_soap (app : handler) : option xml -> outcome := handle (guarded is_cp_request app).
(** cp/soap.go ServeHTTP; the charge point's handler does not get the identity. *)
Definition cp_soap (app : msg -> answer) : option xml -> outcome :=
  handle (guarded is_cs_request (fun m _ => app m)).

(** ** Client (soap/client.go:38-122 Call, internal/service/soap.go:21-28 Send) *)

(** Outcome of the HTTP exchange: an error, or a status and a body (possibly
    empty; [None] is not XML).
    soap/client.go:92-102 *)
Inductive http := HError | HEmpty (status : Z) | HDoc (status : Z) (doc : option xml).

(** [post] is what the network makes of the request.  The second component is
    what was sent, if anything.
    soap/client.go:38-122. *)
Definition call (url mid from identity : string) (action : string) (req : msg) (rty : string)
    (post : xml -> http) : res msg * option xml :=
  if String.eqb url "" then (Err "no URL to request", None)
  else
    match request_envelope url action mid from identity req with
    | None => (Err "cannot encode", None)
    | Some x =>
      (match post x with
       | HError => Err "http error"
       | HEmpty st => if Z.eqb st 200 then Err "EOF" else Err "response returned with a non-OK status code"
       | HDoc _ doc =>
         match dec_envelope doc with
         | None => Err "cannot decode"
         | Some e =>
           match e_fault e with
           | Some t => Err t
           | None =>
             match e_content e with
             | None => Panic
             | Some m => if String.eqb (m_ty m) rty then Ok m else Panic
             end
           end
         end
       end, Some x)
    end.

(** internal/service/soap.go:21 Send followed by the assertion on the direction of
    the response (internal/service/cp.go:27, cs.go:27), which cannot fail: the
    response type of a request has its direction (theorem C18). *)
Definition soap_send (url mid from identity : string) (req : msg) (post : xml -> http)
    : res msg * option xml :=
  match action_of (m_ty req), response_of (m_ty req) with
  | Some a, Some r => call url mid from identity a req r post
  | _, _ => (Panic, None)
  end.

(** net/http between this library's client and this library's server: the written
    body arrives with status 200; after a panic the connection is dropped.
    soap/server.go:45-49, soap/client.go:92-102 *)
Definition reply_of (o : outcome) : http :=
  if o_panic o then HError
  else match o_written o with None => HEmpty 200 | Some x => HDoc 200 (Some x) end.
