(** The SOAP transport on bytes: what encoding/xml is given to print (soap/models.go:55-98, messages/v1x/*/messages.go), and soap/client.go and
    soap/server.go around the printer and the reader of XmlSyntax.v.  Compare Xml.v [xenc] and Soap.v, where documents are trees. *)
From Verif Require Import GoBase Utf8 Json Float64 GoTime Lang Types Codec Tables Registry Xml Soap XmlSyntax.
Open Scope string_scope.
Open Scope list_scope.

(** ** What is printed *)

(** An attribute, before escaping (encoding/xml marshalAttr; such as cpreq/messages.go SampledValue). *)
Definition rattr (f : field) (v : gval) : option (list (string * string * string)) :=
  if x_omit (f_xml f) && is_empty v then Some []
  else match v with
       | VStr s => Some [("", x_name (f_xml f), s)]
       | _ => None
       end.
(** encoding/xml marshal.go marshalValue: elements with the namespace and the name handed to writeStart, texts before escaping.
    Called at soap/marshal.go:29, soap/client.go:58. *)
Fixpoint xraw (tag : string * string) (omit : bool) (t : gty) (v : gval) {struct v} : option (list xml) :=
  if omit && is_empty v then Some []
  else
  match t, v with
  | TStr, VStr s => simple (fst tag) (snd tag) s
  | TInt _, VInt z => simple (fst tag) (snd tag) (dec_int z)
  | TF64, VF64 x => simple (fst tag) (snd tag) (fmt_g x)
  | TBool, VBool b => simple (fst tag) (snd tag) (if b then "true" else "false")
  | TTime, VTime x => if (0 <=? t_year x)%Z && (t_year x <=? 9999)%Z then simple (fst tag) (snd tag) (format_nano x) else None
  | TPtr _, VNil => Some []
  | TPtr t', VPtr v' => xraw tag false t' v'
  | TSlice _, VNil => Some []
  | TSlice t', VSlice l => omap (@concat xml) (omapl (fun x => xraw tag omit t' x) l)
  | TStruct n, VStruct fs =>
    match find_decl n with
    | None => None
    | Some d =>
      let nm := match d_xml d with Some x => x | None => tag end in
      match
        omapl (fun kv =>
          match find_field d (fst kv) with
          | None => None
          | Some f =>
            match x_kind (f_xml f) with
            | XElem => omap (fun ks => ([], ks)) (xraw (field_ns d f, x_name (f_xml f)) (x_omit (f_xml f)) (f_ty f) (snd kv))
            | XAttr => omap (fun l => (l, [])) (rattr f (snd kv))
            | XChar => match snd kv with VStr s => Some ([], xtext s) | _ => None end
            | XSkip => Some ([], [])
            end
          end) fs
      with
      | None => None
      | Some l => Some [XE (fst nm) (snd nm) (concat (map fst l)) (concat (map snd l))]
      end
    end
  | _, _ => None
  end.

(** A string field (soap/models.go:66-77, 91-95). *)
Definition rleaf (ns nm s : string) : xml := XE ns nm [] (xtext s).
(** Body.Content (soap/models.go:82). *)
Definition rcontent (m : msg) : option (list xml) := xraw ("", "Content") false (TPtr (TStruct (m_ty m))) (VPtr (m_val m)).
(** soap/models.go:88-96, soap/marshal.go:24-26. *)
Definition rfault (reason : string) : xml := XE "" "S:Fault" [] (if String.eqb reason "" then [] else [rleaf "" "reason" reason]).
(** soap/models.go:55-61, 79-84; the attribute xmlns:S. *)
Definition renvelope (header : list xml) (body : list xml) : xml :=
  XE "" "S:Envelope" [("", "xmlns:S", soap_ns)] (header ++ [XE "" "S:Body" [] body]).
(** soap/models.go:63-77, soap/client.go:44-53. *)
Definition rheader (url action mid from identity : string) : xml :=
  XE "" "S:Header" [("", "xmlns:wsa5", wsa_ns)]
    [rleaf "" "wsa5:To" url; rleaf "" "wsa5:Action" ("/" +++ action); rleaf "" "wsa5:MessageID" ("uuid:" +++ mid);
     XE "" "wsa5:From" [] [rleaf "" "wsa5:Address" from];
     rleaf cp_ns "chargeBoxIdentity" identity].
(** soap/marshal.go:22-30 Marshal: the bytes. *)
Definition reply_bytes (resp : option msg) (err : option string) : option string :=
  match (match resp with Some m => rcontent m | None => Some [] end) with
  | None => None
  | Some c => Some (print (renvelope [] (c ++ match err with Some e => [rfault e] | None => [] end)))
  end.
(** soap/client.go:43-65: the bytes in the buffer.  (The text that xml.Header is put in front of, lines 69-70, is only logged: the buffer is posted.) *)
Definition request_bytes (url action mid from identity : string) (req : msg) : option string :=
  omap (fun c => print (renvelope [rheader url action mid from identity] c)) (rcontent req).

(** ** Server and client *)

(** One handled HTTP request (compare [outcome] of Soap.v): the handler's calls, the bytes written, whether the goroutine panicked.
    soap/server.go:16-50 *)
Record boutcome := MkBO { bo_calls : list (msg * string); bo_written : option string; bo_panic : bool }.
(** soap/server.go:16-50 Handle.  [body] is what ioutil.ReadAll delivered, all of the body or a part of it: its error is dropped (line 19). *)
Definition handle_bytes (uni : string -> bool) (h : msg -> string -> answer * list (msg * string)) (body : string) : boutcome :=
  match dec_envelope (read_xml uni body) with
  | None => MkBO [] None false
  | Some e =>
    match e_content e with
    | None => MkBO [] None false
    | Some m =>
      if is_request (m_ty m) then
        match e_header e with
        | None => MkBO [] None true
        | Some id =>
          let '((resp, err), calls) := h m id in
          match reply_bytes resp err with
          | None => MkBO calls None false
          | Some b => MkBO calls (Some b) false
          end
        end
      else MkBO [] None false
    end
  end.
(** cs/cs.go:168-182 handleSoap *)
Definition cs_soap_bytes (uni : string -> bool) (app : handler) : string -> boutcome := handle_bytes uni (guarded is_cp_request app).
(** cp/soap.go:32-45 ServeHTTP *)
Definition cp_soap_bytes (uni : string -> bool) (app : msg -> answer) : string -> boutcome := handle_bytes uni (guarded is_cs_request (fun m _ => app m)).

(** Outcome of the HTTP exchange: an error, or a status and what ioutil.ReadAll delivered of the body (its error is dropped).  soap/client.go:92-98 *)
Inductive bhttp := BError | BBody (status : Z) (body : string).
(** soap/client.go:38-122 Call *)
Definition call_bytes (uni : string -> bool) (url mid from identity : string) (action : string) (req : msg) (rty : string) (post : string -> bhttp) : res msg * option string :=
  if String.eqb url "" then (Err "no URL to request", None)
  else
    match request_bytes url action mid from identity req with
    | None => (Err "cannot encode", None)
    | Some s =>
      (match post s with
       | BError => Err "http error"
       | BBody st body =>
         if (String.eqb body "" && negb (Z.eqb st 200))%bool then Err "response returned with a non-OK status code"
         else
         match dec_envelope (read_xml uni body) with
         | None => if String.eqb body "" then Err "EOF" else Err "cannot decode"
         | Some e =>
           match e_fault e with
           | Some t => Err t
           | None =>
             match e_content e with
             | None => Panic
             | Some m => if String.eqb (m_ty m) rty then Ok m else Panic
             end
           end
         end
       end, Some s)
    end.
(** internal/service/soap.go:21-28 Send *)
Definition send_bytes (uni : string -> bool) (url mid from identity : string) (req : msg) (post : string -> bhttp) : res msg * option string :=
  match action_of (m_ty req), response_of (m_ty req) with
  | Some a, Some r => call_bytes uni url mid from identity a req r post
  | _, _ => (Panic, None)
  end.
(** net/http between client and server: the written body arrives with status 200; nothing written is an empty body; after a panic the connection is dropped.
    soap/server.go:45-49, soap/client.go:92-98 *)
Definition breply_of (o : boutcome) : bhttp :=
  if bo_panic o then BError else match bo_written o with None => BBody 200 "" | Some b => BBody 200 b end.

(** A message as soap/client.go posts it. *)
Example request_bytes_ex :
  request_bytes "http://cs" "Heartbeat" "42" "" "a<b" (MkMsg "cpreq.Heartbeat" (VStruct [])) =
  Some ("<S:Envelope xmlns:S=""http://www.w3.org/2003/05/soap-envelope""><S:Header xmlns:wsa5=""http://www.w3.org/2005/08/addressing""><wsa5:To>http://cs</wsa5:To><wsa5:Action>/Heartbeat</wsa5:Action><wsa5:MessageID>uuid:42</wsa5:MessageID><wsa5:From><wsa5:Address></wsa5:Address></wsa5:From><chargeBoxIdentity xmlns=""urn://Ocpp/Cp/2012/06/"">a&lt;b</chargeBoxIdentity></S:Header><S:Body><heartbeatRequest xmlns=""urn://Ocpp/Cs/2012/06/""></heartbeatRequest></S:Body></S:Envelope>").
Proof. vm_compute. reflexivity. Qed.
