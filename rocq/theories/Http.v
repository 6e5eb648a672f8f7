(** The SOAP transport as HTTP: method, header lines and status around the bytes of XmlWrite.v, and handlers that panic. *)
From Verif Require Import GoBase Utf8 Json Float64 Lang Types Codec Tables Registry Xml Soap XmlSyntax XmlWrite CentralSystem.
Open Scope string_scope.
Open Scope list_scope.

(** The application's handler; [None]: it panics.
    cs/cs.go:27, cp/cp.go:17, called at soap/server.go:33 *)
Definition shaky := msg -> string -> option answer.

(** What a client gets back if the connection is not dropped: the status, the header lines the code sets (those of net/http - Date,
    Content-Length - are left out), the body.
    soap/server.go:45-48 *)
Record http_reply := MkReply { r_status : Z; r_headers : list (string * string); r_body : string }.
(** A handler of net/http that returns without having written: 200 and no body.
    soap/server.go:22-44, the returns before line 45 *)
Definition blank : http_reply := MkReply 200 [] "".

(** One request: the calls of the application's handler, and the reply; [None]: a panic, which net/http recovers, dropping the connection.
    The closures of cs/cs.go:170-182 and cp/soap.go:35-41 test the direction.
    soap/server.go:16-50 Handle *)
Definition serve_http (uni : string -> bool) (dir : string -> bool) (app : shaky) (body : string) : list (msg * string) * option http_reply :=
  match dec_envelope (read_xml uni body) with
  | None => ([], Some blank)
  | Some e =>
    match e_content e with
    | None => ([], Some blank)
    | Some m =>
      if is_request (m_ty m) then
        match e_header e with
        | None => ([], None)
        | Some id =>
          let '(out, calls) := if dir (m_ty m) then (app m id, [(m, id)]) else (Some (None, Some "request is not a cprequest"), []) in
          match out with
          | None => (calls, None)
          | Some (resp, err) =>
            match reply_bytes resp err with
            | None => (calls, Some blank)
            | Some b => (calls, Some (MkReply 200 [("Content-Type", "application/soap+xml"); ("Content-Encoding", "deflate")] b))
            end
          end
        end
      else ([], Some blank)
    end
  end.
(** cs/cs.go:168-185 handleSoap *)
Definition cs_serve_http (uni : string -> bool) (app : shaky) : string -> list (msg * string) * option http_reply := serve_http uni is_cp_request app.
(** cp/soap.go:32-45 ServeHTTP *)
Definition cp_serve_http (uni : string -> bool) (app : msg -> option answer) : string -> list (msg * string) * option http_reply :=
  serve_http uni is_cs_request (fun m _ => app m).

(** A request of an HTTP client.
    soap/client.go:75-83 *)
Record http_request := MkHReq { q_method : string; q_url : string; q_headers : list (string * string); q_body : string }.
(** soap/client.go:75-83: Header.Add twice gives two lines; req.Close gives the third. *)
Definition posted (url body : string) : http_request :=
  MkHReq "POST" url [("Content-Type", "application/soap+xml"); ("Content-Type", "application/xml; charset=utf-8"); ("Connection", "close")] body.
(** internal/service/soap.go:21-28 Send and soap/client.go:38-122 Call.  [net] is what becomes of the request on the network; [None]: client.Do fails.
    No header line of the reply is looked at (net/http undoes gzip only, and only when it asked for it). *)
Definition send_http (uni : string -> bool) (url mid from identity : string) (req : msg) (net : http_request -> option http_reply) : res msg * option http_request :=
  let r := send_bytes uni url mid from identity req
    (fun b => match net (posted url b) with None => BError | Some r => BBody (r_status r) (r_body r) end) in
  (fst r, omap (posted url) (snd r)).

(** Tokens of a header line: between commas, blanks trimmed, capital letters made small.  (gorilla/websocket util.go
    tokenListContainsValue; quoted strings left out.)
    ws/ws.go:9-11 *)
Fixpoint tokens (cur : string) (s : string) : list string :=
  match s with
  | "" => [cur]
  | String c r => if Ascii.eqb c "," then cur :: tokens "" r
                  else if Ascii.eqb c " " then tokens cur r
                  else tokens (cur +++ str1 (if between 65 90 c then chr (code c + 32) else c)) r
  end.
(** ws/ws.go:9-11 *)
Definition has_token (name tok : string) (h : list (string * string)) : bool :=
  existsb (fun kv => String.eqb (fst kv) name && existsb (String.eqb tok) (tokens "" (snd kv)))%bool h.
(** ws/ws.go:9-11 IsWebSocketUpgrade *)
Definition wants_websocket (h : list (string * string)) : bool := (has_token "Connection" "upgrade" h && has_token "Upgrade" "websocket" h)%bool.
(** What cs/cs.go:72-90 makes of a request. *)
Inductive served := ToWebsocket | ToPage | ToSoap (r : list (msg * string) * option http_reply).
(** cs/cs.go:72-90 *)
Definition cs_http (uni : string -> bool) (app : shaky) (q : http_request) : served :=
  match dispatch (wants_websocket (q_headers q)) (q_method q) with
  | BWebsocket => ToWebsocket
  | BPage => ToPage
  | BSoap => ToSoap (cs_serve_http uni app (q_body q))
  end.
