(** Action names, request types, response types. *)
From Verif Require Import GoBase Lang Types Codec Tables.
Open Scope string_scope.

(** messages/req/actions.go:9 req.FromActionName; [None] is nil.  Types are named
    "package.Type" and stand for a pointer to a fresh zero value. *)
Definition req_from_action (a : string) : option string := lookup a req_actions.

(** messages/res/actions.go:9 res.FromActionName *)
Definition res_from_action (a : string) : option string := lookup a res_actions.

(** The Action() methods (cpreq/messages.go:144-153, csreq/messages.go) *)
Definition action_of (ty : string) : option string := lookup ty action_table.

(** The GetResponse() methods (cpreq/messages.go:155-164, csreq/messages.go) *)
Definition response_of (ty : string) : option string := lookup ty response_table.

(** Embedded marker structs decide which interface a type implements
    (cpreq/cpreq.go:10-18 and the three files alike). *)
Definition marker_of (ty : string) : string :=
  match find_decl ty with Some d => d_marker d | None => "" end.
(** Implements cpreq.ChargePointRequest (messages/v1x/cpreq/cpreq.go). *)
Definition is_cp_request (ty : string) : bool := String.eqb (marker_of ty) "chargepointRequest".
(** Implements csreq.CentralSystemRequest (messages/v1x/csreq/csreq.go). *)
Definition is_cs_request (ty : string) : bool := String.eqb (marker_of ty) "centralSystemRequest".
(** Implements cpresp.ChargePointResponse (messages/v1x/cpresp/cpresp.go). *)
Definition is_cp_response (ty : string) : bool := String.eqb (marker_of ty) "chargepointResponse".
(** Implements csresp.CentralSystemResponse (messages/v1x/csresp/csresp.go). *)
Definition is_cs_response (ty : string) : bool := String.eqb (marker_of ty) "centralSystemResponse".
(** Implements messages.Request (messages/messages.go). *)
Definition is_request (ty : string) : bool := is_cp_request ty || is_cs_request ty.
(** Implements messages.Response (messages/messages.go). *)
Definition is_response (ty : string) : bool := is_cp_response ty || is_cs_response ty.

(** A message value: the dynamic type and the struct it points to.
    A pointer to a struct of messages/v1x/*/messages.go. *)
Record msg := MkMsg { m_ty : string; m_val : gval }.
(** The value has the type it claims: a Go value of type *T, T in messages/v1x/*/messages.go, not nil. *)
Definition msg_ok (m : msg) : bool := has_type (m_val m) (TStruct (m_ty m)).
