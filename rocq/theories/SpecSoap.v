(** Specification vocabulary for SOAP messages: what a value looks like after it
    travelled as XML, and which values arrive unchanged.  Nothing here mentions
    the encoder or the decoder. *)
From Verif Require Import GoBase Utf8 Float64 GoTime Lang Codec SpecCodec Xml.
Open Scope string_scope.
Open Scope list_scope.

(** The phase of a sampled value is not sent. *)
Definition not_sent (n f : string) : bool :=
  String.eqb n "cpreq.SampledValue" && String.eqb f "Phase".

(** Optional numbers: zero is not sent, so a negative zero arrives as zero. *)
Definition optional_number (n f : string) : bool :=
  (String.eqb n "cpresp.BootNotification" && String.eqb f "Interval") ||
  (String.eqb n "csreq.UpdateFirmware" && (String.eqb f "Retries" || String.eqb f "RetryInterval")) ||
  (String.eqb n "csreq.ChargingSchedule" && String.eqb f "MinChargingRate") ||
  (String.eqb n "csresp.ChargingSchedule" && String.eqb f "MinChargingRate").

(** Elements of lists that are sent: not nil pointers, not empty strings. *)
Definition sent_element (v : gval) : bool :=
  match v with VNil => false | VStr s => negb (String.eqb s "") | _ => true end.

Definition fzero (v : gval) : bool :=
  match v with VF64 (FFin _ m _) => Z.eqb m 0 | _ => false end.

(** What arrives: strings with characters XML cannot carry replaced by U+FFFD,
    lists without the elements above (an empty list is a nil list), everything
    else as it was. *)
Fixpoint xnorm (t : gty) (v : gval) {struct v} : gval :=
  match t, v with
  | _, VStr s => VStr (xml_clean s)
  | TPtr t, VPtr v => VPtr (xnorm t v)
  | TSlice t, VSlice l =>
    match flat_map (fun x => if sent_element x then [xnorm t x] else []) l with
    | [] => VNil
    | l' => VSlice l'
    end
  | TStruct n, VStruct fs =>
    match find_decl n with
    | None => v
    | Some d =>
      VStruct (map (fun kv =>
        match find_field d (fst kv) with
        | Some f => (fst kv, if not_sent n (fst kv) then VStr ""
                             else if optional_number n (fst kv) && fzero (snd kv)
                             then VF64 (FFin false 0 (-1074))
                             else xnorm (f_ty f) (snd kv))
        | None => kv
        end) fs)
    end
  | _, _ => v
  end.

(** Values that arrive as they are. *)
Fixpoint xml_faithful (v : gval) : bool :=
  match v with
  | VStr s => String.eqb (xml_clean s) s
  | VF64 x => match x with FFin true m _ => negb (Z.eqb m 0) | _ => true end
  | VPtr v => xml_faithful v
  | VSlice l => negb (match l with [] => true | _ => false end) &&
                forallb (fun x => sent_element x && xml_faithful x) l
  | VStruct fs => forallb (fun kv => xml_faithful (snd kv) &&
                                     (if String.eqb (fst kv) "Phase" then
                                        match snd kv with VStr s => String.eqb s "" | _ => true end else true)) fs
  | _ => true
  end.

(** ** Documents *)

Definition local (x : xml) : string := match x with XE _ l _ _ => l | XT _ => "" end.
Definition space (x : xml) : string := match x with XE n _ _ _ => n | XT _ => "" end.
Definition children (x : xml) : list xml := match x with XE _ _ _ ks => ks | XT _ => [] end.
Definition is_element (x : xml) : bool := match x with XE _ _ _ _ => true | XT _ => false end.
Definition elements (l : list xml) : list xml := filter is_element l.
Definition named (nm : string) (l : list xml) : list xml :=
  filter (fun k => is_element k && String.eqb (local k) nm) l.

(** Elements inside the SOAP bodies of an envelope. *)
Definition body_elements (doc : xml) : list xml :=
  flat_map (fun b => elements (children b)) (named "Body" (children doc)).

(** Character data directly inside an element. *)
Definition chars (x : xml) : string :=
  fold_right (fun k r => match k with XT s => s +++ r | XE _ _ _ _ => r end) "" (children x).

(** Identity stated in the SOAP headers: the last chargeBoxIdentity, in whatever
    namespace; "" if there is a header without one; nothing without a header. *)
Definition stated_identity (doc : xml) : option string :=
  match named "Header" (children doc) with
  | [] => None
  | hs => Some (match rev (flat_map (fun h => named "chargeBoxIdentity" (children h)) hs) with
                | [] => ""
                | x :: _ => chars x
                end)
  end.

(** ** OCPP 1.5 messages *)

Definition from_charge_point : list string :=
  ["Authorize"; "BootNotification"; "DataTransfer"; "DiagnosticsStatusNotification"; "FirmwareStatusNotification";
   "Heartbeat"; "MeterValues"; "StartTransaction"; "StatusNotification"; "StopTransaction"].
Definition from_central_system : list string :=
  ["CancelReservation"; "ChangeAvailability"; "ChangeConfiguration"; "ClearCache"; "DataTransfer";
   "GetConfiguration"; "GetDiagnostics"; "GetLocalListVersion"; "RemoteStartTransaction";
   "RemoteStopTransaction"; "ReserveNow"; "Reset"; "SendLocalList"; "UnlockConnector"; "UpdateFirmware"].

(** The element name of a message: the action with a small first letter. *)
Definition decap (s : string) : string := match s with String c r => String (lower c) r | EmptyString => s end.

(** [element_of nm ns ty]: a message of Go type [ty] is the element [nm] of
    namespace [ns] (OCPP 1.5 service descriptions, soap/wsdl/). *)
Inductive element_of : string -> string -> string -> Prop :=
| ByCPReq a : In a from_charge_point -> element_of (decap a +++ "Request") "urn://Ocpp/Cs/2012/06/" ("cpreq." +++ a)
| ByCPResp a : In a from_charge_point -> element_of (decap a +++ "Response") "urn://Ocpp/Cs/2012/06/" ("cpresp." +++ a)
| ByCSReq a : In a from_central_system -> element_of (decap a +++ "Request") "urn://Ocpp/Cp/2012/06/" ("csreq." +++ a)
| ByCSResp a : In a from_central_system -> element_of (decap a +++ "Response") "urn://Ocpp/Cp/2012/06/" ("csresp." +++ a).

(** The messages of OCPP 1.5 except the charge point's data transfer. *)
Definition charge_point_transfer (ty : string) : bool :=
  String.eqb ty "cpreq.DataTransfer" || String.eqb ty "cpresp.DataTransfer".
Definition v15 (ty : string) : bool :=
  existsb (fun a => String.eqb ty ("cpreq." +++ a) || String.eqb ty ("cpresp." +++ a)) from_charge_point ||
  existsb (fun a => String.eqb ty ("csreq." +++ a) || String.eqb ty ("csresp." +++ a)) from_central_system.
