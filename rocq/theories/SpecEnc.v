(** Specification: which message values can be encoded as JSON, and what the
    result must look like.  Independent of the encoders. *)
From Verif Require Import GoBase Float64 GoTime Lang Codec SpecCodec.
Open Scope string_scope.
Open Scope list_scope.

(** [P name fields] for every struct inside a value of type [t]. *)
Fixpoint all_structs (P : string -> list (string * gval) -> bool) (t : gty) (v : gval) {struct v} : bool :=
  match t, v with
  | TPtr t, VPtr v => all_structs P t v
  | TSlice t, VSlice l => forallb (all_structs P t) l
  | TStruct n, VStruct fs =>
    P n fs && match find_decl n with
              | None => true
              | Some d => forallb (fun kv => match find_field d (fst kv) with
                                             | Some f => all_structs P (f_ty f) (snd kv)
                                             | None => true
                                             end) fs
              end
  | _, _ => true
  end.

Fixpoint finite_floats (v : gval) : bool :=
  match v with
  | VF64 x => finite x
  | VPtr v => finite_floats v
  | VSlice l => forallb finite_floats l
  | VStruct fs => forallb (fun kv => finite_floats (snd kv)) fs
  | _ => true
  end.

Definition set_in (fs : list (string * gval)) (f : string) : bool :=
  match lookup f fs with Some VNil => false | _ => true end.

(** Objects that must be present. *)
Definition required_objects (n : string) : list string :=
  if String.eqb n "cpresp.Authorize" then ["IdTagInfo"]
  else if String.eqb n "cpresp.StartTransaction" then ["IdTagInfo"]
  else if String.eqb n "csreq.ChargingProfile" then ["ChargingSchedule"]
  else if String.eqb n "csreq.CsChargingProfiles" then ["ChargingSchedule"]
  else if String.eqb n "csreq.SetChargingProfile" then ["CsChargingProfiles"]
  else [].
Definition objects_present (t : gty) (v : gval) : bool :=
  all_structs (fun n fs => forallb (set_in fs) (required_objects n)) t v.

(** Expiry dates that must be present: those of local list entries. *)
Definition expiry_present (t : gty) (v : gval) : bool :=
  all_structs (fun n fs => if String.eqb n "csreq.IdTagInfo" then set_in fs "ExpiryDate" else true) t v.

(** Properties that are left out of the encoding: when nil, or when empty.  All
    others are always written. *)
Definition omitted_if_nil : list (string * string) :=
  [("cpreq.StatusNotification", "Timestamp"); ("cpresp.IdTagInfo", "ExpiryDate");
   ("csreq.ChargingProfile", "ValidFrom"); ("csreq.ChargingProfile", "ValidTo");
   ("csreq.ChargingSchedule", "StartSchedule"); ("csreq.GetConfiguration", "Key");
   ("csreq.GetDiagnostics", "StartTime"); ("csreq.GetDiagnostics", "StopTime");
   ("csresp.ChargingSchedule", "StartSchedule"); ("csresp.GetCompositeSchedule", "ScheduleStart")].
Definition omitted_if_empty : list (string * string) :=
  [("csreq.RemoteStartTransaction", "ChargingProfile"); ("csreq.RemoteStartTransaction", "ConnectorId")].
Definition listed (n f : string) (l : list (string * string)) : bool :=
  existsb (fun nf => String.eqb (fst nf) n && String.eqb (snd nf) f) l.
Definition left_out (n f : string) (v : gval) : bool :=
  (listed n f omitted_if_nil && match v with VNil => true | _ => false end) ||
  (listed n f omitted_if_empty && match v with VNil => true | VInt z => Z.eqb z 0 | _ => false end).

(** All timestamps inside can be written as RFC 3339. *)
Definition wire_times (v : gval) : Prop := Forall (fun t => time_wire t = true) (times v).
