(** Specification vocabulary for message payloads: what a value looks like after
    it travelled over OCPP-J, and which values can travel.  Nothing here mentions
    encoders or decoders. *)
From Verif Require Import GoBase Utf8 GoTime Codec.
Open Scope string_scope.
Open Scope list_scope.

(** What arrives: strings with invalid UTF-8 replaced by U+FFFD, timestamps cut to
    whole seconds, everything else as it was. *)
Fixpoint norm (v : gval) : gval :=
  match v with
  | VStr s => VStr (sanitize s)
  | VTime t => VTime (trunc_sec t)
  | VPtr v => VPtr (norm v)
  | VSlice l => VSlice (map norm l)
  | VStruct fs => VStruct (map (fun kv => (fst kv, norm (snd kv))) fs)
  | _ => v
  end.

(** Values within the stated limits: integers up to 2^53 in magnitude, timestamps
    RFC 3339 can write. *)
Fixpoint carried (v : gval) : bool :=
  match v with
  | VInt z => (Z.abs z <=? 2 ^ 53)%Z
  | VTime t => time_wire t
  | VPtr v => carried v
  | VSlice l => forallb carried l
  | VStruct fs => forallb (fun kv => carried (snd kv)) fs
  | _ => true
  end.

(** The fields of csreq.IdTagInfo (inside local authorization list entries) that
    do not arrive. *)
Definition lost (ty f : string) : bool :=
  String.eqb ty "csreq.IdTagInfo" && (String.eqb f "ExpiryDate" || String.eqb f "ParentIdTag").

(** The types that contain an id-tag info of a local authorization list entry. *)
Definition lossy (n : string) : bool :=
  strmem n ["csreq.SendLocalList"; "csreq.LocalAuthorizationListItems"; "csreq.IdTagInfo"]%list.

(** [norm] that also forgets the lost fields; needs the static type. *)
Fixpoint norm_at (t : Lang.gty) (v : gval) {struct v} : gval :=
  match t, v with
  | _, VStr s => VStr (sanitize s)
  | _, VTime x => VTime (trunc_sec x)
  | Lang.TPtr t, VPtr v => VPtr (norm_at t v)
  | Lang.TSlice t, VSlice l => VSlice (map (norm_at t) l)
  | Lang.TStruct n, VStruct fs =>
    match find_decl n with
    | None => v
    | Some d =>
      VStruct (map (fun kv =>
        match find_field d (fst kv) with
        | Some f => (fst kv, if lost n (fst kv) then zero0 (Lang.f_ty f) else norm_at (Lang.f_ty f) (snd kv))
        | None => kv
        end) fs)
    end
  | _, _ => v
  end.

(** The leaves of a value, in order. *)
Fixpoint leaves {A} (f : gval -> list A) (v : gval) : list A :=
  match v with
  | VPtr v => leaves f v
  | VSlice l => flat_map (leaves f) l
  | VStruct fs => flat_map (fun kv => leaves f (snd kv)) fs
  | _ => f v
  end.
Definition ints : gval -> list Z := leaves (fun v => match v with VInt z => [z] | _ => [] end).
Definition floats : gval -> list Float64.f64 := leaves (fun v => match v with VF64 x => [x] | _ => [] end).
Definition bools : gval -> list bool := leaves (fun v => match v with VBool x => [x] | _ => [] end).
Definition times : gval -> list time := leaves (fun v => match v with VTime x => [x] | _ => [] end).
Definition strings : gval -> list string := leaves (fun v => match v with VStr x => [x] | _ => [] end).
