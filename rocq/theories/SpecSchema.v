(** Specification: payloads that fit a bundled JSON schema (Schemas.v), on
    untyped JSON values. *)
From Verif Require Import GoBase Float64 GoTime Any Schemas.
Open Scope string_scope.
Open Scope list_scope.

(** The schema file of a message type: ws/json/<Name>.json for requests,
    ws/json/<Name>Response.json for responses. *)
Definition strip_prefix (p s : string) : option string :=
  if String.prefix p s then Some (String.substring (String.length p) (String.length s - String.length p) s) else None.
Definition schema_key (ty : string) : option string :=
  match strip_prefix "cpreq." ty, strip_prefix "csreq." ty, strip_prefix "cpresp." ty, strip_prefix "csresp." ty with
  | Some n, _, _, _ | _, Some n, _, _ => Some n
  | _, _, Some n, _ | _, _, _, Some n => Some (n +++ "Response")
  | _, _, _, _ => None
  end.
Definition schema_of (ty : string) : option schema :=
  match schema_key ty with Some k => lookup k schemas | None => None end.

(** The integer a double stands for, if it is one. *)
Definition f64_toZ (x : f64) : option Z :=
  match x with
  | FFin neg m e =>
    let n := (if neg then - m else m)%Z in
    if (0 <=? e)%Z then Some (n * 2 ^ e)%Z
    else if (n mod 2 ^ (- e) =? 0)%Z then Some (n / 2 ^ (- e))%Z else None
  | _ => None
  end.

Definition int32_value (x : f64) : bool :=
  match f64_toZ x with Some z => (- 2 ^ 31 <=? z)%Z && (z <? 2 ^ 31)%Z | None => false end.

(** JSON types, property names and required properties as the schema says,
    integers within 32 bits, date-times Go can parse.  String lengths and
    enumerations are not looked at. *)
Fixpoint fits (s : schema) (a : any) {struct s} : bool :=
  match s, a with
  | SStr _ _ datetime, AStr t => if datetime then match parse_rfc3339 t with Some _ => true | None => false end else true
  | SInt, ANum x => int32_value x
  | SNum, ANum _ => true
  | SBool, ABool _ => true
  | SArr s, AArr l => forallb (fits s) l
  | SObj props required additional, AObj m =>
    forallb (fun kv =>
      (fix find (ps : list (string * schema)) : bool :=
         match ps with
         | [] => additional
         | (k, s) :: r => if String.eqb k (fst kv) then fits s (snd kv) else find r
         end) props) m &&
    forallb (fun k => has_key k m) required
  | _, _ => false
  end.

(** What the library sends: the same, but a list may be null, and so may an
    object that is not required or that is an element of a list; integers may be
    larger; extra properties are never sent where the schema forbids them. *)
Definition integral (x : f64) : bool := match f64_toZ x with Some _ => true | None => false end.
Definition null_ok (required : list string) (k : string) (s : schema) : bool :=
  match s with
  | SArr _ => true
  | SObj _ _ _ => negb (existsb (String.eqb k) required)
  | _ => false
  end.
Definition is_object (s : schema) : bool := match s with SObj _ _ _ => true | _ => false end.
Fixpoint sent_as (s : schema) (a : any) {struct s} : bool :=
  match s, a with
  | SStr _ _ datetime, AStr t => if datetime then match parse_rfc3339 t with Some _ => true | None => false end else true
  | SInt, ANum x => integral x
  | SNum, ANum _ => true
  | SBool, ABool _ => true
  | SArr s, AArr l => forallb (fun x => match x with ANull => is_object s | _ => sent_as s x end) l
  | SObj props required additional, AObj m =>
    forallb (fun kv =>
      (fix find (ps : list (string * schema)) : bool :=
         match ps with
         | [] => additional
         | (k, s) :: r =>
           if String.eqb k (fst kv) then
             match snd kv with ANull => null_ok required k s | v => sent_as s v end
           else find r
         end) props) m &&
    forallb (fun k => has_key k m) required
  | _, _ => false
  end.

(** What an accepted payload must look like: required properties present, known
    properties of the schema's JSON type or null, no other properties where the
    schema forbids them. *)
Fixpoint shaped (s : schema) (a : any) {struct s} : bool :=
  match s, a with
  | _, ANull => true
  | SStr _ _ _, AStr _ => true
  | SInt, ANum x => integral x
  | SNum, ANum _ => true
  | SBool, ABool _ => true
  | SArr s, AArr l => forallb (shaped s) l
  | SObj props required additional, AObj m =>
    forallb (fun kv =>
      (fix find (ps : list (string * schema)) : bool :=
         match ps with
         | [] => additional
         | (k, s) :: r => if String.eqb k (fst kv) then shaped s (snd kv) else find r
         end) props) m &&
    forallb (fun k => has_key k m) required
  | _, _ => false
  end.

(** The two message types without a decoder of their own (no UnmarshalJSON):
    nothing is required of them and unknown properties are tolerated. *)
Definition reflective (ty : string) : bool :=
  String.eqb ty "csreq.RemoteStartTransaction" || String.eqb ty "csreq.RemoteStopTransaction".
Definition demanded (ty : string) (s : schema) : schema :=
  match s with
  | SObj props required additional => if reflective ty then SObj props [] true else s
  | _ => s
  end.
