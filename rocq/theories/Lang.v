(** Syntax in which the message packages are transcribed (see Types.v): Go types
    of struct fields, struct tags, the statements of the generated MarshalJSON
    methods and the case tables of the generated UnmarshalJSON methods. *)
From Verif Require Import GoBase.

(** Go types that occur in messages/v1x/*/messages.go.  [TStruct] names a struct
    as "package.Name"; cpstatus.ErrorCode (cpstatus/error_code.go:3) is a string
    type and appears as [TStr]. *)
Inductive gty : Type :=
| TStr | TInt (bits : Z) | TF64 | TBool | TTime
| TPtr (t : gty) | TSlice (t : gty) | TStruct (n : string).

(** How encoding/xml reads the xml struct tag.
    Tags of messages/v1x/*/messages.go. *)
Inductive xkind := XElem | XAttr | XChar | XSkip.
(** An xml struct tag of messages/v1x/*/messages.go. *)
Record xtag := MkX { x_kind : xkind; x_name : string; x_omit : bool }.

(** One struct field; the embedded marker struct and XMLName are not listed.
    messages/v1x/*/messages.go *)
Record field := MkF {
  f_name : string;          (* Go field name *)
  f_ty : gty;
  f_json : string;          (* name in the json tag *)
  f_jomit : bool;           (* json omitempty *)
  f_xml : xtag
}.

(** Statements of a MarshalJSON method that builds text in [buf].
    messages/v1x/*/json_encode.go, for instance csresp/json_encode.go:10-30. *)
Inductive instr : Type :=
| ICommaFalse                              (* comma := false *)
| IWrite (s : string)                      (* buf.WriteString(s) *)
| IComma                                   (* if comma { buf.WriteString(",") } *)
| ISetComma                                (* comma = true *)
| IReqNil (f msg : string)                 (* if m.F == nil { return nil, errors.New(msg) } *)
| IMarshal (f : string)                    (* if tmp, err := json.Marshal(m.F); err != nil { return nil, err } else { buf.Write(tmp) } *)
| IMarshalTime (f : string)                (* same with json.Marshal(m.F.Format(time.RFC3339)) *)
| IIfSet (f : string) (body : list instr). (* if m.F != nil { body } *)

(** messages/v1x/*/json_encode.go MarshalJSON *)
Inductive encoder : Type :=
| EProg (p : list instr)                   (* the statements between buf := ... and return *)
| EOptMap (key f : string)                 (* obj := map...{}; if m.F != nil { obj[key] = m.F }; return json.Marshal(obj) *)
| EDefault.                                (* no MarshalJSON: encoding/json's reflective struct encoder *)

(** One case of the switch in UnmarshalJSON: property name, field it is decoded
    into, flag set afterwards.
    For instance csresp/json_encode.go:42-48. *)
Record dcase := MkC { c_key : string; c_field : string; c_flag : option string }.

(** UnmarshalJSON of messages/v1x/*/json_encode.go, or the reflective one of encoding/json. *)
Inductive decoder : Type :=
| DTable (flags : list string)             (* xReceived := false *)
         (cases : list dcase)
         (strict : bool)                   (* default: return an error *)
         (checks : list (string * string)) (* if !flag { return errors.New(msg) } *)
| DDefault.                                (* no UnmarshalJSON *)

(** A struct type. [d_xml] is namespace and local name of XMLName, if present;
    [d_marker] the embedded marker struct, if any.
    messages/v1x/*/messages.go *)
Record decl := MkD {
  d_name : string;
  d_marker : string;
  d_xml : option (string * string);
  d_fields : list field;
  d_enc : encoder;
  d_dec : decoder
}.
