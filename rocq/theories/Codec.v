(** Running the message codecs: Go values, json.Marshal and json.Unmarshal over
    the transcribed struct types of Types.v. *)
From Verif Require Import GoBase Utf8 Json Float64 GoTime Lang Types.
Open Scope string_scope.
Open Scope list_scope.

(** ** Go values *)

(** Values of the types in [gty].  A nil pointer and a nil slice are [VNil]; a
    struct value lists its fields in declaration order, without the embedded
    marker and XMLName.
    Values of the structs of messages/v1x/*/messages.go. *)
Inductive gval : Type :=
| VStr (s : string)
| VInt (z : Z)
| VF64 (x : f64)
| VBool (b : bool)
| VTime (t : time)
| VNil
| VPtr (v : gval)
| VSlice (l : list gval)
| VStruct (fs : list (string * gval)).

(** The struct type of messages/v1x/*/messages.go with this name. *)
Definition find_decl (n : string) : option decl :=
  find (fun d => String.eqb (d_name d) n) all_decls.

(** A field of a struct of messages/v1x/*/messages.go. *)
Definition find_field (d : decl) (f : string) : option field :=
  find (fun x => String.eqb (f_name x) f) (d_fields d).

(** Go zero values.  No struct contains another struct by value, so the fields
    of a zero struct are flat.
    For &T{} of messages/req and cpreq.go:GetResponse (messages/v1x). *)
Definition zero0 (t : gty) : gval :=
  match t with
  | TStr => VStr ""
  | TInt _ => VInt 0
  | TF64 => VF64 (FFin false 0 (-1074))
  | TBool => VBool false
  | TTime => VTime time_zero
  | TPtr _ => VNil
  | TSlice _ => VNil
  | TStruct _ => VStruct []
  end.
(** &T{} of a struct of messages/v1x/*/messages.go. *)
Definition zero_struct (d : decl) : gval :=
  VStruct (map (fun f => (f_name f, zero0 (f_ty f))) (d_fields d)).
(** The zero value of a type of messages/v1x/*/messages.go. *)
Definition zero (t : gty) : gval :=
  match t with
  | TStruct n => match find_decl n with Some d => zero_struct d | None => VStruct [] end
  | _ => zero0 t
  end.

(** ** json.Marshal *)

(** m.F != nil, messages/v1x/*/json_encode.go. *)
Definition is_nil (v : gval) : bool := match v with VNil => true | _ => false end.

(** encoding/json isEmptyValue.
    For the omitempty tags of messages/v1x/*/messages.go. *)
Definition is_empty (v : gval) : bool :=
  match v with
  | VStr s => String.eqb s ""
  | VInt z => Z.eqb z 0
  | VF64 (FFin _ m _) => Z.eqb m 0
  | VBool b => negb b
  | VNil => true
  | VSlice [] => true
  | _ => false
  end.

(** What a MarshalJSON method sees: for each field its value and the outcome of
    json.Marshal on it (an outcome not asked for has no effect).
    messages/v1x/*/json_encode.go MarshalJSON. *)
Definition fenv := list (string * (gval * res string)).

(** json.Marshal(m.F.Format(time.RFC3339)); a nil *time.Time panics.
    messages/v1x/*/json_encode.go, for instance csresp/json_encode.go:210. *)
Definition marshal_time (v : gval) : res string :=
  match v with
  | VTime t | VPtr (VTime t) => Ok (quote (format_rfc3339 t))
  | VNil => Panic
  | _ => Err "ill-typed"
  end.

(** Statements of MarshalJSON (json_encode.go) over the state (buf, comma). *)
Fixpoint exec (env : fenv) (i : instr) (st : string * bool) {struct i} : res (string * bool) :=
  let '(buf, comma) := st in
  match i with
  | ICommaFalse => Ok (buf, false)
  | IWrite s => Ok (buf +++ s, comma)
  | IComma => Ok (if comma then buf +++ "," else buf, comma)
  | ISetComma => Ok (buf, true)
  | IReqNil f msg =>
    match lookup f env with
    | Some (v, _) => if is_nil v then Err msg else Ok st
    | None => Err "ill-typed"
    end
  | IMarshal f =>
    match lookup f env with
    | Some (_, r) => rbind r (fun tmp => Ok (buf +++ tmp, comma))
    | None => Err "ill-typed"
    end
  | IMarshalTime f =>
    match lookup f env with
    | Some (v, _) => rbind (marshal_time v) (fun tmp => Ok (buf +++ tmp, comma))
    | None => Err "ill-typed"
    end
  | IIfSet f body =>
    match lookup f env with
    | Some (v, _) =>
      if is_nil v then Ok st
      else (fix go (l : list instr) (st : string * bool) : res (string * bool) :=
              match l with
              | [] => Ok st
              | x :: r => rbind (exec env x st) (go r)
              end) body st
    | None => Err "ill-typed"
    end
  end.

(** The statements of a MarshalJSON of messages/v1x/*/json_encode.go in order. *)
Fixpoint exec_list (env : fenv) (l : list instr) (st : string * bool) : res (string * bool) :=
  match l with
  | [] => Ok st
  | x :: r => rbind (exec env x st) (exec_list env r)
  end.

(** A MarshalJSON of messages/v1x/*/json_encode.go. *)
Definition run_prog (env : fenv) (p : list instr) : res string :=
  rbind (exec_list env p (EmptyString, false)) (fun st => Ok (fst st)).

(** json.Marshal validates and compacts what a MarshalJSON method returns
    (encoding/json marshalerEncoder, compact).  Modelled as parse then print:
    the same text up to the spelling of characters inside strings that were
    replaced because they were invalid UTF-8 (\ufffd versus its three bytes).
    encoding/json marshalerEncoder, for messages/v1x/*/json_encode.go. *)
Definition compact (s : string) : res string :=
  match parse s with
  | Some j => Ok (print j)
  | None => Err "json: error calling MarshalJSON"
  end.

(** encoding/json structEncoder: fields in order, omitempty skipped.
    For the structs without MarshalJSON in messages/v1x/*/messages.go, called at ws/message.go:71, 143. *)
Fixpoint default_members (env : fenv) (fs : list field) : res (list string) :=
  match fs with
  | [] => Ok []
  | f :: r =>
    match lookup (f_name f) env with
    | None => Err "ill-typed"
    | Some (v, t) =>
      if f_jomit f && is_empty v then default_members env r
      else rbind t (fun t => rbind (default_members env r) (fun l =>
             Ok ((quote (f_json f) +++ ":" +++ t) :: l)))
    end
  end.

(** json.Marshal of a pointer to a struct of messages/v1x/*/messages.go: its MarshalJSON (messages/v1x/*/json_encode.go) or the fields in order. *)
Definition marshal_struct (d : decl) (env : fenv) : res string :=
  match d_enc d with
  | EProg p => rbind (run_prog env p) compact
  | EOptMap key f =>
    (* csreq/json_encode.go:668-674 *)
    match lookup f env with
    | None => Err "ill-typed"
    | Some (v, t) =>
      if is_nil v then compact "{}"
      else rbind t (fun t => compact ("{" +++ quote key +++ ":" +++ t +++ "}"))
    end
  | EDefault =>
    rbind (default_members env (d_fields d)) (fun l => Ok ("{" +++ join "," l +++ "}"))
  end.

(** A loop that stops at the first error (encoding/json arrayEncoder, called at ws/message.go:71, 143). *)
Definition rmap {A B} (f : A -> res B) : list A -> res (list B) :=
  fix go (l : list A) : res (list B) :=
  match l with
  | [] => Ok []
  | x :: r => rbind (f x) (fun y => rbind (go r) (fun ys => Ok (y :: ys)))
  end.

(** json.Marshal of a value of static type [t].  MarshalJSON has a pointer
    receiver; it is reached for pointers and for slice elements, and no struct
    occurs by value in a field (checked in CodecProofs.v), so a [TStruct] always
    uses it.
    Called at ws/message.go:71, 143 and in messages/v1x/*/json_encode.go. *)
Fixpoint enc (t : gty) (v : gval) {struct v} : res string :=
  match t, v with
  | TStr, VStr s => Ok (quote s)
  | TInt _, VInt z => Ok (dec_int z)
  | TF64, VF64 x => match fmt_float x with Some s => Ok s | None => Err "json: unsupported value" end
  | TBool, VBool b => Ok (if b then "true" else "false")
  | TTime, VTime x =>
    if (0 <=? t_year x)%Z && (t_year x <=? 9999)%Z then Ok (quote (format_nano x)) (* no character of it needs escaping *)
    else Err "Time.MarshalJSON: year outside of range [0,9999]"
  | TPtr _, VNil => Ok "null"
  | TPtr t', VPtr v' => enc t' v'
  | TSlice _, VNil => Ok "null"
  | TSlice t', VSlice l =>
    rbind (rmap (fun x => enc t' x) l) (fun l => Ok ("[" +++ join "," l +++ "]"))
  | TStruct n, VStruct fs =>
    match find_decl n with
    | None => Err "ill-typed"
    | Some d =>
      marshal_struct d
        (map (fun kv =>
           match find_field d (fst kv) with
           | Some f => (fst kv, (snd kv, enc (f_ty f) (snd kv)))
           | None => (fst kv, (snd kv, Err "ill-typed"))
           end) fs)
    end
  | _, _ => Err "ill-typed"
  end.

(** ** json.Unmarshal *)

(** m.F = v, messages/v1x/*/json_encode.go UnmarshalJSON *)
Fixpoint set_field (f : string) (v : gval) (fs : list (string * gval)) : list (string * gval) :=
  match fs with
  | [] => []
  | (k, x) :: r => if String.eqb k f then (k, v) :: r else (k, x) :: set_field f v r
  end.

(** A Go map filled from a JSON object: the last of several equal keys wins.
    var jsonMap map[string]json.RawMessage, messages/v1x/*/json_encode.go, for instance csresp/json_encode.go:36-37. *)
Fixpoint dedup {A} (l : list (string * A)) : list (string * A) :=
  match l with
  | [] => []
  | (k, v) :: r => if has_key k r then dedup r else (k, v) :: dedup r
  end.

(** A member value waiting for the type and current value it is decoded into:
    json.Unmarshal([]byte(v), &m.F).
    The json.RawMessage of messages/v1x/*/json_encode.go UnmarshalJSON. *)
Definition delayed := gty -> gval -> option gval.

(** One turn of "for k, v := range jsonMap" in UnmarshalJSON.
    messages/v1x/*/json_encode.go, for instance csresp/json_encode.go:41-52. *)
Definition turn (d : decl) (cases : list dcase) (strict : bool)
    (kv : string * delayed) (st : list (string * gval) * list string)
    : option (list (string * gval) * list string) :=
  let '(fs, got) := st in
  match find (fun c => String.eqb (c_key c) (fst kv)) cases with
  | None => if strict then None else Some st
  | Some c =>
    match find_field d (c_field c), lookup (c_field c) fs with
    | Some fd, Some cur =>
      match snd kv (f_ty fd) cur with
      | None => None
      | Some v =>
        Some (set_field (c_field c) v fs,
              match c_flag c with Some g => g :: got | None => got end)
      end
    | _, _ => None
    end
  end.

(** The loop over jsonMap in messages/v1x/*/json_encode.go, for instance csresp/json_encode.go:41-52. *)
Fixpoint turns (d : decl) (cases : list dcase) (strict : bool)
    (l : list (string * delayed)) (st : list (string * gval) * list string)
    : option (list (string * gval) * list string) :=
  match l with
  | [] => Some st
  | kv :: r => match turn d cases strict kv st with
               | None => None
               | Some st' => turns d cases strict r st'
               end
  end.

(** Was the flag of a required property set (messages/v1x/*/json_encode.go UnmarshalJSON)? *)
Definition strmem (x : string) (l : list string) : bool := existsb (String.eqb x) l.

(** UnmarshalJSON with the map iterated in the order of [l].
    messages/v1x/*/json_encode.go, for instance csresp/json_encode.go:34-58. *)
Definition run_table (d : decl) (cases : list dcase) (strict : bool)
    (checks : list (string * string)) (l : list (string * delayed))
    (fs : list (string * gval)) : option (list (string * gval)) :=
  match turns d cases strict l (fs, []) with
  | None => None
  | Some (fs', got) =>
    if forallb (fun c => strmem (fst c) got) checks then Some fs' else None
  end.

(** Key comparison of encoding/json's reflective decoder (fold.go): ASCII case,
    plus U+212A for k and U+017F for s.
    Called at ws/conn.go:235, 256. *)
Definition lower (c : ascii) : ascii :=
  if between 65 90 c then chr (code c + 32) else c.
(** encoding/json fold.go, for structs without UnmarshalJSON, called at ws/conn.go:235, 256. *)
Fixpoint fold_key (s : string) : string :=
  match s with
  | EmptyString => EmptyString
  | String a r =>
    match r with
    | String b r1 =>
      if N.eqb (code a) 197 && N.eqb (code b) 191 then String "s"%char (fold_key r1)
      else match r1 with
           | String c r2 =>
             if N.eqb (code a) 226 && N.eqb (code b) 132 && N.eqb (code c) 170
             then String "k"%char (fold_key r2)
             else String (lower a) (fold_key r)
           | EmptyString => String (lower a) (fold_key r)
           end
    | EmptyString => String (lower a) EmptyString
    end
  end.

(** encoding/json decode.go object: the field for a key, called at ws/conn.go:235, 256. *)
Definition default_target (d : decl) (k : string) : option field :=
  match find (fun f => String.eqb (f_json f) k) (d_fields d) with
  | Some f => Some f
  | None => find (fun f => String.eqb (fold_key (f_json f)) (fold_key k)) (d_fields d)
  end.

(** Reflective decoding of an object into a struct (decode.go object): members
    in text order, unknown keys ignored.
    Called at ws/conn.go:235, 256. *)
Fixpoint default_turns (d : decl) (l : list (string * delayed))
    (fs : list (string * gval)) : option (list (string * gval)) :=
  match l with
  | [] => Some fs
  | (k, dl) :: r =>
    match default_target d k with
    | None => default_turns d r fs
    | Some f =>
      match lookup (f_name f) fs with
      | None => None
      | Some cur => match dl (f_ty f) cur with
                    | None => None
                    | Some v => default_turns d r (set_field (f_name f) v fs)
                    end
      end
    end
  end.

(** [sh] is the order in which Go iterates over the map.
    json.Unmarshal into a struct of messages/v1x/*/messages.go: its UnmarshalJSON (messages/v1x/*/json_encode.go) or field by field. *)
Definition unmarshal_struct (sh : list (string * delayed) -> list (string * delayed))
    (d : decl) (members : option (list (string * delayed)))
    (fs : list (string * gval)) : option (list (string * gval)) :=
  match d_dec d with
  | DTable _ cases strict checks =>
    run_table d cases strict checks
      (match members with Some l => sh (dedup l) | None => [] end) fs
  | DDefault =>
    match members with Some l => default_turns d l fs | None => Some fs end
  end.

(** Decoding an array into a slice: existing elements are decoded in place.
    encoding/json decode.go array, called at ws/conn.go:235, 256. *)
Fixpoint elems {A} (f : gval -> A -> option gval) (z : gval) (curs : list gval) (l : list A)
    : option (list gval) :=
  match l with
  | [] => Some []
  | x :: r =>
    match f (hd z curs) x with
    | None => None
    | Some v => match elems f z (tl curs) r with
                | None => None
                | Some vs => Some (v :: vs)
                end
    end
  end.

(** Decoding the parsed text [j] into a variable of type [t] holding [cur];
    [arr] and [obj] are the elements or members of [j].  null leaves scalars and
    times unchanged and clears pointers and slices.  Times: Time.UnmarshalJSON
    works on the raw text; a string that parses as RFC 3339 has no escapes when
    it was produced by json.Marshal, as it always is here (ws/conn.go:235,256).
    Called at ws/conn.go:235, 256. *)
Fixpoint at_ty (sh : list (string * delayed) -> list (string * delayed))
    (j : json) (arr : list delayed) (obj : list (string * delayed))
    (t : gty) (cur : gval) {struct t} : option gval :=
  match t with
  | TStr => match j with JNull => Some cur | JStr s => Some (VStr s) | _ => None end
  | TInt b => match j with JNull => Some cur | JNum l => omap VInt (parse_int b l) | _ => None end
  | TF64 => match j with JNull => Some cur | JNum l => omap VF64 (parse_float l) | _ => None end
  | TBool => match j with JNull => Some cur | JBool b => Some (VBool b) | _ => None end
  | TTime => match j with JNull => Some cur | JStr s => omap VTime (parse_rfc3339 s) | _ => None end
  | TPtr t' =>
    match j with
    | JNull => Some VNil
    | _ => omap VPtr (at_ty sh j arr obj t' (match cur with VPtr v => v | _ => zero t' end))
    end
  | TSlice t' =>
    match j with
    | JNull => Some VNil
    | JArr _ => omap VSlice (elems (fun c (dl : delayed) => dl t' c) (zero t')
                               (match cur with VSlice l => l | _ => [] end) arr)
    | _ => None
    end
  | TStruct n =>
    match find_decl n, cur with
    | Some d, VStruct fs =>
      match j with
      | JObj _ => omap VStruct (unmarshal_struct sh d (Some obj) fs)
      | JNull => omap VStruct (unmarshal_struct sh d None fs)
      | _ => None
      end
    | _, _ => None
    end
  end.

(** json.Unmarshal of JSON text already parsed to [j]; [None] is an error.
    (Elements of a slice beyond its length are taken to be zero; Go would reuse
    stale ones after three decodes into one field.)
    Maps are iterated in text order; see [dec_o].
    ws/conn.go:235, 256. *)
Fixpoint dec (j : json) : delayed :=
  at_ty (fun l => l) j (match j with JArr l => map dec l | _ => [] end)
          (match j with JObj l => map (fun kv => (fst kv, dec (snd kv))) l | _ => [] end).

(** The same with the iteration order of every Go map chosen by [o], which is
    told the position in the text of the object decoded.
    for k, v := range jsonMap, messages/v1x/*/json_encode.go. *)
Definition order := list nat -> list (string * delayed) -> list (string * delayed).
(** Positions inside the document, to name the maps of messages/v1x/*/json_encode.go. *)
Definition imap {A B} (f : nat -> A -> B) : nat -> list A -> list B :=
  fix go i l := match l with [] => [] | x :: r => f i x :: go (S i) r end.
(** json.Unmarshal, ws/conn.go:235, 256, with the given iteration orders. *)
Fixpoint dec_o (o : order) (p : list nat) (j : json) {struct j} : delayed :=
  at_ty (o p) j
    (match j with JArr l => imap (fun i x => dec_o o (i :: p) x) 0 l | _ => [] end)
    (match j with JObj l => imap (fun i kv => (fst kv, dec_o o (i :: p) (snd kv))) 0 l | _ => [] end).

(** json.Marshal(m) for a message m = &T{...} of type [n].
    ws/message.go:71, 143 *)
Definition marshal_msg (n : string) (v : gval) : res string := enc (TPtr (TStruct n)) (VPtr v).

(** json.Unmarshal(b, m) for a fresh m = &T{}.
    ws/conn.go:235, 256 *)
Definition unmarshal_msg (n : string) (b : string) : option gval :=
  match parse b with
  | Some j => dec j (TStruct n) (zero (TStruct n))
  | None => None
  end.

(** ** Well-typed values *)

(** [has_type v t]: what Go's type checker guarantees about a value of type [t]:
    integers in range, struct fields present, times that exist, canonical
    floats.
    For the types of messages/v1x/*/messages.go. *)
Fixpoint has_type (v : gval) (t : gty) {struct v} : bool :=
  match v, t with
  | VStr _, TStr => true
  | VInt z, TInt b => (- 2 ^ (b - 1) <=? z)%Z && (z <? 2 ^ (b - 1))%Z
  | VF64 x, TF64 => canon x
  | VBool _, TBool => true
  | VTime x, TTime => time_valid x
  | VNil, (TPtr _ | TSlice _) => true
  | VPtr v', TPtr t' => has_type v' t'
  | VSlice l, TSlice t' => forallb (fun x => has_type x t') l
  | VStruct fs, TStruct n =>
    match find_decl n with
    | None => false
    | Some d =>
      (fix go (fs : list (string * gval)) (ds : list field) : bool :=
         match fs, ds with
         | [], [] => true
         | (k, x) :: fs', f :: ds' => String.eqb k (f_name f) && has_type x (f_ty f) && go fs' ds'
         | _, _ => false
         end) fs (d_fields d)
    end
  | _, _ => false
  end.

Example codec_ex :
  let v := VStruct [("ConnectorId", VInt 3); ("IdTag", VStr "tag"); ("MeterStart", VInt (-7));
                    ("ReservationId", VInt 0); ("Timestamp", VTime (MkTime 2020 2 29 12 0 1 5 0))] in
  marshal_msg "cpreq.StartTransaction" v =
    Ok "{""connectorId"":3,""idTag"":""tag"",""meterStart"":-7,""reservationId"":0,""timestamp"":""2020-02-29T12:00:01Z""}".
Proof. vm_compute. reflexivity. Qed.
Example codec_ex2 :
  unmarshal_msg "csreq.RemoteStartTransaction" "{""IDtag"":""x"",""chargingProfile"":null,""foo"":1}" =
    Some (VStruct [("IdTag", VStr "x"); ("ChargingProfile", VNil); ("ConnectorId", VInt 0)]).
Proof. vm_compute. reflexivity. Qed.
