(** Specification vocabulary for the SOAP messages of OCPP 1.5, independent of the
    encoder and the decoder: when an element is a message as the service
    descriptions (Wsdl.v) describe it, and when a Go value holds what such an
    element says. *)
From Verif Require Import GoBase Json Float64 GoTime Lang Codec SpecCodec SpecSchema Xml SpecSoap Wsdl.
Open Scope string_scope.
Open Scope list_scope.

(** ** Texts of XML Schema's simple types *)

(** White space of XML. *)
Definition blank (s : string) : Prop :=
  str_forall (fun c => N.eqb (code c) 9 || N.eqb (code c) 10 || N.eqb (code c) 13 || N.eqb (code c) 32) s = true.

(** xs:int: an optional sign and digits (leading zeros allowed), within 32 bits,
    possibly with white space around. *)
Definition int_text (s : string) (z : Z) : Prop :=
  exists l sign ds r, s = l +++ sign +++ ds +++ r /\ blank l /\ blank r /\
    str_forall is_digit ds = true /\ ds <> "" /\
    (((sign = "" \/ sign = "+") /\ z = digits_val 0 ds) \/ (sign = "-" /\ z = (- digits_val 0 ds)%Z)) /\
    (- 2 ^ 31 <= z < 2 ^ 31)%Z.

(** xs:boolean. *)
Definition bool_text (s : string) (b : bool) : Prop :=
  exists l t r, s = l +++ t +++ r /\ blank l /\ blank r /\
    ((b = true /\ (t = "true" \/ t = "1")) \/ (b = false /\ (t = "false" \/ t = "0"))).

(** ** Messages as described *)

(** The element [x] is as type [w] says, for messages of namespace [ns]: the child
    elements of a sequence in the order of the sequence, all in [ns], the required
    ones present, those that may not repeat at most once.  Other attributes and
    text between elements may be there; lengths and enumerations of strings are
    not looked at; date-times are those of RFC 3339. *)
Fixpoint described (ns : string) (w : wtype) (x : xml) {struct w} : Prop :=
  match w with
  | WStr _ _ => True
  | WInt => exists z, int_text (chars x) z
  | WBool => exists b, bool_text (chars x) b
  | WTime => exists t, parse_rfc3339 (chars x) = Some t
  | WVal _ => True
  | WSeq parts =>
    (fix seq (ps : list (string * bool * bool * wtype)) (l : list xml) {struct ps} : Prop :=
       match ps with
       | [] => l = []
       | (nm, required, repeats, w') :: r =>
         exists run rest, l = run ++ rest /\
           Forall (fun k => space k = ns /\ local k = nm /\ described ns w' k) run /\
           (required = true -> run <> []) /\ (repeats = false -> (length run <= 1)%nat) /\
           seq r rest
       end) parts (elements (children x))
  end.

(** ** Messages that deviate from their description *)

(** Child elements that this library reads and writes and the service descriptions
    do not know. *)
Definition extension (parent nm : string) : bool :=
  (String.eqb parent "stopTransactionRequest" && String.eqb nm "reason") ||
  (String.eqb parent "transactionData" && (String.eqb nm "sampledValue" || String.eqb nm "timestamp")) ||
  (String.eqb parent "stopTransactionResponse" && String.eqb nm "IdTagInfo") ||
  (String.eqb parent "remoteStartTransactionRequest" && String.eqb nm "chargingProfile") ||
  (String.eqb parent "sendLocalListRequest" && String.eqb nm "localAuthorizationList").

(** Like [described], but the child elements may come in any order, required ones
    may be missing, and there may be elements of names that the description does
    not know, as far as [others] (given the name of the element around) lets them. *)
Fixpoint recognisable (others : string -> string -> bool) (ns : string) (w : wtype) (x : xml) {struct w} : Prop :=
  match w with
  | WStr _ _ => True
  | WInt => exists z, int_text (chars x) z
  | WBool => exists b, bool_text (chars x) b
  | WTime => exists t, parse_rfc3339 (chars x) = Some t
  | WVal _ => True
  | WSeq parts =>
    (fix all (ps : list (string * bool * bool * wtype)) {struct ps} : Prop :=
       match ps with
       | [] => True
       | (nm, required, repeats, w') :: r =>
         Forall (fun k => space k = ns /\ recognisable others ns w' k) (named nm (children x)) /\
         (repeats = false -> (length (named nm (children x)) <= 1)%nat) /\
         all r
       end) parts /\
    Forall (fun k => In (local k) (map (fun p => fst (fst (fst p))) parts) \/ others (local x) (local k) = true)
      (elements (children x))
  end.

Definition anything (parent nm : string) : bool := true.
Definition no_extension (parent nm : string) : bool := negb (extension parent nm).

(** ** What a Go value says *)

(** Go field of a child element: its name with a capital letter, but for three. *)
Definition upper (c : ascii) : ascii := if between 97 122 c then chr (code c - 32) else c.
Definition capital (s : string) : string :=
  match s with String c r => String (upper c) r | EmptyString => s end.
Definition go_field (parent nm : string) : string :=
  if String.eqb parent "meterValuesRequest" && String.eqb nm "values" then "MeterValue"
  else if String.eqb parent "values" && String.eqb nm "value" then "SampledValues"
  else if String.eqb nm "heartbeatInterval" then "Interval"
  else capital nm.

(** The child elements that this library does not know: they are unread. *)
Definition unread (parent nm : string) : bool :=
  (String.eqb parent "transactionData" && String.eqb nm "values") ||
  (String.eqb parent "stopTransactionResponse" && String.eqb nm "idTagInfo") ||
  (String.eqb parent "sendLocalListRequest" && (String.eqb nm "localAuthorisationList" || String.eqb nm "hash")) ||
  (String.eqb parent "sendLocalListResponse" && String.eqb nm "hash").

(** The zero values of Go, which stand for an absent element. *)
Definition unset (v : gval) : Prop :=
  v = VStr "" \/ v = VInt 0 \/ v = VF64 (FFin false 0 (-1074)) \/ v = VBool false \/ v = VTime time_zero \/ v = VNil.

(** The value of an attribute; "" if absent. *)
Definition attribute (nm : string) (x : xml) : string :=
  match x with
  | XE _ _ attrs _ => fold_left (fun r a => if String.eqb (snd (fst a)) nm then snd a else r) attrs ""
  | XT _ => ""
  end.

(** The value [v] says what the element [x] of type [w] says, except for [unread]
    elements.  A sequence is a struct or a pointer to one. *)
Fixpoint agrees (parent : string) (w : wtype) (x : xml) (v : gval) {struct w} : Prop :=
  match w with
  | WStr _ _ => v = VStr (chars x)
  | WInt => exists z, int_text (chars x) z /\ (v = VInt z \/ exists y, v = VF64 y /\ f64_toZ y = Some z)
  | WBool => exists b, bool_text (chars x) b /\ v = VBool b
  | WTime => exists t, parse_rfc3339 (chars x) = Some t /\ (v = VTime t \/ v = VPtr (VTime t))
  | WVal attrs => exists fs, (v = VStruct fs \/ v = VPtr (VStruct fs)) /\
      lookup "Value" fs = Some (VStr (chars x)) /\
      forall a values, In (a, values) attrs -> lookup (capital a) fs = Some (VStr (attribute a x))
  | WSeq parts => exists fs, (v = VStruct fs \/ v = VPtr (VStruct fs)) /\
      (fix all (ps : list (string * bool * bool * wtype)) {struct ps} : Prop :=
         match ps with
         | [] => True
         | (nm, required, repeats, w') :: r =>
           (unread parent nm = false ->
            exists u, lookup (go_field parent nm) fs = Some u /\
              match named nm (children x) with
              | [] => unset u
              | l => if repeats then exists us, u = VSlice us /\ Forall2 (agrees nm w') l us
                     else exists k, l = [k] /\ agrees nm w' k u
              end) /\
           all r
         end) parts
  end.

(** ** Values that the service descriptions can express *)

(** Integers of 32 bits, and whole numbers below a million where Go has doubles. *)
Fixpoint plain_numbers (v : gval) : bool :=
  match v with
  | VInt z => (- 2 ^ 31 <=? z)%Z && (z <? 2 ^ 31)%Z
  | VF64 x => match f64_toZ x with Some z => (Z.abs z <? 10 ^ 6)%Z | None => false end
  | VPtr v => plain_numbers v
  | VSlice l => forallb plain_numbers l
  | VStruct fs => forallb (fun kv => plain_numbers (snd kv)) fs
  | _ => true
  end.

(** ** Which elements are there *)

(** Values that stand for nothing: Go's zero values and lists without anything else. *)
Fixpoint left_out (v : gval) : bool :=
  match v with
  | VStr s => String.eqb s ""
  | VInt z => Z.eqb z 0
  | VF64 (FFin _ m _) => Z.eqb m 0
  | VBool b => negb b
  | VNil => true
  | VSlice l => forallb left_out l
  | _ => false
  end.

(** The element [x] has a child element for a part of its description exactly when
    the value [v] has something to say there, or when the part is required and the
    message is for a charge point (then also 0, false and "" are written).  And so
    on for the children; a list has an element for each member that is not empty. *)
Fixpoint present (ns parent : string) (w : wtype) (x : xml) (v : gval) {struct w} : Prop :=
  match w with
  | WSeq parts => exists fs, (v = VStruct fs \/ v = VPtr (VStruct fs)) /\
      (fix all (ps : list (string * bool * bool * wtype)) {struct ps} : Prop :=
         match ps with
         | [] => True
         | (nm, required, repeats, w') :: r =>
           (unread parent nm = false ->
            exists u, lookup (go_field parent nm) fs = Some u /\
              (named nm (children x) = [] <-> left_out u = true /\ (required = false \/ ns = "urn://Ocpp/Cs/2012/06/")) /\
              (if repeats then forall us, u = VSlice us ->
                 Forall2 (present ns nm w') (named nm (children x)) (filter (fun u' => negb (left_out u')) us)
               else forall k, named nm (children x) = [k] -> present ns nm w' k u)) /\
           all r
         end) parts
  | _ => True
  end.
