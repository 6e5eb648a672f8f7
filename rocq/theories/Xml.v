(** encoding/xml as the SOAP transport of /repo uses it (soap/marshal.go,
    soap/server.go, soap/client.go): element trees, and encoding and decoding of
    the struct types of messages/v1x/*/messages.go driven by their xml tags.

    Level of abstraction: a document is the tree that the tokenizer of
    encoding/xml delivers, with prefixes replaced by the namespaces they stand
    for.  Writing a tree and tokenizing the result gives the same tree, with every
    string passed through [xml_clean]: XmlSyntax.v and XmlWrite.v model the bytes, C85 - C88 in PropsXml.v prove it.  Comments and processing instructions are
    not in the tree.  Namespace declarations may be left out of the attributes
    or be present as attributes of space "xmlns"; nothing below looks at the
    space of an attribute.  Error texts are not modelled: [None] is an error. *)
From Verif Require Import GoBase Utf8 Json Float64 GoTime Lang Types Codec.
From Verif Require JsonText.
Open Scope string_scope.
Open Scope list_scope.

(** An element with namespace, local name, attributes (namespace, local name,
    value) and content, or character data.
    What soap/marshal.go:13-31 reads and writes. *)
Inductive xml : Type :=
| XE (ns name : string) (attrs : list (string * string * string)) (kids : list xml)
| XT (s : string).

(** encoding/xml EscapeText (xml.go escapeText), seen after unescaping: bytes that
    are not UTF-8 and characters outside the range XML allows (control
    characters except tab, newline and carriage return; U+FFFE, U+FFFF) become
    U+FFFD. *)
Definition xml_ctl (c : ascii) : bool :=
  (N.ltb (code c) 32 && negb (N.eqb (code c) 9) && negb (N.eqb (code c) 10) && negb (N.eqb (code c) 13))%bool.
(** encoding/xml isInCharacterRange: U+FFFE and U+FFFF; used when soap/marshal.go:29 writes text. *)
Definition xml_bad3 (a b c : ascii) : bool :=
  (N.eqb (code a) 239 && N.eqb (code b) 191 && (N.eqb (code c) 190 || N.eqb (code c) 191))%bool.
(** encoding/xml escapeText, as described above, for texts written at soap/marshal.go:29. *)
Fixpoint xml_clean (s : string) : string :=
  match s with
  | EmptyString => EmptyString
  | String a r =>
    match utf8_size s, r with
    | 1%nat, _ => if xml_ctl a then fffd +++ xml_clean r else String a (xml_clean r)
    | 2%nat, String b r1 => String a (String b (xml_clean r1))
    | 3%nat, String b (String c r1) =>
        if xml_bad3 a b c then fffd +++ xml_clean r1
        else String a (String b (String c (xml_clean r1)))
    | 4%nat, String b (String c (String d r1)) =>
        String a (String b (String c (String d (xml_clean r1))))
    | _, _ => fffd +++ xml_clean r
    end
  end.

(** Character data of an element: no token for the empty string.
    encoding/xml marshal.go marshalValue, called at soap/marshal.go:29. *)
Definition xtext (s : string) : list xml := if String.eqb s "" then [] else [XT s].

(** ** Scalars *)

(** strconv.FormatFloat(x, 'g', -1, 64) (marshal.go marshalSimple): exponent form
    iff the decimal exponent is below -4 or at least 6 (ftoa.go formatDigits; 1e6
    is written 1e+06). *)
Definition render_e2 (D j : Z) : string :=
  let ds := Float64.dec D in
  let len := Z.of_nat (String.length ds) in
  let ex := (len + j - 1)%Z in
  let mant := if (len =? 1)%Z then ds else substring 0 1 ds +++ "." +++ substring 1 (String.length ds - 1) ds in
  mant +++ (if (ex <? 0)%Z then "e-" else "e+") +++
  (if (Z.abs ex <? 10)%Z then "0" +++ Float64.dec (Z.abs ex) else Float64.dec (Z.abs ex)).
(** strconv ftoa.go %g with shortest digits, called by encoding/xml marshalSimple (soap/marshal.go:29). *)
Definition render_g (D j : Z) : string :=
  let '(D', j') := strip0 20 D j in
  let ex := (Z.of_nat (String.length (Float64.dec D')) + j' - 1)%Z in
  if (ex <? -4)%Z || (6 <=? ex)%Z then render_e2 D' j' else render_f D' j'.
(** Shortest decimal that reads back as the same double (compare [shortest] of
    Float64.v, which differs only in the rendering).
    strconv ftoa.go, called by encoding/xml marshalSimple (soap/marshal.go:29). *)
Fixpoint shortest_g (fuel : nat) (p : Z) (m e : Z) : string :=
  match fuel with
  | O => exact_lit m e
  | S f' =>
    let num := fnum m e in
    let den := fden e in
    let j := (dexp num den - p)%Z in
    let a := if (0 <=? j)%Z then num else (num * 10 ^ (- j))%Z in
    let b := if (0 <=? j)%Z then (den * 10 ^ j)%Z else den in
    let lo := (a / b)%Z in
    let near := if rounds_up lo (a mod b)%Z b then (lo + 1)%Z else lo in
    let other := if rounds_up lo (a mod b)%Z b then lo else (lo + 1)%Z in
    let s1 := render_g near j in
    let s2 := render_g other j in
    if reads_as m e s1 then s1
    else if reads_as m e s2 then s2
    else shortest_g f' (p + 1)%Z m e
  end.
(** strconv.FormatFloat(x, 'g', -1, 64), in encoding/xml marshalSimple (soap/marshal.go:29). *)
Definition fmt_g (x : f64) : string :=
  match x with
  | FFin neg m e =>
      let body := if (m =? 0)%Z then "0" else shortest_g 17 1 m e in
      if neg then "-" +++ body else body
  | FInf false => "+Inf"
  | FInf true => "-Inf"
  | FNaN => "NaN"
  end.

(** strings.TrimSpace: Unicode white space, the function ws/conn.go calls as well.
    For encoding/xml copyValue (soap/marshal.go:15). *)
Definition trim (s : string) : string := JsonText.trim_space s.

(** Does the text start with this byte (strconv.ParseInt and ParseFloat look for a sign)?  For soap/marshal.go:15. *)
Definition starts (c : ascii) (s : string) : bool :=
  match s with String d _ => Ascii.eqb c d | EmptyString => false end.

(** read.go copyValue, integers: empty text is 0; otherwise
    strconv.ParseInt(strings.TrimSpace(src), 10, bits), which accepts a sign. *)
Definition xml_int (bits : Z) (s : string) : option Z :=
  if String.eqb s "" then Some 0%Z
  else let t := trim s in
       if starts "+"%char t
       then (if starts "-"%char (drop1 t) then None else parse_int bits (drop1 t))
       else parse_int bits t.

(** read.go copyValue, booleans: empty text is false; otherwise
    strconv.ParseBool(strings.TrimSpace(src)). *)
Definition xml_bool (s : string) : option bool :=
  if String.eqb s "" then Some false
  else let t := trim s in
       if strmem t ["1"; "t"; "T"; "true"; "TRUE"; "True"] then Some true
       else if strmem t ["0"; "f"; "F"; "false"; "FALSE"; "False"] then Some false
       else None.

(** strconv special: infinities and NaN in any case, for encoding/xml copyValue (soap/marshal.go:15). *)
Fixpoint lower_all (s : string) : string :=
  match s with EmptyString => EmptyString | String c r => String (lower c) (lower_all r) end.

(** strconv.ParseFloat: decimal forms that are not JSON literals (leading zeros, ".5", "5."), read as the literal of the
    same value.  An exponent is taken as it is; strconv stops at five digits, which shows only for texts of more than
    10000 digits.
    strconv readFloat, for encoding/xml copyValue (soap/marshal.go:15). *)
Definition dec_float (s : string) : option f64 :=
  let '(ip, r) := span_digits s in
  let '(fp, r1) := if starts "."%char r then span_digits (drop1 r) else ("", r) in
  if String.eqb ip "" && String.eqb fp "" then None
  else match pexp r1 with
       | Some (e, EmptyString) => parse_float (Float64.dec (digits_val 0 (ip +++ fp)) +++ "e" +++
            dec_int ((match drop1 e with
                      | String c d => if Ascii.eqb c "-"%char then - digits_val 0 d
                                      else if Ascii.eqb c "+"%char then digits_val 0 d
                                      else digits_val 0 (String c d)
                      | EmptyString => 0
                      end) - Z.of_nat (String.length fp))%Z)
       | _ => None
       end.

(** Hexadecimal digits (strconv readFloat, for soap/marshal.go:15). *)
Definition is_hex (c : ascii) : bool := match hexval c with Some _ => true | None => false end.
(** As many of them as there are (strconv readFloat, for soap/marshal.go:15). *)
Fixpoint span_hex (s : string) : string * string :=
  match s with
  | EmptyString => (EmptyString, EmptyString)
  | String c r => if is_hex c then let '(d, t) := span_hex r in (String c d, t) else (EmptyString, s)
  end.
(** Their value (strconv readFloat, for soap/marshal.go:15). *)
Fixpoint hex_digits_val (acc : Z) (s : string) : Z :=
  match s with
  | EmptyString => acc
  | String c r => hex_digits_val (16 * acc + match hexval c with Some n => Z.of_N n | None => 0 end) r
  end%Z.
(** Rounded to the nearest double; [None] is the range error.
    strconv atofHex, for encoding/xml copyValue (soap/marshal.go:15). *)
Definition hex_value (h k : Z) : option f64 :=
  if (h =? 0)%Z then Some (FFin false 0 (-1074))
  else match round_pos (if (0 <=? k)%Z then h * 2 ^ k else h)%Z (if (0 <=? k)%Z then 1 else 2 ^ (- k))%Z with
       | Some (m, e) => Some (FFin false m e)
       | None => None
       end.
(** What follows 0x: digits, a point or none, and an exponent of two, which must be there.
    strconv readFloat, for encoding/xml copyValue (soap/marshal.go:15). *)
Definition hex_float (s : string) : option f64 :=
  let '(ip, r) := span_hex s in
  let '(fp, r1) := if starts "."%char r then span_hex (drop1 r) else ("", r) in
  if String.eqb ip "" && String.eqb fp "" then None
  else if starts "p"%char r1 || starts "P"%char r1 then
    let r2 := drop1 r1 in
    let '(neg, r3) := if starts "-"%char r2 then (true, drop1 r2) else if starts "+"%char r2 then (false, drop1 r2) else (false, r2) in
    if str_forall is_digit r3 && negb (String.eqb r3 "")
    then hex_value (hex_digits_val 0 (ip +++ fp)) ((if neg then - digits_val 0 r3 else digits_val 0 r3) - 4 * Z.of_nat (String.length fp))%Z
    else None
  else None.

(** Underscores stand between digits; 0x counts as one.  [prev]: the last byte was a digit (1), an underscore (2), something else.
    strconv underscoreOK, for encoding/xml copyValue (soap/marshal.go:15). *)
Fixpoint grouped_from (hex : bool) (prev : nat) (s : string) : bool :=
  match s with
  | EmptyString => negb (Nat.eqb prev 2)
  | String c r => if is_digit c || hex && is_hex c then grouped_from hex 1 r
                  else if Ascii.eqb c "_" then Nat.eqb prev 1 && grouped_from hex 2 r
                  else negb (Nat.eqb prev 2) && grouped_from hex 0 r
  end.
(** Without underscores (strconv readFloat, for soap/marshal.go:15). *)
Fixpoint ungroup (s : string) : string :=
  match s with
  | EmptyString => EmptyString
  | String c r => if Ascii.eqb c "_" then ungroup r else String c (ungroup r)
  end.
(** strconv readFloat and underscoreOK, base prefix (for soap/marshal.go:15). *)
Definition hex_prefix (s : string) : bool := starts "0"%char s && (starts "x"%char (drop1 s) || starts "X"%char (drop1 s)).

(** strconv.ParseFloat: infinities and NaN, hexadecimal and decimal forms, with underscores.
    For encoding/xml copyValue (soap/marshal.go:15). *)
Definition ext_unsigned (s : string) : option f64 :=
  let t := lower_all s in
  if String.eqb t "inf" || String.eqb t "infinity" then Some (FInf false)
  else if String.eqb t "nan" then Some FNaN
  else if hex_prefix s then (let r := drop1 (drop1 s) in if grouped_from true 1 r then hex_float (ungroup r) else None)
  else if grouped_from false 0 s then dec_float (ungroup s) else None.
(** Sign of strconv.ParseFloat (soap/marshal.go:15). *)
Definition fneg (x : f64) : f64 :=
  match x with FFin b m e => FFin (negb b) m e | FInf b => FInf (negb b) | FNaN => FNaN end.
(** strconv.ParseFloat with a sign, for encoding/xml copyValue (soap/marshal.go:15). *)
Definition ext_float (s : string) : option f64 :=
  if starts "-"%char s then (if String.eqb (lower_all (drop1 s)) "nan" then None else omap fneg (ext_unsigned (drop1 s)))
  else if starts "+"%char s then (if String.eqb (lower_all (drop1 s)) "nan" then None else ext_unsigned (drop1 s))
  else ext_unsigned s.
(** read.go copyValue, floats: empty text is 0. *)
Definition xml_float (s : string) : option f64 :=
  if String.eqb s "" then Some (FFin false 0 (-1074))
  else let t := trim s in
       match parse_float t with Some x => Some x | None => ext_float t end.

(** ** Encoding (encoding/xml marshal.go marshalValue, marshalAttr, marshalStruct) *)

(** A field without an xml tag is written under its Go name
    (typeinfo.go structFieldInfo).  The two of them are the fields whose tags are
    not well-formed key:"value" pairs: cpresp/messages.go:33, 90. *)
Definition untagged (f : field) : bool := String.eqb (x_name (f_xml f)) (f_name f).

(** Namespace of the element of a field: that of the enclosing struct's XMLName,
    for tagged fields.
    encoding/xml typeinfo.go, marshal.go, for the types of messages/v1x/*/messages.go. *)
Definition field_ns (d : decl) (f : field) : string :=
  match d_xml d with
  | Some (ns, _) => if untagged f then "" else ns
  | None => ""
  end.

(** An element written without namespace is read with that of the innermost
    xmlns="..." around it.
    encoding/xml translate, for soap/marshal.go:15 reading what 29 wrote. *)
Definition inherit (inh ns : string) : string := if String.eqb ns "" then inh else ns.

(** Attribute of a field of kind [XAttr]; all of them are strings.
    Such as cpreq/messages.go SampledValue: Context, Format, Measurand, Phase, Location, Unit. *)
Definition xattr (f : field) (v : gval) : option (list (string * string * string)) :=
  if x_omit (f_xml f) && is_empty v then Some []
  else match v with
       | VStr s => Some [("", x_name (f_xml f), xml_clean s)]
       | _ => None
       end.

(** encoding/xml marshalSimple in an element (soap/marshal.go:29). *)
Definition simple (ns name : string) (s : string) : option (list xml) := Some [XE ns name [] (xtext s)].

(** A loop that stops at the first error (encoding/xml marshalStruct, soap/marshal.go:29). *)
Definition omapl {A B} (f : A -> option B) : list A -> option (list B) :=
  fix go (l : list A) : option (list B) :=
  match l with
  | [] => Some []
  | x :: r => match f x with
              | None => None
              | Some y => match go r with None => None | Some ys => Some (y :: ys) end
              end
  end.

(** What a value of type [t] contributes to its parent.  [tag] and [omit] are the
    name and the omitempty flag of the struct field it stands in (the elements
    of a slice are written one by one under the same flag); [inh] is the
    default namespace around it.  Pointers are followed without asking
    omitempty again; no field is a pointer to a slice or to a scalar.
    encoding/xml marshal.go marshalValue, called at soap/marshal.go:29. *)
Fixpoint xenc (inh : string) (tag : string * string) (omit : bool) (t : gty) (v : gval) {struct v}
    : option (list xml) :=
  if omit && is_empty v then Some []
  else
  match t, v with
  | TStr, VStr s => simple (inherit inh (fst tag)) (snd tag) (xml_clean s)
  | TInt _, VInt z => simple (inherit inh (fst tag)) (snd tag) (dec_int z)
  | TF64, VF64 x => simple (inherit inh (fst tag)) (snd tag) (fmt_g x)
  | TBool, VBool b => simple (inherit inh (fst tag)) (snd tag) (if b then "true" else "false")
  | TTime, VTime x =>
    (* Time.MarshalText *)
    if (0 <=? t_year x)%Z && (t_year x <=? 9999)%Z
    then simple (inherit inh (fst tag)) (snd tag) (format_nano x) else None
  | TPtr _, VNil => Some []
  | TPtr t', VPtr v' => xenc inh tag false t' v'
  | TSlice _, VNil => Some []
  | TSlice t', VSlice l => omap (@concat xml) (omapl (fun x => xenc inh tag omit t' x) l)
  | TStruct n, VStruct fs =>
    match find_decl n with
    | None => None
    | Some d =>
      let nm := match d_xml d with Some x => x | None => tag end in
      let ns := inherit inh (fst nm) in
      match
        omapl (fun kv =>
          match find_field d (fst kv) with
          | None => None
          | Some f =>
            match x_kind (f_xml f) with
            | XElem => omap (fun ks => ([], ks))
                         (xenc ns (field_ns d f, x_name (f_xml f)) (x_omit (f_xml f)) (f_ty f) (snd kv))
            | XAttr => omap (fun l => (l, [])) (xattr f (snd kv))
            | XChar => match snd kv with VStr s => Some ([], xtext (xml_clean s)) | _ => None end
            | XSkip => Some ([], [])
            end
          end) fs
      with
      | None => None
      | Some l => Some [XE ns (snd nm) (concat (map fst l)) (concat (map snd l))]
      end
    end
  | _, _ => None
  end.

(** ** Decoding (encoding/xml read.go unmarshal) *)

(** An element waiting for the type and the current value of the variable it is
    decoded into.
    encoding/xml unmarshal, called at soap/marshal.go:15, 53-163 *)
Definition slot := gty -> gval -> option gval.

(** The character data of an element (encoding/xml read.go, soap/marshal.go:15). *)
Definition text_of (kids : list xml) : string :=
  fold_right (fun k r => match k with XT s => s +++ r | XE _ _ _ _ => r end) "" kids.

(** The struct's XMLName must match the element.
    encoding/xml read.go unmarshal, called at soap/marshal.go:53-163. *)
Definition xname_ok (d : decl) (el : string * string) : bool :=
  match d_xml d with
  | None => true
  | Some (ns, nm) => (String.eqb nm (snd el) && (String.eqb ns "" || String.eqb ns (fst el)))%bool
  end.

(** Every field that takes the attribute gets it.
    encoding/xml read.go unmarshal, called at soap/marshal.go:53-163. *)
Definition take_attr (d : decl) (a : string * string * string) (fs : list (string * gval)) : list (string * gval) :=
  fold_left (fun fs f =>
    match x_kind (f_xml f) with
    | XAttr => if String.eqb (x_name (f_xml f)) (snd (fst a)) then set_field (f_name f) (VStr (snd a)) fs else fs
    | _ => fs
    end) (d_fields d) fs.

(** The first field that takes a child element (read.go unmarshalPath). *)
Definition takes (d : decl) (el : string * string) (f : field) : bool :=
  match x_kind (f_xml f) with
  | XElem => (String.eqb (x_name (f_xml f)) (snd el) &&
              (String.eqb (field_ns d f) "" || String.eqb (field_ns d f) (fst el)))%bool
  | _ => false
  end.

(** Child elements in order; those no field takes are skipped.
    encoding/xml read.go unmarshal, called at soap/marshal.go:53-163. *)
Fixpoint take_kids (d : decl) (kids : list ((string * string) * slot)) (fs : list (string * gval))
    : option (list (string * gval)) :=
  match kids with
  | [] => Some fs
  | (el, dl) :: r =>
    match find (takes d el) (d_fields d) with
    | None => take_kids d r fs
    | Some f =>
      match lookup (f_name f) fs with
      | None => None
      | Some cur => match dl (f_ty f) cur with
                    | None => None
                    | Some v => take_kids d r (set_field (f_name f) v fs)
                    end
      end
    end
  end.

(** Character data goes to the first chardata field, at the end.
    encoding/xml read.go unmarshal, called at soap/marshal.go:53-163. *)
Definition take_text (d : decl) (s : string) (fs : list (string * gval)) : list (string * gval) :=
  match find (fun f => match x_kind (f_xml f) with XChar => true | _ => false end) (d_fields d) with
  | Some f => set_field (f_name f) (VStr s) fs
  | None => fs
  end.

(** Time.UnmarshalText parses RFC 3339 without trimming.
    One element decoded into a value of type [t]: encoding/xml read.go unmarshal, called at soap/marshal.go:53-163. *)
Fixpoint xat (el : string * string) (attrs : list (string * string * string)) (txt : string)
    (kids : list ((string * string) * slot)) (t : gty) (cur : gval) {struct t} : option gval :=
  match t with
  | TStr => Some (VStr txt)
  | TInt b => omap VInt (xml_int b txt)
  | TF64 => omap VF64 (xml_float txt)
  | TBool => omap VBool (xml_bool txt)
  | TTime => omap VTime (parse_rfc3339 txt)
  | TPtr t' => omap VPtr (xat el attrs txt kids t' (match cur with VPtr v => v | _ => zero t' end))
  | TSlice t' =>
    omap (fun v => VSlice ((match cur with VSlice l => l | _ => [] end) ++ [v]))
         (xat el attrs txt kids t' (zero t'))
  | TStruct n =>
    match find_decl n, cur with
    | Some d, VStruct fs =>
      if xname_ok d el then
        omap (fun fs => VStruct (take_text d txt fs))
             (take_kids d kids (fold_left (fun fs a => take_attr d a fs) attrs fs))
      else None
    | _, _ => None
    end
  end.

(** encoding/xml Decoder.DecodeElement, called at soap/marshal.go:53-163. *)
Fixpoint xdec (x : xml) : slot :=
  match x with
  | XT _ => fun _ _ => None
  | XE ns nm attrs kids =>
    xat (ns, nm) attrs (text_of kids)
      (flat_map (fun k => match k with
                          | XE n l _ _ => [((n, l), xdec k)]
                          | XT _ => []
                          end) kids)
  end.
