(** JSON text as read and written by Go's encoding/json.

    - [json] is a parsed document.  Numbers keep their literal text (what
      json.RawMessage preserves); strings are decoded.  Objects keep the textual
      order and duplicates.
    - [parse] models json.Unmarshal's syntax check and string unquoting.
    - [print] models json.Marshal's compact output (HTML escaping on, invalid
      UTF-8 written as the escape for U+FFFD).

    Model of the Go standard library.  Simplifications: the nesting-depth limit
    (10000) of recent Go releases is not modelled; error texts of the JSON
    package are not modelled. *)
From Verif Require Import GoBase Utf8.
Local Open Scope N_scope.

(** What encoding/json reads and writes: ws/conn.go:118, 269. *)
Inductive json : Type :=
| JNull
| JBool (b : bool)
| JNum (lit : string)
| JStr (s : string)
| JArr (l : list json)
| JObj (l : list (string * json)).

(** ** Printing *)

(** encoding/json, called at ws/message.go:48, 71, 131, 143 *)
Definition hexd (n : N) : ascii := if n <? 10 then chr (48 + n) else chr (87 + n).

(** encoding/json, called at ws/message.go:48, 71, 131, 143 *)
Definition u00 (c : ascii) : string :=
  String bsl ("u00" +++ String (hexd (code c / 16)) (str1 (hexd (code c mod 16)))).

(** encodeState.string, one byte below 0x80.
    encoding/json, called at ws/message.go:48, 71, 131, 143. *)
Definition qascii (c : ascii) : string :=
  let b := code c in
  if (b =? 34) || (b =? 92) then String bsl (str1 c)
  else if b =? 10 then String bsl "n"
  else if b =? 13 then String bsl "r"
  else if b =? 9 then String bsl "t"
  else if (b <? 32) || (b =? 60) || (b =? 62) || (b =? 38) then u00 c
  else str1 c.

(** U+2028 and U+2029 are E2 80 A8 / E2 80 A9.
    encoding/json, called at ws/message.go:48, 71, 131, 143 *)
Definition is_line_sep (a b c : ascii) : bool :=
  (code a =? 226) && (code b =? 128) && ((code c =? 168) || (code c =? 169)).

(** A three-byte character in encodeState.string, encoding/json, called at ws/message.go:48, 71, 131, 143. *)
Definition q3 (a b c : ascii) : string :=
  if is_line_sep a b c
  then String bsl ("u202" +++ str1 (hexd (code c - 160)))
  else String a (String b (str1 c)).

(** encodeState.string, encoding/json, called at ws/message.go:48, 71, 131, 143. *)
Fixpoint qbody (s : string) : string :=
  match s with
  | EmptyString => EmptyString
  | String a r =>
    match utf8_size s, r with
    | 1%nat, _ => qascii a +++ qbody r
    | 2%nat, String b r1 => String a (String b (qbody r1))
    | 3%nat, String b (String c r1) => q3 a b c +++ qbody r1
    | 4%nat, String b (String c (String d r1)) =>
        String a (String b (String c (String d (qbody r1))))
    | _, _ => String bsl ("ufffd" +++ qbody r)
    end
  end.

(** encodeState.string with the quotes, encoding/json, called at ws/message.go:48, 71, 131, 143. *)
Definition quote (s : string) : string := String dq (qbody s +++ str1 dq).

(** A document without white space, encoding/json, called at ws/message.go:48, 71, 131, 143. *)
Fixpoint print (j : json) : string :=
  match j with
  | JNull => "null"
  | JBool true => "true"
  | JBool false => "false"
  | JNum l => l
  | JStr s => quote s
  | JArr l => "[" +++ join "," (map print l) +++ "]"
  | JObj l =>
      "{" +++ join "," (map (fun kv => quote (fst kv) +++ ":" +++ print (snd kv)) l) +++ "}"
  end.

(** ** Parsing *)

(** encoding/json, called at ws/conn.go:118, 235, 256. *)
Definition is_ws (c : ascii) : bool :=
  let b := code c in (b =? 32) || (b =? 9) || (b =? 10) || (b =? 13).

(** White space, encoding/json, called at ws/conn.go:118, 235, 256. *)
Fixpoint skip_ws (s : string) : string :=
  match s with
  | String c r => if is_ws c then skip_ws r else s
  | EmptyString => EmptyString
  end.

(** decode.go getu4, encoding/json, called at ws/conn.go:118, 235, 256. *)
Definition hexval (c : ascii) : option N :=
  let b := code c in
  if (48 <=? b) && (b <=? 57) then Some (b - 48)
  else if (97 <=? b) && (b <=? 102) then Some (b - 87)
  else if (65 <=? b) && (b <=? 70) then Some (b - 55)
  else None.

(** decode.go getu4, encoding/json, called at ws/conn.go:118, 235, 256. *)
Definition hex4 (a b c d : ascii) : option N :=
  match hexval a, hexval b, hexval c, hexval d with
  | Some w, Some x, Some y, Some z => Some (4096 * w + 256 * x + 16 * y + z)
  | _, _, _, _ => None
  end.

(** utf16.IsSurrogate, in decode.go unquote, encoding/json, called at ws/conn.go:118, 235, 256. *)
Definition is_surrogate (r : N) : bool := (55296 <=? r) && (r <? 57344).

(** utf16.DecodeRune: [Some] when the pair is a proper surrogate pair.
    In decode.go unquote, encoding/json, called at ws/conn.go:118, 235, 256. *)
Definition surrogate_pair (r1 r2 : N) : option N :=
  if (55296 <=? r1) && (r1 <? 56320) && (56320 <=? r2) && (r2 <? 57344)
  then Some (65536 + (r1 - 55296) * 1024 + (r2 - 56320))
  else None.

(** Decoded bytes put before the rest, decode.go unquote, encoding/json, called at ws/conn.go:118, 235, 256. *)
Definition addl (p : string) (o : option (string * string)) : option (string * string) :=
  match o with Some (x, r) => Some (p +++ x, r) | None => None end.

(** decode.go unquote: one-letter escapes, encoding/json, called at ws/conn.go:118, 235, 256. *)
Definition simple_escape (c : ascii) : option ascii :=
  let b := code c in
  if (b =? 34) || (b =? 92) || (b =? 47) then Some c
  else if b =? 98 then Some (chr 8)
  else if b =? 102 then Some (chr 12)
  else if b =? 110 then Some (chr 10)
  else if b =? 114 then Some (chr 13)
  else if b =? 116 then Some (chr 9)
  else None.

(** Body of a string literal after the opening quote: decoded content and the
    text after the closing quote.
    scanner.go, decode.go unquote, encoding/json, called at ws/conn.go:118, 235, 256. *)
Fixpoint pstr (s : string) : option (string * string) :=
  match s with
  | EmptyString => None
  | String a r =>
    if Ascii.eqb a dq then Some (EmptyString, r)
    else if Ascii.eqb a bsl then
      match r with
      | String e r1 =>
        match simple_escape e with
        | Some c => addl (str1 c) (pstr r1)
        | None =>
          if Ascii.eqb e "u"%char then
            match r1 with
            | String h1 (String h2 (String h3 (String h4 r2))) =>
              match hex4 h1 h2 h3 h4 with
              | None => None
              | Some x =>
                if is_surrogate x then
                  match r2 with
                  | String e1 (String e2 (String g1 (String g2 (String g3 (String g4 r3))))) =>
                    if Ascii.eqb e1 bsl && Ascii.eqb e2 "u"%char then
                      match hex4 g1 g2 g3 g4 with
                      | Some y =>
                        match surrogate_pair x y with
                        | Some z => addl (utf8_encode z) (pstr r3)
                        | None => addl fffd (pstr r2)
                        end
                      | None => addl fffd (pstr r2)
                      end
                    else addl fffd (pstr r2)
                  | _ => addl fffd (pstr r2)
                  end
                else addl (utf8_encode x) (pstr r2)
              end
            | _ => None
            end
          else None
        end
      | EmptyString => None
      end
    else if code a <? 32 then None
    else
      match utf8_size s, r with
      | 1%nat, _ => addl (str1 a) (pstr r)
      | 2%nat, String b r1 => addl (String a (str1 b)) (pstr r1)
      | 3%nat, String b (String c r1) => addl (String a (String b (str1 c))) (pstr r1)
      | 4%nat, String b (String c (String d r1)) =>
          addl (String a (String b (String c (str1 d)))) (pstr r1)
      | _, _ => addl fffd (pstr r)
      end
  end.

(** scanner.go, encoding/json, called at ws/conn.go:118, 235, 256. *)
Definition is_digit (c : ascii) : bool := between 48 57 c.

(** scanner.go, encoding/json, called at ws/conn.go:118, 235, 256. *)
Fixpoint span_digits (s : string) : string * string :=
  match s with
  | String c r =>
    if is_digit c then let '(d, t) := span_digits r in (String c d, t) else (EmptyString, s)
  | EmptyString => (EmptyString, EmptyString)
  end.

(** integer part: 0 | [1-9][0-9]*.
    scanner.go, encoding/json, called at ws/conn.go:118, 235, 256 *)
Definition pint (s : string) : option (string * string) :=
  match s with
  | String c r =>
    if Ascii.eqb c "0"%char then Some ("0"%string, r)
    else if is_digit c then let '(d, t) := span_digits r in Some (String c d, t)
    else None
  | EmptyString => None
  end.

(** optional fraction.
    scanner.go, encoding/json, called at ws/conn.go:118, 235, 256 *)
Definition pfrac (s : string) : option (string * string) :=
  match s with
  | String c r =>
    if Ascii.eqb c "."%char then
      match span_digits r with
      | (EmptyString, _) => None
      | (d, t) => Some (String c d, t)
      end
    else Some (EmptyString, s)
  | EmptyString => Some (EmptyString, EmptyString)
  end.

(** optional exponent.
    scanner.go, encoding/json, called at ws/conn.go:118, 235, 256 *)
Definition pexp (s : string) : option (string * string) :=
  match s with
  | String c r =>
    if Ascii.eqb c "e"%char || Ascii.eqb c "E"%char then
      let '(sg, r1) :=
        match r with
        | String d r' =>
          if Ascii.eqb d "+"%char || Ascii.eqb d "-"%char then (str1 d, r') else (EmptyString, r)
        | EmptyString => (EmptyString, r)
        end in
      match span_digits r1 with
      | (EmptyString, _) => None
      | (d, t) => Some (String c (sg +++ d), t)
      end
    else Some (EmptyString, s)
  | EmptyString => Some (EmptyString, EmptyString)
  end.

(** scanner.go: a number, encoding/json, called at ws/conn.go:118, 235, 256. *)
Definition pnum (s : string) : option (string * string) :=
  let '(sg, s1) :=
    match s with
    | String c r => if Ascii.eqb c "-"%char then (str1 c, r) else (EmptyString, s)
    | EmptyString => (EmptyString, s)
    end in
  match pint s1 with
  | None => None
  | Some (i, s2) =>
    match pfrac s2 with
    | None => None
    | Some (f, s3) =>
      match pexp s3 with
      | None => None
      | Some (e, s4) => Some (sg +++ i +++ f +++ e, s4)
      end
    end
  end.

(** [strip p s] removes the literal prefix [p].
    scanner.go stateT.., encoding/json, called at ws/conn.go:118, 235, 256 *)
Fixpoint strip (p s : string) : option string :=
  match p, s with
  | EmptyString, _ => Some s
  | String a p', String b s' => if Ascii.eqb a b then strip p' s' else None
  | _, _ => None
  end.

(** scanner.go: true, false, null, encoding/json, called at ws/conn.go:118, 235, 256. *)
Definition plit (p : string) (j : json) (s : string) : option (json * string) :=
  match strip p s with Some r => Some (j, r) | None => None end.

(** scanner.go: one value.  (Simplified: no limit on the nesting depth; Go stops at 10000.)  encoding/json, called at ws/conn.go:118, 235, 256. *)
Fixpoint pval (n : nat) (s0 : string) {struct n} : option (json * string) :=
  match n with
  | O => None
  | S n' =>
    match skip_ws s0 with
    | EmptyString => None
    | String a r =>
      if Ascii.eqb a dq then
        match pstr r with Some (x, t) => Some (JStr x, t) | None => None end
      else if Ascii.eqb a "["%char then
        match skip_ws r with
        | String b r' =>
          if Ascii.eqb b "]"%char then Some (JArr [], r')
          else match pelems n' r with Some (l, t) => Some (JArr l, t) | None => None end
        | EmptyString => None
        end
      else if Ascii.eqb a "{"%char then
        match skip_ws r with
        | String b r' =>
          if Ascii.eqb b "}"%char then Some (JObj [], r')
          else match pmembers n' r with Some (l, t) => Some (JObj l, t) | None => None end
        | EmptyString => None
        end
      else if Ascii.eqb a "n"%char then plit "ull" JNull r
      else if Ascii.eqb a "t"%char then plit "rue" (JBool true) r
      else if Ascii.eqb a "f"%char then plit "alse" (JBool false) r
      else match pnum (String a r) with Some (l, t) => Some (JNum l, t) | None => None end
    end
  end
with pelems (n : nat) (s : string) {struct n} : option (list json * string) :=
  match n with
  | O => None
  | S n' =>
    match pval n' s with
    | None => None
    | Some (j, t) =>
      match skip_ws t with
      | EmptyString => None
      | String c t' =>
        if Ascii.eqb c ","%char then
          match pelems n' t' with Some (l, u) => Some (j :: l, u) | None => None end
        else if Ascii.eqb c "]"%char then Some ([j], t')
        else None
      end
    end
  end
with pmembers (n : nat) (s : string) {struct n} : option (list (string * json) * string) :=
  match n with
  | O => None
  | S n' =>
    match skip_ws s with
    | EmptyString => None
    | String a r =>
      if Ascii.eqb a dq then
        match pstr r with
        | None => None
        | Some (k, t) =>
          match skip_ws t with
          | EmptyString => None
          | String c t1 =>
            if Ascii.eqb c ":"%char then
              match pval n' t1 with
              | None => None
              | Some (j, t2) =>
                match skip_ws t2 with
                | EmptyString => None
                | String d t3 =>
                  if Ascii.eqb d ","%char then
                    match pmembers n' t3 with
                    | Some (l, u) => Some ((k, j) :: l, u)
                    | None => None
                    end
                  else if Ascii.eqb d "}"%char then Some ([(k, j)], t3)
                  else None
                end
              end
            else None
          end
        end
      else None
    end
  end.

(** A whole document: one value, surrounded by white space only.
    ws/conn.go:118, 235, 256; ws/message.go:147 *)
Definition parse (s : string) : option json :=
  match pval (2 * String.length s + 2)%nat s with
  | Some (j, t) => match skip_ws t with EmptyString => Some j | _ => None end
  | None => None
  end.

(** ** Predicates used in statements *)

(** A JSON number literal.
    scanner.go, encoding/json, called at ws/conn.go:118, 235, 256. *)
Definition is_num (l : string) : bool :=
  match pnum l with Some (_, EmptyString) => true | _ => false end.

(** All number literals inside are syntactically numbers.
    encoding/json, called at ws/conn.go:118, 235, 256. *)
Fixpoint wf_json (j : json) : bool :=
  match j with
  | JNull | JBool _ | JStr _ => true
  | JNum l => is_num l
  | JArr l => forallb wf_json l
  | JObj l => forallb (fun kv => wf_json (snd kv)) l
  end.

(** The document with invalid UTF-8 replaced in every string and key.
    encoding/json, called at ws/message.go:48, 71, 131, 143. *)
Fixpoint jsan (j : json) : json :=
  match j with
  | JNull => JNull
  | JBool b => JBool b
  | JNum l => JNum l
  | JStr s => JStr (sanitize s)
  | JArr l => JArr (map jsan l)
  | JObj l => JObj (map (fun kv => (sanitize (fst kv), jsan (snd kv))) l)
  end.
