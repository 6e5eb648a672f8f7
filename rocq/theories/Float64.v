(** IEEE-754 binary64 as used by encoding/json for untyped payload numbers
    (ws/message.go:141-152, ws/conn.go:116-165: payloads travel as
    map[string]interface{}, so every number goes through float64).

    Model of strconv.ParseFloat, of the float encoder of encoding/json and of
    strconv.ParseInt / AppendInt. *)
From Coq Require Import ZifyBool ZifyNat ZifyN.
From Verif Require Import GoBase Json.
Ltac Zify.zify_post_hook ::= Z.div_mod_to_equations.
Local Open Scope Z_scope.

(** A float64.  Finite values are sign, mantissa, exponent: value m * 2^e.
    The float64 fields of messages/v1x/*/messages.go, the numbers of ws/conn.go:117. *)
Inductive f64 : Type :=
| FFin (neg : bool) (m e : Z)
| FInf (neg : bool)
| FNaN.

(** Canonical finite values: normal or subnormal.
    IEEE 754, for ws/conn.go:117-122. *)
Definition canon (x : f64) : bool :=
  match x with
  | FFin _ m e =>
      ((2 ^ 52 <=? m) && (m <? 2 ^ 53) && (-1074 <=? e) && (e <=? 971))
      || ((0 <=? m) && (m <? 2 ^ 52) && (e =? -1074))
  | _ => true
  end.

(** Not NaN or an infinity: encoding/json floatEncoder (ws/message.go:48). *)
Definition finite (x : f64) : bool := match x with FFin _ _ _ => true | _ => false end.

(** ** Decimal digits *)

(** strconv, for encoding/json, called at ws/message.go:48, 71, 131, 143. *)
Definition digit (d : Z) : ascii := chr (Z.to_N (48 + d)).

(** strconv.AppendInt digits, for encoding/json, called at ws/message.go:48, 71, 131, 143. *)
Fixpoint dec_fuel (f : nat) (n : Z) : string :=
  match f with
  | O => EmptyString
  | S f' => if n <? 10 then str1 (digit n)
            else dec_fuel f' (n / 10) +++ str1 (digit (n mod 10))
  end.

(** Decimal text of a non-negative integer.
    strconv.AppendInt, for encoding/json, called at ws/message.go:48, 71, 131, 143. *)
Definition dec (n : Z) : string := dec_fuel (S (Z.to_nat (Z.log2 n))) n.

(** strconv.AppendInt(_, n, 10).
    encoding/json, called at ws/message.go:48, 71, 131, 143. *)
Definition dec_int (n : Z) : string := if n <? 0 then "-" +++ dec (- n) else dec n.

(** strconv.ParseInt digits, for encoding/json, called at ws/conn.go:118, 235, 256. *)
Definition dval (c : ascii) : Z := Z.of_N (code c) - 48.

(** strconv.ParseInt digits, for encoding/json, called at ws/conn.go:118, 235, 256. *)
Fixpoint digits_val (acc : Z) (s : string) : Z :=
  match s with
  | EmptyString => acc
  | String c r => digits_val (10 * acc + dval c) r
  end.

(** ** Literals *)

(** s[1:] in strconv, for encoding/json, called at ws/conn.go:118, 235, 256. *)
Definition drop1 (s : string) : string := match s with String _ r => r | EmptyString => EmptyString end.

(** sign, digits as integer, decimal exponent: the literal denotes D * 10^k.
    strconv readFloat, for encoding/json, called at ws/conn.go:118, 235, 256. *)
Definition lit_parts (l : string) : option (bool * Z * Z) :=
  let '(neg, s1) :=
    match l with
    | String c r => if Ascii.eqb c "-"%char then (true, r) else (false, l)
    | EmptyString => (false, l)
    end in
  match pint s1 with
  | None => None
  | Some (i, s2) =>
    match pfrac s2 with
    | None => None
    | Some (f, s3) =>
      match pexp s3 with
      | Some (e, EmptyString) =>
        let fr := drop1 f in
        let ex :=
          match drop1 e with
          | String c r =>
            if Ascii.eqb c "-"%char then - digits_val 0 r
            else if Ascii.eqb c "+"%char then digits_val 0 r
            else digits_val 0 (String c r)
          | EmptyString => 0
          end in
        Some (neg, digits_val 0 (i +++ fr), ex - Z.of_nat (String.length fr))
      | _ => None
      end
    end
  end.

(** ** Rounding a positive rational num/den to the nearest double, ties to even *)

(** IEEE 754 rounding in strconv, for encoding/json, called at ws/conn.go:118, 235, 256. *)
Definition up (k : Z) : Z := 2 ^ (Z.max k 0).

(** floor (log2 (num/den)).
    IEEE 754 rounding in strconv, for encoding/json, called at ws/conn.go:118, 235, 256. *)
Definition flog2 (num den : Z) : Z :=
  let l := Z.log2 num - Z.log2 den in
  if den * up l <=? num * up (- l) then l else l - 1.

(** strconv.ParseFloat rounding, for encoding/json, called at ws/conn.go:118, 235, 256. *)
Definition round_pos (num den : Z) : option (Z * Z) :=
  let e := Z.max (flog2 num den - 52) (-1074) in
  let a := num * up (- e) in
  let b := den * up e in
  let q := a / b in
  let r := a mod b in
  let m := if 2 * r <? b then q
           else if b <? 2 * r then q + 1
           else if Z.even q then q else q + 1 in
  let '(m', e') := if m =? 2 ^ 53 then (2 ^ 52, e + 1) else (m, e) in
  if 971 <? e' then None else Some (m', e').

(** strconv.ParseFloat(l, 64); [None] is the range error.
    encoding/json, called at ws/conn.go:118, 235, 256. *)
Definition parse_float (l : string) : option f64 :=
  match lit_parts l with
  | None => None
  | Some (neg, D, k) =>
    if D =? 0 then Some (FFin neg 0 (-1074))
    else
      match round_pos (if 0 <=? k then D * 10 ^ k else D) (if 0 <=? k then 1 else 10 ^ (- k)) with
      | Some (m, e) => Some (FFin neg m e)
      | None => None
      end
  end.

(** strconv.ParseInt(l, 10, bits) on a JSON number literal.
    encoding/json, called at ws/conn.go:118, 235, 256. *)
Definition parse_int (bits : Z) (l : string) : option Z :=
  let '(neg, s) :=
    match l with
    | String c r => if Ascii.eqb c "-"%char then (true, r) else (false, l)
    | EmptyString => (false, l)
    end in
  if str_forall is_digit s && negb (String.eqb s EmptyString) then
    let v := if neg then - digits_val 0 s else digits_val 0 s in
    if (- 2 ^ (bits - 1) <=? v) && (v <? 2 ^ (bits - 1)) then Some v else None
  else None.

(** ** Formatting *)

(** Numerator of m * 2^e, for strconv.FormatFloat (encoding/json, called at ws/message.go:48, 71, 131, 143). *)
Definition fnum (m e : Z) : Z := m * up e.
(** Denominator of m * 2^e, for strconv.FormatFloat (encoding/json, called at ws/message.go:48, 71, 131, 143). *)
Definition fden (e : Z) : Z := up (- e).

(** Decimal exponent: 10^(dexp-1) <= num/den < 10^dexp.
    strconv ftoa.go, for encoding/json, called at ws/message.go:48, 71, 131, 143. *)
Definition dexp (num den : Z) : Z :=
  if den <=? num then Z.of_nat (String.length (dec (num / den)))
  else 1 - Z.of_nat (String.length (dec ((den + num - 1) / num - 1))).

(** Trailing zeros of the digits dropped, strconv ftoa.go, for encoding/json, called at ws/message.go:48, 71, 131, 143. *)
Fixpoint strip0 (f : nat) (D j : Z) : Z * Z :=
  match f with
  | O => (D, j)
  | S f' => if (D =? 0) || negb (D mod 10 =? 0) then (D, j) else strip0 f' (D / 10) (j + 1)
  end.

(** n zeros, strconv ftoa.go fmtF, for encoding/json, called at ws/message.go:48, 71, 131, 143. *)
Fixpoint zeros (n : nat) : string := match n with O => EmptyString | S k => String "0"%char (zeros k) end.

(** Text of D * 10^j in Go's 'f' format.
    encoding/json, called at ws/message.go:48, 71, 131, 143. *)
Definition render_f (D j : Z) : string :=
  let ds := dec D in
  let len := Z.of_nat (String.length ds) in
  let dp := len + j in
  if dp <=? 0 then "0." +++ zeros (Z.to_nat (- dp)) +++ ds
  else if dp <? len then substring 0 (Z.to_nat dp) ds +++ "." +++ substring (Z.to_nat dp) (Z.to_nat (len - dp)) ds
  else ds +++ zeros (Z.to_nat j).

(** Text of D * 10^j in Go's 'e' format, after encoding/json's clean-up of e-09.
    encoding/json, called at ws/message.go:48, 71, 131, 143. *)
Definition render_e (D j : Z) : string :=
  let ds := dec D in
  let len := Z.of_nat (String.length ds) in
  let ex := len + j - 1 in
  let mant := if len =? 1 then ds else substring 0 1 ds +++ "." +++ substring 1 (String.length ds - 1) ds in
  mant +++ (if ex <? 0 then "e-" +++ dec (- ex) else "e+" +++ (if ex <? 10 then "0" +++ dec ex else dec ex)).

(** encoding/json floatEncoder: 'e' format iff abs < 1e-6 or abs >= 1e21.  The
    double nearest 1e-6 is 4722366482869645 * 2^-72.
    encoding/json, called at ws/message.go:48, 71, 131, 143. *)
Definition use_e (num den : Z) : bool :=
  (num * 2 ^ 72 <? 4722366482869645 * den) || (10 ^ 21 * den <=? num).

(** encoding/json floatEncoder: 'e' or 'f' format (encoding/json, called at ws/message.go:48, 71, 131, 143). *)
Definition render (num den D j : Z) : string :=
  let '(D', j') := strip0 20 D j in
  if use_e num den then render_e D' j' else render_f D' j'.

(** Exact decimal text of m * 2^e.  Only a fallback that makes the search total: 17
    digits always suffice, so Go's (and this model's) search never reaches it.
    encoding/json, called at ws/message.go:48, 71, 131, 143. *)
Definition exact_lit (m e : Z) : string :=
  if 0 <=? e then dec (m * 2 ^ e) else dec (m * 5 ^ (- e)) +++ "e-" +++ dec (- e).

(** Does the text read back as m * 2^e (the meaning of precision -1 in strconv)?  For encoding/json, called at ws/message.go:48, 71, 131, 143. *)
Definition reads_as (m e : Z) (l : string) : bool :=
  is_num l &&
  match parse_float l with
  | Some (FFin false m' e') => (m' =? m) && (e' =? e)
  | _ => false
  end.

(** Is the number of [lo] + r/b nearer to [lo] + 1 than to [lo]?  Exactly half way
    the even one is taken: strconv decimal.go shouldRoundUp, for encoding/json,
    called at ws/message.go:48, 71, 131, 143. *)
Definition rounds_up (lo r b : Z) : bool := (b <? 2 * r) || ((2 * r =? b) && Z.odd lo).

(** Shortest decimal that reads back as the same double, the closest one when
    several of that length do.
    strconv.FormatFloat with precision -1, for encoding/json, called at ws/message.go:48, 71, 131, 143. *)
Fixpoint shortest (fuel : nat) (p : Z) (m e : Z) : string :=
  match fuel with
  | O => exact_lit m e
  | S f' =>
    let num := fnum m e in
    let den := fden e in
    let j := dexp num den - p in
    let a := if 0 <=? j then num else num * 10 ^ (- j) in
    let b := if 0 <=? j then den * 10 ^ j else den in
    let lo := a / b in
    let near := if rounds_up lo (a mod b) b then lo + 1 else lo in
    let other := if rounds_up lo (a mod b) b then lo else lo + 1 in
    let s1 := render num den near j in
    let s2 := render num den other j in
    if reads_as m e s1 then s1
    else if reads_as m e s2 then s2
    else shortest f' (p + 1) m e
  end.

(** encoding/json's text of a float64; [None]: UnsupportedValueError.
    encoding/json, called at ws/message.go:48, 71, 131, 143. *)
Definition fmt_float (x : f64) : option string :=
  match x with
  | FFin neg m e =>
      let body := if m =? 0 then "0"%string else shortest 17 1 m e in
      Some (if neg then "-" +++ body else body)
  | _ => None
  end.

(** The float64 of an integer, through its decimal text.
    MessageType constants 2, 3, 4 of ws/message.go:10-18 *)
Definition f64_of_Z (n : Z) : option f64 := parse_float (dec_int n).

Example fmt1 : option_map fmt_float (parse_float "123.456") = Some (Some "123.456"%string).
Proof. vm_compute. reflexivity. Qed.
Example fmt2 : option_map fmt_float (parse_float "1e21") = Some (Some "1e+21"%string).
Proof. vm_compute. reflexivity. Qed.
Example fmt3 : option_map fmt_float (parse_float "0.000000123") = Some (Some "1.23e-7"%string).
Proof. vm_compute. reflexivity. Qed.
Example fmt4 : option_map fmt_float (parse_float "5e-324") = Some (Some "5e-324"%string).
Proof. vm_compute. reflexivity. Qed.
Example fmt5 : option_map fmt_float (parse_float "1.7976931348623157e308") = Some (Some "1.7976931348623157e+308"%string).
Proof. vm_compute. reflexivity. Qed.
Example fmt6 : parse_float "1.7976931348623159e308" = None.
Proof. vm_compute. reflexivity. Qed.
Example fmt7 : option_map fmt_float (parse_float "-0.1") = Some (Some "-0.1"%string).
Proof. vm_compute. reflexivity. Qed.
Example fmt8 : option_map fmt_float (parse_float "9007199254740993") = Some (Some "9007199254740992"%string).
Proof. vm_compute. reflexivity. Qed.
Example fmt9 : option_map fmt_float (parse_float "0.000001") = Some (Some "0.000001"%string).
Proof. vm_compute. reflexivity. Qed.
Example fmt10 : option_map fmt_float (parse_float "9223372036854775807") = Some (Some "9223372036854776000"%string).
Proof. vm_compute. reflexivity. Qed.
Example fmt11 : option_map fmt_float (parse_float "100e2") = Some (Some "10000"%string).
Proof. vm_compute. reflexivity. Qed.
Example fmt12 : option_map fmt_float (parse_float "1.00000762939453125") = Some (Some "1.0000076293945312"%string).
Proof. vm_compute. reflexivity. Qed.
Example fmt13 : option_map fmt_float (parse_float "1.00002288818359375") = Some (Some "1.0000228881835938"%string).
Proof. vm_compute. reflexivity. Qed.
Example c16 : parse_float "0.000001" = Some (FFin false 4722366482869645 (-72)).
Proof. vm_compute. reflexivity. Qed.
