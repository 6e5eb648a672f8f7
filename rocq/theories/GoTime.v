(** time.Time as far as the message codecs can see it: the civil fields in the
    time's own location plus the zone offset in seconds.

    Simplifications: the location's name and the monotonic clock reading are
    dropped (Format with RFC 3339 never shows them), and two times are the same
    value here when they have the same civil fields and offset.

    Used by messages/v1x/*/json_encode.go (x.Format(time.RFC3339)) and by
    json.Unmarshal / xml.Unmarshal into time.Time fields of
    messages/v1x/*/messages.go.  The behaviour is that of Go's time package
    (format.go: Format, Parse, getnum, atoi, parseNanoseconds). *)
From Coq Require Import ZifyBool ZifyNat ZifyN.
From Verif Require Import GoBase Json Float64.
Local Open Scope Z_scope.

(** A time.Time of messages/v1x/*/messages.go. *)
Record time := MkTime {
  t_year : Z; t_month : Z; t_day : Z;
  t_hour : Z; t_min : Z; t_sec : Z; t_nsec : Z;
  t_off : Z   (* seconds east of UTC *)
}.

(** The zero value of time.Time: January 1, year 1, 00:00:00 UTC.
    A time.Time of messages/v1x/*/messages.go. *)
Definition time_zero : time := MkTime 1 1 1 0 0 0 0 0.

(** time.isLeap, for time.Time of messages/v1x/*/messages.go. *)
Definition leap (y : Z) : bool :=
  (y mod 4 =? 0) && (negb (y mod 100 =? 0) || (y mod 400 =? 0)).

(** time.daysIn.
    time.Time of messages/v1x/*/messages.go. *)
Definition days_in (m y : Z) : Z :=
  if m =? 2 then (if leap y then 29 else 28)
  else if (m =? 4) || (m =? 6) || (m =? 9) || (m =? 11) then 30 else 31.

(** A date and time of day that exists.
    time.Time of messages/v1x/*/messages.go. *)
Definition time_valid (t : time) : bool :=
  (1 <=? t_month t) && (t_month t <=? 12) &&
  (1 <=? t_day t) && (t_day t <=? days_in (t_month t) (t_year t)) &&
  (0 <=? t_hour t) && (t_hour t <? 24) &&
  (0 <=? t_min t) && (t_min t <? 60) &&
  (0 <=? t_sec t) && (t_sec t <? 60) &&
  (0 <=? t_nsec t) && (t_nsec t <? 1000000000).

(** time.appendInt(b, x, width) for non-negative x.
    Called by Format, csresp/json_encode.go:210. *)
Fixpoint zpad (k : nat) (s : string) : string :=
  match k with O => s | S k' => String "0"%char (zpad k' s) end.
(** Two digits and more: time.appendInt, called by Format, csresp/json_encode.go:210. *)
Definition pad (w : nat) (n : Z) : string :=
  zpad (w - String.length (dec n)) (dec n).
(** time.appendInt for a year that may be negative, called by Format, csresp/json_encode.go:210. *)
Definition pad_int (w : nat) (n : Z) : string :=
  if n <? 0 then "-" +++ pad w (- n) else pad w n.

(** Numeric zone of layout "Z07:00" (format.go, stdISO8601ColonTZ): "Z" at
    offset 0, otherwise the offset in whole minutes (truncated). *)
Definition fmt_zone (off : Z) : string :=
  if off =? 0 then "Z"
  else
    let zone := Z.quot off 60 in
    let a := Z.abs zone in
    (if zone <? 0 then "-" else "+") +++ pad 2 (a / 60) +++ ":" +++ pad 2 (a mod 60).

(** Date and time of day of time.RFC3339, called at csresp/json_encode.go:210. *)
Definition fmt_civil (t : time) : string :=
  pad_int 4 (t_year t) +++ "-" +++ pad 2 (t_month t) +++ "-" +++ pad 2 (t_day t) +++ "T" +++
  pad 2 (t_hour t) +++ ":" +++ pad 2 (t_min t) +++ ":" +++ pad 2 (t_sec t).

(** t.Format(time.RFC3339), layout "2006-01-02T15:04:05Z07:00" *)
Definition format_rfc3339 (t : time) : string := fmt_civil t +++ fmt_zone (t_off t).

(** Fractional second of layout ".999999999": nothing when zero, otherwise nine
    digits without trailing zeros.
    time.appendNano, for Time.MarshalText (soap/marshal.go:29). *)
Fixpoint strip_zeros (f : nat) (n : Z) (w : nat) : Z * nat :=
  match f with
  | O => (n, w)
  | S f' => if n mod 10 =? 0 then strip_zeros f' (n / 10) (pred w) else (n, w)
  end.
(** time.appendNano, for Time.MarshalText (soap/marshal.go:29). *)
Definition fmt_frac (ns : Z) : string :=
  if ns =? 0 then EmptyString
  else let '(n, w) := strip_zeros 9 ns 9 in "." +++ pad w n.

(** t.Format(time.RFC3339Nano), as used by Time.MarshalJSON and MarshalText.
    soap/marshal.go:29; ws/message.go:143 for structs without MarshalJSON. *)
Definition format_nano (t : time) : string :=
  fmt_civil t +++ fmt_frac (t_nsec t) +++ fmt_zone (t_off t).

(** ** Parsing *)

(** time.isDigit, for time.Parse (ws/conn.go:235, soap/marshal.go:15). *)
Definition is_dig (c : ascii) : bool := is_digit c.

(** skip(value, prefix) for a one-character prefix.
    In time.Parse (ws/conn.go:235, soap/marshal.go:15) *)
Definition expect (c : ascii) (s : string) : option string :=
  match s with
  | String d r => if Ascii.eqb c d then Some r else None
  | EmptyString => None
  end.

(** getnum(s, fixed).
    In time.Parse (ws/conn.go:235, soap/marshal.go:15) *)
Definition getnum (fixed : bool) (s : string) : option (Z * string) :=
  match s with
  | String a r =>
    if is_dig a then
      match r with
      | String b r' => if is_dig b then Some (10 * dval a + dval b, r')
                       else if fixed then None else Some (dval a, r)
      | EmptyString => if fixed then None else Some (dval a, r)
      end
    else None
  | EmptyString => None
  end.

(** The range checks of time.Parse (ws/conn.go:235, soap/marshal.go:15). *)
Definition in_range (lo hi : Z) (r : option (Z * string)) : option (Z * string) :=
  match r with
  | Some (n, s) => if (lo <=? n) && (n <=? hi) then Some (n, s) else None
  | None => None
  end.

(** stdLongYear: at least four bytes, first a digit, atoi of the first four
    (a digit first means no sign, so all four must be digits).
    In time.Parse (ws/conn.go:235, soap/marshal.go:15). *)
Definition getyear (s : string) : option (Z * string) :=
  match s with
  | String a (String b (String c (String d r))) =>
    if is_dig a && is_dig b && is_dig c && is_dig d
    then Some (digits_val 0 (String a (String b (String c (String d EmptyString)))), r) else None
  | _ => None
  end.

(** Fractional seconds accepted although the layout has none: ".digits".
    parseNanoseconds: the digits as an integer must be below 10^9; it is scaled
    by 10^(9 - number of digits) when fewer than nine.
    In time.Parse (ws/conn.go:235, soap/marshal.go:15). *)
Definition getfrac (s : string) : option (Z * string) :=
  match s with
  | String c (String d r) =>
    if Ascii.eqb c "."%char && is_dig d then
      let '(ds, r') := span_digits (String d r) in
      let n := digits_val 0 ds in
      if n <? 1000000000
      then Some (n * 10 ^ Z.max 0 (9 - Z.of_nat (String.length ds)), r')
      else None
    else Some (0, s)
  | _ => Some (0, s)
  end.

(** time.atoi on a two-byte string: a sign is allowed.
    In time.Parse (ws/conn.go:235, soap/marshal.go:15). *)
Definition atoi2 (a b : ascii) : option Z :=
  if is_dig a && is_dig b then Some (10 * dval a + dval b)
  else if Ascii.eqb a "-"%char && is_dig b then Some (- dval b)
  else if Ascii.eqb a "+"%char && is_dig b then Some (dval b)
  else None.

(** stdISO8601ColonTZ: 'Z', or sign hh ':' mm with no range check.
    In time.Parse (ws/conn.go:235, soap/marshal.go:15). *)
Definition getzone (s : string) : option (Z * string) :=
  match s with
  | String z r =>
    if Ascii.eqb z "Z"%char then Some (0, r)
    else match r with
    | String h1 (String h2 (String c (String m1 (String m2 r')))) =>
      if Ascii.eqb c ":"%char then
        match atoi2 h1 h2, atoi2 m1 m2 with
        | Some h, Some m =>
          let o := (h * 60 + m) * 60 in
          if Ascii.eqb z "+"%char then Some (o, r')
          else if Ascii.eqb z "-"%char then Some (- o, r')
          else None
        | _, _ => None
        end
      else None
    | _ => None
    end
  | EmptyString => None
  end.

(** if err != nil { return } of time.Parse (ws/conn.go:235, soap/marshal.go:15). *)
Definition obind {A B} (o : option A) (f : A -> option B) : option B :=
  match o with Some a => f a | None => None end.

(** time.Parse(time.RFC3339, s).
    Time.UnmarshalJSON and UnmarshalText (ws/conn.go:235, 256, soap/marshal.go:15) *)
Definition parse_rfc3339 (s : string) : option time :=
  obind (getyear s) (fun '(y, s) =>
  obind (expect "-"%char s) (fun s =>
  obind (in_range 1 12 (getnum true s)) (fun '(mo, s) =>
  obind (expect "-"%char s) (fun s =>
  obind (getnum true s) (fun '(d, s) =>
  obind (expect "T"%char s) (fun s =>
  obind (in_range 0 23 (getnum false s)) (fun '(h, s) =>
  obind (expect ":"%char s) (fun s =>
  obind (in_range 0 59 (getnum true s)) (fun '(mi, s) =>
  obind (expect ":"%char s) (fun s =>
  obind (in_range 0 59 (getnum true s)) (fun '(se, s) =>
  obind (getfrac s) (fun '(ns, s) =>
  obind (getzone s) (fun '(off, s) =>
  match s with
  | EmptyString =>
    if (1 <=? d) && (d <=? days_in mo y) then Some (MkTime y mo d h mi se ns off) else None
  | _ => None
  end))))))))))))).

(** t.Truncate to whole seconds: what RFC 3339 without fraction can carry.
    csresp/json_encode.go:210 *)
Definition trunc_sec (t : time) : time :=
  MkTime (t_year t) (t_month t) (t_day t) (t_hour t) (t_min t) (t_sec t) 0 (t_off t).

(** Times that the RFC 3339 text can carry: four-digit year, offset a whole
    number of minutes below 100 hours.
    csresp/json_encode.go:210 and ws/conn.go:235 *)
Definition time_wire (t : time) : bool :=
  time_valid t && (0 <=? t_year t) && (t_year t <=? 9999) &&
  (t_off t mod 60 =? 0) && (Z.abs (t_off t) <? 360000).

Example parse_ex : parse_rfc3339 "2019-11-04T09:05:06.25+05:30" =
  Some (MkTime 2019 11 4 9 5 6 250000000 19800).
Proof. vm_compute. reflexivity. Qed.
Example nano_ex : format_nano (MkTime 2019 11 4 9 5 6 250000000 (-19800)) = "2019-11-04T09:05:06.25-05:30"%string.
Proof. vm_compute. reflexivity. Qed.
