(** Specification: which double the text of an XML element stands for, in decimal
    or hexadecimal form.  Nothing here mentions the reader of numbers. *)
From Coq Require Import QArith Qabs Qpower.
From Verif Require Import GoBase Json Float64 SpecJson SpecNumber.
Open Scope string_scope.
Open Scope list_scope.
Local Open Scope Z_scope.

(** The same letters, capital or not; [t] is written in small ones. *)
Fixpoint any_case (s t : string) : Prop :=
  match s, t with
  | EmptyString, EmptyString => True
  | String a r, String b u => (a = b \/ (65 <= code a <= 90)%N /\ (code a + 32 = code b)%N) /\ any_case r u
  | _, _ => False
  end.

(** Hexadecimal digits and what they are worth together. *)
Inductive hex_number : string -> Z -> Prop :=
| hn_none : hex_number "" 0
| hn_more s v c n : hex_number s v -> hex_digit c n -> hex_number (s +++ str1 c) (16 * v + Z.of_N n).

(** [grouped dg first s t]: [t] is [s] without its underscores; each of them stands
    right behind a digit (or at the beginning, if [first]) and right before one. *)
Inductive without_underscores : string -> string -> Prop :=
| wu_none : without_underscores "" ""
| wu_drop s t : without_underscores s t -> without_underscores (String "_" s) t
| wu_keep c s t : c <> "_"%char -> without_underscores s t -> without_underscores (String c s) (String c t).
Definition grouped (dg : ascii -> Prop) (first : bool) (s t : string) : Prop :=
  without_underscores s t /\
  forall a b, s = a +++ String "_" b ->
    ((a = "" /\ first = true) \/ exists a' c, a = a' +++ str1 c /\ dg c) /\ exists c b', b = String c b' /\ dg c.
Definition dec_char (c : ascii) : Prop := digit c = true.
Definition hex_char (c : ascii) : Prop := exists n, hex_digit c n.

(** Whole digits and digits behind the point; not both of them missing. *)
Definition pointed (s i fd : string) : Prop := (s = i /\ fd = "" \/ s = i +++ "." +++ fd) /\ i +++ fd <> "".

(** [unsigned_double s x]: a text without a sign and not NaN. *)
Inductive unsigned_double : string -> f64 -> Prop :=
| ud_inf s : any_case s "inf" \/ any_case s "infinity" -> unsigned_double s (FInf false)
| ud_dec s p i fd e ev m x : grouped dec_char false s (p +++ e) -> pointed p i fd -> digits i -> digits fd -> exponent e ev ->
    let v := decimal (digits_val 0 (i +++ fd)) (ev - Z.of_nat (String.length fd)) in
    nearest v m x -> ~ too_large v -> unsigned_double s (FFin false m x)
| ud_hex zx q p i fd h (minus : bool) sg ds m x : In zx ["0x"; "0X"] -> grouped hex_char true q (p +++ sg +++ ds) -> pointed p i fd -> hex_number (i +++ fd) h ->
    In sg (if minus then ["p-"; "P-"] else ["p"; "P"; "p+"; "P+"]) -> some_digits ds ->
    let k := (if minus then - digits_val 0 ds else digits_val 0 ds) - 4 * Z.of_nat (String.length fd) in
    nearest (double h k) m x -> ~ too_large (double h k) -> unsigned_double (zx +++ q) (FFin false m x).

Definition negated (x : f64) : f64 := match x with FFin b m e => FFin (negb b) m e | FInf b => FInf (negb b) | FNaN => FNaN end.
(** [double_text s x]: the text [s] stands for [x].  Nothing at all is 0; otherwise
    white space, a sign or none, a number, white space. *)
Inductive double_text : string -> f64 -> Prop :=
| dt_empty : double_text "" (FFin false 0 (-1074))
| dt_nan l s r : whites l -> whites r -> any_case s "nan" -> double_text (l +++ s +++ r) FNaN
| dt_plus l sg s r x : whites l -> whites r -> In sg [""; "+"] -> unsigned_double s x -> double_text (l +++ sg +++ s +++ r) x
| dt_minus l s r x : whites l -> whites r -> unsigned_double s x -> double_text (l +++ "-" +++ s +++ r) (negated x).
