(** Specification: how a double is written down.  Nothing here mentions the writer of
    numbers. *)
From Coq Require Import QArith Qabs Qpower.
From Verif Require Import GoBase Json Float64 SpecJson SpecNumber.
Open Scope string_scope.
Open Scope list_scope.
Local Open Scope Z_scope.

(** [closest m e s]: the text [s] is the best one for the positive double m * 2^e: it
    is read back as that double, it has at most seventeen significant digits, no text
    that is read back has fewer, and none with as many is closer; if another one is as
    close, they are neighbours A and A + 1 or A - 1 in their last digit, and [s] is the
    one with A even. *)
Definition closest (m e : Z) (s : string) : Prop :=
  taken_as s (FFin false m e) /\
  (significant s <= 17)%nat /\
  (forall l, taken_as l (FFin false m e) -> (significant s <= significant l)%nat) /\
  (forall Ds ks l D k, denotes s false Ds ks -> taken_as l (FFin false m e) -> denotes l false D k -> significant l = significant s ->
     (Qabs (decimal Ds ks - double m e) <= Qabs (decimal D k - double m e))%Q /\
     ((Qabs (decimal Ds ks - double m e) == Qabs (decimal D k - double m e))%Q ->
        (decimal D k == decimal Ds ks)%Q \/
        exists A j, Z.even A = true /\ (decimal Ds ks == decimal A j)%Q /\ ((decimal D k == decimal (A + 1) j)%Q \/ (decimal D k == decimal (A - 1) j)%Q))).

(** Digits, and perhaps a fraction that does not end with a zero. *)
Definition plain_layout (s : string) : Prop :=
  exists i f fd, s = i +++ f /\ int_part i /\ fraction f fd /\ trailing fd = fd.
(** One digit, not zero, perhaps a fraction that does not end with a zero, and an
    exponent, not zero, with its sign and digits that satisfy [ok]. *)
Definition exp_layout (ok : string -> Prop) (s : string) : Prop :=
  exists d f fd sg n, s = d +++ f +++ "e" +++ sg +++ n /\ String.length d = 1%nat /\ d <> "0" /\ int_part d /\ fraction f fd /\ trailing fd = fd /\
    In sg ["+"; "-"] /\ ok n /\ digits_val 0 n <> 0.

(** No zero in front. *)
Definition bare (n : string) : Prop := int_part n.
(** At least two digits; no zero in front if there are more. *)
Definition padded (n : string) : Prop := some_digits n /\ (2 <= String.length n)%nat /\ ((2 < String.length n)%nat -> int_part n).

(** JSON: an exponent is used for doubles below the one of 10^-6 and from 10^21 on. *)
Definition json_layout (m e : Z) (s : string) : Prop :=
  forall m6 e6, nearest (decimal 1 (-6)) m6 e6 ->
    ((double m e < double m6 e6)%Q \/ (decimal 1 21 <= double m e)%Q -> exp_layout bare s) /\
    ((double m6 e6 <= double m e)%Q /\ (double m e < decimal 1 21)%Q -> plain_layout s).
(** SOAP: an exponent is used for decimals below 10^-4 and from 10^6 on. *)
Definition soap_layout (s : string) : Prop :=
  forall D k, denotes s false D k ->
    ((decimal D k < decimal 1 (-4))%Q \/ (decimal 1 6 <= decimal D k)%Q -> exp_layout padded s) /\
    ((decimal 1 (-4) <= decimal D k)%Q /\ (decimal D k < decimal 1 6)%Q -> plain_layout s).

(** [json_number x s], [soap_number x s]: [s] is the text of the double [x]. *)
Definition json_number (x : f64) (s : string) : Prop :=
  exists neg m e b, x = FFin neg m e /\ s = (if neg then "-" else "") +++ b /\
    ((m = 0 /\ b = "0") \/ (0 < m /\ closest m e b /\ json_layout m e b)).
Definition soap_number (x : f64) (s : string) : Prop :=
  match x with
  | FFin neg m e => exists b, s = (if neg then "-" else "") +++ b /\ ((m = 0 /\ b = "0") \/ (0 < m /\ closest m e b /\ soap_layout b))
  | FInf neg => s = if neg then "-Inf" else "+Inf"
  | FNaN => s = "NaN"
  end.
