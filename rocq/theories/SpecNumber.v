(** Specification: what the text of a JSON number stands for, and which double is
    taken for it.  Nothing here mentions the reader or the writer of numbers. *)
From Coq Require Import QArith Qabs Qpower.
From Verif Require Import GoBase Json Float64 SpecJson.
Open Scope string_scope.
Open Scope list_scope.
Local Open Scope Z_scope.

(** The fraction part and its digits, the exponent part and its value. *)
Inductive fraction : string -> string -> Prop :=
| fr_none : fraction "" ""
| fr_some d : some_digits d -> fraction ("." +++ d) d.
Inductive exponent : string -> Z -> Prop :=
| ex_none : exponent "" 0
| ex_plus e sg d : In e ["e"; "E"] -> In sg [""; "+"] -> some_digits d -> exponent (e +++ sg +++ d) (digits_val 0 d)
| ex_minus e d : In e ["e"; "E"] -> some_digits d -> exponent (e +++ "-" +++ d) (- digits_val 0 d).

(** [denotes l neg D k]: the number text [l] stands for D * 10^k, or its negation. *)
Definition denotes (l : string) (neg : bool) (D k : Z) : Prop :=
  exists i f fd e ev, l = (if neg then "-" else "") +++ i +++ f +++ e /\ int_part i /\ fraction f fd /\ exponent e ev /\
    D = digits_val 0 (i +++ fd) /\ k = ev - Z.of_nat (String.length fd).

(** Decimals and doubles as rational numbers. *)
Definition decimal (D k : Z) : Q := (inject_Z D * Qpower 10 k)%Q.
Definition double (m e : Z) : Q := (inject_Z m * Qpower 2 e)%Q.

(** [nearest v m e]: of all doubles m * 2^e none is closer to [v]; if another one is
    as close, m is even. *)
Definition nearest (v : Q) (m e : Z) : Prop :=
  canon (FFin false m e) = true /\
  forall m' e', canon (FFin false m' e') = true ->
    (Qabs (v - double m e) <= Qabs (v - double m' e'))%Q /\
    ((Qabs (v - double m e) == Qabs (v - double m' e'))%Q -> (m' = m /\ e' = e) \/ Z.even m = true).

(** From here on there is no double: half a step above the largest one. *)
Definition too_large (v : Q) : Prop := (double (2 ^ 54 - 1) 970 <= v)%Q.

(** [taken_as l x]: the double [x] is taken for the number text [l]. *)
Definition taken_as (l : string) (x : f64) : Prop :=
  exists neg D k m e, denotes l neg D k /\ x = FFin neg m e /\ nearest (decimal D k) m e /\ ~ too_large (decimal D k).

(** The digits of a number text that matter: those before the exponent, without
    leading and trailing zeros. *)
Fixpoint leading (s : string) : string := match s with String c r => if Ascii.eqb c "0" then leading r else s | EmptyString => "" end.
Fixpoint trailing (s : string) : string :=
  match s with String c r => match trailing r with EmptyString => if Ascii.eqb c "0" then "" else String c "" | t => String c t end | EmptyString => "" end.
Fixpoint mantissa (s : string) : string :=
  match s with
  | String c r => if Ascii.eqb c "e" || Ascii.eqb c "E" then "" else if digit c then String c (mantissa r) else mantissa r
  | EmptyString => ""
  end.
Definition significant (s : string) : nat := String.length (trailing (leading (mantissa s))).
