(** Specification vocabulary for timestamps, independent of the model's time
    package: the Gregorian calendar and the texts of RFC 3339. *)
From Verif Require Import GoBase Json Float64 GoTime.
Open Scope string_scope.
Local Open Scope Z_scope.

(** ** The calendar *)

Definition leap_year (y : Z) : Prop := ((4 | y) /\ ~ (100 | y)) \/ (400 | y).
Definition real_day (y m d : Z) : Prop :=
  1 <= d /\
  ((In m [1; 3; 5; 7; 8; 10; 12] /\ d <= 31) \/
   (In m [4; 6; 9; 11] /\ d <= 30) \/
   (m = 2 /\ (d <= 28 \/ (d = 29 /\ leap_year y)))).
(** A time that exists (no leap seconds). *)
Definition real_time (t : time) : Prop :=
  real_day (t_year t) (t_month t) (t_day t) /\
  0 <= t_hour t < 24 /\ 0 <= t_min t < 60 /\ 0 <= t_sec t < 60 /\ 0 <= t_nsec t < 10 ^ 9.

(** ** RFC 3339 *)

(** [number k s n]: [s] is [k] digits that denote [n]. *)
Definition number (k : nat) (s : string) (n : Z) : Prop :=
  String.length s = k /\ str_forall is_digit s = true /\ digits_val 0 s = n.

(** time-secfrac, up to nine digits; [ns] in nanoseconds. *)
Definition fraction (s : string) (ns : Z) : Prop :=
  (s = "" /\ ns = 0) \/
  exists k ds n, s = "." +++ ds /\ number k ds n /\ (1 <= k <= 9)%nat /\ ns = n * 10 ^ (9 - Z.of_nat k).

(** time-offset; [off] in seconds east of UTC. *)
Definition offset (s : string) (off : Z) : Prop :=
  (s = "Z" /\ off = 0) \/
  exists sg h m a b, s = sg +++ h +++ ":" +++ m /\ number 2 h a /\ number 2 m b /\ a <= 23 /\ b <= 59 /\
    ((sg = "+" /\ off = (a * 60 + b) * 60) \/ (sg = "-" /\ off = - ((a * 60 + b) * 60))).

(** date-time, with its parts related by [hour], [frac] and [zone]. *)
Definition date_time (hour frac zone : string -> Z -> Prop) (s : string) (t : time) : Prop :=
  exists y mo d h mi se fr z,
    s = y +++ "-" +++ mo +++ "-" +++ d +++ "T" +++ h +++ ":" +++ mi +++ ":" +++ se +++ fr +++ z /\
    number 4 y (t_year t) /\ number 2 mo (t_month t) /\ number 2 d (t_day t) /\
    hour h (t_hour t) /\ number 2 mi (t_min t) /\ number 2 se (t_sec t) /\
    frac fr (t_nsec t) /\ zone z (t_off t).

Definition rfc3339 : string -> time -> Prop := date_time (number 2) fraction offset.

(** ** What Go accepts beyond that *)

(** Hours of one digit. *)
Definition lenient_hour (s : string) (n : Z) : Prop := number 2 s n \/ number 1 s n.
(** Fractions of any length, if the digits after leading zeros are nine at most;
    from the tenth digit on they count wrongly. *)
Definition lenient_fraction (s : string) (ns : Z) : Prop :=
  (s = "" /\ ns = 0) \/
  exists k ds n, s = "." +++ ds /\ number k ds n /\ (1 <= k)%nat /\ n < 10 ^ 9 /\
    ns = n * 10 ^ Z.max 0 (9 - Z.of_nat k).
(** Offsets of any size, in which hours and minutes may have a sign of their own. *)
Definition signed (s : string) (n : Z) : Prop :=
  number 2 s n \/ exists ds k, number 1 ds k /\ ((s = "-" +++ ds /\ n = - k) \/ (s = "+" +++ ds /\ n = k)).
Definition lenient_offset (s : string) (off : Z) : Prop :=
  (s = "Z" /\ off = 0) \/
  exists sg h m a b, s = sg +++ h +++ ":" +++ m /\ signed h a /\ signed m b /\
    ((sg = "+" /\ off = (a * 60 + b) * 60) \/ (sg = "-" /\ off = - ((a * 60 + b) * 60))).
Definition go_time : string -> time -> Prop := date_time lenient_hour lenient_fraction lenient_offset.
