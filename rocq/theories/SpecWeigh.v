(** Specification: a JSON tree and the value it has in a program with doubles for
    numbers.  Nothing here mentions a reader or a writer. *)
From Verif Require Import GoBase Json Float64 Any SpecNumber SpecShort.
Open Scope string_scope.
Open Scope list_scope.

(** [shows N j a]: null, booleans and strings are the same in [j] and [a], the number
    texts in [j] have the doubles in [a] by [N], lists agree element by element, and
    objects have the same keys, each in [a] once and with the value of its last
    occurrence in [j]. *)
Inductive shows (N : string -> f64 -> Prop) : json -> any -> Prop :=
| sh_null : shows N JNull ANull
| sh_bool b : shows N (JBool b) (ABool b)
| sh_num l x : N l x -> shows N (JNum l) (ANum x)
| sh_str s : shows N (JStr s) (AStr s)
| sh_arr l xs : Forall2 (shows N) l xs -> shows N (JArr l) (AArr xs)
| sh_obj l m : NoDup (map fst m) -> (forall k, In k (map fst m) <-> In k (map fst l)) ->
    (forall k a, In (k, a) m -> exists before j after, l = before ++ (k, j) :: after /\ ~ In k (map fst after) /\ shows N j a) ->
    shows N (JObj l) (AObj m).

(** Read: each number text has the nearest double. *)
Definition weighs : json -> any -> Prop := shows taken_as.
(** Written: each double has its shortest text. *)
Definition written : json -> any -> Prop := shows (fun l x => json_number x l).

(** The number text [l] is somewhere in a tree. *)
Inductive holds (l : string) : json -> Prop :=
| ho_num : holds l (JNum l)
| ho_arr js j : In j js -> holds l j -> holds l (JArr js)
| ho_obj kvs k j : In (k, j) kvs -> holds l j -> holds l (JObj kvs).
(** It is too large for a double. *)
Definition oversized (l : string) : Prop := exists neg D k, denotes l neg D k /\ too_large (decimal D k).
