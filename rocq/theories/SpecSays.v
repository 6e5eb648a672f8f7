(** Specification: what a message says when it is put on the wire as a JSON
    object.  Nothing here mentions encoders, and nothing mentions how the object
    is read at the other end. *)
From Coq Require Import QArith.
From Verif Require Import GoBase Utf8 Float64 GoTime Lang Types Codec Any SpecSchema SpecTime SpecNumber SpecEnc.
Open Scope string_scope.
Open Scope list_scope.
Local Open Scope Z_scope.

(** The time cut to whole seconds. *)
Definition whole_second (t : time) : time :=
  MkTime (t_year t) (t_month t) (t_day t) (t_hour t) (t_min t) (t_sec t) 0 (t_off t).
(** A time RFC 3339 has a text for. *)
Definition writable (t : time) : Prop :=
  real_time t /\ 0 <= t_year t <= 9999 /\ (60 | t_off t) /\ Z.abs (t_off t) < 24 * 3600.

(** [says t v a]: the value [v] of type [t] is written as [a].  Objects have one
    member for each field that is not left out, under the field's JSON name, and
    no other member; a field is left out only where the table of SpecEnc.v lists
    it, and only when it is nil or a zero number.  An integer is written as the
    double nearest to it (SpecNumber.v), with its sign. *)
Inductive says : gty -> gval -> any -> Prop :=
| sy_str s : says TStr (VStr s) (AStr (sanitize s))
| sy_bool b : says TBool (VBool b) (ABool b)
| sy_int b z m e : nearest (inject_Z (Z.abs z)) m e -> says (TInt b) (VInt z) (ANum (FFin (z <? 0) m e))
| sy_f64 x : says TF64 (VF64 x) (ANum x)
| sy_time x s : (writable x -> rfc3339 s (whole_second x)) -> says TTime (VTime x) (AStr s)
| sy_no_ptr t : says (TPtr t) VNil ANull
| sy_ptr t v a : says t v a -> says (TPtr t) (VPtr v) a
| sy_no_slice t : says (TSlice t) VNil ANull
| sy_slice t vs l : Forall2 (says t) vs l -> says (TSlice t) (VSlice vs) (AArr l)
| sy_struct n d fs m : find_decl n = Some d -> NoDup (map fst m) ->
    (forall k, In k (map fst m) -> In k (map f_json (d_fields d))) ->
    Forall2 (fun fd kv =>
      fst kv = f_name fd /\
      (forall a, lookup (f_json fd) m = Some a -> says (f_ty fd) (snd kv) a) /\
      (lookup (f_json fd) m = None <-> left_out n (f_name fd) (snd kv) = true))
      (d_fields d) fs ->
    says (TStruct n) (VStruct fs) (AObj m).
