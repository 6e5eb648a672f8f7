(** Specification: what a message is when it has arrived at the other end over
    OCPP-J, integers of any size included.  Nothing here mentions encoders or
    decoders. *)
From Coq Require Import QArith.
From Verif Require Import GoBase Utf8 Float64 GoTime Lang Types Codec SpecCodec SpecNumber SpecShort SpecYields SpecSays.
Open Scope string_scope.
Open Scope list_scope.
Local Open Scope Z_scope.

(** [becomes z z']: the text of the double nearest to [z] is that of the integer [z']. *)
Definition becomes (z z' : Z) : Prop :=
  exists m e s, nearest (inject_Z (Z.abs z)) m e /\ json_number (FFin (z <? 0) m e) s /\ integer_text s z'.

(** [arrives t v v']: the value [v] of type [t], once sent, is accepted, as [v']:
    texts with what is not UTF-8 replaced, times cut to seconds, integers as above
    if that fits the type, the two fields that are lost as zero, the rest as it was. *)
Inductive arrives : gty -> gval -> gval -> Prop :=
| ar_str s : arrives TStr (VStr s) (VStr (sanitize s))
| ar_bool b : arrives TBool (VBool b) (VBool b)
| ar_int b z z' : becomes z z' -> - 2 ^ (b - 1) <= z' < 2 ^ (b - 1) -> arrives (TInt b) (VInt z) (VInt z')
| ar_f64 x : arrives TF64 (VF64 x) (VF64 x)
| ar_time x : arrives TTime (VTime x) (VTime (whole_second x))
| ar_no_ptr t : arrives (TPtr t) VNil VNil
| ar_ptr t v v' : arrives t v v' -> arrives (TPtr t) (VPtr v) (VPtr v')
| ar_no_slice t : arrives (TSlice t) VNil VNil
| ar_slice t l l' : Forall2 (arrives t) l l' -> arrives (TSlice t) (VSlice l) (VSlice l')
| ar_struct n d fs fs' : find_decl n = Some d -> map fst fs' = map f_name (d_fields d) ->
    (forall fd v v', In fd (d_fields d) -> lookup (f_name fd) fs = Some v -> lookup (f_name fd) fs' = Some v' ->
       lost n (f_name fd) = false -> arrives (f_ty fd) v v') ->
    (forall fd v', In fd (d_fields d) -> lookup (f_name fd) fs' = Some v' -> lost n (f_name fd) = true -> v' = zero (f_ty fd)) ->
    arrives (TStruct n) (VStruct fs) (VStruct fs').
