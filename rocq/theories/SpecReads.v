(** Specification: what a received JSON object means as a message.  Nothing here
    mentions decoders. *)
From Verif Require Import GoBase Float64 GoTime Lang Codec Any SpecCodec SpecSchema SpecTime.
Open Scope string_scope.
Open Scope list_scope.
Local Open Scope Z_scope.

(** ** Names *)

(** The same character, or the same letter in the other case. *)
Definition same_letter (a b : ascii) : Prop :=
  a = b \/
  ((97 <= code a <= 122)%N /\ (code b + 32 = code a)%N) \/
  ((97 <= code b <= 122)%N /\ (code a + 32 = code b)%N).

(** [alike k n]: a received name [k] is [n] up to the case of ASCII letters, where
    U+017F (bytes C5 BF) may stand for s and U+212A (bytes E2 84 AA) for k. *)
Inductive alike : string -> string -> Prop :=
| al_nil : alike "" ""
| al_cons a b k n : same_letter a b -> alike k n -> alike (String a k) (String b n)
| al_s b k n : b = "s"%char \/ b = "S"%char -> alike k n ->
    alike (String (chr 197) (String (chr 191) k)) (String b n)
| al_k b k n : b = "k"%char \/ b = "K"%char -> alike k n ->
    alike (String (chr 226) (String (chr 132) (String (chr 170) k))) (String b n).

(** [named d fd k]: a member called [k] is meant for the field [fd] of the struct
    [d].  It has to have the field's JSON name; the two message types without a
    decoder of their own also take a name that is alike, unless another field has
    exactly that name. *)
Definition named (d : decl) (fd : field) (k : string) : Prop :=
  f_json fd = k \/
  (reflective (d_name d) = true /\ (forall fd', In fd' (d_fields d) -> f_json fd' <> k) /\ alike k (f_json fd)).

(** ** Values *)

(** A double stands for an integer: the same number, or for numbers from 2^53 on
    one that is closer than the double's own precision. *)
Definition stands_for (x : f64) (z : Z) : Prop :=
  exists z', f64_toZ x = Some z' /\ 2 ^ 53 * Z.abs (z - z') <= Z.abs z'.

(** [reads t a v]: the JSON value [a] read as a [t] is [v]. *)
Inductive reads : gty -> any -> gval -> Prop :=
| rd_null t : reads t ANull (zero t)
| rd_str s : reads TStr (AStr s) (VStr s)
| rd_bool b : reads TBool (ABool b) (VBool b)
| rd_int b x z : stands_for x z -> - 2 ^ (b - 1) <= z < 2 ^ (b - 1) -> reads (TInt b) (ANum x) (VInt z)
| rd_f64 x : reads TF64 (ANum x) (VF64 x)
| rd_time s t : go_time s t -> real_time t -> reads TTime (AStr s) (VTime t)
| rd_ptr t a v : a <> ANull -> reads t a v -> reads (TPtr t) a (VPtr v)
| rd_slice t l vs : Forall2 (reads t) l vs -> reads (TSlice t) (AArr l) (VSlice vs)
| rd_struct n d m fs : find_decl n = Some d ->
    Forall2 (fun fd kv =>
      fst kv = f_name fd /\
      (* the member of this name, if there is one and only one *)
      (forall k a, In (k, a) m -> named d fd k -> lost n (f_name fd) = false ->
         (forall k', In k' (map fst m) -> named d fd k' -> k' = k) ->
         reads (f_ty fd) a (snd kv)) /\
      (* the zero value, if there is none *)
      ((forall k, In k (map fst m) -> named d fd k -> lost n (f_name fd) = true) ->
         snd kv = zero (f_ty fd)))
      (d_fields d) fs ->
    reads (TStruct n) (AObj m) (VStruct fs).
