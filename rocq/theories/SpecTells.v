(** Specification: what a received element of a SOAP body means as a message, for
    any element that is accepted, whether or not the service descriptions know it.
    Nothing here mentions decoders. *)
From Verif Require Import SpecJson SpecDouble.
From Verif Require Import GoBase Json Float64 GoTime Lang Types Codec Registry SpecSchema SpecTime Xml SpecSoap SpecWsdl.
Open Scope string_scope.
Open Scope list_scope.
Local Open Scope Z_scope.

(** White space is Unicode's ([whites]). *)

(** Integers: nothing at all is 0; otherwise a sign or none, and digits. *)
Definition whole_text (s : string) (z : Z) : Prop :=
  (s = "" /\ z = 0) \/
  exists l sign ds r, s = l +++ sign +++ ds +++ r /\ whites l /\ whites r /\ str_forall is_digit ds = true /\ ds <> "" /\
    (((sign = "" \/ sign = "+") /\ z = digits_val 0 ds) \/ (sign = "-" /\ z = - digits_val 0 ds)).
(** Booleans: nothing at all is false. *)
Definition truth_text (s : string) (b : bool) : Prop :=
  (s = "" /\ b = false) \/
  exists l t r, s = l +++ t +++ r /\ whites l /\ whites r /\
    ((b = true /\ In t ["1"; "t"; "T"; "true"; "TRUE"; "True"]) \/ (b = false /\ In t ["0"; "f"; "F"; "false"; "FALSE"; "False"])).

(** The child element [k] is meant for the field [fd] of the struct [d]: it has the
    name in the field's XML tag, and the namespace of the message the field belongs
    to, if that has one and the field is tagged. *)
Definition meant (d : decl) (fd : field) (k : xml) : bool :=
  String.eqb (local k) (x_name (f_xml fd)) &&
  match d_xml d with
  | None => true
  | Some (ns, _) => String.eqb (space k) ns || String.eqb ns "" || String.eqb (x_name (f_xml fd)) (f_name fd)
  end.

(** Types whose value is the text of one element. *)
Definition leaf_type (t : gty) : bool :=
  match t with
  | TStr | TInt _ | TF64 | TBool | TTime => true
  | TPtr (TStr | TInt _ | TF64 | TBool | TTime) => true
  | _ => false
  end.

(** Several elements read as one: with the child elements of all of them. *)
Definition merged (ks : list xml) : xml :=
  match ks with
  | [] => XT ""
  | k :: _ => XE (space k) (local k) [] (flat_map children ks)
  end.

(** [tells t x v]: the element [x] read as a [t] is [v].
    [given t ks v]: [ks] are the child elements meant for a field of type [t], and it
    gets [v]: nothing, nil or zero if there are none; the last one for a plain value
    (the others have to be readable too); one entry for each in a list; and a nested
    sequence that comes in several pieces is read as if it were one. *)
Inductive tells : gty -> xml -> gval -> Prop :=
| tl_str x : tells TStr x (VStr (chars x))
| tl_int b x z : whole_text (chars x) z -> - 2 ^ (b - 1) <= z < 2 ^ (b - 1) -> tells (TInt b) x (VInt z)
| tl_f64 x y : double_text (chars x) y -> tells TF64 x (VF64 y)
| tl_bool x b : truth_text (chars x) b -> tells TBool x (VBool b)
| tl_time x t : go_time (chars x) t -> real_time t -> tells TTime x (VTime t)
| tl_ptr t x v : tells t x v -> tells (TPtr t) x (VPtr v)
| tl_slice t x v : tells t x v -> tells (TSlice t) x (VSlice [v])
| tl_struct n d x fs : find_decl n = Some d ->
    (forall ns nm, d_xml d = Some (ns, nm) -> local x = nm /\ (ns <> "" -> space x = ns)) ->
    Forall2 (fun fd kv =>
      fst kv = f_name fd /\
      (x_kind (f_xml fd) = XAttr -> snd kv = VStr (attribute (x_name (f_xml fd)) x)) /\
      (x_kind (f_xml fd) = XChar -> snd kv = VStr (chars x)) /\
      (x_kind (f_xml fd) = XSkip -> snd kv = zero (f_ty fd)) /\
      (x_kind (f_xml fd) = XElem -> given (f_ty fd) (filter (meant d fd) (elements (children x))) (snd kv))) (d_fields d) fs ->
    tells (TStruct n) x (VStruct fs)
with given : gty -> list xml -> gval -> Prop :=
| gv_none t : given t [] (zero t)
| gv_last t l k v : leaf_type t = true -> (forall k', In k' l -> exists u, tells t k' u) -> tells t k v -> given t (l ++ [k]) v
| gv_list t ks vs : ks <> [] -> Forall2 (tells t) ks vs -> given (TSlice t) ks (VSlice vs)
| gv_struct n ks v : ks <> [] -> tells (TStruct n) (merged ks) v -> given (TPtr (TStruct n)) ks (VPtr v).

(** A body element that says a message: the element of that message, and with
    such content. *)
Definition bears (k : xml) (m : msg) : Prop :=
  element_of (local k) (space k) (m_ty m) /\ charge_point_transfer (m_ty m) = false /\ tells (TStruct (m_ty m)) k (m_val m).
