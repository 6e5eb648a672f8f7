(** Untyped JSON values: Go's interface{} as produced by json.Unmarshal into
    []interface{} or map[string]interface{} (ws/conn.go:117, ws/message.go:147).
    Numbers are float64; an object is a Go map: unique keys, last duplicate wins,
    written back in sorted key order by json.Marshal. *)
From Verif Require Import GoBase Utf8 Json Float64 Codec.
Open Scope string_scope.
Open Scope list_scope.

(** interface{} at ws/conn.go:117, ws/message.go:29, 145-147. *)
Inductive any : Type :=
| ANull
| ABool (b : bool)
| ANum (x : f64)
| AStr (s : string)
| AArr (l : list any)
| AObj (m : list (string * any)).   (* keys strictly increasing *)

(** A loop that stops at the first error (encoding/json, called at ws/conn.go:118) *)
Fixpoint oall {A} (l : list (option A)) : option (list A) :=
  match l with
  | [] => Some []
  | Some x :: r => match oall r with Some xs => Some (x :: xs) | None => None end
  | None :: _ => None
  end.

(** sort.Slice of map keys, encoding/json mapEncoder (ws/message.go:48, ws/conn.go:231). *)
Fixpoint kv_insert {A} (kv : string * A) (l : list (string * A)) : list (string * A) :=
  match l with
  | [] => [kv]
  | x :: r => if String.leb (fst kv) (fst x) then kv :: x :: r else x :: kv_insert kv r
  end.
(** encoding/json mapEncoder writes the keys of a map in order (ws/message.go:48, ws/conn.go:231). *)
Definition kv_sort {A} (l : list (string * A)) : list (string * A) := fold_right kv_insert [] l.

(** json.Unmarshal of parsed text into an interface{}; [None]: a number out of
    the range of float64.
    ws/conn.go:118, ws/message.go:147 *)
Fixpoint to_any (j : json) : option any :=
  match j with
  | JNull => Some ANull
  | JBool b => Some (ABool b)
  | JNum l => omap ANum (parse_float l)
  | JStr s => Some (AStr s)
  | JArr l => omap AArr (oall (map to_any l))
  | JObj l => omap (fun m => AObj (kv_sort (dedup m)))
                (oall (map (fun kv => omap (pair (fst kv)) (to_any (snd kv))) l))
  end.

(** json.Marshal of an interface{}, as a tree; [None]: unsupported float (cannot
    arise from [to_any]).
    ws/conn.go:231, 252, ws/message.go:48 *)
Fixpoint of_any (a : any) : option json :=
  match a with
  | ANull => Some JNull
  | ABool b => Some (JBool b)
  | ANum x => omap JNum (fmt_float x)
  | AStr s => Some (JStr s)
  | AArr l => omap JArr (oall (map of_any l))
  | AObj m => omap JObj (oall (map (fun kv => omap (pair (fst kv)) (of_any (snd kv))) m))
  end.

(** json.Marshal of an interface{}: ws/conn.go:231, 252, ws/message.go:48. *)
Definition marshal_any (a : any) : res string :=
  match of_any a with Some j => Ok (print j) | None => Err "json: unsupported value" end.

(** Text -> interface{}.
    json.Unmarshal into an interface{}: ws/conn.go:118, ws/message.go:147. *)
Definition unmarshal_any (s : string) : option any :=
  match parse s with Some j => to_any j | None => None end.

Example any_ex : match unmarshal_any "{""b"":[1.50,""x""],""a"":1e2,""b"":null}" with
  | Some a => marshal_any a = Ok "{""a"":100,""b"":null}" | None => False end.
Proof. vm_compute. reflexivity. Qed.
