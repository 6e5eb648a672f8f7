(** Specification vocabulary: the characters of XML 1.0, and what a piece of a
    document written by the library is made of. *)
From Verif Require Import GoBase Utf8 Xml.
Open Scope string_scope.
Open Scope list_scope.

(** XML 1.0 (W3C), production [2]:
    Char ::= #x9 | #xA | #xD | [#x20-#xD7FF] | [#xE000-#xFFFD] | [#x10000-#x10FFFF] *)
Definition xml_char (n : N) : Prop :=
  (n = 9 \/ n = 10 \/ n = 13 \/ 32 <= n <= 55295 \/ 57344 <= n <= 65533 \/ 65536 <= n <= 1114111)%N.

(** The text of a list of code points in UTF-8. *)
Definition utf8_text (ns : list N) : string := fold_right (fun n r => utf8_encode n +++ r) "" ns.

(** Text that can stand in an XML document. *)
Definition xml_text (s : string) : Prop := exists ns, Forall xml_char ns /\ s = utf8_text ns.

(** Every piece of character data and every attribute value of a tree. *)
Fixpoint texts (x : xml) : list string :=
  match x with
  | XT s => [s]
  | XE _ _ attrs kids => map snd attrs ++ flat_map texts kids
  end.
