(** Specification vocabulary: XML documents as they can be written.  Independent of the tokenizer: a document is a tree of the
    constructs of XML 1.0 and Namespaces in XML, with every choice a writer has spelled out (prefixes, white space inside tags, kinds of quotes,
    references, CDATA sections, comments, processing instructions), from which its text ([show]) and the elements it
    stands for ([tree]) are read off. *)
From Verif Require Import GoBase Utf8 Xml SpecXmlText.
Open Scope string_scope.
Open Scope list_scope.

(** ** Names and white space *)
Definition letter (c : ascii) : bool := between 65 90 c || between 97 122 c || Ascii.eqb c "_".
Definition name_char (c : ascii) : bool := letter c || between 48 57 c || Ascii.eqb c "." || Ascii.eqb c "-".
(** Names without colons, within ASCII. *)
Definition ncname (s : string) : bool := match s with String c r => letter c && str_forall name_char r | EmptyString => false end.
Definition white (s : string) : bool := str_forall (fun c => N.eqb (code c) 32 || N.eqb (code c) 9 || N.eqb (code c) 10 || N.eqb (code c) 13) s.
(** A name with its prefix, if there is one. *)
Definition qname (p l : string) : string := if String.eqb p "" then l else p +++ ":" +++ l.
Definition good_name (p l : string) : bool := (String.eqb p "" || ncname p) && ncname l.

(** ** Character data *)
(** A byte as it is, or a reference. *)
Inductive piece := Lit (c : ascii) | Ref (a : string).
Definition show_piece (p : piece) : string := match p with Lit c => str1 c | Ref a => "&" +++ a +++ ";" end.
Definition show_pieces (ps : list piece) : string := fold_right (fun p r => show_piece p +++ r) "" ps.
Definition digit_in (hex : bool) (c : ascii) (d : N) : Prop :=
  (d < 10 /\ code c = 48 + d)%N \/ (hex = true /\ 10 <= d < 16 /\ (code c = 87 + d \/ code c = 55 + d))%N.
Inductive numeral (hex : bool) : string -> N -> Prop :=
| num_one c d : digit_in hex c d -> numeral hex (str1 c) d
| num_more s n c d : numeral hex s n -> digit_in hex c d -> numeral hex (s +++ str1 c) (n * (if hex then 16 else 10) + d)%N.
(** What a reference stands for. *)
Inductive refers : string -> string -> Prop :=
| ref_lt : refers "lt" "<" | ref_gt : refers "gt" ">" | ref_amp : refers "amp" "&" | ref_apos : refers "apos" "'" | ref_quot : refers "quot" (str1 dq)
| ref_dec ds n : numeral false ds n -> xml_char n -> refers ("#" +++ ds) (utf8_encode n)
| ref_hex ds n : numeral true ds n -> xml_char n -> refers ("#x" +++ ds) (utf8_encode n).
(** Bytes that may stand for themselves: not '<', '&', nor the quote around the value; carriage returns, which a reader turns into newlines, are left out. *)
Definition plain (q : option ascii) (c : ascii) : Prop := c <> "<"%char /\ c <> "&"%char /\ c <> chr 13 /\ q <> Some c.
Inductive spelled (q : option ascii) : list piece -> string -> Prop :=
| sp_nil : spelled q [] ""
| sp_lit c ps s : plain q c -> spelled q ps s -> spelled q (Lit c :: ps) (String c s)
| sp_ref a t ps s : refers a t -> spelled q ps s -> spelled q (Ref a :: ps) (t +++ s).
(** []]>] must not appear. *)
Definition no_close (ps : list piece) : Prop := forall l1 l2, ps <> l1 ++ [Lit "]"; Lit "]"; Lit ">"] ++ l2.
Definition writes_text (q : option ascii) (ps : list piece) (s : string) : Prop := spelled q ps s /\ no_close ps /\ xml_text s.

(** ** Documents *)
(** An attribute: white space, name, equals sign between white space, quoted value. *)
Record cattr := MkAttr { a_white : string; a_prefix : string; a_local : string; a_w1 : string; a_w2 : string; a_quote : ascii; a_pieces : list piece; a_text : string }.
Inductive cst :=
| CElem (p l : string) (attrs : list cattr) (w1 : string) (kids : list cst) (w2 : string)
| CEmpty (p l : string) (attrs : list cattr) (w1 : string)
| CChars (ps : list piece) (s : string)
| CCData (s : string)
| CComment (s : string)
| CInstr (target data : string).

Definition show_attr (a : cattr) : string :=
  a_white a +++ qname (a_prefix a) (a_local a) +++ a_w1 a +++ "=" +++ a_w2 a +++ str1 (a_quote a) +++ show_pieces (a_pieces a) +++ str1 (a_quote a).
Definition show_attrs (l : list cattr) : string := fold_right (fun a r => show_attr a +++ r) "" l.
Fixpoint show (c : cst) : string :=
  match c with
  | CElem p l attrs w1 kids w2 => "<" +++ qname p l +++ show_attrs attrs +++ w1 +++ ">" +++ fold_right (fun k r => show k +++ r) "" kids +++ "</" +++ qname p l +++ w2 +++ ">"
  | CEmpty p l attrs w1 => "<" +++ qname p l +++ show_attrs attrs +++ w1 +++ "/>"
  | CChars ps _ => show_pieces ps
  | CCData s => "<![CDATA[" +++ s +++ "]]>"
  | CComment s => "<!--" +++ s +++ "-->"
  | CInstr t d => "<?" +++ t +++ (if String.eqb d "" then "" else " " +++ d) +++ "?>"
  end.
Definition show_all (l : list cst) : string := fold_right (fun k r => show k +++ r) "" l.

(** A string that does not contain another one. *)
Definition without (sub s : string) : Prop := forall a b, s <> a +++ sub +++ b.
Definition ok_attr (a : cattr) : Prop :=
  a_white a <> "" /\ white (a_white a) = true /\ white (a_w1 a) = true /\ white (a_w2 a) = true /\ good_name (a_prefix a) (a_local a) = true /\
  (a_quote a = dq \/ a_quote a = "'"%char) /\ writes_text (Some (a_quote a)) (a_pieces a) (a_text a).
Definition is_chars (c : cst) : bool := match c with CChars _ _ => true | _ => false end.
(** Between two pieces of character data there is something else. *)
Fixpoint apart (l : list cst) : bool :=
  match l with
  | a :: ((b :: _) as r) => negb (is_chars a && is_chars b) && apart r
  | _ => true
  end.
Fixpoint well_formed (c : cst) : Prop :=
  match c with
  | CElem p l attrs w1 kids w2 => good_name p l = true /\ p <> "xmlns" /\ l <> "xmlns" /\ Forall ok_attr attrs /\ white w1 = true /\ white w2 = true /\
      fold_right (fun k r => well_formed k /\ r) True kids /\ apart kids = true
  | CEmpty p l attrs w1 => good_name p l = true /\ p <> "xmlns" /\ l <> "xmlns" /\ Forall ok_attr attrs /\ white w1 = true
  | CChars ps s => ps <> [] /\ writes_text None ps s
  | CCData s => without "]]>" s /\ without (str1 (chr 13)) s /\ xml_text s
  | CComment s => without "--" (s +++ "-")
  | CInstr t d => ncname t = true /\ t <> "xml" /\ without "?>" d /\ match d with String c _ => white (str1 c) = false | EmptyString => True end
  end.

(** ** What a document stands for *)
(** The namespaces an element declares, the last first. *)
Definition declares (attrs : list cattr) : list (string * string) :=
  rev (flat_map (fun a => if String.eqb (a_prefix a) "xmlns" then [(a_local a, a_text a)]
                          else if String.eqb (a_prefix a) "" && String.eqb (a_local a) "xmlns" then [("", a_text a)] else []) attrs).
(** The namespace of a prefix, "" being the default; one that is not declared stands for itself. *)
Definition namespace (env : list (string * string)) (p : string) : string :=
  if String.eqb p "xml" then "http://www.w3.org/XML/1998/namespace"
  else match find (fun x => String.eqb p (fst x)) env with Some x => snd x | None => p end.
Definition attr_of (env : list (string * string)) (a : cattr) : string * string * string :=
  (if String.eqb (a_prefix a) "" || String.eqb (a_prefix a) "xmlns" then a_prefix a else namespace env (a_prefix a), a_local a, a_text a).
Fixpoint tree (env : list (string * string)) (c : cst) : list xml :=
  match c with
  | CElem p l attrs _ kids _ => let env' := declares attrs ++ env in [XE (namespace env' p) l (map (attr_of env') attrs) (flat_map (tree env') kids)]
  | CEmpty p l attrs _ => let env' := declares attrs ++ env in [XE (namespace env' p) l (map (attr_of env') attrs) []]
  | CChars _ s => [XT s]
  | CCData s => [XT s]
  | CComment _ | CInstr _ _ => []
  end.
Definition is_elem (c : cst) : bool := match c with CElem _ _ _ _ _ _ | CEmpty _ _ _ _ => true | _ => false end.

(** ** Whole documents *)
(** An XML declaration: the kind of quotes and the encoding, if it is given. *)
Definition show_decl (d : option (ascii * option string)) : string :=
  match d with
  | None => ""
  | Some (q, e) => "<?xml version=" +++ str1 q +++ "1.0" +++ str1 q +++
                   match e with None => "" | Some e => " encoding=" +++ str1 q +++ e +++ str1 q end +++ "?>"
  end.
Definition ok_decl (d : option (ascii * option string)) : Prop :=
  match d with
  | None => True
  | Some (q, e) => (q = dq \/ q = "'"%char) /\ match e with None => True | Some e => e = "UTF-8" \/ e = "utf-8" end
  end.
(** What may stand outside the root: comments, processing instructions, text (only white space in XML; more is tolerated). *)
Definition outside (c : cst) : bool := match c with CChars _ _ | CComment _ | CInstr _ _ => true | _ => false end.
Record document := MkDoc { dc_decl : option (ascii * option string); dc_before : list cst; dc_root : cst }.
Definition show_doc (d : document) : string := show_decl (dc_decl d) +++ show_all (dc_before d) +++ show (dc_root d).
Definition ok_doc (d : document) : Prop :=
  ok_decl (dc_decl d) /\ Forall well_formed (dc_before d) /\ forallb outside (dc_before d) = true /\ apart (dc_before d) = true /\
  well_formed (dc_root d) /\ is_elem (dc_root d) = true.
(** [stands_for d x]: [x] is the root element. *)
Definition stands_for (d : document) (x : xml) : Prop := tree [] (dc_root d) = [x].

(** ** Namespace declarations *)
(** Attributes that declare namespaces: xmlns, or with the prefix xmlns. *)
Definition is_decl (a : string * string * string) : bool := String.eqb (fst (fst a)) "xmlns" || (String.eqb (fst (fst a)) "" && String.eqb (snd (fst a)) "xmlns").
(** A document without them: names have been resolved, so they say nothing more. *)
Fixpoint undeclare (x : xml) : xml :=
  match x with XT s => XT s | XE ns nm attrs kids => XE ns nm (filter (fun a => negb (is_decl a)) attrs) (map undeclare kids) end.
(** The attributes of OCPP 1.5 messages (soap/wsdl: SampledValue's). *)
Definition field_attrs : list string := ["context"; "format"; "location"; "measurand"; "unit"].
(** No prefix is called like one of them. *)
Fixpoint mild (x : xml) : Prop :=
  match x with XT _ => True | XE _ _ attrs kids => Forall (fun a => is_decl a = true -> ~ In (snd (fst a)) field_attrs) attrs /\ fold_right (fun k r => mild k /\ r) True kids end.

(** ** Errors *)
(** Character data that is wrong: a reference to nothing known, []]>], '<' in an attribute's value, characters that XML does not have. *)
Definition known_refs : list string := ["lt"; "gt"; "amp"; "apos"; "quot"].
Inductive bad_text (q : option ascii) : string -> Prop :=
| bad_ref ps s a rest : spelled q ps s -> no_close ps -> ncname a = true -> ~ In a known_refs -> bad_text q (show_pieces ps +++ "&" +++ a +++ ";" +++ rest)
| bad_close ps s rest : spelled q ps s -> no_close ps -> bad_text q (show_pieces ps +++ "]]>" +++ rest)
| bad_lt ps s rest : spelled q ps s -> no_close ps -> q <> None -> bad_text q (show_pieces ps +++ "<" +++ rest)
| bad_chars ps s rest : spelled q ps s -> no_close ps -> ~ xml_text s -> bad_text q (show_pieces ps +++ match q with None => "<" | Some c => str1 c end +++ rest).
(** Attributes that are wrong: without a value, with a value that is not in quotes, with a wrong value. *)
Inductive bad_attr : string -> Prop :=
| bad_bare w p l w1 c rest : w <> "" -> white w = true -> white w1 = true -> good_name p l = true -> c = ">"%char \/ c = "/"%char -> bad_attr (w +++ qname p l +++ w1 +++ String c rest)
| bad_unquoted w p l w1 w2 c rest : w <> "" -> white w = true -> white w1 = true -> white w2 = true -> good_name p l = true -> white (str1 c) = false -> c <> dq -> c <> "'"%char ->
    bad_attr (w +++ qname p l +++ w1 +++ "=" +++ w2 +++ String c rest)
| bad_value w p l w1 w2 q t : w <> "" -> white w = true -> white w1 = true -> white w2 = true -> good_name p l = true -> q = dq \/ q = "'"%char -> bad_text (Some q) t ->
    bad_attr (w +++ qname p l +++ w1 +++ "=" +++ w2 +++ str1 q +++ t).
(** Elements that have begun, with what they contain so far. *)
Record opened := MkOpen { op_prefix : string; op_local : string; op_attrs : list cattr; op_white : string; op_kids : list cst }.
Definition show_opened (o : opened) : string := "<" +++ qname (op_prefix o) (op_local o) +++ show_attrs (op_attrs o) +++ op_white o +++ ">" +++ show_all (op_kids o).
Definition ok_opened (o : opened) : Prop :=
  good_name (op_prefix o) (op_local o) = true /\ op_prefix o <> "xmlns" /\ op_local o <> "xmlns" /\ Forall ok_attr (op_attrs o) /\ white (op_white o) = true /\
  Forall well_formed (op_kids o) /\ apart (op_kids o) = true.
(** The beginning of a document, the outermost element first. *)
Record begun := MkBegun { bg_decl : option (ascii * option string); bg_before : list cst; bg_path : list opened }.
Definition show_begun (b : begun) : string := show_decl (bg_decl b) +++ show_all (bg_before b) +++ fold_right (fun o r => show_opened o +++ r) "" (bg_path b).
Definition ok_begun (b : begun) : Prop :=
  ok_decl (bg_decl b) /\ Forall well_formed (bg_before b) /\ forallb outside (bg_before b) = true /\ apart (bg_before b) = true /\ Forall ok_opened (bg_path b).
Definition innermost (b : begun) : option opened := match rev (bg_path b) with o :: _ => Some o | [] => None end.
(** How it can go on wrongly: the end of another element than the innermost, a wrong attribute, wrong character data (not right behind other character data). *)
Inductive bad_next (b : begun) : string -> Prop :=
| bad_end p l w rest : good_name p l = true -> p <> "xmlns" -> l <> "xmlns" -> white w = true -> (forall o, innermost b = Some o -> op_local o <> l) -> bad_next b ("</" +++ qname p l +++ w +++ ">" +++ rest)
| bad_start p l attrs t : good_name p l = true -> Forall ok_attr attrs -> bad_attr t -> bad_next b ("<" +++ qname p l +++ show_attrs attrs +++ t)
| bad_data t : is_chars (last (match innermost b with Some o => op_kids o | None => bg_before b end) (CComment "")) = false -> bad_text None t -> bad_next b t.

(** ** XML declarations with errors in them *)
(** Versions and encodings that can be stated in one pair of quotes. *)
Definition stateable (s : string) : bool := str_forall (fun c => negb (Ascii.eqb c dq || Ascii.eqb c "'" || Ascii.eqb c "=" || Ascii.eqb c "?")) s.
Definition show_declaration (q : ascii) (version : string) (encoding : option string) : string :=
  "<?xml version=" +++ str1 q +++ version +++ str1 q +++
  match encoding with None => "" | Some e => " encoding=" +++ str1 q +++ e +++ str1 q end +++ "?>".
(** The version is not 1.0, or the encoding not UTF-8, in whatever letters. *)
Definition bad_declaration (q : ascii) (version : string) (encoding : option string) : Prop :=
  (q = dq \/ q = "'"%char) /\ stateable version = true /\ match encoding with None => True | Some e => stateable e = true end /\
  ((version <> "" /\ version <> "1.0") \/
   exists e, encoding = Some e /\ e <> "" /\ ~ In e ["utf-8"; "utF-8"; "uTf-8"; "uTF-8"; "Utf-8"; "UtF-8"; "UTf-8"; "UTF-8"]).
