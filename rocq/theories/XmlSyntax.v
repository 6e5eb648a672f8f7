(** encoding/xml on bytes: the printer (marshal.go) and the tokenizer (xml.go) that stand between the documents of Xml.v and the
    bodies that soap/client.go:58-101 and soap/server.go:19-48 exchange.  The decoder is strict (the default of xml.Unmarshal, soap/marshal.go:15), has no
    CharsetReader and no Entity map.  Versions: Go 1.17 to 1.19 (they differ from others in names with odd colons only).

    Which characters beyond ASCII may stand in names is a table of encoding/xml (xml.go first, second); it is left open as the argument
    [uni], a test of names that contain such characters.  Error texts are not modelled: [None] is an error. *)
From Verif Require Import GoBase Utf8 Json Float64 Xml.
Open Scope string_scope.
Open Scope list_scope.

(** ** Printing *)

(** encoding/xml escapeText for one character that XML allows; newlines are escaped too (EscapeText).  For soap/marshal.go:29. *)
Definition esc1 (c : ascii) : string :=
  if N.eqb (code c) 34 then "&#34;" else if N.eqb (code c) 39 then "&#39;" else if N.eqb (code c) 38 then "&amp;"
  else if N.eqb (code c) 60 then "&lt;" else if N.eqb (code c) 62 then "&gt;" else if N.eqb (code c) 9 then "&#x9;"
  else if N.eqb (code c) 10 then "&#xA;" else if N.eqb (code c) 13 then "&#xD;" else str1 c.
(** The bytes of a string, each escaped (encoding/xml escapeText, soap/marshal.go:29): the ones to be escaped are all single-byte characters. *)
Fixpoint esc_bytes (s : string) : string := match s with EmptyString => "" | String c r => esc1 c +++ esc_bytes r end.
(** encoding/xml escapeText: characters XML does not allow, and bytes that are not UTF-8, are written as U+FFFD ([xml_clean]).  For soap/marshal.go:29. *)
Definition escape (s : string) : string := esc_bytes (xml_clean s).

(** An attribute as encoding/xml writeStart writes it (soap/marshal.go:29).  No attribute of /repo has a namespace in the sense of
    encoding/xml; xmlns:S and xmlns:wsa5 (soap/models.go:57, 70) are names with a colon. *)
Definition print_attr (a : string * string * string) : string :=
  " " +++ snd (fst a) +++ "=" +++ str1 dq +++ escape (snd a) +++ str1 dq.
(** A namespace is written as the attribute xmlns (encoding/xml writeStart, soap/marshal.go:29). *)
Definition ns_attr (ns : string) : list (string * string * string) := if String.eqb ns "" then [] else [("", "xmlns", ns)].
(** encoding/xml printer: an element that is still to be escaped, with the namespace and the name given to the printer (a name may contain a
    colon, soap/models.go:56).  soap/marshal.go:29, soap/client.go:58-60. *)
Fixpoint print (x : xml) : string :=
  match x with
  | XT s => escape s
  | XE ns nm attrs kids =>
    "<" +++ nm +++ fold_right (fun a r => print_attr a +++ r) "" (ns_attr ns ++ attrs) +++ ">" +++
    (fix all (l : list xml) : string := match l with [] => "" | k :: r => print k +++ all r end) kids +++
    "</" +++ nm +++ ">"
  end.

(** ** Tokens *)

(** Letters, digits, '_', ':', '.', '-' and every byte of a character beyond ASCII (xml.go isNameByte, readName; for soap/marshal.go:15). *)
Definition name_byte (c : ascii) : bool :=
  (between 65 90 c || between 97 122 c || between 48 57 c || N.eqb (code c) 95 || N.eqb (code c) 58 || N.eqb (code c) 46 || N.eqb (code c) 45 || N.leb 128 (code c))%bool.
(** Letters, '_', ':' (xml.go first, within ASCII; for soap/marshal.go:15). *)
Definition first_byte (c : ascii) : bool := (between 65 90 c || between 97 122 c || N.eqb (code c) 95 || N.eqb (code c) 58)%bool.
(** xml.go isName, for a string of [name_byte]s; for soap/marshal.go:15. *)
Definition is_name (uni : string -> bool) (s : string) : bool :=
  if str_forall (fun c => N.ltb (code c) 128) s then match s with String c _ => first_byte c | EmptyString => false end else uni s.
(** xml.go readName: as many name bytes as there are (for soap/marshal.go:15). *)
Fixpoint span_name (s : string) : string * string :=
  match s with
  | String c r => if name_byte c then let '(n, q) := span_name r in (String c n, q) else ("", s)
  | EmptyString => ("", "")
  end.
(** xml.go name; the input must go on behind it (for soap/marshal.go:15). *)
Definition read_name (uni : string -> bool) (s : string) : option (string * string) :=
  let '(n, r) := span_name s in
  match r with EmptyString => None | _ => if is_name uni n then Some (n, r) else None end.
(** strings.Index(s, ":"), in xml.go nsname (for soap/marshal.go:15). *)
Fixpoint split_colon (s : string) : option (string * string) :=
  match s with
  | EmptyString => None
  | String c r => if N.eqb (code c) 58 then Some ("", r)
                  else match split_colon r with Some (a, b) => Some (String c a, b) | None => None end
  end.
(** xml.go nsname: prefix and local name; all of it is the local name if there is more than one colon or one at the end or the beginning
    (for soap/marshal.go:15). *)
Definition split_name (s : string) : string * string :=
  match split_colon s with
  | Some (p, l) => if String.eqb p "" || String.eqb l "" || match split_colon l with Some _ => true | None => false end then ("", s) else (p, l)
  | None => ("", s)
  end.
(** xml.go nsname (for soap/marshal.go:15). *)
Definition read_nsname (uni : string -> bool) (s : string) : option ((string * string) * string) :=
  match read_name uni s with Some (n, r) => Some (split_name n, r) | None => None end.

(** xml.go space (for soap/marshal.go:15). *)
Definition xml_space (c : ascii) : bool := (N.eqb (code c) 32 || N.eqb (code c) 9 || N.eqb (code c) 10 || N.eqb (code c) 13)%bool.
(** xml.go space: skip white space (for soap/marshal.go:15). *)
Fixpoint skip_space (s : string) : string := match s with String c r => if xml_space c then skip_space r else s | EmptyString => "" end.

(** A digit of the given base (xml.go text, strconv.ParseUint; for soap/marshal.go:15). *)
Definition base_digit (hex : bool) (c : ascii) : option N :=
  if between 48 57 c then Some (code c - 48)%N
  else if hex && between 97 102 c then Some (code c - 87)%N
  else if hex && between 65 70 c then Some (code c - 55)%N
  else None.
(** strconv.ParseUint without its limit, which is far above unicode.MaxRune (xml.go text; for soap/marshal.go:15). *)
Fixpoint base_value (hex : bool) (acc : N) (s : string) : option N :=
  match s with
  | EmptyString => Some acc
  | String c r => match base_digit hex c with Some d => base_value hex (acc * (if hex then 16 else 10) + d)%N r | None => None end
  end.
(** string(rune(n)): a surrogate half is not a character (xml.go text; for soap/marshal.go:15). *)
Definition rune_text (n : N) : string := if (N.leb 55296 n && N.leb n 57343)%bool then fffd else utf8_encode n.
(** xml.go text: what &a; stands for (for soap/marshal.go:15). *)
Definition char_ref (a : string) : option string :=
  match a with
  | String h r =>
    if N.eqb (code h) 35 then
      let '(hex, ds) := match r with String x r' => if N.eqb (code x) 120 then (true, r') else (false, r) | EmptyString => (false, r) end in
      match ds with
      | EmptyString => None
      | _ => match base_value hex 0 ds with Some n => if N.leb n 1114111 then Some (rune_text n) else None | None => None end
      end
    else if String.eqb a "lt" then Some "<" else if String.eqb a "gt" then Some ">" else if String.eqb a "amp" then Some "&"
    else if String.eqb a "apos" then Some "'" else if String.eqb a "quot" then Some (str1 dq) else None
  | EmptyString => None
  end.

(** Where xml.go text is: between characters, with the last two bytes read, or behind '&', with what followed it (for soap/marshal.go:15). *)
Inductive tstate := TIn (b0 b1 : ascii) | TAmp (a : string).
(** In front of a result (xml.go text, d.buf.WriteByte; for soap/marshal.go:15). *)
Definition ahead (t : string) (o : option (string * string)) : option (string * string) :=
  match o with Some (u, r) => Some (t +++ u, r) | None => None end.
(** xml.go text, not in a CDATA section: up to '<' or the end of the input ([q = None]) or up to the quote [q], of an attribute's value.  In Go
    the end of the input also ends a value, and is an error at the next byte asked for.  Carriage returns become newlines.  What follows '&' is an
    error unless it is a reference, so where it ends in that case does not matter (for soap/marshal.go:15). *)
Fixpoint text (q : option ascii) (st : tstate) (s : string) : option (string * string) :=
  match s with
  | EmptyString => match q, st with None, TIn _ _ => Some ("", "") | _, _ => None end
  | String b r =>
    match st with
    | TAmp a => if N.eqb (code b) 59 then match char_ref a with Some t => ahead t (text q (TIn (chr 0) (chr 0)) r) | None => None end
                else text q (TAmp (a +++ str1 b)) r
    | TIn b0 b1 =>
      if (N.eqb (code b0) 93 && N.eqb (code b1) 93 && N.eqb (code b) 62)%bool then None
      else if N.eqb (code b) 60 then match q with None => Some ("", s) | Some _ => None end
      else if match q with Some c => Ascii.eqb b c | None => false end then Some ("", r)
      else if N.eqb (code b) 38 then text q (TAmp "") r
      else if N.eqb (code b) 13 then ahead (str1 (chr 10)) (text q (TIn b1 b) r)
      else if (N.eqb (code b1) 13 && N.eqb (code b) 10)%bool then text q (TIn b1 b) r
      else ahead (str1 b) (text q (TIn b1 b) r)
    end
  end.
(** xml.go text in a CDATA section, up to the first ]]> (for soap/marshal.go:15). *)
Fixpoint cdata (b1 : ascii) (s : string) : option (string * string) :=
  match s with
  | EmptyString => None
  | String b r =>
    let go := if N.eqb (code b) 13 then ahead (str1 (chr 10)) (cdata b r)
              else if (N.eqb (code b1) 13 && N.eqb (code b) 10)%bool then cdata b r
              else ahead (str1 b) (cdata b r) in
    match r with
    | String c (String d r') => if (N.eqb (code b) 93 && N.eqb (code c) 93 && N.eqb (code d) 62)%bool then Some ("", r') else go
    | _ => go
    end
  end.
(** xml.go text, at the end: only characters XML allows, in UTF-8; exactly those that the printer would not replace (for soap/marshal.go:15). *)
Definition checked (o : option (string * string)) : option (string * string) :=
  match o with Some (t, r) => if String.eqb (xml_clean t) t then Some (t, r) else None | None => None end.

(** xml.go rawToken, attributes up to '>' or '/>' (true); each attribute takes at least one byte, so the length of the input is
    fuel enough (for soap/marshal.go:15). *)
Fixpoint read_attrs (uni : string -> bool) (fuel : nat) (s : string) : option (list (string * string * string) * bool * string) :=
  match fuel with
  | O => None
  | S f =>
    match skip_space s with
    | EmptyString => None
    | String b r =>
      if N.eqb (code b) 47 then match r with String c r' => if N.eqb (code c) 62 then Some ([], true, r') else None | EmptyString => None end
      else if N.eqb (code b) 62 then Some ([], false, r)
      else
        match read_nsname uni (String b r) with
        | None => None
        | Some (n, r1) =>
          match skip_space r1 with
          | String e r2 =>
            if N.eqb (code e) 61 then
              match skip_space r2 with
              | String q r3 =>
                if (N.eqb (code q) 34 || N.eqb (code q) 39)%bool then
                  match checked (text (Some q) (TIn (chr 0) (chr 0)) r3) with
                  | Some (v, r4) => match read_attrs uni f r4 with Some (l, e, r5) => Some ((n, v) :: l, e, r5) | None => None end
                  | None => None
                  end
                else None
              | EmptyString => None
              end
            else None
          | EmptyString => None
          end
        end
    end
  end.

(** Up to the end of the first [?>] (xml.go rawToken, processing instructions; for soap/marshal.go:15). *)
Fixpoint until_pi (s : string) : option (string * string) :=
  match s with
  | EmptyString => None
  | String b r => let go := ahead (str1 b) (until_pi r) in
                  match r with String c r' => if (N.eqb (code b) 63 && N.eqb (code c) 62)%bool then Some ("", r') else go | EmptyString => go end
  end.
(** Up to the first two dashes, behind which there must be '>' (xml.go rawToken, comments; for soap/marshal.go:15). *)
Fixpoint until_comment (s : string) : option string :=
  match s with
  | EmptyString => None
  | String b r => match r with
                  | String c r' => if (N.eqb (code b) 45 && N.eqb (code c) 45)%bool
                                   then match r' with String d r'' => if N.eqb (code d) 62 then Some r'' else None | EmptyString => None end
                                   else until_comment r
                  | EmptyString => None
                  end
  end.
(** strings.Index(s, sub), what follows it (xml.go procInst; for soap/marshal.go:15). *)
Fixpoint behind (sub s : string) : option string :=
  if String.prefix sub s then Some (substring (String.length sub) (String.length s - String.length sub) s)
  else match s with String _ r => behind sub r | EmptyString => None end.
(** Up to the given byte (strings.IndexRune in xml.go procInst; for soap/marshal.go:15). *)
Fixpoint up_to (q : ascii) (s : string) : option string :=
  match s with
  | EmptyString => None
  | String c r => if Ascii.eqb c q then Some "" else omap (String c) (up_to q r)
  end.
(** xml.go procInst: "" if there is no such parameter (for soap/marshal.go:15). *)
Definition proc_inst (param s : string) : string :=
  match behind (param +++ "=") s with
  | Some (String q v) => if (N.eqb (code q) 34 || N.eqb (code q) 39)%bool then match up_to q v with Some x => x | None => "" end else ""
  | _ => ""
  end.
(** xml.go rawToken: an XML declaration must state version 1.0 and UTF-8, or not state them (for soap/marshal.go:15). *)
Definition decl_ok (target data : string) : bool :=
  if String.eqb target "xml" then
    let ver := proc_inst "version" data in let enc := proc_inst "encoding" data in
    ((String.eqb ver "" || String.eqb ver "1.0") && (String.eqb enc "" || String.eqb (lower_all enc) "utf-8"))%bool
  else true.

(** Where xml.go rawToken is in a directive: in quotes or not, how deep in angle brackets; behind '<' and [i] bytes of "!--"; in
    a comment, with the last two bytes (for soap/marshal.go:15). *)
Inductive dstate := DIn (q : option ascii) (depth : nat) | DLt (i depth : nat) | DCom (b0 b1 : ascii) (depth : nat).
(** xml.go rawToken, HandleB (for soap/marshal.go:15). *)
Definition dhandle (b : ascii) (q : option ascii) (depth : nat) : dstate :=
  match q with
  | Some c => if Ascii.eqb b c then DIn None depth else DIn q depth
  | None => if (N.eqb (code b) 39 || N.eqb (code b) 34)%bool then DIn (Some b) depth
            else if N.eqb (code b) 62 then DIn None (pred depth)
            else if N.eqb (code b) 60 then DLt 0 depth
            else DIn None depth
  end.
(** xml.go rawToken, directives: to the '>' that ends it (for soap/marshal.go:15). *)
Fixpoint until_directive (st : dstate) (s : string) : option string :=
  match s with
  | EmptyString => None
  | String b r =>
    match st with
    | DIn None 0 => if N.eqb (code b) 62 then Some r else until_directive (dhandle b None 0) r
    | DIn q d => until_directive (dhandle b q d) r
    | DLt i d =>
      if N.eqb (code b) (match i with O => 33 | _ => 45 end)%N
      then until_directive (match i with 2%nat => DCom (chr 0) (chr 0) d | _ => DLt (S i) d end) r
      else until_directive (dhandle b None (S d)) r
    | DCom b0 b1 d => if (N.eqb (code b0) 45 && N.eqb (code b1) 45 && N.eqb (code b) 62)%bool then until_directive (DIn None d) r else until_directive (DCom b1 b d) r
    end
  end.

(** xml.go Token, before namespaces are resolved; [KOther] is a comment, a processing instruction or a directive, which the callers (soap/marshal.go:15, 36-171)
    ignore; [KErr] is an error, [KEof] the end of the input. *)
Inductive token := KStart (n : string * string) (attrs : list (string * string * string)) | KEnd (n : string * string) | KText (s : string) | KOther | KErr | KEof.
(** xml.go rawToken (for soap/marshal.go:15): the next token or two (an empty-element tag), and what is left. *)
Definition next_token (uni : string -> bool) (s : string) : option (list token * string) :=
  match s with
  | EmptyString => None
  | String l r =>
    if negb (N.eqb (code l) 60) then match checked (text None (TIn (chr 0) (chr 0)) s) with Some (t, r') => Some ([KText t], r') | None => None end
    else
    match r with
    | EmptyString => None
    | String b r1 =>
      if N.eqb (code b) 47 then
        match read_nsname uni r1 with
        | Some (n, r2) => match skip_space r2 with String c r3 => if N.eqb (code c) 62 then Some ([KEnd n], r3) else None | EmptyString => None end
        | None => None
        end
      else if N.eqb (code b) 63 then
        match read_name uni r1 with
        | Some (target, r2) => match until_pi (skip_space r2) with Some (data, r3) => if decl_ok target data then Some ([KOther], r3) else None | None => None end
        | None => None
        end
      else if N.eqb (code b) 33 then
        match r1 with
        | EmptyString => None
        | String c r2 =>
          if N.eqb (code c) 45 then
            match r2 with String d r3 => if N.eqb (code d) 45 then omap (fun r4 => ([KOther], r4)) (until_comment r3) else None | EmptyString => None end
          else if N.eqb (code c) 91 then
            if String.prefix "CDATA[" r2
            then match checked (cdata (chr 0) (substring 6 (String.length r2 - 6) r2)) with Some (t, r3) => Some ([KText t], r3) | None => None end
            else None
          else omap (fun r3 => ([KOther], r3)) (until_directive (DIn None 0) r2)
        end
      else
        match read_nsname uni r with
        | Some (n, r2) =>
          match read_attrs uni (S (String.length r2)) r2 with
          | Some (attrs, empty, r3) => Some (KStart n attrs :: (if empty then [KEnd n] else []), r3)
          | None => None
          end
        | None => None
        end
    end
  end.
(** xml.go Token, again and again (for soap/marshal.go:15); every token takes at least one byte. *)
Fixpoint tokens (uni : string -> bool) (fuel : nat) (s : string) : list token :=
  match fuel with
  | O => [KErr]
  | S f => match s with
           | EmptyString => [KEof]
           | _ => match next_token uni s with None => [KErr] | Some (ts, r) => ts ++ tokens uni f r end
           end
  end.

(** ** Elements *)

(** xml.go xmlURL (for soap/marshal.go:15). *)
Definition xml_url : string := "http://www.w3.org/XML/1998/namespace".
(** xml.go Token: the declarations of an element, prefix ("" the default) and namespace (for soap/marshal.go:15). *)
Definition declared (attrs : list (string * string * string)) : list (string * string) :=
  flat_map (fun a => if String.eqb (fst (fst a)) "xmlns" then [(snd (fst a), snd a)]
                     else if (String.eqb (fst (fst a)) "" && String.eqb (snd (fst a)) "xmlns")%bool then [("", snd a)] else []) attrs.
(** d.ns[prefix], the last declaration first (xml.go translate; for soap/marshal.go:15). *)
Fixpoint ns_find (p : string) (env : list (string * string)) : option string :=
  match env with [] => None | (q, u) :: r => if String.eqb p q then Some u else ns_find p r end.
(** xml.go translate (for soap/marshal.go:15). *)
Definition translate (env : list (string * string)) (elem : bool) (n : string * string) : string * string :=
  if String.eqb (fst n) "xmlns" then n
  else if (String.eqb (fst n) "" && negb elem)%bool then n
  else if String.eqb (fst n) "xml" then (xml_url, snd n)
  else if (String.eqb (fst n) "" && String.eqb (snd n) "xmlns")%bool then n
  else match ns_find (fst n) env with Some u => (u, snd n) | None => n end.
(** Attributes with their prefixes resolved (xml.go Token; for soap/marshal.go:15). *)
Definition tr_attr (env : list (string * string)) (a : string * string * string) : string * string * string := (translate env false (fst a), snd a).
(** Equal names (xml.go popElement; for soap/marshal.go:15). *)
Definition name_eqb (a b : string * string) : bool := (String.eqb (fst a) (fst b) && String.eqb (snd a) (snd b))%bool.

(** An element that has begun: its name, its attributes, its content so far (last first), and the declarations around it
    (xml.go stack; for soap/marshal.go:15). *)
Record frame := MkFrame { fr_name : string * string; fr_attrs : list (string * string * string); fr_kids : list xml; fr_env : list (string * string) }.
(** Content of the innermost element that has begun; outside the root it is skipped (read.go unmarshal; soap/marshal.go:15). *)
Definition add_kid (x : xml) (stk : list frame) : list frame :=
  match stk with [] => [] | f :: r => MkFrame (fr_name f) (fr_attrs f) (x :: fr_kids f) (fr_env f) :: r end.
(** xml.go Token pushElement, popElement, until the first element has ended (for soap/marshal.go:15; nothing behind it is read).  End tags
    must match. *)
Fixpoint build (toks : list token) (env : list (string * string)) (stk : list frame) : option xml :=
  match toks with
  | [] => None
  | KStart n attrs :: r =>
    let env' := rev (declared attrs) ++ env in
    build r env' (MkFrame (translate env' true n) (map (tr_attr env') attrs) [] env :: stk)
  | KEnd n :: r =>
    match stk with
    | [] => None
    | f :: stk' =>
      if name_eqb (translate env true n) (fr_name f) then
        let x := XE (fst (fr_name f)) (snd (fr_name f)) (fr_attrs f) (rev (fr_kids f)) in
        match stk' with [] => Some x | _ => build r (fr_env f) (add_kid x stk') end
      else None
    end
  | KText s :: r => build r env (add_kid (XT s) stk)
  | KOther :: r => build r env stk
  | KErr :: _ => None
  | KEof :: _ => None
  end.
(** The first element of a text, as xml.Unmarshal finds it (soap/marshal.go:15). *)
Definition read_xml (uni : string -> bool) (s : string) : option xml := build (tokens uni (S (String.length s)) s) [] [].

(** As encoding/xml reads soap/models.go-like documents: prefixes, comments, both kinds of quotes, CDATA, references. *)
Example read_xml_ex : read_xml (fun _ => false) ("<?xml version='1.0' encoding='UTF-8'?> <!DOCTYPE x [ <!-- > --> <a> ]> <S:a xmlns:S=""u"" b = 'x&#x41;' ><!-- c --><c xmlns='v'/>&lt;<![CDATA[<]]></S:a > junk") =
  Some (XE "u" "a" [("xmlns", "S", "u"); ("", "b", "xA")] [XE "v" "c" [("", "xmlns", "v")] []; XT "<"; XT "<"]).
Proof. vm_compute. reflexivity. Qed.
