(** What a JSON text is (RFC 8259) and which document it denotes, written as a
    grammar, without reference to the reader ([pstr], [pval], [parse]) or to its
    UTF-8 decoder.  Two liberties of Go's encoding/json are part of the grammar
    and marked: bytes that are not UTF-8, and \u escapes of lone surrogates, both
    denote U+FFFD. *)
From Verif Require Import GoBase Json.
Open Scope string_scope.
Open Scope list_scope.
Local Open Scope N_scope.

(** A text given by its bytes. *)
Fixpoint bytes (l : list N) : string :=
  match l with [] => "" | b :: l' => String (chr b) (bytes l') end.

(** UTF-8 (RFC 3629, section 3): [u] is the encoding of the character [n]. *)
Inductive utf8_of : N -> string -> Prop :=
| of_1 n : n < 128 -> utf8_of n (bytes [n])
| of_2 n : 128 <= n < 2048 -> utf8_of n (bytes [192 + n / 64; 128 + n mod 64])
| of_3 n : 2048 <= n < 65536 -> ~ 55296 <= n < 57344 ->
    utf8_of n (bytes [224 + n / 4096; 128 + n / 64 mod 64; 128 + n mod 64])
| of_4 n : 65536 <= n < 1114112 ->
    utf8_of n (bytes [240 + n / 262144; 128 + n / 4096 mod 64; 128 + n / 64 mod 64; 128 + n mod 64]).

(** No character starts this text. *)
Definition garbled (s : string) : Prop := forall n u s', utf8_of n u -> s <> u +++ s'.

(** U+FFFD, the replacement character. *)
Definition replacement : string := bytes [239; 191; 189].

(** Hexadecimal digits, and four of them. *)
Inductive hex_digit : ascii -> N -> Prop :=
| hx_dec n : n < 10 -> hex_digit (chr (48 + n)) n
| hx_low n : 10 <= n < 16 -> hex_digit (chr (97 + (n - 10))) n
| hx_upp n : 10 <= n < 16 -> hex_digit (chr (65 + (n - 10))) n.
Inductive hex_four : string -> N -> Prop :=
| hx_four a b c d w x y z : hex_digit a w -> hex_digit b x -> hex_digit c y -> hex_digit d z ->
    hex_four (String a (String b (String c (str1 d)))) (4096 * w + 256 * x + 16 * y + z).

(** The escape backslash-u and four digits, for the UTF-16 unit [x]. *)
Definition u_escape (s : string) (x : N) : Prop := exists h, s = String bsl ("u" +++ h) /\ hex_four h x.

(** The one-letter escapes of RFC 8259, section 7. *)
Definition short_escapes : list (N * N) :=
  [(34, 34); (92, 92); (47, 47); (98, 8); (102, 12); (110, 10); (114, 13); (116, 9)].

(** [in_quotes t v]: [t] is what follows the opening quotation mark of a string,
    up to and including the closing one, and denotes [v]. *)
Inductive in_quotes : string -> string -> Prop :=
| q_end : in_quotes (str1 dq) ""
| q_char n u t v : utf8_of n u -> 32 <= n -> n <> 34 -> n <> 92 ->
    in_quotes t v -> in_quotes (u +++ t) (u +++ v)
| q_short e c t v : In (e, c) short_escapes ->
    in_quotes t v -> in_quotes (String bsl (String (chr e) t)) (String (chr c) v)
| q_u s n u t v : u_escape s n -> utf8_of n u ->
    in_quotes t v -> in_quotes (s +++ t) (u +++ v)
| q_pair s1 s2 hi lo u t v :
    u_escape s1 hi -> 55296 <= hi < 56320 -> u_escape s2 lo -> 56320 <= lo < 57344 ->
    utf8_of (65536 + 1024 * (hi - 55296) + (lo - 56320)) u ->
    in_quotes t v -> in_quotes (s1 +++ s2 +++ t) (u +++ v)
| q_lone s x t v :                                              (* liberty of encoding/json *)
    u_escape s x -> 55296 <= x < 57344 ->
    (x < 56320 -> forall s2 lo t2, u_escape s2 lo -> 56320 <= lo < 57344 -> t <> s2 +++ t2) ->
    in_quotes t v -> in_quotes (s +++ t) (replacement +++ v)
| q_garbled b t v : garbled (String b t) ->                      (* liberty of encoding/json *)
    in_quotes t v -> in_quotes (String b t) (replacement +++ v).

(** Numbers, RFC 8259, section 6. *)
Definition digit (c : ascii) : bool := existsb (Ascii.eqb c) ["0"; "1"; "2"; "3"; "4"; "5"; "6"; "7"; "8"; "9"]%char.
Definition digits (s : string) : Prop := str_forall digit s = true.
Definition some_digits (s : string) : Prop := s <> "" /\ digits s.
Definition int_part (s : string) : Prop :=
  s = "0" \/ exists c d, s = String c d /\ digit c = true /\ c <> "0"%char /\ digits d.
Definition frac_part (s : string) : Prop := s = "" \/ exists d, s = "." +++ d /\ some_digits d.
Definition exp_part (s : string) : Prop :=
  s = "" \/ exists e sg d, s = e +++ sg +++ d /\ In e ["e"; "E"] /\ In sg [""; "+"; "-"] /\ some_digits d.
Definition number (s : string) : Prop :=
  exists sg i f e, s = sg +++ i +++ f +++ e /\ In sg [""; "-"] /\ int_part i /\ frac_part f /\ exp_part e.

(** White space, RFC 8259, section 2. *)
Definition blank (w : string) : Prop :=
  str_forall (fun c => existsb (N.eqb (code c)) [32; 9; 10; 13]) w = true.

(** Values; [elements] and [fields] are the inside of an array or object that is
    not empty. *)
Inductive value : string -> json -> Prop :=
| v_null : value "null" JNull
| v_true : value "true" (JBool true)
| v_false : value "false" (JBool false)
| v_num s : number s -> value s (JNum s)
| v_str t v : in_quotes t v -> value (String dq t) (JStr v)
| v_arr0 w : blank w -> value ("[" +++ w +++ "]") (JArr [])
| v_arr t l : elements t l -> value ("[" +++ t +++ "]") (JArr l)
| v_obj0 w : blank w -> value ("{" +++ w +++ "}") (JObj [])
| v_obj t l : fields t l -> value ("{" +++ t +++ "}") (JObj l)
with elements : string -> list json -> Prop :=
| el_one w t w' j : blank w -> value t j -> blank w' -> elements (w +++ t +++ w') [j]
| el_more w t w' j s l : blank w -> value t j -> blank w' -> elements s l ->
    elements (w +++ t +++ w' +++ "," +++ s) (j :: l)
with fields : string -> list (string * json) -> Prop :=
| fi_one w k key w1 w2 t w3 j : blank w -> in_quotes k key -> blank w1 -> blank w2 -> value t j -> blank w3 ->
    fields (w +++ String dq (k +++ w1 +++ ":" +++ w2 +++ t +++ w3)) [(key, j)]
| fi_more w k key w1 w2 t w3 j s l : blank w -> in_quotes k key -> blank w1 -> blank w2 -> value t j -> blank w3 ->
    fields s l ->
    fields (w +++ String dq (k +++ w1 +++ ":" +++ w2 +++ t +++ w3 +++ "," +++ s)) ((key, j) :: l).

(** A JSON text. *)
Definition document (s : string) (j : json) : Prop :=
  exists w t w', s = w +++ t +++ w' /\ blank w /\ value t j /\ blank w'.

(** ** What the connection does to a received text before reading it: every line
    feed becomes a space, then Unicode white space is cut off at both ends. *)
Inductive unlined : string -> string -> Prop :=
| un_end : unlined "" ""
| un_line s t : unlined s t -> unlined (String (chr 10) s) (String (chr 32) t)
| un_keep c s t : code c <> 10 -> unlined s t -> unlined (String c s) (String c t).

(** Unicode's White_Space property. *)
Definition white (n : N) : Prop :=
  9 <= n <= 13 \/ n = 32 \/ n = 133 \/ n = 160 \/ n = 5760 \/ 8192 <= n <= 8202 \/
  n = 8232 \/ n = 8233 \/ n = 8239 \/ n = 8287 \/ n = 12288.
Inductive whites : string -> Prop :=
| wh_none : whites ""
| wh_more n u s : white n -> utf8_of n u -> whites s -> whites (u +++ s).

Definition cut_off (s t : string) : Prop :=
  exists x y, s = x +++ t +++ y /\ whites x /\ whites y /\
    (forall n u r, white n -> utf8_of n u -> t <> u +++ r) /\
    (forall n u r, white n -> utf8_of n u -> t <> r +++ u).

Definition received_as (s t : string) : Prop := exists m, unlined s m /\ cut_off m t.

(** ** How texts are written: no white space, and every character by itself
    except the ones listed here (encoding/json with its HTML escaping). *)
Definition odd_one_out (n : N) : Prop :=
  n < 32 \/ n = 34 \/ n = 38 \/ n = 60 \/ n = 62 \/ n = 92 \/ n = 8232 \/ n = 8233.
Definition spellings : list (N * string) :=
  [(34, "\"""); (92, "\\"); (10, "\n"); (13, "\r"); (9, "\t"); (38, "\u0026"); (60, "\u003c"); (62, "\u003e");
   (8232, "\u2028"); (8233, "\u2029");
   (0, "\u0000"); (1, "\u0001"); (2, "\u0002"); (3, "\u0003"); (4, "\u0004"); (5, "\u0005"); (6, "\u0006");
   (7, "\u0007"); (8, "\u0008"); (11, "\u000b"); (12, "\u000c"); (14, "\u000e"); (15, "\u000f"); (16, "\u0010");
   (17, "\u0011"); (18, "\u0012"); (19, "\u0013"); (20, "\u0014"); (21, "\u0015"); (22, "\u0016"); (23, "\u0017");
   (24, "\u0018"); (25, "\u0019"); (26, "\u001a"); (27, "\u001b"); (28, "\u001c"); (29, "\u001d"); (30, "\u001e");
   (31, "\u001f")].
Inductive spelled : string -> string -> Prop :=
| sp_end : spelled "" ""
| sp_self n u v t : utf8_of n u -> ~ odd_one_out n -> spelled v t -> spelled (u +++ v) (u +++ t)
| sp_odd n u x v t : utf8_of n u -> In (n, x) spellings -> spelled v t -> spelled (u +++ v) (x +++ t).
Definition in_marks (t : string) : string := String dq (t +++ str1 dq).

Inductive tight : json -> string -> Prop :=
| ti_null : tight JNull "null"
| ti_true : tight (JBool true) "true"
| ti_false : tight (JBool false) "false"
| ti_num l : number l -> tight (JNum l) l
| ti_str v t : spelled v t -> tight (JStr v) (in_marks t)
| ti_arr0 : tight (JArr []) "[]"
| ti_arr l t : tights l t -> tight (JArr l) ("[" +++ t +++ "]")
| ti_obj0 : tight (JObj []) "{}"
| ti_obj l t : tight_fields l t -> tight (JObj l) ("{" +++ t +++ "}")
with tights : list json -> string -> Prop :=
| ts_one j t : tight j t -> tights [j] t
| ts_more j t l u : tight j t -> tights l u -> tights (j :: l) (t +++ "," +++ u)
with tight_fields : list (string * json) -> string -> Prop :=
| tf_one k x j t : spelled k x -> tight j t -> tight_fields [(k, j)] (in_marks x +++ ":" +++ t)
| tf_more k x j t l u : spelled k x -> tight j t -> tight_fields l u ->
    tight_fields ((k, j) :: l) (in_marks x +++ ":" +++ t +++ "," +++ u).
