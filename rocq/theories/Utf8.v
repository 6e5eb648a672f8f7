(** UTF-8 as seen by Go's unicode/utf8 and encoding/json: which byte sequences
    are one valid encoded rune, encoding of a rune, and replacement of invalid
    bytes by U+FFFD.  Model of the Go runtime, not of /repo; it is here because
    the payload codecs of /repo (messages/v1x/*/json_encode.go, ws/message.go)
    pass every string through it. *)
From Verif Require Import GoBase.
Local Open Scope N_scope.

(** Length of the valid encoding at the head of [s]; 0 when the head is invalid
    (utf8.DecodeRuneInString returning RuneError with size 1) or [s] is empty.
    unicode/utf8, for encoding/json and encoding/xml, called at ws/message.go:48, 71, 131, ws/conn.go:118, soap/marshal.go:15, 29 *)
Definition utf8_size (s : string) : nat :=
  match s with
  | EmptyString => 0%nat
  | String a r =>
    let b := code a in
    if b <? 128 then 1%nat
    else if between 194 223 a then
      match r with
      | String c _ => if between 128 191 c then 2%nat else 0%nat
      | _ => 0%nat
      end
    else if between 224 239 a then
      match r with
      | String c (String d _) =>
        let lo := if b =? 224 then 160 else 128 in
        let hi := if b =? 237 then 159 else 191 in
        if between lo hi c && between 128 191 d then 3%nat else 0%nat
      | _ => 0%nat
      end
    else if between 240 244 a then
      match r with
      | String c (String d (String e _)) =>
        let lo := if b =? 240 then 144 else 128 in
        let hi := if b =? 244 then 143 else 191 in
        if between lo hi c && between 128 191 d && between 128 191 e then 4%nat else 0%nat
      | _ => 0%nat
      end
    else 0%nat
  end.

(** U+FFFD encoded.
    unicode/utf8, for encoding/json and encoding/xml, called at ws/message.go:48, 71, 131, ws/conn.go:118, soap/marshal.go:15, 29 *)
Definition fffd : string := String (chr 239) (String (chr 191) (str1 (chr 189))).

(** [sanitize s]: [s] with every byte that is not part of a valid encoding
    replaced by U+FFFD; the identity on valid UTF-8.
    unicode/utf8, for encoding/json and encoding/xml, called at ws/message.go:48, 71, 131, ws/conn.go:118, soap/marshal.go:15, 29 *)
Fixpoint sanitize (s : string) : string :=
  match s with
  | EmptyString => EmptyString
  | String a r =>
    match utf8_size s, r with
    | 1%nat, _ => String a (sanitize r)
    | 2%nat, String b r1 => String a (String b (sanitize r1))
    | 3%nat, String b (String c r1) => String a (String b (String c (sanitize r1)))
    | 4%nat, String b (String c (String d r1)) =>
        String a (String b (String c (String d (sanitize r1))))
    | _, _ => fffd +++ sanitize r
    end
  end.

(** Validity of a whole string (utf8.ValidString).
    unicode/utf8, for encoding/json and encoding/xml, called at ws/message.go:48, 71, 131, ws/conn.go:118, soap/marshal.go:15, 29 *)
Fixpoint utf8_valid (s : string) : bool :=
  match s with
  | EmptyString => true
  | String a r =>
    match utf8_size s, r with
    | 1%nat, _ => utf8_valid r
    | 2%nat, String _ r1 => utf8_valid r1
    | 3%nat, String _ (String _ r1) => utf8_valid r1
    | 4%nat, String _ (String _ (String _ r1)) => utf8_valid r1
    | _, _ => false
    end
  end.

(** utf8.EncodeRune for runes up to 0x10FFFF that are not surrogates.
    unicode/utf8, for encoding/json and encoding/xml, called at ws/message.go:48, 71, 131, ws/conn.go:118, soap/marshal.go:15, 29 *)
Definition utf8_encode (r : N) : string :=
  if r <? 128 then str1 (chr r)
  else if r <? 2048 then
    String (chr (192 + r / 64)) (str1 (chr (128 + r mod 64)))
  else if r <? 65536 then
    String (chr (224 + r / 4096))
      (String (chr (128 + (r / 64) mod 64)) (str1 (chr (128 + r mod 64))))
  else
    String (chr (240 + r / 262144))
      (String (chr (128 + (r / 4096) mod 64))
         (String (chr (128 + (r / 64) mod 64)) (str1 (chr (128 + r mod 64))))).
