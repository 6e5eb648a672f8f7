(** Property theorems C94 and C95: JSON texts against RFC 8259. *)
From Verif Require Import GoBase Utf8 Json JsonProofs JsonText Float64 Lang Types Codec Any AnyProofs
  SpecCodec Tables Registry Frame FrameProofs SpecFrame FrameMore Leaves SpecJson JsonGrammar JsonWritten.
Open Scope string_scope.
Open Scope list_scope.

(** *** C94: received texts are read as RFC 8259 says. *)

(** Exactly the texts of the grammar are JSON, and mean what the grammar says. *)
Theorem C94_grammar : forall s j, parse s = Some j <-> document s j.
Proof. exact parse_document. Qed.
Print Assumptions C94_grammar.

(** The grammar is unambiguous. *)
Theorem C94_unambiguous : forall s j j', document s j -> document s j' -> j = j'.
Proof. intros s j j' H H'. apply parse_document in H, H'. congruence. Qed.
Print Assumptions C94_unambiguous.

(** Every byte sequence is turned into one text to be read. *)
Theorem C94_received : forall s, exists t, received_as s t /\ forall t', received_as s t' -> t' = t.
Proof. intros s. exists (normalise s). split; [apply received_normal|]. intros t' H. now apply received_as_normal. Qed.
Print Assumptions C94_received.

(** What ReadMessage makes of any byte sequence depends on that text's document
    alone; a text with no document is refused. *)
Theorem C94_read : forall s t, received_as s t ->
  (forall j, document t j -> verdict_is (read_text s) (text_verdict (Some j))) /\
  ((forall j, ~ document t j) -> verdict_is (read_text s) Reject).
Proof.
  intros s t H. apply received_as_normal in H. subst t. pose proof (read_exact s) as H. split.
  - intros j Hj. apply parse_document in Hj. now rewrite Hj in H.
  - intros Hn. destruct (parse (normalise s)) as [j|] eqn:E; [|exact H].
    exfalso. apply (Hn j). now apply parse_document.
Qed.
Print Assumptions C94_read.

(** Preparing the text loses nothing: JSON is read as the JSON it is. *)
Theorem C94_json_as_is : forall s j, document s j -> verdict_is (read_text s) (text_verdict (Some j)).
Proof.
  intros s j Hj. apply parse_document, normalise_parse in Hj. pose proof (read_exact s) as H. now rewrite Hj in H.
Qed.
Print Assumptions C94_json_as_is.

(** The spelling of a call does not matter: white space, escapes, any of the
    ways to write its strings. *)
Theorem C94_spelling : forall s s' j id a p, document s j -> document s' j ->
  (read_text s = Ok (MCall id a p) <-> read_text s' = Ok (MCall id a p)).
Proof.
  intros s s' j id a p H H'. apply C94_json_as_is in H, H'.
  destruct (text_verdict (Some j)) as [| |m]; cbn [verdict_is] in H, H'.
  - rewrite H, H'. reflexivity.
  - destruct H as [e ->], H' as [e' ->]. split; discriminate.
  - rewrite H, H'. reflexivity.
Qed.
Print Assumptions C94_spelling.

(** A frame in an unusual spelling, and the same frame as this library writes it. *)
Definition ex_spelled : string :=
  String (chr 10) (" [ 20E-1 ,""\u0061\ud83d\uDE00\ud800x\/"" ,""Hea\u0072tbeat"", { ""k"" : [ ] , ""v"":-0.5e+1} ] ").
Definition ex_doc : json :=
  JArr [JNum "20E-1"; JStr ("a" +++ utf8_encode 128512 +++ replacement +++ "x/"); JStr "Heartbeat";
        JObj [("k", JArr []); ("v", JNum "-0.5e+1")]].
Example C94_ex : document ex_spelled ex_doc /\
  read_text ex_spelled = read_text (print (JArr [JNum "2"; JStr ("a" +++ utf8_encode 128512 +++ replacement +++ "x/");
    JStr "Heartbeat"; JObj [("k", JArr []); ("v", JNum "-5")]])) /\
  is_ok (read_text ex_spelled) = true.
Proof. split; [apply parse_document; vm_compute; reflexivity|]. vm_compute. auto. Qed.
(** A text that is no JSON: a raw tab inside a string. *)
Definition odd_frame : string := "[2,""id"",""Heart" +++ String (chr 9) "beat"",{}]".
Example C94_ex_refused : (forall j, ~ document odd_frame j) /\ received_as odd_frame (normalise odd_frame).
Proof.
  split; [|apply received_normal]. intros j H. apply parse_document in H. vm_compute in H. discriminate H.
Qed.

(** *** C95: the texts written, byte for byte. *)

(** Every text written is one document without white space, each character
    spelled by itself except the listed ones. *)
Theorem C95_tight : forall m s, marshal_message m = Ok s -> exists j, tight j s /\ document s j.
Proof. exact written_tight. Qed.
Print Assumptions C95_tight.

Theorem C95_call : forall id q s, msg_ok q = true -> request_text id q = Ok s ->
  exists a jp, action_of (m_ty q) = Some a /\ tight (JArr [JNum "2"; JStr (sanitize id); JStr a; jp]) s.
Proof.
  intros id q s Hq H. destruct (request_shape id q s Hq H) as (text & a & jp & p & _ & Ha & HP & _).
  exists a, jp. split; [exact Ha|]. unfold request_text in H.
  destruct (unmarshal_request id q) as [m| |]; cbn [rbind] in H; try discriminate H.
  apply written_tight in H as (j & Ht & Hd). apply parse_document in Hd. rewrite HP in Hd. injection Hd as <-. exact Ht.
Qed.
Print Assumptions C95_call.

Theorem C95_result : forall id q s, msg_ok q = true -> response_text id q = Ok s ->
  exists jp, tight (JArr [JNum "3"; JStr (sanitize id); jp]) s.
Proof.
  intros id q s Hq H. destruct (result_shape id q s Hq H) as (text & jp & p & _ & HP & _).
  exists jp. unfold response_text in H.
  apply written_tight in H as (j & Ht & Hd). apply parse_document in Hd. rewrite HP in Hd. injection Hd as <-. exact Ht.
Qed.
Print Assumptions C95_result.

Theorem C95_error : forall id c desc m, wf_any (AObj m) ->
  exists s jp, marshal_message (MError id c desc (AObj m)) = Ok s /\
    tight (JArr [JNum "4"; JStr (sanitize id); JStr (sanitize c); JStr (sanitize desc); jp]) s.
Proof.
  intros id c desc m Hm. destruct (error_shape id c desc m Hm) as (s & jp & H & HP & _).
  exists s, jp. split; [exact H|].
  apply written_tight in H as (j & Ht & Hd). apply parse_document in Hd. rewrite HP in Hd. injection Hd as <-. exact Ht.
Qed.
Print Assumptions C95_error.

(** In particular nothing written contains a line feed or another control
    character, so frames survive line-based transports. *)
Theorem C95_no_control : forall m s, marshal_message m = Ok s -> str_forall (fun c => 32 <=? code c)%N s = true.
Proof. exact written_no_control. Qed.
Print Assumptions C95_no_control.

(** Ordinary characters are written as they are. *)
Theorem C95_verbatim : forall v t, spelled v t ->
  (forall n u x y, utf8_of n u -> v = x +++ u +++ y -> ~ odd_one_out n) -> t = v.
Proof. exact spelled_verbatim. Qed.
Print Assumptions C95_verbatim.
(** Printable ASCII without the five marks is ordinary. *)
Example C95_ordinary : forall v,
  str_forall (fun c => (32 <=? code c) && (code c <? 127) && negb (existsb (N.eqb (code c)) [34; 38; 60; 62; 92]))%N v = true ->
  forall n u x y, utf8_of n u -> v = x +++ u +++ y -> ~ odd_one_out n.
Proof. exact ascii_ordinary. Qed.

Definition ex_req95 : msg := MkMsg "cpreq.Authorize" (VStruct [("IdTag", VStr "x ""y"" <")]).
Example C95_ex : request_text "a b" ex_req95 = Ok "[2,""a b"",""Authorize"",{""idTag"":""x \""y\"" \u003c""}]" /\
  msg_ok ex_req95 = true.
Proof. vm_compute. auto. Qed.
