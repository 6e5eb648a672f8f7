(** Property theorems C99 and C100: numbers received and numbers sent. *)
From Coq Require Import ZifyBool QArith Qabs.
From Verif Require Import GoBase Utf8 Json JsonProofs JsonText Float64 Float64Proofs GoTime Lang Types Codec Any AnyProofs SpecCodec
  Tables Registry Frame FrameProofs SpecFrame FrameRead FrameMore EncProofs RoundTrip Leaves SpecEnc Schemas SpecSchema SpecTime SpecReads ReadsProofs SpecSays SaysProofs
  Xml SpecJson JsonGrammar SpecNumber FloatNear NearProofs NumberProofs SpecShort ShortFound ShortUnique SpecWeigh WeighProofs NumberSent PropsReads PropsSays.
Open Scope string_scope.
Open Scope list_scope.
Local Open Scope Z_scope.

(** *** C99: a number received is the double nearest to what its text denotes. *)

(** Every number text denotes one decimal. *)
Theorem C99_denotes : forall l, SpecJson.number l -> exists neg D k, denotes l neg D k /\ 0 <= D /\
  forall neg' D' k', denotes l neg' D' k' -> neg' = neg /\ D' = D /\ k' = k.
Proof.
  intros l H. destruct (number_denotes l H) as (neg & D & k & HD). exists neg, D, k. split; [exact HD|]. split; [exact (denotes_nonneg _ _ _ _ HD)|].
  intros neg' D' k' H'. destruct (denotes_unique _ _ _ _ _ _ _ H' HD) as (-> & -> & ->). auto.
Qed.
Print Assumptions C99_denotes.

(** The double read from a number text is the nearest one, the even one of two; a
    text is refused exactly if it denotes half a step above the largest double or more. *)
Theorem C99_nearest : forall l x, SpecJson.number l -> (parse_float l = Some x <-> taken_as l x).
Proof. exact taken_parse. Qed.
Print Assumptions C99_nearest.
Theorem C99_refused : forall l, SpecJson.number l -> (parse_float l = None <-> oversized l).
Proof.
  intros l H. destruct (number_denotes l H) as (neg & D & k & HD). pose proof (parse_taken _ _ _ _ HD) as P. split.
  - intros E. rewrite E in P. exists neg, D, k. split; assumption.
  - intros (n' & D' & k' & H' & L). destruct (denotes_unique _ _ _ _ _ _ _ H' HD) as (-> & -> & ->).
    destruct (parse_float l) as [x|]; [|reflexivity]. destruct P as (m & e & _ & _ & P). destruct (P L).
Qed.
Print Assumptions C99_refused.
(** There is only one such double. *)
Theorem C99_one : forall l x x', taken_as l x -> taken_as l x' -> x = x'.
Proof.
  intros l x x' H H'. assert (SpecJson.number l) as N by (destruct H as (n & D & k & m & e & HD & _); exact (denotes_number _ _ _ _ HD)).
  apply (taken_parse l x N) in H. apply (taken_parse l x' N) in H'. congruence.
Qed.
Print Assumptions C99_one.

(** A whole document: every number in it is read so, every list keeps its elements
    in order, every object keeps the last member of each name; and it is refused
    exactly if a number in it is too large. *)
Theorem C99_document : forall s j, document s j ->
  (forall a, unmarshal_any s = Some a -> weighs j a) /\
  (unmarshal_any s = None <-> exists l, holds l j /\ oversized l).
Proof.
  intros s j H. apply parse_document in H. pose proof (parse_clean _ _ H) as [HW _]. unfold unmarshal_any. rewrite H. split.
  - intros a. apply to_any_weighs. exact HW.
  - split; [apply to_any_none; exact HW|]. intros (l & H1 & H2). exact (oversized_none j l H1 H2).
Qed.
Print Assumptions C99_document.

(** A request handed to a handler: the numbers of its fields come from the texts in
    the frame.  C96 says what the fields make of the payload [m]. *)
Theorem C99_request : forall s id q, received_request s = Ok (id, inl q) ->
  exists t two x a jp rest m, received_as s t /\ document t (JArr (JNum two :: JStr id :: JStr a :: jp :: rest)) /\
    taken_as two x /\ f64_is x 2 = true /\
    weighs jp (AObj m) /\ reads (TStruct (m_ty q)) (AObj m) (m_val q).
Proof.
  intros s id q H. destruct (C96_request s id q H) as (a & m & HR & _ & HS). destruct (call_frame_weighs s id a m HR) as (t & two & x & jp & rest & H1 & H2 & H3 & H4 & H5).
  exists t, two, x, a, jp, rest, m. auto 8.
Qed.
Print Assumptions C99_request.
Theorem C99_response : forall a s id q, received_response a s = Ok (id, inl q) ->
  exists t three x jp rest m, received_as s t /\ document t (JArr (JNum three :: JStr id :: jp :: rest)) /\
    taken_as three x /\ f64_is x 3 = true /\
    weighs jp (AObj m) /\ reads (TStruct (m_ty q)) (AObj m) (m_val q).
Proof.
  intros a s id q H. destruct (C96_response a s id q H) as (ty & m & HR & _ & _ & HS). destruct (result_frame_weighs s id m HR) as (t & two & x & jp & rest & H1 & H2 & H3 & H4 & H5).
  exists t, two, x, jp, rest, m. auto 8.
Qed.
Print Assumptions C99_response.

(** A frame with a number too large anywhere in it is refused. *)
Theorem C99_frame_refused : forall s t l n, received_as s t -> document t (JArr l) -> holds n (JArr l) -> oversized n -> exists e, read_text s = Err e.
Proof.
  intros s t l n HR HD HH HO. apply received_as_normal in HR. subst t. apply parse_document in HD. pose proof (read_exact s) as K. rewrite HD in K.
  pose proof (oversized_none _ _ HH HO) as E. cbn [to_any] in E. cbn [text_verdict] in K. destruct (oall (map to_any l)); [discriminate E|]. exact K.
Qed.
Print Assumptions C99_frame_refused.

(** Cases: half way between two doubles, the even one; just above; the smallest;
    half of the smallest; the largest; half a step above. *)
Example C99_ex_tie : taken_as "9007199254740993" (FFin false 4503599627370496 1) /\ taken_as "9007199254740993.000000000000000000000000001" (FFin false 4503599627370497 1).
Proof. split; (apply C99_nearest; [apply number_read; vm_compute; reflexivity|vm_compute; reflexivity]). Qed.
Example C99_ex_small : taken_as "-4.9E-324" (FFin true 1 (-1074)) /\ taken_as "24703282292062327208e-343" (FFin false 0 (-1074)) /\ taken_as "24703282292062327209e-343" (FFin false 1 (-1074)).
Proof. split; [|split]; (apply C99_nearest; [apply number_read; vm_compute; reflexivity|vm_compute; reflexivity]). Qed.
Example C99_ex_large : taken_as "17976931348623158e292" (FFin false 9007199254740991 971) /\ oversized "1.7976931348623159E+308".
Proof.
  split; [apply C99_nearest; [apply number_read; vm_compute; reflexivity|vm_compute; reflexivity]|].
  apply C99_refused; [apply number_read; vm_compute; reflexivity|vm_compute; reflexivity].
Qed.
Example C99_ex_document : exists j, document "{""x"":[1e1,2.50],""x"":0.1}" j /\ weighs j (AObj [("x", ANum (FFin false 7205759403792794 (-56)))]).
Proof.
  destruct (parse "{""x"":[1e1,2.50],""x"":0.1}") as [j|] eqn:E; [|vm_compute in E; discriminate E]. apply parse_document in E. exists j. split; [exact E|].
  refine (proj1 (C99_document _ j E) _ _). vm_compute. reflexivity.
Qed.
Example C99_ex_request : exists q, received_request "[2.0,""7"",""RemoteStopTransaction"",{""transactionId"":4.2e1}]" = Ok ("7", inl q) /\ m_val q = VStruct [("TransactionId", VInt 42)].
Proof. eexists. split; [vm_compute; reflexivity|reflexivity]. Qed.
Example C99_ex_refused : exists e, read_text "[2,""7"",""Heartbeat"",{""x"":[{""y"":1e309}]}]" = Err e.
Proof.
  apply (C99_frame_refused "[2,""7"",""Heartbeat"",{""x"":[{""y"":1e309}]}]" _ [JNum "2"; JStr "7"; JStr "Heartbeat"; JObj [("x", JArr [JObj [("y", JNum "1e309")]])]] "1e309" (received_normal _)).
  - apply parse_document. vm_compute. reflexivity.
  - eapply ho_arr; [right; right; right; now left|]. eapply ho_obj; [now left|]. eapply ho_arr; [now left|]. eapply ho_obj; [now left|]. constructor.
  - apply C99_refused; [apply number_read; vm_compute; reflexivity|vm_compute; reflexivity].
Qed.

(** *** C100: a number sent has the shortest text that is read back as it. *)

(** JSON: the text of a double is the one of the specification, and no other. *)
Theorem C100_json : forall x s, canon x = true -> (fmt_float x = Some s <-> json_number x s).
Proof.
  intros x s H. split; [exact (fmt_json x s H)|]. intros K.
  destruct (fmt_float x) as [s'|] eqn:E.
  - f_equal. apply (json_unique x); [exact (fmt_json x s' H E)|exact K].
  - destruct K as (neg & m & e & b & -> & _). discriminate E.
Qed.
Print Assumptions C100_json.
(** SOAP: likewise. *)
Theorem C100_soap : forall x s, canon x = true -> (fmt_g x = s <-> soap_number x s).
Proof.
  intros x s H. split; [intros <-; exact (fmt_g_soap x H)|]. intros K. apply (soap_unique x); [exact (fmt_g_soap x H)|exact K].
Qed.
Print Assumptions C100_soap.
(** No two doubles have the same text. *)
Theorem C100_distinct : forall x x' s, json_number x s -> json_number x' s -> canon x = true -> canon x' = true -> x = x'.
Proof.
  intros x x' s H H' C C'. apply C100_json in H, H'; try assumption.
  assert (finite x = true) as F by (destruct x; [reflexivity|discriminate H|discriminate H]).
  assert (finite x' = true) as F' by (destruct x'; [reflexivity|discriminate H'|discriminate H']).
  destruct (fmt_parse x C F) as (t & E & _ & P). destruct (fmt_parse x' C' F') as (t' & E' & _ & P'). congruence.
Qed.
Print Assumptions C100_distinct.

(** Every number in the payload of a sent request or error is written so. *)
Theorem C100_request : forall id q s, msg_ok q = true -> request_text id q = Ok s ->
  exists a jp m, action_of (m_ty q) = Some a /\ document s (JArr [JNum "2"; JStr (sanitize id); JStr a; jp]) /\
    written jp (AObj m) /\ weighs jp (AObj m) /\ says (TStruct (m_ty q)) (m_val q) (AObj m).
Proof.
  intros id q s Hq H. destruct (C97_request id q s Hq H) as (a & jp & m & Ha & HD & HA & HS).
  destruct (request_wrote id q s Hq H) as (a' & jp' & m' & Ha' & HP & HA' & HW). pose proof HD as HD'. apply parse_document in HD'.
  assert (jp' = jp) by congruence. subst jp'. assert (m' = m) by congruence. subst m'.
  exists a, jp, m. split; [exact Ha|]. split; [exact HD|]. split; [exact HW|]. split; [|exact HS].
  apply to_any_weighs; [|exact HA]. apply parse_clean in HP as [HC _]. cbn [wf_json forallb] in HC. rewrite !andb_true_iff in HC. tauto.
Qed.
Print Assumptions C100_request.
Theorem C100_error : forall id c desc m, wf_any (AObj m) ->
  exists s jp, marshal_message (MError id c desc (AObj m)) = Ok s /\
    document s (JArr [JNum "4"; JStr (sanitize id); JStr (sanitize c); JStr (sanitize desc); jp]) /\ written jp (AObj m).
Proof.
  intros id c desc m H. destruct (error_written id c desc m H) as (s & jp & H1 & H2 & H3). exists s, jp. split; [exact H1|]. split; [apply parse_document; exact H2|exact H3].
Qed.
Print Assumptions C100_error.
(** In a sent response every number text is that of a double or the decimal digits of
    an integer. *)
Theorem C100_response : forall id q s, msg_ok q = true -> response_text id q = Ok s ->
  exists jp m, document s (JArr [JNum "3"; JStr (sanitize id); jp]) /\ weighs jp (AObj m) /\ says (TStruct (m_ty q)) (m_val q) (AObj m) /\
    forall l, holds l jp -> (exists x, json_number x l) \/ (exists z, l = dec_int z).
Proof.
  intros id q s Hq H. destruct (C97_response id q s Hq H) as (jp & m & HD & HA & HS).
  destruct (response_numerals id q s Hq H) as (jp' & m' & HP & HA' & HN). pose proof HD as HD'. apply parse_document in HD'.
  assert (jp' = jp) by congruence. subst jp'. exists jp, m. split; [exact HD|]. split; [|split; [exact HS|exact HN]].
  apply to_any_weighs; [|exact HA]. apply parse_clean in HP as [HC _]. cbn [wf_json forallb] in HC. rewrite !andb_true_iff in HC. tauto.
Qed.
Print Assumptions C100_response.

(** What is sent is read as what was sent. *)
Theorem C100_back : forall x s, canon x = true -> json_number x s -> taken_as s x.
Proof.
  intros x s C H. apply C100_json in H; [|exact C].
  assert (finite x = true) as F by (destruct x; [reflexivity|discriminate H|discriminate H]).
  destruct (fmt_parse x C F) as (t & E & N & P). assert (t = s) by congruence. subst t. apply C99_nearest; [|exact P].
  apply number_read. apply is_num_spec. exact N.
Qed.
Print Assumptions C100_back.

Example C100_ex : json_number (FFin false 7205759403792794 (-56)) "0.1" /\ json_number (FFin true 4835703278458517 (-2)) "-1208925819614629.2" /\
  json_number (FFin false 4722366482869645 (-72)) "0.000001" /\ json_number (FFin false 4722366482869644 (-72)) "9.999999999999997e-7" /\
  json_number (FFin false 7629394531250000 17) "1e+21" /\ json_number (FFin false 7629394531249999 17) "999999999999999900000" /\ json_number (FFin true 0 (-1074)) "-0".
Proof. repeat split; apply C100_json; vm_compute; reflexivity. Qed.
(** Two texts of 17 digits are equally close: the even one is taken. *)
Example C100_ex_tie : json_number (FFin false 4503633987108864 (-52)) "1.0000076293945312" /\ json_number (FFin false 4503702706585600 (-52)) "1.0000228881835938".
Proof. repeat split; apply C100_json; vm_compute; reflexivity. Qed.
Example C100_ex_soap : soap_number (FFin false 7205759403792794 (-56)) "0.1" /\ soap_number (FFin false 8589934592000000 (-33)) "1e+06" /\
  soap_number (FFin false 8589925888000000 (-33)) "999998.9867210388" /\ soap_number (FInf true) "-Inf".
Proof. repeat split; apply C100_soap; vm_compute; reflexivity. Qed.
Example C100_ex_request : exists s jp m, request_text "i" ex_start97 = Ok s /\ written jp (AObj m) /\ document s (JArr [JNum "2"; JStr "i"; JStr "RemoteStartTransaction"; jp]).
Proof.
  destruct C97_ex as [E1 E2]. destruct (C100_request _ _ _ E1 E2) as (a & jp & m & Ha & HD & HW & _). vm_compute in Ha. injection Ha as <-.
  eexists. exists jp, m. split; [exact E2|]. split; [exact HW|exact HD].
Qed.
Definition ex_schedule100 : msg := MkMsg "csresp.GetCompositeSchedule" (VStruct [
  ("ChargingSchedule", VPtr (VStruct [("ChargingRateUnit", VStr "W"); ("ChargingSchedulePeriod", VSlice [VPtr (VStruct [("Limit", VF64 (FFin false 7205759403792794 (-56))); ("NumberPhases", VInt 3); ("StartPeriod", VInt 9007199254740993)])]);
     ("Duration", VInt 0); ("MinChargingRate", VF64 (FFin false 7629394531250000 17)); ("StartSchedule", VNil)]));
  ("ConnectorId", VInt (-2)); ("ScheduleStart", VNil); ("Status", VStr "Accepted")]).
Example C100_ex_response : msg_ok ex_schedule100 = true /\ exists s, response_text "i" ex_schedule100 = Ok s.
Proof. split; [vm_compute; reflexivity|]. eexists. vm_compute. reflexivity. Qed.
