(** Property theorem C103: what a sent message is at the other end. *)
From Coq Require Import ZifyBool.
From Verif Require Import GoBase Utf8 Json JsonProofs Float64 GoTime Lang Types Codec Any AnyProofs SpecCodec
  Tables Registry Frame FrameProofs FrameMore SpecFrame FrameRead EncProofs DecProofs Leaves SpecEnc Schemas SpecSchema SpecTime SpecNumber SpecShort SpecReads
  SpecYields YieldsProofs PropsYields SpecSays SaysProofs SpecArrives ArriveInt ArriveProofs SpecJson.
Open Scope string_scope.
Open Scope list_scope.
Local Open Scope Z_scope.
Opaque read_text marshal_message unmarshal_msg marshal_any marshal_msg.

Lemma top_sent ty v : has_type v (TStruct ty) = true -> sent (TStruct ty) = true.
Proof. intros H. cbn [sent]. destruct v; try discriminate H. cbn [has_type] in H. destruct (find_decl ty); [reflexivity|discriminate H]. Qed.
Lemma said_unambiguous ty v m : says (TStruct ty) v (AObj m) -> unambiguous ty (AObj m).
Proof.
  intros H d m' fd k k' _ Hd E _ H1 H2 N1 N2. inversion H as [| | | | | | | | |n d' fs m0 Hd' _ HK _]; subst. assert (m' = m) as -> by congruence. assert (d' = d) as -> by congruence.
  assert (A : forall j, In j (map fst m) -> named d fd j -> f_json fd = j).
  { intros j Hj [N|(_ & N & _)]; [exact N|]. specialize (HK j Hj). apply in_map_iff in HK. destruct HK as (g & G1 & G2). contradiction (N g G2 G1). }
  rewrite <- (A k H1 N1). apply A; assumption.
Qed.
Lemma sent_request id q s : msg_ok q = true -> (exists a, req_from_action a = Some (m_ty q)) -> request_text id q = Ok s ->
  exists a m, req_from_action a = Some (m_ty q) /\ read_text s = Ok (MCall (sanitize id) a (AObj m)) /\ says (TStruct (m_ty q)) (m_val q) (AObj m).
Proof.
  intros HT [a HA] HS. pose proof (action_names a _ HA) as EA. destruct (request_text_inv id q s HT HS) as (text & a' & EM & EA'). assert (a' = a) as -> by congruence.
  destruct (request_frame id q text HT EM a EA) as (m & s' & A1 & A2 & A3 & A4 & A5). unfold request_text in HS. rewrite A3 in HS. cbn [rbind] in HS.
  assert (s' = s) as -> by congruence. rewrite (action_sane _ _ EA) in A5. exists a, m. split; [exact HA|]. split; [exact A5|]. exact (marshal_says _ _ _ _ HT EM A1).
Qed.
Lemma sent_response id q s : msg_ok q = true -> response_text id q = Ok s ->
  exists m, read_text s = Ok (MResult (sanitize id) (PAny (AObj m))) /\ says (TStruct (m_ty q)) (m_val q) (AObj m).
Proof.
  intros HT HS. unfold response_text, response_message in HS. destruct (response_encodes q HT id s HS) as [text EM].
  destruct (response_frame id q text HT EM) as (m & s' & A1 & A2 & A3 & A4). assert (s' = s) as -> by congruence. exists m. split; [exact A4|]. exact (marshal_says _ _ _ _ HT EM A1).
Qed.

(** *** C103: which requests and responses arrive, and as what. *)

Theorem C103_request : forall id q s, msg_ok q = true -> (exists a, req_from_action a = Some (m_ty q)) -> Forall writable (times (m_val q)) ->
  request_text id q = Ok s -> forall id' q',
  received_request s = Ok (id', inl q') <->
  id' = sanitize id /\ m_ty q' = m_ty q /\ arrives (TStruct (m_ty q)) (m_val q) (m_val q').
Proof.
  intros id q s HT HA HW HS id' q'. destruct (sent_request id q s HT HA HS) as (a & m & EA & ER & SY).
  rewrite (C102_request_if s _ a m ER); [|intros ty E; assert (ty = m_ty q) as -> by congruence; exact (said_unambiguous _ _ _ SY)].
  pose proof (said_arrives _ _ _ (top_sent _ _ HT) HT HW SY) as SA. split.
  - intros (-> & E & Y). assert (m_ty q' = m_ty q) as E' by congruence. split; [reflexivity|]. split; [exact E'|]. apply SA. rewrite E' in Y. exact Y.
  - intros (-> & E & Y). split; [reflexivity|]. rewrite E. split; [exact EA|]. apply SA. exact Y.
Qed.
Print Assumptions C103_request.

(** The answer to a request with action [a]. *)
Theorem C103_response : forall id q s a ty, msg_ok q = true -> req_from_action a = Some ty -> response_of ty = Some (m_ty q) -> Forall writable (times (m_val q)) ->
  response_text id q = Ok s -> forall id' q',
  received_response a s = Ok (id', inl q') <->
  id' = sanitize id /\ m_ty q' = m_ty q /\ arrives (TStruct (m_ty q)) (m_val q) (m_val q').
Proof.
  intros id q s a ty HT HA HB HW HS id' q'. destruct (sent_response id q s HT HS) as (m & ER & SY).
  rewrite (C102_response a s id' q'). pose proof (said_arrives _ _ _ (top_sent _ _ HT) HT HW SY) as SA. split.
  - intros (ty' & m' & E1 & E2 & E3 & Y). assert (m' = m /\ id' = sanitize id) as [-> ->] by (split; congruence).
    assert (m_ty q' = m_ty q) as E' by congruence. split; [reflexivity|]. split; [exact E'|]. apply SA. rewrite E' in Y. exact Y.
  - intros (-> & E & Y). exists ty, m. rewrite E. split; [exact ER|]. split; [exact HA|]. split; [exact HB|]. apply SA. exact Y.
Qed.
Print Assumptions C103_response.

(** It arrives exactly if all its integers are below 2^63 - 512, and then as one value; else the peer refuses it. *)
Theorem C103_delivered : forall id q s, msg_ok q = true -> (exists a, req_from_action a = Some (m_ty q)) -> Forall writable (times (m_val q)) ->
  request_text id q = Ok s ->
  (Forall (fun z => Z.abs z < 2 ^ 63 - 512) (ints (m_val q)) -> exists v, received_request s = Ok (sanitize id, inl (MkMsg (m_ty q) v))) /\
  (~ Forall (fun z => Z.abs z < 2 ^ 63 - 512) (ints (m_val q)) -> received_request s = Ok (sanitize id, inr FormationViolation)).
Proof.
  intros id q s HT HA HW HS. pose proof (C103_request id q s HT HA HW HS) as HR. split; intros HZ.
  - destruct (arrives_some _ _ (top_sent _ _ HT) HT HZ) as [v V]. exists v. apply HR. auto.
  - destruct (sent_request id q s HT HA HS) as (a & m & EA & ER & SY).
    apply (C102_otherwise s _ a m (m_ty q) ER EA (said_unambiguous _ _ _ SY)). intros [v Y].
    apply (said_arrives _ _ _ (top_sent _ _ HT) HT HW SY) in Y. apply HZ. exact (proj2 (arrives_ints _ _ _ (top_sent _ _ HT) HT Y)).
Qed.
Print Assumptions C103_delivered.

Theorem C103_answered : forall id q s a ty, msg_ok q = true -> req_from_action a = Some ty -> response_of ty = Some (m_ty q) -> Forall writable (times (m_val q)) ->
  response_text id q = Ok s ->
  (Forall (fun z => Z.abs z < 2 ^ 63 - 512) (ints (m_val q)) -> exists v, received_response a s = Ok (sanitize id, inl (MkMsg (m_ty q) v))) /\
  (~ Forall (fun z => Z.abs z < 2 ^ 63 - 512) (ints (m_val q)) -> received_response a s = Ok (sanitize id, inr FormationViolation)).
Proof.
  intros id q s a ty HT HA HB HW HS. pose proof (C103_response id q s a ty HT HA HB HW HS) as HR. split; intros HZ.
  - destruct (arrives_some _ _ (top_sent _ _ HT) HT HZ) as [v V]. exists v. apply HR. auto.
  - destruct (sent_response id q s HT HS) as (m & ER & SY). apply (C102_no_response s _ a m ty (m_ty q) ER HA HB). intros [v Y].
    apply (said_arrives _ _ _ (top_sent _ _ HT) HT HW SY) in Y. apply HZ. exact (proj2 (arrives_ints _ _ _ (top_sent _ _ HT) HT Y)).
Qed.
Print Assumptions C103_answered.

(** A message arrives as one value at most, and its integers, in order, are what becomes of those sent. *)
Theorem C103_certain : forall ty v w w', has_type v (TStruct ty) = true -> arrives (TStruct ty) v w -> arrives (TStruct ty) v w' -> w = w'.
Proof. intros ty v w w' HT. exact (arrives_one v _ w w' (top_sent _ _ HT) HT). Qed.
Print Assumptions C103_certain.
Theorem C103_integers : forall ty v w, has_type v (TStruct ty) = true -> arrives (TStruct ty) v w -> Forall2 becomes (ints v) (ints w).
Proof. intros ty v w HT H. exact (proj1 (arrives_ints v _ w (top_sent _ _ HT) HT H)). Qed.
Print Assumptions C103_integers.

(** What becomes of an integer: one integer; up to 2^53 the same one; up to 2^k one at most 2^(k-52) away;
    it fits into 64 bits exactly if the one sent is below 2^63 - 512. *)
Theorem C103_integer : forall z, Z.abs z <= 2 ^ 63 -> exists y, becomes z y /\ (forall y', becomes z y' -> y' = y) /\
  (Z.abs z <= 2 ^ 53 -> y = z) /\ (forall k, 53 <= k <= 63 -> Z.abs z <= 2 ^ k -> Z.abs (y - z) <= 2 ^ (k - 52)) /\
  (- 2 ^ 63 <= y < 2 ^ 63 <-> Z.abs z < 2 ^ 63 - 512).
Proof.
  intros z HZ. destruct (becomes_some z HZ) as [y Y]. exists y. split; [exact Y|]. split; [intros y' Y'; exact (becomes_one z y' y HZ Y' Y)|].
  split; [intros H; exact (proj2 (becomes_near z y 53 ltac:(lia) H Y) H)|]. split; [intros k Hk H; exact (proj1 (becomes_near z y k Hk H Y))|].
  exact (becomes_fits z y HZ Y).
Qed.
Print Assumptions C103_integer.

(** Cases: a number, a text and a time that are changed on the way; the largest numbers that arrive, and the next ones, which are refused. *)
Definition ex_reserve (z : Z) : msg := MkMsg "csreq.ReserveNow" (VStruct [("ConnectorId", VInt 1); ("ExpiryDate", VTime (MkTime 2020 2 29 12 0 1 500000000 7200));
  ("IdTag", VStr (String (chr 255) "x")); ("ParentIdTag", VStr ""); ("ReservationId", VInt z)]).
Lemma ex_reserve_ok z : - 2 ^ 63 <= z < 2 ^ 63 -> msg_ok (ex_reserve z) = true /\ (exists a, req_from_action a = Some (m_ty (ex_reserve z))) /\
  Forall writable (times (m_val (ex_reserve z))).
Proof.
  intros HZ. split; [|split].
  - unfold msg_ok, ex_reserve. cbn [m_ty m_val]. change (((- 2 ^ (64 - 1) <=? z) && (z <? 2 ^ (64 - 1)) && true) = true). change (64 - 1) with 63. lia.
  - exists "ReserveNow". reflexivity.
  - unfold times, ex_reserve. cbn [m_val leaves flat_map snd app]. constructor; [|constructor]. unfold writable. split; [apply PropsTime.C70_calendar; reflexivity|].
    cbn [t_year t_off]. split; [lia|]. split; [exists 120; reflexivity|lia].
Qed.
Definition arrived_reserve (z : Z) : msg := MkMsg "csreq.ReserveNow" (VStruct [("ConnectorId", VInt 1); ("ExpiryDate", VTime (MkTime 2020 2 29 12 0 1 0 7200));
  ("IdTag", VStr (replacement +++ "x")); ("ParentIdTag", VStr ""); ("ReservationId", VInt z)]).
Example C103_ex : exists s, request_text "i" (ex_reserve (2 ^ 53 + 1)) = Ok s /\ received_request s = Ok ("i", inl (arrived_reserve (2 ^ 53))).
Proof. eexists. split; [vm_compute; reflexivity|]. vm_compute. reflexivity. Qed.
Example C103_ex_arrives : arrives (TStruct "csreq.ReserveNow") (m_val (ex_reserve (2 ^ 53 + 1))) (m_val (arrived_reserve (2 ^ 53))) /\ becomes (2 ^ 53 + 1) (2 ^ 53).
Proof.
  destruct C103_ex as (s & H1 & H2). destruct (ex_reserve_ok (2 ^ 53 + 1) ltac:(lia)) as (A & B & C).
  assert (AR : arrives (TStruct "csreq.ReserveNow") (m_val (ex_reserve (2 ^ 53 + 1))) (m_val (arrived_reserve (2 ^ 53)))).
  { pose proof (proj1 (C103_request "i" _ s A B C H1 "i" _) H2) as H. apply H. }
  split; [exact AR|]. pose proof (C103_integers _ _ _ A AR) as HB. unfold ints, ex_reserve, arrived_reserve in HB. cbn [m_val leaves flat_map snd app] in HB.
  inversion HB as [|? ? ? ? _ HB1]; subst. inversion HB1; subst. assumption.
Qed.
Example C103_ex_edge : (exists s, request_text "i" (ex_reserve (2 ^ 63 - 513)) = Ok s /\ received_request s = Ok ("i", inl (arrived_reserve 9223372036854775000))) /\
  (exists s, request_text "i" (ex_reserve (2 ^ 63 - 512)) = Ok s /\ received_request s = Ok ("i", inr FormationViolation)) /\
  (exists s, request_text "i" (ex_reserve (- 2 ^ 63)) = Ok s /\ received_request s = Ok ("i", inr FormationViolation)).
Proof. split; [|split]; eexists; (split; [vm_compute; reflexivity|]); vm_compute; reflexivity. Qed.
Definition ex_version (z : Z) : msg := MkMsg "csresp.GetLocalListVersion" (VStruct [("ListVersion", VInt z)]).
Example C103_ex_answer : (exists s, response_text "i" (ex_version (2 ^ 62 - 1)) = Ok s /\ received_response "GetLocalListVersion" s = Ok ("i", inl (ex_version 4611686018427388000))) /\
  (exists s, response_text "i" (ex_version (2 ^ 63 - 1)) = Ok s /\ received_response "GetLocalListVersion" s = Ok ("i", inr FormationViolation)) /\
  msg_ok (ex_version (2 ^ 62 - 1)) = true /\ req_from_action "GetLocalListVersion" = Some "csreq.GetLocalListVersion" /\ response_of "csreq.GetLocalListVersion" = Some "csresp.GetLocalListVersion".
Proof.
  split; [eexists; split; [vm_compute; reflexivity|]; vm_compute; reflexivity|]. split; [eexists; split; [vm_compute; reflexivity|]; vm_compute; reflexivity|].
  split; [vm_compute; reflexivity|]. split; vm_compute; reflexivity.
Qed.
