(** Property theorem C96: what a received message means. *)
From Coq Require Import ZifyBool.
From Verif Require Import GoBase Utf8 Json Float64 GoTime Lang Types Codec Any AnyProofs SpecCodec
  Tables Registry Frame FrameProofs SpecFrame FrameRead EncProofs DecProofs Schemas SpecSchema SchemaProofs SpecTime SpecReads ReadsProofs.
Open Scope string_scope.
Open Scope list_scope.
Local Open Scope Z_scope.

(** *** C96: every field of a received message comes from the member of its name. *)

Theorem C96_decoded : forall ty a text v, wf_any a -> marshal_any a = Ok text -> unmarshal_msg ty text = Some v ->
  reads (TStruct ty) a v.
Proof. exact unmarshal_reads. Qed.
Print Assumptions C96_decoded.

(** A request handed to the handler. *)
Theorem C96_request : forall s id q, received_request s = Ok (id, inl q) ->
  exists a m, read_text s = Ok (MCall id a (AObj m)) /\ req_from_action a = Some (m_ty q) /\
    reads (TStruct (m_ty q)) (AObj m) (m_val q).
Proof.
  intros s id q H. unfold received_request in H. destruct (read_text s) as [msg|e|] eqn:E; cbn [rbind] in H; try discriminate H.
  pose proof (read_wf s msg E) as HW.
  destruct msg as [id' a p| |]; try discriminate H. injection H as -> H. cbn [wf_message] in HW.
  destruct HW as (_ & _ & [m ->] & HW).
  exists a, m. split; [reflexivity|]. unfold call_to_request in H.
  destruct (req_from_action a) as [ty|]; [|discriminate H]. destruct (marshal_any (AObj m)) as [text|?|] eqn:EM; try discriminate H.
  destruct (unmarshal_msg ty text) as [v|] eqn:EU; [|discriminate H]. injection H as <-. cbn [m_ty m_val].
  split; [reflexivity|]. eapply unmarshal_reads; eauto.
Qed.
Print Assumptions C96_request.

(** A response handed to the caller of a request with action [a]. *)
Theorem C96_response : forall a s id q, received_response a s = Ok (id, inl q) ->
  exists ty m, read_text s = Ok (MResult id (PAny (AObj m))) /\ req_from_action a = Some ty /\ response_of ty = Some (m_ty q) /\
    reads (TStruct (m_ty q)) (AObj m) (m_val q).
Proof.
  intros a s id q H. unfold received_response in H. destruct (read_text s) as [msg|e|] eqn:E; cbn [rbind] in H; try discriminate H.
  pose proof (read_wf s msg E) as HW. destruct msg as [|id' p|]; try discriminate H. cbn [wf_message] in HW. destruct HW as (_ & m & -> & HW).
  unfold result_to_response in H. destruct (req_from_action a) as [ty|]; [|discriminate H].
  destruct (response_of ty) as [rty|] eqn:ER; [|discriminate H]. destruct (marshal_any (AObj m)) as [text|?|] eqn:EM; cbn [rbind] in H; try discriminate H.
  destruct (unmarshal_msg rty text) as [v|] eqn:EU; [|discriminate H]. injection H as -> <-. cbn [m_ty m_val].
  exists ty, m. split; [reflexivity|]. split; [reflexivity|]. split; [exact ER|]. eapply unmarshal_reads; eauto.
Qed.
Print Assumptions C96_response.

(** A payload that fits its schema is accepted and means what it says. *)
Theorem C96_fitting : forall ty s a text, In ty msg_types -> schema_of ty = Some s -> wf_any a -> fits s a = true ->
  marshal_any a = Ok text -> exists v, unmarshal_msg ty text = Some v /\ reads (TStruct ty) a v.
Proof.
  intros ty s a text HI HS HW HF HM. destruct (schema_accepted ty s a text HI HS HW HF HM) as [v Hv].
  exists v. split; [exact Hv|]. eapply unmarshal_reads; eauto.
Qed.
Print Assumptions C96_fitting.

(** Field by field: a member with the field's own name gives its value, a field
    no member is named after is zero. *)
Theorem C96_field : forall ty d m v, find_decl ty = Some d -> reads (TStruct ty) (AObj m) v ->
  exists fs, v = VStruct fs /\ map fst fs = map f_name (d_fields d) /\
  forall fd x, In fd (d_fields d) -> lookup (f_name fd) fs = Some x -> lost ty (f_name fd) = false ->
    (forall a, lookup (f_json fd) m = Some a -> (forall k, In k (map fst m) -> named d fd k -> k = f_json fd) -> reads (f_ty fd) a x) /\
    ((forall k, In k (map fst m) -> ~ named d fd k) -> x = zero (f_ty fd)).
Proof.
  intros ty d m v Hd H. inversion H as [| | | | | | | |n d' m' fs Hd' HF]; subst.
  assert (d' = d) as -> by congruence. exists fs. split; [reflexivity|].
  pose proof (names_distinct d (proj1 (find_decl_in _ _ Hd))) as HN.
  assert (HK : map fst fs = map f_name (d_fields d)).
  { clear -HF. induction HF as [|fd kv ds fs [E _] _ IH]; [reflexivity|]. cbn [map]. rewrite E, IH. reflexivity. }
  split; [exact HK|]. intros fd x Hfd Hx HL. clear HK H Hd Hd'.
  revert Hfd Hx HN. generalize (d_fields d) HF. clear HF. intros ds HF. induction HF as [|gd kv ds fs (E & H1 & H2) HF IH]; intros Hfd Hx HN; [destruct Hfd|].
  cbn [map] in HN. inversion HN as [|? ? N1 N2]; subst. destruct kv as [f w]. cbn [fst snd lookup] in *. subst f.
  destruct Hfd as [->|Hfd].
  - rewrite String.eqb_refl in Hx. injection Hx as ->. split.
    + intros a Ha HU. apply (H1 (f_json fd)); [|left; reflexivity|exact HL|exact HU].
      clear -Ha. induction m as [|[k b] m IH]; [discriminate|]. cbn [lookup] in Ha. destruct (String.eqb_spec (f_json fd) k) as [->|].
      * injection Ha as ->. left. reflexivity.
      * right. auto.
    + intros HNo. apply H2. intros k Hk HM. exfalso. eapply HNo; eauto.
  - destruct (String.eqb_spec (f_name fd) (f_name gd)) as [Eq|_]; [|apply IH; assumption].
    exfalso. apply N1. rewrite <- Eq. apply in_map. exact Hfd.
Qed.
Print Assumptions C96_field.

(** Names other than the field's own only matter for the two types without a
    decoder of their own. *)
Theorem C96_exact_names : forall d fd k, reflective (d_name d) = false -> named d fd k <-> k = f_json fd.
Proof. intros d fd k HR. unfold named. split; [intros [H|[H _]]; congruence|intros ->; left; reflexivity]. Qed.
Print Assumptions C96_exact_names.

(** Integers below 2^53 are read exactly. *)
Theorem C96_integers : forall x z, stands_for x z -> Z.abs z < 2 ^ 53 - 1 -> f64_toZ x = Some z.
Proof.
  intros x z (z' & H & HC) HZ. rewrite H. f_equal.
  destruct (Z.eq_dec z z') as [->|NE]; [reflexivity|exfalso].
  assert (1 <= Z.abs (z - z')) by lia. change (2 ^ 53) with 9007199254740992 in *. lia.
Qed.
Print Assumptions C96_integers.

(** Cases. *)
Example C96_request_ex :
  exists q, received_request "[2,""7"",""RemoteStopTransaction"",{""tran\u017FactionID"":42,""x"":[1]}]" = Ok ("7", inl q) /\
  m_ty q = "csreq.RemoteStopTransaction" /\ m_val q = VStruct [("TransactionId", VInt 42)].
Proof. eexists. split; [vm_compute; reflexivity|split; reflexivity]. Qed.
Example C96_alike_ex : alike ("tran" +++ String (chr 197) (String (chr 191) "actionID")) "transactionId".
Proof.
  assert (E : forall c, same_letter c c) by (left; reflexivity).
  do 4 (apply al_cons; [apply E|]). apply al_s; [left; reflexivity|]. do 6 (apply al_cons; [apply E|]).
  apply al_cons; [apply E|]. apply al_cons; [right; right; split; [split; intros K; discriminate K|reflexivity]|]. constructor.
Qed.
Example C96_response_ex :
  exists q, received_response "StartTransaction" "[3,""7"",{""transactionId"":-5,""idTagInfo"":{""status"":""Accepted"",""expiryDate"":null}}]" = Ok ("7", inl q) /\
  m_ty q = "cpresp.StartTransaction".
Proof. eexists. split; [vm_compute; reflexivity|reflexivity]. Qed.
Example C96_integers_ex : stands_for (FFin true 5 0) (-5) /\ stands_for (FFin false (2 ^ 52) 8) 1152921504606847000.
Proof. split; [exists (-5)|exists (2 ^ 60)]; split; try reflexivity; vm_compute; discriminate. Qed.
Example C96_time_ex : exists t, go_time "2020-02-29T12:00:01.5Z" t /\ real_time t.
Proof. exists (MkTime 2020 2 29 12 0 1 500000000 0). apply PropsTime.C70_accepted_iff. vm_compute. reflexivity. Qed.
