(** Frames and payloads across the wire. *)
From Coq Require Import Sorting.Permutation.
From Verif Require Import GoBase Utf8 Json JsonProofs JsonText Float64 Float64Proofs GoTime GoTimeProofs
  Lang Types Codec EncProofs Any AnyProofs DecProofs SpecCodec RoundTrip Tables Registry Frame.
Open Scope string_scope.
Open Scope list_scope.

Lemma has_type_fcanon v : forall t, has_type v t = true -> fcanon v = true.
Proof.
  induction v as [s|z|x|b|x| |v IH|l IH|fs IH] using gval_ind'; intros t HT; try reflexivity.
  - destruct t; try discriminate. exact HT.
  - destruct t; try discriminate. cbn [fcanon]. apply (IH t). exact HT.
  - destruct t; try discriminate. cbn [fcanon has_type] in *. rewrite forallb_forall in *.
    rewrite Forall_forall in IH. intros x Hx. apply (IH x Hx t). auto.
  - destruct t as [| | | | | | |n]; try discriminate. apply has_type_struct in HT. destruct HT as (d & _ & HT).
    cbn [fcanon]. rewrite forallb_forall. rewrite Forall_forall in IH. intros kv Hkv.
    assert (exists f, has_type (snd kv) (f_ty f) = true) as [f Hf].
    { clear IH. induction HT as [|kv' f fs ds [_ E] _ IHt]; [destruct Hkv|]. destruct Hkv as [->|H]; eauto. }
    apply (IH kv Hkv _ Hf).
Qed.

(** ** Payloads *)

Lemma marshal_msg_tree n v text : has_type v (TStruct n) = true -> marshal_msg n v = Ok text ->
  exists j, jt (TStruct n) v = Ok j /\ text = print j /\ wf_json j = true.
Proof.
  intros HT HM. unfold marshal_msg in HM. cbn [enc] in HM.
  pose proof (enc_jt v (has_type_fcanon v _ HT) (TStruct n)) as HR. rewrite HM in HR.
  destruct (jt (TStruct n) v) as [j| |]; cbn in HR; try contradiction. exists j. tauto.
Qed.

Lemma struct_jt_obj n v j : jt (TStruct n) v = Ok j -> exists l, jsan j = JObj l.
Proof.
  intros HJ. destruct v; cbn [jt] in HJ; try discriminate.
  destruct (find_decl n); [|discriminate]. unfold struct_tree in HJ.
  destruct (items_of d); [|discriminate]. destruct (items_run _ _ _); try discriminate. cbn [rbind] in HJ.
  injection HJ as <-. destruct (customised d); cbn [jsan]; eauto.
Qed.

Lemma jeq_obj_inv l j : jeq (JObj l) j -> exists l', j = JObj l'.
Proof. inversion 1; eauto. Qed.

Lemma to_any_obj l a : to_any (JObj l) = Some a -> exists m, a = AObj m.
Proof. cbn [to_any]. destruct (oall _); [|discriminate]. cbn. intros H. injection H as <-. eauto. Qed.

Theorem payload_trip n v text : has_type v (TStruct n) = true -> carried v = true -> marshal_msg n v = Ok text ->
  exists m text', unmarshal_any text = Some (AObj m) /\ wf_any (AObj m) /\
    marshal_any (AObj m) = Ok text' /\ unmarshal_msg n text' = Some (norm_at (TStruct n) v).
Proof.
  intros HT HC HM. destruct (marshal_msg_tree n v text HT HM) as (j & HJ & -> & HW).
  destruct (round_trip v (TStruct n) j HT HC eq_refl HJ) as [HG HD].
  destruct (struct_jt_obj n v j HJ) as [l El].
  destruct (canonize_jeq (jsan j) HG) as (j' & E' & HE). unfold canonize in E'.
  destruct (to_any (jsan j)) as [a|] eqn:Ea; [|discriminate].
  pose proof (parse_print j HW) as HP.
  assert (HU : unmarshal_any (print j) = Some a) by (unfold unmarshal_any; rewrite HP; exact Ea).
  pose proof (unmarshal_any_wf _ _ HU) as HWa.
  rewrite El in Ea. destruct (to_any_obj l a Ea) as [m ->].
  destruct (of_any_ok (AObj m) HWa) as (j2 & E2 & [C1 C2] & E3). rewrite E2 in E'. injection E' as ->.
  exists m, (print j'). split; [exact HU|]. split; [exact HWa|].
  unfold marshal_any. rewrite E2. split; [reflexivity|].
  unfold unmarshal_msg. rewrite (parse_print j' C1), C2.
  rewrite <- (dec_jeq (jsan j) j' HE (good_fdist _ HG)). exact HD.
Qed.

(** ** What a frame looks like *)

Definition eprint (r : res string) (j : json) : Prop := r = Ok (print j) /\ wf_json j = true.

Lemma rmap_prints l js : Forall2 eprint l js -> rmap (fun x => x) l = Ok (map print js).
Proof. induction 1 as [|r j l js [-> _] _ IH]; [reflexivity|]. cbn [rmap rbind]. rewrite IH. reflexivity. Qed.

Lemma frame_trees l js : Forall2 eprint l js ->
  rbind (rmap (fun x => x) l) (fun l => compact ("[" +++ join "," l +++ "]")) = Ok (print (jsan (JArr js))).
Proof.
  intros H. rewrite (rmap_prints l js H). cbn [rbind].
  change ("[" +++ join "," (map print js) +++ "]") with (print (JArr js)).
  unfold compact. rewrite parse_print; [reflexivity|]. cbn [wf_json]. rewrite forallb_forall.
  intros x Hx. clear -H Hx. induction H as [|r j l js [_ E] _ IH]; [destruct Hx|]. destruct Hx as [->|Hx]; auto.
Qed.

Lemma frame_of_print js xs : Forall (fun j => wf_json j = true) js ->
  Forall2 (fun j x => to_any (jsan j) = Some x) js xs ->
  frame_of (normalise (print (jsan (JArr js)))) = Ok xs.
Proof.
  intros HW HX. unfold frame_of.
  assert (HP : parse (print (jsan (JArr js))) = Some (jsan (JArr js))).
  { rewrite parse_print; [rewrite jsan_idem; reflexivity|]. apply jsan_wf. cbn [wf_json]. apply forallb_forall.
    rewrite Forall_forall in HW. exact HW. }
  apply normalise_parse in HP. rewrite HP. cbn [jsan]. rewrite map_map.
  apply oall_map in HX. rewrite HX. reflexivity.
Qed.

Lemma eprint_2 : eprint (marshal_f64 t_call) (JNum "2"). Proof. split; vm_compute; reflexivity. Qed.
Lemma eprint_3 : eprint (marshal_f64 t_result) (JNum "3"). Proof. split; vm_compute; reflexivity. Qed.
Lemma eprint_4 : eprint (marshal_f64 t_error) (JNum "4"). Proof. split; vm_compute; reflexivity. Qed.
Lemma any_2 : to_any (JNum "2") = Some (ANum t_call). Proof. vm_compute. reflexivity. Qed.
Lemma any_3 : to_any (JNum "3") = Some (ANum t_result). Proof. vm_compute. reflexivity. Qed.
Lemma any_4 : to_any (JNum "4") = Some (ANum t_error). Proof. vm_compute. reflexivity. Qed.
Lemma eprint_str s : eprint (Ok (quote s)) (JStr s). Proof. split; reflexivity. Qed.

Lemma eprint_any a : wf_any a -> exists j, eprint (marshal_any a) j /\ to_any (jsan j) = Some a.
Proof.
  intros H. destruct (of_any_ok a H) as (j & E & [C1 C2] & E2). exists j. unfold marshal_any. rewrite E.
  split; [split; [reflexivity|exact C1]|]. rewrite C2. exact E2.
Qed.

Lemma wf_of_eprint l js : Forall2 eprint l js -> Forall (fun j => wf_json j = true) js.
Proof. induction 1 as [|r j l js [_ E] _ IH]; constructor; auto. Qed.

(** The three kinds of frames, written and read back. *)
Theorem call_frame id action m : wf_any (AObj m) ->
  exists s, marshal_message (MCall id action (AObj m)) = Ok s /\
    read_text s = Ok (MCall (sanitize id) (sanitize action) (AObj m)).
Proof.
  intros HW. destruct (eprint_any _ HW) as (jp & E1 & E2).
  set (js := [JNum "2"; JStr id; JStr action; jp]).
  assert (HF : Forall2 eprint (marshal_elems (MCall id action (AObj m))) js).
  { cbn [marshal_elems]. repeat constructor; try apply eprint_2; try apply E1. }
  exists (print (jsan (JArr js))). split; [apply frame_trees; exact HF|].
  unfold read_text, unmarshal_message.
  rewrite (frame_of_print js [ANum t_call; AStr (sanitize id); AStr (sanitize action); AObj m]).
  - reflexivity.
  - apply wf_of_eprint in HF. exact HF.
  - unfold js. repeat constructor; try apply any_2. exact E2.
Qed.

Theorem error_frame id c desc m : wf_any (AObj m) ->
  exists s, marshal_message (MError id c desc (AObj m)) = Ok s /\
    read_text s = Ok (MError (sanitize id) (sanitize c) (sanitize desc) (AObj m)).
Proof.
  intros HW. destruct (eprint_any _ HW) as (jp & E1 & E2).
  set (js := [JNum "4"; JStr id; JStr c; JStr desc; jp]).
  assert (HF : Forall2 eprint (marshal_elems (MError id c desc (AObj m))) js).
  { cbn [marshal_elems]. repeat constructor; try apply eprint_4; try apply E1. }
  exists (print (jsan (JArr js))). split; [apply frame_trees; exact HF|].
  unfold read_text, unmarshal_message.
  rewrite (frame_of_print js [ANum t_error; AStr (sanitize id); AStr (sanitize c); AStr (sanitize desc); AObj m]).
  - reflexivity.
  - apply wf_of_eprint in HF. exact HF.
  - unfold js. repeat constructor; try apply any_4. exact E2.
Qed.

(** A frame whose payload text is the print of [j]. *)
Lemma result_frame_gen id p j m : eprint (marshal_payload p) j -> to_any (jsan j) = Some (AObj m) ->
  exists s, marshal_message (MResult id p) = Ok s /\ read_text s = Ok (MResult (sanitize id) (PAny (AObj m))).
Proof.
  intros E1 E2. set (js := [JNum "3"; JStr id; j]).
  assert (HF : Forall2 eprint (marshal_elems (MResult id p)) js).
  { cbn [marshal_elems]. repeat constructor; try apply eprint_3; apply E1. }
  exists (print (jsan (JArr js))). split; [apply frame_trees; exact HF|].
  unfold read_text, unmarshal_message.
  rewrite (frame_of_print js [ANum t_result; AStr (sanitize id); AObj m]).
  - reflexivity.
  - apply wf_of_eprint in HF. exact HF.
  - unfold js. repeat constructor; try apply any_3. exact E2.
Qed.

Theorem result_frame id m : wf_any (AObj m) ->
  exists s, marshal_message (MResult id (PAny (AObj m))) = Ok s /\
    read_text s = Ok (MResult (sanitize id) (PAny (AObj m))).
Proof. intros HW. destruct (eprint_any _ HW) as (jp & E1 & E2). eapply result_frame_gen; eassumption. Qed.

(** A response: written, read back, re-encoded and decoded. *)
Theorem response_trip id q s : msg_ok q = true -> carried (m_val q) = true ->
  marshal_message (MResult id (PMsg q)) = Ok s ->
  exists m text', read_text s = Ok (MResult (sanitize id) (PAny (AObj m))) /\ wf_any (AObj m) /\
    (exists text, marshal_msg (m_ty q) (m_val q) = Ok text /\ unmarshal_any text = Some (AObj m)) /\
    marshal_any (AObj m) = Ok text' /\
    unmarshal_msg (m_ty q) text' = Some (norm_at (TStruct (m_ty q)) (m_val q)).
Proof.
  destruct q as [n v]. unfold msg_ok. cbn [m_ty m_val]. intros HT HC HM.
  assert (exists text, marshal_msg n v = Ok text) as [text Et].
  { unfold marshal_message in HM. cbn [marshal_elems rmap rbind marshal_payload m_ty m_val] in HM.
    destruct (marshal_msg n v) as [t| |]; [eauto| |].
    - destruct (marshal_f64 t_result); discriminate.
    - destruct (marshal_f64 t_result); discriminate. }
  destruct (payload_trip n v text HT HC Et) as (m & text' & U1 & U2 & U3 & U4).
  destruct (marshal_msg_tree n v text HT Et) as (j & HJ & Ej & HW).
  destruct (result_frame_gen id (PMsg (MkMsg n v)) j m) as (s' & S1 & S2).
  - split; [|exact HW]. cbn [marshal_payload m_ty m_val]. rewrite Et. congruence.
  - unfold unmarshal_any in U1. rewrite Ej, parse_print in U1 by exact HW. exact U1.
  - assert (s' = s) by congruence. subst s'. exists m, text'.
    split; [exact S2|]. split; [exact U2|]. split; [exists text; auto|]. split; assumption.
Qed.

Lemma response_encodes q : msg_ok q = true -> forall id s, marshal_message (MResult id (PMsg q)) = Ok s ->
  exists text, marshal_msg (m_ty q) (m_val q) = Ok text.
Proof.
  intros _ id s HM. unfold marshal_message in HM. cbn [marshal_elems rmap rbind marshal_payload] in HM.
  destruct (marshal_msg (m_ty q) (m_val q)) as [t| |]; [eauto| |]; destruct (marshal_f64 t_result); discriminate.
Qed.

(** A request: struct -> text -> map -> frame -> map -> text -> struct. *)
Theorem request_trip id q msg : msg_ok q = true -> carried (m_val q) = true ->
  unmarshal_request id q = Ok msg ->
  exists a m s text, action_of (m_ty q) = Some a /\ msg = MCall id a (AObj m) /\ wf_any (AObj m) /\
    marshal_message msg = Ok s /\ read_text s = Ok (MCall (sanitize id) (sanitize a) (AObj m)) /\
    marshal_any (AObj m) = Ok text /\
    unmarshal_msg (m_ty q) text = Some (norm_at (TStruct (m_ty q)) (m_val q)).
Proof.
  destruct q as [n v]. unfold msg_ok. cbn [m_ty m_val]. intros HT HC HM. unfold unmarshal_request in HM.
  cbn [m_ty m_val] in HM. destruct (marshal_msg n v) as [text| |] eqn:Et; [|discriminate|discriminate].
  cbn [rbind] in HM. destruct (payload_trip n v text HT HC Et) as (m & text' & U1 & U2 & U3 & U4).
  rewrite U1 in HM. destruct (action_of n) as [a|]; [|discriminate]. injection HM as <-.
  destruct (call_frame id a m U2) as (s & S1 & S2).
  exists a, m, s, text'. split; [reflexivity|]. split; [reflexivity|]. split; [exact U2|].
  split; [exact S1|]. split; [exact S2|]. split; assumption.
Qed.
