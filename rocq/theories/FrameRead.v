(** What is known about a message that was read, and about encoding in general. *)
From Verif Require Import GoBase Utf8 Json JsonProofs JsonText Float64 Lang Types Codec Any AnyProofs SpecCodec Tables Registry
  Frame FrameProofs SpecFrame FrameMore SpecEnc EncTotal DecTyped Leaves EncProofs DecProofs RoundTrip.
Open Scope string_scope.
Open Scope list_scope.

Definition wf_message (m : message) : Prop :=
  match m with
  | MCall id a p => sanitize id = id /\ sanitize a = a /\ (exists l, p = AObj l) /\ wf_any p
  | MResult id p => sanitize id = id /\ exists l, p = PAny (AObj l) /\ wf_any (AObj l)
  | MError id c d det => sanitize id = id /\ sanitize c = c /\ sanitize d = d /\ (exists l, det = AObj l) /\ wf_any det
  end.
Lemma frame_wf s fr : frame_of s = Ok fr -> Forall wf_any fr.
Proof.
  unfold frame_of. destruct (parse s) as [j|] eqn:E; [|discriminate]. destruct j as [| | | |l|]; try discriminate; [injection 1 as <-; constructor|].
  destruct (oall (map to_any l)) as [xs|] eqn:EX; [|discriminate]. injection 1 as <-.
  apply wf_any_arr. eapply (to_any_wf (JArr l)); [exact (parse_clean _ _ E)|]. cbn [to_any]. rewrite EX. reflexivity.
Qed.
Lemma nth_wf fr i a : Forall wf_any fr -> nth_any fr i = Ok a -> wf_any a.
Proof.
  intros HF H. unfold nth_any in H. destruct (nth_error fr i) as [x|] eqn:E; [|discriminate H]. injection H as <-.
  rewrite Forall_forall in HF. apply HF. exact (nth_error_In _ _ E).
Qed.
Lemma str_wf a e s : wf_any a -> as_str a e = Ok s -> sanitize s = s.
Proof. destruct a; cbn; try discriminate. intros H H1. congruence. Qed.
Lemma map_wf a e x : wf_any a -> as_map a e = Ok x -> (exists l, x = AObj l) /\ wf_any x.
Proof. destruct a; cbn [as_map]; try discriminate. intros H H1. injection H1 as <-. eauto. Qed.
Theorem read_wf s m : read_text s = Ok m -> wf_message m.
Proof.
  unfold read_text, unmarshal_message. intros H. destruct (frame_of (normalise s)) as [fr|e|] eqn:EF; cbn [rbind] in H; try discriminate H.
  apply frame_wf in EF.
  destruct (nth_any fr 0) as [a0|e|] eqn:E0; cbn [rbind] in H; try discriminate H.
  destruct (as_num a0 _) as [ty|e|]; cbn [rbind] in H; try discriminate H.
  destruct (nth_any fr 1) as [a1|e|] eqn:E1; cbn [rbind] in H; try discriminate H. apply (nth_wf _ _ _ EF) in E1.
  destruct (as_str a1 _) as [i|e|] eqn:E2; cbn [rbind] in H; try discriminate H. apply (str_wf _ _ _ E1) in E2.
  destruct (f64_eqb ty t_call).
  - destruct (nth_any fr 2) as [a2|e|] eqn:E3; cbn [rbind] in H; try discriminate H. apply (nth_wf _ _ _ EF) in E3.
    destruct (as_str a2 _) as [x|e|] eqn:E4; cbn [rbind] in H; try discriminate H. apply (str_wf _ _ _ E3) in E4.
    destruct (nth_any fr 3) as [a3|e|] eqn:E5; cbn [rbind] in H; try discriminate H. apply (nth_wf _ _ _ EF) in E5.
    destruct (as_map a3 _) as [y|e|] eqn:E6; cbn [rbind] in H; try discriminate H. apply (map_wf _ _ _ E5) in E6.
    injection H as <-. cbn [wf_message]. tauto.
  - destruct (f64_eqb ty t_result).
    + destruct (nth_any fr 2) as [a2|e|] eqn:E3; cbn [rbind] in H; try discriminate H. apply (nth_wf _ _ _ EF) in E3.
      destruct (as_map a2 _) as [y|e|] eqn:E6; cbn [rbind] in H; try discriminate H. apply (map_wf _ _ _ E3) in E6.
      injection H as <-. destruct E6 as [[l ->] E6]. cbn [wf_message]. eauto.
    + destruct (f64_eqb ty t_error); [|discriminate H].
      destruct (nth_any fr 2) as [a2|e|] eqn:E3; cbn [rbind] in H; try discriminate H. apply (nth_wf _ _ _ EF) in E3.
      destruct (as_str a2 _) as [x|e|] eqn:E4; cbn [rbind] in H; try discriminate H. apply (str_wf _ _ _ E3) in E4.
      destruct (nth_any fr 3) as [a3|e|] eqn:E5; cbn [rbind] in H; try discriminate H. apply (nth_wf _ _ _ EF) in E5.
      destruct (as_str a3 _) as [x3|e|] eqn:E7; cbn [rbind] in H; try discriminate H. apply (str_wf _ _ _ E5) in E7.
      destruct (nth_any fr 4) as [a4|e|] eqn:E8; cbn [rbind] in H; try discriminate H. apply (nth_wf _ _ _ EF) in E8.
      destruct (as_map a4 _) as [y|e|] eqn:E6; cbn [rbind] in H; try discriminate H. apply (map_wf _ _ _ E8) in E6.
      injection H as <-. cbn [wf_message]. tauto.
Qed.

Lemma marshal_any_ok a : wf_any a -> exists s, marshal_any a = Ok s.
Proof. intros H. destruct (eprint_any a H) as (j & [E _] & _). eauto. Qed.

Definition is_dt (ty : string) : bool := String.eqb ty "cpreq.DataTransfer" || String.eqb ty "csreq.DataTransfer".
Lemma req_types_ok : forallb (fun kv => is_request (snd kv) && negb (is_dt (snd kv)) && match find_decl (snd kv) with Some _ => true | None => false end &&
   match response_of (snd kv) with Some r => match find_decl r with Some _ => true | None => false end | None => false end) req_actions = true.
Proof. vm_compute. reflexivity. Qed.
Lemma req_types a ty : req_from_action a = Some ty -> is_request ty = true /\ is_dt ty = false /\ (exists d, find_decl ty = Some d) /\
  exists r d, response_of ty = Some r /\ find_decl r = Some d.
Proof.
  intros H. apply lookup_In in H. pose proof req_types_ok as HA. rewrite forallb_forall in HA. specialize (HA _ H). cbn [snd] in HA.
  apply andb_true_iff in HA. destruct HA as [HA H4]. apply andb_true_iff in HA. destruct HA as [HA H3]. apply andb_true_iff in HA. destruct HA as [H1 H2].
  split; [exact H1|]. split; [now apply negb_true_iff|]. split; [destruct (find_decl ty); [eauto|discriminate H3]|].
  destruct (response_of ty) as [r|]; [|discriminate H4]. destruct (find_decl r) as [d|] eqn:ED; [|discriminate H4]. eauto.
Qed.

(** A CALL becomes a well-typed request, or NotSupported exactly for unknown
    actions, or FormationViolation. *)
Theorem call_fate a p : wf_any p ->
  match req_from_action a with
  | None => call_to_request a p = inr NotSupported
  | Some ty => (exists v, call_to_request a p = inl (MkMsg ty v) /\ msg_ok (MkMsg ty v) = true) \/ call_to_request a p = inr FormationViolation
  end.
Proof.
  intros HW. unfold call_to_request. destruct (req_from_action a) as [ty|] eqn:E; [|reflexivity].
  destruct (marshal_any_ok p HW) as [s Hs]. rewrite Hs. destruct (unmarshal_msg ty s) as [v|] eqn:EV; [left|right; reflexivity].
  exists v. split; [reflexivity|]. destruct (req_types _ _ E) as (_ & _ & [d Hd] & _). unfold msg_ok. cbn [m_ty m_val].
  exact (unmarshal_msg_typed _ _ _ _ Hd EV).
Qed.
(** A CALLRESULT becomes a well-typed response of the right type or
    FormationViolation, or crashes, exactly for DataTransfer. *)
Theorem result_fate q a p : action_of q = Some a -> wf_any p ->
  if is_dt q then result_to_response a p = Panic
  else exists r, response_of q = Some r /\
    ((exists v, result_to_response a p = Ok (inl (MkMsg r v)) /\ msg_ok (MkMsg r v) = true) \/ result_to_response a p = Ok (inr FormationViolation)).
Proof.
  intros HA HW. unfold result_to_response. destruct (is_dt q) eqn:ED.
  - unfold is_dt in ED. apply orb_true_iff in ED. assert (a = "DataTransfer") as ->.
    { destruct ED as [ED|ED]; apply String.eqb_eq in ED; subst q; vm_compute in HA; congruence. }
    change (req_from_action "DataTransfer") with (@None string). reflexivity.
  - unfold is_dt in ED. apply orb_false_iff in ED. destruct ED as [E1 E2]. apply String.eqb_neq in E1, E2.
    pose proof (action_found q a HA E1 E2) as HF. rewrite HF. destruct (req_types _ _ HF) as (_ & _ & _ & r & d & HR & HD). rewrite HR. exists r.
    split; [reflexivity|]. destruct (marshal_any_ok p HW) as [s Hs]. rewrite Hs. destruct (unmarshal_msg r s) as [v|] eqn:EV; [left|right; reflexivity].
    exists v. split; [reflexivity|]. exact (unmarshal_msg_typed _ _ _ _ HD EV).
Qed.

(** ** Nothing else crashes the encoder *)
Lemma expiry_lossless v : forall t, has_type v t = true -> lossy (base t) = false -> expiry_present t v = true.
Proof.
  unfold expiry_present. induction v as [s|z|x|b|x| |v IH|l IH|fs IH] using gval_ind'; intros t HT HL; destruct t as [|ib| | | |t|t|n]; try reflexivity; cbn [all_structs].
  - apply IH; [exact HT|exact HL].
  - apply forallb_forall. intros x Hx. rewrite Forall_forall in IH. apply IH; [exact Hx| |exact HL].
    cbn [has_type] in HT. rewrite forallb_forall in HT. exact (HT x Hx).
  - apply has_type_struct in HT. destruct HT as (d & Hd & HT).
    cbn [base] in HL. destruct (String.eqb_spec n "csreq.IdTagInfo") as [->|D]; [vm_compute in HL; discriminate HL|]. cbn [andb].
    rewrite Hd. destruct (find_decl_in n d Hd) as [HI HN].
    pose proof lossless_closed as HA. rewrite forallb_forall in HA. specialize (HA d HI). rewrite HN, HL in HA. cbn [orb] in HA.
    rewrite forallb_forall in HA. pose proof (rt_ok_in d HI) as HR.
    apply forallb_forall. intros [k x] Hx. cbn [fst snd].
    assert (exists f, find_field d k = Some f /\ has_type x (f_ty f) = true) as (f & Ef & Tf).
    { unfold find_field. unfold rt_ok in HR. destruct (items_of d); [|discriminate].
      repeat rewrite andb_true_iff in HR. assert (HND : nodupb (map f_name (d_fields d)) = true) by tauto.
      apply nodupb_spec in HND. clear -HT Hx HND. induction HT as [|kv f fs ds [E1 E2] HT' IHt]; [destruct Hx|].
      cbn [map find] in *. inversion HND as [|? ? N1 N2]; subst.
      destruct Hx as [->|Hx].
      - cbn [fst snd] in *. subst k. rewrite String.eqb_refl. eauto.
      - destruct (String.eqb_spec (f_name f) k) as [E|E]; [|auto]. exfalso. apply N1. rewrite E.
        clear -Hx HT'. induction HT' as [|kv' f' fs ds [E1 E2] _ IHt]; [destruct Hx|]. cbn [map].
        destruct Hx as [->|Hx]; [left; symmetry; exact E1|right; auto]. }
    rewrite Ef. rewrite Forall_forall in IH. apply (IH (k, x) Hx); [exact Tf|].
    unfold find_field in Ef. apply find_some in Ef. destruct Ef as [Ef _]. specialize (HA f Ef).
    destruct (lossy (base (f_ty f))); [discriminate|reflexivity].
Qed.
Theorem response_no_crash id r : match r with inl (Some m) => msg_ok m = true /\ (is_cp_response (m_ty m) = true \/ is_cs_response (m_ty m) = true) | _ => True end ->
  marshal_message (response_message id r) <> Panic.
Proof.
  destruct r as [[m|]|e]; intros H.
  - destruct H as [HT HR]. cbn [response_message]. destruct (marshal_total (m_ty m) (m_val m) HT) as (_ & _ & H3).
    assert (marshal_msg (m_ty m) (m_val m) <> Panic).
    { apply H3, expiry_lossless; [exact HT|]. cbn [base]. destruct (lossy (m_ty m)) eqn:EL; [|reflexivity]. exfalso.
      unfold lossy in EL. apply strmem_In in EL. destruct EL as [EL|[EL|[EL|[]]]]; rewrite <- EL in HR; vm_compute in HR; destruct HR; discriminate. }
    destruct (marshal_msg (m_ty m) (m_val m)) as [x|e|] eqn:EM; [|rewrite response_fails, EM; discriminate|congruence].
    destruct (response_frame id m x HT EM) as (y & s' & _ & _ & A3 & _).
    rewrite A3. discriminate.
  - destruct (nil_response id) as (s & Hs & _). rewrite Hs. discriminate.
  - destruct (error_written id InternalError e) as (s & Hs & _). cbn [response_message]. rewrite Hs. discriminate.
Qed.
Theorem request_crash id q : msg_ok q = true -> is_request (m_ty q) = true ->
  (unmarshal_request id q = Panic -> expiry_present (TStruct (m_ty q)) (m_val q) = false) /\
  (forall call, unmarshal_request id q = Ok call -> exists s, marshal_message call = Ok s).
Proof.
  intros HT HR. destruct (request_total _ HR) as (a & r & HA & _). split.
  - intros H. apply (proj1 (proj2 (marshal_total (m_ty q) (m_val q) HT))). unfold unmarshal_request in H.
    destruct (marshal_msg (m_ty q) (m_val q)) as [text|e|] eqn:EM; [|discriminate H|reflexivity]. exfalso. cbn [rbind] in H. rewrite HA in H.
    destruct (unmarshal_any text) as [[]|]; discriminate H.
  - intros call H. unfold unmarshal_request in H. destruct (marshal_msg (m_ty q) (m_val q)) as [text|e|] eqn:EM; cbn [rbind] in H; try discriminate H.
    destruct (request_frame id q text HT EM a HA) as (m & s & A1 & A2 & A3 & A4 & A5).
    exists s. unfold unmarshal_request in A3. rewrite EM in A3. cbn [rbind] in A3. congruence.
Qed.
