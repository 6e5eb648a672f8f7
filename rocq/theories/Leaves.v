(** Consequences of the frame and codec theorems, in the form the property
    statements need. *)
From Coq Require Import ZArith Lia.
From Verif Require Import GoBase Utf8 Json JsonProofs JsonText Float64 Float64Proofs GoTime
  Lang Types Codec EncProofs Any AnyProofs DecProofs SpecCodec RoundTrip NumTotal Tables Registry Frame FrameProofs SpecFrame FrameMore
  SpecEnc EncTotal.
Open Scope string_scope.
Open Scope list_scope.

Lemma flat_map_ext_in {A B} (f g : A -> list B) l : (forall x, In x l -> f x = g x) -> flat_map f l = flat_map g l.
Proof. induction l as [|x l IH]; intros H; cbn [flat_map]; [reflexivity|]. rewrite (H x) by (left; reflexivity). f_equal. apply IH. intros y Hy. apply H. right. exact Hy. Qed.
Lemma flat_map_map {A B C} (f : B -> list C) (g : A -> B) l : flat_map f (map g l) = flat_map (fun x => f (g x)) l.
Proof. induction l as [|x l IH]; cbn [flat_map map]; [reflexivity|]. rewrite IH. reflexivity. Qed.
Lemma map_flat_map {A B C} (f : B -> C) (g : A -> list B) l : map f (flat_map g l) = flat_map (fun x => map f (g x)) l.
Proof. induction l as [|x l IH]; cbn [flat_map map]; [reflexivity|]. rewrite map_app, IH. reflexivity. Qed.

(** [norm] acts on the leaves. *)
Lemma leaves_norm {A} (f : gval -> list A) (g : A -> A) :
  (forall s, f (VStr (sanitize s)) = map g (f (VStr s))) ->
  (forall t, f (VTime (trunc_sec t)) = map g (f (VTime t))) ->
  (forall z, f (VInt z) = map g (f (VInt z))) -> (forall x, f (VF64 x) = map g (f (VF64 x))) ->
  (forall b, f (VBool b) = map g (f (VBool b))) -> f VNil = map g (f VNil) ->
  forall v, leaves f (norm v) = map g (leaves f v).
Proof.
  intros H1 H2 H3 H4 H5 H6. induction v as [s|z|x|b|x| |v IH|l IH|fs IH] using gval_ind'; cbn [norm leaves]; auto.
  - rewrite flat_map_map, map_flat_map. apply flat_map_ext_in. rewrite Forall_forall in IH. exact IH.
  - rewrite flat_map_map, map_flat_map. apply flat_map_ext_in. rewrite Forall_forall in IH. intros kv Hkv. cbn [snd]. apply IH, Hkv.
Qed.

Lemma map_same {A} (l : list A) : map (fun x => x) l = l.
Proof. induction l as [|x l IH]; cbn [map]; congruence. Qed.

Lemma ints_norm v : ints (norm v) = ints v.
Proof. unfold ints. rewrite (leaves_norm _ (fun x => x)); [apply map_same|..]; reflexivity. Qed.
Lemma floats_norm v : floats (norm v) = floats v.
Proof. unfold floats. rewrite (leaves_norm _ (fun x => x)); [apply map_same|..]; reflexivity. Qed.
Lemma bools_norm v : bools (norm v) = bools v.
Proof. unfold bools. rewrite (leaves_norm _ (fun x => x)); [apply map_same|..]; reflexivity. Qed.
Lemma times_norm v : times (norm v) = map trunc_sec (times v).
Proof. unfold times. rewrite (leaves_norm _ trunc_sec); reflexivity. Qed.
Lemma strings_norm v : strings (norm v) = map sanitize (strings v).
Proof. unfold strings. rewrite (leaves_norm _ sanitize); reflexivity. Qed.

(** With lost fields: integers, floats and booleans are not concerned. *)
Lemma lost_types : forallb (fun d => forallb (fun f => negb (lost (d_name d) (f_name f)) ||
  match f_ty f with TStr | TPtr TTime => true | _ => false end) (d_fields d)) all_decls = true.
Proof. vm_compute. reflexivity. Qed.

Lemma leaves_norm_at {A} (f : gval -> list A) :
  (forall s, f (VStr s) = []) -> (forall t, f (VTime t) = []) -> f VNil = [] ->
  forall v t, has_type v t = true -> leaves f (norm_at t v) = leaves f v.
Proof.
  intros H1 H2 H3. induction v as [s|z|x|b|x| |v IH|l IH|fs IH] using gval_ind'; intros t HT;
    destruct t as [|bits| | | |t|t|n]; try discriminate; cbn [norm_at leaves]; rewrite ?H1, ?H2; try reflexivity.
  - apply IH; assumption.
  - cbn [has_type] in HT. rewrite forallb_forall in HT. rewrite Forall_forall in IH.
    rewrite flat_map_map. apply flat_map_ext_in. intros x Hx. apply IH; auto.
  - apply has_type_struct in HT. destruct HT as (d & Hd & HT). rewrite Hd. cbn [leaves]. rewrite flat_map_map.
    apply flat_map_ext_in. intros [k x] Hx. cbn [fst snd].
    destruct (find_decl_in n d Hd) as [HI HN].
    destruct (find_field d k) as [fd|] eqn:Ef; [|reflexivity]. cbn [snd].
    assert (Tf : has_type x (f_ty fd) = true).
    { pose proof (rt_ok_in d HI) as HR. unfold find_field in Ef. unfold rt_ok in HR. destruct (items_of d); [|discriminate].
      repeat rewrite andb_true_iff in HR. assert (HND : nodupb (map f_name (d_fields d)) = true) by tauto.
      apply nodupb_spec in HND. clear -HT Hx HND Ef. induction HT as [|kv f0 fs ds [E1 E2] HT' IHt]; [destruct Hx|].
      cbn [map find] in *. inversion HND as [|? ? N1 N2]; subst.
      destruct Hx as [->|Hx].
      - cbn [fst snd] in *. subst k. rewrite String.eqb_refl in Ef. congruence.
      - destruct (String.eqb_spec (f_name f0) k) as [E|E]; [|auto]. exfalso. apply N1. rewrite E.
        clear -Hx HT'. induction HT' as [|kv' f' fs ds [E1 E2] _ IHt]; [destruct Hx|]. cbn [map].
        destruct Hx as [->|Hx]; [left; symmetry; exact E1|right; auto]. }
    rewrite Forall_forall in IH. pose proof (IH (k, x) Hx (f_ty fd) Tf) as HX. cbn [snd] in HX.
    destruct (lost n k) eqn:EL; [|exact HX].
    pose proof lost_types as HL. rewrite forallb_forall in HL. specialize (HL d HI). rewrite forallb_forall in HL.
    unfold find_field in Ef. apply find_some in Ef. destruct Ef as [I1 I2]. apply String.eqb_eq in I2.
    specialize (HL fd I1). rewrite HN, I2, EL in HL. cbn [negb orb] in HL.
    destruct (f_ty fd) as [| | | | |[]| |]; try discriminate; destruct x as [| | | | | |y| |]; try discriminate; cbn [zero0 leaves];
      rewrite ?H1, ?H2, ?H3; try reflexivity.
    destruct y; try discriminate. cbn [leaves]. rewrite H2. reflexivity.
Qed.

Lemma ints_norm_at v t : has_type v t = true -> ints (norm_at t v) = ints v.
Proof. apply leaves_norm_at; reflexivity. Qed.
Lemma floats_norm_at v t : has_type v t = true -> floats (norm_at t v) = floats v.
Proof. apply leaves_norm_at; reflexivity. Qed.
Lemma bools_norm_at v t : has_type v t = true -> bools (norm_at t v) = bools v.
Proof. apply leaves_norm_at; reflexivity. Qed.

(** ** Frames *)

Lemma actions_sane : forallb (fun kv => String.eqb (sanitize (snd kv)) (snd kv)) action_table = true.
Proof. vm_compute. reflexivity. Qed.
Lemma action_sane ty a : action_of ty = Some a -> sanitize a = a.
Proof.
  intros H. apply lookup_In in H. pose proof actions_sane as HA. rewrite forallb_forall in HA.
  apply String.eqb_eq. exact (HA _ H).
Qed.

Lemma request_text_inv id q s : msg_ok q = true -> request_text id q = Ok s ->
  exists text a, marshal_msg (m_ty q) (m_val q) = Ok text /\ action_of (m_ty q) = Some a.
Proof.
  intros HT HS. unfold request_text, unmarshal_request in HS.
  destruct (marshal_msg (m_ty q) (m_val q)) as [text| |] eqn:EM; try discriminate. cbn [rbind] in HS.
  destruct (encoded_any _ _ _ HT EM) as (_ & m & _ & _ & _ & E4). rewrite E4 in HS.
  destruct (action_of (m_ty q)) as [a|]; [eauto|discriminate].
Qed.

Theorem request_written id q s : msg_ok q = true -> request_text id q = Ok s ->
  exists text a p, marshal_msg (m_ty q) (m_val q) = Ok text /\ action_of (m_ty q) = Some a /\
    unmarshal_any text = Some p /\ read_text s = Ok (MCall (sanitize id) a p).
Proof.
  intros HT HS. destruct (request_text_inv id q s HT HS) as (text & a & EM & EA).
  destruct (request_frame id q text HT EM a EA) as (m & s' & A1 & A2 & A3 & A4 & A5).
  unfold request_text in HS. rewrite A3 in HS. cbn [rbind] in HS. assert (s' = s) by congruence. subst s'.
  exists text, a, (AObj m). rewrite (action_sane _ _ EA) in A5. auto.
Qed.

Theorem response_written id q s : msg_ok q = true -> response_text id q = Ok s ->
  exists text p, marshal_msg (m_ty q) (m_val q) = Ok text /\ unmarshal_any text = Some p /\
    read_text s = Ok (MResult (sanitize id) (PAny p)).
Proof.
  intros HT HS. unfold response_text, response_message in HS. destruct (response_encodes q HT id s HS) as [text EM].
  destruct (response_frame id q text HT EM) as (m & s' & A1 & A2 & A3 & A4).
  assert (s' = s) by congruence. subst s'. exists text, (AObj m). auto.
Qed.

Theorem error_written id c desc : exists s, marshal_message (new_call_error id c desc) = Ok s /\
  read_text s = Ok (MError (sanitize id) (sanitize c) (sanitize desc) (AObj [])).
Proof. apply error_frame. cbn. repeat constructor. Qed.

(** A nil response. *)
Theorem nil_response id : exists s, marshal_message (response_message id (inl None)) = Ok s /\
  parse s = Some (JArr [JNum "3"; JStr (sanitize id); JNull]) /\ exists e, read_text s = Err e.
Proof.
  set (js := [JNum "3"; JStr id; JNull]).
  assert (HF : Forall2 eprint (marshal_elems (MResult id PNil)) js).
  { cbn [marshal_elems]. repeat constructor; try apply eprint_3. }
  pose proof (wf_of_eprint _ _ HF) as HW.
  exists (print (jsan (JArr js))). split; [apply frame_trees; exact HF|]. split.
  - rewrite parse_print; [rewrite jsan_idem; reflexivity|]. apply jsan_wf. cbn [wf_json]. apply forallb_forall.
    rewrite Forall_forall in HW. exact HW.
  - unfold read_text, unmarshal_message. rewrite (frame_of_print js [ANum t_result; AStr (sanitize id); ANull]); [|exact HW|].
    + cbn [rbind nth_any nth_error as_num as_str].
      replace (f64_eqb t_result t_call) with false by (vm_compute; reflexivity).
      replace (f64_eqb t_result t_result) with true by (vm_compute; reflexivity).
      cbn. eauto.
    + repeat constructor. 
Qed.

(** ** Shape of the written text *)

Theorem result_shape id q s : msg_ok q = true -> response_text id q = Ok s ->
  exists text jp p, marshal_msg (m_ty q) (m_val q) = Ok text /\
    parse s = Some (JArr [JNum "3"; JStr (sanitize id); jp]) /\ to_any jp = Some p /\ unmarshal_any text = Some p.
Proof.
  intros HT HS. unfold response_text, response_message in HS. destruct (response_encodes q HT id s HS) as [text EM].
  destruct (encoded_any _ _ _ HT EM) as (j & m & E1 & E2 & E3 & E4).
  set (js := [JNum "3"; JStr id; j]).
  assert (HF : Forall2 eprint (marshal_elems (MResult id (PMsg q))) js).
  { cbn [marshal_elems marshal_payload]. rewrite EM, E1. repeat constructor; try apply eprint_3. exact E2. }
  pose proof (frame_trees _ _ HF) as HP. unfold marshal_message in HS. rewrite HP in HS.
  assert (ES : s = print (jsan (JArr js))) by congruence. rewrite ES. clear HS ES.
  exists text, (jsan j), (AObj m). split; [exact EM|]. split; [|split; assumption].
  rewrite parse_print; [rewrite jsan_idem; reflexivity|]. apply jsan_wf. cbn [wf_json]. apply forallb_forall.
  apply wf_of_eprint in HF. rewrite Forall_forall in HF. exact HF.
Qed.

Theorem request_shape id q s : msg_ok q = true -> request_text id q = Ok s ->
  exists text a jp p, marshal_msg (m_ty q) (m_val q) = Ok text /\ action_of (m_ty q) = Some a /\
    parse s = Some (JArr [JNum "2"; JStr (sanitize id); JStr a; jp]) /\ to_any jp = Some p /\ unmarshal_any text = Some p.
Proof.
  intros HT HS. destruct (request_text_inv id q s HT HS) as (text & a & EM & EA).
  destruct (request_frame id q text HT EM a EA) as (m & s' & A1 & A2 & A3 & A4 & A5).
  unfold request_text in HS. rewrite A3 in HS. cbn [rbind] in HS. assert (s' = s) by congruence. subst s'.
  destruct (call_shape id a m A2) as (s' & jp & B1 & B2 & B3). assert (s' = s) by congruence. subst s'.
  rewrite (action_sane _ _ EA) in B2. exists text, a, jp, (AObj m). auto.
Qed.

(** ** Values that do not arrive *)

Theorem nonfinite_fails id q : msg_ok q = true -> finite_floats (m_val q) = false ->
  expiry_present (TStruct (m_ty q)) (m_val q) = true ->
  (exists e, request_text id q = Err e) /\ (exists e, response_text id q = Err e).
Proof.
  intros HT HF HE. destruct (marshal_total (m_ty q) (m_val q) HT) as (H1 & H2 & H3).
  destruct (marshal_msg (m_ty q) (m_val q)) as [text|e|] eqn:EM.
  - destruct (proj1 H1) as [X _]; [eauto|congruence].
  - split.
    + unfold request_text, unmarshal_request. rewrite EM. cbn. eauto.
    + unfold response_text, response_message. rewrite response_fails, EM. eauto.
  - exfalso. apply H3; [exact HE|reflexivity].
Qed.

(** ** Registries *)

Lemma req_table_ok : forallb (fun kv =>
    match action_of (snd kv) with Some a => String.eqb a (fst kv) | None => false end) req_actions = true.
Proof. vm_compute. reflexivity. Qed.
Lemma act_table_ok : forallb (fun kv =>
    strmem (fst kv) ["cpreq.DataTransfer"; "csreq.DataTransfer"] ||
    match req_from_action (snd kv) with Some ty => String.eqb ty (fst kv) | None => false end) action_table = true.
Proof. vm_compute. reflexivity. Qed.
Lemma res_table_ok : forallb (fun kv =>
    match req_from_action (fst kv) with
    | Some q => match response_of q with Some r => String.eqb r (snd kv) | None => false end
    | None => false end) res_actions = true.
Proof. vm_compute. reflexivity. Qed.
Lemma req_res_ok : forallb (fun kv => has_key (fst kv) res_actions) req_actions = true.
Proof. vm_compute. reflexivity. Qed.

Theorem action_names a ty : req_from_action a = Some ty -> action_of ty = Some a.
Proof. intros H. apply req_from_action_ok in H. apply H. Qed.
Theorem action_found ty a : action_of ty = Some a -> ty <> "cpreq.DataTransfer" -> ty <> "csreq.DataTransfer" ->
  req_from_action a = Some ty.
Proof.
  intros H N1 N2. apply lookup_In in H. pose proof act_table_ok as HA. rewrite forallb_forall in HA. specialize (HA _ H).
  cbn [fst snd] in HA. apply orb_true_iff in HA. destruct HA as [HA|HA].
  - apply strmem_In in HA. destruct HA as [<-|[<-|[]]]; contradiction.
  - destruct (req_from_action a) as [t|]; [|discriminate]. apply String.eqb_eq in HA. congruence.
Qed.
Theorem action_unknown a : ~ In a (map snd action_table) -> req_from_action a = None.
Proof.
  intros N. destruct (req_from_action a) as [ty|] eqn:E; [|reflexivity]. exfalso. apply N.
  apply action_names in E. apply lookup_In in E. apply in_map_iff. exists (ty, a). auto.
Qed.
Theorem response_types a : res_from_action a =
  match req_from_action a with Some ty => response_of ty | None => None end.
Proof.
  destruct (req_from_action a) as [ty|] eqn:E.
  - pose proof (lookup_In _ _ _ E) as HI. pose proof req_res_ok as HR. rewrite forallb_forall in HR. specialize (HR _ HI).
    cbn [fst] in HR. unfold res_from_action. destruct (lookup a res_actions) as [r|] eqn:ER.
    + apply lookup_In in ER. pose proof res_table_ok as HS. rewrite forallb_forall in HS. specialize (HS _ ER).
      cbn [fst snd] in HS. rewrite E in HS. destruct (response_of ty); [|discriminate]. apply String.eqb_eq in HS. congruence.
    + apply has_key_In in HR. apply in_map_iff in HR. destruct HR as ([k v] & <- & HR). cbn [fst] in *.
      exfalso. eapply (proj1 (lookup_None k res_actions)); eauto. apply in_map_iff. exists (k, v). auto.
  - unfold res_from_action. destruct (lookup a res_actions) as [r|] eqn:ER; [|reflexivity].
    apply lookup_In in ER. pose proof res_table_ok as HS. rewrite forallb_forall in HS. specialize (HS _ ER).
    cbn [fst snd] in HS. rewrite E in HS. discriminate.
Qed.
Lemma directions_ok : forallb (fun kv =>
    (is_cp_request (fst kv) && negb (is_cs_request (fst kv)) && is_cp_response (snd kv) && negb (is_cs_response (snd kv))) ||
    (is_cs_request (fst kv) && negb (is_cp_request (fst kv)) && is_cs_response (snd kv) && negb (is_cp_response (snd kv)))) response_table = true.
Proof. vm_compute. reflexivity. Qed.
Lemma requests_have_responses : forallb (fun d => negb (is_request (d_name d)) ||
    match response_of (d_name d), action_of (d_name d) with Some _, Some _ => true | _, _ => false end) all_decls = true.
Proof. vm_compute. reflexivity. Qed.
Theorem directions ty r : response_of ty = Some r ->
  is_cp_request ty = is_cp_response r /\ is_cs_request ty = is_cs_response r /\ is_cp_request ty = negb (is_cs_request ty).
Proof.
  intros H. apply lookup_In in H. pose proof directions_ok as HA. rewrite forallb_forall in HA. specialize (HA _ H).
  cbn [fst snd] in HA. destruct (is_cp_request ty), (is_cs_request ty), (is_cp_response r), (is_cs_response r); try discriminate; auto.
Qed.
Theorem request_total ty : is_request ty = true -> exists a r, action_of ty = Some a /\ response_of ty = Some r.
Proof.
  intros H. destruct (find_decl ty) as [d|] eqn:Ed.
  - destruct (find_decl_in ty d Ed) as [HI HN]. pose proof requests_have_responses as HA. rewrite forallb_forall in HA.
    specialize (HA d HI). rewrite HN, H in HA. cbn [negb orb] in HA.
    destruct (response_of ty), (action_of ty); try discriminate. eauto.
  - unfold is_request, is_cp_request, is_cs_request, marker_of in H. rewrite Ed in H. discriminate.
Qed.
