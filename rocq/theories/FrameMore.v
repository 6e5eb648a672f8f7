(** More about frames: exact outcomes of the reader, frames of any response. *)
From Coq Require Import ZArith Lia ZifyBool.
From Verif Require Import GoBase Utf8 Json JsonProofs JsonText Float64 Float64Proofs
  Lang Types Codec EncProofs Any AnyProofs SpecCodec RoundTrip NumTotal Tables Registry Frame FrameProofs SpecFrame.
Open Scope string_scope.
Open Scope list_scope.

Lemma f64_is_small x z m e : canon x = true -> t_call = t_call -> (1 <= z <= 4)%Z ->
  (2 ^ 52 <= m < 2 ^ 53)%Z -> (-52 <= e < 0)%Z -> (m = z * 2 ^ (- e))%Z ->
  f64_is x z = f64_eqb x (FFin false m e).
Proof.
  intros HC _ Hz Hm He HM. destruct x as [neg m' e'| |]; try reflexivity.
  cbn [f64_is f64_eqb]. cbn [canon] in HC.
  assert (E : (((if neg then - m' else m') * 2 ^ Z.max e' 0 = z * 2 ^ Z.max (- e') 0)%Z <->
               neg = false /\ m' = m /\ e' = e)).
  { split.
    - intros H. destruct neg.
      { exfalso. assert (0 <= m' * 2 ^ Z.max e' 0)%Z by (apply Z.mul_nonneg_nonneg; [lia|apply Z.pow_nonneg; lia]).
        assert (0 < z * 2 ^ Z.max (- e') 0)%Z by (apply Z.mul_pos_pos; [lia|apply Z.pow_pos_nonneg; lia]). lia. }
      split; [reflexivity|].
      assert (Hm' : (2 ^ 52 <= m')%Z).
      { destruct (Z.leb_spec (2 ^ 52) m'); [assumption|exfalso].
        assert (e' = -1074)%Z by lia. subst e'.
        assert ((2 ^ 1074 <= z * 2 ^ Z.max (- -1074) 0)%Z).
        { replace (Z.max (- -1074) 0) with 1074%Z by lia.
          pose proof (Z.pow_nonneg 2 1074 ltac:(lia)). nia. }
        replace (Z.max (-1074) 0) with 0%Z in H by lia. rewrite Z.pow_0_r in H.
        assert (2 ^ 52 < 2 ^ 1074)%Z by (apply Z.pow_lt_mono_r; lia). lia. }
      assert (Hb : (2 ^ 52 <= m' < 2 ^ 53)%Z) by lia.
      (* compare m' * 2^e' = m * 2^e *)
      assert (Q : (m' * 2 ^ (e' + 1074) = m * 2 ^ (e + 1074))%Z).
      { assert (P : (m' * 2 ^ Z.max e' 0 * 2 ^ (1074 - Z.max (- e') 0) = z * 2 ^ 1074)%Z).
        { rewrite H. rewrite <- Z.mul_assoc, <- Z.pow_add_r by lia. f_equal. f_equal. lia. }
        rewrite <- Z.mul_assoc, <- Z.pow_add_r in P by lia.
        replace (Z.max e' 0 + (1074 - Z.max (- e') 0))%Z with (e' + 1074)%Z in P by lia.
        rewrite P, HM. rewrite <- Z.mul_assoc, <- Z.pow_add_r by lia. f_equal. f_equal. lia. }
      assert (e' = e).
      { destruct (Z.lt_trichotomy e' e) as [L|[L|L]]; [exfalso|assumption|exfalso].
        - replace (e + 1074)%Z with ((e - e') + (e' + 1074))%Z in Q by lia.
          rewrite (Z.pow_add_r 2 (e - e')), Z.mul_assoc in Q by lia.
          apply Z.mul_reg_r in Q; [|apply Z.pow_nonzero; lia].
          assert (2 ^ 1 <= 2 ^ (e - e'))%Z by (apply Z.pow_le_mono_r; lia). nia.
        - replace (e' + 1074)%Z with ((e' - e) + (e + 1074))%Z in Q by lia.
          rewrite (Z.pow_add_r 2 (e' - e)), Z.mul_assoc in Q by lia.
          apply Z.mul_reg_r in Q; [|apply Z.pow_nonzero; lia].
          assert (2 ^ 1 <= 2 ^ (e' - e))%Z by (apply Z.pow_le_mono_r; lia). nia. }
      subst e'. apply Z.mul_reg_r in Q; [|apply Z.pow_nonzero; lia]. split; [exact Q|reflexivity].
    - intros (-> & -> & ->). replace (Z.max e 0) with 0%Z by lia. replace (Z.max (- e) 0) with (- e)%Z by lia.
      rewrite Z.pow_0_r. lia. }
  apply eq_true_iff_eq. rewrite !andb_true_iff, Bool.eqb_true_iff, !Z.eqb_eq.
  rewrite <- and_assoc in E. rewrite <- E.
  destruct (Z.leb_spec 0 e').
  - rewrite Z.eqb_eq. rewrite Z.max_l by lia. rewrite Z.max_r by lia. rewrite Z.pow_0_r, Z.mul_1_r. reflexivity.
  - rewrite Z.eqb_eq. rewrite Z.max_r by lia. rewrite Z.max_l by lia. rewrite Z.pow_0_r, Z.mul_1_r. reflexivity.
Qed.

Lemma f64_is_2 x : canon x = true -> f64_is x 2 = f64_eqb x t_call.
Proof. intros H. apply (f64_is_small x 2 (2 ^ 52) (-51) H eq_refl); vm_compute; intuition discriminate. Qed.
Lemma f64_is_3 x : canon x = true -> f64_is x 3 = f64_eqb x t_result.
Proof. intros H. apply (f64_is_small x 3 (3 * 2 ^ 51) (-51) H eq_refl); vm_compute; intuition discriminate. Qed.
Lemma f64_is_4 x : canon x = true -> f64_is x 4 = f64_eqb x t_error.
Proof. intros H. apply (f64_is_small x 4 (2 ^ 52) (-50) H eq_refl); vm_compute; intuition discriminate. Qed.

Lemma oall_in {A} (l : list (option A)) xs x : oall l = Some xs -> In x xs -> In (Some x) l.
Proof.
  revert xs. induction l as [|[y|] l IH]; intros xs H HI; cbn [oall] in H; [injection H as <-; destruct HI| |discriminate].
  destruct (oall l) as [ys|]; [|discriminate]. injection H as <-. destruct HI as [->|HI]; [left; reflexivity|right].
  eapply IH; [reflexivity|exact HI].
Qed.

Theorem read_exact s : verdict_is (read_text s) (text_verdict (parse (normalise s))).
Proof.
  unfold read_text, unmarshal_message, frame_of, text_verdict.
  destruct (parse (normalise s)) as [j|]; [|cbn; eauto].
  destruct j as [|b|l|t|l|l]; cbn [rbind verdict_is]; eauto.
  destruct (oall (map to_any l)) as [xs|] eqn:Ex; cbn [rbind verdict_is]; eauto.
  assert (HC : forall x, In (ANum x) xs -> canon x = true).
  { intros x Hx. pose proof (oall_in _ _ _ Ex Hx) as HI. apply in_map_iff in HI. destruct HI as (j & Ej & _).
    destruct j; cbn [to_any] in Ej; try discriminate.
    - unfold omap in Ej. destruct (parse_float lit) as [y|] eqn:Ey; [|discriminate]. injection Ej as <-.
      apply (parse_float_canon _ _ Ey).
    - unfold omap in Ej. match type of Ej with match ?x with _ => _ end = _ => destruct x; discriminate end.
    - unfold omap in Ej. match type of Ej with match ?x with _ => _ end = _ => destruct x; discriminate end. }
  clear Ex. unfold frame_verdict, nth_any.
  destruct xs as [|a0 xs]; [reflexivity|]. cbn [nth_error rbind].
  destruct a0 as [|b|x|s0|l0|m0]; cbn [as_num rbind verdict_is]; eauto.
  pose proof (HC x (or_introl eq_refl)) as Cx.
  rewrite (f64_is_2 x Cx), (f64_is_3 x Cx), (f64_is_4 x Cx). clear HC Cx.
  destruct xs as [|a1 xs]; [reflexivity|]. cbn [nth_error rbind].
  destruct a1 as [|b|y|id|l1|m1]; cbn [as_str rbind verdict_is]; eauto.
  destruct (f64_eqb x t_call).
  { destruct xs as [|a2 xs]; [reflexivity|]. cbn [nth_error rbind].
    destruct a2 as [|b|y|ac|l2|m2]; cbn [as_str rbind verdict_is call_verdict]; eauto.
    destruct xs as [|a3 xs]; [reflexivity|]. cbn [nth_error rbind].
    destruct a3; cbn [as_map rbind verdict_is]; eauto. }
  destruct (f64_eqb x t_result).
  { destruct xs as [|a2 xs]; [reflexivity|]. cbn [nth_error rbind].
    destruct a2; cbn [as_map rbind verdict_is result_verdict]; eauto. }
  destruct (f64_eqb x t_error); [|reflexivity].
  destruct xs as [|a2 xs]; [reflexivity|]. cbn [nth_error rbind].
  destruct a2 as [|b|y|c|l2|m2]; cbn [as_str rbind verdict_is error_verdict]; eauto.
  destruct xs as [|a3 xs]; [reflexivity|]. cbn [nth_error rbind].
  destruct a3 as [|b|y|d|l3|m3]; cbn [as_str rbind verdict_is]; eauto.
  destruct xs as [|a4 xs]; [reflexivity|]. cbn [nth_error rbind].
  destruct a4; cbn [as_map rbind verdict_is]; eauto.
Qed.

(** ** Types that lose nothing *)

Fixpoint base (t : gty) : string :=
  match t with TPtr t | TSlice t => base t | TStruct n => n | _ => "" end.

Lemma lossless_closed : forallb (fun d => lossy (d_name d) || forallb (fun f => negb (lossy (base (f_ty f)))) (d_fields d)) all_decls = true.
Proof. vm_compute. reflexivity. Qed.

Lemma lost_lossy n f : lost n f = true -> lossy n = true.
Proof. unfold lost, lossy, strmem. intros H. apply andb_true_iff in H. destruct H as [H _]. apply String.eqb_eq in H. subst n. reflexivity. Qed.

Lemma norm_at_norm v : forall t, has_type v t = true -> lossy (base t) = false -> norm_at t v = norm v.
Proof.
  induction v as [s|z|x|b|x| |v IH|l IH|fs IH] using gval_ind'; intros t HT HL;
    destruct t as [|bits| | | |t|t|n]; try discriminate; try reflexivity.
  - cbn [norm_at norm]. f_equal. apply IH; assumption.
  - cbn [norm_at norm]. f_equal. cbn [has_type] in HT. rewrite forallb_forall in HT. rewrite Forall_forall in IH.
    apply map_ext_in. intros x Hx. apply IH; auto.
  - apply has_type_struct in HT. destruct HT as (d & Hd & HT). cbn [norm_at norm]. rewrite Hd. f_equal.
    cbn [base] in HL. destruct (find_decl_in n d Hd) as [HI HN].
    pose proof lossless_closed as HA. rewrite forallb_forall in HA. specialize (HA d HI). rewrite HN, HL in HA. cbn [orb] in HA.
    rewrite forallb_forall in HA. pose proof (rt_ok_in d HI) as HR.
    apply map_ext_in. intros [k x] Hx. cbn [fst snd].
    assert (exists f, find_field d k = Some f /\ has_type x (f_ty f) = true) as (f & Ef & Tf).
    { unfold find_field. unfold rt_ok in HR. destruct (items_of d); [|discriminate].
      repeat rewrite andb_true_iff in HR. assert (HND : nodupb (map f_name (d_fields d)) = true) by tauto.
      apply nodupb_spec in HND. clear -HT Hx HND. induction HT as [|kv f fs ds [E1 E2] HT' IHt]; [destruct Hx|].
      cbn [map find] in *. inversion HND as [|? ? N1 N2]; subst.
      destruct Hx as [->|Hx].
      - cbn [fst snd] in *. subst k. rewrite String.eqb_refl. eauto.
      - destruct (String.eqb_spec (f_name f) k) as [E|E]; [|auto]. exfalso. apply N1. rewrite E.
        clear -Hx HT'. induction HT' as [|kv' f' fs ds [E1 E2] _ IHt]; [destruct Hx|]. cbn [map].
        destruct Hx as [->|Hx]; [left; symmetry; exact E1|right; auto]. }
    rewrite Ef. destruct (lost n k) eqn:EL; [apply lost_lossy in EL; congruence|].
    rewrite Forall_forall in IH. pose proof (IH (k, x) Hx (f_ty f) Tf) as H. cbn [snd] in H. rewrite H; [reflexivity|].
    unfold find_field in Ef. apply find_some in Ef. destruct Ef as [Ef _]. specialize (HA f Ef).
    destruct (lossy (base (f_ty f))); [discriminate|reflexivity].
Qed.

(** ** Encodings read back as untyped values, whatever the numbers *)

Lemma encoded_any n v text : has_type v (TStruct n) = true -> marshal_msg n v = Ok text ->
  exists j m, text = print j /\ wf_json j = true /\ to_any (jsan j) = Some (AObj m) /\ unmarshal_any text = Some (AObj m).
Proof.
  intros HT HM. destruct (marshal_msg_tree n v text HT HM) as (j & HJ & -> & HW).
  destruct (struct_jt_obj n v j HJ) as [l El].
  pose proof (jt_numok v (TStruct n) j eq_refl HT HJ) as HN. rewrite <- numok_jsan in HN.
  destruct (numok_any _ HN) as [a Ha]. pose proof Ha as Ha'. rewrite El in Ha'. destruct (to_any_obj l a Ha') as [m ->].
  exists j, m. split; [reflexivity|]. split; [exact HW|]. split; [exact Ha|].
  unfold unmarshal_any. rewrite parse_print by exact HW. exact Ha.
Qed.

Theorem request_frame id q text : msg_ok q = true -> marshal_msg (m_ty q) (m_val q) = Ok text ->
  forall a, action_of (m_ty q) = Some a ->
  exists m s, unmarshal_any text = Some (AObj m) /\ wf_any (AObj m) /\
    unmarshal_request id q = Ok (MCall id a (AObj m)) /\
    marshal_message (MCall id a (AObj m)) = Ok s /\
    read_text s = Ok (MCall (sanitize id) (sanitize a) (AObj m)).
Proof.
  intros HT HM a HA. destruct (encoded_any _ _ _ HT HM) as (j & m & E1 & E2 & E3 & E4).
  pose proof (unmarshal_any_wf _ _ E4) as HW.
  destruct (call_frame id a m HW) as (s & S1 & S2). exists m, s.
  split; [exact E4|]. split; [exact HW|]. split; [|split; assumption].
  unfold unmarshal_request. rewrite HM. cbn [rbind]. rewrite E4, HA. reflexivity.
Qed.

Theorem response_frame id q text : msg_ok q = true -> marshal_msg (m_ty q) (m_val q) = Ok text ->
  exists m s, unmarshal_any text = Some (AObj m) /\ wf_any (AObj m) /\
    marshal_message (MResult id (PMsg q)) = Ok s /\
    read_text s = Ok (MResult (sanitize id) (PAny (AObj m))).
Proof.
  intros HT HM. destruct (encoded_any _ _ _ HT HM) as (j & m & E1 & E2 & E3 & E4).
  destruct (result_frame_gen id (PMsg q) j m) as (s & S1 & S2).
  - split; [|exact E2]. cbn [marshal_payload]. congruence.
  - exact E3.
  - exists m, s. split; [exact E4|]. split; [exact (unmarshal_any_wf _ _ E4)|]. split; assumption.
Qed.

(** A frame is written exactly when its payload can be encoded. *)
Lemma response_fails id q : marshal_message (MResult id (PMsg q)) =
  match marshal_msg (m_ty q) (m_val q) with
  | Ok _ => marshal_message (MResult id (PMsg q))
  | Err e => Err e
  | Panic => Panic
  end.
Proof.
  destruct (marshal_msg (m_ty q) (m_val q)) eqn:E; [reflexivity| |]; unfold marshal_message;
    cbn [marshal_elems marshal_payload]; rewrite E;
    assert (exists s, marshal_f64 t_result = Ok s) as [s ->] by (eexists; vm_compute; reflexivity); reflexivity.
Qed.

(** ** Shape of the text: nothing in a string escapes its element *)

Theorem call_shape id action m : wf_any (AObj m) ->
  exists s jp, marshal_message (MCall id action (AObj m)) = Ok s /\
    parse s = Some (JArr [JNum "2"; JStr (sanitize id); JStr (sanitize action); jp]) /\ to_any jp = Some (AObj m).
Proof.
  intros HW. destruct (eprint_any _ HW) as (jp & E1 & E2).
  assert (HF : Forall2 eprint (marshal_elems (MCall id action (AObj m))) [JNum "2"; JStr id; JStr action; jp]).
  { cbn [marshal_elems]. repeat constructor; try apply eprint_2; try apply E1. }
  eexists. exists (jsan jp). split; [apply frame_trees; exact HF|]. split; [|exact E2].
  rewrite parse_print; [rewrite jsan_idem; reflexivity|]. apply jsan_wf. cbn [wf_json]. apply forallb_forall.
  apply wf_of_eprint in HF. rewrite Forall_forall in HF. exact HF.
Qed.

Theorem error_shape id c desc m : wf_any (AObj m) ->
  exists s jp, marshal_message (MError id c desc (AObj m)) = Ok s /\
    parse s = Some (JArr [JNum "4"; JStr (sanitize id); JStr (sanitize c); JStr (sanitize desc); jp]) /\ to_any jp = Some (AObj m).
Proof.
  intros HW. destruct (eprint_any _ HW) as (jp & E1 & E2).
  assert (HF : Forall2 eprint (marshal_elems (MError id c desc (AObj m))) [JNum "4"; JStr id; JStr c; JStr desc; jp]).
  { cbn [marshal_elems]. repeat constructor; try apply eprint_4; try apply E1. }
  eexists. exists (jsan jp). split; [apply frame_trees; exact HF|]. split; [|exact E2].
  rewrite parse_print; [rewrite jsan_idem; reflexivity|]. apply jsan_wf. cbn [wf_json]. apply forallb_forall.
  apply wf_of_eprint in HF. rewrite Forall_forall in HF. exact HF.
Qed.

(** ** Requests and responses delivered *)

Lemma req_actions_ok : forallb (fun kv => match action_of (snd kv) with Some a => String.eqb a (fst kv) | None => false end
    && match response_of (snd kv) with Some _ => true | None => false end && String.eqb (sanitize (fst kv)) (fst kv)) req_actions = true.
Proof. vm_compute. reflexivity. Qed.

Lemma req_from_action_ok a ty : req_from_action a = Some ty ->
  action_of ty = Some a /\ sanitize a = a /\ exists rty, response_of ty = Some rty.
Proof.
  intros H. apply lookup_In in H. pose proof req_actions_ok as HA. rewrite forallb_forall in HA. specialize (HA _ H).
  cbn [fst snd] in HA. repeat rewrite andb_true_iff in HA. destruct HA as [[H1 H2] H3].
  destruct (action_of ty) as [b|]; [|discriminate]. apply String.eqb_eq in H1, H3. subst b.
  destruct (response_of ty) as [r|]; [|discriminate]. eauto.
Qed.

Theorem request_delivered id q s : msg_ok q = true -> carried (m_val q) = true ->
  (exists a, req_from_action a = Some (m_ty q)) -> request_text id q = Ok s ->
  received_request s = Ok (sanitize id, inl (MkMsg (m_ty q) (norm_at (TStruct (m_ty q)) (m_val q)))).
Proof.
  intros HT HC [a Ha] HS. unfold request_text in HS.
  destruct (unmarshal_request id q) as [m0| |] eqn:EU; [|discriminate|discriminate]. cbn [rbind] in HS.
  destruct (request_trip id q m0 HT HC EU) as (a' & m & s' & text & A1 & A2 & A3 & A4 & A5 & A6 & A7).
  destruct (req_from_action_ok _ _ Ha) as (B1 & B2 & _). assert (a' = a) by congruence. subst a'.
  assert (s' = s) by congruence. subst s'. unfold received_request. rewrite A5. cbn [rbind]. rewrite B2.
  unfold call_to_request. rewrite Ha, A6, A7. reflexivity.
Qed.

Theorem response_delivered id a rq q s : msg_ok q = true -> carried (m_val q) = true ->
  req_from_action a = Some rq -> response_of rq = Some (m_ty q) -> response_text id q = Ok s ->
  received_response a s = Ok (sanitize id, inl (MkMsg (m_ty q) (norm_at (TStruct (m_ty q)) (m_val q)))).
Proof.
  intros HT HC Ha HR HS. unfold response_text, response_message in HS.
  destruct (response_trip id q s HT HC HS) as (m & text & A1 & A2 & A3 & A4 & A5).
  unfold received_response. rewrite A1. cbn [rbind]. unfold result_to_response. rewrite Ha, HR, A4, A5. reflexivity.
Qed.
