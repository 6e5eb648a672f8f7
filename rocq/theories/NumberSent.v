(** Numbers in received and in sent frames. *)
From Coq Require Import Arith ZifyBool Permutation QArith.
From Verif Require Import GoBase Utf8 Json JsonProofs JsonText Float64 Float64Proofs GoTime Lang Types Codec EncProofs Any AnyProofs SpecCodec RoundTrip NumTotal
  Tables Registry Frame FrameProofs SpecFrame FrameMore FrameRead Leaves SpecJson JsonGrammar SpecNumber FloatNear NearProofs NumberProofs SpecShort ShortFound SpecWeigh WeighProofs.
Open Scope string_scope.
Open Scope list_scope.

(** ** Received *)

Lemma frame_weighs s l t xs : received_as s t -> document t (JArr l) -> oall (map to_any l) = Some xs -> Forall2 weighs l xs.
Proof.
  intros HR HD E. apply parse_document in HD. pose proof (parse_clean _ _ HD) as [HW _]. 
  assert (weighs (JArr l) (AArr xs)) as K by (apply to_any_weighs; [exact HW|cbn [to_any]; rewrite E; reflexivity]).
  inversion K; subst. assumption.
Qed.

Lemma weighs_str j s : weighs j (AStr s) -> j = JStr s.
Proof. intros H. inversion H. reflexivity. Qed.
Lemma weighs_num j x : weighs j (ANum x) -> exists l, j = JNum l /\ taken_as l x.
Proof. intros H. inversion H; subst. eauto. Qed.

(** What is behind an accepted frame. *)
Lemma accepted_frame s m : read_text s = Ok m ->
  exists t l xs, received_as s t /\ document t (JArr l) /\ Forall2 weighs l xs /\ frame_verdict xs = Accept m.
Proof.
  intros H. pose proof (read_exact s) as K. pose proof (received_normal s) as HR. unfold text_verdict in K.
  destruct (parse (normalise s)) as [j|] eqn:E; [|cbn [verdict_is] in K; destruct K as [e K]; rewrite H in K; discriminate K].
  destruct j as [|b|l|t|l|l]; try (cbn [verdict_is] in K; destruct K as [e K]; rewrite H in K; discriminate K); [cbn [verdict_is] in K; rewrite H in K; discriminate K|].
  destruct (oall (map to_any l)) as [xs|] eqn:EX; [|cbn [verdict_is] in K; destruct K as [e K]; rewrite H in K; discriminate K].
  exists (normalise s), l, xs. split; [exact HR|]. apply parse_document in E. split; [exact E|]. split; [exact (frame_weighs s l _ xs HR E EX)|].
  destruct (frame_verdict xs) as [| |m']; cbn [verdict_is] in K.
  - rewrite H in K. discriminate K.
  - destruct K as [e K]. rewrite H in K. discriminate K.
  - rewrite H in K. injection K as ->. reflexivity.
Qed.

Lemma call_frame_weighs s id a m : read_text s = Ok (MCall id a (AObj m)) ->
  exists t two x jp rest, received_as s t /\ document t (JArr (JNum two :: JStr id :: JStr a :: jp :: rest)) /\
    taken_as two x /\ f64_is x 2 = true /\ weighs jp (AObj m).
Proof.
  intros H. apply accepted_frame in H as (t & l & xs & HR & HD & HF & HV).
  inversion HF as [|j1 x1 l1 xs1 W1 HF1]; subst; [discriminate HV|]. cbn [frame_verdict] in HV.
  destruct x1 as [| |x1| | |]; try discriminate HV.
  inversion HF1 as [|j2 x2 l2 xs2 W2 HF2]; subst; [discriminate HV|]. destruct x2 as [| | |id'| |]; try discriminate HV.
  destruct (f64_is x1 2) eqn:E2.
  - inversion HF2 as [|j3 x3 l3 xs3 W3 HF3]; subst; [discriminate HV|]. cbn [call_verdict] in HV. destruct x3 as [| | |a'| |]; try discriminate HV.
    inversion HF3 as [|j4 x4 l4 xs4 W4 HF4]; subst; [discriminate HV|]. destruct x4 as [| | | | |m']; try discriminate HV.
    injection HV as <- <- <-. apply weighs_num in W1 as (two & -> & W1). apply weighs_str in W2, W3. subst.
    exists t, two, x1, j4, l4. repeat split; assumption.
  - destruct (f64_is x1 3).
    { exfalso. destruct xs2 as [|[] ?]; discriminate HV. }
    destruct (f64_is x1 4); [|discriminate HV]. exfalso. unfold error_verdict in HV. destruct xs2 as [|[] [|[] [|[] ?]]]; discriminate HV.
Qed.
Lemma result_frame_weighs s id m : read_text s = Ok (MResult id (PAny (AObj m))) ->
  exists t three x jp rest, received_as s t /\ document t (JArr (JNum three :: JStr id :: jp :: rest)) /\
    taken_as three x /\ f64_is x 3 = true /\ weighs jp (AObj m).
Proof.
  intros H. apply accepted_frame in H as (t & l & xs & HR & HD & HF & HV).
  inversion HF as [|j1 x1 l1 xs1 W1 HF1]; subst; [discriminate HV|]. cbn [frame_verdict] in HV.
  destruct x1 as [| |x1| | |]; try discriminate HV.
  inversion HF1 as [|j2 x2 l2 xs2 W2 HF2]; subst; [discriminate HV|]. destruct x2 as [| | |id'| |]; try discriminate HV.
  destruct (f64_is x1 2).
  { exfalso. unfold call_verdict in HV. destruct xs2 as [|[] [|[] ?]]; discriminate HV. }
  destruct (f64_is x1 3) eqn:E3.
  - inversion HF2 as [|j3 x3 l3 xs3 W3 HF3]; subst; [discriminate HV|]. cbn [result_verdict] in HV. destruct x3 as [| | | | |m']; try discriminate HV.
    injection HV as <- <-. apply weighs_num in W1 as (two & -> & W1). apply weighs_str in W2. subst.
    exists t, two, x1, j3, l3. repeat split; assumption.
  - destruct (f64_is x1 4); [|discriminate HV]. exfalso. unfold error_verdict in HV. destruct xs2 as [|[] [|[] [|[] ?]]]; discriminate HV.
Qed.

(** ** Sent *)

Lemma call_written id action m : wf_any (AObj m) ->
  exists s jp, marshal_message (MCall id action (AObj m)) = Ok s /\
    parse s = Some (JArr [JNum "2"; JStr (sanitize id); JStr (sanitize action); jp]) /\ written jp (AObj m).
Proof.
  intros HW. destruct (of_any_ok _ HW) as (jp & E & [C1 C2] & _). pose proof (of_any_written _ HW _ E) as HS.
  assert (E1 : eprint (marshal_any (AObj m)) jp) by (split; [unfold marshal_any; rewrite E; reflexivity|exact C1]).
  assert (HF : Forall2 eprint (marshal_elems (MCall id action (AObj m))) [JNum "2"; JStr id; JStr action; jp]).
  { cbn [marshal_elems]. repeat constructor; try apply eprint_2; try apply E1. }
  eexists. exists jp. split; [apply frame_trees; exact HF|]. split; [|exact HS]. rewrite <- C2 at 2.
  rewrite parse_print; [rewrite jsan_idem; reflexivity|]. apply jsan_wf. cbn [wf_json]. apply forallb_forall.
  apply wf_of_eprint in HF. rewrite Forall_forall in HF. exact HF.
Qed.
Lemma error_written id c desc m : wf_any (AObj m) ->
  exists s jp, marshal_message (MError id c desc (AObj m)) = Ok s /\
    parse s = Some (JArr [JNum "4"; JStr (sanitize id); JStr (sanitize c); JStr (sanitize desc); jp]) /\ written jp (AObj m).
Proof.
  intros HW. destruct (of_any_ok _ HW) as (jp & E & [C1 C2] & _). pose proof (of_any_written _ HW _ E) as HS.
  assert (E1 : eprint (marshal_any (AObj m)) jp) by (split; [unfold marshal_any; rewrite E; reflexivity|exact C1]).
  assert (HF : Forall2 eprint (marshal_elems (MError id c desc (AObj m))) [JNum "4"; JStr id; JStr c; JStr desc; jp]).
  { cbn [marshal_elems]. repeat constructor; try apply eprint_4; try apply E1. }
  eexists. exists jp. split; [apply frame_trees; exact HF|]. split; [|exact HS]. rewrite <- C2 at 2.
  rewrite parse_print; [rewrite jsan_idem; reflexivity|]. apply jsan_wf. cbn [wf_json]. apply forallb_forall.
  apply wf_of_eprint in HF. rewrite Forall_forall in HF. exact HF.
Qed.
Lemma request_wrote id q s : msg_ok q = true -> request_text id q = Ok s ->
  exists a jp m, action_of (m_ty q) = Some a /\ parse s = Some (JArr [JNum "2"; JStr (sanitize id); JStr a; jp]) /\ to_any jp = Some (AObj m) /\ written jp (AObj m).
Proof.
  intros HT HS. destruct (request_text_inv id q s HT HS) as (text & a & EM & EA).
  destruct (request_frame id q text HT EM a EA) as (m & s' & A1 & A2 & A3 & A4 & A5).
  unfold request_text in HS. rewrite A3 in HS. cbn [rbind] in HS. assert (s' = s) by congruence. subst s'.
  destruct (call_written id a m A2) as (s' & jp & B1 & B2 & B3). assert (s' = s) by congruence. subst s'.
  destruct (call_shape id a m A2) as (s' & jp' & C1 & C2 & C3). assert (s' = s) by congruence. subst s'.
  assert (jp' = jp) by congruence. subst jp'.
  rewrite (action_sane _ _ EA) in B2. exists a, jp, m. auto.
Qed.

(** Responses: the numbers are those of the encoder. *)
Definition numeral (l : string) : Prop := (exists x, json_number x l) \/ (exists z, l = dec_int z).
Definition numerals (j : json) : Prop := forall l, holds l j -> numeral l.

Lemma numerals_arr l : Forall numerals l -> numerals (JArr l).
Proof. intros H t K. inversion K as [|js j Hj HK|]; subst. rewrite Forall_forall in H. exact (H j Hj t HK). Qed.
Lemma numerals_obj l : Forall (fun kv => numerals (snd kv)) l -> numerals (JObj l).
Proof. intros H t K. inversion K as [| |kvs k j Hj HK]; subst. rewrite Forall_forall in H. exact (H (k, j) Hj t HK). Qed.
Lemma holds_jsan l j : holds l (jsan j) -> holds l j.
Proof.
  induction j as [|b|t|s|js IH|kvs IH] using json_ind'; cbn [jsan]; intros H; try exact H.
  - inversion H.
  - inversion H as [|js' j Hj HK|]; subst. apply in_map_iff in Hj as (j0 & <- & Hj). rewrite Forall_forall in IH. econstructor; [exact Hj|]. apply IH; assumption.
  - inversion H as [| |kvs' k j Hj HK]; subst. apply in_map_iff in Hj as ([k0 j0] & E & Hj). injection E as <- <-. rewrite Forall_forall in IH.
    econstructor; [exact Hj|]. exact (IH _ Hj HK).
Qed.
Lemma numerals_leaf j : (forall l, ~ holds l j) -> numerals j.
Proof. intros H l K. destruct (H l K). Qed.

Lemma jt_numerals v : forall t j, has_type v t = true -> jt t v = Ok j -> numerals j.
Proof.
  induction v as [s|z|x|b|x| |v IH|l IH|fs IH] using gval_ind'; intros t j HT HJ;
    destruct t as [|bits| | | |t|t|n]; try discriminate; cbn [jt] in HJ.
  - injection HJ as <-. apply numerals_leaf. intros l K. inversion K.
  - injection HJ as <-. intros l K. inversion K; subst. right. eauto.
  - destruct (fmt_float x) as [s|] eqn:E; [|discriminate]. injection HJ as <-. cbn [has_type] in HT.
    intros l K. inversion K; subst. left. exists x. apply fmt_json; assumption.
  - injection HJ as <-. apply numerals_leaf. intros l K. inversion K.
  - destruct (_ && _); [|discriminate]. injection HJ as <-. apply numerals_leaf. intros l K. inversion K.
  - injection HJ as <-. apply numerals_leaf. intros l K. inversion K.
  - injection HJ as <-. apply numerals_leaf. intros l K. inversion K.
  - apply (IH t j); [exact HT|exact HJ].
  - destruct (rmap _ l) as [js| |] eqn:E; [|discriminate|discriminate]. cbn [rbind] in HJ. injection HJ as <-.
    apply rmap_ok in E. cbn [has_type] in HT. apply numerals_arr.
    induction E as [|x j l js Exj _ IHl]; [constructor|]. inversion IH; subst. cbn [forallb] in HT.
    apply andb_true_iff in HT. destruct HT as [T1 T2]. constructor; eauto.
  - apply has_type_struct in HT. destruct HT as (d & Ed & HT). rewrite Ed in HJ.
    fold (jenv d fs) in HJ. unfold struct_tree in HJ. destruct (items_of d) as [its|]; [|discriminate].
    destruct (items_run time_tree (jenv d fs) its) as [ms| |] eqn:ER; [|discriminate|discriminate].
    cbn [rbind] in HJ.
    assert (HM : Forall (fun kv => numerals (snd kv)) ms).
    { clear HJ. revert ms ER. induction its as [|it its IHi]; intros ms ER; cbn [items_run] in ER.
      { injection ER as <-. constructor. }
      destruct it as [f msg|k f tm c].
      { destruct (lookup f (jenv d fs)) as [[v r]|]; [|discriminate]. destruct (is_nil v); [discriminate|auto]. }
      rewrite jenv_lookup in ER. destruct (lookup f fs) as [v|] eqn:El; [|discriminate].
      destruct (skipped c v); [auto|].
      destruct (if tm then time_tree v else _) as [x| |] eqn:Ex; [|discriminate|discriminate]. cbn [rbind] in ER.
      destruct (items_run time_tree (jenv d fs) its) as [ms'| |]; [|discriminate|discriminate]. cbn [rbind] in ER.
      injection ER as <-. constructor; [cbn [snd]|exact (IHi ms' eq_refl)].
      destruct tm.
      { apply numerals_leaf. intros l K. destruct v as [| | | |y| |[]| | ]; cbn [time_tree] in Ex; try discriminate; injection Ex as <-; inversion K. }
      destruct (find_field d f) as [fd|] eqn:Ef; [|discriminate].
      destruct (typed_lookup fs (d_fields d) f fd HT Ef) as (v' & Lv & Tv & Iv).
      rewrite El in Lv. injection Lv as <-. rewrite Forall_forall in IH.
      exact (IH (f, v) Iv (f_ty fd) x Tv Ex). }
    assert (Ej : j = if customised d then jsan (JObj ms) else JObj ms) by congruence. rewrite Ej.
    destruct (customised d); [|apply numerals_obj; exact HM]. intros l K. apply holds_jsan in K. exact (numerals_obj _ HM l K).
Qed.

Lemma response_numerals id q s : msg_ok q = true -> response_text id q = Ok s ->
  exists jp m, parse s = Some (JArr [JNum "3"; JStr (sanitize id); jp]) /\ to_any jp = Some (AObj m) /\ numerals jp.
Proof.
  intros HT HS. unfold response_text, response_message in HS. destruct (response_encodes q HT id s HS) as [text EM].
  destruct (marshal_msg_tree _ _ text HT EM) as (j & HJ & -> & HW).
  destruct (encoded_any _ _ _ HT EM) as (j' & m & E1 & E2 & E3 & E4).
  set (js := [JNum "3"; JStr id; j]).
  assert (HF : Forall2 eprint (marshal_elems (MResult id (PMsg q))) js).
  { cbn [marshal_elems marshal_payload]. rewrite EM. repeat constructor; try apply eprint_3. exact HW. }
  pose proof (frame_trees _ _ HF) as HP. unfold marshal_message in HS. rewrite HP in HS.
  assert (ES : s = print (jsan (JArr js))) by congruence. rewrite ES. clear HS ES.
  exists (jsan j), m. split; [|split].
  - rewrite parse_print; [rewrite jsan_idem; reflexivity|]. apply jsan_wf. cbn [wf_json]. apply forallb_forall.
    apply wf_of_eprint in HF. rewrite Forall_forall in HF. exact HF.
  - unfold unmarshal_any in E4. rewrite (parse_print j HW) in E4. exact E4.
  - intros l K. apply holds_jsan in K. exact (jt_numerals _ _ _ HT HJ l K).
Qed.
