(** Accepted payloads have the shape of the schema; emitted payloads too. *)
From Coq Require Import ZifyBool Sorting.Permutation.
From Verif Require Import GoBase Utf8 Json JsonProofs JsonText Float64 Float64Proofs GoTime GoTimeProofs
  Lang Types Codec EncProofs Any AnyProofs DecProofs SpecCodec RoundTrip NumTotal DecTyped Tables Registry Frame FrameProofs FrameMore
  SpecEnc EncTotal Schemas SpecSchema FloatInt SchemaProofs.
Open Scope string_scope.
Open Scope list_scope.

Lemma shaped_obj props req add m : shaped (SObj props req add) (AObj m) =
  forallb (fun kv => match find_schema props (fst kv) with Some s => shaped s (snd kv) | None => add end) m &&
  forallb (fun k => has_key k m) req.
Proof.
  cbn [shaped]. f_equal. apply forallb_ext_in. intros [k a] _. cbn [fst snd].
  induction props as [|[k' s] ps IH]; [reflexivity|]. cbn [find_schema]. destruct (String.eqb k' k); [reflexivity|exact IH].
Qed.
Lemma sent_obj props req add m : sent_as (SObj props req add) (AObj m) =
  forallb (fun kv => match find_schema props (fst kv) with
    | Some s => match snd kv with ANull => null_ok req (fst kv) s | v => sent_as s v end
    | None => add end) m &&
  forallb (fun k => has_key k m) req.
Proof.
  cbn [sent_as]. f_equal. apply forallb_ext_in. intros [k a] _. cbn [fst snd].
  induction props as [|[k' s] ps IH]; [reflexivity|]. cbn [find_schema].
  destruct (String.eqb_spec k' k) as [->|]; [reflexivity|exact IH].
Qed.

(** ** Accepted payloads *)

Definition demands_key (cases : list dcase) (checks : list (string * string)) (k : string) : bool :=
  existsb (fun ck => forallb (fun c => match c_flag c with
     | Some g => negb (String.eqb g (fst ck)) || String.eqb (c_key c) k | None => true end) cases) checks.

Fixpoint demands (s : schema) (t : gty) {struct s} : bool :=
  match s, strip_ptr t with
  | SStr _ _ _, (TStr | TTime) => true
  | SInt, TInt _ => true
  | SNum, TF64 => true
  | SBool, TBool => true
  | SArr s, TSlice t => demands s t
  | SObj props req add, TStruct n =>
    match find_decl n with
    | None => false
    | Some d =>
      forallb (fun ks => match field_target d (fst ks) with
                         | Some (_, t) => demands (snd ks) t
                         | None => dec_strict d end) props &&
      (add || (dec_strict d &&
         match d_dec d with DTable _ cases _ _ => forallb (fun c => has_key (c_key c) props) cases | DDefault => false end)) &&
      match d_dec d with
      | DTable _ cases _ checks => forallb (demands_key cases checks) req
      | DDefault => match req with [] => true | _ => false end
      end
    end
  | _, _ => false
  end.

Lemma all_demands : forallb (fun ty => match schema_of ty with Some s => demands (demanded ty s) (TStruct ty) | None => false end) msg_types = true.
Proof. vm_compute. reflexivity. Qed.

Lemma demands_key_spec cases checks k ks : demands_key cases checks k = true ->
  forallb (fun c => strmem (fst c) (flags_of cases ks)) checks = true -> In k ks.
Proof.
  intros HD HC. unfold demands_key in HD. apply existsb_exists in HD. destruct HD as (ck & H1 & H2).
  rewrite forallb_forall in HC. specialize (HC ck H1). apply strmem_In in HC.
  unfold flags_of in HC. apply in_flat_map in HC. destruct HC as (k' & K1 & K2). unfold flag_of in K2.
  destruct (case_of cases k') as [c|] eqn:EC; [|destruct K2]. apply case_of_spec in EC. destruct EC as [C1 C2].
  rewrite forallb_forall in H2. specialize (H2 c C1). destruct (c_flag c) as [g|]; [|destruct K2].
  destruct K2 as [->|[]]. rewrite String.eqb_refl in H2. cbn [negb orb] in H2. apply String.eqb_eq in H2. congruence.
Qed.

(** Every member of a decoded object was decoded at its type, or ignored. *)
Lemma gturns_member tg strict l : forall fs fs', gturns tg strict l fs = Some fs' -> forall k dl, In (k, dl) l ->
  match tg k with
  | None => strict = false
  | Some (_, t) => exists c v, dl t c = Some v
  end.
Proof.
  induction l as [|[k0 dl0] l IH]; intros fs fs' H k dl HI; [destruct HI|].
  cbn [gturns] in H. destruct HI as [E|HI].
  - injection E as -> ->. destruct (tg k) as [[f t]|]; [|destruct strict; [discriminate|reflexivity]].
    destruct (lookup f fs) as [cur|]; [|discriminate]. destruct (dl t cur) as [v|] eqn:Ev; [eauto|discriminate].
  - destruct (tg k0) as [[f t]|]; [|destruct strict; [discriminate|eapply IH; eauto]].
    destruct (lookup f fs) as [cur|]; [|discriminate]. destruct (dl0 t cur); [eapply IH; eauto|discriminate].
Qed.

Lemma not_null_strip j t c v : j <> JNull -> dec j t c = Some v -> exists c' v', dec j (strip_ptr t) c' = Some v'.
Proof.
  intros HJ H. destruct t; try (cbn [strip_ptr]; eauto; fail). rewrite dec_ptr in H by exact HJ. cbn [strip_ptr].
  match type of H with omap _ ?x = _ => destruct x eqn:E; [|discriminate] end. eauto.
Qed.

Lemma elems_in (t : gty) (z : gval) (js : list json) : forall curs vs,
  elems (fun c (dl : delayed) => dl t c) z curs (map dec js) = Some vs ->
  forall j, In j js -> exists c v, dec j t c = Some v.
Proof.
  induction js as [|j0 js IH]; intros curs vs H j HI; [destruct HI|]. cbn [map elems] in H.
  destruct (dec j0 t (hd z curs)) as [v|] eqn:E; [|discriminate].
  destruct (elems _ z (tl curs) (map dec js)) as [vs'|] eqn:E2; [|discriminate].
  destruct HI as [->|HI]; [eauto|]. eapply IH; eauto.
Qed.

Theorem demands_sound s : forall t a j c v, demands s t = true -> wf_any a -> of_any a = Some j ->
  dec j t c = Some v -> shaped s a = true.
Proof.
  induction s as [ml en dt| | | |s IH|props req add IH] using schema_ind'; intros t a j c v HD HW HJ HV;
    (destruct a as [|b|x|str|l|m]; [reflexivity|..]);
    (destruct (not_null_strip j t c v ltac:(apply (of_any_not_null _ j HJ); discriminate) HV) as (c' & v' & HV'));
    cbn [demands] in HD; clear HV; revert HD HV'; generalize (strip_ptr t); clear t c v; intros t HD HV;
    cbn [of_any] in HJ; unfold omap in HJ.
  (* SStr *)
  - injection HJ as <-. destruct t; discriminate.
  - destruct (fmt_float x); [|discriminate]. injection HJ as <-. destruct t; discriminate.
  - reflexivity.
  - destruct (oall _); [|discriminate]. injection HJ as <-. destruct t; discriminate.
  - destruct (oall _); [|discriminate]. injection HJ as <-. destruct t; discriminate.
  (* SInt *)
  - injection HJ as <-. destruct t; discriminate.
  - destruct HW as [W1 W2]. destruct (fmt_parse x W1 W2) as (s & Es & _ & Hp). rewrite Es in HJ. injection HJ as <-.
    destruct t; try discriminate. cbn [dec at_ty] in HV. unfold omap in HV. destruct (parse_int bits s) as [z|] eqn:EI; [|discriminate].
    cbn [shaped]. unfold integral. pose proof (parse_int_integral _ _ _ _ EI Hp). destruct (f64_toZ x); [reflexivity|contradiction].
  - injection HJ as <-. destruct t; discriminate.
  - destruct (oall _); [|discriminate]. injection HJ as <-. destruct t; discriminate.
  - destruct (oall _); [|discriminate]. injection HJ as <-. destruct t; discriminate.
  (* SNum *)
  - injection HJ as <-. destruct t; discriminate.
  - reflexivity.
  - injection HJ as <-. destruct t; discriminate.
  - destruct (oall _); [|discriminate]. injection HJ as <-. destruct t; discriminate.
  - destruct (oall _); [|discriminate]. injection HJ as <-. destruct t; discriminate.
  (* SBool *)
  - reflexivity.
  - destruct (fmt_float x); [|discriminate]. injection HJ as <-. destruct t; discriminate.
  - injection HJ as <-. destruct t; discriminate.
  - destruct (oall _); [|discriminate]. injection HJ as <-. destruct t; discriminate.
  - destruct (oall _); [|discriminate]. injection HJ as <-. destruct t; discriminate.
  (* SArr *)
  - injection HJ as <-. destruct t; discriminate.
  - destruct (fmt_float x); [|discriminate]. injection HJ as <-. destruct t; discriminate.
  - injection HJ as <-. destruct t; discriminate.
  - destruct (oall (map of_any l)) as [js|] eqn:EO; [|discriminate]. injection HJ as <-. destruct t as [| | | | | |t| ]; try discriminate.
    cbn [dec at_ty] in HV. unfold omap in HV. destruct (elems _ _ _ _) as [vs|] eqn:EE; [|discriminate].
    apply oall_map in EO. apply wf_any_arr in HW. cbn [shaped]. apply forallb_forall. intros a Ha.
    assert (exists j, In j js /\ of_any a = Some j /\ wf_any a) as (j & J1 & J2 & J3).
    { clear -EO HW Ha. induction EO as [|a0 j0 l js E _ IHE]; [destruct Ha|]. inversion HW; subst.
      destruct Ha as [->|Ha]; [exists j0; split; [left; reflexivity|auto]|].
      destruct IHE as (j & J1 & J2); try assumption. exists j. split; [right; exact J1|exact J2]. }
    destruct (elems_in _ _ _ _ _ EE j J1) as (c & v & E). eapply IH; eauto.
  - destruct (oall _); [|discriminate]. injection HJ as <-. destruct t; discriminate.
  (* SObj *)
  - injection HJ as <-. destruct t; try discriminate. cbn [dec at_ty] in HV. destruct (find_decl n); [destruct c'|]; discriminate.
  - destruct (fmt_float x); [|discriminate]. injection HJ as <-. destruct t; try discriminate. cbn [dec at_ty] in HV. destruct (find_decl n); [destruct c'|]; discriminate.
  - injection HJ as <-. destruct t; try discriminate. cbn [dec at_ty] in HV. destruct (find_decl n); [destruct c'|]; discriminate.
  - destruct (oall _); [|discriminate]. injection HJ as <-. destruct t; try discriminate. cbn [dec at_ty] in HV. destruct (find_decl n); [destruct c'|]; discriminate.
  - match type of HJ with match ?x with _ => _ end = _ => destruct x as [ms|] eqn:EO; [|discriminate] end.
    injection HJ as <-. destruct t as [| | | | | | |n]; try discriminate. destruct (find_decl n) as [d|] eqn:Ed; [|discriminate].
    apply oall_map in EO. apply wf_any_obj in HW. destruct HW as (W1 & _ & W2).
    assert (EK : map fst ms = map fst m).
    { clear -EO. induction EO as [|[k a] [k' j] m ms E _ IHE]; [reflexivity|]. cbn [map fst].
      cbn [fst snd] in E. destruct (of_any a); [|discriminate]. injection E as -> _. rewrite IHE. reflexivity. }
    destruct c' as [| | | | | | | |fs]; try (cbn [dec at_ty] in HV; rewrite Ed in HV; discriminate).
    rewrite (dec_struct_obj n d ms fs Ed) in HV by (rewrite EK; exact W1).
    unfold omap in HV. match type of HV with match ?x with _ => _ end = _ => destruct x as [fs'|] eqn:EV; [|discriminate] end.
    apply andb_true_iff in HD. destruct HD as [HD D3]. apply andb_true_iff in HD. destruct HD as [D1 D2].
    assert (EG : gturns (field_target d) (dec_strict d) (map (fun kv => (fst kv, dec (snd kv))) ms) fs = Some fs').
    { destruct (d_dec d); [destruct (forallb _ checks); [exact EV|discriminate]|exact EV]. }
    rewrite shaped_obj. apply andb_true_iff. split.
    + apply forallb_forall. intros [k a] Ha. cbn [fst snd].
      assert (exists j, In (k, j) ms /\ of_any a = Some j /\ wf_any a) as (j & J1 & J2 & J3).
      { clear -EO W2 Ha. induction EO as [|[k0 a0] [k1 j0] m ms E _ IHE]; [destruct Ha|]. inversion W2 as [|? ? [_ W3] W4]; subst.
        cbn [fst snd] in *. destruct (of_any a0) as [j|] eqn:E0; [|discriminate]. injection E as <- <-.
        destruct Ha as [Ha|Ha].
        - injection Ha as -> ->. exists j. split; [left; reflexivity|auto].
        - destruct IHE as (j' & J1 & J2); try assumption. exists j'. split; [right; exact J1|exact J2]. }
      pose proof (gturns_member _ _ _ _ _ EG k (dec j)) as GM.
      specialize (GM ltac:(apply in_map_iff; exists (k, j); auto)).
      destruct (find_schema props k) as [s|] eqn:EF.
      * apply find_schema_in in EF. rewrite forallb_forall in D1. specialize (D1 _ EF). cbn [fst snd] in D1.
        rewrite Forall_forall in IH. specialize (IH _ EF). cbn [snd] in IH.
        destruct (field_target d k) as [[f t]|] eqn:ET; [|congruence].
        destruct GM as (c & v & E). eapply IH; eauto.
      * destruct add; [reflexivity|]. cbn [orb] in D2. apply andb_true_iff in D2. destruct D2 as [D2 D4].
        destruct (d_dec d) as [fl cases st ck|] eqn:ED; [|discriminate].
        unfold field_target, dec_strict in GM, D2. rewrite ED in GM, D2. unfold table_target in GM.
        destruct (case_of cases k) as [cc|] eqn:EC; [|congruence].
        apply case_of_spec in EC. destruct EC as [I1 K1]. rewrite forallb_forall in D4. specialize (D4 _ I1). rewrite K1 in D4.
        apply find_schema_none in EF. congruence.
    + apply forallb_forall. intros k Hk. apply has_key_In. rewrite <- EK.
      destruct (d_dec d) as [fl cases st ck|] eqn:ED.
      * destruct (forallb (fun c => strmem (fst c) (flags_of cases (map fst ms))) ck) eqn:EC; [|discriminate].
        rewrite forallb_forall in D3. eapply demands_key_spec; [apply D3; exact Hk|exact EC].
      * destruct req; [destruct Hk|discriminate].
Qed.

Theorem accepted_shaped ty s a text v : In ty msg_types -> schema_of ty = Some s -> wf_any a ->
  marshal_any a = Ok text -> unmarshal_msg ty text = Some v -> shaped (demanded ty s) a = true.
Proof.
  intros HI HS HW HM HV. pose proof all_demands as HA. rewrite forallb_forall in HA. specialize (HA ty HI). rewrite HS in HA.
  destruct (of_any_ok a HW) as (j & Ej & [C1 C2] & _). unfold marshal_any in HM. rewrite Ej in HM.
  assert (text = print j) as -> by congruence.
  unfold unmarshal_msg in HV. rewrite (parse_print j C1), C2 in HV.
  exact (demands_sound _ _ _ _ _ _ HA HW Ej HV).
Qed.
