(** Decoders and encoders against the bundled JSON schemas. *)
From Coq Require Import ZifyBool Sorting.Permutation.
From Verif Require Import GoBase Utf8 Json JsonProofs Float64 Float64Proofs GoTime GoTimeProofs
  Lang Types Codec EncProofs Any AnyProofs DecProofs SpecCodec RoundTrip NumTotal DecTyped Tables Registry Frame FrameProofs
  SpecEnc EncTotal Schemas SpecSchema FloatInt.
Open Scope string_scope.
Open Scope list_scope.

Definition schema_ind' (P : schema -> Prop)
  (H1 : forall a b c, P (SStr a b c)) (H2 : P SInt) (H3 : P SNum) (H4 : P SBool)
  (H5 : forall s, P s -> P (SArr s))
  (H6 : forall props req add, Forall (fun ks => P (snd ks)) props -> P (SObj props req add)) : forall s, P s :=
  fix rec s := match s with
  | SStr a b c => H1 a b c | SInt => H2 | SNum => H3 | SBool => H4
  | SArr s => H5 s (rec s)
  | SObj props req add => H6 props req add
      ((fix go (l : list (string * schema)) : Forall (fun ks => P (snd ks)) l :=
        match l with [] => Forall_nil _ | x :: r => Forall_cons _ (rec (snd x)) (go r) end) props)
  end.

Definition strip_ptr (t : gty) : gty := match t with TPtr t' => t' | _ => t end.

(** ** Every fitting payload is accepted *)

Fixpoint compat (s : schema) (t : gty) {struct s} : bool :=
  match s, strip_ptr t with
  | SStr _ _ _, TStr => true
  | SStr _ _ dt, TTime => dt
  | SInt, TInt b => (32 <=? b)%Z
  | SNum, TF64 => true
  | SBool, TBool => true
  | SArr s, TSlice t => compat s t
  | SObj props req add, TStruct n =>
    match find_decl n with
    | None => false
    | Some d =>
      forallb (fun ks => match field_target d (fst ks) with
                         | Some (_, t) => compat (snd ks) t
                         | None => negb (dec_strict d) end) props &&
      (if add then negb (dec_strict d) &&
         match d_dec d with DTable _ cases _ _ => forallb (fun c => has_key (c_key c) props) cases | DDefault => false end
       else true) &&
      match d_dec d with
      | DTable _ cases _ checks => forallb (fun ck => strmem (fst ck) (flags_of cases req)) checks
      | DDefault => true
      end
    end
  | _, _ => false
  end.

Fixpoint find_schema (ps : list (string * schema)) (k : string) : option schema :=
  match ps with [] => None | (k', s) :: r => if String.eqb k' k then Some s else find_schema r k end.

Lemma fits_obj props req add m : fits (SObj props req add) (AObj m) =
  forallb (fun kv => match find_schema props (fst kv) with Some s => fits s (snd kv) | None => add end) m &&
  forallb (fun k => has_key k m) req.
Proof.
  cbn [fits]. f_equal. apply forallb_ext_in. intros [k a] _. cbn [fst snd].
  induction props as [|[k' s] ps IH]; [reflexivity|]. cbn [find_schema]. destruct (String.eqb k' k); [reflexivity|exact IH].
Qed.

Lemma find_schema_in ps k s : find_schema ps k = Some s -> In (k, s) ps.
Proof.
  induction ps as [|[k' s'] ps IH]; [discriminate|]. cbn [find_schema]. destruct (String.eqb_spec k' k) as [->|].
  - intros H. injection H as ->. left. reflexivity.
  - intros H. right. auto.
Qed.
Lemma find_schema_none ps k : find_schema ps k = None -> has_key k ps = false.
Proof.
  intros H. destruct (has_key k ps) eqn:E; [|reflexivity]. apply has_key_In in E. exfalso.
  induction ps as [|[k' s'] ps IH]; [destruct E|]. cbn [find_schema map fst] in *. destruct (String.eqb_spec k' k); [discriminate|].
  destruct E as [E|E]; [contradiction|auto].
Qed.

Lemma gturns_succeeds d tg strict l : In d all_decls ->
  (forall k f t, tg k = Some (f, t) -> exists fd, find_field d f = Some fd /\ t = f_ty fd) ->
  Forall (fun kv => dl_typed (snd kv)) l ->
  Forall (fun kv => match tg (fst kv) with
                    | None => strict = false
                    | Some (f, t) => forall c, has_type c t = true -> exists v, snd kv t c = Some v end) l ->
  forall fs, struct_typed d fs -> exists fs', gturns tg strict l fs = Some fs'.
Proof.
  intros HI HT HL HA. induction l as [|[k dl] l IH]; intros fs HF; [exists fs; reflexivity|].
  inversion HL as [|? ? L1 L2]; inversion HA as [|? ? A1 A2]; subst. cbn [fst snd] in *.
  cbn [gturns]. destruct (tg k) as [[f t]|] eqn:ET.
  - destruct (HT k f t ET) as (fd & Ef & ->). pose proof Ef as Ef'. unfold find_field in Ef'.
    destruct (typed_lookup fs (d_fields d) f fd HF Ef') as (c & L3 & L4 & _). rewrite L3.
    destruct (A1 c L4) as [v Hv]. rewrite Hv. apply IH; try assumption.
    pose proof (field_tyok d f fd HI Ef) as [T1 _].
    assert (HN : NoDup (map f_name (d_fields d))).
    { pose proof (dec_ok_in d HI) as H. unfold dec_ok in H. apply andb_true_iff in H. destruct H as [H _]. apply nodupb_spec in H. exact H. }
    apply (set_field_typed d fs f fd); try assumption. apply (L1 _ _ _ T1 L4 Hv).
  - destruct strict; [discriminate|]. apply IH; assumption.
Qed.

Lemma field_target_ok d : In d all_decls -> forall k f t, field_target d k = Some (f, t) -> exists fd, find_field d f = Some fd /\ t = f_ty fd.
Proof. intros HI. unfold field_target. destruct (d_dec d); [apply table_target_ok|apply default_tgt_ok; exact HI]. Qed.

Definition accepts_at (j : json) (t : gty) : Prop := forall c, has_type c t = true -> exists v, dec j t c = Some v.

(** Accepting at the pointed-to type is enough. *)
Lemma accepts_strip j t : tyok t = true -> j <> JNull -> accepts_at j (strip_ptr t) -> accepts_at j t.
Proof.
  intros HK HJ H. destruct t; try exact H. cbn [strip_ptr] in H. intros c HC. rewrite dec_ptr by exact HJ.
  cbn [tyok] in HK. destruct (H (match c with VPtr v => v | _ => zero t end)) as [v Hv].
  - destruct c; cbn [has_type] in HC; try discriminate; [apply zero_typed; exact HK|exact HC].
  - rewrite Hv. cbn [omap]. eauto.
Qed.

Lemma of_any_not_null a j : of_any a = Some j -> a <> ANull -> j <> JNull.
Proof.
  destruct a; cbn [of_any]; unfold omap; intros H HN; try congruence.
  - destruct (fmt_float x); congruence.
  - destruct (oall _); congruence.
  - destruct (oall _); congruence.
Qed.

Lemma fits_not_null s a : fits s a = true -> a <> ANull.
Proof. destruct s, a; try discriminate; congruence. Qed.

Lemma dec_struct_obj n d l fs : find_decl n = Some d -> NoDup (map fst l) ->
  dec (JObj l) (TStruct n) (VStruct fs) =
  omap VStruct (match d_dec d with
  | DTable _ cases _ ck =>
    if forallb (fun c => strmem (fst c) (flags_of cases (map fst l))) ck
    then gturns (field_target d) (dec_strict d) (map (fun kv => (fst kv, dec (snd kv))) l) fs else None
  | DDefault => gturns (field_target d) (dec_strict d) (map (fun kv => (fst kv, dec (snd kv))) l) fs
  end).
Proof.
  intros Hd HN. cbn [dec at_ty]. rewrite Hd. f_equal.
  assert (HM : map fst (map (fun kv : string * json => (fst kv, dec (snd kv))) l) = map fst l) by (rewrite map_map; reflexivity).
  rewrite unmarshal_gturns; [rewrite HM; reflexivity|apply (find_decl_in n d Hd)|rewrite HM; exact HN].
Qed.

Theorem compat_sound s : forall t a j, compat s t = true -> tyok t = true -> fits s a = true -> wf_any a ->
  of_any a = Some j -> accepts_at j t.
Proof.
  induction s as [ml en dt| | | |s IH|props req add IH] using schema_ind'; intros t a j HCt HK HF HW HJ;
    (apply accepts_strip; [exact HK|apply (of_any_not_null a j HJ), (fits_not_null _ _ HF)|]);
    assert (HK' : tyok (strip_ptr t) = true) by (destruct t; exact HK);
    cbn [compat] in HCt; generalize dependent (strip_ptr t); clear t HK; intros t HCt HK.
  - destruct a; try discriminate. cbn [of_any] in HJ. injection HJ as <-. intros c HC. cbn [fits] in HF.
    destruct t; try discriminate; cbn [dec at_ty]; [eauto|]. subst dt. destruct (parse_rfc3339 s); [cbn; eauto|discriminate].
  - destruct a; try discriminate. cbn [of_any] in HJ. cbn [fits] in HF. unfold int32_value in HF.
    destruct (f64_toZ x) as [z|] eqn:EZ; [|discriminate]. destruct HW as [W1 W2].
    destruct t; try discriminate.
    assert (P : (2 ^ 31 <= 2 ^ (bits - 1))%Z) by (apply Z.pow_le_mono_r; lia).
    destruct (fmt_integral x z W1 EZ) as (s & Es & Hs).
    { change (2 ^ 31)%Z with 2147483648%Z in *. change (2 ^ 53)%Z with 9007199254740992%Z. lia. }
    rewrite Es in HJ. cbn [omap] in HJ. injection HJ as <-. intros c HC. cbn [dec at_ty].
    rewrite (Hs bits) by lia. cbn. eauto.
  - destruct a; try discriminate. cbn [of_any] in HJ. destruct HW as [W1 W2]. destruct t; try discriminate.
    destruct (fmt_parse x W1 W2) as (s & Es & _ & Hp). rewrite Es in HJ. cbn [omap] in HJ. injection HJ as <-.
    intros c HC. cbn [dec at_ty]. rewrite Hp. cbn. eauto.
  - destruct a; try discriminate. cbn [of_any] in HJ. injection HJ as <-. destruct t; try discriminate.
    intros c HC. cbn [dec at_ty]. eauto.
  - destruct a as [| | | |l| ]; try discriminate. cbn [fits] in HF. destruct t as [| | | | | |t| ]; try discriminate.
    assert (HC1 : compat s t = true) by exact HCt.
    cbn [tyok] in HK. cbn [of_any] in HJ. unfold omap in HJ. destruct (oall (map of_any l)) as [js|] eqn:EO; [|discriminate].
    injection HJ as <-. apply oall_map in EO. apply wf_any_arr in HW.
    intros c HC. cbn [dec at_ty].
    assert (E : forall curs, Forall (fun x => has_type x t = true) curs ->
      exists vs, elems (fun c (dl : delayed) => dl t c) (zero t) curs (map dec js) = Some vs).
    { clear HCt HC. induction EO as [|a j l js H1 _ IHE]; intros curs HCs; [exists []; reflexivity|].
      cbn [forallb] in HF. apply andb_true_iff in HF. destruct HF as [F1 F2]. inversion HW as [|? ? W1 W2]; subst.
      cbn [map elems]. destruct (IH t a j HC1 HK F1 W1 H1 (hd (zero t) curs)) as [v Hv].
      { destruct HCs; cbn [hd]; [apply zero_typed; exact HK|assumption]. }
      rewrite Hv. destruct (IHE F2 W2 (tl curs)) as [vs Hvs]; [destruct HCs; [constructor|assumption]|].
      rewrite Hvs. eauto. }
    destruct (E (match c with VSlice l => l | _ => [] end)) as [vs Hvs].
    { destruct c; cbn [has_type] in HC; try discriminate; [constructor|]. apply Forall_forall. rewrite forallb_forall in HC. exact HC. }
    rewrite Hvs. cbn. eauto.
  - destruct a as [| | | | |m]; try discriminate. rewrite fits_obj in HF. apply andb_true_iff in HF. destruct HF as [F1 F2].
    destruct t as [| | | | | | |n]; try discriminate. destruct (find_decl n) as [d|] eqn:Ed; [|discriminate].
    destruct (find_decl_in n d Ed) as [HI _].
    apply andb_true_iff in HCt. destruct HCt as [HCt C3]. apply andb_true_iff in HCt. destruct HCt as [C1 C2].
    cbn [of_any] in HJ. unfold omap in HJ. match type of HJ with match ?x with _ => _ end = _ => destruct x as [ms|] eqn:EO; [|discriminate] end.
    injection HJ as <-. apply oall_map in EO. apply wf_any_obj in HW. destruct HW as (W1 & _ & W2).
    assert (EK : map fst ms = map fst m).
    { clear -EO. induction EO as [|[k a] [k' j] m ms E _ IHE]; [reflexivity|]. cbn [map fst].
      cbn [fst snd] in E. destruct (of_any a); [|discriminate]. injection E as -> _. rewrite IHE. reflexivity. }
    intros c HC. destruct c as [| | | | | | | |fs]; try discriminate.
    pose proof (has_struct_typed n d fs Ed HC) as HT.
    rewrite (dec_struct_obj n d ms fs Ed) by (rewrite EK; exact W1).
    assert (G : exists fs', gturns (field_target d) (dec_strict d) (map (fun kv => (fst kv, dec (snd kv))) ms) fs = Some fs').
    { apply (gturns_succeeds d); [exact HI|apply field_target_ok; exact HI| | |exact HT].
      - apply Forall_forall. intros x Hx. apply in_map_iff in Hx. destruct Hx as (y & <- & _). cbn [snd]. apply dec_typed.
      - clear EK C3 F2 HT HC. induction EO as [|[k a] [k' j] m ms E _ IHE]; [constructor|].
        cbn [forallb fst snd] in F1. apply andb_true_iff in F1. destruct F1 as [F1 F3].
        cbn [fst snd] in E. destruct (of_any a) as [ja|] eqn:Ea; [|discriminate]. injection E as <- <-.
        inversion W2 as [|? ? [_ W3] W4]; subst. cbn [map fst] in W1. inversion W1 as [|? ? W5 W6]; subst.
        cbn [map]. constructor; [|apply IHE; assumption]. cbn [fst snd].
        destruct (find_schema props k) as [s|] eqn:EF.
        + apply find_schema_in in EF. rewrite forallb_forall in C1. specialize (C1 _ EF). cbn [fst snd] in C1.
          destruct (field_target d k) as [[f t]|] eqn:ET; [|destruct (dec_strict d); [discriminate|reflexivity]].
          rewrite Forall_forall in IH. specialize (IH _ EF). cbn [snd] in IH.
          destruct (field_target_ok d HI _ _ _ ET) as (fd & Ef & ->).
          apply (IH (f_ty fd) a ja C1); try assumption. apply (field_tyok d f fd HI Ef).
        + subst add. apply andb_true_iff in C2. destruct C2 as [C2 C4].
          destruct (d_dec d) as [fl cases st ck|] eqn:ED; [|discriminate].
          assert (field_target d k = None) as ->; [|destruct (dec_strict d); [discriminate|reflexivity]].
          unfold field_target. rewrite ED. unfold table_target. destruct (case_of cases k) as [cc|] eqn:EC; [|reflexivity].
          apply case_of_spec in EC. destruct EC as [I1 K1]. rewrite forallb_forall in C4. specialize (C4 _ I1). rewrite K1 in C4.
          apply find_schema_none in EF. congruence. }
    destruct G as [fs' G]. rewrite G.
    destruct (d_dec d) as [fl cases st ck|] eqn:ED; [|cbn; eauto].
    assert (forallb (fun c => strmem (fst c) (flags_of cases (map fst ms))) ck = true) as ->; [|cbn; eauto].
    apply forallb_forall. intros c Hc. rewrite forallb_forall in C3. specialize (C3 c Hc).
    eapply strmem_flags; [|exact C3]. intros k Hk. rewrite forallb_forall in F2. specialize (F2 k Hk).
    apply has_key_In in F2. rewrite EK. exact F2.
Qed.

(** The message types with the schema their decoders fully implement. *)
Definition msg_types : list string := map fst action_table ++ map snd response_table.

Lemma all_compat : forallb (fun ty => match schema_of ty with Some s => compat s (TStruct ty) && tyok (TStruct ty) | None => false end) msg_types = true.
Proof. vm_compute. reflexivity. Qed.

Theorem schema_accepted ty s a text : In ty msg_types -> schema_of ty = Some s -> wf_any a -> fits s a = true ->
  marshal_any a = Ok text -> exists v, unmarshal_msg ty text = Some v.
Proof.
  intros HI HS HW HF HM. pose proof all_compat as HA. rewrite forallb_forall in HA. specialize (HA ty HI). rewrite HS in HA.
  apply andb_true_iff in HA. destruct HA as [HA HK].
  destruct (of_any_ok a HW) as (j & Ej & [C1 C2] & _). unfold marshal_any in HM. rewrite Ej in HM. injection HM as <-.
  unfold unmarshal_msg. rewrite (parse_print j C1), C2.
  apply (compat_sound s (TStruct ty) a j HA HK HF HW Ej). apply zero_typed. exact HK.
Qed.
