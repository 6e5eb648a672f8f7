(** Which objects are accepted, and as what: the decoder against SpecYields.v. *)
From Coq Require Import ZifyBool Sorting.Permutation.
From Verif Require Import GoBase Utf8 Json JsonProofs Float64 Float64Proofs GoTime GoTimeProofs
  Lang Types Codec EncProofs Any AnyProofs DecProofs SpecCodec RoundTrip NumTotal DecTyped Tables Registry Frame FrameProofs
  SpecEnc EncTotal Schemas SpecSchema FloatInt SchemaProofs SpecTime SpecReads PropsTime ReadsProofs SpecShort SpecYields.
From Verif Require PropsNumber.
Open Scope string_scope.
Open Scope list_scope.
Local Open Scope Z_scope.

(** ** Integers *)

Lemma parse_int_text b s z : parse_int b s = Some z <-> integer_text s z /\ - 2 ^ (b - 1) <= z < 2 ^ (b - 1).
Proof.
  assert (G : forall (neg : bool) u, (if str_forall is_digit u && negb (String.eqb u "") then
      let v := if neg then - digits_val 0 u else digits_val 0 u in if (- 2 ^ (b - 1) <=? v) && (v <? 2 ^ (b - 1)) then Some v else None else None) = Some z <->
      str_forall is_digit u = true /\ u <> "" /\ z = (if neg then - digits_val 0 u else digits_val 0 u) /\ - 2 ^ (b - 1) <= z < 2 ^ (b - 1)).
  { intros neg u. destruct (str_forall is_digit u); [|split; [discriminate|intros [H _]; discriminate H]].
    destruct (String.eqb_spec u "") as [->|E2]; [split; [discriminate|intros (_ & H & _); contradiction H; reflexivity]|].
    cbn [andb negb]. cbv zeta. set (v := if neg then - digits_val 0 u else digits_val 0 u).
    destruct ((- 2 ^ (b - 1) <=? v) && (v <? 2 ^ (b - 1))) eqn:E3.
    - apply andb_true_iff in E3. destruct E3 as [E3 E4]. apply Z.leb_le in E3. apply Z.ltb_lt in E4.
      split; [intros H; assert (v = z) as <- by congruence; auto|intros (_ & _ & -> & _); reflexivity].
    - split; [discriminate|]. intros (_ & _ & -> & H1 & H2). apply andb_false_iff in E3. destruct E3 as [E3|E3]; [apply Z.leb_gt in E3|apply Z.ltb_ge in E3]; lia. }
  unfold parse_int. split.
  - intros H. destruct s as [|c r].
    + apply (G false "") in H. destruct H as (_ & H & _). contradiction H; reflexivity.
    + destruct (Ascii.eqb_spec c "-"%char) as [->|NC].
      * apply (G true r) in H. destruct H as (H1 & H2 & H3 & H4). split; [|exact H4]. exists "-", r. split; [reflexivity|]. split; [exact H1|]. split; [exact H2|]. right. split; [reflexivity|exact H3].
      * apply (G false (String c r)) in H. destruct H as (H1 & H2 & H3 & H4). split; [|exact H4]. exists "", (String c r). split; [reflexivity|]. split; [exact H1|]. split; [exact H2|]. left. split; [reflexivity|exact H3].
  - intros [(sign & ds & -> & H1 & H2 & H3) H4]. destruct H3 as [[-> H3]|[-> H3]].
    + cbn [String.append]. destruct ds as [|c r]; [contradiction (H2 eq_refl)|].
      assert (Ascii.eqb c "-" = false) as ->.
      { cbn [str_forall] in H1. destruct (Ascii.eqb_spec c "-"%char) as [->|]; [discriminate H1|reflexivity]. }
      apply (G false (String c r)). auto.
    + cbn [String.append]. rewrite Ascii.eqb_refl. apply (G true ds). auto.
Qed.
Lemma integer_text_one s z z' : integer_text s z -> integer_text s z' -> z = z'.
Proof.
  intros (sg & ds & E & D & N & H) (sg' & ds' & E' & D' & N' & H').
  destruct ds as [|c r]; [contradiction (N eq_refl)|]. destruct ds' as [|c' r']; [contradiction (N' eq_refl)|]. subst s.
  destruct H as [[-> ->]|[-> ->]], H' as [[-> ->]|[-> ->]]; cbn [String.append] in E'; try (injection E' as <- <-; reflexivity);
    exfalso; injection E' as E1 E2; subst; discriminate.
Qed.

(** ** Structs *)

Definition table_facts (d : decl) : bool :=
  match d_dec d with
  | DTable _ cases strict checks =>
    Bool.eqb strict (closed (d_name d)) &&
    forallb (fun k => strmem k (map fst checks)) (obligatory (d_name d)) && forallb (fun k => strmem k (obligatory (d_name d))) (map fst checks) &&
    forallb (fun c => match c_flag c with Some f => String.eqb f (c_key c) | None => true end) cases &&
    forallb (fun k => match case_of cases k with Some c => match c_flag c with Some f => String.eqb f k | None => false end | None => false end) (map fst checks) &&
    forallb (fun fd => negb strict || negb (lost (d_name d) (f_name fd))) (d_fields d) && nodupb (map f_json (d_fields d))
  | DDefault => negb (closed (d_name d)) && match obligatory (d_name d) with [] => true | _ => false end
  end.
Lemma all_table_facts : forallb table_facts all_decls = true.
Proof. vm_compute. reflexivity. Qed.

Fixpoint shallow (t : gty) : bool :=
  match t with TPtr t | TSlice t => shallow t | TStruct n => negb (reflective n) | _ => true end.
(** Structs stand behind pointers. *)
Fixpoint pointed (t : gty) : bool :=
  match t with TPtr (TStruct _) => true | TPtr t | TSlice t => pointed t | TStruct _ => false | _ => true end.
Lemma all_shallow : forallb (fun d => forallb (fun f => shallow (f_ty f) && pointed (f_ty f)) (d_fields d)) all_decls = true.
Proof. vm_compute. reflexivity. Qed.

Lemma flags_keys cases ks f : forallb (fun c => match c_flag c with Some f => String.eqb f (c_key c) | None => true end) cases = true ->
  (match case_of cases f with Some c => match c_flag c with Some g => String.eqb g f | None => false end | None => false end) = true ->
  strmem f (flags_of cases ks) = true <-> In f ks.
Proof.
  intros HF HC. rewrite forallb_forall in HF. unfold flags_of. rewrite strmem_In, in_flat_map. split.
  - intros (k & HI & HK). unfold flag_of in HK. destruct (case_of cases k) as [c|] eqn:EC; [|destruct HK]. apply case_of_spec in EC. destruct EC as [E1 E2].
    specialize (HF c E1). destruct (c_flag c) as [g|]; [|destruct HK]. destruct HK as [<-|[]]. apply String.eqb_eq in HF. congruence.
  - intros HI. exists f. split; [exact HI|]. unfold flag_of. destruct (case_of cases f) as [c|]; [|discriminate HC].
    destruct (c_flag c) as [g|]; [|discriminate HC]. apply String.eqb_eq in HC. left. exact HC.
Qed.

Lemma gturns_known tg strict l : forall fs fs', gturns tg strict l fs = Some fs' -> strict = true -> forall k dl, In (k, dl) l -> tg k <> None.
Proof.
  induction l as [|[k0 dl0] l IH]; intros fs fs' H HS k dl HI; [destruct HI|]. cbn [gturns] in H. rewrite HS in H.
  destruct (tg k0) as [[f t]|] eqn:ET; [|discriminate H]. destruct (lookup f fs) as [c|]; [|discriminate H]. destruct (dl0 t c) as [v|]; [|discriminate H].
  destruct HI as [E|HI]; [injection E as <- <-; congruence|]. rewrite HS in IH. exact (IH _ _ H eq_refl k dl HI).
Qed.
Lemma gturns_total tg strict l : NoDup (map fst l) -> forall fs, (strict = true -> forall k dl, In (k, dl) l -> tg k <> None) ->
  (forall k dl f t, In (k, dl) l -> tg k = Some (f, t) -> exists c v, lookup f fs = Some c /\ dl t c = Some v) ->
  (forall k k' dl dl' f t t', In (k, dl) l -> In (k', dl') l -> tg k = Some (f, t) -> tg k' = Some (f, t') -> k = k') ->
  exists fs', gturns tg strict l fs = Some fs'.
Proof.
  induction l as [|[k dl] l IH]; intros HN fs HS HT HU; [exists fs; reflexivity|]. cbn [gturns map fst] in *. inversion HN as [|? ? N1 N2]; subst.
  destruct (tg k) as [[f t]|] eqn:ET.
  - destruct (HT k dl f t (or_introl eq_refl) ET) as (c & v & -> & ->). apply IH; [exact N2| | |].
    + intros E k' dl' HI. apply (HS E k' dl'). right. exact HI.
    + intros k' dl' f' t' HI ET'. destruct (HT k' dl' f' t' (or_intror HI) ET') as (c' & v' & L & D). exists c', v'. split; [|exact D].
      rewrite set_field_lookup. destruct (String.eqb_spec f' f) as [->|]; [|exact L]. exfalso.
      assert (k' = k) as -> by (eapply HU; [right; exact HI|left; reflexivity|exact ET'|exact ET]). apply N1. apply in_map_iff. exists (k, dl'). auto.
    + intros k1 k2 d1 d2 f1 t1 t2 H1 H2. apply (HU k1 k2 d1 d2 f1 t1 t2); right; assumption.
  - destruct strict; [exfalso; apply (HS eq_refl k dl); [left; reflexivity|exact ET]|]. apply IH; [exact N2|discriminate| |].
    + intros k' dl' f' t' HI ET'. apply (HT k' dl'); [right; exact HI|exact ET'].
    + intros k1 k2 d1 d2 f1 t1 t2 H1 H2. apply (HU k1 k2 d1 d2 f1 t1 t2); right; assumption.
Qed.

Lemma goes_target d fd k : In d all_decls -> In fd (d_fields d) -> goes_to d fd k <-> field_target d k = Some (f_name fd, f_ty fd).
Proof.
  intros HI HF. split.
  - intros [H1 H2]. apply named_target; assumption.
  - intros H. destruct (target_named d fd k _ HI HF H) as (_ & H1 & H2). split; assumption.
Qed.
Lemma target_field d k f t : In d all_decls -> field_target d k = Some (f, t) -> exists fd, In fd (d_fields d) /\ f_name fd = f /\ f_ty fd = t.
Proof.
  intros HI H. unfold field_target in H. destruct (d_dec d) as [fl cases st ck|].
  - unfold table_target in H. destruct (case_of cases k) as [c|]; [|discriminate H]. destruct (find_field d (c_field c)) as [fd|] eqn:EF; [|discriminate H].
    injection H as <- <-. unfold find_field in EF. apply find_some in EF. destruct EF as [E1 E2]. apply String.eqb_eq in E2. exists fd. auto.
  - unfold default_tgt in H. destruct (default_target d k) as [fd|] eqn:ET; [|discriminate H]. injection H as <- <-. exists fd.
    split; [|auto]. unfold default_target in ET. destruct (find _ (d_fields d)) as [g|] eqn:E1 in ET.
    + assert (g = fd) as -> by congruence. apply find_some in E1. tauto.
    + apply find_some in ET. tauto.
Qed.

Definition agrees (a : any) : Prop := forall j, wf_any a -> of_any a = Some j -> forall t v, tyok t = true -> pointed t = true -> shallow t = true ->
  (dec j t (zero t) = Some v <-> yields t a v).

Lemma members_of m ms : Forall2 (fun (kv : string * any) (kj : string * json) => omap (pair (fst kv)) (of_any (snd kv)) = Some kj) m ms ->
  map fst ms = map fst m /\ (forall k j, In (k, j) ms -> exists a, In (k, a) m /\ of_any a = Some j) /\
  (forall k a, In (k, a) m -> exists j, In (k, j) ms /\ of_any a = Some j).
Proof.
  intros EO. induction EO as [|[k0 a0] [k1 j0] m ms E _ (I1 & I2 & I3)]; [split; [reflexivity|split; intros ? ? []]|].
  cbn [fst snd omap] in *. destruct (of_any a0) as [j|] eqn:E0; [|discriminate E]. injection E as <- <-. cbn [map fst]. split; [congruence|]. split.
  - intros k j' [H|H]; [injection H as <- <-; exists a0; split; [left; reflexivity|exact E0]|]. destruct (I2 k j' H) as (a & A1 & A2). exists a. split; [right; exact A1|exact A2].
  - intros k a [H|H]; [injection H as <- <-; exists j; split; [left; reflexivity|exact E0]|]. destruct (I3 k a H) as (j' & A1 & A2). exists j'. split; [right; exact A1|exact A2].
Qed.

Lemma nodup_pair {A} (l : list (string * A)) k a b : NoDup (map fst l) -> In (k, a) l -> In (k, b) l -> a = b.
Proof.
  induction l as [|[k0 a0] l IH]; intros HN HA HB; [destruct HA|]. cbn [map fst] in HN. inversion HN as [|? ? N1 N2]; subst.
  destruct HA as [HA|HA], HB as [HB|HB]; [congruence| | |auto]; exfalso; apply N1.
  - injection HA as -> ->. apply in_map_iff. exists (k, b). auto.
  - injection HB as -> ->. apply in_map_iff. exists (k, a). auto.
Qed.

Lemma forall2_keyed {B} (P : field -> string * B -> Prop) ds fs : Forall2 P ds fs -> (forall fd kv, P fd kv -> fst kv = f_name fd) ->
  NoDup (map f_name ds) -> map fst fs = map f_name ds /\
  forall fd, In fd ds -> exists v, lookup (f_name fd) fs = Some v /\ P fd (f_name fd, v).
Proof.
  intros HF HP. induction HF as [|fd [k v] ds fs H HF IH]; intros ND; [split; [reflexivity|intros fd []]|].
  cbn [map fst] in *. inversion ND as [|? ? N1 N2]; subst. destruct (IH N2) as [I1 I2]. pose proof (HP _ _ H) as E. cbn [fst] in E. subst k.
  split; [congruence|]. intros fd' [<-|HI].
  - exists v. cbn [lookup]. rewrite String.eqb_refl. auto.
  - destruct (I2 fd' HI) as (w & W1 & W2). exists w. split; [|exact W2]. cbn [lookup].
    destruct (String.eqb_spec (f_name fd') (f_name fd)) as [E|]; [|exact W1]. exfalso. apply N1. rewrite <- E. apply in_map. exact HI.
Qed.
Lemma keyed_forall2 {B} (P : field -> string * B -> Prop) ds fs : map fst fs = map f_name ds -> NoDup (map f_name ds) ->
  (forall fd v, In fd ds -> lookup (f_name fd) fs = Some v -> P fd (f_name fd, v)) -> Forall2 P ds fs.
Proof.
  revert fs. induction ds as [|fd ds IH]; intros [|[k v] fs] E ND H; try discriminate E; constructor.
  - cbn [map fst] in E. injection E as -> E. apply H; [left; reflexivity|]. cbn [lookup]. rewrite String.eqb_refl. reflexivity.
  - cbn [map fst] in E. injection E as -> E. cbn [map] in ND. inversion ND as [|? ? N1 N2]; subst. apply IH; [exact E|exact N2|].
    intros fd' w HI HL. apply H; [right; exact HI|]. cbn [lookup]. destruct (String.eqb_spec (f_name fd') (f_name fd)) as [E'|]; [|exact HL].
    exfalso. apply N1. rewrite <- E'. apply in_map. exact HI.
Qed.
Lemma equal_fields {A} (a b : list (string * A)) : map fst a = map fst b -> NoDup (map fst a) ->
  (forall k, In k (map fst a) -> lookup k a = lookup k b) -> a = b.
Proof.
  revert b. induction a as [|[k v] a IH]; intros [|[k' v'] b] E ND H; try discriminate E; [reflexivity|].
  cbn [map fst] in *. injection E as <- E. inversion ND as [|? ? N1 N2]; subst.
  pose proof (H k (or_introl eq_refl)) as H0. cbn [lookup] in H0. rewrite String.eqb_refl in H0. assert (v = v') as <- by congruence. f_equal.
  apply IH; [exact E|exact N2|]. intros j Hj. specialize (H j (or_intror Hj)). cbn [lookup] in H.
  destruct (String.eqb_spec j k) as [E'|]; [exfalso; apply N1; rewrite <- E'; exact Hj|exact H].
Qed.

(** One object, given its members. *)
Lemma struct_iff n d m ms v : find_decl n = Some d ->
  Forall2 (fun (kv : string * any) (kj : string * json) => omap (pair (fst kv)) (of_any (snd kv)) = Some kj) m ms ->
  NoDup (map fst m) -> Forall (fun kv => wf_any (snd kv)) m -> Forall (fun kv => agrees (snd kv)) m -> unambiguous n (AObj m) ->
  (dec (JObj ms) (TStruct n) (zero (TStruct n)) = Some v <-> yields (TStruct n) (AObj m) v).
Proof.
  intros Hd EO HN HW IH HU. destruct (find_decl_in n d Hd) as [HI Hnm]. pose proof (names_distinct d HI) as HD.
  destruct (members_of m ms EO) as (EK & M1 & M2). rewrite Forall_forall in HW, IH.
  assert (HZ : zero (TStruct n) = VStruct (map (fun f => (f_name f, zero0 (f_ty f))) (d_fields d))).
  { unfold zero. rewrite Hd. reflexivity. }
  rewrite HZ. rewrite (dec_struct_obj n d ms _ Hd) by (rewrite EK; exact HN). rewrite EK.
  set (l := map (fun kv : string * json => (fst kv, dec (snd kv))) ms).
  set (fs0 := map (fun f => (f_name f, zero0 (f_ty f))) (d_fields d)).
  assert (EL : map fst l = map fst m) by (unfold l; rewrite map_map, <- EK; reflexivity).
  assert (NL : NoDup (map fst l)) by (rewrite EL; exact HN).
  assert (TYS : forall fd, In fd (d_fields d) -> tyok (f_ty fd) = true /\ is_ty_struct (f_ty fd) = false /\ pointed (f_ty fd) = true /\ shallow (f_ty fd) = true).
  { intros fd Hf. destruct (field_tyok d _ _ HI (find_field_of d fd HD Hf)) as [T1 T2]. pose proof all_shallow as AS. rewrite forallb_forall in AS. specialize (AS d HI).
    rewrite forallb_forall in AS. specialize (AS fd Hf). apply andb_true_iff in AS. tauto. }
  assert (ZL : forall fd, In fd (d_fields d) -> lookup (f_name fd) fs0 = Some (zero (f_ty fd))).
  { intros fd Hf. unfold fs0. rewrite (zero_lookup d _ _ (find_field_of d fd HD Hf)). rewrite (zero_zero0 _ (proj1 (proj2 (TYS fd Hf)))). reflexivity. }
  assert (LM : forall k dl, In (k, dl) l -> exists a j, In (k, a) m /\ of_any a = Some j /\ dl = dec j).
  { intros k dl H. unfold l in H. apply in_map_iff in H. destruct H as ([k' j] & E & H). injection E as <- <-. destruct (M1 k' j H) as (a & A1 & A2). exists a, j. auto. }
  assert (ML : forall k a, In (k, a) m -> exists j, In (k, dec j) l /\ of_any a = Some j).
  { intros k a H. destruct (M2 k a H) as (j & J1 & J2). exists j. split; [|exact J2]. unfold l. apply in_map_iff. exists (k, j). auto. }
  assert (KI : forall k a, In (k, a) m -> In k (map fst m)) by (intros k a H; apply in_map_iff; exists (k, a); auto).
  assert (UQ : forall fd k k', In fd (d_fields d) -> In k (map fst m) -> In k' (map fst m) -> goes_to d fd k -> goes_to d fd k' -> k = k').
  { intros fd k k' Hf K1 K2 [G1 _] [G2 _]. destruct (reflective n) eqn:ER; [exact (HU d m fd k k' ER Hd eq_refl Hf K1 K2 G1 G2)|].
    destruct G1 as [<-|[G1 _]]; [|rewrite Hnm in G1; congruence]. destruct G2 as [<-|[G2 _]]; [reflexivity|rewrite Hnm in G2; congruence]. }
  pose proof all_table_facts as TF. rewrite forallb_forall in TF. specialize (TF d HI). unfold table_facts in TF. rewrite Hnm in TF.
  (* the loop alone *)
  assert (LOOP : forall strict fs', strict = dec_strict d -> (strict = true -> forall fd, In fd (d_fields d) -> lost n (f_name fd) = false) ->
    strict = closed n ->
    (gturns (field_target d) strict l fs0 = Some fs' <->
     (closed n = true -> forall k, In k (map fst m) -> exists fd, In fd (d_fields d) /\ f_json fd = k) /\
     Forall2 (fun fd kv => fst kv = f_name fd /\
      (forall k a, In (k, a) m -> goes_to d fd k -> yields (f_ty fd) a (snd kv)) /\
      ((forall k, In k (map fst m) -> ~ goes_to d fd k) -> snd kv = zero (f_ty fd))) (d_fields d) fs')).
  { intros strict fs' ES HLo EC.
    assert (VAL : forall fs', gturns (field_target d) strict l fs0 = Some fs' -> map fst fs' = map f_name (d_fields d) /\
      forall fd, In fd (d_fields d) -> exists v, lookup (f_name fd) fs' = Some v /\
        (forall k a, In (k, a) m -> goes_to d fd k -> yields (f_ty fd) a v) /\ ((forall k, In k (map fst m) -> ~ goes_to d fd k) -> v = zero (f_ty fd))).
    { intros gs HG. destruct (gturns_untouched _ _ _ _ _ HG) as [HK HUn]. split; [rewrite HK; unfold fs0; rewrite map_map; reflexivity|].
      intros fd Hf. destruct (TYS fd Hf) as (T1 & T2 & T3 & T4).
      destruct (existsb (fun kv => match field_target d (fst kv) with Some (f, _) => String.eqb f (f_name fd) | None => false end) m) eqn:EX.
      - apply existsb_exists in EX. destruct EX as ([k a] & Hk & EX). cbn [fst] in EX.
        destruct (field_target d k) as [[f t]|] eqn:ET; [|discriminate EX]. apply String.eqb_eq in EX. subst f.
        destruct (target_named d fd k t HI Hf ET) as (-> & _ & _). pose proof (proj2 (goes_target d fd k HI Hf) ET) as GT.
        destruct (ML k a Hk) as (j & J1 & J2).
        destruct (gturns_touched _ _ _ NL _ _ HG k (dec j) (f_name fd) (f_ty fd) J1 ET) as (c & u & L1 & L2 & L3).
        { intros k' dl' t' HI' ET'. destruct (target_named d fd k' t' HI Hf ET') as (-> & _ & _). apply (UQ fd); [exact Hf| |exact (KI _ _ Hk)|apply goes_target; assumption|exact GT].
          destruct (LM _ _ HI') as (a' & _ & A1 & _). exact (KI _ _ A1). }
        rewrite (ZL fd Hf) in L1. assert (c = zero (f_ty fd)) as -> by congruence. exists u. split; [exact L3|]. split.
        + intros k' a' Hk' GT'. assert (k' = k) as -> by (apply (UQ fd); eauto). assert (a' = a) as -> by exact (nodup_pair m k a' a HN Hk' Hk).
          apply (IH _ Hk j (HW _ Hk) J2); assumption.
        + intros HNo. exfalso. exact (HNo k (KI _ _ Hk) GT).
      - assert (NG : forall k, In k (map fst m) -> field_target d k <> Some (f_name fd, f_ty fd)).
        { intros k Hk E. apply in_map_iff in Hk. destruct Hk as ([k' a] & <- & Hk). cbn [fst] in *.
          assert (X : existsb (fun kv => match field_target d (fst kv) with Some (f, _) => String.eqb f (f_name fd) | None => false end) m = true).
          { apply existsb_exists. exists (k', a). split; [exact Hk|]. cbn [fst]. rewrite E. apply String.eqb_refl. }
          congruence. }
        exists (zero (f_ty fd)). split; [|split; [|reflexivity]].
        + rewrite (HUn (f_name fd)); [apply ZL; exact Hf|]. intros k dl t Hk ET. destruct (target_named d fd k t HI Hf ET) as (-> & _ & _).
          destruct (LM _ _ Hk) as (a & _ & A1 & _). exact (NG k (KI _ _ A1) ET).
        + intros k a Hk GT. exfalso. apply (NG k (KI _ _ Hk)). apply goes_target; assumption. }
    split.
    - intros HG. split.
      + intros HC k Hk. rewrite <- EC in HC. apply in_map_iff in Hk. destruct Hk as ([k' a] & <- & Hk). cbn [fst]. destruct (ML k' a Hk) as (j & J1 & _).
        pose proof (gturns_known _ _ _ _ _ HG HC _ _ J1) as NE. destruct (field_target d k') as [[f t]|] eqn:ET; [|contradiction (NE eq_refl)].
        destruct (target_field d k' f t HI ET) as (fd & F1 & <- & <-). exists fd. split; [exact F1|].
        destruct (target_named d fd k' _ HI F1 ET) as (_ & [N|[N _]] & _); [exact N|]. exfalso. rewrite Hnm in N.
        rewrite EC in HC. unfold closed in HC. rewrite N, andb_false_r in HC. discriminate HC.
      + destruct (VAL fs' HG) as [V1 V2]. apply keyed_forall2; [exact V1|exact HD|]. intros fd u Hf HL. destruct (V2 fd Hf) as (u' & U1 & U2).
        assert (u' = u) as -> by congruence. cbn [fst snd]. split; [reflexivity|exact U2].
    - intros [HC HF]. destruct (forall2_keyed _ _ _ HF (fun fd kv P => proj1 P) HD) as [F1 F2].
      destruct (gturns_total (field_target d) strict l NL fs0) as [gs HG].
      + intros HS k dl Hk ET. rewrite EC in HS. destruct (LM k dl Hk) as (a & j & A1 & _ & _). destruct (HC HS k (KI _ _ A1)) as (fd & Hf & EJ).
        assert (GT : goes_to d fd k). { split; [left; exact EJ|]. rewrite Hnm. rewrite <- EC in HS. exact (HLo HS fd Hf). }
        apply (goes_target d fd k HI Hf) in GT. congruence.
      + intros k dl f t Hk ET. destruct (target_field d k f t HI ET) as (fd & Hf & <- & <-). destruct (TYS fd Hf) as (T1 & T2 & T3 & T4).
        destruct (LM k dl Hk) as (a & j & A1 & A2 & ->). destruct (F2 fd Hf) as (u & U1 & _ & U2 & _). cbn [snd] in U2.
        exists (zero (f_ty fd)), u. split; [exact (ZL fd Hf)|]. apply (IH _ A1 j (HW _ A1) A2); [assumption..|]. apply (U2 k a A1). apply goes_target; assumption.
      + intros k k' dl dl' f t t' Hk Hk' ET ET'. destruct (target_field d k f t HI ET) as (fd & Hf & <- & <-).
        destruct (target_named d fd k' t' HI Hf ET') as (-> & _ & _). destruct (LM _ _ Hk) as (a & _ & A1 & _). destruct (LM _ _ Hk') as (a' & _ & A1' & _).
        apply (UQ fd); eauto; apply goes_target; assumption.
      + rewrite HG. f_equal. destruct (VAL gs HG) as [V1 V2]. apply equal_fields; [congruence|rewrite V1; exact HD|].
        intros k Hk. rewrite V1 in Hk. apply in_map_iff in Hk. destruct Hk as (fd & <- & Hf). destruct (TYS fd Hf) as (T1 & T2 & T3 & T4).
        destruct (V2 fd Hf) as (u & U1 & U2 & U3). destruct (F2 fd Hf) as (w & W1 & _ & W2 & W3). cbn [snd] in W2, W3. rewrite U1, W1. f_equal.
        destruct (existsb (fun kv => match field_target d (fst kv) with Some (f, _) => String.eqb f (f_name fd) | None => false end) m) eqn:EX.
        * apply existsb_exists in EX. destruct EX as ([k a] & Hk & EX). cbn [fst] in EX.
          destruct (field_target d k) as [[f t]|] eqn:ET; [|discriminate EX]. apply String.eqb_eq in EX. subst f.
          destruct (target_named d fd k t HI Hf ET) as (-> & _ & _). pose proof (proj2 (goes_target d fd k HI Hf) ET) as GT.
          destruct (ML k a Hk) as (j & J1 & J2). pose proof (proj2 (IH _ Hk j (HW _ Hk) J2 _ u T1 T3 T4) (U2 k a Hk GT)) as X.
          pose proof (proj2 (IH _ Hk j (HW _ Hk) J2 _ w T1 T3 T4) (W2 k a Hk GT)) as Y. congruence.
        * assert (NG : forall k, In k (map fst m) -> ~ goes_to d fd k).
          { intros k Hk GT. apply (goes_target d fd k HI Hf) in GT. apply in_map_iff in Hk. destruct Hk as ([k' a] & <- & Hk). cbn [fst] in *.
            assert (X : existsb (fun kv => match field_target d (fst kv) with Some (f, _) => String.eqb f (f_name fd) | None => false end) m = true).
            { apply existsb_exists. exists (k', a). split; [exact Hk|]. cbn [fst]. rewrite GT. apply String.eqb_refl. }
            congruence. }
          rewrite (U3 NG), (W3 NG). reflexivity. }
  assert (SHAPE : forall o : option (list (string * gval)), (omap VStruct o = Some v <-> exists fs, o = Some fs /\ v = VStruct fs)).
  { intros [fs|]; cbn [omap]; split; [intros H; exists fs; split; congruence|intros (fs' & E & ->); congruence|discriminate|intros (fs' & E & _); discriminate E]. }
  rewrite SHAPE. destruct (d_dec d) as [fl cases strict checks|] eqn:ED.
  - rewrite !andb_true_iff in TF. destruct TF as ((((((TF1 & TF2) & TF3) & TF4) & TF5) & TF6) & _). apply Bool.eqb_prop in TF1.
    assert (ES : dec_strict d = strict) by (unfold dec_strict; rewrite ED; reflexivity).
    assert (HLo : strict = true -> forall fd, In fd (d_fields d) -> lost n (f_name fd) = false).
    { intros -> fd Hf. rewrite forallb_forall in TF6. specialize (TF6 fd Hf). cbn [negb orb] in TF6. apply negb_true_iff in TF6. exact TF6. }
    assert (CK : forallb (fun c => strmem (fst c) (flags_of cases (map fst m))) checks = true <-> incl (obligatory n) (map fst m)).
    { rewrite forallb_forall in TF2, TF3, TF5 |- *. split.
      - intros H k Hk. specialize (TF2 k Hk). apply strmem_In in TF2. specialize (TF5 k TF2). apply in_map_iff in TF2. destruct TF2 as (c & <- & Hc).
        exact (proj1 (flags_keys cases _ (fst c) TF4 TF5) (H c Hc)).
      - intros H c Hc. assert (In (fst c) (map fst checks)) as Hk by (apply in_map; exact Hc). specialize (TF3 _ Hk). apply strmem_In in TF3.
        exact (proj2 (flags_keys cases _ (fst c) TF4 (TF5 _ Hk)) (H _ TF3)). }
    destruct (forallb (fun c => strmem (fst c) (flags_of cases (map fst m))) checks) eqn:EF.
    + split.
      * intros (fs & HG & ->). apply (LOOP (dec_strict d) fs eq_refl ltac:(rewrite ES; exact HLo) ltac:(congruence)) in HG. destruct HG as [G1 G2].
        apply (yl_struct n d m fs Hd G1); [apply CK; reflexivity|exact G2].
      * intros H. inversion H as [| | | | | | | |n' d' m' fs Hd' G1 G2 G3]; subst. assert (d' = d) as -> by congruence. exists fs. split; [|reflexivity].
        apply (LOOP (dec_strict d) fs eq_refl ltac:(rewrite ES; exact HLo) ltac:(congruence)). split; assumption.
    + split; [intros (fs & E & _); discriminate E|]. intros H. inversion H as [| | | | | | | |n' d' m' fs Hd' G1 G2 G3]; subst.
      apply CK in G2. discriminate G2.
  - apply andb_true_iff in TF. destruct TF as [TF1 TF2]. apply negb_true_iff in TF1.
    assert (ES : dec_strict d = false) by (unfold dec_strict; rewrite ED; reflexivity).
    assert (HLo : dec_strict d = true -> forall fd, In fd (d_fields d) -> lost n (f_name fd) = false) by (rewrite ES; discriminate).
    split.
    + intros (fs & HG & ->). apply (LOOP (dec_strict d) fs eq_refl HLo ltac:(congruence)) in HG. destruct HG as [G1 G2].
      apply (yl_struct n d m fs Hd G1); [destruct (obligatory n); [intros ? []|discriminate TF2]|exact G2].
    + intros H. inversion H as [| | | | | | | |n' d' m' fs Hd' G1 G2 G3]; subst. assert (d' = d) as -> by congruence. exists fs. split; [|reflexivity].
      apply (LOOP (dec_strict d) fs eq_refl HLo ltac:(congruence)). split; assumption.
Qed.

Lemma never_struct n a v : a <> ANull -> (forall m, a <> AObj m) -> ~ yields (TStruct n) a v.
Proof. intros N1 N2 H. inversion H; subst; congruence. Qed.

Lemma ptr_iff j a t : j <> JNull -> a <> ANull -> (forall v, dec j t (zero t) = Some v <-> yields t a v) ->
  forall v, dec j (TPtr t) (zero (TPtr t)) = Some v <-> yields (TPtr t) a v.
Proof.
  intros HJ HA IH v. rewrite dec_ptr by exact HJ. change (zero (TPtr t)) with VNil. cbv iota. unfold omap. split.
  - destruct (dec j t (zero t)) as [w|] eqn:E; [|discriminate]. intros H. assert (v = VPtr w) as -> by congruence. apply yl_ptr; [exact HA|]. apply (proj1 (IH w)). first [exact E|reflexivity].
  - intros H. inversion H as [t' E1|  | | | | |t' a' w NA Y| |]; subst; [contradiction (HA eq_refl)|]. apply IH in Y. rewrite Y. reflexivity.
Qed.

Theorem decoded_yields a : agrees a.
Proof.
  induction a as [|b|x|s|l IH|m IH] using any_ind'; intros j HW HJ t; cbn [of_any] in HJ; unfold omap in HJ.
  - (* null *)
    injection HJ as <-. intros v HT HP HS. assert (forall n, t <> TStruct n) as NS by (intros n ->; discriminate HP).
    assert (dec JNull t (zero t) = Some (zero t)) as ->.
    { destruct t as [|b| | | |t|t|n]; try reflexivity. contradiction (NS n eq_refl). }
    split; [intros H; assert (v = zero t) as -> by congruence; apply yl_null; exact NS|].
    intros H. inversion H; subst; [reflexivity|congruence].
  - injection HJ as <-. induction t as [|bits| | | |t IHt|t IHt|n]; intros v HT HP HS;
      try (split; [intros H; discriminate H|intros H; inversion H]).
    + split; [intros H; injection H as <-; constructor|intros H; inversion H; subst; reflexivity].
    + revert v. apply ptr_iff; [discriminate|discriminate|]. intros v. destruct t as [| | | | |t|t|n]; try (apply IHt; assumption).
      split; [cbn [dec at_ty]; destruct (find_decl n); [destruct (zero (TStruct n)); discriminate|discriminate]|intros H; exfalso; revert H; apply never_struct; discriminate].
    + discriminate HP.
  - destruct HW as [W1 W2]. destruct (fmt_parse x W1 W2) as (s & Es & _ & Hp). rewrite Es in HJ. injection HJ as <-.
    assert (JN : forall u, json_number x u <-> u = s).
    { intros u. rewrite <- (PropsNumber.C100_json x u W1), Es. split; [congruence|intros ->; reflexivity]. }
    induction t as [|bits| | | |t IHt|t IHt|n]; intros v HT HP HS; try (split; [intros H; discriminate H|intros H; inversion H]).
    + cbn [dec at_ty]. unfold omap. split.
      * destruct (parse_int bits s) as [z|] eqn:EI; [|discriminate]. intros H. assert (v = VInt z) as -> by congruence. apply parse_int_text in EI. destruct EI.
        apply (yl_int bits x s z); [apply JN; reflexivity|assumption|assumption].
      * intros H. inversion H as [| | |? ? u z H1 H2 H3| | | | |]; subst. apply JN in H1. subst u. rewrite (proj2 (parse_int_text bits s z) (conj H2 H3)). reflexivity.
    + cbn [dec at_ty]. rewrite Hp. cbn [omap]. split; [intros H; assert (v = VF64 x) as -> by congruence; constructor|intros H; inversion H; subst; reflexivity].
    + revert v. apply ptr_iff; [discriminate|discriminate|]. intros v. destruct t as [| | | | |t|t|n]; try (apply IHt; assumption).
      split; [cbn [dec at_ty]; destruct (find_decl n); [destruct (zero (TStruct n)); discriminate|discriminate]|intros H; exfalso; revert H; apply never_struct; discriminate].
    + discriminate HP.
  - injection HJ as <-. induction t as [|bits| | | |t IHt|t IHt|n]; intros v HT HP HS; try (split; [intros H; discriminate H|intros H; inversion H]).
    + split; [intros H; injection H as <-; constructor|intros H; inversion H; subst; reflexivity].
    + cbn [dec at_ty]. unfold omap. split.
      * destruct (parse_rfc3339 s) as [z|] eqn:EI; [|discriminate]. intros H. assert (v = VTime z) as -> by congruence.
        apply C70_accepted_iff in EI. destruct EI. apply yl_time; assumption.
      * intros H. inversion H as [| | | | |? z H1 H2| | |]; subst. rewrite (proj2 (C70_accepted_iff _ z) (conj H1 H2)). reflexivity.
    + revert v. apply ptr_iff; [discriminate|discriminate|]. intros v. destruct t as [| | | | |t|t|n]; try (apply IHt; assumption).
      split; [cbn [dec at_ty]; destruct (find_decl n); [destruct (zero (TStruct n)); discriminate|discriminate]|intros H; exfalso; revert H; apply never_struct; discriminate].
    + discriminate HP.
  - destruct (oall (map of_any l)) as [js|] eqn:EO; [|discriminate]. injection HJ as <-. apply oall_map in EO. apply wf_any_arr in HW.
    induction t as [|bits| | | |t IHt|t IHt|n]; intros v HT HP HS; try (split; [intros H; discriminate H|intros H; inversion H]).
    + revert v. apply ptr_iff; [discriminate|discriminate|]. intros v. destruct t as [| | | | |t|t|n]; try (apply IHt; assumption).
      split; [cbn [dec at_ty]; destruct (find_decl n); [destruct (zero (TStruct n)); discriminate|discriminate]|intros H; exfalso; revert H; apply never_struct; discriminate].
    + clear IHt. cbn [dec at_ty]. change (zero (TSlice t)) with VNil. cbv iota. cbn [tyok pointed shallow] in HT, HP, HS.
      assert (HP' : pointed t = true) by exact HP.
      assert (G : forall vs, elems (fun c (dl : delayed) => dl t c) (zero t) [] (map dec js) = Some vs <-> Forall2 (yields t) l vs).
      { induction EO as [|a j l js E _ IHE]; intros vs; cbn [map elems hd tl].
        - split; [intros H; assert (vs = []) as -> by congruence; constructor|intros H; inversion H; reflexivity].
        - inversion HW as [|? ? W1 W2]; inversion IH as [|? ? I1 I2]; subst. specialize (IHE I2 W2). pose proof (fun v => I1 j W1 E t v HT HP' HS) as I1'. split.
          + intros H. destruct (dec j t (zero t)) as [w|] eqn:Ew; [|discriminate H]. 
            change (tl (@nil gval)) with (@nil gval) in H.
            destruct (elems (fun c (dl : delayed) => dl t c) (zero t) [] (map dec js)) as [ws|] eqn:EE; [|discriminate H]. assert (vs = w :: ws) as -> by congruence.
            constructor; [apply I1'; reflexivity|apply IHE; reflexivity].
          + intros H. inversion H as [|? w ? ws H1 H2]; subst. apply I1' in H1. rewrite H1. apply IHE in H2. rewrite H2. reflexivity. }
      unfold omap. split.
      * intros H. destruct (elems (fun c (dl : delayed) => dl t c) (zero t) [] (map dec js)) as [vs|] eqn:EE; [|discriminate H].
        assert (v = VSlice vs) as -> by congruence. apply yl_slice. apply G. reflexivity.
      * intros H. inversion H as [| | | | | | |t' l' vs HF|]; subst. apply G in HF. rewrite HF. reflexivity.
    + discriminate HP.
  - match type of HJ with match ?x with _ => _ end = _ => destruct x as [ms|] eqn:EO; [|discriminate] end.
    injection HJ as <-. apply oall_map in EO. apply wf_any_obj in HW. destruct HW as (W1 & _ & W2).
    assert (ST : forall n v, tyok (TStruct n) = true -> reflective n = false -> dec (JObj ms) (TStruct n) (zero (TStruct n)) = Some v <-> yields (TStruct n) (AObj m) v).
    { intros n v HT HR. cbn [tyok] in HT. destruct (find_decl n) as [d|] eqn:Hd; [|discriminate HT].
      apply (struct_iff n d m ms v Hd EO W1); [eapply Forall_impl; [|exact W2]; intros kv K; apply K|exact IH|intros d' m' fd k k' K; congruence]. }
    induction t as [|bits| | | |t IHt|t IHt|n]; intros v HT HP HS; try (split; [intros H; discriminate H|intros H; inversion H]).
    + revert v. apply ptr_iff; [discriminate|discriminate|]. intros v. destruct t as [| | | | |t|t|n]; try (apply IHt; assumption).
      apply ST; [exact HT|]. cbn [shallow] in HS. apply negb_true_iff in HS. exact HS.
    + discriminate HP.
Qed.

(** A whole message. *)
Theorem unmarshal_yields ty m text : wf_any (AObj m) -> marshal_any (AObj m) = Ok text -> unambiguous ty (AObj m) ->
  forall v, unmarshal_msg ty text = Some v <-> yields (TStruct ty) (AObj m) v.
Proof.
  intros HW HM HU v. destruct (of_any_ok (AObj m) HW) as (j & Ej & [C1 C2] & _). unfold marshal_any in HM. rewrite Ej in HM.
  assert (text = print j) as -> by congruence. unfold unmarshal_msg. rewrite (parse_print j C1), C2.
  destruct (find_decl ty) as [d|] eqn:Hd.
  - cbn [of_any] in Ej. unfold omap in Ej. match type of Ej with match ?x with _ => _ end = _ => destruct x as [ms|] eqn:EO; [|discriminate Ej] end.
    injection Ej as <-. apply oall_map in EO. apply wf_any_obj in HW. destruct HW as (W1 & _ & W2).
    apply (struct_iff ty d m ms v Hd EO W1); [eapply Forall_impl; [|exact W2]; intros kv K; apply K|apply Forall_forall; intros kv _; apply decoded_yields|exact HU].
  - split; [destruct j; cbn [dec at_ty]; rewrite Hd; discriminate|]. intros H. inversion H; subst; congruence.
Qed.
