(** What a received element means: the decoder against SpecTells.v. *)
From Coq Require Import Arith Lia.
From Verif Require Import GoBase Utf8 Json Float64 GoTime Lang Types Codec SpecCodec SpecEnc SpecSchema Xml SpecSoap Wsdl SpecWsdl SpecTime SpecTells.
From Verif Require Import Float64Proofs FloatInt AnyProofs EncProofs DecProofs DecTyped RoundTrip JsonText GoTimeProofs XmlProofs XmlTyped XmlWritten Soap SoapProofs WsdlRead WsdlSound.
From Verif Require PropsTime DoubleProofs.
Import DoubleProofs(trim_split, trim_whites, xml_float_spec).
Open Scope string_scope.
Open Scope list_scope.

(** ** Texts *)

Lemma int_tells b s z : xml_int b s = Some z -> whole_text s z /\ (- 2 ^ (b - 1) <= z < 2 ^ (b - 1))%Z \/ (s = "" /\ z = 0%Z).
Proof.
  unfold xml_int. destruct (String.eqb_spec s "") as [->|NE]; [intros H; right; split; congruence|]. intros H. left.
  destruct (trim_split s) as (l & r & E & S1 & S2). set (t := trim s) in *. clearbody t.
  assert (K : exists sign t', t = sign +++ t' /\ parse_int b (if String.eqb sign "+" then t' else t) = Some z /\
     ((sign = "+" /\ starts "-"%char t' = false) \/ (sign = "-" /\ starts "+"%char t = false) \/ (sign = "" /\ starts "+"%char t = false /\ starts "-"%char t = false))).
  { destruct (starts "+"%char t) eqn:EP.
    - destruct t as [|c t]; [discriminate EP|]. cbn [starts] in EP. apply Ascii.eqb_eq in EP. subst c. cbn [drop1] in H.
      destruct (starts "-"%char t) eqn:EM; [discriminate H|]. exists "+", t. split; [reflexivity|]. split; [exact H|]. auto.
    - destruct (starts "-"%char t) eqn:EM.
      + destruct t as [|c t]; [discriminate EM|]. pose proof EM as EM'. cbn [starts] in EM'. apply Ascii.eqb_eq in EM'. subst c. exists "-", t. split; [reflexivity|]. split; [exact H|]. auto.
      + exists "", t. split; [reflexivity|]. split; [exact H|]. auto 10. }
  destruct K as (sign & t' & ET & HP & HS).
  unfold parse_int in HP.
  assert (D : exists ds, t' = ds /\ str_forall is_digit ds = true /\ ds <> "" /\
     z = (if String.eqb sign "-" then - digits_val 0 ds else digits_val 0 ds)%Z /\ (- 2 ^ (b - 1) <= z < 2 ^ (b - 1))%Z).
  { exists t'. split; [reflexivity|].
    assert (G : forall (neg : bool) u, (if str_forall is_digit u && negb (String.eqb u "") then
        let v := if neg then (- digits_val 0 u)%Z else digits_val 0 u in if (- 2 ^ (b - 1) <=? v)%Z && (v <? 2 ^ (b - 1))%Z then Some v else None else None) = Some z ->
        str_forall is_digit u = true /\ u <> "" /\ z = (if neg then - digits_val 0 u else digits_val 0 u)%Z /\ (- 2 ^ (b - 1) <= z < 2 ^ (b - 1))%Z).
    { intros neg u HG. destruct (str_forall is_digit u) eqn:E1; [|discriminate HG]. destruct (String.eqb_spec u "") as [|E2]; [discriminate HG|].
      cbn [andb negb] in HG. cbv zeta in HG. set (v := if neg then (- digits_val 0 u)%Z else digits_val 0 u) in *.
      destruct ((- 2 ^ (b - 1) <=? v)%Z && (v <? 2 ^ (b - 1))%Z) eqn:E3; [|discriminate HG]. assert (v = z) as <- by congruence.
      apply andb_true_iff in E3. destruct E3 as [E3 E4]. apply Z.leb_le in E3. apply Z.ltb_lt in E4. auto. }
    destruct HS as [[-> HS]|[[-> HS]|(-> & HS & HS')]]; cbn [String.eqb Ascii.eqb Bool.eqb] in HP.
    - change (String.eqb "+" "-") with false. destruct t' as [|c t']; [exact (G false "" HP)|]. cbn [starts] in HS. rewrite Ascii.eqb_sym in HS. rewrite HS in HP. exact (G false (String c t') HP).
    - subst t. change (String.eqb "-" "-") with true. cbn [String.append] in HP. rewrite Ascii.eqb_refl in HP. exact (G true t' HP).
    - cbn [String.append] in ET. subst t. change (String.eqb "" "-") with false. destruct t' as [|c t']; [exact (G false "" HP)|]. cbn [starts] in HS'. rewrite Ascii.eqb_sym in HS'. rewrite HS' in HP. exact (G false (String c t') HP). }
  destruct D as (ds & -> & D1 & D2 & D3 & D4). split; [|exact D4]. right. exists l, sign, ds, r.
  split; [rewrite E, ET, sapp_assoc; reflexivity|]. split; [exact S1|]. split; [exact S2|]. split; [exact D1|]. split; [exact D2|].
  destruct HS as [[-> _]|[[-> _]|(-> & _)]]; cbn in D3; [left; auto|right; auto|left; auto].
Qed.

Lemma bool_tells s b : xml_bool s = Some b -> truth_text s b.
Proof.
  unfold xml_bool. destruct (String.eqb_spec s "") as [->|NE]; [intros H; left; split; congruence|]. intros H. right.
  destruct (trim_split s) as (l & r & E & S1 & S2). exists l, (trim s), r. split; [exact E|]. split; [exact S1|]. split; [exact S2|].
  destruct (strmem (trim s) ["1"; "t"; "T"; "true"; "TRUE"; "True"]) eqn:E1; [left; split; [congruence|apply strmem_In; exact E1]|].
  destruct (strmem (trim s) ["0"; "f"; "F"; "false"; "FALSE"; "False"]) eqn:E2; [right; split; [congruence|apply strmem_In; exact E2]|discriminate H].
Qed.

(** ... and the other way round. *)
Lemma digits_graphic s : str_forall is_digit s = true -> str_forall graphic s = true.
Proof.
  induction s as [|c s IH]; [reflexivity|]. cbn [str_forall]. rewrite !andb_true_iff. intros [A B]. split; [|auto].
  unfold is_digit, between in A. apply andb_true_iff in A. destruct A as [A1 A2]. apply N.leb_le in A1, A2. cbn in A1, A2. unfold graphic, between.
  rewrite ?andb_true_iff, ?orb_true_iff, ?N.leb_le, ?negb_true_iff. lia.
Qed.

Lemma tells_int b s z : (1 <= b)%Z -> whole_text s z -> (- 2 ^ (b - 1) <= z < 2 ^ (b - 1))%Z -> xml_int b s = Some z.
Proof.
  intros HB [[-> ->]|(l & sign & ds & r & -> & L & R & D & ND & HZ)] HR; [reflexivity|]. unfold xml_int.
  assert (G : forall t, str_forall graphic t = true -> t <> "" -> String.eqb (l +++ t +++ r) "" = false /\ trim (l +++ t +++ r) = t).
  { intros t GT NT. split; [|apply trim_whites; assumption]. destruct l; [|reflexivity]. destruct t; [destruct (NT eq_refl)|reflexivity]. }
  pose proof (digits_graphic _ D) as GD.
  destruct ds as [|c ds]; [contradiction (ND eq_refl)|]. pose proof D as D'. cbn [str_forall] in D. apply andb_true_iff in D. destruct D as [Dc _].
  assert (NP : forall x, is_digit x = false -> Ascii.eqb c x = false) by (intros x Hx; destruct (Ascii.eqb_spec c x); [congruence|reflexivity]).
  assert (PP : forall w, w = digits_val 0 (String c ds) -> (- 2 ^ (b - 1) <= w < 2 ^ (b - 1))%Z -> parse_int b (String c ds) = Some w).
  { intros w -> Hw. unfold parse_int. rewrite (NP "-"%char eq_refl). rewrite D'. cbn [String.eqb andb negb]. cbv zeta.
    assert ((- 2 ^ (b - 1) <=? digits_val 0 (String c ds))%Z = true) as -> by (apply Z.leb_le; lia).
    assert ((digits_val 0 (String c ds) <? 2 ^ (b - 1))%Z = true) as -> by (apply Z.ltb_lt; lia). reflexivity. }
  destruct HZ as [[[->| ->] ->]|[-> ->]].
  - change ("" +++ String c ds +++ r) with (String c ds +++ r). destruct (G (String c ds) GD ND) as [-> ->]. cbv zeta.
    cbn [starts]. rewrite Ascii.eqb_sym, (NP "+"%char eq_refl). auto.
  - change ("+" +++ String c ds +++ r) with (String "+" (String c ds) +++ r).
    destruct (G (String "+" (String c ds)) ltac:(cbn [str_forall] in *; rewrite GD; reflexivity) ltac:(discriminate)) as [-> ->]. cbv zeta.
    cbn [starts drop1]. rewrite Ascii.eqb_refl. rewrite Ascii.eqb_sym, (NP "-"%char eq_refl). auto.
  - change ("-" +++ String c ds +++ r) with (String "-" (String c ds) +++ r).
    destruct (G (String "-" (String c ds)) ltac:(cbn [str_forall] in *; rewrite GD; reflexivity) ltac:(discriminate)) as [-> ->]. cbv zeta.
    cbn [starts drop1]. change (Ascii.eqb "+" "-") with false. cbv iota.
    unfold parse_int. change (Ascii.eqb "-" "-") with true. cbv iota. rewrite D'. cbn [String.eqb andb negb]. cbv zeta.
    assert ((- 2 ^ (b - 1) <=? - digits_val 0 (String c ds))%Z = true) as -> by (apply Z.leb_le; lia).
    assert ((- digits_val 0 (String c ds) <? 2 ^ (b - 1))%Z = true) as -> by (apply Z.ltb_lt; lia). reflexivity.
Qed.

Lemma tells_bool s b : truth_text s b -> xml_bool s = Some b.
Proof.
  intros [[-> ->]|(l & t & r & -> & L & R & H)]; [reflexivity|]. unfold xml_bool.
  assert (G : str_forall graphic t = true -> t <> "" -> String.eqb (l +++ t +++ r) "" = false /\ trim (l +++ t +++ r) = t).
  { intros GT NT. split; [|apply trim_whites; assumption]. destruct l; [|reflexivity]. destruct t; [destruct (NT eq_refl)|reflexivity]. }
  destruct H as [[-> HI]|[-> HI]]; cbn [In] in HI;
  repeat (destruct HI as [<-|HI]; [destruct (G eq_refl ltac:(discriminate)) as [-> ->]; reflexivity|]); destruct HI.
Qed.

Lemma int_iff b s z : (1 <= b)%Z -> (xml_int b s = Some z <-> whole_text s z /\ (- 2 ^ (b - 1) <= z < 2 ^ (b - 1))%Z).
Proof.
  intros HB. split.
  - intros H. destruct (int_tells _ _ _ H) as [K|[-> ->]]; [exact K|]. split; [left; auto|].
    pose proof (Z.pow_pos_nonneg 2 (b - 1) ltac:(lia) ltac:(lia)). lia.
  - intros [H1 H2]. apply tells_int; assumption.
Qed.
Lemma bool_iff s b : xml_bool s = Some b <-> truth_text s b.
Proof. split; [apply bool_tells|apply tells_bool]. Qed.

(** ** Fields *)

(** Element fields of one type have different names; there is at most one field for
    the text. *)
Definition element_names (d : decl) : list string := map (fun f => x_name (f_xml f)) (filter (of_kind XElem) (d_fields d)).
Lemma tells_ok : forallb (fun d => nodupb (element_names d) && (length (filter (of_kind XChar) (d_fields d)) <=? 1)%nat &&
  forallb (fun f => negb (is_ty_struct (f_ty f)) && tyok (f_ty f)) (d_fields d)) all_decls = true.
Proof. vm_compute. reflexivity. Qed.

Lemma takes_meant d f k : is_element k = true -> of_kind XElem f = true -> takes d (space k, local k) f = meant d f k.
Proof.
  intros HE HK. unfold takes, meant, of_kind, field_ns, untagged in *. destruct (x_kind (f_xml f)); try discriminate HK. cbn [fst snd].
  rewrite (String.eqb_sym (x_name (f_xml f)) (local k)). f_equal. destruct (d_xml d) as [[ns nm]|]; [|reflexivity].
  destruct (String.eqb (x_name (f_xml f)) (f_name f)); [rewrite !orb_true_r; reflexivity|]. rewrite orb_false_r, (String.eqb_sym (space k) ns). apply orb_comm.
Qed.

Lemma element_unique d f g : NoDup (element_names d) -> In f (d_fields d) -> In g (d_fields d) -> of_kind XElem f = true -> of_kind XElem g = true ->
  x_name (f_xml f) = x_name (f_xml g) -> f = g.
Proof.
  intros HN Hf Hg Kf Kg E. apply (nodup_inj (fun f => x_name (f_xml f)) (filter (of_kind XElem) (d_fields d))); [exact HN|apply filter_In; auto|apply filter_In; auto|exact E].
Qed.

Lemma taker_meant d f k : In d all_decls -> NoDup (element_names d) -> In f (d_fields d) -> of_kind XElem f = true -> is_element k = true ->
  taker d f k = meant d f k.
Proof.
  intros HD HN Hf HK HE. unfold taker. rewrite <- (takes_meant d f k HE HK).
  destruct (find (takes d (space k, local k)) (d_fields d)) as [g|] eqn:EF.
  - apply find_some in EF. destruct EF as [Hg HT].
    assert (Kg : of_kind XElem g = true) by (unfold takes, of_kind in *; destruct (x_kind (f_xml g)); try discriminate HT; reflexivity).
    destruct (String.eqb_spec (f_name g) (f_name f)) as [E|NE].
    + assert (g = f) as -> by (apply (nodup_inj f_name (d_fields d)); auto; apply names_nodup; exact HD). symmetry. exact HT.
    + destruct (takes d (space k, local k) f) eqn:ET; [|reflexivity]. exfalso. apply NE. f_equal. apply (element_unique d); auto.
      unfold takes, of_kind in *. destruct (x_kind (f_xml g)); try discriminate HT. destruct (x_kind (f_xml f)); try discriminate HK.
      apply andb_true_iff in HT, ET. destruct HT as [HT _], ET as [ET _]. apply String.eqb_eq in HT, ET. congruence.
  - symmetry. exact (find_none _ _ EF f Hf).
Qed.

Lemma feed_app t l1 : forall l2 c, feed t (l1 ++ l2) c = match feed t l1 c with Some c' => feed t l2 c' | None => None end.
Proof. induction l1 as [|k l1 IH]; intros l2 c; [reflexivity|]. cbn [app feed]. destruct (xdec k t c); [apply IH|reflexivity]. Qed.

Lemma leaf_fresh k t c : is_element k = true -> leaf_type t = true -> has_type c t = true -> xdec k t c = xdec k t (zero t).
Proof.
  intros HE HL HC. destruct k as [ns nm at_ ks|s]; [|discriminate HE]. destruct t as [| | | | |t| |]; try discriminate HL; try reflexivity.
  destruct t; try discriminate HL; reflexivity.
Qed.

Lemma feed_typed t l : tyok t = true -> forall c v, has_type c t = true -> feed t l c = Some v -> has_type v t = true.
Proof.
  intros HK. induction l as [|k l IH]; intros c v HC H; cbn [feed] in H; [congruence|]. destruct (xdec k t c) as [w|] eqn:E; [|discriminate H].
  exact (IH w v (xdec_typed k t c w HK HC E) H).
Qed.

(** Each field of a decoded struct. *)
Lemma take_text_other d s fs f : In d all_decls -> In f (d_fields d) -> of_kind XChar f = false -> lookup (f_name f) (take_text d s fs) = lookup (f_name f) fs.
Proof.
  intros HD HF HK. unfold take_text. change (fun f0 => match x_kind (f_xml f0) with XChar => true | _ => false end) with (of_kind XChar).
  destruct (find (of_kind XChar) (d_fields d)) as [g|] eqn:E; [|reflexivity]. apply find_some in E. destruct E as [HG HK'].
  rewrite set_field_lookup. destruct (String.eqb_spec (f_name f) (f_name g)) as [E|NE]; [|reflexivity]. exfalso.
  assert (f = g) as -> by (apply (nodup_inj f_name (d_fields d)); auto; apply names_nodup; exact HD). congruence.
Qed.
Lemma take_text_own d s fs f : In d all_decls -> (length (filter (of_kind XChar) (d_fields d)) <= 1)%nat -> In f (d_fields d) -> of_kind XChar f = true ->
  lookup (f_name f) fs <> None -> lookup (f_name f) (take_text d s fs) = Some (VStr s).
Proof.
  intros HD HL HF HK HN. unfold take_text. change (fun f0 => match x_kind (f_xml f0) with XChar => true | _ => false end) with (of_kind XChar).
  assert (find (of_kind XChar) (d_fields d) = Some f) as ->.
  { revert HL HF. generalize (d_fields d). intros l. induction l as [|g l IH]; intros HL HF; [destruct HF|]. cbn [filter find] in *.
    destruct (of_kind XChar g) eqn:EG.
    - destruct HF as [->|HF]; [reflexivity|]. exfalso. cbn [length] in HL.
      assert (In f (filter (of_kind XChar) l)) as X by (apply filter_In; auto). destruct (filter (of_kind XChar) l); [destruct X|cbn [length] in HL; lia].
    - destruct HF as [->|HF]; [congruence|]. apply IH; assumption. }
  rewrite set_field_lookup, String.eqb_refl. destruct (lookup (f_name f) fs); [reflexivity|contradiction].
Qed.

Lemma take_kids_nonelem d f : In d all_decls -> In f (d_fields d) -> of_kind XElem f = false -> forall kids fs fs',
  take_kids d kids fs = Some fs' -> lookup (f_name f) fs' = lookup (f_name f) fs.
Proof.
  intros HD HF HK. induction kids as [|[el dl] r IH]; intros fs fs' H; cbn [take_kids] in H; [congruence|].
  destruct (find (takes d el) (d_fields d)) as [g|] eqn:EF; [|exact (IH _ _ H)].
  apply find_some in EF. destruct EF as [HG HT]. destruct (lookup (f_name g) fs) as [c|] eqn:EL; [|discriminate H].
  destruct (dl (f_ty g) c) as [v|]; [|discriminate H]. rewrite (IH _ _ H), set_field_lookup.
  destruct (String.eqb_spec (f_name f) (f_name g)) as [E|NE]; [|reflexivity]. exfalso.
  assert (f = g) as -> by (apply (nodup_inj f_name (d_fields d)); auto; apply names_nodup; exact HD).
  unfold takes, of_kind in *. destruct (x_kind (f_xml g)); discriminate.
Qed.

(** Several pieces of a nested sequence. *)
Definition plain_decl (d : decl) : bool :=
  forallb (fun f => match x_kind (f_xml f) with XElem | XSkip => true | _ => false end) (d_fields d) &&
  match d_xml d with None => true | Some _ => false end.
Definition shape (t : gty) : bool :=
  leaf_type t ||
  match t with
  | TSlice _ => true
  | TPtr (TStruct n) => match find_decl n with Some d => plain_decl d | None => false end
  | _ => false
  end.
Lemma shapes_ok : forallb (fun d => forallb (fun f => negb (of_kind XElem f) || shape (f_ty f)) (d_fields d)) all_decls = true.
Proof. vm_compute. reflexivity. Qed.

Fixpoint weight (x : xml) : nat :=
  match x with
  | XT _ => 1
  | XE _ _ _ ks => S (fold_right (fun k n => weight k + n)%nat 0%nat ks)
  end.
Definition weights (ks : list xml) : nat := fold_right (fun k n => weight k + n)%nat 0%nat ks.
Lemma weight_pos x : (1 <= weight x)%nat.
Proof. destruct x; cbn [weight]; lia. Qed.
Lemma weights_app a b : weights (a ++ b) = (weights a + weights b)%nat.
Proof. induction a as [|k a IH]; [reflexivity|]. cbn [app weights fold_right]. fold (weights (a ++ b)). fold (weights a). rewrite IH. lia. Qed.
Lemma weights_filter p ks : (weights (filter p ks) <= weights ks)%nat.
Proof. induction ks as [|k ks IH]; [reflexivity|]. cbn [filter weights fold_right] in *. fold (weights ks) in *. destruct (p k); cbn [weights fold_right]; fold (weights (filter p ks)); lia. Qed.
Lemma weights_in k ks : In k ks -> (weight k <= weights ks)%nat.
Proof. induction ks as [|j ks IH]; [intros []|]. cbn [weights fold_right]. fold (weights ks). intros [->|H]; [lia|]. specialize (IH H). lia. Qed.
Lemma weight_children x : is_element x = true -> weight x = S (weights (children x)).
Proof. destruct x; [reflexivity|discriminate]. Qed.
Lemma merged_weight ks : Forall (fun k => is_element k = true) ks -> ks <> [] -> (weight (merged ks) <= weights ks)%nat.
Proof.
  intros HE NE. destruct ks as [|k ks]; [contradiction (NE eq_refl)|]. inversion HE as [|? ? Hk HE']; subst. clear NE.
  unfold merged. cbn [weight]. fold (weights (flat_map children (k :: ks))). cbn [flat_map weights fold_right]. fold (weights ks). rewrite weights_app.
  rewrite (weight_children k Hk). enough (weights (flat_map children ks) <= weights ks)%nat by (cbn [plus]; lia).
  clear -HE'. induction HE' as [|j ks Hj _ IH]; [reflexivity|]. cbn [flat_map weights fold_right]. fold (weights ks). rewrite weights_app, (weight_children j Hj). lia.
Qed.

Lemma plain_attrs d a fs : plain_decl d = true -> take_attr d a fs = fs.
Proof.
  intros H. unfold plain_decl in H. apply andb_true_iff in H. destruct H as [H _]. unfold take_attr. revert fs.
  induction (d_fields d) as [|f l IH]; intros fs; [reflexivity|]. cbn [forallb fold_left] in *. apply andb_true_iff in H. destruct H as [H1 H2].
  destruct (x_kind (f_xml f)); try discriminate H1; apply (IH H2).
Qed.
Lemma plain_text d s fs : plain_decl d = true -> take_text d s fs = fs.
Proof.
  intros H. unfold plain_decl in H. apply andb_true_iff in H. destruct H as [H _]. unfold take_text.
  assert (find (fun f => match x_kind (f_xml f) with XChar => true | _ => false end) (d_fields d) = None) as ->; [|reflexivity].
  induction (d_fields d) as [|f l IH]; [reflexivity|]. cbn [forallb find] in *. apply andb_true_iff in H. destruct H as [H1 H2].
  destruct (x_kind (f_xml f)); try discriminate H1; apply (IH H2).
Qed.
Lemma plain_xdec x n d fs : find_decl n = Some d -> plain_decl d = true -> is_element x = true ->
  xdec x (TStruct n) (VStruct fs) = omap VStruct (take_kids d (slots (children x)) fs).
Proof.
  intros HD HP HE. destruct x as [ns nm at_ ks|s]; [|discriminate HE]. cbn [xdec xat]. rewrite HD.
  assert (xname_ok d (ns, nm) = true) as ->.
  { unfold plain_decl in HP. apply andb_true_iff in HP. destruct HP as [_ HP]. unfold xname_ok. destruct (d_xml d); [discriminate HP|reflexivity]. }
  assert (fold_left (fun fs a => take_attr d a fs) at_ fs = fs) as ->.
  { clear HE. induction at_ as [|a at_ IH]; [reflexivity|]. cbn [fold_left]. rewrite plain_attrs by exact HP. exact IH. }
  unfold omap. fold (slots ks). cbn [children]. change (flat_map _ ks) with (slots ks).
  destruct (take_kids d (slots ks) fs); [|reflexivity]. rewrite plain_text by exact HP. reflexivity.
Qed.
Lemma plain_feed n d : find_decl n = Some d -> plain_decl d = true -> forall ks fs, Forall (fun k => is_element k = true) ks ->
  feed (TStruct n) ks (VStruct fs) = omap VStruct (take_kids d (slots (flat_map children ks)) fs).
Proof.
  intros HD HP. induction ks as [|k ks IH]; intros fs HE; [reflexivity|]. inversion HE as [|? ? Hk HE']; subst. cbn [feed flat_map].
  rewrite (plain_xdec k n d fs HD HP Hk), slots_app, take_kids_app. destruct (take_kids d (slots (children k)) fs) as [fs1|]; [|reflexivity].
  cbn [omap]. exact (IH fs1 HE').
Qed.
Lemma ptr_feed t k ks : Forall (fun k => is_element k = true) (k :: ks) -> feed (TPtr t) (k :: ks) VNil = omap VPtr (feed t (k :: ks) (zero t)).
Proof.
  intros HE. inversion HE as [|? ? Hk HE']; subst. cbn [feed]. rewrite xdec_ptr by (rewrite elem_root by exact Hk; discriminate).
  destruct (xdec k t (zero t)) as [v|]; [|reflexivity]. cbn [omap]. clear k Hk HE. revert v HE'.
  induction ks as [|k ks IH]; intros v HE; [reflexivity|]. inversion HE as [|? ? Hk HE']; subst. cbn [feed].
  destruct k as [ns nm at_ kk|s]; [|discriminate Hk]. cbn [xdec xat]. unfold omap at 1.
  destruct (xat (ns, nm) at_ (text_of kk) _ t v) as [w|]; [|reflexivity]. exact (IH w HE').
Qed.
Lemma merged_feed n d ks : find_decl n = Some d -> plain_decl d = true -> ks <> [] -> Forall (fun k => is_element k = true) ks ->
  feed (TPtr (TStruct n)) ks VNil = omap VPtr (xdec (merged ks) (TStruct n) (zero (TStruct n))).
Proof.
  intros HD HP NE HE. destruct ks as [|k ks]; [contradiction (NE eq_refl)|]. rewrite (ptr_feed _ k ks HE). f_equal.
  cbn [zero]. unfold zero_struct. rewrite HD. rewrite (plain_feed n d HD HP _ _ HE). rewrite (plain_xdec (merged (k :: ks)) n d _ HD HP eq_refl). reflexivity.
Qed.

(** ** Whole elements *)

Lemma same_fields {A} (a b : list (string * A)) : map fst a = map fst b -> NoDup (map fst a) ->
  (forall k, In k (map fst a) -> lookup k a = lookup k b) -> a = b.
Proof.
  revert b. induction a as [|[k v] a IH]; intros [|[k' v'] b] E ND H; try discriminate E; [reflexivity|].
  cbn [map fst] in *. injection E as <- E. inversion ND as [|? ? N1 N2]; subst.
  pose proof (H k (or_introl eq_refl)) as H0. cbn [lookup] in H0. rewrite String.eqb_refl in H0. assert (v = v') as <- by congruence. f_equal.
  apply IH; [exact E|exact N2|]. intros j Hj. specialize (H j (or_intror Hj)). cbn [lookup] in H.
  destruct (String.eqb_spec j k) as [E'|]; [exfalso; apply N1; rewrite <- E'; exact Hj|exact H].
Qed.
Lemma forall2_named {B} (P : field -> string * B -> Prop) ds fs : Forall2 P ds fs -> (forall fd kv, P fd kv -> fst kv = f_name fd) ->
  NoDup (map f_name ds) -> map fst fs = map f_name ds /\
  forall fd, In fd ds -> exists v, lookup (f_name fd) fs = Some v /\ P fd (f_name fd, v).
Proof.
  intros HF HP. induction HF as [|fd [k v] ds fs H HF IH]; intros ND; [split; [reflexivity|intros fd []]|].
  cbn [map fst] in *. inversion ND as [|? ? N1 N2]; subst. destruct (IH N2) as [I1 I2]. pose proof (HP _ _ H) as E. cbn [fst] in E. subst k.
  split; [congruence|]. intros fd' [<-|HI].
  - exists v. cbn [lookup]. rewrite String.eqb_refl. auto.
  - destruct (I2 fd' HI) as (w & W1 & W2). exists w. split; [|exact W2]. cbn [lookup].
    destruct (String.eqb_spec (f_name fd') (f_name fd)) as [E|]; [|exact W1]. exfalso. apply N1. rewrite <- E. apply in_map. exact HI.
Qed.
Lemma named_forall2 {B} (P : field -> string * B -> Prop) ds fs : map fst fs = map f_name ds -> NoDup (map f_name ds) ->
  (forall fd v, In fd ds -> lookup (f_name fd) fs = Some v -> P fd (f_name fd, v)) -> Forall2 P ds fs.
Proof.
  revert fs. induction ds as [|fd ds IH]; intros [|[k v] fs] E ND H; try discriminate E; constructor.
  - cbn [map fst] in E. injection E as -> E. apply H; [left; reflexivity|]. cbn [lookup]. rewrite String.eqb_refl. reflexivity.
  - cbn [map fst] in E. injection E as -> E. cbn [map] in ND. inversion ND as [|? ? N1 N2]; subst. apply IH; [exact E|exact N2|].
    intros fd' w HI HL. apply H; [right; exact HI|]. cbn [lookup]. destruct (String.eqb_spec (f_name fd') (f_name fd)) as [E'|]; [|exact HL].
    exfalso. apply N1. rewrite <- E'. apply in_map. exact HI.
Qed.

Definition decides (x : xml) : Prop := forall t v, tyok t = true -> (xdec x t (zero t) = Some v <-> tells t x v).

Lemma given_feed t ks : tyok t = true -> shape t = true -> Forall (fun k => is_element k = true) ks -> Forall decides ks ->
  (ks <> [] -> decides (merged ks)) -> forall u, feed t ks (zero t) = Some u <-> given t ks u.
Proof.
  intros HT HS HE HD HM u. rewrite Forall_forall in HD. split.
  - intros H. destruct ks as [|k0 ks0]; [cbn [feed] in H; assert (zero t = u) as <- by congruence; apply gv_none|].
    set (ks := k0 :: ks0) in *. assert (NE : ks <> []) by discriminate. clearbody ks. clear k0 ks0.
    destruct (leaf_type t) eqn:EL.
    + destruct (exists_last NE) as (l & k & EK). 
      assert (G : forall l, incl l ks -> forall c w, has_type c t = true -> feed t l c = Some w -> has_type w t = true /\ forall k', In k' l -> exists z, xdec k' t (zero t) = Some z).
      { rewrite Forall_forall in HE. clear -EL HT HE. induction l as [|k' l IH]; intros HI c w HC HF; cbn [feed] in HF; [split; [congruence|intros ? []]|].
        assert (Hk : is_element k' = true) by (apply HE; apply HI; left; reflexivity).
        destruct (xdec k' t c) as [z|] eqn:EZ; [|discriminate HF]. pose proof (xdec_typed k' t c z HT HC EZ) as HZ.
        destruct (IH (fun x Hx => HI x (or_intror Hx)) z w HZ HF) as [I1 I2]. split; [exact I1|]. intros k2 [<-|H2]; [|auto]. exists z. rewrite <- EZ. symmetry. apply leaf_fresh; assumption. }
      rewrite EK in H. rewrite feed_app in H. destruct (feed t l (zero t)) as [c|] eqn:EF; [|discriminate H].
      assert (HI : incl l ks) by (rewrite EK; apply incl_appl, incl_refl). destruct (G l HI _ _ (zero_typed t HT) EF) as [HC G2].
      assert (Kk : In k ks) by (rewrite EK; apply in_or_app; right; left; reflexivity).
      cbn [feed] in H. rewrite Forall_forall in HE. rewrite (leaf_fresh k t c (HE k Kk) EL HC) in H.
      destruct (xdec k t (zero t)) as [w|] eqn:EW; [|discriminate H]. assert (w = u) as -> by congruence.
      rewrite EK. apply gv_last; [exact EL| |apply (HD k Kk); assumption].
      intros k' Hk'. destruct (G2 k' Hk') as [z Hz]. exists z. apply (HD k' (HI k' Hk')); assumption.
    + destruct t as [| | | | |t|t|n]; try discriminate EL; try discriminate HS.
      * unfold shape in HS. rewrite EL in HS. cbn [orb] in HS. destruct t as [| | | | | | |n]; try discriminate HS. destruct (find_decl n) as [d|] eqn:ED; [|discriminate HS].
        change (zero (TPtr (TStruct n))) with VNil in H. rewrite (merged_feed n d ks ED HS NE HE) in H. unfold omap in H.
        destruct (xdec (merged ks) (TStruct n) (zero (TStruct n))) as [w|] eqn:EW; [|discriminate H]. assert (u = VPtr w) as -> by congruence.
        apply gv_struct; [exact NE|]. apply (HM NE); [exact HT|exact EW].
      * change (zero (TSlice t)) with VNil in H. destruct ks as [|k l]; [contradiction|]. rewrite feed_slice_nil in H by (inversion HE; assumption).
        destruct (feed_slice_sound t _ _ _ HE H) as (us & -> & UF). apply gv_list; [exact NE|]. cbn [app].
        eapply forall2_impl_in; [exact UF|]. intros k' u' Hk' HX'. apply (HD k' Hk'); [exact HT|exact HX'].
  - intros H. destruct H as [t|t l k v HL HO Hk|t ks vs NE HF|n ks v NE Hm].
    + reflexivity.
    + assert (G : forall l, (forall k', In k' l -> is_element k' = true /\ exists z, xdec k' t (zero t) = Some z) -> forall c, has_type c t = true -> exists w, feed t l c = Some w /\ has_type w t = true).
      { clear -HT HL. induction l as [|k' l IH]; intros HO c HC; [exists c; auto|]. cbn [feed]. destruct (HO k' (or_introl eq_refl)) as (Hk & z & Hz).
        rewrite (leaf_fresh k' t c Hk HL HC), Hz. apply IH; [intros k2 H2; apply HO; right; exact H2|]. exact (xdec_typed k' t _ z HT (zero_typed t HT) Hz). }
      rewrite Forall_forall in HE. rewrite feed_app. destruct (G l) with (c := zero t) as (w & -> & HW).
      { intros k' Hk'. assert (In k' (l ++ [k])) as I by (apply in_or_app; left; exact Hk'). split; [exact (HE k' I)|]. destruct (HO k' Hk') as [z Hz]. exists z. apply (HD k' I); assumption. }
      { apply zero_typed. exact HT. }
      assert (In k (l ++ [k])) as I by (apply in_or_app; right; left; reflexivity).
      cbn [feed]. rewrite (leaf_fresh k t w (HE k I) HL HW). rewrite (proj2 (HD k I t v HT) Hk). reflexivity.
    + change (zero (TSlice t)) with VNil. destruct ks as [|k l]; [contradiction (NE eq_refl)|]. rewrite feed_slice_nil by (inversion HE; assumption).
      assert (HF' : Forall2 (fun k u => xdec k t (zero t) = Some u) (k :: l) vs).
      { eapply forall2_impl_in; [exact HF|]. intros k' u' Hk' HX'. apply (HD k' Hk'); [exact HT|exact HX']. }
      destruct (feed_slice t (k :: l) [] HE) with (P := fun k u => xdec k t (zero t) = Some u) as (us & U1 & U2).
      { clear -HF'. induction HF' as [|a b la lb H _ IH]; constructor; [eauto|exact IH]. }
      { apply Forall_forall. auto. }
      rewrite U2. cbn [app]. assert (us = vs) as ->; [|reflexivity]. clear -U1 HF'. revert vs HF'.
      induction U1 as [|a b la lb H _ IH]; intros vs HF'; inversion HF'; subst; [reflexivity|]. f_equal; [congruence|auto].
    + unfold shape in HS. cbn [leaf_type orb] in HS. destruct (find_decl n) as [d|] eqn:ED; [|discriminate HS].
      change (zero (TPtr (TStruct n))) with VNil. rewrite (merged_feed n d ks ED HS NE HE). rewrite (proj2 (HM NE (TStruct n) v HT) Hm). reflexivity.
Qed.

Lemma take_kids_keys d ks : forall fs fs', take_kids d ks fs = Some fs' -> map fst fs' = map fst fs.
Proof.
  induction ks as [|[el dl] ks IH]; intros fs fs' H; cbn [take_kids] in H; [congruence|].
  destruct (find (takes d el) (d_fields d)) as [f|]; [|exact (IH _ _ H)]. destruct (lookup (f_name f) fs) as [c|]; [|discriminate H].
  destruct (dl (f_ty f) c) as [w|]; [|discriminate H]. rewrite (IH _ _ H). apply set_field_keys.
Qed.
Lemma take_attr_keys d a fs : map fst (take_attr d a fs) = map fst fs.
Proof.
  unfold take_attr. revert fs. induction (d_fields d) as [|f l IH]; intros fs; [reflexivity|]. cbn [fold_left]. rewrite IH.
  destruct (x_kind (f_xml f)); try reflexivity. destruct (String.eqb _ _); [|reflexivity]. apply set_field_keys.
Qed.

Theorem decoded_iff : forall N x, (weight x < N)%nat -> is_element x = true -> decides x.
Proof.
  induction N as [|N IHN]; intros x HN HE; [lia|]. intros t. induction t as [|bits| | | |t IHt|t IHt|n]; intros v HK.
  - destruct x as [ns nm at_ ks|s]; [|discriminate HE]. cbn [xdec xat]. split.
    + intros H. assert (v = VStr (text_of ks)) as -> by congruence. exact (tl_str (XE ns nm at_ ks)).
    + intros H. inversion H; subst. reflexivity.
  - cbn [tyok] in HK. apply Z.leb_le in HK. assert (X : xdec x (TInt bits) (zero (TInt bits)) = omap VInt (xml_int bits (chars x))) by (destruct x; [reflexivity|discriminate HE]).
    rewrite X. unfold omap. split.
    + destruct (xml_int bits (chars x)) as [z|] eqn:EI; [|discriminate]. intros H. assert (v = VInt z) as -> by congruence.
      apply int_iff in EI; [|exact HK]. destruct EI. apply tl_int; assumption.
    + intros H. inversion H as [|? ? z H1 H2| | | | | |]; subst. rewrite (proj2 (int_iff bits _ z HK) (conj H1 H2)). reflexivity.
  - assert (X : xdec x TF64 (zero TF64) = omap VF64 (xml_float (chars x))) by (destruct x; [reflexivity|discriminate HE]).
    rewrite X. unfold omap. split.
    + destruct (xml_float (chars x)) as [z|] eqn:EI; [|discriminate]. intros H. assert (v = VF64 z) as -> by congruence. apply tl_f64, xml_float_spec. exact EI.
    + intros H. inversion H as [| |? z H1| | | | |]; subst. rewrite (proj2 (xml_float_spec _ z) H1). reflexivity.
  - assert (X : xdec x TBool (zero TBool) = omap VBool (xml_bool (chars x))) by (destruct x; [reflexivity|discriminate HE]).
    rewrite X. unfold omap. split.
    + destruct (xml_bool (chars x)) as [z|] eqn:EI; [|discriminate]. intros H. assert (v = VBool z) as -> by congruence. apply tl_bool, bool_iff. exact EI.
    + intros H. inversion H as [| | |? z H1| | | |]; subst. rewrite (proj2 (bool_iff _ z) H1). reflexivity.
  - assert (X : xdec x TTime (zero TTime) = omap VTime (parse_rfc3339 (chars x))) by (destruct x; [reflexivity|discriminate HE]).
    rewrite X. unfold omap. split.
    + destruct (parse_rfc3339 (chars x)) as [z|] eqn:EI; [|discriminate]. intros H. assert (v = VTime z) as -> by congruence.
      apply PropsTime.C70_accepted_iff in EI. destruct EI. apply tl_time; assumption.
    + intros H. inversion H as [| | | |? z H1 H2| | |]; subst. rewrite (proj2 (PropsTime.C70_accepted_iff _ z) (conj H1 H2)). reflexivity.
  - change (zero (TPtr t)) with VNil. rewrite xdec_ptr by (rewrite elem_root by exact HE; discriminate). unfold omap. split.
    + destruct (xdec x t (zero t)) as [w|] eqn:EW; [|discriminate]. intros H. assert (v = VPtr w) as -> by congruence. apply tl_ptr, IHt; [exact HK|reflexivity].
    + intros H. inversion H as [| | | | |? ? w H1| |]; subst. apply IHt in H1; [|exact HK]. rewrite H1. reflexivity.
  - change (zero (TSlice t)) with VNil. rewrite xdec_slice by (rewrite elem_root by exact HE; discriminate). unfold omap. split.
    + destruct (xdec x t (zero t)) as [w|] eqn:EW; [|discriminate]. intros H. assert (v = VSlice [w]) as -> by (cbn [app] in H; congruence). apply tl_slice, IHt; [exact HK|reflexivity].
    + intros H. inversion H as [| | | | | |? ? w H1|]; subst. apply IHt in H1; [|exact HK]. rewrite H1. reflexivity.
  - cbn [tyok] in HK. destruct (find_decl n) as [d|] eqn:ED; [|discriminate HK]. pose proof (find_decl_in _ _ ED) as [HD _].
    rewrite (xdec_struct x n d ED HE). rewrite slots_elements.
    pose proof tells_ok as TO. rewrite forallb_forall in TO. specialize (TO d HD). rewrite !andb_true_iff in TO. destruct TO as [[T1 T2] T3].
    apply nodupb_spec in T1. apply Nat.leb_le in T2. rewrite forallb_forall in T3.
    pose proof shapes_ok as SO. rewrite forallb_forall in SO. specialize (SO d HD). rewrite forallb_forall in SO.
    pose proof (names_nodup d HD) as NDn.
    set (at_ := match x with XE _ _ a _ => a | XT _ => [] end).
    assert (HA : forall nm, attribute nm x = fold_left (fun r (a : string * string * string) => if String.eqb (snd (fst a)) nm then snd a else r) at_ "") by (destruct x; reflexivity).
    set (fs0 := fold_left (fun fs a => take_attr d a fs) at_ (map (fun f => (f_name f, zero0 (f_ty f))) (d_fields d))) in *.
    set (es := elements (children x)) in *.
    assert (EA : Forall (fun k => is_element k = true) es) by apply elements_all.
    assert (WE : (weights es < weight x)%nat) by (rewrite (weight_children x HE); pose proof (weights_filter is_element (children x)); unfold es, elements; lia).
    assert (KEY0 : map fst fs0 = map f_name (d_fields d)).
    { unfold fs0. clear. revert at_. assert (G : forall l fs, map fst (fold_left (fun fs a => take_attr d a fs) l fs) = map fst fs).
      { induction l as [|a l IH]; intros fs; [reflexivity|]. cbn [fold_left]. rewrite IH. apply take_attr_keys. }
      intros at_. rewrite G, map_map. apply map_ext. reflexivity. }
    assert (Z0 : forall f, In f (d_fields d) -> zero (f_ty f) = zero0 (f_ty f)).
    { intros f Hf. apply zero_zero0. specialize (T3 f Hf). apply andb_true_iff in T3. destruct T3 as [T3 _]. apply negb_true_iff in T3. exact T3. }
    assert (L0 : forall f, In f (d_fields d) -> of_kind XAttr f = false -> lookup (f_name f) fs0 = Some (zero (f_ty f))).
    { intros f Hf Hn. unfold fs0. rewrite take_attr_nonattr by assumption. rewrite zero_fields by assumption. rewrite Z0 by exact Hf. reflexivity. }
    assert (LA : forall f, In f (d_fields d) -> x_kind (f_xml f) = XAttr -> lookup (f_name f) fs0 = Some (VStr (attribute (x_name (f_xml f)) x))).
    { intros f Hf Kf. unfold fs0. rewrite HA. apply (attrs_read d f HD Hf Kf). rewrite zero_fields by assumption. rewrite (text_field d f HD Hf (or_introl Kf)). reflexivity. }
    assert (NT : forall f, In f (d_fields d) -> of_kind XElem f = false -> filter (taker d f) es = []).
    { intros f Hf Kf. rewrite (filter_ext_in (taker d f) (fun _ => false)); [clear; induction es; auto|]. intros k _. unfold taker.
      destruct (find (takes d (space k, local k)) (d_fields d)) as [g|] eqn:EF; [|reflexivity]. apply find_some in EF. destruct EF as [Hg HT].
      destruct (String.eqb_spec (f_name g) (f_name f)) as [E|]; [|reflexivity]. exfalso.
      assert (g = f) as -> by (apply (nodup_inj f_name (d_fields d)); auto). unfold takes, of_kind in *. destruct (x_kind (f_xml f)); discriminate. }
    assert (TM : forall f, In f (d_fields d) -> of_kind XElem f = true -> filter (taker d f) es = filter (meant d f) es).
    { intros f Hf Kf. apply filter_ext_in. intros k Hk. rewrite Forall_forall in EA. apply taker_meant; auto. }
    assert (GF : forall f, In f (d_fields d) -> of_kind XElem f = true -> forall u, feed (f_ty f) (filter (taker d f) es) (zero (f_ty f)) = Some u <-> given (f_ty f) (filter (meant d f) es) u).
    { intros f Hf Kf u. rewrite (TM f Hf Kf). pose proof (weights_filter (meant d f) es) as WF.
      assert (EF : Forall (fun k => is_element k = true) (filter (meant d f) es)).
      { apply Forall_forall. intros k Hk. apply filter_In in Hk. rewrite Forall_forall in EA. apply EA. tauto. }
      apply given_feed.
      - specialize (T3 f Hf). apply andb_true_iff in T3. tauto.
      - specialize (SO f Hf). rewrite Kf in SO. exact SO.
      - exact EF.
      - apply Forall_forall. intros k Hk. rewrite Forall_forall in EF. apply IHN; [pose proof (weights_in k _ Hk); lia|exact (EF k Hk)].
      - intros NE. pose proof (merged_weight _ EF NE). apply IHN; [lia|]. destruct (filter (meant d f) es); [contradiction (NE eq_refl)|reflexivity]. }
    assert (OK : forall f, of_kind XElem f = true <-> x_kind (f_xml f) = XElem) by (intros f; unfold of_kind; destruct (x_kind (f_xml f)); split; congruence).
    assert (NM : xname_ok d (space x, local x) = true <-> (forall ns nm, d_xml d = Some (ns, nm) -> local x = nm /\ (ns <> "" -> space x = ns))).
    { unfold xname_ok. cbn [fst snd]. destruct (d_xml d) as [[ns nm]|]; [|split; [discriminate|reflexivity]]. split.
      - intros H ns' nm' EX. assert (ns' = ns /\ nm' = nm) as [-> ->] by (split; congruence). apply andb_true_iff in H. destruct H as [H1 H2]. apply String.eqb_eq in H1. split; [congruence|].
        intros NZ. apply orb_true_iff in H2. destruct H2 as [H2|H2]; apply String.eqb_eq in H2; congruence.
      - intros H. destruct (H ns nm eq_refl) as [H1 H2]. apply andb_true_iff. split; [apply String.eqb_eq; congruence|]. destruct (String.eqb_spec ns "") as [|NZ]; [reflexivity|]. apply String.eqb_eq. rewrite (H2 NZ). reflexivity. }
    (* the fields of the result, when there is one *)
    assert (RES : forall fs1, take_kids d (slots es) fs0 = Some fs1 -> map fst (take_text d (chars x) fs1) = map f_name (d_fields d) /\
      forall fd, In fd (d_fields d) -> exists u, lookup (f_name fd) (take_text d (chars x) fs1) = Some u /\
        (x_kind (f_xml fd) = XAttr -> u = VStr (attribute (x_name (f_xml fd)) x)) /\
        (x_kind (f_xml fd) = XChar -> u = VStr (chars x)) /\
        (x_kind (f_xml fd) = XSkip -> u = zero (f_ty fd)) /\
        (x_kind (f_xml fd) = XElem -> given (f_ty fd) (filter (meant d fd) es) u)).
    { intros fs1 EK. split.
      - unfold take_text. rewrite <- KEY0, <- (take_kids_keys d _ _ _ EK). destruct (find _ _); [apply set_field_keys|reflexivity].
      - intros fd Hf. destruct (x_kind (f_xml fd)) eqn:Kd.
        + assert (K1 : of_kind XChar fd = false) by (unfold of_kind; rewrite Kd; reflexivity). assert (K2 : of_kind XElem fd = true) by (unfold of_kind; rewrite Kd; reflexivity).
          assert (K3 : of_kind XAttr fd = false) by (unfold of_kind; rewrite Kd; reflexivity).
          destruct (take_kids_sound d HD _ _ _ EA EK fd _ Hf (L0 fd Hf K3)) as (u & U1 & U2). exists u.
          rewrite (take_text_other d _ _ fd HD Hf K1). split; [exact U1|]. do 3 (split; [discriminate|]). intros _. apply GF; assumption.
        + assert (K1 : of_kind XChar fd = false) by (unfold of_kind; rewrite Kd; reflexivity). assert (K2 : of_kind XElem fd = false) by (unfold of_kind; rewrite Kd; reflexivity).
          eexists. rewrite (take_text_other d _ _ fd HD Hf K1), (take_kids_nonelem d fd HD Hf K2 _ _ _ EK). split; [exact (LA fd Hf Kd)|]. split; [reflexivity|]. split; [discriminate|]. split; discriminate.
        + assert (K1 : of_kind XChar fd = true) by (unfold of_kind; rewrite Kd; reflexivity). assert (K2 : of_kind XElem fd = false) by (unfold of_kind; rewrite Kd; reflexivity).
          assert (K3 : of_kind XAttr fd = false) by (unfold of_kind; rewrite Kd; reflexivity).
          exists (VStr (chars x)). split; [|split; [discriminate|split; [reflexivity|split; discriminate]]]. apply (take_text_own d _ _ fd HD T2 Hf K1).
          rewrite (take_kids_nonelem d fd HD Hf K2 _ _ _ EK), (L0 fd Hf K3). discriminate.
        + assert (K1 : of_kind XChar fd = false) by (unfold of_kind; rewrite Kd; reflexivity). assert (K2 : of_kind XElem fd = false) by (unfold of_kind; rewrite Kd; reflexivity).
          assert (K3 : of_kind XAttr fd = false) by (unfold of_kind; rewrite Kd; reflexivity).
          exists (zero (f_ty fd)). rewrite (take_text_other d _ _ fd HD Hf K1), (take_kids_nonelem d fd HD Hf K2 _ _ _ EK). split; [exact (L0 fd Hf K3)|]. split; [discriminate|]. split; [discriminate|]. split; [reflexivity|discriminate]. }
    split.
    + destruct (xname_ok d (space x, local x)) eqn:EN; [|discriminate]. unfold omap.
      destruct (take_kids d (slots es) fs0) as [fs1|] eqn:EK; [|discriminate]. intros H. assert (v = VStruct (take_text d (chars x) fs1)) as -> by congruence. clear H.
      destruct (RES fs1 eq_refl) as [R1 R2]. apply (tl_struct n d); [exact ED|apply NM; reflexivity|].
      apply named_forall2; [exact R1|exact NDn|]. intros fd u Hf HL. destruct (R2 fd Hf) as (u' & U1 & U2). assert (u' = u) as -> by congruence.
      cbn [fst snd]. split; [reflexivity|exact U2].
    + intros H. inversion H as [| | | | | | |n' d' x' fs Hd' HX HF]; subst. assert (d' = d) as -> by congruence. rewrite (proj2 NM HX).
      destruct (forall2_named _ _ _ HF (fun fd kv P => proj1 P) NDn) as [F1 F2]. fold es in F2.
      destruct (take_kids_spec d HD es fs0 EA) as (fs1 & EK & _).
      { intros f Hf. destruct (of_kind XElem f) eqn:Kf.
        - destruct (F2 f Hf) as (u & _ & _ & _ & _ & _ & U). cbn [snd] in U. exists (zero (f_ty f)), u. split; [apply L0; [exact Hf|]|apply (GF f Hf Kf); apply U; apply OK; exact Kf].
          apply OK in Kf. unfold of_kind. rewrite Kf. reflexivity.
        - rewrite (NT f Hf Kf). cbn [feed]. assert (exists c, lookup (f_name f) fs0 = Some c) as [c Hc]; [|exists c, c; auto].
          destruct (of_kind XAttr f) eqn:Ka; [|eexists; apply L0; assumption]. eexists. apply LA; [exact Hf|]. unfold of_kind in Ka. destruct (x_kind (f_xml f)); congruence. }
      rewrite EK. cbn [omap]. f_equal. f_equal. destruct (RES fs1 EK) as [R1 R2]. apply same_fields; [congruence|rewrite R1; exact NDn|].
      intros k Hk. rewrite R1 in Hk. apply in_map_iff in Hk. destruct Hk as (fd & <- & Hf). destruct (R2 fd Hf) as (u & U1 & V1 & V2 & V3 & V4).
      destruct (F2 fd Hf) as (w & W1 & _ & Y1 & Y2 & Y3 & Y4). cbn [snd] in Y1, Y2, Y3, Y4. rewrite U1, W1. f_equal. destruct (x_kind (f_xml fd)) eqn:Kd.
      * pose proof (proj2 (OK fd) Kd) as Ke. pose proof (proj2 (GF fd Hf Ke u) (V4 eq_refl)) as Gu. pose proof (proj2 (GF fd Hf Ke w) (Y4 eq_refl)) as Gw. congruence.
      * rewrite (V1 eq_refl), (Y1 eq_refl). reflexivity.
      * rewrite (V2 eq_refl), (Y2 eq_refl). reflexivity.
      * rewrite (V3 eq_refl), (Y3 eq_refl). reflexivity.
Qed.

Theorem decoded_tells x t v : tyok t = true -> is_element x = true -> (xdec x t (zero t) = Some v <-> tells t x v).
Proof. intros HT HE. exact (decoded_iff (S (weight x)) x (Nat.lt_succ_diag_r _) HE t v HT). Qed.
