(** Reading messages as described (C68). *)
From Coq Require Import Arith Lia.
From Verif Require Import GoBase Utf8 Json Float64 GoTime Lang Types Codec SpecCodec SpecSchema Xml SpecSoap Wsdl SpecWsdl.
From Verif Require Import Float64Proofs FloatInt AnyProofs EncProofs DecProofs RoundTrip JsonText XmlProofs XmlTyped Soap SoapProofs.
Open Scope string_scope.
Open Scope list_scope.

(** ** White space *)

Definition xspaces (s : string) : Prop := str_forall xspace s = true.
Definition solid (s : string) : Prop := str_forall graphic s = true.

Lemma blank_spaces s : blank s -> xspaces s.
Proof.
  unfold blank, xspaces. induction s as [|c s IH]; [reflexivity|]. cbn [str_forall]. rewrite !andb_true_iff.
  intros [A B]. split; [|auto]. unfold xspace, between.
  repeat rewrite orb_true_iff in A. rewrite !N.eqb_eq in A.
  destruct A as [[[A|A]|A]|A]; rewrite A; reflexivity.
Qed.

Lemma trim_spaces l s r : xspaces l -> solid s -> s <> "" -> xspaces r -> trim (l +++ s +++ r) = s.
Proof. exact (XmlProofs.trim_spaces l s r). Qed.
Lemma solid_app a b : solid a -> solid b -> solid (a +++ b).
Proof.
  unfold solid. induction a as [|c a IH]; [auto|]. change (String c a +++ b) with (String c (a +++ b)). cbn [str_forall].
  rewrite !andb_true_iff. intros [A B] H. split; [exact A|auto].
Qed.
Lemma digits_solid s : str_forall is_digit s = true -> solid s.
Proof.
  unfold solid. induction s as [|c s IH]; [reflexivity|]. cbn [str_forall]. rewrite !andb_true_iff.
  intros [A B]. split; [|auto]. unfold is_digit, between in A. unfold graphic.
  rewrite andb_true_iff, !N.leb_le in A. rewrite andb_true_iff, N.leb_le, N.ltb_lt. lia.
Qed.

Lemma app_ne l s r : s <> "" -> (l +++ s +++ r =? "") = false.
Proof. intros H. destruct l; [|reflexivity]. destruct s; [destruct (H eq_refl)|reflexivity]. Qed.

Lemma digit_head c s : is_digit c = true -> starts "+" (String c s) = false /\ starts "-" (String c s) = false /\ Ascii.eqb c "-" = false.
Proof.
  intros H. unfold starts. unfold is_digit, between in H. rewrite andb_true_iff, !N.leb_le in H.
  repeat split; apply Ascii.eqb_neq; intros E; subst c; try rewrite <- E in H; vm_compute in H; destruct H; congruence.
Qed.

Lemma parse_digits bits ds : str_forall is_digit ds = true -> ds <> "" ->
  (- 2 ^ (bits - 1) <= digits_val 0 ds < 2 ^ (bits - 1))%Z -> parse_int bits ds = Some (digits_val 0 ds).
Proof.
  intros D N R. unfold parse_int. destruct ds as [|c ds]; [destruct (N eq_refl)|].
  assert (is_digit c = true) as Dc by (cbn [str_forall] in D; apply andb_true_iff in D; tauto).
  destruct (digit_head c ds Dc) as (_ & _ & ->). rewrite D. cbn [andb negb String.eqb].
  destruct R as [R1 R2]. apply Z.leb_le in R1. apply Z.ltb_lt in R2. rewrite R1, R2. reflexivity.
Qed.
Lemma parse_minus bits ds : str_forall is_digit ds = true -> ds <> "" ->
  (- 2 ^ (bits - 1) <= - digits_val 0 ds < 2 ^ (bits - 1))%Z -> parse_int bits ("-" +++ ds) = Some (- digits_val 0 ds)%Z.
Proof.
  intros D N R. unfold parse_int. change ("-" +++ ds) with (String "-" ds). cbv beta iota. rewrite Ascii.eqb_refl. cbv beta iota. rewrite D.
  destruct ds as [|c ds]; [destruct (N eq_refl)|]. cbn [andb negb String.eqb].
  destruct R as [R1 R2]. apply Z.leb_le in R1. apply Z.ltb_lt in R2. rewrite R1, R2. reflexivity.
Qed.

Lemma int_reads bits s z : (32 <= bits)%Z -> int_text s z -> xml_int bits s = Some z.
Proof.
  intros HB (l & sign & ds & r & -> & Bl & Br & D & N & V & R).
  assert (2 ^ 31 <= 2 ^ (bits - 1))%Z as HP by (apply Z.pow_le_mono_r; lia).
  assert (solid (sign +++ ds)) as S.
  { apply solid_app; [|apply digits_solid; exact D]. destruct V as [[[->| ->] _]|[-> _]]; reflexivity. }
  assert (sign +++ ds <> "") as N2 by (destruct V as [[[->| ->] _]|[-> _]]; [exact N|discriminate|discriminate]).
  unfold xml_int.
  assert (l +++ sign +++ ds +++ r = l +++ (sign +++ ds) +++ r) as -> by (rewrite !sapp_assoc; reflexivity).
  rewrite app_ne by exact N2. rewrite trim_spaces by (auto using blank_spaces).
  destruct ds as [|c ds]; [destruct (N eq_refl)|].
  assert (is_digit c = true) as Dc by (cbn [str_forall] in D; apply andb_true_iff in D; tauto).
  destruct (digit_head c ds Dc) as (H1 & H2 & H3).
  destruct V as [[[->| ->] ->]|[-> ->]].
  - change ("" +++ String c ds) with (String c ds). rewrite H1. apply parse_digits; [exact D|exact N|lia].
  - change ("+" +++ String c ds) with (String "+" (String c ds)). change (starts "+" (String "+" (String c ds))) with true.
    cbv iota. change (drop1 (String "+" (String c ds))) with (String c ds). rewrite H2. apply parse_digits; [exact D|exact N|lia].
  - change (starts "+" ("-" +++ String c ds)) with false. cbv iota. apply parse_minus; [exact D|exact N|lia].
Qed.

Lemma bool_reads s b : bool_text s b -> xml_bool s = Some b.
Proof.
  intros (l & t & r & -> & Bl & Br & V). unfold xml_bool.
  assert (solid t /\ t <> "") as [S N].
  { destruct V as [[_ [->| ->]]|[_ [->| ->]]]; split; try reflexivity; discriminate. }
  rewrite app_ne by exact N. rewrite trim_spaces by (auto using blank_spaces).
  destruct V as [[-> [->| ->]]|[-> [->| ->]]]; reflexivity.
Qed.

(** ** Whole numbers read as doubles *)

Definition fval (neg : bool) (n : Z) : option f64 :=
  if (n =? 0)%Z then Some (FFin neg 0 (-1074))
  else match round_pos n 1 with Some (m, e) => Some (FFin neg m e) | None => None end.

Lemma fval_toZ neg n : (0 <= n < 2 ^ 53)%Z -> exists y, fval neg n = Some y /\ f64_toZ y = Some (if neg then - n else n)%Z.
Proof.
  intros H. unfold fval. destruct (n =? 0)%Z eqn:E.
  - apply Z.eqb_eq in E. subst n. eexists. split; [reflexivity|]. destruct neg; vm_compute; reflexivity.
  - apply Z.eqb_neq in E. destruct (round_small n ltac:(lia)) as (m & e & R & A1 & A2 & A3 & A4). rewrite R.
    eexists. split; [reflexivity|]. cbn [f64_toZ].
    destruct (Z.eq_dec e 0) as [->|E0].
    + change (0 <=? 0)%Z with true. cbv iota. change (2 ^ (- 0))%Z with 1%Z in A2. change (2 ^ 0)%Z with 1%Z. f_equal. destruct neg; lia.
    + destruct (0 <=? e)%Z eqn:E1; [lia|].
      assert (0 < 2 ^ (- e))%Z as P by (apply Z.pow_pos_nonneg; lia).
      assert ((if neg then - m else m) = (if neg then - n else n) * 2 ^ (- e))%Z as -> by (destruct neg; lia).
      rewrite Z_mod_mult, Z_div_mult by lia. reflexivity.
Qed.

Lemma parse_fval l neg n : lit_parts l = Some (neg, n, 0%Z) -> parse_float l = fval neg n.
Proof.
  intros E. unfold parse_float, fval. rewrite E. change (0 <=? 0)%Z with true. cbv iota. rewrite Z.mul_1_r. reflexivity.
Qed.

(** Digits are a literal unless there are leading zeros. *)
Lemma lit_digits ds : str_forall is_digit ds = true -> ds <> "" ->
  lit_parts ds = Some (false, digits_val 0 ds, 0%Z) \/ lit_parts ds = None.
Proof.
  intros D N. destruct ds as [|c ds]; [destruct (N eq_refl)|].
  cbn [str_forall] in D. apply andb_true_iff in D. destruct D as [Dc D].
  unfold lit_parts. destruct (digit_head c ds Dc) as (_ & _ & ->). cbn [pint].
  destruct (Ascii.eqb_spec c "0"%char) as [->|_].
  - destruct ds as [|c2 ds]; [left; reflexivity|]. right. cbn [str_forall] in D. apply andb_true_iff in D. destruct D as [D2 _].
    cbn [pfrac]. destruct (Ascii.eqb_spec c2 "."%char) as [->|_]; [discriminate D2|]. cbn [pexp].
    destruct (Ascii.eqb_spec c2 "e"%char) as [->|_]; [discriminate D2|].
    destruct (Ascii.eqb_spec c2 "E"%char) as [->|_]; [discriminate D2|]. reflexivity.
  - left. rewrite Dc, (span_digits_all ds D). cbn [pfrac pexp drop1 String.length]. rewrite sapp_nil_r. reflexivity.
Qed.

Lemma lit_e0 n : (0 <= n)%Z -> lit_parts (Float64.dec n +++ "e0") = Some (false, n, 0%Z).
Proof.
  intros H. unfold lit_parts. destruct (dec_nominus n "e0" H) as (c & r & E & Hc). rewrite E, Hc, <- E.
  rewrite pint_dec; [|exact H|right; eexists _, _; split; reflexivity].
  change (pfrac "e0") with (Some ("", "e0")). cbv beta iota. change (pexp "e0") with (Some ("e0", "")). cbv beta iota.
  rewrite sapp_nil_r, dec_val by exact H. reflexivity.
Qed.

Lemma lower_digit c : is_digit c = true -> lower c = c.
Proof.
  intros H. unfold lower. unfold is_digit, between in *. rewrite andb_true_iff, !N.leb_le in H.
  destruct ((65 <=? code c)%N && (code c <=? 90)%N) eqn:E; [|reflexivity]. rewrite andb_true_iff, !N.leb_le in E. lia.
Qed.

Lemma digits_grouped ds : str_forall is_digit ds = true -> forall k, (k < 2)%nat -> grouped_from false k ds = true.
Proof.
  induction ds as [|c ds IH]; intros D k K; [cbn [grouped_from]; destruct k as [|[|k]]; [reflexivity|reflexivity|lia]|].
  cbn [str_forall] in D. apply andb_true_iff in D. destruct D as [Dc D]. cbn [grouped_from]. rewrite Dc. cbn [orb]. apply IH; [exact D|lia].
Qed.
Lemma digits_ungroup ds : str_forall is_digit ds = true -> ungroup ds = ds.
Proof.
  induction ds as [|c ds IH]; intros D; [reflexivity|]. cbn [str_forall] in D. apply andb_true_iff in D. destruct D as [Dc D].
  cbn [ungroup]. destruct (Ascii.eqb_spec c "_") as [->|_]; [discriminate Dc|]. rewrite (IH D). reflexivity.
Qed.
Lemma digits_hex_prefix ds : str_forall is_digit ds = true -> hex_prefix ds = false.
Proof.
  intros D. unfold hex_prefix. destruct ds as [|c [|c2 ds]]; [reflexivity|apply andb_false_r|].
  cbn [str_forall] in D. rewrite !andb_true_iff in D. destruct D as (_ & D & _). cbn [starts drop1].
  destruct (Ascii.eqb_spec "x" c2) as [<-|_]; [discriminate D|]. destruct (Ascii.eqb_spec "X" c2) as [<-|_]; [discriminate D|]. apply andb_false_r.
Qed.
Lemma ext_digits ds : str_forall is_digit ds = true -> ds <> "" -> ext_unsigned ds = fval false (digits_val 0 ds).
Proof.
  intros D N. unfold ext_unsigned. rewrite (digits_hex_prefix ds D), (digits_grouped ds D 0) by lia. rewrite (digits_ungroup ds D).
  unfold dec_float. rewrite (span_digits_all ds D).
  destruct ds as [|c ds]; [destruct (N eq_refl)|].
  assert (is_digit c = true) as Dc by (cbn [str_forall] in D; apply andb_true_iff in D; tauto).
  cbn [lower_all]. rewrite (lower_digit c Dc).
  assert ((String c (lower_all ds) =? "inf") = false /\ (String c (lower_all ds) =? "infinity") = false /\ (String c (lower_all ds) =? "nan") = false) as (-> & -> & ->).
  { repeat split; cbn [String.eqb]; match goal with |- (if ?b then _ else _) = false => destruct b eqn:E; [|reflexivity] end;
      apply Ascii.eqb_eq in E; subst c; discriminate Dc. }
  cbn [orb starts]. cbv beta iota. change ((String c ds =? "") && ("" =? "")) with false. cbv iota.
  change (pexp "") with (Some ("", "")). cbv beta iota. rewrite sapp_nil_r.
  change (dec_int _) with "0". change ("e" +++ "0") with "e0".
  apply parse_fval. apply lit_e0. apply digits_val_nonneg; [lia|exact D].
Qed.

Lemma fneg_fval n : omap fneg (fval false n) = fval true n.
Proof. unfold fval. destruct (n =? 0)%Z; [reflexivity|]. destruct (round_pos n 1) as [[m e]|]; reflexivity. Qed.

Lemma float_reads s z : int_text s z -> exists y, xml_float s = Some y /\ f64_toZ y = Some z.
Proof.
  intros (l & sign & ds & r & -> & Bl & Br & D & N & V & R).
  assert (solid (sign +++ ds)) as S.
  { apply solid_app; [|apply digits_solid; exact D]. destruct V as [[[->| ->] _]|[-> _]]; reflexivity. }
  assert (sign +++ ds <> "") as N2 by (destruct V as [[[->| ->] _]|[-> _]]; [exact N|discriminate|discriminate]).
  unfold xml_float.
  assert (l +++ sign +++ ds +++ r = l +++ (sign +++ ds) +++ r) as -> by (rewrite !sapp_assoc; reflexivity).
  rewrite app_ne by exact N2. rewrite trim_spaces by (auto using blank_spaces).
  pose proof (digits_val_nonneg 0 ds ltac:(lia) D) as P. pose proof (ext_digits ds D N) as EX.
  destruct (lit_digits ds D N) as [L|L].
  - destruct V as [[SG ->]|[-> ->]].
    + destruct (fval_toZ false (digits_val 0 ds) ltac:(lia)) as (y & Y1 & Y2). exists y. split; [|exact Y2].
      destruct SG as [->| ->].
      * change ("" +++ ds) with ds. rewrite (parse_fval _ _ _ L), Y1. reflexivity.
      * change (parse_float ("+" +++ ds)) with (@None f64). cbv beta iota. unfold ext_float.
        change (starts "-" ("+" +++ ds)) with false. change (starts "+" ("+" +++ ds)) with true. cbv iota.
        change (drop1 ("+" +++ ds)) with ds. rewrite EX, Y1.
        destruct (lower_all ds =? "nan") eqn:E; [|reflexivity]. exfalso. apply String.eqb_eq in E.
        destruct ds as [|c ds]; [destruct (N eq_refl)|]. cbn [lower_all] in E. cbn [str_forall] in D. apply andb_true_iff in D.
        destruct D as [D _]. rewrite (lower_digit c D) in E. injection E as -> _. discriminate D.
    + destruct (fval_toZ true (digits_val 0 ds) ltac:(lia)) as (y & Y1 & Y2). exists y. split; [|exact Y2].
      destruct ds as [|c ds]; [destruct (N eq_refl)|].
      assert (is_digit c = true) as Dc by (cbn [str_forall] in D; apply andb_true_iff in D; tauto).
      destruct (digit_head c ds Dc) as (_ & _ & H3).
      rewrite (parse_fval _ true (digits_val 0 (String c ds))), Y1; [reflexivity|].
      rewrite (Float64Proofs.lit_parts_neg (String c ds) c ds eq_refl H3), L. reflexivity.
  - assert (forall sg, sg = "" \/ sg = "+" \/ sg = "-" -> parse_float (sg +++ ds) = None) as PN.
    { intros sg [->|[->| ->]]; unfold parse_float; [change ("" +++ ds) with ds; rewrite L; reflexivity|reflexivity|].
      destruct ds as [|c ds]; [destruct (N eq_refl)|].
      assert (is_digit c = true) as Dc by (cbn [str_forall] in D; apply andb_true_iff in D; tauto).
      destruct (digit_head c ds Dc) as (_ & _ & H3). rewrite (Float64Proofs.lit_parts_neg (String c ds) c ds eq_refl H3), L. reflexivity. }
    assert (lower_all ds =? "nan" = false) as NN.
    { destruct (lower_all ds =? "nan") eqn:E; [|reflexivity]. exfalso. apply String.eqb_eq in E.
      destruct ds as [|c ds]; [destruct (N eq_refl)|]. cbn [lower_all] in E. cbn [str_forall] in D. apply andb_true_iff in D.
      destruct D as [D _]. rewrite (lower_digit c D) in E. injection E as -> _. discriminate D. }
    assert (starts "-" ds = false /\ starts "+" ds = false) as [H1 H2].
    { destruct ds as [|c ds]; [destruct (N eq_refl)|].
      assert (is_digit c = true) as Dc by (cbn [str_forall] in D; apply andb_true_iff in D; tauto).
      destruct (digit_head c ds Dc) as (A & B & _). auto. }
    rewrite PN by (destruct V as [[[->| ->] _]|[-> _]]; auto). unfold ext_float.
    destruct V as [[SG ->]|[-> ->]].
    + destruct (fval_toZ false (digits_val 0 ds) ltac:(lia)) as (y & Y1 & Y2). exists y. split; [|exact Y2].
      destruct SG as [->| ->].
      * change ("" +++ ds) with ds. rewrite H1, H2, EX. exact Y1.
      * change (starts "-" ("+" +++ ds)) with false. change (starts "+" ("+" +++ ds)) with true. cbv iota.
        change (drop1 ("+" +++ ds)) with ds. rewrite NN, EX. exact Y1.
    + destruct (fval_toZ true (digits_val 0 ds) ltac:(lia)) as (y & Y1 & Y2). exists y. split; [|exact Y2].
      change (starts "-" ("-" +++ ds)) with true. cbv iota. change (drop1 ("-" +++ ds)) with ds.
      rewrite NN, EX, fneg_fval. exact Y1.
Qed.

(** ** The type table against the service descriptions, checked by computation *)

Fixpoint wtype_ind' (P : wtype -> Prop) (H1 : forall m e, P (WStr m e)) (H2 : P WInt) (H3 : P WBool) (H4 : P WTime)
    (H5 : forall ps, Forall (fun p => P (snd p)) ps -> P (WSeq ps)) (H6 : forall a, P (WVal a)) (w : wtype) : P w :=
  match w with
  | WStr m e => H1 m e
  | WInt => H2
  | WBool => H3
  | WTime => H4
  | WSeq ps => H5 ps ((fix all (ps : list (string * bool * bool * wtype)) : Forall (fun p => P (snd p)) ps :=
                         match ps with
                         | [] => Forall_nil _
                         | p :: r => Forall_cons p (wtype_ind' P H1 H2 H3 H4 H5 H6 (snd p)) (all r)
                         end) ps)
  | WVal a => H6 a
  end.

Definition struct_name (t : gty) : option string :=
  match t with TStruct n | TPtr (TStruct n) => Some n | _ => None end.

Fixpoint matches (parent ns : string) (w : wtype) (t : gty) {struct w} : bool :=
  match w with
  | WStr _ _ => match t with TStr => true | _ => false end
  | WInt => match t with TInt b => (32 <=? b)%Z | TF64 => true | _ => false end
  | WBool => match t with TBool => true | _ => false end
  | WTime => match t with TTime | TPtr TTime => true | _ => false end
  | WVal attrs =>
    match struct_name t with
    | None => false
    | Some n =>
      match find_decl n with
      | None => false
      | Some d =>
        xname_ok d (ns, parent) &&
        match find (of_kind XChar) (d_fields d) with Some f => String.eqb (f_name f) "Value" | None => false end &&
        negb (existsb (of_kind XElem) (d_fields d)) &&
        forallb (fun a => existsb (fun f => of_kind XAttr f && String.eqb (x_name (f_xml f)) (fst a) &&
                                            String.eqb (f_name f) (capital (fst a))) (d_fields d)) attrs
      end
    end
  | WSeq parts =>
    match struct_name t with
    | None => false
    | Some n =>
      match find_decl n with
      | None => false
      | Some d =>
        xname_ok d (ns, parent) &&
        negb (existsb (fun f => of_kind XChar f || of_kind XAttr f) (d_fields d)) &&
        nodupb (map (fun p => fst (fst (fst p))) parts) &&
        forallb (fun f => negb (of_kind XElem f) || existsb (fun p => String.eqb (x_name (f_xml f)) (fst (fst (fst p)))) parts ||
                          extension parent (x_name (f_xml f))) (d_fields d) &&
        forallb (fun p => negb (extension parent (fst (fst (fst p))))) parts &&
        (fix all (ps : list (string * bool * bool * wtype)) : bool :=
           match ps with
           | [] => true
           | (nm, _, repeats, w') :: r =>
             match find (takes d (ns, nm)) (d_fields d) with
             | None => unread parent nm
             | Some f =>
               negb (unread parent nm) && String.eqb (f_name f) (go_field parent nm) &&
               negb (is_ty_struct (f_ty f)) &&
               (if repeats then match f_ty f with TSlice t' => matches nm ns w' t' | _ => false end
                else matches nm ns w' (f_ty f))
             end && all r
           end) parts
      end
    end
  end.

Lemma services_match : forallb (fun s => match s with (ns, el, w) =>
    forallb (fun ty => match xmlname ty with Some (ns', el') => if String.eqb ns ns' && String.eqb el el' && negb (String.eqb ty "cpresp.DataTransfer")
      then matches el ns w (TStruct ty) else true | None => true end) (map d_name all_decls) end) services = true.
Proof. vm_compute. reflexivity. Qed.

(** ** Reading *)

Definition readable (ns : string) (w : wtype) : Prop := forall parent t x, matches parent ns w t = true ->
  is_element x = true -> space x = ns -> local x = parent -> recognisable no_extension ns w x ->
  exists v, xdec x t (zero t) = Some v /\ agrees parent w x v.

Lemma elem_root x : is_element x = true -> xroot x = Some (space x, local x).
Proof. destruct x; [reflexivity|discriminate]. Qed.

Lemma slots_elements l : slots l = slots (elements l).
Proof.
  induction l as [|k l IH]; [reflexivity|]. unfold elements in *. destruct k; cbn [filter is_element slots flat_map].
  - change (flat_map _ l) with (slots l). rewrite IH. reflexivity.
  - exact IH.
Qed.
Lemma named_elements nm l : named nm l = named nm (elements l).
Proof.
  unfold named, elements. induction l as [|k l IH]; [reflexivity|]. cbn [filter]. destruct (is_element k) eqn:E; cbn [andb filter].
  - rewrite E. cbn [andb]. rewrite IH. reflexivity.
  - exact IH.
Qed.
Lemma elements_all l : Forall (fun k => is_element k = true) (elements l).
Proof. apply Forall_forall. intros k H. apply filter_In in H. tauto. Qed.
Lemma named_app nm a b : named nm (a ++ b) = named nm a ++ named nm b.
Proof. apply filter_app. Qed.
Lemma named_all nm l : Forall (fun k => is_element k = true) l -> Forall (fun k => local k = nm) l -> named nm l = l.
Proof.
  unfold named. induction 1 as [|k l E F IH]; [reflexivity|]. intros H. inversion H; subst. cbn [filter]. rewrite E, String.eqb_refl.
  cbn [andb]. rewrite IH by assumption. reflexivity.
Qed.
Lemma named_none nm l : Forall (fun k => local k <> nm) l -> named nm l = [].
Proof.
  unfold named. induction 1 as [|k l E F IH]; [reflexivity|]. cbn [filter]. apply String.eqb_neq in E. rewrite E, andb_false_r. exact IH.
Qed.

(** The sequence part of [described] and [agrees]. *)
Fixpoint in_seq (ns : string) (ps : list (string * bool * bool * wtype)) (l : list xml) {struct ps} : Prop :=
  match ps with
  | [] => l = []
  | (nm, required, repeats, w') :: r =>
    exists run rest, l = run ++ rest /\
      Forall (fun k => space k = ns /\ local k = nm /\ described ns w' k) run /\
      (required = true -> run <> []) /\ (repeats = false -> (length run <= 1)%nat) /\
      in_seq ns r rest
  end.
Definition part_agrees (parent : string) (l : list xml) (fs : list (string * gval)) (p : string * bool * bool * wtype) : Prop :=
  match p with
  | (nm, required, repeats, w') =>
    unread parent nm = false ->
    exists u, lookup (go_field parent nm) fs = Some u /\
      match named nm l with
      | [] => unset u
      | l => if repeats then exists us, u = VSlice us /\ Forall2 (agrees nm w') l us
             else exists k, l = [k] /\ agrees nm w' k u
      end
  end.
Lemma described_seq ns ps x : described ns (WSeq ps) x <-> in_seq ns ps (elements (children x)).
Proof.
  cbn [described]. generalize (elements (children x)). induction ps as [|[[[nm rq] rp] w] ps IH]; intros l; [reflexivity|].
  cbn [in_seq]. split; intros (run & rest & H1 & H2 & H3 & H4 & H5); exists run, rest; (split; [exact H1|]);
    (split; [exact H2|]); (split; [exact H3|]); (split; [exact H4|]); apply IH; exact H5.
Qed.
Lemma agrees_seq parent ps x v : agrees parent (WSeq ps) x v <->
  exists fs, (v = VStruct fs \/ v = VPtr (VStruct fs)) /\ Forall (part_agrees parent (children x) fs) ps.
Proof.
  cbn [agrees]. split; intros (fs & H1 & H2); exists fs; (split; [exact H1|]); clear H1; revert H2;
    induction ps as [|[[[nm rq] rp] w] ps IH]; intros H.
  - constructor.
  - destruct H as [A B]. constructor; [exact A|apply IH; exact B].
  - exact I.
  - inversion H; subst. split; [assumption|apply IH; assumption].
Qed.

Lemma seq_names ns ps l : in_seq ns ps l -> Forall (fun k => In (local k) (map (fun p => fst (fst (fst p))) ps)) l.
Proof.
  revert l. induction ps as [|[[[nm rq] rp] w] ps IH]; intros l; cbn [in_seq map fst].
  - intros ->. constructor.
  - intros (run & rest & -> & H & _ & _ & S). apply Forall_app. split.
    + eapply Forall_impl; [|exact H]. intros k (_ & E & _). left. congruence.
    + eapply Forall_impl; [|apply IH; exact S]. intros k E. right. exact E.
Qed.

Lemma unset_zero0 t : is_ty_struct t = false -> unset (zero0 t).
Proof. unfold unset. destruct t; cbn; intros H; try discriminate H; tauto. Qed.

(** A run of elements of the same name. *)
Lemma feed_slice t l : forall us0, Forall (fun k => is_element k = true) l -> Forall (fun k => exists v, xdec k t (zero t) = Some v) l ->
  forall (P : xml -> gval -> Prop), Forall (fun k => forall v, xdec k t (zero t) = Some v -> P k v) l ->
  exists us, Forall2 P l us /\ feed (TSlice t) l (VSlice us0) = Some (VSlice (us0 ++ us)).
Proof.
  induction l as [|k l IH]; intros us0 E X P HP.
  - exists []. split; [constructor|]. cbn [feed]. rewrite app_nil_r. reflexivity.
  - inversion E; subst. inversion X as [|? ? [v Hv] ?]; subst. inversion HP; subst.
    cbn [feed]. rewrite xdec_slice, Hv by (rewrite elem_root by assumption; discriminate). cbn [omap].
    destruct (IH (us0 ++ [v])%list ltac:(assumption) ltac:(assumption) P ltac:(assumption)) as (us & U1 & U2).
    exists (v :: us). split; [constructor; auto|]. rewrite U2, <- app_assoc. reflexivity.
Qed.
Lemma feed_slice_nil t k l : is_element k = true -> feed (TSlice t) (k :: l) VNil = feed (TSlice t) (k :: l) (VSlice []).
Proof. intros E. cbn [feed]. rewrite !xdec_slice by (rewrite elem_root by assumption; discriminate). reflexivity. Qed.

Definition part_ok (ns parent : string) (d : decl) (p : string * bool * bool * wtype) : bool :=
  match p with
  | (nm, _, repeats, w') =>
    match find (takes d (ns, nm)) (d_fields d) with
    | None => unread parent nm
    | Some f =>
      negb (unread parent nm) && String.eqb (f_name f) (go_field parent nm) &&
      negb (is_ty_struct (f_ty f)) &&
      (if repeats then match f_ty f with TSlice t' => matches nm ns w' t' | _ => false end
       else matches nm ns w' (f_ty f))
    end
  end.

Lemma zero_fields d f : In d all_decls -> In f (d_fields d) ->
  lookup (f_name f) (map (fun f => (f_name f, zero0 (f_ty f))) (d_fields d)) = Some (zero0 (f_ty f)).
Proof. intros HD HF. apply zero_lookup. apply field_found; assumption. Qed.

(** The field that takes a child element. *)
Definition taker (d : decl) (f : field) (k : xml) : bool :=
  match find (takes d (space k, local k)) (d_fields d) with Some g => String.eqb (f_name g) (f_name f) | None => false end.

Lemma take_kids_spec d : In d all_decls -> forall ks fs, Forall (fun k => is_element k = true) ks ->
  (forall f, In f (d_fields d) -> exists cur v, lookup (f_name f) fs = Some cur /\ feed (f_ty f) (filter (taker d f) ks) cur = Some v) ->
  exists fs', take_kids d (slots ks) fs = Some fs' /\
    forall f cur, In f (d_fields d) -> lookup (f_name f) fs = Some cur -> lookup (f_name f) fs' = feed (f_ty f) (filter (taker d f) ks) cur.
Proof.
  intros HD. induction ks as [|k ks IH]; intros fs HE HF.
  - exists fs. split; [reflexivity|]. intros f cur _ H. exact H.
  - inversion HE as [|? ? E1 E2]; subst. destruct k as [n l at_ kk|s]; [|discriminate E1].
    set (k := XE n l at_ kk) in *. change (slots (k :: ks)) with (((n, l), xdec k) :: slots ks). cbn [take_kids].
    assert (forall g, taker d g k = match find (takes d (n, l)) (d_fields d) with Some h => String.eqb (f_name h) (f_name g) | None => false end) as HT by reflexivity.
    destruct (find (takes d (n, l)) (d_fields d)) as [g|] eqn:EF.
    + pose proof (find_some _ _ EF) as [HG _].
      destruct (HF g HG) as (cur & v & C1 & C2). cbn [filter] in C2. rewrite (HT g), String.eqb_refl in C2. cbn [feed] in C2.
      rewrite C1. destruct (xdec k (f_ty g) cur) as [v1|] eqn:EX; [|discriminate C2].
      destruct (IH (set_field (f_name g) v1 fs) E2) as (fs' & F1 & F2).
      { intros f Hf. destruct (String.eqb_spec (f_name g) (f_name f)) as [EQ|NE].
        - assert (g = f) as <- by (apply (nodup_inj f_name (d_fields d)); auto; apply names_nodup; exact HD).
          exists v1, v. rewrite set_field_lookup, String.eqb_refl, C1. auto.
        - destruct (HF f Hf) as (cur' & v' & C1' & C2'). exists cur', v'. rewrite set_field_lookup.
          assert (String.eqb (f_name f) (f_name g) = false) as -> by (apply String.eqb_neq; congruence). split; [exact C1'|].
          cbn [filter] in C2'. rewrite (HT f) in C2'. apply String.eqb_neq in NE. rewrite NE in C2'. exact C2'. }
      exists fs'. split; [exact F1|]. intros f cur' Hf HL. cbn [filter]. rewrite (HT f).
      destruct (String.eqb_spec (f_name g) (f_name f)) as [EQ|NE].
      * assert (g = f) as <- by (apply (nodup_inj f_name (d_fields d)); auto; apply names_nodup; exact HD).
        assert (cur' = cur) as -> by congruence. cbn [feed]. rewrite EX.
        apply F2; [exact Hf|]. rewrite set_field_lookup, String.eqb_refl, C1. reflexivity.
      * apply F2; [exact Hf|]. rewrite set_field_lookup.
        assert (String.eqb (f_name f) (f_name g) = false) as -> by (apply String.eqb_neq; congruence). exact HL.
    + destruct (IH fs E2) as (fs' & F1 & F2).
      { intros f Hf. destruct (HF f Hf) as (cur & v & C1 & C2). exists cur, v. split; [exact C1|]. cbn [filter] in C2. rewrite (HT f) in C2. exact C2. }
      exists fs'. split; [exact F1|]. intros f cur Hf HL. cbn [filter]. rewrite (HT f). apply F2; assumption.
Qed.

(** What a run of elements gives. *)
Lemma run_reads ns parent d nm rq rp w run f : readable ns w -> part_ok ns parent d (nm, rq, rp, w) = true ->
  find (takes d (ns, nm)) (d_fields d) = Some f ->
  Forall (fun k => is_element k = true /\ local k = nm) run ->
  Forall (fun k => space k = ns /\ recognisable no_extension ns w k) run -> (rp = false -> (length run <= 1)%nat) ->
  exists u, feed (f_ty f) run (zero0 (f_ty f)) = Some u /\
    match run with
    | [] => unset u
    | l => if rp then exists us, u = VSlice us /\ Forall2 (agrees nm w) l us
           else exists k, l = [k] /\ agrees nm w k u
    end.
Proof.
  intros HW OK EF HE HR HL. unfold part_ok in OK. rewrite EF in OK.
  apply andb_true_iff in OK. destruct OK as [OK OM]. apply andb_true_iff in OK. destruct OK as [OK ONS].
  apply andb_true_iff in OK. destruct OK as [OU ON]. apply negb_true_iff in ONS, OU. apply String.eqb_eq in ON.
  destruct run as [|k run].
  - exists (zero0 (f_ty f)). split; [reflexivity|]. apply unset_zero0. exact ONS.
  - assert (forall k', In k' (k :: run) -> forall t, matches nm ns w t = true -> exists v, xdec k' t (zero t) = Some v /\ agrees nm w k' v) as X.
    { intros k' Hk t HM. rewrite Forall_forall in HE, HR. destruct (HR k' Hk) as (A & B). destruct (HE k' Hk) as (C & D).
      apply (HW nm t k'); auto. }
    destruct rp.
    + destruct (f_ty f) as [| | | | | |t|] eqn:ET; try discriminate OM.
      assert (Forall (fun k => is_element k = true) (k :: run)) as HE1 by (eapply Forall_impl; [|exact HE]; intros a Ha; exact (proj1 Ha)).
      cbn [zero0]. rewrite feed_slice_nil by (inversion HE1; assumption).
      destruct (feed_slice t (k :: run) [] HE1) with (P := agrees nm w) as (us & A & B).
      * apply Forall_forall. intros k' Hk. destruct (X k' Hk t OM) as (v & V & _). eauto.
      * apply Forall_forall. intros k' Hk v Hv. destruct (X k' Hk t OM) as (v' & V & G). rewrite V in Hv. injection Hv as <-. exact G.
      * exists (VSlice us). split; [exact B|]. exists us. auto.
    + specialize (HL eq_refl). destruct run; [|cbn in HL; lia].
      destruct (X k (or_introl eq_refl) (f_ty f) OM) as (v & V1 & V2).
      exists v. cbn [feed]. rewrite <- zero_zero0 by exact ONS. rewrite V1. split; [reflexivity|]. exists k. auto.
Qed.

Lemma recognisable_seq ok ns ps x : recognisable ok ns (WSeq ps) x <->
  Forall (fun p => match p with (nm, required, repeats, w') =>
         Forall (fun k => space k = ns /\ recognisable ok ns w' k) (named nm (children x)) /\
         (repeats = false -> (length (named nm (children x)) <= 1)%nat) end) ps /\
  Forall (fun k => In (local k) (map (fun p => fst (fst (fst p))) ps) \/ ok (local x) (local k) = true)
      (elements (children x)).
Proof.
  cbn [recognisable]. split; intros [A B]; (split; [|exact B]); clear B; revert A.
  - induction ps as [|[[[nm rq] rp] w] ps IH]; intros A; [constructor|]. destruct A as (A1 & A2 & A3). constructor; [split; [exact A1|exact A2]|apply IH; exact A3].
  - induction ps as [|[[[nm rq] rp] w] ps IH]; intros A; [exact I|]. inversion A as [|? ? A12 A3]; subst. cbv beta iota in A12. destruct A12 as [A1 A2].
    split; [exact A1|]. split; [exact A2|]. apply IH. exact A3.
Qed.

Lemma taker_false d f k : In d all_decls -> In f (d_fields d) -> (x_kind (f_xml f) = XElem -> local k <> x_name (f_xml f)) -> taker d f k = false.
Proof.
  intros HD HF HK. unfold taker. destruct (find (takes d (space k, local k)) (d_fields d)) as [g|] eqn:EF; [|reflexivity].
  apply find_some in EF. destruct EF as [HG HT]. destruct (String.eqb_spec (f_name g) (f_name f)) as [E|_]; [|reflexivity]. exfalso.
  assert (g = f) as -> by (apply (nodup_inj f_name (d_fields d)); auto; apply names_nodup; exact HD).
  unfold takes in HT. destruct (x_kind (f_xml f)); try discriminate HT. apply andb_true_iff in HT. destruct HT as [HT _].
  apply String.eqb_eq in HT. cbn [snd] in HT. apply (HK eq_refl). congruence.
Qed.

Lemma seq_reads ns parent d ps x : In d all_decls -> Forall (fun p => readable ns (snd p)) ps ->
  Forall (fun p => part_ok ns parent d p = true) ps ->
  (forall f, In f (d_fields d) -> x_kind (f_xml f) = XElem -> In (x_name (f_xml f)) (map (fun p => fst (fst (fst p))) ps) \/ extension parent (x_name (f_xml f)) = true) ->
  (forall p, In p ps -> extension parent (fst (fst (fst p))) = false) ->
  local x = parent -> recognisable no_extension ns (WSeq ps) x ->
  exists fs', take_kids d (slots (elements (children x))) (map (fun f => (f_name f, zero0 (f_ty f))) (d_fields d)) = Some fs' /\
    Forall (part_agrees parent (children x) fs') ps.
Proof.
  intros HD HW OK HX HY HL HR. apply recognisable_seq in HR. destruct HR as [HR HE].
  set (ks := elements (children x)) in *. set (fs0 := map (fun f => (f_name f, zero0 (f_ty f))) (d_fields d)).
  rewrite Forall_forall in HW, OK, HR, HE.
  assert (forall f k, In f (d_fields d) -> In k ks -> taker d f k = true -> In (local k) (map (fun p => fst (fst (fst p))) ps)) as HK.
  { intros f k Hf Hk HT. destruct (HE k Hk) as [H|H]; [exact H|].
    destruct (string_dec (local k) (x_name (f_xml f))) as [EQ|NE].
    - destruct (x_kind (f_xml f)) eqn:EK; try (rewrite taker_false in HT; [discriminate HT|exact HD|exact Hf|intros K; rewrite K in EK; discriminate EK]).
      destruct (HX f Hf EK) as [H'|H']; [rewrite EQ; exact H'|]. unfold no_extension in H. rewrite HL, EQ, H' in H. discriminate H.
    - rewrite taker_false in HT; [discriminate HT|exact HD|exact Hf|auto]. }
  assert (forall p f, In p ps -> find (takes d (ns, fst (fst (fst p)))) (d_fields d) = Some f ->
    filter (taker d f) ks = named (fst (fst (fst p))) (children x)) as HN.
  { intros p f Hp EF. pose proof (find_some _ _ EF) as [Hf HT].
    assert (x_name (f_xml f) = fst (fst (fst p)) /\ x_kind (f_xml f) = XElem) as [EN EK].
    { unfold takes in HT. destruct (x_kind (f_xml f)); try discriminate HT. apply andb_true_iff in HT. destruct HT as [HT _].
      apply String.eqb_eq in HT. auto. }
    rewrite (named_elements _ (children x)). fold ks. unfold named. apply filter_ext_in. intros k Hk.
    pose proof (elements_all (children x)) as EA. rewrite Forall_forall in EA. fold ks in EA. rewrite (EA k Hk). cbn [andb].
    destruct (String.eqb_spec (local k) (fst (fst (fst p)))) as [EQ|NE].
    - destruct p as [[[nm rq] rp] w]. cbn [fst] in *. destruct (HR _ Hp) as [HR1 _]. rewrite Forall_forall in HR1.
      destruct (HR1 k) as [HS _].
      { rewrite named_elements. apply filter_In. fold ks. split; [exact Hk|]. rewrite (EA k Hk), EQ, String.eqb_refl. reflexivity. }
      unfold taker. rewrite HS, EQ, EF. apply String.eqb_refl.
    - apply taker_false; [exact HD|exact Hf|]. intros _. congruence. }
  assert (forall f, In f (d_fields d) -> (forall p, In p ps -> find (takes d (ns, fst (fst (fst p)))) (d_fields d) <> Some f) -> filter (taker d f) ks = []) as HO.
  { intros f Hf HP. destruct (filter (taker d f) ks) as [|k r] eqn:EQ; [reflexivity|]. exfalso.
    assert (In k (filter (taker d f) ks)) as Hk by (rewrite EQ; left; reflexivity). apply filter_In in Hk. destruct Hk as [Hk HT].
    pose proof (HK f k Hf Hk HT) as HM. apply in_map_iff in HM. destruct HM as (p & E & Hp). apply (HP p Hp).
    destruct p as [[[nm rq] rp] w]. cbn [fst] in E. subst nm. cbn [fst].
    destruct (HR _ Hp) as [HR1 _]. rewrite Forall_forall in HR1.
    pose proof (elements_all (children x)) as EA. rewrite Forall_forall in EA. fold ks in EA.
    destruct (HR1 k) as [HS _].
    { rewrite named_elements. apply filter_In. fold ks. split; [exact Hk|]. rewrite (EA k Hk), String.eqb_refl. reflexivity. }
    unfold taker in HT. rewrite HS in HT. destruct (find (takes d (ns, local k)) (d_fields d)) as [g|] eqn:EF; [|discriminate HT].
    apply String.eqb_eq in HT. f_equal. pose proof (find_some _ _ EF) as [HG _].
    apply (nodup_inj f_name (d_fields d)); auto. apply names_nodup. exact HD. }
  assert (forall p f, In p ps -> find (takes d (ns, fst (fst (fst p)))) (d_fields d) = Some f ->
    exists u, feed (f_ty f) (filter (taker d f) ks) (zero0 (f_ty f)) = Some u /\
      match p with (nm, rq, rp, w) =>
      match named nm (children x) with
      | [] => unset u
      | l => if rp : bool then exists us, u = VSlice us /\ Forall2 (agrees nm w) l us
             else exists k, l = [k] /\ agrees nm w k u
      end end) as HF.
  { intros p f Hp EF. rewrite (HN p f Hp EF). destruct p as [[[nm rq] rp] w]. cbn [fst] in *. destruct (HR _ Hp) as [HR1 HR2].
    assert (Forall (fun k => is_element k = true /\ local k = nm) (named nm (children x))) as HE1.
    { apply Forall_forall. intros k Hk. apply filter_In in Hk. destruct Hk as [_ Hk]. apply andb_true_iff in Hk. destruct Hk as [K1 K2].
      apply String.eqb_eq in K2. auto. }
    pose proof (run_reads ns parent d nm rq rp w (named nm (children x)) f (HW _ Hp) (OK _ Hp) EF HE1 HR1 HR2) as K.
    destruct (named nm (children x)); exact K. }
  destruct (take_kids_spec d HD ks fs0 (elements_all _)) as (fs' & F1 & F2).
  { intros f Hf. exists (zero0 (f_ty f)). pose proof (zero_fields d f HD Hf) as HZ. fold fs0 in HZ.
    destruct (existsb (fun p => match find (takes d (ns, fst (fst (fst p)))) (d_fields d) with Some g => String.eqb (f_name g) (f_name f) | None => false end) ps) eqn:EX.
    - apply existsb_exists in EX. destruct EX as (p & Hp & EX).
      destruct (find (takes d (ns, fst (fst (fst p)))) (d_fields d)) as [g|] eqn:EF; [|discriminate EX]. apply String.eqb_eq in EX.
      pose proof (find_some _ _ EF) as [HG _].
      assert (g = f) as -> by (apply (nodup_inj f_name (d_fields d)); auto; apply names_nodup; exact HD).
      destruct (HF p f Hp EF) as (u & U & _). exists u. auto.
    - exists (zero0 (f_ty f)). split; [exact HZ|]. rewrite HO; [reflexivity|exact Hf|]. intros p Hp EF.
      assert (false = true) as K; [|discriminate K]. rewrite <- EX. apply existsb_exists. exists p. split; [exact Hp|]. rewrite EF. apply String.eqb_refl. }
  exists fs'. split; [exact F1|]. apply Forall_forall. intros p Hp. specialize (OK p Hp).
  destruct (find (takes d (ns, fst (fst (fst p)))) (d_fields d)) as [f|] eqn:EF.
  - destruct (HF p f Hp EF) as (u & U1 & U2). pose proof (find_some _ _ EF) as [Hf _].
    pose proof (F2 f (zero0 (f_ty f)) Hf (zero_fields d f HD Hf)) as FL. rewrite U1 in FL.
    destruct p as [[[nm rq] rp] w]. cbn [fst] in *. intros _. exists u. split; [|exact U2].
    unfold part_ok in OK. rewrite EF in OK. repeat (apply andb_true_iff in OK; destruct OK as [OK ?]).
    match goal with H : String.eqb (f_name f) _ = true |- _ => apply String.eqb_eq in H; rewrite <- H end. exact FL.
  - destruct p as [[[nm rq] rp] w]. cbn [fst] in *. unfold part_ok in OK. rewrite EF in OK. intros HU. rewrite OK in HU. discriminate HU.
Qed.

Lemma no_attrs d : existsb (of_kind XAttr) (d_fields d) = false -> forall attrs fs, fold_left (fun fs a => take_attr d a fs) attrs fs = fs.
Proof.
  intros H. induction attrs as [|a attrs IH]; intros fs; [reflexivity|]. cbn [fold_left]. rewrite IH. clear IH.
  unfold take_attr. revert fs. induction (d_fields d) as [|f l IHl]; intros fs; [reflexivity|].
  cbn [existsb] in H. apply orb_false_iff in H. destruct H as [H1 H2]. cbn [fold_left]. unfold of_kind in H1.
  destruct (x_kind (f_xml f)); try discriminate H1; apply IHl; exact H2.
Qed.
Lemma no_text d s fs : existsb (of_kind XChar) (d_fields d) = false -> take_text d s fs = fs.
Proof.
  intros H. unfold take_text.
  assert (find (fun f => match x_kind (f_xml f) with XChar => true | _ => false end) (d_fields d) = None) as ->; [|reflexivity].
  induction (d_fields d) as [|f l IHl]; [reflexivity|]. cbn [existsb] in H. apply orb_false_iff in H. destruct H as [H1 H2].
  cbn [find]. unfold of_kind in H1. destruct (x_kind (f_xml f)); try discriminate H1; apply IHl; exact H2.
Qed.
Lemma existsb_or {A} (p q : A -> bool) l : existsb (fun x => p x || q x) l = existsb p l || existsb q l.
Proof. induction l as [|x l IH]; [reflexivity|]. cbn [existsb]. rewrite IH. destruct (p x), (q x), (existsb p l); reflexivity. Qed.

Lemma take_attr_other d f a : In d all_decls -> In f (d_fields d) -> x_name (f_xml f) <> snd (fst a) ->
  forall fs, lookup (f_name f) (take_attr d a fs) = lookup (f_name f) fs.
Proof.
  intros HD HF HN. unfold take_attr.
  assert (forall l fs, incl l (d_fields d) -> lookup (f_name f) (fold_left (fun fs f =>
    match x_kind (f_xml f) with
    | XAttr => if String.eqb (x_name (f_xml f)) (snd (fst a)) then set_field (f_name f) (VStr (snd a)) fs else fs
    | _ => fs
    end) l fs) = lookup (f_name f) fs) as K; [|intros fs; apply K; apply incl_refl].
  induction l as [|g l IH]; intros fs HI; [reflexivity|]. cbn [fold_left].
  rewrite IH by (intros y Hy; apply HI; right; exact Hy).
  assert (In g (d_fields d)) as HG by (apply HI; left; reflexivity).
  destruct (x_kind (f_xml g)); try reflexivity. destruct (String.eqb_spec (x_name (f_xml g)) (snd (fst a))) as [E|_]; [|reflexivity].
  rewrite set_field_lookup. destruct (String.eqb_spec (f_name f) (f_name g)) as [E'|_]; [|reflexivity]. exfalso.
  apply HN. rewrite <- E. f_equal. f_equal. apply (nodup_inj f_name (d_fields d)); auto. apply names_nodup. exact HD.
Qed.

Lemma attrs_read d f : In d all_decls -> In f (d_fields d) -> x_kind (f_xml f) = XAttr ->
  forall attrs fs s0, lookup (f_name f) fs = Some (VStr s0) ->
  lookup (f_name f) (fold_left (fun fs a => take_attr d a fs) attrs fs) =
  Some (VStr (fold_left (fun r (a : string * string * string) => if String.eqb (snd (fst a)) (x_name (f_xml f)) then snd a else r) attrs s0)).
Proof.
  intros HD HF HK. induction attrs as [|[[sp n] v] attrs IH]; intros fs s0 H; [exact H|]. cbn [fold_left fst snd]. apply IH.
  destruct (String.eqb_spec n (x_name (f_xml f))) as [E|NE].
  - subst n. rewrite take_attr_one by assumption. rewrite set_field_lookup, String.eqb_refl, H. reflexivity.
  - rewrite take_attr_other; [exact H|exact HD|exact HF|]. cbn [fst snd]. congruence.
Qed.

Lemma take_attr_nonattr d f : In d all_decls -> In f (d_fields d) -> of_kind XAttr f = false ->
  forall attrs fs, lookup (f_name f) (fold_left (fun fs a => take_attr d a fs) attrs fs) = lookup (f_name f) fs.
Proof.
  intros HD HF HN. induction attrs as [|a attrs IH]; intros fs; [reflexivity|]. cbn [fold_left]. rewrite IH. clear IH. unfold take_attr.
  assert (forall l fs, incl l (d_fields d) -> lookup (f_name f) (fold_left (fun fs f =>
    match x_kind (f_xml f) with
    | XAttr => if String.eqb (x_name (f_xml f)) (snd (fst a)) then set_field (f_name f) (VStr (snd a)) fs else fs
    | _ => fs
    end) l fs) = lookup (f_name f) fs) as K; [|apply K; apply incl_refl].
  induction l as [|g l IH]; intros fs' HI; [reflexivity|]. cbn [fold_left].
  rewrite IH by (intros y Hy; apply HI; right; exact Hy).
  assert (In g (d_fields d)) as HG by (apply HI; left; reflexivity).
  destruct (x_kind (f_xml g)) eqn:EK; try reflexivity. destruct (String.eqb (x_name (f_xml g)) (snd (fst a))); [|reflexivity].
  rewrite set_field_lookup. destruct (String.eqb_spec (f_name f) (f_name g)) as [E'|_]; [|reflexivity]. exfalso.
  assert (f = g) as -> by (apply (nodup_inj f_name (d_fields d)); auto; apply names_nodup; exact HD).
  unfold of_kind in HN. rewrite EK in HN. discriminate HN.
Qed.

Lemma no_kids d kids fs : existsb (of_kind XElem) (d_fields d) = false -> take_kids d kids fs = Some fs.
Proof.
  intros H. assert (forall el l, existsb (of_kind XElem) l = false -> find (takes d el) l = None) as N.
  { intros el l. induction l as [|f l IHl]; [reflexivity|]. cbn [existsb]. intros K. apply orb_false_iff in K. destruct K as [H1 H2].
    cbn [find]. unfold takes at 1. unfold of_kind in H1. destruct (x_kind (f_xml f)); try discriminate H1; apply IHl; exact H2. }
  revert fs. induction kids as [|[el dl] r IH]; intros fs; [reflexivity|]. cbn [take_kids]. rewrite (N el _ H). apply IH.
Qed.

(** A struct at its element, or at the pointer to it. *)
Lemma struct_or_ptr x t n fs (P : gval -> Prop) : is_element x = true -> struct_name t = Some n ->
  xdec x (TStruct n) (zero (TStruct n)) = Some (VStruct fs) ->
  P (VStruct fs) -> P (VPtr (VStruct fs)) -> exists v, xdec x t (zero t) = Some v /\ P v.
Proof.
  intros HE HN HX P1 P2. destruct t as [| | | | |t| |m]; try discriminate HN.
  - destruct t; try discriminate HN. injection HN as ->. exists (VPtr (VStruct fs)). split; [|exact P2].
    change (zero (TPtr (TStruct n))) with VNil. rewrite xdec_ptr by (rewrite elem_root by exact HE; discriminate).
    rewrite HX. reflexivity.
  - injection HN as ->. exists (VStruct fs). auto.
Qed.

Lemma xdec_struct x n d : find_decl n = Some d -> is_element x = true ->
  xdec x (TStruct n) (zero (TStruct n)) =
  if xname_ok d (space x, local x) then
    omap (fun fs => VStruct (take_text d (chars x) fs))
      (take_kids d (slots (children x)) (fold_left (fun fs a => take_attr d a fs) (match x with XE _ _ a _ => a | XT _ => [] end)
         (map (fun f => (f_name f, zero0 (f_ty f))) (d_fields d))))
  else None.
Proof.
  intros HD HE. destruct x as [ns nm at_ ks|s]; [|discriminate HE]. cbn [xdec]. unfold zero. rewrite HD. unfold zero_struct.
  cbn [xat]. rewrite HD. reflexivity.
Qed.

Lemma readable_all ns w : readable ns w.
Proof.
  induction w as [m e| | | |ps IH|attrs] using wtype_ind'; intros parent t x HM HE HS HL HD.
  - destruct t; try discriminate HM. destruct x as [n l at_ ks|s]; [|discriminate HE]. eexists. split; [reflexivity|]. reflexivity.
  - destruct HD as (z & HZ). cbn [matches] in HM. destruct t; try discriminate HM; destruct x as [n l at_ ks|s]; try discriminate HE.
    + apply Z.leb_le in HM. exists (VInt z). split; [|exists z; auto]. cbn [xdec xat zero zero0].
      change (text_of ks) with (chars (XE n l at_ ks)). rewrite (int_reads _ _ _ HM HZ). reflexivity.
    + destruct (float_reads _ _ HZ) as (y & Y1 & Y2). exists (VF64 y). split; [|exists z; split; [exact HZ|right; eauto]].
      cbn [xdec xat zero zero0]. change (text_of ks) with (chars (XE n l at_ ks)). rewrite Y1. reflexivity.
  - destruct HD as (b & HZ). cbn [matches] in HM. destruct t; try discriminate HM; destruct x as [n l at_ ks|s]; try discriminate HE.
    exists (VBool b). split; [|exists b; auto]. cbn [xdec xat zero zero0].
    change (text_of ks) with (chars (XE n l at_ ks)). rewrite (bool_reads _ _ HZ). reflexivity.
  - destruct HD as (u & HZ). cbn [matches] in HM. destruct t as [| | | | |t| |]; try discriminate HM; destruct x as [n l at_ ks|s]; try discriminate HE.
    + exists (VTime u). split; [|exists u; auto]. cbn [xdec xat zero zero0].
      change (text_of ks) with (chars (XE n l at_ ks)). rewrite HZ. reflexivity.
    + destruct t; try discriminate HM. exists (VPtr (VTime u)). split; [|exists u; auto]. cbn [xdec xat zero zero0].
      change (text_of ks) with (chars (XE n l at_ ks)). rewrite HZ. reflexivity.
  - cbn [matches] in HM. destruct (struct_name t) as [n|] eqn:ES; [|discriminate HM].
    destruct (find_decl n) as [d|] eqn:ED; [|discriminate HM]. pose proof (find_decl_in _ _ ED) as [HDin _].
    apply andb_true_iff in HM. destruct HM as [HM M5]. apply andb_true_iff in HM. destruct HM as [HM M6].
    apply andb_true_iff in HM. destruct HM as [HM M4].
    apply andb_true_iff in HM. destruct HM as [HM M3]. apply andb_true_iff in HM. destruct HM as [M1 M2].
    rewrite forallb_forall in M4, M6. apply negb_true_iff in M2. rewrite existsb_or in M2. apply orb_false_iff in M2. destruct M2 as [MT MA].
    assert (Forall (fun p => part_ok ns parent d p = true) ps) as OK.
    { clear - M5. induction ps as [|[[[nm rq] rp] w] ps IHp]; [constructor|]. apply andb_true_iff in M5. destruct M5 as [A B].
      constructor; [exact A|apply IHp; exact B]. }
    destruct (seq_reads ns parent d ps x HDin IH OK) as (fs & F1 & F3).
    { intros f Hf EK. specialize (M4 f Hf). unfold of_kind in M4. rewrite EK in M4. cbn [negb orb] in M4.
      apply orb_true_iff in M4. destruct M4 as [M4|M4]; [left|right; exact M4].
      apply existsb_exists in M4. destruct M4 as (p & Hp & E). apply String.eqb_eq in E. rewrite E.
      apply (in_map (fun p => fst (fst (fst p)))). exact Hp. }
    { intros p Hp. specialize (M6 p Hp). apply negb_true_iff in M6. exact M6. }
    { exact HL. }
    { exact HD. }
    apply (struct_or_ptr x t n fs); [exact HE|exact ES| | |].
    + rewrite (xdec_struct x n d ED HE), HS, HL, M1, no_attrs by exact MA. rewrite slots_elements, F1. cbn [omap].
      rewrite no_text by exact MT. reflexivity.
    + apply agrees_seq. exists fs. split; [auto|exact F3].
    + apply agrees_seq. exists fs. split; [auto|exact F3].
  - cbn [matches] in HM. destruct (struct_name t) as [n|] eqn:ES; [|discriminate HM].
    destruct (find_decl n) as [d|] eqn:ED; [|discriminate HM]. pose proof (find_decl_in _ _ ED) as [HDin _].
    apply andb_true_iff in HM. destruct HM as [HM M4].
    apply andb_true_iff in HM. destruct HM as [HM M3]. apply andb_true_iff in HM. destruct HM as [M1 M2]. apply negb_true_iff in M3.
    destruct (find (of_kind XChar) (d_fields d)) as [fc|] eqn:EC; [|discriminate M2]. apply String.eqb_eq in M2.
    pose proof (find_some _ _ EC) as [FC1 FC2].
    set (at_ := match x with XE _ _ a _ => a | XT _ => [] end).
    set (fs1 := fold_left (fun fs a => take_attr d a fs) at_ (map (fun f => (f_name f, zero0 (f_ty f))) (d_fields d))).
    assert (xdec x (TStruct n) (zero (TStruct n)) = Some (VStruct (set_field (f_name fc) (VStr (chars x)) fs1))) as HX.
    { rewrite (xdec_struct x n d ED HE), HS, HL, M1. fold at_. fold fs1. rewrite no_kids by exact M3. cbn [omap].
      unfold take_text. change (fun f => match x_kind (f_xml f) with XChar => true | _ => false end) with (of_kind XChar).
      rewrite EC. reflexivity. }
    assert (lookup "Value" (set_field (f_name fc) (VStr (chars x)) fs1) = Some (VStr (chars x)) /\
      forall a values, In (a, values) attrs -> lookup (capital a) (set_field (f_name fc) (VStr (chars x)) fs1) = Some (VStr (attribute a x))) as HR.
    { split.
      - rewrite set_field_lookup, M2, String.eqb_refl. rewrite <- M2. unfold fs1.
        rewrite take_attr_nonattr; [|exact HDin|exact FC1|].
        + rewrite (zero_fields d fc HDin FC1). reflexivity.
        + unfold of_kind in *. destruct (x_kind (f_xml fc)); try discriminate FC2; reflexivity.
      - intros a values Ha. rewrite forallb_forall in M4. specialize (M4 _ Ha). cbn [fst] in M4. apply existsb_exists in M4.
        destruct M4 as (f & Hf & M4). apply andb_true_iff in M4. destruct M4 as [M4 E2]. apply andb_true_iff in M4. destruct M4 as [E0 E1].
        apply String.eqb_eq in E1, E2. rewrite <- E2.
        assert (x_kind (f_xml f) = XAttr) as EK by (unfold of_kind in E0; destruct (x_kind (f_xml f)); try discriminate E0; reflexivity).
        rewrite set_field_lookup. destruct (String.eqb_spec (f_name f) (f_name fc)) as [E|_].
        + exfalso. assert (f = fc) as -> by (apply (nodup_inj f_name (d_fields d)); auto; apply names_nodup; exact HDin).
          unfold of_kind in FC2. rewrite EK in FC2. discriminate FC2.
        + unfold fs1. rewrite (attrs_read d f HDin Hf EK at_ _ "").
          * rewrite E1. unfold attribute, at_. destruct x; reflexivity.
          * rewrite zero_fields by assumption. rewrite (text_field d f HDin Hf (or_introl EK)). reflexivity. }
    destruct HR as [HR1 HR2].
    apply (struct_or_ptr x t n _ (agrees parent (WVal attrs) x) HE ES HX); cbn [agrees];
      (eexists; split; [auto|split; [exact HR1|exact HR2]]).
Qed.

Lemma services_read ns el w ty x : In (ns, el, w) services -> element_of el ns ty -> ty <> "cpresp.DataTransfer" ->
  is_element x = true -> local x = el -> space x = ns -> recognisable no_extension ns w x ->
  exists v, xdec x (TStruct ty) (zero (TStruct ty)) = Some v /\ agrees el w x v.
Proof.
  intros HI HEl HC HE HL HS HD. apply String.eqb_neq in HC. pose proof services_match as M. rewrite forallb_forall in M. specialize (M _ HI). cbv beta iota in M.
  pose proof (type_names _ _ _ HEl) as HT.
  assert (In ty (map d_name all_decls)) as Hty.
  { unfold xmlname in HT. destruct (find_decl ty) as [d|] eqn:E; [|discriminate HT]. apply find_decl_in in E. destruct E as [E1 E2].
    rewrite <- E2. apply in_map. exact E1. }
  rewrite forallb_forall in M. specialize (M ty Hty). rewrite HT, !String.eqb_refl, HC in M. cbn [andb negb] in M.
  apply (readable_all ns w el (TStruct ty) x); assumption.
Qed.

(** ** A message as described is recognisable *)

Fixpoint distinct (w : wtype) : bool :=
  match w with
  | WSeq ps => nodupb (map (fun p => fst (fst (fst p))) ps) &&
      (fix all (ps : list (string * bool * bool * wtype)) : bool :=
         match ps with [] => true | p :: r => distinct (snd p) && all r end) ps
  | _ => true
  end.
Lemma services_distinct : forallb (fun s => distinct (snd s)) services = true.
Proof. vm_compute. reflexivity. Qed.
Lemma distinct_seq ps : distinct (WSeq ps) = true -> NoDup (map (fun p => fst (fst (fst p))) ps) /\ Forall (fun p => distinct (snd p) = true) ps.
Proof.
  cbn [distinct]. intros H. apply andb_true_iff in H. destruct H as [H1 H2]. apply nodupb_spec in H1. split; [exact H1|]. clear H1.
  induction ps as [|p ps IH]; [constructor|]. apply andb_true_iff in H2. destruct H2 as [A B]. constructor; [exact A|apply IH; exact B].
Qed.

Lemma seq_parts ok ns ps : Forall (fun p => forall x, described ns (snd p) x -> recognisable ok ns (snd p) x) ps ->
  NoDup (map (fun p => fst (fst (fst p))) ps) -> forall l, Forall (fun k => is_element k = true) l -> in_seq ns ps l ->
  Forall (fun p => match p with (nm, required, repeats, w') =>
         Forall (fun k => space k = ns /\ recognisable ok ns w' k) (named nm l) /\
         (repeats = false -> (length (named nm l) <= 1)%nat) end) ps.
Proof.
  induction 1 as [|[[[nm rq] rp] w] ps HW HF IH]; intros N l HE HS; [constructor|].
  cbn [map fst] in N. inversion N as [|? ? N1 N2]; subst. cbn [in_seq] in HS. destruct HS as (run & rest & -> & HR & HQ & HL & HS).
  apply Forall_app in HE. destruct HE as [HE1 HE2].
  assert (named nm run = run) as R1.
  { apply named_all; [exact HE1|]. eapply Forall_impl; [|exact HR]. intros k (_ & H & _). exact H. }
  assert (named nm rest = []) as R0.
  { apply named_none. eapply Forall_impl; [|apply (seq_names ns ps rest HS)]. intros k Hk E. apply N1. rewrite <- E. exact Hk. }
  constructor.
  - rewrite named_app, R0, app_nil_r, R1. split; [|exact HL]. eapply Forall_impl; [|exact HR]. intros k (A & _ & B). split; [exact A|].
    apply HW. exact B.
  - specialize (IH N2 rest HE2 HS). apply Forall_forall. intros [[[nm' rq'] rp'] w'] Hp. rewrite Forall_forall in IH. specialize (IH _ Hp).
    cbv beta iota in IH. rewrite named_app, (named_none nm' run); [exact IH|]. eapply Forall_impl; [|exact HR]. intros k (_ & E & _) E'.
    apply N1. rewrite <- E, E'. apply (in_map (fun p => fst (fst (fst p))) ps _ Hp).
Qed.

Lemma described_recognisable ok ns w : distinct w = true -> forall x, described ns w x -> recognisable ok ns w x.
Proof.
  induction w as [m e| | | |ps IH|attrs] using wtype_ind'; intros HW x HD; try exact HD.
  apply distinct_seq in HW. destruct HW as [HN HW]. apply described_seq in HD. apply recognisable_seq. split.
  - eapply Forall_impl; [|eapply (seq_parts ok ns ps); [|exact HN|apply elements_all|exact HD]].
    + intros [[[nm rq] rp] w]. rewrite (named_elements nm (children x)). intros H. exact H.
    + apply Forall_forall. intros p Hp y. rewrite Forall_forall in IH, HW. apply IH; [exact Hp|apply HW; exact Hp].
  - eapply Forall_impl; [|apply (seq_names ns ps _ HD)]. intros k Hk. left. exact Hk.
Qed.

Lemma services_recognisable ok ns el w x : In (ns, el, w) services -> described ns w x -> recognisable ok ns w x.
Proof.
  intros H. apply described_recognisable. pose proof services_distinct as K. rewrite forallb_forall in K. exact (K _ H).
Qed.
