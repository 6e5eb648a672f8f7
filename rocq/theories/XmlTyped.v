(** Decoded XML elements are well-typed values. *)
From Coq Require Import ZifyBool.
From Verif Require Import GoBase Utf8 Json Float64 Float64Proofs GoTime Lang Types Codec EncProofs Any AnyProofs DecProofs RoundTrip
  DecTyped Xml.
Open Scope string_scope.
Open Scope list_scope.

Lemma fneg_canon x : canon x = true -> canon (fneg x) = true.
Proof. destruct x; intros H; exact H. Qed.

Lemma dec_float_canon s x : dec_float s = Some x -> canon x = true.
Proof.
  unfold dec_float. destruct (span_digits s) as [ip r].
  destruct (if starts "."%char r then span_digits (drop1 r) else ("", r)) as [fp r1].
  destruct (_ && _); [discriminate|]. destruct (pexp r1) as [[e [|]]|]; try discriminate.
  intros H. apply parse_float_canon in H. apply H.
Qed.
Lemma hex_digits_nonneg s : forall acc, (0 <= acc)%Z -> (0 <= hex_digits_val acc s)%Z.
Proof. induction s as [|c s IH]; intros acc H; [exact H|]. cbn [hex_digits_val]. apply IH. destruct (hexval c); lia. Qed.
Lemma hex_value_canon h k x : (0 <= h)%Z -> hex_value h k = Some x -> canon x = true.
Proof.
  intros Hh. unfold hex_value. destruct (Z.eqb_spec h 0) as [->|N]; [intros H; assert (x = FFin false 0 (-1074)) as -> by congruence; reflexivity|].
  destruct (round_pos _ _) as [[m e]|] eqn:E; [|discriminate]. intros H. assert (x = FFin false m e) as -> by congruence.
  destruct (0 <=? k)%Z eqn:K; [apply Z.leb_le in K|apply Z.leb_gt in K].
  - refine (round_pos_canon _ _ m e false _ _ E); [|lia]. apply Z.mul_pos_pos; [lia|]. apply Z.pow_pos_nonneg; lia.
  - refine (round_pos_canon _ _ m e false _ _ E); [lia|]. apply Z.pow_pos_nonneg; lia.
Qed.
Lemma hex_float_canon s x : hex_float s = Some x -> canon x = true.
Proof.
  unfold hex_float. destruct (span_hex s) as [ip r].
  destruct (if starts "."%char r then span_hex (drop1 r) else ("", r)) as [fp r1].
  destruct (_ && _); [discriminate|]. destruct (_ || _); [|discriminate].
  destruct (if starts "-"%char (drop1 r1) then _ else _) as [neg r3].
  destruct (_ && _); [|discriminate]. apply hex_value_canon. apply hex_digits_nonneg. lia.
Qed.
Lemma ext_unsigned_canon s x : ext_unsigned s = Some x -> canon x = true.
Proof.
  unfold ext_unsigned. destruct (_ || _); [intros H; injection H as <-; reflexivity|].
  destruct (String.eqb _ _); [intros H; injection H as <-; reflexivity|].
  destruct (hex_prefix s).
  - cbv zeta. destruct (grouped_from _ _ _); [|discriminate]. apply hex_float_canon.
  - destruct (grouped_from _ _ _); [|discriminate]. apply dec_float_canon.
Qed.

Lemma xml_float_canon s x : xml_float s = Some x -> canon x = true.
Proof.
  unfold xml_float. destruct (String.eqb s ""); [intros H; injection H as <-; reflexivity|].
  destruct (parse_float (trim s)) as [y|] eqn:E; intros H.
  - injection H as <-. apply parse_float_canon in E. apply E.
  - unfold ext_float in H. destruct (starts "-"%char (trim s)).
    + destruct (String.eqb _ _); [discriminate|]. destruct (ext_unsigned _) as [y|] eqn:E2; [|discriminate].
      injection H as <-. apply fneg_canon, (ext_unsigned_canon _ _ E2).
    + destruct (starts "+"%char (trim s)); [destruct (String.eqb _ _); [discriminate|]|]; apply (ext_unsigned_canon _ _ H).
Qed.

Lemma parse_int_range b s z : parse_int b s = Some z -> (- 2 ^ (b - 1) <= z < 2 ^ (b - 1))%Z.
Proof.
  intros E. unfold parse_int in E. revert E.
  repeat match goal with |- context [match ?x with _ => _ end] => destruct x eqn:?; try discriminate end; intros E; injection E as <-; lia.
Qed.

Lemma xml_int_range b s z : (1 <= b)%Z -> xml_int b s = Some z -> (- 2 ^ (b - 1) <= z < 2 ^ (b - 1))%Z.
Proof.
  intros HB. unfold xml_int. destruct (String.eqb s "").
  - intros H. injection H as <-. assert (0 < 2 ^ (b - 1))%Z by (apply Z.pow_pos_nonneg; lia). lia.
  - destruct (starts "+"%char (trim s)); [destruct (starts "-"%char _); [discriminate|]|]; apply parse_int_range.
Qed.

(** Attribute and character-data fields are strings. *)
Lemma text_fields : forallb (fun d => forallb (fun f => match x_kind (f_xml f), f_ty f with
    | XAttr, TStr | XChar, TStr => true | XAttr, _ | XChar, _ => false | _, _ => true end) (d_fields d)) all_decls = true.
Proof. vm_compute. reflexivity. Qed.
Lemma text_field d f : In d all_decls -> In f (d_fields d) -> x_kind (f_xml f) = XAttr \/ x_kind (f_xml f) = XChar -> f_ty f = TStr.
Proof.
  intros HI HF HK. pose proof text_fields as H. rewrite forallb_forall in H. specialize (H d HI). rewrite forallb_forall in H.
  specialize (H f HF). destruct HK as [->| ->] in H; destruct (f_ty f); try discriminate H; reflexivity.
Qed.

Lemma names_nodup d : In d all_decls -> NoDup (map f_name (d_fields d)).
Proof. intros HI. pose proof (dec_ok_in d HI) as H. unfold dec_ok in H. apply andb_true_iff in H. destruct H as [H _]. apply nodupb_spec in H. exact H. Qed.

Lemma field_found d f : In d all_decls -> In f (d_fields d) -> find_field d (f_name f) = Some f.
Proof.
  intros HI E. pose proof (names_nodup d HI) as HN. clear HI.
  unfold find_field. induction (d_fields d) as [|h ds IH]; [destruct E|]. cbn [find map] in *. inversion HN as [|? ? N1 N2]; subst.
  destruct E as [->|E]; [rewrite String.eqb_refl; reflexivity|].
  destruct (String.eqb_spec (f_name h) (f_name f)) as [X|X]; [|auto]. exfalso. apply N1. rewrite X. apply in_map. exact E.
Qed.

Definition slot_typed (dl : slot) : Prop := forall t c v, tyok t = true -> has_type c t = true -> dl t c = Some v -> has_type v t = true.

Lemma take_attr_typed d a fs : In d all_decls -> struct_typed d fs -> struct_typed d (take_attr d a fs).
Proof.
  intros HI. unfold take_attr.
  assert (forall l, incl l (d_fields d) -> forall fs, struct_typed d fs -> struct_typed d (fold_left (fun fs f =>
    match x_kind (f_xml f) with
    | XAttr => if String.eqb (x_name (f_xml f)) (snd (fst a)) then set_field (f_name f) (VStr (snd a)) fs else fs
    | _ => fs
    end) l fs)) as K; [|apply K, incl_refl].
  induction l as [|f l IH]; intros HL st HS; [exact HS|]. cbn [fold_left]. apply IH.
  - intros g Hg. apply HL. right. exact Hg.
  - assert (In f (d_fields d)) as HF by (apply HL; left; reflexivity).
    destruct (x_kind (f_xml f)) eqn:EK; [exact HS| |exact HS|exact HS].
    destruct (String.eqb _ _); [|exact HS].
    apply (set_field_typed d st (f_name f) f); [apply names_nodup; exact HI|exact HS|apply field_found; assumption|].
    rewrite (text_field d f HI HF (or_introl EK)). reflexivity.
Qed.

Lemma take_text_typed d s fs : In d all_decls -> struct_typed d fs -> struct_typed d (take_text d s fs).
Proof.
  intros HI HS. unfold take_text. destruct (find _ (d_fields d)) as [f|] eqn:E; [|exact HS].
  apply find_some in E. destruct E as [HF EK].
  apply (set_field_typed d fs (f_name f) f); [apply names_nodup; exact HI|exact HS|apply field_found; assumption|].
  rewrite (text_field d f HI HF); [reflexivity|]. destruct (x_kind (f_xml f)); try discriminate EK. right. reflexivity.
Qed.

Lemma take_kids_typed d kids : In d all_decls -> Forall (fun kd => slot_typed (snd kd)) kids ->
  forall fs fs', struct_typed d fs -> take_kids d kids fs = Some fs' -> struct_typed d fs'.
Proof.
  intros HI HK. induction HK as [|[el dl] kids H1 _ IH]; intros fs fs' HS H; cbn [take_kids] in H; [injection H as <-; exact HS|].
  destruct (find (takes d el) (d_fields d)) as [f|] eqn:E; [|exact (IH fs fs' HS H)].
  apply find_some in E. destruct E as [HF _]. pose proof (field_found d f HI HF) as EF.
  destruct (lookup (f_name f) fs) as [cur|] eqn:EL; [|discriminate H].
  destruct (dl (f_ty f) cur) as [v|] eqn:EV; [|discriminate H].
  pose proof EF as EF'. unfold find_field in EF'. destruct (typed_lookup fs (d_fields d) (f_name f) f HS EF') as (c' & L1 & L2 & _).
  rewrite EL in L1. injection L1 as <-.
  apply (IH (set_field (f_name f) v fs)); [|exact H].
  apply (set_field_typed d fs (f_name f) f); [apply names_nodup; exact HI|exact HS|exact EF|].
  exact (H1 _ _ _ (proj1 (field_tyok d _ f HI EF)) L2 EV).
Qed.

Lemma xat_typed el attrs txt kids : Forall (fun kd => slot_typed (snd kd)) kids -> slot_typed (xat el attrs txt kids).
Proof.
  intros HK t. induction t as [|b| | | |t IH|t IH|n]; intros c v HT HC H; cbn [xat] in H.
  - injection H as <-. reflexivity.
  - destruct (xml_int b txt) as [z|] eqn:E; [|discriminate H]. injection H as <-. cbn [tyok] in HT.
    apply xml_int_range in E; [|lia]. cbn [has_type]. lia.
  - destruct (xml_float txt) as [x|] eqn:E; [|discriminate H]. injection H as <-. exact (xml_float_canon _ _ E).
  - destruct (xml_bool txt) as [x|]; [|discriminate H]. injection H as <-. reflexivity.
  - destruct (parse_rfc3339 txt) as [x|] eqn:E; [|discriminate H]. injection H as <-. exact (parse_time_valid _ _ E).
  - cbn [tyok] in HT. unfold omap in H. destruct (xat el attrs txt kids t (match c with VPtr v => v | _ => zero t end)) as [w|] eqn:E; [|discriminate H].
    injection H as <-. cbn [has_type]. refine (IH _ _ HT _ E).
    destruct c; try (apply zero_typed; exact HT). exact HC.
  - cbn [tyok] in HT. unfold omap in H. destruct (xat el attrs txt kids t (zero t)) as [w|] eqn:E; [|discriminate H].
    injection H as <-. cbn [has_type]. rewrite forallb_app. cbn [forallb]. rewrite (IH _ _ HT (zero_typed t HT) E).
    rewrite !andb_true_r. destruct c; try reflexivity. exact HC.
  - cbn [tyok] in HT. destruct (find_decl n) as [d|] eqn:Ed; [|discriminate HT]. destruct c as [| | | | | | | |fs]; try discriminate H.
    destruct (xname_ok d el); [|discriminate H]. destruct (find_decl_in n d Ed) as [HI _].
    unfold omap in H. destruct (take_kids d kids _) as [fs'|] eqn:E; [|discriminate H]. injection H as <-.
    apply (struct_typed_has n d _ Ed). apply take_text_typed; [exact HI|].
    apply (take_kids_typed d kids HI HK) with (2 := E).
    pose proof (has_struct_typed n d fs Ed HC) as HS. clear E HC. revert fs HS.
    induction attrs as [|a attrs IHa]; intros fs HS; [exact HS|]. cbn [fold_left]. apply IHa. apply take_attr_typed; assumption.
Qed.

Lemma xml_ind' (P : xml -> Prop) : (forall s, P (XT s)) -> (forall ns nm at_ ks, Forall P ks -> P (XE ns nm at_ ks)) -> forall x, P x.
Proof.
  intros H1 H2. fix IH 1. intros [ns nm at_ ks|s]; [|apply H1]. apply H2. induction ks as [|k ks IHk]; constructor; [apply IH|exact IHk].
Qed.

Theorem xdec_typed x : slot_typed (xdec x).
Proof.
  induction x as [s|ns nm at_ ks IH] using xml_ind'.
  - intros t c v _ _ H. discriminate H.
  - cbn [xdec]. apply xat_typed. induction IH as [|k ks H _ IH]; [constructor|]. cbn [flat_map]. apply Forall_app. split; [|exact IH].
    destruct k; [|constructor]. constructor; [exact H|constructor].
Qed.
