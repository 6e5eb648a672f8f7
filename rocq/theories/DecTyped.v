(** What decoding can produce: well-typed values only. *)
From Coq Require Import ZifyBool.
From Verif Require Import GoBase Utf8 Json JsonProofs Float64 Float64Proofs GoTime GoTimeProofs
  Lang Types Codec EncProofs AnyProofs DecProofs SpecCodec RoundTrip.
Open Scope string_scope.
Open Scope list_scope.

(** ** Parsed times exist *)

Lemma digits_val_bound s : str_forall is_digit s = true -> forall acc, (0 <= acc)%Z ->
  (digits_val acc s < (acc + 1) * 10 ^ Z.of_nat (String.length s))%Z.
Proof.
  induction s as [|c s IH]; intros H acc Ha; cbn [digits_val String.length].
  - rewrite Z.pow_0_r. lia.
  - cbn [str_forall] in H. apply andb_true_iff in H. destruct H as [H1 H2].
    assert (0 <= dval c <= 9)%Z.
    { unfold dval. unfold is_digit, between in H1. pose proof (code_bound c). lia. }
    specialize (IH H2 (10 * acc + dval c)%Z ltac:(lia)).
    rewrite Nat2Z.inj_succ, Z.pow_succ_r by lia.
    assert (0 < 10 ^ Z.of_nat (String.length s))%Z by (apply Z.pow_pos_nonneg; lia). nia.
Qed.

Lemma span_digits_spec s d r : span_digits s = (d, r) -> str_forall is_digit d = true.
Proof.
  revert d r. induction s as [|c s IH]; intros d r H; cbn [span_digits] in H.
  - injection H as <- <-. reflexivity.
  - destruct (is_digit c) eqn:E.
    + destruct (span_digits s) as [d' r'] eqn:E2. injection H as <- <-. cbn [str_forall]. rewrite E. apply (IH _ _ eq_refl).
    + injection H as <- <-. reflexivity.
Qed.

Lemma getfrac_bound s ns r : getfrac s = Some (ns, r) -> (0 <= ns < 1000000000)%Z.
Proof.
  unfold getfrac. destruct s as [|c [|d s]]; intros H; try (injection H as <- _; lia).
  destruct (Ascii.eqb c "." && is_dig d); [|injection H as <- _; lia].
  destruct (span_digits (String d s)) as [ds r'] eqn:E. pose proof (span_digits_spec _ _ _ E) as HD.
  destruct (digits_val 0 ds <? 1000000000)%Z eqn:EB; [|discriminate].
  assert (E1 : ns = (digits_val 0 ds * 10 ^ Z.max 0 (9 - Z.of_nat (String.length ds)))%Z) by congruence. rewrite E1. clear H E1.
  pose proof (digits_val_bound ds HD 0 ltac:(lia)) as HB. pose proof (digits_val_nonneg 0 ds ltac:(lia) HD) as HN.
  set (n := digits_val 0 ds) in *. set (k := Z.of_nat (String.length ds)) in *.
  destruct (Z.leb_spec k 9).
  - rewrite Z.max_r by lia. split; [apply Z.mul_nonneg_nonneg; [lia|apply Z.pow_nonneg; lia]|].
    assert (1000000000 = 10 ^ k * 10 ^ (9 - k))%Z as ->. { rewrite <- Z.pow_add_r by lia. replace (k + (9 - k))%Z with 9%Z by lia. reflexivity. }
    apply Z.mul_lt_mono_pos_r; [apply Z.pow_pos_nonneg; lia|lia].
  - rewrite Z.max_l by lia. rewrite Z.pow_0_r. lia.
Qed.

Lemma parse_time_valid s t : parse_rfc3339 s = Some t -> time_valid t = true.
Proof.
  unfold parse_rfc3339, obind. intros H.
  destruct (getyear s) as [[y s1]|]; [|discriminate].
  destruct (expect "-" s1) as [s2|]; [|discriminate].
  destruct (getnum true s2) as [[mo s3]|]; [|discriminate]. unfold in_range in H at 1.
  destruct ((1 <=? mo) && (mo <=? 12))%Z eqn:E1; [|discriminate].
  destruct (expect "-" s3) as [s4|]; [|discriminate].
  destruct (getnum true s4) as [[d s5]|]; [|discriminate].
  destruct (expect "T" s5) as [s6|]; [|discriminate].
  destruct (getnum false s6) as [[h s7]|]; [|discriminate]. unfold in_range in H at 1.
  destruct ((0 <=? h) && (h <=? 23))%Z eqn:E2; [|discriminate].
  destruct (expect ":" s7) as [s8|]; [|discriminate].
  destruct (getnum true s8) as [[mi s9]|]; [|discriminate]. unfold in_range in H at 1.
  destruct ((0 <=? mi) && (mi <=? 59))%Z eqn:E3; [|discriminate].
  destruct (expect ":" s9) as [s10|]; [|discriminate].
  destruct (getnum true s10) as [[se s11]|]; [|discriminate]. unfold in_range in H at 1.
  destruct ((0 <=? se) && (se <=? 59))%Z eqn:E4; [|discriminate].
  destruct (getfrac s11) as [[ns s12]|] eqn:E5; [|discriminate]. apply getfrac_bound in E5.
  destruct (getzone s12) as [[off s13]|]; [|discriminate].
  destruct s13; [|discriminate]. destruct ((1 <=? d) && (d <=? days_in mo y))%Z eqn:E6; [|discriminate].
  injection H as <-. unfold time_valid. cbn [t_month t_day t_hour t_min t_sec t_nsec t_year]. lia.
Qed.

(** ** Typed decoding *)

Fixpoint tyok (t : gty) : bool :=
  match t with
  | TInt b => (1 <=? b)%Z
  | TPtr t | TSlice t => tyok t
  | TStruct n => match find_decl n with Some _ => true | None => false end
  | _ => true
  end.

Lemma all_tyok : forallb (fun d => forallb (fun f => tyok (f_ty f) && negb (is_ty_struct (f_ty f))) (d_fields d)) all_decls = true.
Proof. vm_compute. reflexivity. Qed.

Lemma field_tyok d f fd : In d all_decls -> find_field d f = Some fd -> tyok (f_ty fd) = true /\ is_ty_struct (f_ty fd) = false.
Proof.
  intros HI Hf. pose proof all_tyok as HA. rewrite forallb_forall in HA. specialize (HA d HI). rewrite forallb_forall in HA.
  unfold find_field in Hf. apply find_some in Hf. destruct Hf as [Hf _]. specialize (HA fd Hf).
  apply andb_true_iff in HA. destruct HA as [A B]. split; [exact A|]. destruct (is_ty_struct (f_ty fd)); [discriminate|reflexivity].
Qed.

Definition struct_typed (d : decl) (fs : list (string * gval)) : Prop :=
  Forall2 (fun kv f => fst kv = f_name f /\ has_type (snd kv) (f_ty f) = true) fs (d_fields d).

Lemma struct_typed_has n d fs : find_decl n = Some d -> struct_typed d fs -> has_type (VStruct fs) (TStruct n) = true.
Proof.
  intros Hd HT. cbn [has_type]. rewrite Hd. unfold struct_typed in HT. induction HT as [|[k x] f fs ds [E1 E2] _ IH]; [reflexivity|].
  cbn [fst snd] in *. subst k. rewrite String.eqb_refl, E2. exact IH.
Qed.

Lemma has_struct_typed n d fs : find_decl n = Some d -> has_type (VStruct fs) (TStruct n) = true -> struct_typed d fs.
Proof. intros Hd HT. apply has_type_struct in HT. destruct HT as (d' & Hd' & HT). assert (d' = d) by congruence. subst d'. exact HT. Qed.

Lemma zero0_typed t : tyok t = true -> is_ty_struct t = false -> has_type (zero0 t) t = true.
Proof.
  destruct t; try discriminate; try reflexivity. intros H _. cbn [tyok] in H. cbn [zero0 has_type].
  assert (0 < 2 ^ (bits - 1))%Z by (apply Z.pow_pos_nonneg; lia). lia.
Qed.

Lemma zero_struct_typed d : In d all_decls -> struct_typed d (map (fun f => (f_name f, zero0 (f_ty f))) (d_fields d)).
Proof.
  intros HI. pose proof all_tyok as HA. rewrite forallb_forall in HA. specialize (HA d HI). rewrite forallb_forall in HA.
  unfold struct_typed. induction (d_fields d) as [|f l IH]; [constructor|]. cbn [map]. constructor.
  - cbn [fst snd]. split; [reflexivity|]. specialize (HA f (or_introl eq_refl)). apply andb_true_iff in HA. destruct HA as [A B].
    apply zero0_typed; [exact A|]. destruct (is_ty_struct (f_ty f)); [discriminate|reflexivity].
  - apply IH. intros g Hg. apply HA. right. exact Hg.
Qed.

Lemma zero_typed t : tyok t = true -> has_type (zero t) t = true.
Proof.
  destruct t; intros H; try (apply zero0_typed; [exact H|reflexivity]).
  cbn [zero]. cbn [tyok] in H. destruct (find_decl n) as [d|] eqn:E; [|discriminate].
  unfold zero_struct. apply (struct_typed_has n d); [exact E|]. apply zero_struct_typed. apply (find_decl_in n d E).
Qed.

Lemma set_field_typed d fs f fd v : NoDup (map f_name (d_fields d)) -> struct_typed d fs -> find_field d f = Some fd ->
  has_type v (f_ty fd) = true -> struct_typed d (set_field f v fs).
Proof.
  unfold struct_typed, find_field. intros HN HT. induction HT as [|[k x] g fs ds [E1 E2] HT IH]; [constructor|].
  cbn [fst snd map] in *. subst k. inversion HN as [|? ? N1 N2]; subst. cbn [find set_field]. intros Hf Hv.
  destruct (String.eqb_spec (f_name g) f) as [E|E].
  - injection Hf as <-. constructor; [split; [reflexivity|exact Hv]|exact HT].
  - constructor; [split; [reflexivity|exact E2]|]. apply IH; assumption.
Qed.

Definition dl_typed (dl : delayed) : Prop := forall t c v, tyok t = true -> has_type c t = true -> dl t c = Some v -> has_type v t = true.

Lemma gturns_typed d tg strict l : In d all_decls ->
  (forall k f t, tg k = Some (f, t) -> exists fd, find_field d f = Some fd /\ t = f_ty fd) ->
  Forall (fun kv => dl_typed (snd kv)) l -> forall fs fs', struct_typed d fs ->
  gturns tg strict l fs = Some fs' -> struct_typed d fs'.
Proof.
  intros HI HT HL. assert (HN : NoDup (map f_name (d_fields d))).
  { pose proof (dec_ok_in d HI) as H. unfold dec_ok in H. apply andb_true_iff in H. destruct H as [H _]. apply nodupb_spec in H. exact H. }
  induction HL as [|[k dl] l H1 _ IH]; intros fs fs' HF HG; cbn [gturns] in HG; [congruence|].
  destruct (tg k) as [[f t]|] eqn:ET.
  - destruct (HT k f t ET) as (fd & Ef & ->). destruct (lookup f fs) as [c|] eqn:EL; [|discriminate].
    cbn [snd] in H1. destruct (dl (f_ty fd) c) as [v|] eqn:Ev; [|discriminate].
    pose proof (field_tyok d f fd HI Ef) as [T1 _].
    pose proof Ef as Ef'. unfold find_field in Ef'. destruct (typed_lookup fs (d_fields d) f fd HF Ef') as (c' & L1 & L2 & _).
    assert (c' = c) by congruence. subst c'.
    apply (IH (set_field f v fs) fs'); [|exact HG]. apply (set_field_typed d fs f fd); try assumption.
    apply (H1 _ _ _ T1 L2 Ev).
  - destruct strict; [discriminate|]. apply (IH fs fs' HF HG).
Qed.

Lemma table_target_ok d cases : forall k f t, table_target d cases k = Some (f, t) -> exists fd, find_field d f = Some fd /\ t = f_ty fd.
Proof.
  intros k f t H. unfold table_target in H. destruct (case_of cases k) as [c|]; [|discriminate].
  destruct (find_field d (c_field c)) as [fd|] eqn:E; [|discriminate]. injection H as <- <-. eauto.
Qed.
Lemma default_tgt_ok d : In d all_decls -> forall k f t, default_tgt d k = Some (f, t) -> exists fd, find_field d f = Some fd /\ t = f_ty fd.
Proof.
  intros HI k f t H. unfold default_tgt in H. destruct (default_target d k) as [g|] eqn:E; [|discriminate].
  injection H as <- <-. apply default_target_fold in E. destruct E as [E _]. exists g. split; [|reflexivity].
  assert (HN : NoDup (map f_name (d_fields d))).
  { pose proof (dec_ok_in d HI) as H. unfold dec_ok in H. apply andb_true_iff in H. destruct H as [H _]. apply nodupb_spec in H. exact H. }
  unfold find_field. clear HI. induction (d_fields d) as [|h ds IH]; [destruct E|]. cbn [find map] in *. inversion HN as [|? ? N1 N2]; subst.
  destruct E as [->|E]; [rewrite String.eqb_refl; reflexivity|].
  destruct (String.eqb_spec (f_name h) (f_name g)) as [X|X]; [|auto]. exfalso. apply N1. rewrite X. apply in_map. exact E.
Qed.

Lemma in_dedup {A} (l : list (string * A)) x : In x (dedup l) -> In x l.
Proof.
  induction l as [|[k v] l IH]; [intros []|]. cbn [dedup]. destruct (has_key k l); intros H.
  - right. auto.
  - destruct H as [<-|H]; [left; reflexivity|right; auto].
Qed.

Lemma unmarshal_typed d l fs fs' : In d all_decls -> Forall (fun kv => dl_typed (snd kv)) (match l with Some l => l | None => [] end) ->
  struct_typed d fs -> unmarshal_struct (fun l => l) d l fs = Some fs' -> struct_typed d fs'.
Proof.
  intros HI HL HF HU. unfold unmarshal_struct in HU. destruct (d_dec d) as [fl cases st ck|] eqn:ED.
  - rewrite (run_table_eq d fl cases st ck _ fs HI ED) in HU. destruct (forallb _ ck); [|discriminate].
    eapply gturns_typed; [exact HI|apply table_target_ok| |exact HF|exact HU].
    destruct l as [l|]; [|constructor]. apply Forall_forall. intros x Hx. apply in_dedup in Hx. rewrite Forall_forall in HL. auto.
  - destruct l as [l|]; [|congruence]. rewrite default_gturns in HU.
    eapply gturns_typed; [exact HI|apply (default_tgt_ok d HI)|exact HL|exact HF|exact HU].
Qed.

Lemma at_ty_typed j arr obj : Forall dl_typed arr -> Forall (fun kv => dl_typed (snd kv)) obj -> dl_typed (at_ty (fun l => l) j arr obj).
Proof.
  intros HA HO t. induction t as [|b| | | |t IH|t IH|n]; intros c v HK HC H; cbn [at_ty] in H.
  - destruct j; try discriminate; injection H as <-; [exact HC|reflexivity].
  - destruct j; try discriminate; [injection H as <-; exact HC|]. unfold omap in H. destruct (parse_int b lit) as [z|] eqn:E; [|discriminate].
    injection H as <-. cbn [has_type]. unfold parse_int in E. revert E.
    repeat match goal with |- context [match ?x with _ => _ end] => destruct x eqn:?; try discriminate end; intros E; injection E as <-; lia.
  - destruct j; try discriminate; [injection H as <-; exact HC|]. unfold omap in H. destruct (parse_float lit) as [x|] eqn:E; [|discriminate].
    injection H as <-. cbn [has_type]. apply (parse_float_canon _ _ E).
  - destruct j; try discriminate; injection H as <-; [exact HC|reflexivity].
  - destruct j; try discriminate; [injection H as <-; exact HC|]. unfold omap in H. destruct (parse_rfc3339 s) as [x|] eqn:E; [|discriminate].
    injection H as <-. cbn [has_type]. apply (parse_time_valid _ _ E).
  - assert (X : j = JNull \/ omap VPtr (at_ty (fun l => l) j arr obj t (match c with VPtr v => v | _ => zero t end)) = Some v).
    { destruct j; [left; reflexivity|right; exact H..]. }
    destruct X as [->|X]; [injection H as <-; reflexivity|]. clear H.
    unfold omap in X. destruct (at_ty (fun l => l) j arr obj t (match c with VPtr v => v | _ => zero t end)) as [w|] eqn:E; [|discriminate].
    injection X as <-. cbn [has_type]. cbn [tyok] in HK. eapply IH; [exact HK| |exact E].
    destruct c; cbn [has_type] in HC; try discriminate; [apply zero_typed; exact HK|exact HC].
  - destruct j; try discriminate; [injection H as <-; reflexivity|]. cbn [tyok] in HK.
    unfold omap in H. match type of H with match ?x with _ => _ end = _ => destruct x as [w|] eqn:E; [|discriminate] end. injection H as <-.
    cbn [has_type].
    assert (HCs : forall curs, Forall (fun x => has_type x t = true) curs -> forall w,
      elems (fun c (dl : delayed) => dl t c) (zero t) curs arr = Some w -> forallb (fun x => has_type x t) w = true).
    { clear E IH. induction HA as [|dl arr H1 _ IHA]; intros curs HCs w' E; cbn [elems] in E; [injection E as <-; reflexivity|].
      destruct (dl t (hd (zero t) curs)) as [x|] eqn:E1; [|discriminate].
      destruct (elems _ _ (tl curs) arr) as [xs|] eqn:E2; [|discriminate]. injection E as <-. cbn [forallb].
      rewrite (IHA (tl curs)); [|destruct HCs; [constructor|assumption]|exact E2].
      rewrite (H1 t (hd (zero t) curs) x HK); [reflexivity| |exact E1].
      destruct HCs; cbn [hd]; [apply zero_typed; exact HK|assumption]. }
    eapply HCs; [|exact E]. destruct c; cbn [has_type] in HC; try discriminate; [constructor|]. apply Forall_forall.
    rewrite forallb_forall in HC. exact HC.
  - cbn [tyok] in HK. destruct (find_decl n) as [d|] eqn:Ed; [|discriminate]. destruct c; try discriminate.
    destruct (find_decl_in n d Ed) as [HI _]. pose proof (has_struct_typed n d fs Ed HC) as HF.
    destruct j; try discriminate; unfold omap in H.
    + destruct (unmarshal_struct (fun l => l) d None fs) as [fs'|] eqn:E; [|discriminate]. injection H as <-.
      apply (struct_typed_has n d); [exact Ed|]. eapply unmarshal_typed; [exact HI| |exact HF|exact E]. constructor.
    + destruct (unmarshal_struct (fun l => l) d (Some obj) fs) as [fs'|] eqn:E; [|discriminate]. injection H as <-.
      apply (struct_typed_has n d); [exact Ed|]. eapply unmarshal_typed; [exact HI| |exact HF|exact E]. exact HO.
Qed.

Theorem dec_typed j : dl_typed (dec j).
Proof.
  induction j as [|b|l|s|l IH|l IH] using json_ind'; cbn [dec]; apply at_ty_typed; try constructor.
  - apply Forall_forall. intros dl Hd. apply in_map_iff in Hd. destruct Hd as (x & <- & Hx). rewrite Forall_forall in IH. auto.
  - apply Forall_forall. intros dl Hd. apply in_map_iff in Hd. destruct Hd as (x & <- & Hx). rewrite Forall_forall in IH. cbn [snd]. auto.
Qed.

Theorem unmarshal_msg_typed n d s v : find_decl n = Some d -> unmarshal_msg n s = Some v -> has_type v (TStruct n) = true.
Proof.
  intros Hd H. unfold unmarshal_msg in H. destruct (parse s) as [j|]; [|discriminate].
  assert (HK : tyok (TStruct n) = true) by (cbn [tyok]; rewrite Hd; reflexivity).
  eapply dec_typed; [exact HK|apply zero_typed; exact HK|exact H].
Qed.
