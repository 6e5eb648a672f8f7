(** Every number the encoders write is within the range of float64, so that
    json.Unmarshal into interface{} cannot fail on library output. *)
From Coq Require Import ZifyBool ZifyNat ZifyN.
From Verif Require Import GoBase Utf8 Json JsonProofs JsonText Float64 Float64Proofs GoTime GoTimeProofs
  Lang Types Codec EncProofs Any AnyProofs DecProofs SpecCodec RoundTrip.
Open Scope string_scope.
Open Scope list_scope.

Lemma round_int_total n : (0 < n < 2 ^ 64)%Z -> exists me, round_pos n 1 = Some me.
Proof.
  intros H. unfold round_pos. set (e := Z.max _ _).
  assert (He : (e <= 64)%Z).
  { unfold e, flog2. assert (Z.log2 n < 64)%Z by (apply Z.log2_lt_pow2; lia). change (Z.log2 1) with 0%Z.
    destruct (_ <=? _)%Z; lia. }
  clearbody e.
  lazymatch goal with |- context [(?x =? 2 ^ 53)%Z] => generalize x end. intros m.
  destruct (m =? 2 ^ 53)%Z.
  - assert ((971 <? e + 1)%Z = false) as -> by lia. eauto.
  - assert ((971 <? e)%Z = false) as -> by lia. eauto.
Qed.

Lemma dec_int_float z : (Z.abs z < 2 ^ 64)%Z -> exists x, parse_float (dec_int z) = Some x.
Proof.
  intros H. assert (K : forall n, (0 <= n < 2 ^ 64)%Z -> exists m e, parse_float (Float64.dec n) = Some (FFin false m e)).
  { intros n Hn. unfold parse_float. rewrite lit_parts_dec by lia. destruct (Z.eqb_spec n 0) as [->|E]; [eauto|].
    change (0 <=? 0)%Z with true. cbv iota. rewrite Z.pow_0_r, Z.mul_1_r.
    destruct (round_int_total n ltac:(lia)) as [[m e] ->]. eauto. }
  unfold dec_int. destruct (z <? 0)%Z eqn:E.
  - destruct (K (- z)%Z ltac:(lia)) as (m & e & Hp). destruct (dec_nominus (- z) EmptyString ltac:(lia)) as (c & r & E1 & E2).
    rewrite sapp_nil_r in E1. rewrite (parse_float_neg _ c r m e E1 E2 Hp). eauto.
  - destruct (K z ltac:(lia)) as (m & e & Hp). eauto.
Qed.

(** All numbers are readable as float64. *)
Fixpoint numok (j : json) : bool :=
  match j with
  | JNum l => match parse_float l with Some _ => true | None => false end
  | JArr l => forallb numok l
  | JObj l => forallb (fun kv => numok (snd kv)) l
  | _ => true
  end.

Lemma numok_jsan j : numok (jsan j) = numok j.
Proof.
  induction j as [|b|l|s|l IH|l IH] using json_ind'; cbn [jsan numok]; try reflexivity.
  - induction IH as [|x l E _ IHl]; [reflexivity|]. cbn [map forallb]. rewrite E, IHl. reflexivity.
  - induction IH as [|x l E _ IHl]; [reflexivity|]. cbn [map forallb snd]. rewrite E, IHl. reflexivity.
Qed.

Lemma numok_any j : numok j = true -> exists a, to_any j = Some a.
Proof.
  induction j as [|b|l|s|l IH|l IH] using json_ind'; cbn [numok to_any]; intros H; try (eexists; reflexivity).
  - destruct (parse_float l); [cbn; eauto|discriminate].
  - assert (exists xs, Forall2 (fun x y => to_any x = Some y) l xs) as [xs Hx].
    { induction IH as [|x l E _ IHl]; [eexists; constructor|]. cbn [forallb] in H. apply andb_true_iff in H.
      destruct H as [H1 H2]. destruct (E H1) as [a Ha]. destruct (IHl H2) as [xs Hx]. exists (a :: xs). constructor; assumption. }
    apply oall_map in Hx. rewrite Hx. cbn. eauto.
  - assert (exists xs, Forall2 (fun x y => omap (pair (fst x)) (to_any (snd x)) = Some y) l xs) as [xs Hx].
    { induction IH as [|x l E _ IHl]; [eexists; constructor|]. cbn [forallb] in H. apply andb_true_iff in H.
      destruct H as [H1 H2]. destruct (E H1) as [a Ha]. destruct (IHl H2) as [xs Hx]. exists ((fst x, a) :: xs).
      constructor; [rewrite Ha; reflexivity|assumption]. }
    apply oall_map in Hx. rewrite Hx. cbn. eauto.
Qed.

Fixpoint small_ty (t : gty) : bool :=
  match t with TInt b => (0 <=? b)%Z && (b <=? 64)%Z | TPtr t | TSlice t => small_ty t | _ => true end.

Lemma all_small : forallb (fun d => forallb (fun f => small_ty (f_ty f)) (d_fields d)) all_decls = true.
Proof. vm_compute. reflexivity. Qed.

Lemma jt_numok v : forall t j, small_ty t = true -> has_type v t = true -> jt t v = Ok j -> numok j = true.
Proof.
  induction v as [s|z|x|b|x| |v IH|l IH|fs IH] using gval_ind'; intros t j HS HT HJ;
    destruct t as [|bits| | | |t|t|n]; try discriminate; cbn [jt] in HJ.
  - injection HJ as <-. reflexivity.
  - injection HJ as <-. cbn [numok]. cbn [has_type] in HT. cbn [small_ty] in HS.
    apply andb_true_iff in HS. destruct HS as [S1 S2]. apply andb_true_iff in HT. destruct HT as [T1 T2].
    assert (2 ^ (bits - 1) <= 2 ^ 63)%Z.
    { destruct (Z.leb_spec 1 bits); [apply Z.pow_le_mono_r; lia|]. rewrite Z.pow_neg_r by lia. lia. }
    destruct (dec_int_float z) as [y ->]; [lia|reflexivity].
  - destruct (fmt_float x) as [s|] eqn:E; [|discriminate]. injection HJ as <-. cbn [has_type] in HT.
    destruct (nice_float x s HT E) as [_ H]. cbn [numok]. rewrite H. reflexivity.
  - injection HJ as <-. reflexivity.
  - destruct (_ && _); [|discriminate]. injection HJ as <-. reflexivity.
  - injection HJ as <-. reflexivity.
  - injection HJ as <-. reflexivity.
  - apply (IH t j); [exact HS|exact HT|exact HJ].
  - destruct (rmap _ l) as [js| |] eqn:E; [|discriminate|discriminate]. cbn [rbind] in HJ. injection HJ as <-.
    apply rmap_ok in E. cbn [has_type small_ty] in *. cbn [numok].
    induction E as [|x j l js Exj _ IHl]; [reflexivity|]. inversion IH; subst. cbn [forallb] in HT.
    apply andb_true_iff in HT. destruct HT as [T1 T2]. cbn [forallb].
    match goal with H : forall t j, _ |- _ => rewrite (H t j HS T1 Exj) end. apply IHl; assumption.
  - apply has_type_struct in HT. destruct HT as (d & Ed & HT). rewrite Ed in HJ.
    pose proof (find_decl_in n d Ed) as [HD _]. pose proof all_small as HA. rewrite forallb_forall in HA.
    specialize (HA d HD). rewrite forallb_forall in HA.
    fold (jenv d fs) in HJ. unfold struct_tree in HJ. destruct (items_of d) as [its|]; [|discriminate].
    destruct (items_run time_tree (jenv d fs) its) as [ms| |] eqn:ER; [|discriminate|discriminate].
    cbn [rbind] in HJ.
    assert (HM : forallb (fun kv => numok (snd kv)) ms = true).
    { clear HJ. revert ms ER. induction its as [|it its IHi]; intros ms ER; cbn [items_run] in ER.
      { injection ER as <-. reflexivity. }
      destruct it as [f msg|k f tm c].
      { destruct (lookup f (jenv d fs)) as [[v r]|]; [|discriminate]. destruct (is_nil v); [discriminate|auto]. }
      rewrite jenv_lookup in ER. destruct (lookup f fs) as [v|] eqn:El; [|discriminate].
      destruct (skipped c v); [auto|].
      destruct (if tm then time_tree v else _) as [x| |] eqn:Ex; [|discriminate|discriminate]. cbn [rbind] in ER.
      destruct (items_run time_tree (jenv d fs) its) as [ms'| |]; [|discriminate|discriminate]. cbn [rbind] in ER.
      injection ER as <-. cbn [forallb snd]. rewrite (IHi ms' eq_refl), andb_true_r.
      destruct tm.
      { destruct v as [| | | |y| |[]| | ]; cbn [time_tree] in Ex; try discriminate; injection Ex as <-; reflexivity. }
      destruct (find_field d f) as [fd|] eqn:Ef; [|discriminate].
      destruct (typed_lookup fs (d_fields d) f fd HT Ef) as (v' & Lv & Tv & Iv).
      rewrite El in Lv. injection Lv as <-. rewrite Forall_forall in IH.
      apply (IH (f, v) Iv (f_ty fd) x); [|exact Tv|exact Ex]. apply HA. apply find_some in Ef. tauto. }
    assert (Ej : j = if customised d then jsan (JObj ms) else JObj ms) by congruence. rewrite Ej.
    destruct (customised d); [rewrite numok_jsan|]; exact HM.
Qed.
