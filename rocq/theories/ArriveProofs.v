(** A sent message at the other end: SpecSays.v and SpecYields.v together. *)
From Coq Require Import ZifyBool QArith.
From Verif Require Import GoBase Utf8 Json JsonProofs Float64 Float64Proofs GoTime GoTimeProofs
  Lang Types Codec EncProofs Any AnyProofs DecProofs SpecCodec RoundTrip NumTotal DecTyped Tables Registry Frame FrameProofs
  SpecEnc EncTotal Schemas SpecSchema FloatInt SchemaProofs SpecTime SpecReads PropsTime ReadsProofs SpecNumber NearProofs SpecShort SpecYields YieldsProofs
  SpecSays SaysProofs SpecArrives ArriveInt.
From Verif Require PropsNumber.
Open Scope string_scope.
Open Scope list_scope.
Local Open Scope Z_scope.

(** Types of fields: no pointer to a pointer or a slice, integers of 32 or 64 bits. *)
Fixpoint sent (t : gty) : bool :=
  match t with
  | TInt b => (b =? 32) || (b =? 64)
  | TPtr t => match t with TPtr _ | TSlice _ => false | _ => sent t end
  | TSlice t => sent t
  | TStruct n => match find_decl n with Some _ => true | None => false end
  | _ => true
  end.
(** Members that have to be there are always written. *)
Definition present (d : decl) : bool :=
  forallb (fun fd => sent (f_ty fd) && match f_ty fd with TStruct _ => false | _ => true end) (d_fields d) &&
  forallb (fun k => existsb (fun fd => String.eqb (f_json fd) k && negb (listed (d_name d) (f_name fd) omitted_if_nil) &&
                               negb (listed (d_name d) (f_name fd) omitted_if_empty)) (d_fields d)) (obligatory (d_name d)).
Lemma all_present : forallb present all_decls = true.
Proof. vm_compute. reflexivity. Qed.

Lemma said_null t v : sent (TPtr t) = true -> has_type v t = true -> says t v ANull -> False.
Proof. intros HS HT H. destruct t; cbn [sent] in HS; try discriminate HS; inversion H; subst; discriminate HT. Qed.

Lemma int_arrives b z m e v' : 1 <= b <= 64 -> - 2 ^ (b - 1) <= z < 2 ^ (b - 1) -> nearest (inject_Z (Z.abs z)) m e ->
  yields (TInt b) (ANum (FFin (z <? 0) m e)) v' <-> arrives (TInt b) (VInt z) v'.
Proof.
  intros HB HZ HN. split; intros H.
  - inversion H as [| | |b' x s y J I B| | | | |]; subst. constructor; [|exact B]. exists m, e, s. auto.
  - inversion H as [| |b' z0 y (m' & e' & s & N & J & I) B| | | | | | |]; subst. destruct (nearest_unique _ _ _ _ _ HN N) as [<- <-].
    eapply yl_int; eassumption.
Qed.

Lemma time_arrives x s v' : writable x -> rfc3339 s (whole_second x) -> yields TTime (AStr s) v' <-> arrives TTime (VTime x) v'.
Proof.
  intros (R & _) HS. assert (R' : real_time (whole_second x)) by (revert R; unfold real_time, whole_second; cbn; intuition lia).
  pose proof (C70_rfc3339_accepted s _ HS R') as P. split; intros H.
  - inversion H as [| | | | |s' t G R2| | |]; subst. pose proof (proj2 (C70_accepted_iff s t) (conj G R2)) as P'.
    assert (t = whole_second x) as -> by congruence. constructor.
  - inversion H; subst. apply C70_accepted_iff in P. destruct P. constructor; assumption.
Qed.

Lemma times_of v w : In v (match w with VPtr v => [v] | VSlice l => l | VStruct fs => map snd fs | _ => [] end) ->
  Forall writable (times w) -> Forall writable (times v).
Proof.
  unfold times. intros HI HF. destruct w as [| | | | | |w|l|fs]; try (destruct HI; fail).
  - destruct HI as [<-|[]]. exact HF.
  - cbn [leaves] in HF. rewrite Forall_forall in HF |- *. intros t Ht. apply HF. apply in_flat_map. eauto.
  - cbn [leaves] in HF. rewrite Forall_forall in HF |- *. intros t Ht. apply HF. apply in_map_iff in HI. destruct HI as (kv & <- & HI). apply in_flat_map. eauto.
Qed.

Theorem said_arrives v : forall t a, sent t = true -> has_type v t = true -> Forall writable (times v) -> says t v a ->
  forall v', yields t a v' <-> arrives t v v'.
Proof.
  induction v as [s|z|x|b|x| |v IH|l IH|fs IH] using gval_ind'; intros t a HO HT HW HS v';
    destruct t as [|bits| | | |t|t|n]; try discriminate HT.
  - inversion HS; subst. split; intros H; inversion H; subst; constructor.
  - inversion HS as [| |b' z0 m e N| | | | | | |]; subst. cbn [sent] in HO. cbn [has_type] in HT. apply int_arrives; [lia|lia|exact N].
  - inversion HS; subst. split; intros H; inversion H; subst; constructor.
  - inversion HS; subst. split; intros H; inversion H; subst; constructor.
  - inversion HS as [| | | |x0 s HR| | | | |]; subst. assert (W : writable x) by (unfold times in HW; cbn [leaves] in HW; inversion HW; assumption).
    apply time_arrives; [exact W|exact (HR W)].
  - inversion HS; subst. split; intros H; [inversion H; subst; [constructor|congruence]|]. inversion H; subst. apply (yl_null (TPtr t)). intros n E; discriminate E.
  - inversion HS; subst. split; intros H; [inversion H; subst; constructor|]. inversion H; subst. apply (yl_null (TSlice t)). intros n E; discriminate E.
  - inversion HS as [| | | | | |t0 v0 a0 S| | |]; subst. cbn [has_type] in HT.
    assert (NN : a <> ANull) by (intros ->; exact (said_null t v HO HT S)).
    assert (HO' : sent t = true) by (cbn [sent] in HO; destruct t; try discriminate HO; exact HO).
    assert (HW' : Forall writable (times v)) by (apply (times_of v (VPtr v)); [left; reflexivity|exact HW]).
    split; intros H.
    + inversion H as [| | | | | |t0 a0 w _ Y| |]; subst; [contradiction (NN eq_refl)|]. constructor. apply (IH t a); assumption.
    + inversion H as [| | | | | |t0 v0 w R| | |]; subst. constructor; [exact NN|]. apply (IH t a); assumption.
  - inversion HS as [| | | | | | | |t0 l0 xs S|]; subst. cbn [has_type] in HT. cbn [sent] in HO.
    assert (G : forall ws, Forall2 (yields t) xs ws <-> Forall2 (arrives t) l ws).
    { assert (HW' : Forall (fun v => Forall writable (times v)) l).
      { apply Forall_forall. intros v Hv. apply (times_of v (VSlice l)); [exact Hv|exact HW]. }
      clear HS HW. induction S as [|v a l xs S1 _ IHS]; intros ws; [split; intros H; inversion H; constructor|].
      cbn [forallb] in HT. apply andb_true_iff in HT. destruct HT as [T1 T2]. inversion IH as [|? ? I1 I2]; inversion HW' as [|? ? W1 W2]; subst.
      split; intros H; inversion H as [|? w ? ws' H1 H2]; subst; (constructor; [apply (I1 t a); assumption|apply IHS; assumption]). }
    split; intros H.
    + inversion H as [| | | | | | |t0 l0 ws F|]; subst. constructor. apply G. exact F.
    + inversion H as [| | | | | | | |t0 l0 ws F|]; subst. constructor. apply G. exact F.
  - inversion HS as [| | | | | | | | |n0 d fs0 m Hd HN HK HF]; subst. clear HS.
    destruct (find_decl_in n d Hd) as [HI Hnm]. pose proof (names_distinct d HI) as HD.
    pose proof all_present as AP. rewrite forallb_forall in AP. specialize (AP d HI). unfold present in AP. rewrite Hnm in AP. apply andb_true_iff in AP. destruct AP as [AP1 AP2].
    rewrite forallb_forall in AP1, AP2.
    destruct (forall2_keyed _ _ _ HF (fun fd kv P => proj1 P) HD) as [E1 E2].
    apply has_type_struct in HT. destruct HT as (d' & Hd' & HT). assert (d' = d) as -> by congruence.
    assert (TYF : forall fd v, In fd (d_fields d) -> lookup (f_name fd) fs = Some v -> has_type v (f_ty fd) = true /\ Forall writable (times v) /\
       (forall a, says (f_ty fd) v a -> forall v', yields (f_ty fd) a v' <-> arrives (f_ty fd) v v')).
    { intros fd v Hf Hl. assert (HIv : In (f_name fd, v) fs) by (apply lookup_In; exact Hl).
      assert (T : has_type v (f_ty fd) = true).
      { clear -HT Hf HIv HD. revert HT Hf HIv HD. generalize (d_fields d). intros ds HT. induction HT as [|kv g fs ds [Q1 Q2] HT IHT]; intros Hf HIv HD; [destruct Hf|].
        cbn [map] in HD. inversion HD as [|? ? M1 M2]; subst. destruct Hf as [->|Hf], HIv as [->|HIv]; cbn [fst snd] in *.
        - exact Q2.
        - exfalso. apply M1. clear -HT HIv. induction HT as [|kv' g fs ds [Q1 _] _ IHT]; [destruct HIv|]. destruct HIv as [->|HIv]; [left; symmetry; exact Q1|right; auto].
        - exfalso. apply M1. rewrite <- Q1. apply in_map. exact Hf.
        - auto. }
      assert (W : Forall writable (times v)).
      { apply (times_of v (VStruct fs)); [|exact HW]. apply in_map_iff. exists (f_name fd, v). auto. }
      split; [exact T|]. split; [exact W|]. intros a S. rewrite Forall_forall in IH. specialize (IH _ HIv). cbn [snd] in IH. apply IH; try assumption.
      specialize (AP1 fd Hf). apply andb_true_iff in AP1. apply AP1. }
    assert (GO : forall fd k, In fd (d_fields d) -> In k (map fst m) -> goes_to d fd k <-> f_json fd = k /\ lost n (f_name fd) = false).
    { intros fd k Hf Hk. unfold goes_to, named. rewrite Hnm. split; [|tauto]. intros [[H|(_ & H & _)] L]; [auto|]. exfalso.
      specialize (HK k Hk). apply in_map_iff in HK. destruct HK as (g & G1 & G2). exact (H g G2 G1). }
    assert (OB : incl (obligatory n) (map fst m)).
    { intros k Hk. specialize (AP2 k Hk). apply existsb_exists in AP2. destruct AP2 as (fd & Hf & Q). rewrite !andb_true_iff in Q. destruct Q as ((Q1 & Q2) & Q3).
      apply String.eqb_eq in Q1. apply negb_true_iff in Q2, Q3. destruct (E2 fd Hf) as (v & V1 & _ & V2 & V3). cbn [snd] in V2, V3.
      destruct (lookup (f_json fd) m) as [a|] eqn:EL.
      - rewrite <- Q1. apply in_map_iff. exists (f_json fd, a). split; [reflexivity|apply lookup_In; exact EL].
      - pose proof (proj1 V3 eq_refl) as L. unfold left_out in L. rewrite Q2, Q3 in L. discriminate L. }
    assert (FLD : forall fd v w, In fd (d_fields d) -> lookup (f_name fd) fs = Some v ->
      ((forall k a, In (k, a) m -> goes_to d fd k -> yields (f_ty fd) a w) /\ ((forall k, In k (map fst m) -> ~ goes_to d fd k) -> w = zero (f_ty fd)) <->
       (lost n (f_name fd) = false -> arrives (f_ty fd) v w) /\ (lost n (f_name fd) = true -> w = zero (f_ty fd)))).
    { intros fd v w Hf Hl. destruct (TYF fd v Hf Hl) as (T & _ & A). destruct (E2 fd Hf) as (v0 & V1 & _ & V2 & V3). assert (v0 = v) as -> by congruence. cbn [snd] in V2, V3.
      destruct (lost n (f_name fd)) eqn:EL.
      - split.
        + intros [_ H]. split; [discriminate|]. intros _. apply H. intros k Hk G. apply GO in G; [|assumption..]. destruct G as [_ G]. rewrite EL in G. discriminate G.
        + intros [_ H]. split; [|intros _; apply H; reflexivity]. intros k a Hk G. apply GO in G; [|exact Hf|apply in_map_iff; exists (k, a); auto]. destruct G as [_ G]. rewrite EL in G. discriminate G.
      - destruct (lookup (f_json fd) m) as [a|] eqn:EM.
        + specialize (A a (V2 a eq_refl)). pose proof (lookup_In _ _ _ EM) as HIn. split.
          * intros [H _]. split; [|discriminate]. intros _. apply A. apply (H (f_json fd) a HIn). apply GO; [exact Hf|apply in_map_iff; exists (f_json fd, a); auto|auto].
          * intros [H _]. specialize (H eq_refl). split.
            { intros k a' Hk G. apply GO in G; [|exact Hf|apply in_map_iff; exists (k, a'); auto]. destruct G as [<- _].
              assert (a' = a) as -> by exact (nodup_pair m _ a' a HN Hk HIn). apply A. exact H. }
            { intros H'. exfalso. apply (H' (f_json fd)); [apply in_map_iff; exists (f_json fd, a); auto|]. apply GO; [exact Hf|apply in_map_iff; exists (f_json fd, a); auto|auto]. }
        + assert (NG : forall k, In k (map fst m) -> ~ goes_to d fd k).
          { intros k Hk G. apply GO in G; [|assumption..]. destruct G as [<- _]. apply in_map_iff in Hk. destruct Hk as ([k' a] & E & Hk). cbn [fst] in E. subst k'.
            rewrite (lookup_nodup _ _ _ HN Hk) in EM. discriminate EM. }
          assert (Z : arrives (f_ty fd) v w <-> w = zero (f_ty fd)).
          { pose proof (proj1 V3 eq_refl) as L. unfold left_out in L. specialize (AP1 fd Hf). apply andb_true_iff in AP1. destruct AP1 as [AP1 _].
            assert (LL : v = VNil \/ v = VInt 0).
            { apply orb_true_iff in L. destruct L as [L|L]; apply andb_true_iff in L; destruct L as [_ L]; destruct v; try discriminate L; try (left; reflexivity).
              apply Z.eqb_eq in L. right. congruence. }
            destruct LL as [-> | ->].
            - destruct (f_ty fd); try discriminate T; (split; [intros H; inversion H; reflexivity|intros ->; constructor]).
            - destruct (f_ty fd) as [|bits| | | | | |]; try discriminate T. cbn [sent] in AP1. change (zero (TInt bits)) with (VInt 0).
              destruct (becomes_small 0 ltac:(cbn; lia)) as [B1 B2]. split.
              + intros H. inversion H as [| |b0 z0 y B _| | | | | | |]; subst. rewrite (B2 y B). reflexivity.
              + intros ->. constructor; [exact B1|]. assert (0 < 2 ^ (bits - 1)) by (apply Z.pow_pos_nonneg; lia). lia. }
          split.
          * intros [_ H]. split; [|discriminate]. intros _. apply Z. exact (H NG).
          * intros [H _]. specialize (H eq_refl). apply Z in H. split; [|intros _; exact H]. intros k a Hk G. exfalso. apply (NG k); [apply in_map_iff; exists (k, a); auto|exact G]. }
    split; intros H.
    + inversion H as [| | | | | | | |n0 d0 m0 fs' Hd0 Y1 Y2 Y3]; subst. assert (d0 = d) as -> by congruence.
      destruct (forall2_keyed _ _ _ Y3 (fun fd kv P => proj1 P) HD) as [F1 F2].
      apply (ar_struct _ d); [exact Hd|exact F1| |].
      * intros fd v w Hf L1 L2 EL. destruct (F2 fd Hf) as (w' & W1 & _ & W2). assert (w' = w) as -> by congruence. cbn [snd] in W2.
        apply (FLD fd v w Hf L1) in W2. apply W2. exact EL.
      * intros fd w Hf L2 EL. destruct (F2 fd Hf) as (w' & W1 & _ & W2). assert (w' = w) as -> by congruence. cbn [snd] in W2.
        destruct (E2 fd Hf) as (v & V1 & _). apply (FLD fd v w Hf V1) in W2. apply W2. exact EL.
    + inversion H as [| | | | | | | | |n0 d0 fs0 fs' Hd0 Y1 Y2 Y3]; subst. assert (d0 = d) as -> by congruence.
      apply (yl_struct _ d); [exact Hd| |exact OB|].
      * intros _ k Hk. specialize (HK k Hk). apply in_map_iff in HK. destruct HK as (fd & G1 & G2). exists fd. auto.
      * apply keyed_forall2; [exact Y1|exact HD|]. intros fd w Hf L2. cbn [fst snd]. split; [reflexivity|].
        destruct (E2 fd Hf) as (v & V1 & _). apply (FLD fd v w Hf V1). split; [exact (Y2 fd v w Hf V1 L2)|exact (Y3 fd w Hf L2)].
Qed.

(** ** What arrives: one value at most, and one exactly if the integers fit *)

Lemma keyed_lookup (P : gval -> gty -> Prop) fs ds : Forall2 (fun (kv : string * gval) f => fst kv = f_name f /\ P (snd kv) (f_ty f)) fs ds -> NoDup (map f_name ds) ->
  forall fd, In fd ds -> exists v, lookup (f_name fd) fs = Some v /\ P v (f_ty fd).
Proof.
  intros HF. induction HF as [|[k v] g fs ds [Q1 Q2] _ IH]; intros ND fd HI; [destruct HI|]. cbn [map fst snd lookup] in *. subst k.
  inversion ND as [|? ? N1 N2]; subst. destruct HI as [->|HI]; [rewrite String.eqb_refl; eauto|].
  destruct (String.eqb_spec (f_name fd) (f_name g)) as [E|]; [exfalso; apply N1; rewrite <- E; apply in_map; exact HI|auto].
Qed.
Lemma keyed_pairs {A B} (R : A -> B -> Prop) (fs : list (string * A)) (gs : list (string * B)) : map fst fs = map fst gs -> NoDup (map fst fs) ->
  (forall k v w, lookup k fs = Some v -> lookup k gs = Some w -> R v w) -> Forall2 (fun kv kw => R (snd kv) (snd kw)) fs gs.
Proof.
  revert gs. induction fs as [|[k v] fs IH]; intros [|[k' w] gs] E ND H; try discriminate E; constructor; cbn [map fst snd] in *.
  - injection E as <- E. apply (H k); cbn [lookup]; rewrite String.eqb_refl; reflexivity.
  - injection E as <- E. inversion ND as [|? ? N1 N2]; subst. apply IH; [exact E|exact N2|]. intros j v' w' L1 L2. apply (H j); cbn [lookup].
    + destruct (String.eqb_spec j k) as [->|]; [|exact L1]. exfalso. apply N1. apply in_map_iff. exists (k, v'). split; [reflexivity|apply lookup_In; exact L1].
    + destruct (String.eqb_spec j k) as [->|]; [|exact L2]. exfalso. apply N1. apply in_map_iff. exists (k, v'). split; [reflexivity|apply lookup_In; exact L1].
Qed.
Definition lost_kind (d : decl) : bool :=
  forallb (fun fd => negb (lost (d_name d) (f_name fd)) || match f_ty fd with TStr | TPtr TTime => true | _ => false end) (d_fields d).
Lemma all_lost_kind : forallb lost_kind all_decls = true.
Proof. vm_compute. reflexivity. Qed.
Lemma lost_ints d fd v : In d all_decls -> In fd (d_fields d) -> lost (d_name d) (f_name fd) = true -> has_type v (f_ty fd) = true -> ints v = [] /\ ints (zero (f_ty fd)) = [].
Proof.
  intros HI Hf HL HT. pose proof all_lost_kind as A. rewrite forallb_forall in A. specialize (A d HI). unfold lost_kind in A. rewrite forallb_forall in A. specialize (A fd Hf).
  rewrite HL in A. cbn [negb orb] in A. destruct (f_ty fd) as [| | | | |t|t|]; try discriminate A.
  - destruct v; try discriminate HT. split; reflexivity.
  - destruct t; try discriminate A. destruct v as [| | | | | |v| |]; try discriminate HT; [split; reflexivity|]. destruct v; try discriminate HT. split; reflexivity.
Qed.
Lemma sent_field d fd : In d all_decls -> In fd (d_fields d) -> sent (f_ty fd) = true.
Proof.
  intros HI Hf. pose proof all_present as AP. rewrite forallb_forall in AP. specialize (AP d HI). unfold present in AP. apply andb_true_iff in AP. destruct AP as [AP _].
  rewrite forallb_forall in AP. specialize (AP fd Hf). apply andb_true_iff in AP. apply AP.
Qed.
Lemma sent_ptr t : sent (TPtr t) = true -> sent t = true.
Proof. cbn [sent]. destruct t; intros H; try discriminate H; exact H. Qed.
Lemma fits_int bits z y : sent (TInt bits) = true -> - 2 ^ (bits - 1) <= z < 2 ^ (bits - 1) -> becomes z y ->
  (- 2 ^ (bits - 1) <= y < 2 ^ (bits - 1) <-> Z.abs z < 2 ^ 63 - 512).
Proof.
  intros HO HZ HB. cbn [sent] in HO. destruct (Z.eq_dec bits 64) as [->|N].
  - change (64 - 1) with 63 in *. apply becomes_fits; [lia|exact HB].
  - assert (bits = 32) as -> by lia. change (32 - 1) with 31 in *. destruct (becomes_small z ltac:(lia)) as [_ U]. rewrite (U y HB). lia.
Qed.

Lemma arrives_one v : forall t v' v'', sent t = true -> has_type v t = true -> arrives t v v' -> arrives t v v'' -> v' = v''.
Proof.
  induction v as [s|z|x|b|x| |v IH|l IH|fs IH] using gval_ind'; intros t v' v'' HO HT H1 H2;
    destruct t as [|bits| | | |t|t|n]; try discriminate HT.
  - inversion H1; inversion H2; subst; reflexivity.
  - cbn [sent has_type] in HO, HT. inversion H1 as [| |b0 z0 y1 B1 _| | | | | | |]; inversion H2 as [| |b1 z1 y2 B2 _| | | | | | |]; subst. f_equal.
    apply (becomes_one z); [|assumption..]. assert (2 ^ (bits - 1) <= 2 ^ 63) by (apply Z.pow_le_mono_r; lia). lia.
  - inversion H1; inversion H2; subst; reflexivity.
  - inversion H1; inversion H2; subst; reflexivity.
  - inversion H1; inversion H2; subst; reflexivity.
  - inversion H1; inversion H2; subst; reflexivity.
  - inversion H1; inversion H2; subst; reflexivity.
  - inversion H1 as [| | | | | |t0 v0 w1 R1| | |]; inversion H2 as [| | | | | |t1 v1 w2 R2| | |]; subst. f_equal. apply (IH t); [|exact HT|assumption..].
    cbn [sent] in HO. destruct t; try discriminate HO; exact HO.
  - inversion H1 as [| | | | | | | |t0 l0 l1 R1|]; inversion H2 as [| | | | | | | |t1 l2 l3 R2|]; subst. f_equal. cbn [sent has_type] in HO, HT.
    clear H1 H2. revert l3 R2. induction R1 as [|v w l l1 Q _ IHR]; intros l3 R2; inversion R2 as [|? w' ? l3' Q' R2']; subst; [reflexivity|].
    inversion IH as [|? ? I1 I2]; subst. cbn [forallb] in HT. apply andb_true_iff in HT. destruct HT as [T1 T2]. f_equal; [apply (I1 t); assumption|apply IHR; assumption].
  - inversion H1 as [| | | | | | | | |n0 d fs0 gs Hd A1 A2 A3]; inversion H2 as [| | | | | | | | |n1 d1 fs1 gs' Hd1 B1 B2 B3]; subst. assert (d1 = d) as -> by congruence. f_equal.
    destruct (find_decl_in n d Hd) as [HI Hnm]. pose proof (names_distinct d HI) as HD. apply equal_fields; [congruence|rewrite A1; exact HD|].
    intros k Hk. rewrite A1 in Hk. apply in_map_iff in Hk. destruct Hk as (fd & <- & Hf).
    apply has_type_struct in HT. destruct HT as (d' & Hd' & HT). assert (d' = d) as -> by congruence.
    destruct (keyed_lookup (fun v t => has_type v t = true) _ _ HT HD fd Hf) as (v & L & T).
    assert (GA : forall hs : list (string * gval), map fst hs = map f_name (d_fields d) -> exists w, lookup (f_name fd) hs = Some w).
    { intros hs E. destruct (lookup (f_name fd) hs) as [w|] eqn:EL; [exists w; reflexivity|]. exfalso. apply lookup_None in EL. apply EL. rewrite E. apply in_map. exact Hf. }
    destruct (GA gs A1) as [w W]. destruct (GA gs' B1) as [w' W']. rewrite W, W'. f_equal.
    destruct (lost n (f_name fd)) eqn:EL; [rewrite (A3 fd w Hf W EL), (B3 fd w' Hf W' EL); reflexivity|].
    rewrite Forall_forall in IH. apply (IH _ (lookup_In _ _ _ L) (f_ty fd)); cbn [snd].
    + pose proof all_present as AP. rewrite forallb_forall in AP. specialize (AP d HI). unfold present in AP. apply andb_true_iff in AP. destruct AP as [AP _].
      rewrite forallb_forall in AP. specialize (AP fd Hf). apply andb_true_iff in AP. apply AP.
    + exact T.
    + exact (A2 fd v w Hf L W EL).
    + exact (B2 fd v w' Hf L W' EL).
Qed.

Lemma arrives_ints v : forall t v', sent t = true -> has_type v t = true -> arrives t v v' ->
  Forall2 becomes (ints v) (ints v') /\ Forall (fun z => Z.abs z < 2 ^ 63 - 512) (ints v).
Proof.
  induction v as [s|z|x|b|x| |v IH|l IH|fs IH] using gval_ind'; intros t v' HO HT H;
    destruct t as [|bits| | | |t|t|n]; try discriminate HT; try (inversion H; subst; split; constructor; fail).
  - inversion H as [| |b0 z0 y B R| | | | | | |]; subst. unfold ints. cbn [leaves]. split; [constructor; [exact B|constructor]|].
    constructor; [|constructor]. cbn [has_type] in HT. apply (fits_int bits z y HO); [lia|exact B|exact R].
  - inversion H as [| | | | | |t0 v0 w R| | |]; subst. exact (IH t w (sent_ptr t HO) HT R).
  - inversion H as [| | | | | | | |t0 l0 l1 R|]; subst. cbn [sent has_type] in HO, HT. unfold ints. cbn [leaves]. fold ints. clear H.
    induction R as [|v w l l1 Q _ IHR]; [split; constructor|]. inversion IH as [|? ? I1 I2]; subst. cbn [forallb] in HT. apply andb_true_iff in HT. destruct HT as [T1 T2].
    destruct (I1 t w HO T1 Q) as [P1 P2]. destruct (IHR I2 T2) as [P3 P4]. cbn [flat_map]. split; [apply Forall2_app; assumption|apply Forall_app; split; assumption].
  - inversion H as [| | | | | | | | |n0 d fs0 gs Hd A1 A2 A3]; subst. destruct (find_decl_in n d Hd) as [HI Hnm]. pose proof (names_distinct d HI) as HD.
    apply has_type_struct in HT. destruct HT as (d' & Hd' & HT). assert (d' = d) as -> by congruence.
    assert (EK : map fst fs = map f_name (d_fields d)) by (clear -HT; induction HT as [|kv g fs ds [Q _] _ IHT]; [reflexivity|cbn [map]; congruence]).
    assert (G : Forall2 (fun kv kw => Forall2 becomes (ints (snd kv)) (ints (snd kw)) /\ Forall (fun z => Z.abs z < 2 ^ 63 - 512) (ints (snd kv))) fs gs).
    { apply (keyed_pairs (fun v w => Forall2 becomes (ints v) (ints w) /\ Forall (fun z => Z.abs z < 2 ^ 63 - 512) (ints v)));
        [congruence|rewrite EK; exact HD|]. intros k v w L1 L2.
      assert (In k (map f_name (d_fields d))) as Hk by (rewrite <- EK; apply in_map_iff; exists (k, v); split; [reflexivity|apply lookup_In; exact L1]).
      apply in_map_iff in Hk. destruct Hk as (fd & <- & Hf). destruct (keyed_lookup (fun v t => has_type v t = true) _ _ HT HD fd Hf) as (v0 & L & T).
      assert (v0 = v) as -> by congruence. destruct (lost n (f_name fd)) eqn:EL.
      - rewrite (A3 fd w Hf L2 EL). rewrite <- Hnm in EL. destruct (lost_ints d fd v HI Hf EL T) as [-> ->]. split; constructor.
      - rewrite Forall_forall in IH. apply (IH _ (lookup_In _ _ _ L) (f_ty fd)); cbn [snd]; [exact (sent_field d fd HI Hf)|exact T|exact (A2 fd v w Hf L L2 EL)]. }
    unfold ints in *. cbn [leaves]. clear -G. induction G as [|kv kw fs gs [P1 P2] _ [P3 P4]]; [split; constructor|]. cbn [flat_map].
    split; [apply Forall2_app; assumption|apply Forall_app; split; assumption].
Qed.

Lemma arrives_some v : forall t, sent t = true -> has_type v t = true -> Forall (fun z => Z.abs z < 2 ^ 63 - 512) (ints v) -> exists v', arrives t v v'.
Proof.
  induction v as [s|z|x|b|x| |v IH|l IH|fs IH] using gval_ind'; intros t HO HT HZ;
    destruct t as [|bits| | | |t|t|n]; try discriminate HT; try (eexists; constructor; fail).
  - unfold ints in HZ. cbn [leaves] in HZ. inversion HZ as [|? ? B _]; subst. destruct (becomes_some z ltac:(lia)) as [y Y]. exists (VInt y). constructor; [exact Y|].
    cbn [has_type] in HT. apply (fits_int bits z y HO); [lia|exact Y|exact B].
  - destruct (IH t (sent_ptr t HO) HT HZ) as [w W]. exists (VPtr w). constructor. exact W.
  - cbn [sent has_type] in HO, HT. assert (exists ws, Forall2 (arrives t) l ws) as [ws W]; [|exists (VSlice ws); constructor; exact W].
    unfold ints in HZ. cbn [leaves] in HZ. fold ints in HZ. induction l as [|v l IHl]; [exists []; constructor|].
    inversion IH as [|? ? I1 I2]; subst. cbn [forallb flat_map] in HT, HZ. apply andb_true_iff in HT. destruct HT as [T1 T2]. apply Forall_app in HZ. destruct HZ as [Z1 Z2].
    destruct (I1 t HO T1 Z1) as [w W]. destruct (IHl I2 T2 Z2) as [ws Ws]. exists (w :: ws). constructor; assumption.
  - pose proof HT as HT0. apply has_type_struct in HT. destruct HT as (d & Hd & HT). destruct (find_decl_in n d Hd) as [HI Hnm]. pose proof (names_distinct d HI) as HD.
    assert (exists gs, Forall2 (fun fd (kw : string * gval) => fst kw = f_name fd /\ exists v, In (f_name fd, v) fs /\
        (lost n (f_name fd) = false -> arrives (f_ty fd) v (snd kw)) /\ (lost n (f_name fd) = true -> snd kw = zero (f_ty fd))) (d_fields d) gs) as [gs G].
    { assert (SF : forall fd, In fd (d_fields d) -> sent (f_ty fd) = true) by (intros fd Hf; exact (sent_field d fd HI Hf)).
      unfold ints in HZ. cbn [leaves] in HZ. fold ints in HZ. clear HT0 HD HI Hd Hnm HO. revert HT SF. generalize (d_fields d). intros ds HT SF.
      assert (S1 : incl fs fs) by apply incl_refl. revert S1. generalize fs at 2 3. intros all S1.
      induction HT as [|[k v] fd fs ds [Q1 Q2] _ IHT]; [exists []; constructor|]. cbn [fst snd flat_map] in *. subst k.
      inversion IH as [|? ? I1 I2]; subst. apply Forall_app in HZ. destruct HZ as [Z1 Z2]. cbn [snd] in I1.
      destruct (IHT I2 Z2) as [gs G]; [intros g Hg; apply SF; right; exact Hg|intros kv Hk; apply S1; right; exact Hk|].
      assert (In (f_name fd, v) all) as HIn by (apply S1; left; reflexivity).
      destruct (lost n (f_name fd)) eqn:EL.
      - exists ((f_name fd, zero (f_ty fd)) :: gs). constructor; [|exact G]. split; [reflexivity|]. exists v. split; [exact HIn|]. rewrite EL. split; [discriminate|reflexivity].
      - destruct (I1 (f_ty fd) (SF fd (or_introl eq_refl)) Q2 Z1) as [w W]. exists ((f_name fd, w) :: gs). constructor; [|exact G]. split; [reflexivity|]. exists v.
        split; [exact HIn|]. rewrite EL. split; [intros _; exact W|discriminate]. }
    destruct (forall2_keyed _ _ _ G (fun fd kv P => proj1 P) HD) as [E1 E2]. exists (VStruct gs).
    assert (EK : map fst fs = map f_name (d_fields d)) by (clear -HT; induction HT as [|kv g fs ds [Q _] _ IHT]; [reflexivity|cbn [map]; congruence]).
    apply (ar_struct _ d); [exact Hd|exact E1| |].
    + intros fd v w Hf L1 L2 EL. destruct (E2 fd Hf) as (w' & W1 & _ & v0 & V1 & V2 & _). cbn [snd] in V2. assert (w' = w) as -> by congruence.
      assert (v0 = v) as -> by (eapply (nodup_pair fs); [rewrite EK; exact HD|exact V1|apply lookup_In; exact L1]). exact (V2 EL).
    + intros fd w Hf L2 EL. destruct (E2 fd Hf) as (w' & W1 & _ & v0 & V1 & _ & V2). cbn [snd] in V2. assert (w' = w) as -> by congruence. exact (V2 EL).
Qed.
