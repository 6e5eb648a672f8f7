(** Decoding the XML element of a message gives back the message. *)
From Coq Require Import ZifyBool.
From Verif Require Import GoBase Utf8 Json JsonProofs JsonText Float64 Float64Proofs GoTime GoTimeProofs
  Lang Types Codec EncProofs Any AnyProofs DecProofs SpecCodec SpecEnc RoundTrip Xml SpecSoap.
Open Scope string_scope.
Open Scope list_scope.

(** ** Text of scalars *)

Lemma text_xtext s : text_of (xtext s) = s.
Proof.
  unfold xtext. destruct (String.eqb_spec s "") as [->|]; [reflexivity|]. cbn [text_of fold_right].
  apply sapp_nil_r.
Qed.

(** Graphic ASCII, and the white space within ASCII. *)
Definition graphic (c : ascii) : bool := (33 <=? code c)%N && (code c <? 128)%N.
Definition xspace (c : ascii) : bool := (between 9 13 c || N.eqb (code c) 32)%bool.

Lemma trim_left_spaces l s : str_forall xspace l = true -> trim_left (l +++ s) = trim_left s.
Proof.
  induction l as [|c l IH]; [reflexivity|]. cbn [str_forall]. rewrite andb_true_iff. intros [A B].
  change (String c l +++ s) with (String c (l +++ s)). cbn [trim_left].
  assert (space_size (String c (l +++ s)) = 1%nat) as ->; [|exact (IH B)]. unfold space_size. unfold xspace in A. rewrite A. reflexivity.
Qed.
Lemma trim_left_graphic c r : graphic c = true -> trim_left (String c r) = String c r.
Proof.
  unfold graphic. rewrite andb_true_iff, N.leb_le, N.ltb_lt. intros [A B]. cbn [trim_left].
  rewrite space_size_solid by lia. destruct r as [|? [|? ?]]; reflexivity.
Qed.
Lemma trim_right_spaces r : str_forall xspace r = true -> trim_right r = "".
Proof.
  intros H. destruct r as [|c r]; [reflexivity|]. cbn [trim_right]. unfold all_space.
  rewrite <- (sapp_nil_r (String c r)), trim_left_spaces by exact H. reflexivity.
Qed.
Lemma trim_right_graphic s r : str_forall graphic s = true -> str_forall xspace r = true -> trim_right (s +++ r) = s.
Proof.
  induction s as [|c s IH]; [intros _ H; apply trim_right_spaces; exact H|]. cbn [str_forall]. rewrite andb_true_iff. intros [A B] H.
  change (String c s +++ r) with (String c (s +++ r)). cbn [trim_right]. unfold all_space. rewrite (trim_left_graphic c _ A), (IH B H). reflexivity.
Qed.
Lemma trim_spaces l s r : str_forall xspace l = true -> str_forall graphic s = true -> s <> "" -> str_forall xspace r = true ->
  trim (l +++ s +++ r) = s.
Proof.
  intros L S N R. unfold trim, trim_space. rewrite trim_left_spaces by exact L. destruct s as [|c s]; [destruct (N eq_refl)|].
  change (String c s +++ r) with (String c (s +++ r)). rewrite trim_left_graphic by (cbn [str_forall] in S; apply andb_true_iff in S; apply S).
  change (String c (s +++ r)) with (String c s +++ r). apply trim_right_graphic; assumption.
Qed.
Lemma trim_solid s : str_forall graphic s = true -> trim s = s.
Proof.
  intros H. destruct s as [|c s]; [reflexivity|].
  pose proof (trim_spaces "" (String c s) "" eq_refl H ltac:(intros K; discriminate K) eq_refl) as K. rewrite sapp_nil_r in K. exact K.
Qed.

Lemma numchar_solid s : str_forall numchar s = true -> str_forall graphic s = true.
Proof.
  assert (forall c, numchar c = true -> graphic c = true) as K; [|induction s as [|c s IH]; [reflexivity|];
    cbn [str_forall]; rewrite !andb_true_iff; intros [A B]; split; [exact (K c A)|exact (IH B)]].
  intros c. destruct c as [[] [] [] [] [] [] [] []]; intros H; try exact H; vm_compute in H; discriminate H.
Qed.

Lemma num_solid l : is_num l = true -> trim l = l /\ l <> "".
Proof.
  intros H. split.
  - apply trim_solid, numchar_solid. apply is_num_spec in H. exact (pnum_chars _ _ _ H).
  - intros ->. discriminate H.
Qed.

Lemma num_noplus l : is_num l = true -> starts "+"%char l = false.
Proof.
  unfold is_num, starts. destruct l as [|c r]; [reflexivity|]. intros H.
  destruct (Ascii.eqb_spec "+"%char c) as [E|]; [|reflexivity]. subst c. discriminate H.
Qed.

Lemma xml_int_dec bits n : (- 2 ^ (bits - 1) <= n < 2 ^ (bits - 1))%Z -> xml_int bits (dec_int n) = Some n.
Proof.
  intros H. unfold xml_int. pose proof (dec_int_is_num n) as K. destruct (num_solid _ K) as [K1 K2].
  destruct (String.eqb_spec (dec_int n) "") as [E|_]; [contradiction|]. rewrite K1, (num_noplus _ K).
  apply parse_int_dec_int. exact H.
Qed.

Lemma shortest_g_ok f : forall p m e, (0 < m)%Z -> canon (FFin false m e) = true ->
  reads_as m e (shortest_g f p m e) = true.
Proof.
  induction f as [|f IH]; intros p m e Hm Hc; cbn [shortest_g].
  - now apply exact_lit_ok.
  - match goal with |- context [if reads_as m e ?x then _ else _] => destruct (reads_as m e x) eqn:E1 end; [exact E1|].
    match goal with |- context [if reads_as m e ?x then _ else _] => destruct (reads_as m e x) eqn:E2 end; [exact E2|].
    now apply IH.
Qed.

Lemma xml_float_fmt x : canon x = true -> xml_float (fmt_g x) = Some x.
Proof.
  destruct x as [neg m e|[]|]; [|vm_compute; reflexivity..]. intros Hc. cbn [fmt_g].
  assert (forall b, is_num b = true -> parse_float b = Some (FFin false m e) ->
     xml_float (if neg then "-" +++ b else b) = Some (FFin neg m e)) as K.
  { intros b H1 H2.
    assert (is_num (if neg then "-" +++ b else b) = true /\
            parse_float (if neg then "-" +++ b else b) = Some (FFin neg m e)) as [K1 K2].
    { destruct neg; [|auto]. destruct (nonneg_head _ _ _ H2) as (c & r & E & Hcc). split.
      - eapply is_num_neg; eauto.
      - eapply parse_float_neg; eauto. }
    unfold xml_float. destruct (num_solid _ K1) as [T1 T2].
    destruct (String.eqb_spec (if neg then "-" +++ b else b) "") as [E|_]; [contradiction|].
    rewrite T1, K2. reflexivity. }
  destruct (m =? 0)%Z eqn:E.
  - apply K; [reflexivity|]. cbn [canon] in Hc. assert (m = 0)%Z as -> by lia.
    assert (e = -1074)%Z as -> by lia. reflexivity.
  - assert (0 < m)%Z as Hm by (cbn [canon] in Hc; lia).
    pose proof (shortest_g_ok 17 1 m e Hm Hc) as R. apply reads_as_spec in R. destruct R as [R1 R2]. auto.
Qed.

Lemma xml_bool_text (b : bool) : xml_bool (if b then "true" else "false") = Some b.
Proof. destruct b; vm_compute; reflexivity. Qed.

(** ** Conditions on the type table, checked by computation *)

Definition xbase (t : gty) : bool :=
  match t with
  | TPtr _ | TSlice _ => false
  | TStruct n => match find_decl n with
                 | Some d => match d_xml d with None => true | Some _ => false end
                 | None => false
                 end
  | _ => true
  end.
Definition xty (t : gty) : bool :=
  match t with
  | TPtr t => xbase t
  | TSlice (TPtr t) => xbase t
  | TSlice TStr => true
  | TSlice _ | TStruct _ => false
  | _ => true
  end.
Definition is_f64 (t : gty) : bool := match t with TF64 => true | _ => false end.
Definition is_str (t : gty) : bool := match t with TStr => true | _ => false end.
Definition str_slice (t : gty) : bool := match t with TSlice TStr => true | _ => false end.

Definition xfield_ok (d : decl) (f : field) : bool :=
  match x_kind (f_xml f) with
  | XElem => xty (f_ty f) && negb (not_sent (d_name d) (f_name f)) &&
             Bool.eqb (optional_number (d_name d) (f_name f)) (x_omit (f_xml f) && is_f64 (f_ty f)) &&
             (if str_slice (f_ty f) then x_omit (f_xml f) else true)
  | XAttr => is_str (f_ty f) && negb (not_sent (d_name d) (f_name f))
  | XChar => is_str (f_ty f) && negb (not_sent (d_name d) (f_name f))
  | XSkip => is_str (f_ty f) && not_sent (d_name d) (f_name f)
  end.
Definition of_kind (k : xkind) (f : field) : bool :=
  match k, x_kind (f_xml f) with
  | XElem, XElem | XAttr, XAttr | XChar, XChar | XSkip, XSkip => true
  | _, _ => false
  end.
Definition xdecl_ok (d : decl) : bool :=
  nodupb (map f_name (d_fields d)) && forallb (xfield_ok d) (d_fields d) &&
  nodupb (map (fun f => x_name (f_xml f)) (filter (of_kind XElem) (d_fields d))) &&
  nodupb (map (fun f => x_name (f_xml f)) (filter (of_kind XAttr) (d_fields d))) &&
  match filter (of_kind XChar) (d_fields d) with [] | [_] => true | _ => false end &&
  match d_xml d with Some (ns, _) => negb (String.eqb ns "") | None => true end.

Lemma all_xdecl_ok : forallb xdecl_ok all_decls = true.
Proof. vm_compute. reflexivity. Qed.

Lemma xdecl_in d : In d all_decls -> xdecl_ok d = true.
Proof. intros H. pose proof all_xdecl_ok as K. rewrite forallb_forall in K. exact (K d H). Qed.

Lemma nodup_inj {A} (g : A -> string) l x y : NoDup (map g l) -> In x l -> In y l -> g x = g y -> x = y.
Proof.
  induction l as [|z l IH]; [intros _ []|]. cbn [map]. intros N. inversion N as [|? ? N1 N2]; subst.
  intros [->|Hx] [->|Hy] E; [reflexivity| | |auto].
  - exfalso. apply N1. rewrite E. apply in_map. exact Hy.
  - exfalso. apply N1. rewrite <- E. apply in_map. exact Hx.
Qed.

Lemma find_unique {A} (p : A -> bool) l x : In x l -> p x = true -> (forall y, In y l -> p y = true -> y = x) ->
  find p l = Some x.
Proof.
  intros Hi Hp Hu. destruct (find_in p l x Hi Hp) as [y Hy]. rewrite Hy. f_equal.
  apply find_some in Hy. destruct Hy as [Hy1 Hy2]. auto.
Qed.

(** ** Single elements *)

Definition xroot (x : xml) : option (string * string) :=
  match x with XE ns nm _ _ => Some (ns, nm) | XT _ => None end.

Definition single (t : gty) : bool :=
  match t with TSlice _ => false | TPtr t => xbase t | _ => true end.

Definition elname (inh : string) (tag : string * string) (t : gty) : string * string :=
  match t with
  | TStruct n =>
    match find_decl n with
    | Some d => match d_xml d with Some x => (inherit inh (fst x), snd x) | None => (inherit inh (fst tag), snd tag) end
    | None => (inherit inh (fst tag), snd tag)
    end
  | _ => (inherit inh (fst tag), snd tag)
  end.

Definition fresh (t : gty) (cur : gval) : Prop :=
  match t with TStruct _ => cur = zero t | TPtr _ => cur = VNil | _ => True end.

Definition one (v : gval) : Prop := forall t inh tag, single t = true -> v <> VNil -> has_type v t = true ->
  wire_times v -> exists x,
    (forall omit, omit && is_empty v = false -> xenc inh tag omit t v = Some [x]) /\
    xroot x = Some (elname inh tag t) /\
    forall cur, fresh t cur -> xdec x t cur = Some (xnorm t v).

(** Elements decoded one after another into the same variable. *)
Fixpoint feed (t : gty) (ks : list xml) (cur : gval) : option gval :=
  match ks with
  | [] => Some cur
  | k :: r => match xdec k t cur with None => None | Some v => feed t r v end
  end.

Definition landed (omit : bool) (t : gty) (v : gval) : gval :=
  if omit && is_f64 t && fzero v then VF64 (FFin false 0 (-1074)) else xnorm t v.

Definition many (v : gval) : Prop := forall t inh tag omit, xty t = true ->
  (if str_slice t then omit else true) = true -> has_type v t = true -> wire_times v ->
  exists ks, xenc inh tag omit t v = Some ks /\
    Forall (fun k => xroot k = Some (inherit inh (fst tag), snd tag)) ks /\
    feed t ks (zero0 t) = Some (landed omit t v).

Lemma xnorm_slice t l : xnorm (TSlice t) (VSlice l) =
  match flat_map (fun x => if sent_element x then [xnorm t x] else []) l with [] => VNil | l' => VSlice l' end.
Proof. reflexivity. Qed.

Lemma xdec_ptr x t : xroot x <> None -> xdec x (TPtr t) VNil = omap VPtr (xdec x t (zero t)).
Proof. destruct x; [reflexivity|]. intros H. exfalso. apply H. reflexivity. Qed.
Lemma xdec_slice x t cur : xroot x <> None ->
  xdec x (TSlice t) cur = omap (fun v => VSlice ((match cur with VSlice l => l | _ => [] end) ++ [v])) (xdec x t (zero t)).
Proof. destruct x; [reflexivity|]. intros H. exfalso. apply H. reflexivity. Qed.

Lemma omapl_cons {A B} (f : A -> option B) x l : omapl f (x :: l) =
  match f x with None => None | Some y => match omapl f l with None => None | Some ys => Some (y :: ys) end end.
Proof. reflexivity. Qed.

Lemma times_ptr v : wire_times (VPtr v) -> wire_times v.
Proof. intros H; exact H. Qed.
Lemma times_in l v : wire_times (VSlice l) -> In v l -> wire_times v.
Proof.
  unfold wire_times. cbn [times leaves]. intros H Hi. rewrite Forall_forall in *. intros t Ht. apply H.
  change (flat_map (leaves (fun v => match v with VTime x => [x] | _ => [] end)) l) with (flat_map times l).
  apply in_flat_map. exists v. auto.
Qed.
Lemma times_field fs kv : wire_times (VStruct fs) -> In kv fs -> wire_times (snd kv).
Proof.
  unfold wire_times. cbn [times leaves]. intros H Hi. rewrite Forall_forall in *. intros t Ht. apply H.
  apply in_flat_map. exists kv. auto.
Qed.

Lemma xdec_simple ns nm s t : xdec (XE ns nm [] (xtext s)) t = xat (ns, nm) [] s [] t.
Proof.
  cbn [xdec]. rewrite text_xtext. f_equal. unfold xtext. destruct (String.eqb s ""); reflexivity.
Qed.

Lemma one_scalar v : match v with VPtr _ | VSlice _ | VStruct _ => False | _ => True end -> one v.
Proof.
  intros Hv t inh tag Hs Hn HT HW.
  assert (forall s, (forall omit, omit && is_empty v = false ->
            xenc inh tag omit t v = simple (inherit inh (fst tag)) (snd tag) s) ->
          elname inh tag t = (inherit inh (fst tag), snd tag) ->
          (forall cur, xat (inherit inh (fst tag), snd tag) [] s [] t cur = Some (xnorm t v)) ->
          exists x, (forall omit, omit && is_empty v = false -> xenc inh tag omit t v = Some [x]) /\
            xroot x = Some (elname inh tag t) /\
            forall cur, fresh t cur -> xdec x t cur = Some (xnorm t v)) as K.
  { intros s H1 H2 H3. eexists. split; [intros omit Ho; rewrite (H1 omit Ho); unfold simple; reflexivity|].
    split; [cbn [xroot]; rewrite H2; reflexivity|]. intros cur _. rewrite xdec_simple. apply H3. }
  destruct v as [s|z|x|b|x| |v|l|fs]; try contradiction; destruct t; try discriminate HT.
  - apply (K (xml_clean s)); [|reflexivity|reflexivity]. intros omit Ho. cbn [xenc]. rewrite Ho. reflexivity.
  - apply (K (dec_int z)); [|reflexivity|].
    + intros omit Ho. cbn [xenc]. rewrite Ho. reflexivity.
    + intros cur. cbn [xat]. cbn [has_type] in HT. rewrite xml_int_dec by lia. reflexivity.
  - apply (K (fmt_g x)); [|reflexivity|].
    + intros omit Ho. cbn [xenc]. rewrite Ho. reflexivity.
    + intros cur. cbn [xat]. cbn [has_type] in HT. rewrite xml_float_fmt by exact HT. reflexivity.
  - apply (K (if b then "true" else "false")); [|reflexivity|].
    + intros omit Ho. cbn [xenc]. rewrite Ho. reflexivity.
    + intros cur. cbn [xat]. rewrite xml_bool_text. reflexivity.
  - assert (time_wire x = true) as HWx by (inversion HW; assumption).
    apply (K (format_nano x)); [|reflexivity|].
    + intros omit Ho. cbn [xenc]. rewrite Ho. apply time_wire_spec in HWx.
      assert ((0 <=? t_year x)%Z && (t_year x <=? 9999)%Z = true) as -> by lia. reflexivity.
    + intros cur. cbn [xat]. rewrite (parse_nano x HWx). reflexivity.
Qed.

Lemma one_ptr v : one v -> one (VPtr v).
Proof.
  intros IH t inh tag Hs Hn HT HW. destruct t; try discriminate HT. cbn [single] in Hs. cbn [has_type] in HT.
  assert (v <> VNil) as Hv.
  { intros ->. destruct t; try discriminate HT; discriminate Hs. }
  assert (single t = true) as Hs'. { destruct t; try discriminate Hs; reflexivity. }
  assert (elname inh tag t = elname inh tag (TPtr t)) as HE.
  { destruct t; try reflexivity. cbn [elname]. cbn [xbase] in Hs. destruct (find_decl n) as [d|]; [|reflexivity].
    destruct (d_xml d); [discriminate Hs|reflexivity]. }
  destruct (IH t inh tag Hs' Hv HT HW) as (x & X1 & X2 & X3). exists x. split; [|split].
  - intros omit _. cbn [xenc is_empty]. rewrite andb_false_r. apply X1. reflexivity.
  - rewrite X2, HE. reflexivity.
  - intros cur Hc. cbn [fresh] in Hc. subst cur. rewrite xdec_ptr by (rewrite X2; discriminate).
    rewrite X3; [reflexivity|]. destruct t; try exact I; try discriminate Hs. reflexivity.
Qed.

Lemma empty_landed omit t v : xty t = true -> omit = true -> is_empty v = true -> has_type v t = true ->
  landed omit t v = zero0 t.
Proof.
  intros Hx -> He HT. unfold landed. cbn [andb]. destruct t, v; try discriminate HT; try discriminate He; cbn [is_f64 andb fzero].
  - cbn [is_empty] in He. apply String.eqb_eq in He. subst s. reflexivity.
  - cbn [is_empty] in He. apply Z.eqb_eq in He. subst z. reflexivity.
  - destruct x; try discriminate He. cbn [is_empty] in He. rewrite He. reflexivity.
  - destruct b; [discriminate He|reflexivity].
  - reflexivity.
  - reflexivity.
  - destruct l; [reflexivity|discriminate He].
Qed.

Lemma many_single v : one v -> (match v with VSlice _ => False | _ => True end) -> many v.
Proof.
  intros IH Hv t inh tag omit Hx Hss HT HW.
  destruct (omit && is_empty v) eqn:Eo.
  - apply andb_true_iff in Eo. destruct Eo as [-> He]. exists []. split; [|split; [constructor|]].
    + destruct v; cbn [xenc]; rewrite He; reflexivity.
    + cbn [feed]. rewrite (empty_landed true t v Hx eq_refl He HT). reflexivity.
  - assert (landed omit t v = xnorm t v) as HL.
    { unfold landed. destruct (omit && is_f64 t && fzero v) eqn:E; [|reflexivity]. exfalso.
      apply andb_true_iff in E. destruct E as [E E2]. apply andb_true_iff in E. destruct E as [-> E1].
      destruct v as [| |[]| | | | | |]; try discriminate E2. cbn [fzero] in E2. cbn [is_empty andb] in Eo. congruence. }
    rewrite HL.
    destruct (match v with VNil => true | _ => false end) eqn:En.
    + destruct v; try discriminate En. destruct t; try discriminate HT; (exists []; split; [cbn [xenc]; rewrite Eo; reflexivity|split; [constructor|reflexivity]]).
    + assert (v <> VNil) as Hn by (intros ->; discriminate En).
      assert (single t = true) as Hs.
      { destruct t; try reflexivity; try exact Hx. destruct v; try discriminate HT; [contradiction Hn; reflexivity|contradiction]. }
      destruct (IH t inh tag Hs Hn HT HW) as (x & X1 & X2 & X3). exists [x]. split; [|split].
      * apply X1. exact Eo.
      * constructor; [|constructor]. rewrite X2. f_equal. destruct t; try reflexivity. discriminate Hx.
      * cbn [feed]. rewrite X3; [reflexivity|]. destruct t; try exact I; try discriminate Hx. reflexivity.
Qed.

Lemma many_slice l : Forall one l -> many (VSlice l).
Proof.
  intros IH t inh tag omit Hx Hss HT HW. destruct t as [| | | | |t|t|]; try discriminate HT.
  cbn [has_type] in HT. rewrite forallb_forall in HT.
  destruct (omit && is_empty (VSlice l)) eqn:Eo.
  - apply andb_true_iff in Eo. destruct Eo as [-> He]. exists []. split; [|split; [constructor|]].
    + cbn [xenc]. rewrite He. reflexivity.
    + destruct l; [reflexivity|discriminate He].
  - (* element by element *)
    assert (forall l, Forall one l -> (forall x, In x l -> has_type x t = true) -> (forall x, In x l -> wire_times x) ->
      exists ks, omap (@concat xml) (omapl (fun x => xenc inh tag omit t x) l) = Some ks /\
        Forall (fun k => xroot k = Some (inherit inh (fst tag), snd tag)) ks /\
        forall acc, feed (TSlice t) ks (match acc with [] => VNil | _ => VSlice acc end) =
          Some (match acc ++ flat_map (fun x => if sent_element x then [xnorm t x] else []) l with
                | [] => VNil | l' => VSlice l' end)) as K.
    { clear - Hx Hss. induction l as [|v l IHl]; intros HO HT HW.
      - exists []. split; [reflexivity|]. split; [constructor|]. intros acc. cbn [feed flat_map]. rewrite app_nil_r. destruct acc; reflexivity.
      - inversion HO as [|? ? HO1 HO2]; subst.
        destruct (IHl HO2 (fun x Hi => HT x (or_intror Hi)) (fun x Hi => HW x (or_intror Hi))) as (ks & K1 & K2 & K3).
        pose proof (HT v (or_introl eq_refl)) as HTv. pose proof (HW v (or_introl eq_refl)) as HWv.
        destruct (sent_element v) eqn:Es.
        + assert (v <> VNil) as Hn by (intros ->; discriminate Es).
          assert (single t = true) as Hs. { cbn [xty] in Hx. destruct t; try reflexivity; try discriminate Hx. exact Hx. }
          destruct (HO1 t inh tag Hs Hn HTv HWv) as (x & X1 & X2 & X3).
          assert (elname inh tag t = (inherit inh (fst tag), snd tag)) as HE.
          { cbn [xty] in Hx. destruct t; try reflexivity; discriminate Hx. }
          exists (x :: ks). split; [|split].
          * rewrite omapl_cons, X1.
            -- destruct (omapl (fun x => xenc inh tag omit t x) l) as [kk|]; [|discriminate K1].
               cbn [omap] in *. cbn [concat]. injection K1 as ->. reflexivity.
            -- cbn [xty] in Hx. destruct t; try discriminate Hx.
               ++ destruct v; try discriminate HTv. cbn [sent_element] in Es. cbn [is_empty].
                  apply negb_true_iff in Es. rewrite Es. apply andb_false_r.
               ++ destruct v; try discriminate HTv; [contradiction Hn; reflexivity|]. apply andb_false_r.
          * constructor; [rewrite X2, HE; reflexivity|exact K2].
          * intros acc. cbn [feed]. rewrite xdec_slice by (rewrite X2; discriminate).
            rewrite X3.
            -- cbn [omap]. cbn [flat_map]. rewrite Es.
               specialize (K3 (acc ++ [xnorm t v])). rewrite <- app_assoc in K3.
               rewrite <- K3. f_equal. destruct acc; reflexivity.
            -- cbn [xty] in Hx. destruct t; try discriminate Hx; [exact I|reflexivity].
        + exists ks. split; [|split; [exact K2|]].
          * assert (xenc inh tag omit t v = Some []) as HX.
            { cbn [xty] in Hx. destruct t; try discriminate Hx.
              - destruct v; try discriminate HTv. cbn [sent_element] in Es. apply negb_false_iff in Es.
                cbn [str_slice] in Hss. subst omit. cbn [xenc is_empty]. rewrite Es. reflexivity.
              - destruct v; try discriminate HTv; try discriminate Es. cbn [xenc]. destruct (omit && is_empty VNil); reflexivity. }
            rewrite omapl_cons, HX.
            destruct (omapl (fun x => xenc inh tag omit t x) l) as [kk|]; [|discriminate K1].
            cbn [omap concat app] in *. exact K1.
          * intros acc. cbn [flat_map]. rewrite Es. apply K3. }
    destruct (K l IH HT (fun x Hi => times_in l x HW Hi)) as (ks & K1 & K2 & K3).
    exists ks. split; [|split; [exact K2|]].
    + cbn [xenc]. rewrite Eo. exact K1.
    + specialize (K3 []). cbn [app] in K3. cbn [zero0]. rewrite K3. unfold landed. cbn [is_f64]. rewrite andb_false_r. cbn [andb].
      rewrite xnorm_slice. reflexivity.
Qed.

(** ** Structs *)

Definition typed (kv : string * gval) (f : field) : Prop := fst kv = f_name f /\ has_type (snd kv) (f_ty f) = true.

(** What a field ends up as. *)
Definition ends (n : string) (f : field) (v : gval) : gval :=
  if not_sent n (f_name f) then VStr ""
  else if optional_number n (f_name f) && fzero v then VF64 (FFin false 0 (-1074))
  else xnorm (f_ty f) v.

Definition fenc (d : decl) (ns : string) (kv : string * gval) : option (list (string * string * string) * list xml) :=
  match find_field d (fst kv) with
  | None => None
  | Some f =>
    match x_kind (f_xml f) with
    | XElem => omap (fun ks => ([], ks))
                 (xenc ns (field_ns d f, x_name (f_xml f)) (x_omit (f_xml f)) (f_ty f) (snd kv))
    | XAttr => omap (fun l => (l, [])) (xattr f (snd kv))
    | XChar => match snd kv with VStr s => Some ([], xtext (xml_clean s)) | _ => None end
    | XSkip => Some ([], [])
    end
  end.

(** Effect of one field's contribution. *)
Definition contrib (d : decl) (ns : string) (kv : string * gval) (f : field)
    (c : list (string * string * string) * list xml) : Prop :=
  match x_kind (f_xml f) with
  | XElem => fst c = [] /\
      Forall (fun k => xroot k = Some (inherit ns (field_ns d f), x_name (f_xml f))) (snd c) /\
      feed (f_ty f) (snd c) (zero0 (f_ty f)) = Some (ends (d_name d) f (snd kv))
  | XAttr => exists s, snd kv = VStr s /\ snd c = [] /\ ends (d_name d) f (snd kv) = VStr (xml_clean s) /\
      (fst c = [("", x_name (f_xml f), xml_clean s)] \/ (fst c = [] /\ s = "" ))
  | XChar => exists s, snd kv = VStr s /\ fst c = [] /\ snd c = xtext (xml_clean s) /\
      ends (d_name d) f (snd kv) = VStr (xml_clean s)
  | XSkip => c = ([], []) /\ ends (d_name d) f (snd kv) = VStr ""
  end.

Lemma optional_str d f : In d all_decls -> In f (d_fields d) -> of_kind XElem f = false ->
  forall s, optional_number (d_name d) (f_name f) && fzero (VStr s) = false.
Proof. intros _ _ _ s. cbn [fzero]. apply andb_false_r. Qed.

Lemma field_contrib d ns kv f : In d all_decls -> In f (d_fields d) -> typed kv f -> many (snd kv) ->
  wire_times (snd kv) -> exists c, fenc d ns kv = Some c /\ contrib d ns kv f c.
Proof.
  intros HD HF [HK HT] HM HW. pose proof (xdecl_in d HD) as OK. unfold xdecl_ok in OK.
  repeat (apply andb_true_iff in OK; destruct OK as [OK ?]).
  assert (xfield_ok d f = true) as HO. { match goal with K : forallb (xfield_ok d) _ = true |- _ => rewrite forallb_forall in K; exact (K f HF) end. }
  assert (find_field d (fst kv) = Some f) as HFF.
  { unfold find_field. apply find_unique; [exact HF|rewrite HK; apply String.eqb_refl|].
    intros g Hg Eg. apply String.eqb_eq in Eg. apply (nodup_inj f_name (d_fields d)); auto; [|congruence].
    apply nodupb_spec. exact OK. }
  unfold fenc, contrib, ends. rewrite HFF. unfold xfield_ok in HO. destruct (x_kind (f_xml f)) eqn:EK.
  - apply andb_true_iff in HO. destruct HO as [HO HO4]. apply andb_true_iff in HO. destruct HO as [HO HO3].
    apply andb_true_iff in HO. destruct HO as [HO1 HO2]. apply negb_true_iff in HO2. apply eqb_prop in HO3.
    destruct (HM (f_ty f) ns (field_ns d f, x_name (f_xml f)) (x_omit (f_xml f)) HO1 HO4 HT HW) as (ks & K1 & K2 & K3).
    exists ([], ks). rewrite K1. split; [reflexivity|]. cbn [fst snd]. split; [reflexivity|]. split; [exact K2|].
    rewrite HO2, HO3, K3. reflexivity.
  - apply andb_true_iff in HO. destruct HO as [HO1 HO2]. apply negb_true_iff in HO2.
    destruct (f_ty f); try discriminate HO1. destruct (snd kv) as [s| | | | | | | |]; try discriminate HT.
    unfold xattr. destruct (x_omit (f_xml f) && is_empty (VStr s)) eqn:EE.
    + exists ([], []). split; [reflexivity|]. exists s. rewrite HO2. cbn [fzero]. rewrite andb_false_r. cbn [fst snd xnorm].
      repeat split; auto. right. split; [reflexivity|]. apply andb_true_iff in EE. destruct EE as [_ EE]. apply String.eqb_eq. exact EE.
    + eexists. split; [reflexivity|]. exists s. rewrite HO2. cbn [fzero]. rewrite andb_false_r. cbn [fst snd xnorm].
      repeat split; auto.
  - apply andb_true_iff in HO. destruct HO as [HO1 HO2]. apply negb_true_iff in HO2.
    destruct (f_ty f); try discriminate HO1. destruct (snd kv) as [s| | | | | | | |]; try discriminate HT.
    eexists. split; [reflexivity|]. exists s. rewrite HO2. cbn [fzero]. rewrite andb_false_r. cbn [fst snd xnorm]. auto.
  - apply andb_true_iff in HO. destruct HO as [HO1 HO2]. rewrite HO2. eexists. split; [reflexivity|]. auto.
Qed.

(** All fields of a struct. *)
Inductive contribs (d : decl) (ns : string) : list (string * gval) -> list field ->
    list (list (string * string * string) * list xml) -> Prop :=
| CNil : contribs d ns [] [] []
| CCons kv f c fs ds cs : typed kv f -> contrib d ns kv f c -> In f (d_fields d) -> contribs d ns fs ds cs ->
    contribs d ns (kv :: fs) (f :: ds) (c :: cs).

Lemma fields_contrib d ns : In d all_decls -> forall fs ds, Forall2 typed fs ds -> incl ds (d_fields d) ->
  Forall (fun kv => many (snd kv)) fs -> (forall kv, In kv fs -> wire_times (snd kv)) ->
  exists cs, omapl (fenc d ns) fs = Some cs /\ contribs d ns fs ds cs.
Proof.
  intros HD. induction 1 as [|kv f fs ds HT HF IH]; intros HI HM HW.
  - exists []. split; [reflexivity|constructor].
  - inversion HM as [|? ? HM1 HM2]; subst.
    destruct (field_contrib d ns kv f HD (HI f (or_introl eq_refl)) HT HM1 (HW kv (or_introl eq_refl))) as (c & C1 & C2).
    destruct IH as (cs & I1 & I2); [intros x Hx; apply HI; right; exact Hx|exact HM2|intros x Hx; apply HW; right; exact Hx|].
    exists (c :: cs). split; [|constructor; auto; apply HI; left; reflexivity].
    rewrite omapl_cons, C1, I1. reflexivity.
Qed.

Definition slots (ks : list xml) : list ((string * string) * slot) :=
  flat_map (fun k => match k with XE n l _ _ => [((n, l), xdec k)] | XT _ => [] end) ks.

Lemma slots_app a b : slots (a ++ b) = slots a ++ slots b.
Proof. apply flat_map_app. Qed.

Lemma take_kids_app d a b fs : take_kids d (a ++ b) fs =
  match take_kids d a fs with Some fs' => take_kids d b fs' | None => None end.
Proof.
  revert fs. induction a as [|[el dl] a IH]; intros fs; [reflexivity|]. cbn [app take_kids].
  destruct (find (takes d el) (d_fields d)); [|apply IH]. destruct (lookup (f_name f) fs); [|reflexivity].
  destruct (dl (f_ty f) g); [apply IH|reflexivity].
Qed.

Lemma set_field_same f v fs : lookup f fs = Some v -> set_field f v fs = fs.
Proof.
  induction fs as [|[k x] fs IH]; [discriminate|]. cbn [lookup set_field]. rewrite String.eqb_sym.
  destruct (String.eqb_spec k f) as [->|]; intros H; [congruence|]. rewrite (IH H). reflexivity.
Qed.
Lemma set_field_twice f u v fs : set_field f u (set_field f v fs) = set_field f u fs.
Proof.
  induction fs as [|[k x] fs IH]; [reflexivity|]. cbn [set_field]. destruct (String.eqb_spec k f) as [->|N]; cbn [set_field].
  - rewrite String.eqb_refl. reflexivity.
  - apply String.eqb_neq in N. rewrite N, IH. reflexivity.
Qed.

Lemma kids_field d f el ks : find (takes d el) (d_fields d) = Some f -> Forall (fun k => xroot k = Some el) ks ->
  forall fs cur v, lookup (f_name f) fs = Some cur -> feed (f_ty f) ks cur = Some v ->
  take_kids d (slots ks) fs = Some (set_field (f_name f) v fs).
Proof.
  intros HF HR. induction HR as [|k ks Hk HR IH]; intros fs cur v HL HE.
  - cbn [feed] in HE. injection HE as <-. cbn [slots flat_map take_kids]. rewrite set_field_same by exact HL. reflexivity.
  - cbn [feed] in HE. destruct (xdec k (f_ty f) cur) as [v1|] eqn:E1; [|discriminate HE].
    destruct k as [n l at_ kk|s]; [|discriminate Hk]. cbn [xroot] in Hk. injection Hk as <-.
    cbn [slots flat_map]. change (flat_map _ ks) with (slots ks). cbn [app take_kids]. rewrite HF, HL, E1.
    rewrite (IH (set_field (f_name f) v1 fs) v1 v).
    + rewrite set_field_twice. reflexivity.
    + rewrite set_field_lookup, String.eqb_refl, HL. reflexivity.
    + exact HE.
Qed.

(** Where the fields of one kind end up. *)
Fixpoint outs (k : xkind) (d : decl) (fs : list (string * gval)) (ds : list field) : list (string * gval) :=
  match fs, ds with
  | kv :: fs, f :: ds => if of_kind k f then (f_name f, ends (d_name d) f (snd kv)) :: outs k d fs ds else outs k d fs ds
  | _, _ => []
  end.

Definition over (a : list (string * gval)) (g : string) (o : option gval) : option gval :=
  match lookup g a with Some v => Some v | None => o end.

Lemma outs_names k d fs ds g v : lookup g (outs k d fs ds) = Some v -> In g (map f_name ds).
Proof.
  revert ds. induction fs as [|kv fs IH]; intros [|f ds]; try discriminate. cbn [outs].
  destruct (of_kind k f); cbn [lookup map].
  - destruct (String.eqb_spec g (f_name f)) as [->|]; intros H; [left; reflexivity|right; apply (IH ds); exact H].
  - intros H. right. apply (IH ds). exact H.
Qed.

Lemma outs_not k d fs ds g : ~ In g (map f_name ds) -> lookup g (outs k d fs ds) = None.
Proof.
  intros H. destruct (lookup g (outs k d fs ds)) as [v|] eqn:E; [|reflexivity]. exfalso. apply H. apply outs_names in E. exact E.
Qed.

Lemma inherit_match d f ns : String.eqb (field_ns d f) "" || String.eqb (field_ns d f) (inherit ns (field_ns d f)) = true.
Proof. unfold inherit. destruct (String.eqb (field_ns d f) ""); [reflexivity|]. cbn [orb]. apply String.eqb_refl. Qed.

Lemma finds d f ns : In d all_decls -> In f (d_fields d) -> x_kind (f_xml f) = XElem ->
  find (takes d (inherit ns (field_ns d f), x_name (f_xml f))) (d_fields d) = Some f.
Proof.
  intros HD HF HK. pose proof (xdecl_in d HD) as OK. unfold xdecl_ok in OK.
  repeat (apply andb_true_iff in OK; destruct OK as [OK ?]).
  apply find_unique; [exact HF| |].
  - unfold takes. rewrite HK. cbn [fst snd]. rewrite String.eqb_refl. cbn [andb]. apply inherit_match.
  - intros g Hg E. unfold takes in E. destruct (x_kind (f_xml g)) eqn:EK; try discriminate E.
    apply andb_true_iff in E. destruct E as [E _]. cbn [snd] in E. apply String.eqb_eq in E.
    match goal with K : nodupb (map _ (filter (of_kind XElem) _)) = true |- _ => apply nodupb_spec in K;
      apply (nodup_inj (fun f => x_name (f_xml f)) (filter (of_kind XElem) (d_fields d)) g f K) end.
    + apply filter_In. split; [exact Hg|]. unfold of_kind. rewrite EK. reflexivity.
    + apply filter_In. split; [exact HF|]. unfold of_kind. rewrite HK. reflexivity.
    + exact E.
Qed.

Lemma kids_all d ns : In d all_decls -> forall fs ds cs, contribs d ns fs ds cs -> NoDup (map f_name ds) ->
  forall st, (forall f, In f ds -> of_kind XElem f = true -> lookup (f_name f) st = Some (zero0 (f_ty f))) ->
  exists st', take_kids d (slots (concat (map snd cs))) st = Some st' /\ map fst st' = map fst st /\
    forall g, lookup g st' = over (outs XElem d fs ds) g (lookup g st).
Proof.
  intros HD. induction 1 as [|kv f c fs ds cs HT HC HF HR IH]; intros ND st HZ.
  - exists st. split; [reflexivity|]. split; [reflexivity|]. intros g. reflexivity.
  - cbn [map] in ND. inversion ND as [|? ? N1 N2]; subst. cbn [map concat]. rewrite slots_app, take_kids_app.
    destruct (of_kind XElem f) eqn:EK.
    + assert (x_kind (f_xml f) = XElem) as EX by (unfold of_kind in EK; destruct (x_kind (f_xml f)); try discriminate EK; reflexivity).
      unfold contrib in HC. rewrite EX in HC. destruct HC as (C1 & C2 & C3).
      rewrite (kids_field d f _ (snd c) (finds d f ns HD HF EX) C2 st (zero0 (f_ty f)) _ (HZ f (or_introl eq_refl) EK) C3).
      destruct (IH N2 (set_field (f_name f) (ends (d_name d) f (snd kv)) st)) as (st' & S1 & S2 & S3).
      { intros g Hg Eg. rewrite set_field_lookup. destruct (String.eqb_spec (f_name g) (f_name f)) as [E|_].
        - exfalso. apply N1. rewrite <- E. apply in_map. exact Hg.
        - apply HZ; [right; exact Hg|exact Eg]. }
      exists st'. split; [exact S1|]. split; [rewrite S2; apply set_field_keys|].
      intros g. rewrite S3. unfold over. cbn [outs]. rewrite EK. cbn [lookup]. rewrite set_field_lookup.
      destruct (String.eqb_spec g (f_name f)) as [E|_]; [|reflexivity]. subst g.
      rewrite (outs_not XElem d fs ds _ N1), (HZ f (or_introl eq_refl) EK). reflexivity.
    + assert (slots (snd c) = []) as HS.
      { unfold contrib in HC. unfold of_kind in EK. destruct (x_kind (f_xml f)) eqn:EX; try discriminate EK.
        - destruct HC as (s & _ & -> & _). reflexivity.
        - destruct HC as (s & _ & _ & -> & _). unfold xtext. destruct (String.eqb (xml_clean s) ""); reflexivity.
        - destruct HC as [-> _]. reflexivity. }
      rewrite HS. cbn [take_kids]. cbn [outs]. rewrite EK.
      apply IH; [exact N2|]. intros g Hg Eg. apply HZ; [right; exact Hg|exact Eg].
Qed.

Lemma fold_same {A} (p : A -> bool) (n : string) (v : gval) l : forall (g : A -> string) st,
  (forall x, In x l -> p x = true -> g x = n) ->
  fold_left (fun fs x => if p x then set_field (g x) v fs else fs) l st =
  if existsb p l then set_field n v st else st.
Proof.
  induction l as [|x l IH]; intros g st H; [reflexivity|]. cbn [fold_left existsb].
  rewrite IH by (intros y Hy; apply H; right; exact Hy).
  destruct (p x) eqn:E; [|reflexivity]. rewrite (H x (or_introl eq_refl) E). cbn [orb].
  destruct (existsb p l); [apply set_field_twice|reflexivity].
Qed.

Lemma take_attr_one d f sp v st : In d all_decls -> In f (d_fields d) -> x_kind (f_xml f) = XAttr ->
  take_attr d (sp, x_name (f_xml f), v) st = set_field (f_name f) (VStr v) st.
Proof.
  intros HD HF HK. unfold take_attr. cbn [fst snd].
  pose (p := fun g => of_kind XAttr g && String.eqb (x_name (f_xml g)) (x_name (f_xml f))).
  assert (forall l st, fold_left (fun fs g => match x_kind (f_xml g) with
      | XAttr => if String.eqb (x_name (f_xml g)) (x_name (f_xml f)) then set_field (f_name g) (VStr v) fs else fs
      | _ => fs end) l st = fold_left (fun fs g => if p g then set_field (f_name g) (VStr v) fs else fs) l st) as K.
  { induction l as [|g l IH]; intros s; [reflexivity|]. cbn [fold_left]. rewrite IH. f_equal. unfold p, of_kind.
    destruct (x_kind (f_xml g)); reflexivity. }
  rewrite K. clear K. rewrite (fold_same p (f_name f) (VStr v) (d_fields d) f_name).
  - assert (existsb p (d_fields d) = true) as ->; [|reflexivity].
    apply existsb_exists. exists f. split; [exact HF|]. unfold p, of_kind. rewrite HK. cbn [andb]. apply String.eqb_refl.
  - intros g Hg Eg. unfold p in Eg. apply andb_true_iff in Eg. destruct Eg as [E1 E2]. apply String.eqb_eq in E2.
    pose proof (xdecl_in d HD) as OK. unfold xdecl_ok in OK.
    repeat (apply andb_true_iff in OK; destruct OK as [OK ?]). f_equal.
    match goal with K : nodupb (map _ (filter (of_kind XAttr) _)) = true |- _ => apply nodupb_spec in K;
      apply (nodup_inj (fun f => x_name (f_xml f)) (filter (of_kind XAttr) (d_fields d)) g f K) end.
    + apply filter_In. auto.
    + apply filter_In. split; [exact HF|]. unfold of_kind. rewrite HK. reflexivity.
    + exact E2.
Qed.

Lemma attrs_all d ns : In d all_decls -> forall fs ds cs, contribs d ns fs ds cs -> NoDup (map f_name ds) ->
  forall st, (forall f, In f ds -> of_kind XAttr f = true -> lookup (f_name f) st = Some (VStr "")) ->
  exists st', fold_left (fun fs a => take_attr d a fs) (concat (map fst cs)) st = st' /\ map fst st' = map fst st /\
    forall g, lookup g st' = over (outs XAttr d fs ds) g (lookup g st).
Proof.
  intros HD. induction 1 as [|kv f c fs ds cs HT HC HF HR IH]; intros ND st HZ.
  - exists st. split; [reflexivity|]. split; [reflexivity|]. intros g. reflexivity.
  - cbn [map] in ND. inversion ND as [|? ? N1 N2]; subst. cbn [map concat]. rewrite fold_left_app.
    destruct (of_kind XAttr f) eqn:EK.
    + assert (x_kind (f_xml f) = XAttr) as EX by (unfold of_kind in EK; destruct (x_kind (f_xml f)); try discriminate EK; reflexivity).
      unfold contrib in HC. rewrite EX in HC. destruct HC as (s & C1 & C2 & C3 & C4).
      assert (fold_left (fun fs a => take_attr d a fs) (fst c) st = set_field (f_name f) (VStr (xml_clean s)) st) as ->.
      { destruct C4 as [->|[-> ->]]; cbn [fold_left].
        - apply take_attr_one; assumption.
        - symmetry. apply set_field_same. apply HZ; [left; reflexivity|exact EK]. }
      destruct (IH N2 (set_field (f_name f) (VStr (xml_clean s)) st)) as (st' & S1 & S2 & S3).
      { intros g Hg Eg. rewrite set_field_lookup. destruct (String.eqb_spec (f_name g) (f_name f)) as [E|_].
        - exfalso. apply N1. rewrite <- E. apply in_map. exact Hg.
        - apply HZ; [right; exact Hg|exact Eg]. }
      exists st'. split; [exact S1|]. split; [rewrite S2; apply set_field_keys|].
      intros g. rewrite S3. unfold over. cbn [outs]. rewrite EK. cbn [lookup]. rewrite set_field_lookup, C3.
      destruct (String.eqb_spec g (f_name f)) as [E|_]; [|reflexivity]. subst g.
      rewrite (outs_not XAttr d fs ds _ N1), (HZ f (or_introl eq_refl) EK). reflexivity.
    + assert (fst c = []) as ->.
      { unfold contrib in HC. unfold of_kind in EK. destruct (x_kind (f_xml f)) eqn:EX; try discriminate EK.
        - destruct HC as (HC & _). exact HC.
        - destruct HC as (s & _ & HC & _). exact HC.
        - destruct HC as [-> _]. reflexivity. }
      cbn [fold_left]. cbn [outs]. rewrite EK. apply IH; [exact N2|].
      intros g Hg Eg. apply HZ; [right; exact Hg|exact Eg].
Qed.

Lemma text_of_app a b : text_of (a ++ b) = text_of a +++ text_of b.
Proof.
  induction a as [|[? ? ? ?|s] a IH]; [reflexivity|exact IH|]. cbn [app text_of fold_right].
  change (fold_right _ "" (a ++ b)) with (text_of (a ++ b)). rewrite IH. change (fold_right _ "" a) with (text_of a).
  symmetry. apply sapp_assoc.
Qed.

Lemma text_roots ks : Forall (fun k => xroot k <> None) ks -> text_of ks = "".
Proof. induction 1 as [|[? ? ? ?|s] ks H _ IH]; [reflexivity|exact IH|]. exfalso. apply H. reflexivity. Qed.

Lemma text_all d ns fs ds cs : contribs d ns fs ds cs ->
  match filter (of_kind XChar) ds with
  | [] => text_of (concat (map snd cs)) = ""
  | [f] => outs XChar d fs ds = [(f_name f, VStr (text_of (concat (map snd cs))))]
  | _ => True
  end.
Proof.
  assert (forall fs ds cs, contribs d ns fs ds cs -> filter (of_kind XChar) ds = [] ->
     text_of (concat (map snd cs)) = "" /\ outs XChar d fs ds = []) as K0.
  { induction 1 as [|kv f c fs' ds' cs' HT HC HF HR IH]; intros E; [split; reflexivity|].
    cbn [filter] in E. destruct (of_kind XChar f) eqn:EK; [discriminate E|]. destruct (IH E) as [I1 I2].
    cbn [map concat outs]. rewrite EK, text_of_app, I1, I2, sapp_nil_r. split; [|reflexivity].
    unfold contrib in HC. unfold of_kind in EK. destruct (x_kind (f_xml f)) eqn:EX; try discriminate EK.
    - destruct HC as (_ & HC & _). apply text_roots. eapply Forall_impl; [|exact HC]. cbv beta. intros k ->. discriminate.
    - destruct HC as (s & _ & -> & _). reflexivity.
    - destruct HC as [-> _]. reflexivity. }
  induction 1 as [|kv f c fs' ds' cs' HT HC HF HR IH]; [reflexivity|].
  cbn [filter]. destruct (of_kind XChar f) eqn:EK.
  - destruct (filter (of_kind XChar) ds') eqn:EF; [|exact I].
    destruct (K0 _ _ _ HR EF) as [I1 I2]. cbn [map concat outs]. rewrite EK, text_of_app, I1, I2, sapp_nil_r.
    unfold contrib in HC. unfold of_kind in EK. destruct (x_kind (f_xml f)) eqn:EX; try discriminate EK.
    destruct HC as (s & _ & _ & -> & ->). rewrite text_xtext. reflexivity.
  - assert (text_of (concat (map snd (c :: cs'))) = text_of (concat (map snd cs'))) as HTx.
    { cbn [map concat]. rewrite text_of_app.
      assert (text_of (snd c) = "") as ->; [|reflexivity].
      unfold contrib in HC. unfold of_kind in EK. destruct (x_kind (f_xml f)) eqn:EX; try discriminate EK.
      - destruct HC as (_ & HC & _). apply text_roots. eapply Forall_impl; [|exact HC]. cbv beta. intros k ->. discriminate.
      - destruct HC as (s & _ & -> & _). reflexivity.
      - destruct HC as [-> _]. reflexivity. }
    rewrite HTx. cbn [outs]. rewrite EK. exact IH.
Qed.

Lemma outs_kind k d ns fs ds cs f : contribs d ns fs ds cs -> NoDup (map f_name ds) -> In f ds ->
  lookup (f_name f) (outs k d fs ds) =
  if of_kind k f then omap (ends (d_name d) f) (lookup (f_name f) fs) else None.
Proof.
  induction 1 as [|kv g c fs ds cs HT HC HG HR IH]; intros ND HF; [contradiction|].
  cbn [map] in ND. inversion ND as [|? ? N1 N2]; subst. destruct kv as [k0 v]. destruct HT as [HT1 _]. cbn [fst] in HT1. subst k0.
  cbn [outs snd]. destruct HF as [->|HF].
  - destruct (of_kind k f); cbn [lookup].
    + rewrite String.eqb_refl. reflexivity.
    + apply outs_not. exact N1.
  - assert (f_name f <> f_name g) as NE by (intros E; apply N1; rewrite <- E; apply in_map; exact HF).
    apply String.eqb_neq in NE. destruct (of_kind k g); cbn [lookup]; rewrite ?NE; apply IH; assumption.
Qed.

Lemma contribs_typed d ns fs ds cs : contribs d ns fs ds cs -> Forall2 typed fs ds.
Proof. induction 1; constructor; auto. Qed.

Lemma contribs_kind d ns fs ds cs f : contribs d ns fs ds cs -> In f ds -> x_kind (f_xml f) = XSkip ->
  NoDup (map f_name ds) -> omap (ends (d_name d) f) (lookup (f_name f) fs) = Some (VStr "").
Proof.
  induction 1 as [|kv g c fs ds cs HT HC HG HR IH]; intros HF HK ND; [contradiction|].
  cbn [map] in ND. inversion ND as [|? ? N1 N2]; subst. destruct kv as [k0 v]. destruct HT as [HT1 _]. cbn [fst] in HT1. subst k0.
  cbn [lookup]. destruct HF as [->|HF].
  - rewrite String.eqb_refl. cbn [omap]. unfold contrib in HC. rewrite HK in HC. destruct HC as [_ HC]. cbn [snd] in HC. rewrite HC. reflexivity.
  - assert (f_name f <> f_name g) as NE by (intros E; apply N1; rewrite <- E; apply in_map; exact HF).
    apply String.eqb_neq in NE. rewrite NE. apply IH; assumption.
Qed.

Lemma one_struct fs : Forall (fun kv => many (snd kv)) fs -> one (VStruct fs).
Proof.
  intros HM t inh tag Hs Hn HT HW. destruct t as [| | | | | | |n]; try discriminate HT.
  destruct (has_type_struct fs n HT) as (d & HD & HF2). change (Forall2 typed fs (d_fields d)) in HF2.
  pose proof (find_decl_in n d HD) as [HDi HDn].
  pose proof (xdecl_in d HDi) as OK. unfold xdecl_ok in OK.
  repeat (apply andb_true_iff in OK; destruct OK as [OK ?]).
  apply nodupb_spec in OK. rename OK into ND.
  pose (nm := match d_xml d with Some x => x | None => tag end).
  destruct (fields_contrib d (inherit inh (fst nm)) HDi fs (d_fields d) HF2 (incl_refl _) HM
              (fun kv Hi => times_field fs kv HW Hi)) as (cs & E1 & C).
  exists (XE (inherit inh (fst nm)) (snd nm) (concat (map fst cs)) (concat (map snd cs))).
  split; [|split].
  - intros omit Ho. cbn [xenc]. rewrite Ho, HD. fold nm. change (omapl _ fs) with (omapl (fenc d (inherit inh (fst nm))) fs).
    rewrite E1. reflexivity.
  - cbn [xroot elname]. rewrite HD. subst nm. destruct (d_xml d); reflexivity.
  - intros cur Hc. cbn [fresh] in Hc. subst cur. cbn [xdec]. change (flat_map _ (concat (map snd cs))) with (slots (concat (map snd cs))).
    cbn [xat zero]. rewrite HD. unfold zero_struct.
    assert (xname_ok d (inherit inh (fst nm), snd nm) = true) as ->.
    { unfold xname_ok. subst nm. destruct (d_xml d) as [[ns l]|]; [|reflexivity]. cbn [fst snd].
      rewrite String.eqb_refl. cbn [andb]. unfold inherit.
      match goal with K : negb (String.eqb ns "") = true |- _ => apply negb_true_iff in K; rewrite K end.
      cbn [orb]. apply String.eqb_refl. }
    set (st0 := map (fun f => (f_name f, zero0 (f_ty f))) (d_fields d)).
    assert (forall f, In f (d_fields d) -> lookup (f_name f) st0 = Some (zero0 (f_ty f))) as HZ.
    { intros f Hf. apply zero_lookup. unfold find_field. apply find_unique; [exact Hf|apply String.eqb_refl|].
      intros g Hg Eg. apply String.eqb_eq in Eg. apply (nodup_inj f_name (d_fields d)); auto. }
    assert (map fst st0 = map f_name (d_fields d)) as HK0.
    { unfold st0. rewrite map_map. reflexivity. }
    assert (forall f, In f (d_fields d) -> of_kind XElem f = false -> zero0 (f_ty f) = VStr "") as HZS.
    { intros f Hf Ek. match goal with K : forallb (xfield_ok d) _ = true |- _ => rewrite forallb_forall in K; specialize (K f Hf); unfold xfield_ok in K; rename K into HO end.
      unfold of_kind in Ek. destruct (x_kind (f_xml f)); [discriminate Ek|..]; apply andb_true_iff in HO; destruct HO as [HO _];
      destruct (f_ty f); try discriminate HO; reflexivity. }
    destruct (attrs_all d _ HDi fs (d_fields d) cs C ND st0) as (st1 & A1 & A2 & A3).
    { intros f Hf Ek. rewrite (HZ f Hf), (HZS f Hf); [reflexivity|]. unfold of_kind in *. destruct (x_kind (f_xml f)); try discriminate Ek; reflexivity. }
    rewrite A1.
    destruct (kids_all d _ HDi fs (d_fields d) cs C ND st1) as (st2 & B1 & B2 & B3).
    { intros f Hf Ek. rewrite A3. unfold over. rewrite (outs_kind XAttr d _ fs (d_fields d) cs f C ND Hf).
      assert (of_kind XAttr f = false) as ->; [unfold of_kind in *; destruct (x_kind (f_xml f)); try discriminate Ek; reflexivity|].
      apply HZ. exact Hf. }
    rewrite B1. cbn [omap xnorm]. rewrite HD. do 2 f_equal.
    pose proof (text_all d _ fs (d_fields d) cs C) as HT0.
    set (txt := text_of (concat (map snd cs))) in *.
    (* the result, field by field *)
    assert (forall f, In f (d_fields d) -> lookup (f_name f) (take_text d txt st2) = omap (ends (d_name d) f) (lookup (f_name f) fs)) as HR.
    { intros f Hf.
      assert (lookup (f_name f) st2 = if of_kind XElem f || of_kind XAttr f then omap (ends (d_name d) f) (lookup (f_name f) fs)
                                       else Some (zero0 (f_ty f))) as HS2.
      { rewrite B3, A3. unfold over. rewrite !(outs_kind _ d _ fs (d_fields d) cs f C ND Hf).
        assert (exists v, lookup (f_name f) fs = Some v) as [v Hv].
        { destruct (typed_lookup fs (d_fields d) (f_name f) f HF2) as (v & Hv & _); [|exists v; exact Hv].
          apply find_unique; [exact Hf|apply String.eqb_refl|].
          intros g Hg Eg. apply String.eqb_eq in Eg. apply (nodup_inj f_name (d_fields d)); auto. }
        rewrite Hv. cbn [omap]. destruct (of_kind XElem f), (of_kind XAttr f); cbn [orb]; try reflexivity. apply HZ. exact Hf. }
      assert (of_kind XChar f = true -> find (fun f => match x_kind (f_xml f) with XChar => true | _ => false end) (d_fields d) = Some f /\
              omap (ends (d_name d) f) (lookup (f_name f) fs) = Some (VStr txt)) as HX.
      { intros Ek. assert (In f (filter (of_kind XChar) (d_fields d))) as HIn by (apply filter_In; auto).
        destruct (filter (of_kind XChar) (d_fields d)) as [|f0 [|? ?]] eqn:EF; [contradiction| |discriminate].
        destruct HIn as [->|[]]. split.
        - apply find_unique; [exact Hf|unfold of_kind in Ek; destruct (x_kind (f_xml f)); try discriminate Ek; reflexivity|].
          intros y Hy Ey. assert (In y [f]) as HIy.
          { rewrite <- EF. apply filter_In. split; [exact Hy|]. unfold of_kind. destruct (x_kind (f_xml y)); try discriminate Ey; reflexivity. }
          destruct HIy as [->|[]]. reflexivity.
        - pose proof (outs_kind XChar d _ fs (d_fields d) cs f C ND Hf) as HOK. rewrite Ek, HT0 in HOK. cbn [lookup] in HOK.
          rewrite String.eqb_refl in HOK. symmetry. exact HOK. }
      unfold take_text. destruct (of_kind XChar f) eqn:Ek.
      - destruct (HX eq_refl) as [-> HX2]. rewrite set_field_lookup, String.eqb_refl, HS2, HX2.
        assert (of_kind XElem f = false /\ of_kind XAttr f = false) as [-> ->] by (unfold of_kind in *; destruct (x_kind (f_xml f)); try discriminate Ek; auto).
        reflexivity.
      - assert (lookup (f_name f) st2 = omap (ends (d_name d) f) (lookup (f_name f) fs)) as HL.
        { rewrite HS2. destruct (x_kind (f_xml f)) eqn:EX.
          - unfold of_kind. rewrite EX. reflexivity.
          - unfold of_kind. rewrite EX. reflexivity.
          - unfold of_kind in Ek. rewrite EX in Ek. discriminate Ek.
          - rewrite (contribs_kind d _ fs (d_fields d) cs f C Hf EX ND).
            unfold of_kind. rewrite EX. cbn [orb]. rewrite HZS; [reflexivity|exact Hf|]. unfold of_kind. rewrite EX. reflexivity. }
        destruct (find (fun f => match x_kind (f_xml f) with XChar => true | _ => false end) (d_fields d)) as [f0|] eqn:E0; [|exact HL].
        rewrite set_field_lookup. destruct (String.eqb_spec (f_name f) (f_name f0)) as [E|_]; [|exact HL].
        exfalso. apply find_some in E0. destruct E0 as [E01 E02].
        assert (f = f0) by (apply (nodup_inj f_name (d_fields d)); auto). subst f0.
        unfold of_kind in Ek. destruct (x_kind (f_xml f)); try discriminate E02. discriminate Ek. }
    assert (map fst (take_text d txt st2) = map f_name (d_fields d)) as HKt.
    { unfold take_text. destruct (find _ (d_fields d)); [rewrite set_field_keys|]; rewrite B2, A2; exact HK0. }
    pose proof (typed_keys fs (d_fields d) HF2) as HKf.
    assert (forall kv, In kv fs -> exists f, In f (d_fields d) /\ find_field d (fst kv) = Some f /\ f_name f = fst kv) as HFd.
    { intros kv Hi. assert (In (fst kv) (map f_name (d_fields d))) as HIn by (rewrite <- HKf; apply in_map; exact Hi).
      apply in_map_iff in HIn. destruct HIn as (f & Ef & Hf). exists f. split; [exact Hf|]. split; [|exact Ef].
      unfold find_field. apply find_unique; [exact Hf|rewrite Ef; apply String.eqb_refl|].
      intros g Hg Eg. apply String.eqb_eq in Eg. apply (nodup_inj f_name (d_fields d)); auto. congruence. }
    assert (map (fun kv => match find_field d (fst kv) with
        | Some f => (fst kv, if not_sent n (fst kv) then VStr ""
                             else if optional_number n (fst kv) && fzero (snd kv)
                             then VF64 (FFin false 0 (-1074))
                             else xnorm (f_ty f) (snd kv))
        | None => kv
        end) fs = map (fun kv => (fst kv, (fun k v => match find_field d k with Some f => ends (d_name d) f v | None => v end) (fst kv) (snd kv))) fs) as HM2.
    { apply map_ext_in. intros kv Hi. destruct (HFd kv Hi) as (f & _ & E & En). rewrite E. unfold ends. rewrite HDn, En. reflexivity. }
    rewrite HM2. apply lookup_ext.
    + rewrite HKt, map_map. cbn [fst]. symmetry. exact HKf.
    + rewrite HKt. exact ND.
    + intros g. rewrite (lookup_map (fun k v => match find_field d k with Some f => ends (d_name d) f v | None => v end)).
      destruct (in_dec string_dec g (map f_name (d_fields d))) as [HI|HI].
      * apply in_map_iff in HI. destruct HI as (f & Ef & Hf). subst g. rewrite (HR f Hf).
        assert (find_field d (f_name f) = Some f) as ->; [|reflexivity].
        unfold find_field. apply find_unique; [exact Hf|apply String.eqb_refl|].
        intros g Hg Eg. apply String.eqb_eq in Eg. apply (nodup_inj f_name (d_fields d)); auto.
      * assert (lookup g (take_text d txt st2) = None) as -> by (apply lookup_None; rewrite HKt; exact HI).
        assert (lookup g fs = None) as -> by (apply lookup_None; rewrite HKf; exact HI). reflexivity.
Qed.

Theorem xml_rt v : one v /\ many v.
Proof.
  induction v as [s|z|x|b|x| |v IH|l IH|fs IH] using gval_ind'.
  - assert (one (VStr s)) as K by (apply one_scalar; exact I). split; [exact K|apply many_single; [exact K|exact I]].
  - assert (one (VInt z)) as K by (apply one_scalar; exact I). split; [exact K|apply many_single; [exact K|exact I]].
  - assert (one (VF64 x)) as K by (apply one_scalar; exact I). split; [exact K|apply many_single; [exact K|exact I]].
  - assert (one (VBool b)) as K by (apply one_scalar; exact I). split; [exact K|apply many_single; [exact K|exact I]].
  - assert (one (VTime x)) as K by (apply one_scalar; exact I). split; [exact K|apply many_single; [exact K|exact I]].
  - assert (one VNil) as K by (apply one_scalar; exact I). split; [exact K|apply many_single; [exact K|exact I]].
  - assert (one (VPtr v)) as K by (apply one_ptr; apply IH). split; [exact K|apply many_single; [exact K|exact I]].
  - split.
    + intros t inh tag Hs _ HT _. destruct t; try discriminate HT. discriminate Hs.
    + apply many_slice. eapply Forall_impl; [|exact IH]. cbv beta. intros x H. apply H.
  - assert (one (VStruct fs)) as K by (apply one_struct; eapply Forall_impl; [|exact IH]; cbv beta; intros x H; apply H).
    split; [exact K|apply many_single; [exact K|exact I]].
Qed.
