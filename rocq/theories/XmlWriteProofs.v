(** What XmlWrite.v prints is read back by XmlSyntax.v as the documents of Xml.v and Soap.v. *)
From Verif Require Import GoBase Utf8 Json Float64 GoTime Lang Types Codec EncProofs Tables Registry Leaves
  SpecCodec SpecEnc RoundTrip DecTyped Xml XmlProofs XmlTyped Soap SpecSoap SoapProofs SoapMore
  SpecXmlText XmlText XmlWritten XmlSyntax SpecXml XmlSyntaxProofs XmlWrite.
Open Scope string_scope.
Open Scope list_scope.

(** ** Escaping *)
Definition esc_piece (c : ascii) : piece :=
  if N.eqb (code c) 34 then Ref "#34" else if N.eqb (code c) 39 then Ref "#39" else if N.eqb (code c) 38 then Ref "amp"
  else if N.eqb (code c) 60 then Ref "lt" else if N.eqb (code c) 62 then Ref "gt" else if N.eqb (code c) 9 then Ref "#x9"
  else if N.eqb (code c) 10 then Ref "#xA" else if N.eqb (code c) 13 then Ref "#xD" else Lit c.
Fixpoint pieces_of (s : string) : list piece := match s with EmptyString => [] | String c r => esc_piece c :: pieces_of r end.
Lemma show_esc c : show_piece (esc_piece c) = esc1 c.
Proof. unfold esc_piece, esc1. repeat (match goal with |- context [if ?b then _ else _] => destruct b; [reflexivity|] end). reflexivity. Qed.
Lemma show_esc_all s : show_pieces (pieces_of s) = esc_bytes s.
Proof. induction s as [|c s IH]; [reflexivity|]. cbn [pieces_of show_pieces fold_right esc_bytes]. fold (show_pieces (pieces_of s)). rewrite show_esc, IH. reflexivity. Qed.
Lemma dec2 a b n m : digit_in false a n -> digit_in false b m -> numeral false (String a (str1 b)) (n * 10 + m).
Proof. intros H1 H2. change (String a (str1 b)) with (str1 a +++ str1 b). apply (num_more false (str1 a) n b m); [constructor; exact H1|exact H2]. Qed.
Lemma spelled_esc q s : q = None \/ q = Some dq -> spelled q (pieces_of s) s.
Proof.
  intros Hq. induction s as [|c s IH]; [constructor|]. cbn [pieces_of]. unfold esc_piece.
  assert (R : forall a d, refers a (str1 d) -> c = d -> spelled q (Ref a :: pieces_of s) (String c s)) by (intros a d H ->; exact (sp_ref q a (str1 d) _ _ H IH)).
  assert (U : forall k, (k < 256)%N -> N.eqb (code c) k = true -> c = chr k) by (intros k _ H; apply N.eqb_eq in H; rewrite <- H, chr_code; reflexivity).
  destruct (N.eqb (code c) 34) eqn:E1; [apply (R _ (chr 34)); [|apply U; [lia|exact E1]]|].
  { change (str1 (chr 34)) with (utf8_encode 34). apply (ref_dec "34" 34); [|unfold xml_char; lia]. apply (dec2 "3" "4" 3 4); left; split; reflexivity. }
  destruct (N.eqb (code c) 39) eqn:E2; [apply (R _ (chr 39)); [|apply U; [lia|exact E2]]|].
  { change (str1 (chr 39)) with (utf8_encode 39). apply (ref_dec "39" 39); [|unfold xml_char; lia]. apply (dec2 "3" "9" 3 9); left; split; reflexivity. }
  destruct (N.eqb (code c) 38) eqn:E3; [apply (R _ "&"%char); [exact ref_amp|exact (U 38%N eq_refl E3)]|].
  destruct (N.eqb (code c) 60) eqn:E4; [apply (R _ "<"%char); [exact ref_lt|exact (U 60%N eq_refl E4)]|].
  destruct (N.eqb (code c) 62) eqn:E5; [apply (R _ ">"%char); [exact ref_gt|exact (U 62%N eq_refl E5)]|].
  destruct (N.eqb (code c) 9) eqn:E6; [apply (R _ (chr 9)); [|apply U; [lia|exact E6]]|].
  { change (str1 (chr 9)) with (utf8_encode 9). apply (ref_hex "9" 9); [|unfold xml_char; lia]. change "9" with (str1 "9"). constructor. left. split; reflexivity. }
  destruct (N.eqb (code c) 10) eqn:E7; [apply (R _ (chr 10)); [|apply U; [lia|exact E7]]|].
  { change (str1 (chr 10)) with (utf8_encode 10). apply (ref_hex "A" 10); [|unfold xml_char; lia]. change "A" with (str1 "A"). constructor. right. split; [reflexivity|]. split; [lia|]. right. reflexivity. }
  destruct (N.eqb (code c) 13) eqn:E8; [apply (R _ (chr 13)); [|apply U; [lia|exact E8]]|].
  { change (str1 (chr 13)) with (utf8_encode 13). apply (ref_hex "D" 13); [|unfold xml_char; lia]. change "D" with (str1 "D"). constructor. right. split; [reflexivity|]. split; [lia|]. right. reflexivity. }
  constructor; [|exact IH]. repeat split; try (intros ->; discriminate). intros H. destruct Hq as [->| ->]; [discriminate H|]. injection H as H. subst c. discriminate E1.
Qed.
Lemma esc_no_close s : no_close (pieces_of s).
Proof.
  intros l1 l2 E. assert (HI : In (Lit ">") (pieces_of s)) by (rewrite E; apply in_or_app; right; right; right; left; reflexivity).
  clear E. induction s as [|c s IH]; [exact HI|]. destruct HI as [H|H]; [|exact (IH H)].
  unfold esc_piece in H. repeat (match type of H with (if ?b then _ else _) = _ => destruct b eqn:?; [discriminate H|] end). injection H as ->. discriminate.
Qed.
Lemma writes_clean q s : q = None \/ q = Some dq -> writes_text q (pieces_of (xml_clean s)) (xml_clean s).
Proof. intros H. split; [exact (spelled_esc q _ H)|]. split; [apply esc_no_close|apply clean_text]. Qed.

(** ** Printed elements are documents *)
Definition cattr_of (a : string * string * string) : cattr :=
  let '(p, l) := split_name (snd (fst a)) in MkAttr " " p l "" "" dq (pieces_of (xml_clean (snd a))) (xml_clean (snd a)).
Fixpoint cst_of (x : xml) : cst :=
  match x with
  | XT s => CChars (pieces_of (xml_clean s)) (xml_clean s)
  | XE ns nm attrs kids => let '(p, l) := split_name nm in CElem p l (map cattr_of (ns_attr ns ++ attrs)) "" (map cst_of kids) ""
  end.
(** A name with or without prefix. *)
Definition is_qname (nm : string) : Prop := exists p l, nm = qname p l /\ good_name p l = true.
Definition is_text (x : xml) : bool := match x with XT _ => true | XE _ _ _ _ => false end.
Fixpoint good_raw (x : xml) : Prop :=
  match x with
  | XT s => s <> ""
  | XE ns nm attrs kids => is_qname nm /\ fst (split_name nm) <> "xmlns" /\ snd (split_name nm) <> "xmlns" /\ Forall (fun a => is_qname (snd (fst a))) attrs /\
      fold_right (fun k r => good_raw k /\ r) True kids /\ (forallb (fun k => negb (is_text k)) kids = true \/ exists s, kids = [XT s])
  end.
Lemma raw_kids kids : fold_right (fun k r => good_raw k /\ r) True kids <-> Forall good_raw kids.
Proof. induction kids as [|k kids IH]; [split; constructor|]. cbn [fold_right]. rewrite IH, Forall_cons_iff. reflexivity. Qed.
Lemma xml_ind' (P : xml -> Prop) (HE : forall ns nm attrs kids, Forall P kids -> P (XE ns nm attrs kids)) (HT : forall s, P (XT s)) : forall x, P x.
Proof. fix IH 1. intros [ns nm attrs kids|s]; [|apply HT]. apply HE. induction kids as [|k kids IHk]; constructor; [apply IH|exact IHk]. Qed.
Lemma qname_of nm : is_qname nm -> good_name (fst (split_name nm)) (snd (split_name nm)) = true /\ qname (fst (split_name nm)) (snd (split_name nm)) = nm.
Proof. intros (p & l & -> & H). rewrite (split_qname p l H). split; [exact H|reflexivity]. Qed.
Lemma show_cattr a : is_qname (snd (fst a)) -> show_attr (cattr_of a) = print_attr a.
Proof.
  intros H. destruct (qname_of _ H) as [_ E]. unfold cattr_of. destruct (split_name (snd (fst a))) as [p l] eqn:ES. cbn [fst snd] in E. unfold show_attr, print_attr, escape. cbn.
  rewrite E, show_esc_all. reflexivity.
Qed.
Lemma cattr_ok a : is_qname (snd (fst a)) -> ok_attr (cattr_of a).
Proof.
  intros H. destruct (qname_of _ H) as [E _]. unfold cattr_of. destruct (split_name (snd (fst a))) as [p l] eqn:ES. cbn [fst snd] in E.
  unfold ok_attr. cbn [a_white a_w1 a_w2 a_prefix a_local a_quote a_pieces a_text]. repeat split; try discriminate; try reflexivity; try assumption; [left; reflexivity|..]; apply (writes_clean (Some dq)); right; reflexivity.
Qed.
Lemma ns_qname ns : Forall (fun a => is_qname (snd (fst a))) (ns_attr ns).
Proof. unfold ns_attr. destruct (String.eqb ns ""); constructor; [|constructor]. exists "", "xmlns". split; reflexivity. Qed.
Lemma show_cattrs l : Forall (fun a => is_qname (snd (fst a))) l -> show_attrs (map cattr_of l) = fold_right (fun a r => print_attr a +++ r) "" l.
Proof. induction 1 as [|a l H HF IH]; [reflexivity|]. cbn [map show_attrs fold_right]. fold (show_attrs (map cattr_of l)). rewrite (show_cattr a H), IH. reflexivity. Qed.
Lemma clean_nonempty s : s <> "" -> xml_clean s <> "".
Proof.
  destruct s as [|c s]; [contradiction|]. intros _. cbn [xml_clean]. destruct (utf8_size (String c s)) as [|[|[|[|[|?]]]]]; try discriminate;
  repeat (match goal with |- context [if ?b then _ else _] => destruct b | |- context [match ?s with EmptyString => _ | _ => _ end] => destruct s end; try discriminate).
Qed.
Lemma cst_good x : good_raw x -> well_formed (cst_of x) /\ show (cst_of x) = print x.
Proof.
  induction x as [ns nm attrs kids IH|s] using xml_ind'; intros H.
  - cbn [good_raw] in H. destruct H as (H1 & H2 & H3 & H4 & H5 & H6). apply raw_kids in H5. destruct (qname_of _ H1) as [G E].
    cbn [cst_of print]. destruct (split_name nm) as [p l] eqn:ES. cbn [fst snd] in *.
    assert (HA : Forall (fun a => is_qname (snd (fst a))) (ns_attr ns ++ attrs)) by (apply Forall_app; split; [apply ns_qname|exact H4]).
    assert (HK : Forall well_formed (map cst_of kids) /\ show_all (map cst_of kids) = (fix all (l : list xml) : string := match l with [] => "" | k :: r => print k +++ all r end) kids).
    { clear - IH H5. induction kids as [|k kids IHk]; [split; [constructor|reflexivity]|]. apply Forall_cons_iff in IH as [I1 I2], H5 as [G1 G2]. destruct (I1 G1) as [A B], (IHk I2 G2) as [C D].
      split; [constructor; assumption|]. cbn [map show_all fold_right]. fold (show_all (map cst_of kids)). rewrite B, D. reflexivity. }
    destruct HK as [K1 K2]. split.
    + cbn [well_formed]. repeat (split; [first [assumption|reflexivity]|]). split; [|split; [reflexivity|split; [reflexivity|split]]].
      * apply Forall_map. eapply Forall_impl; [|exact HA]. intros a. apply cattr_ok.
      * clear - K1. induction K1; [constructor|]. split; assumption.
      * destruct H6 as [H6|(s & ->)]; [|reflexivity]. clear - H6. induction kids as [|k kids IHk]; [reflexivity|]. cbn [forallb] in H6. apply andb_true_iff in H6 as [A B].
        cbn [map apart]. destruct kids as [|k2 kids]; [reflexivity|]. cbn [map]. cbn [map] in IHk. rewrite (IHk B), andb_true_r. destruct k as [ns nm attrs ks|s]; [|discriminate A].
        cbn [cst_of]. destruct (split_name nm). reflexivity.
    + cbn [show]. change (fold_right (fun k r => show k +++ r) "" (map cst_of kids)) with (show_all (map cst_of kids)). rewrite K2, E, (show_cattrs _ HA). cbn [String.append]. reflexivity.
  - cbn [cst_of well_formed show print]. split; [|rewrite show_esc_all; reflexivity]. split; [|apply (writes_clean None); left; reflexivity].
    pose proof (clean_nonempty s H). destruct (xml_clean s); [contradiction|discriminate].
Qed.
Lemma read_after uni c rest : well_formed c -> is_elem c = true -> exists x, tree [] c = [x] /\ read_xml uni (show c +++ rest) = Some x.
Proof.
  intros HW HE. unfold read_xml.
  assert (L : step_over uni (show c) rest (toks c)) by (apply over_doc; [exact HW|destruct c; try discriminate HE; intros K; discriminate K]).
  destruct (lexes_tokens _ _ _ _ L (S (String.length (show c +++ rest))) ltac:(lia)) as (f & _ & E).
  destruct (build_root c (tokens uni f rest) HW HE) as (x & X1 & X2). exists x. split; [exact X1|]. rewrite E. exact X2.
Qed.
Theorem read_print uni ns nm attrs kids rest : good_raw (XE ns nm attrs kids) ->
  exists x, tree [] (cst_of (XE ns nm attrs kids)) = [x] /\ read_xml uni (print (XE ns nm attrs kids) +++ rest) = Some x.
Proof.
  intros H. destruct (cst_good _ H) as [A B]. rewrite <- B. apply read_after; [exact A|]. cbn [cst_of]. destruct (split_name nm). reflexivity.
Qed.

(** ** From what is printed to the trees of Xml.v *)
(** A printed element without prefixes, as it is read inside the default namespace [inh]; [decl]: with or without the declarations among the attributes. *)
Fixpoint settle (dcl : bool) (inh : string) (x : xml) : xml :=
  match x with
  | XT s => XT (xml_clean s)
  | XE ns nm attrs kids => XE (inherit inh ns) nm (map (fun a => (fst a, xml_clean (snd a))) ((if dcl then ns_attr ns else []) ++ attrs)) (map (settle dcl (inherit inh ns)) kids)
  end.
Lemma settle_text b inh s : map (settle b inh) (xtext s) = xtext (xml_clean s).
Proof.
  unfold xtext. destruct (String.eqb_spec s "") as [->|H]; [reflexivity|]. pose proof (clean_nonempty s H) as K. apply String.eqb_neq in K. rewrite K. reflexivity.
Qed.
Lemma settle_simple inh tag s : Some [XE (inherit inh (fst tag)) (snd tag) [] (xtext (xml_clean s))] = omap (map (settle false inh)) (simple (fst tag) (snd tag) s).
Proof. unfold simple. cbn [omap map settle app]. rewrite settle_text. reflexivity. Qed.
Lemma plain_settle inh tag s : str_forall XmlWritten.plain s = true -> simple (inherit inh (fst tag)) (snd tag) s = omap (map (settle false inh)) (simple (fst tag) (snd tag) s).
Proof. intros H. rewrite <- settle_simple. unfold simple. apply plain_text, clean_id in H. rewrite H. reflexivity. Qed.
Lemma omapl_omap {A B C} (f : A -> option B) (g : A -> option C) (h : B -> C) l : Forall (fun x => g x = omap h (f x)) l -> omapl g l = omap (map h) (omapl f l).
Proof.
  induction 1 as [|x l H HF IH]; [reflexivity|]. rewrite !omapl_cons, H, IH. destruct (f x) as [y|]; [|reflexivity]. cbn [omap]. destruct (omapl f l); reflexivity.
Qed.
Lemma typed_val n d fs kv f : find_decl n = Some d -> has_type (VStruct fs) (TStruct n) = true -> In kv fs -> find_field d (fst kv) = Some f -> has_type (snd kv) (f_ty f) = true.
Proof.
  intros Ed HT Hkv Ef. apply has_type_struct in HT. destruct HT as (d' & Ed' & HT). rewrite Ed in Ed'. injection Ed' as <-.
  destruct (typed_lookup fs (d_fields d) (fst kv) f HT Ef) as (v' & Lv & Tv & Iv).
  pose proof (find_decl_in n d Ed) as [HD _]. pose proof (names_nodup d HD) as ND. pose proof (typed_keys _ _ HT) as TK. rewrite <- TK in ND.
  destruct kv as [k w]. cbn [fst snd] in *. rewrite (nodup_val _ _ _ _ ND Hkv Iv). exact Tv.
Qed.
Theorem xenc_raw v : forall inh tag omit t, has_type v t = true -> xenc inh tag omit t v = omap (map (settle false inh)) (xraw tag omit t v).
Proof.
  induction v as [s|z|x|b|x| |v IH|vs IH|fs IH] using gval_ind'; intros inh tag omit t HT.
  all: cbn [xenc xraw]; destruct (omit && is_empty _); [reflexivity|].
  all: destruct t as [|bits| | | |t|t|n]; try discriminate HT.
  - exact (settle_simple inh tag s).
  - exact (plain_settle inh tag _ (dec_int_plain z)).
  - cbn [has_type] in HT. exact (plain_settle inh tag _ (fmt_g_plain x HT)).
  - apply plain_settle. destruct b; reflexivity.
  - destruct ((0 <=? t_year x)%Z && (t_year x <=? 9999)%Z) eqn:E; [|reflexivity]. cbn [has_type] in HT. apply plain_settle, nano_plain; [exact HT|lia].
  - reflexivity.
  - reflexivity.
  - exact (IH _ _ _ _ HT).
  - cbn [has_type] in HT. rewrite (omapl_omap (fun x => xraw tag omit t x) _ (map (settle false inh))).
    + destruct (omapl _ vs) as [ls|]; [|reflexivity]. cbn [omap]. rewrite concat_map. reflexivity.
    + rewrite forallb_forall in HT. rewrite Forall_forall in *. intros x Hx. exact (IH x Hx _ _ _ _ (HT x Hx)).
  - destruct (find_decl n) as [d|] eqn:Ed; [|reflexivity].
    set (nm := match d_xml d with Some x => x | None => tag end).
    set (h := fun p : list (string * string * string) * list xml => (map (fun a => (fst a, xml_clean (snd a))) (fst p), map (settle false (inherit inh (fst nm))) (snd p))).
    erewrite (omapl_omap _ _ h).
    2:{ rewrite Forall_forall in *. intros kv Hkv. instantiate (1 := fun kv => match find_field d (fst kv) with
          | None => None
          | Some f =>
            match x_kind (f_xml f) with
            | XElem => omap (fun ks => ([], ks)) (xraw (field_ns d f, x_name (f_xml f)) (x_omit (f_xml f)) (f_ty f) (snd kv))
            | XAttr => omap (fun l => (l, [])) (rattr f (snd kv))
            | XChar => match snd kv with VStr s => Some ([], xtext s) | _ => None end
            | XSkip => Some ([], [])
            end
          end).
        cbv beta. destruct (find_field d (fst kv)) as [f|] eqn:Ef; [|reflexivity]. pose proof (typed_val n d fs kv f Ed HT Hkv Ef) as Tv.
        destruct (x_kind (f_xml f)).
        - rewrite (IH kv Hkv _ _ _ _ Tv). destruct (xraw _ _ _ (snd kv)); reflexivity.
        - unfold xattr, rattr. destruct (x_omit (f_xml f) && is_empty (snd kv)); [reflexivity|]. destruct (snd kv); reflexivity.
        - destruct (snd kv); try reflexivity. cbn [omap]. unfold h. cbn [fst snd map]. rewrite settle_text. reflexivity.
        - reflexivity. }
    destruct (omapl _ fs) as [ls|]; [|reflexivity]. cbn [omap map settle app]. fold nm. rewrite !concat_map, !map_map. unfold h. cbn [fst snd]. reflexivity.
Qed.

(** ** What is printed for a message *)
Fixpoint bare (x : xml) : Prop :=
  match x with
  | XT s => s <> ""
  | XE ns nm attrs kids => ncname nm = true /\ nm <> "xmlns" /\ xml_clean ns = ns /\
      Forall (fun a => fst (fst a) = "" /\ ncname (snd (fst a)) = true /\ snd (fst a) <> "xmlns") attrs /\
      fold_right (fun k r => bare k /\ r) True kids /\ (forallb (fun k => negb (is_text k)) kids = true \/ exists s, kids = [XT s])
  end.
Lemma bare_kids kids : fold_right (fun k r => bare k /\ r) True kids <-> Forall bare kids.
Proof. induction kids as [|k kids IH]; [split; constructor|]. cbn [fold_right]. rewrite IH, Forall_cons_iff. reflexivity. Qed.
Lemma ncname_split nm : ncname nm = true -> split_name nm = ("", nm).
Proof. intros H. exact (split_qname "" nm H). Qed.
Lemma ncname_q nm : ncname nm = true -> is_qname nm.
Proof. intros H. exists "", nm. split; [reflexivity|exact H]. Qed.
Lemma bare_good x : bare x -> good_raw x.
Proof.
  induction x as [ns nm attrs kids IH|s] using xml_ind'; intros H; [|exact H]. cbn [bare] in H. destruct H as (H1 & H2 & H3 & H4 & H5 & H6). apply bare_kids in H5.
  cbn [good_raw]. rewrite (ncname_split nm H1). cbn [fst snd]. split; [exact (ncname_q nm H1)|]. split; [discriminate|]. split; [exact H2|]. split; [|split; [|exact H6]].
  - eapply Forall_impl; [|exact H4]. intros a (_ & A & _). exact (ncname_q _ A).
  - apply raw_kids. rewrite Forall_forall in *. intros k Hk. exact (IH k Hk (H5 k Hk)).
Qed.
Definition bare_name (s : string) : bool := ncname s && negb (String.eqb s "xmlns").
Lemma bare_name_spec s : bare_name s = true -> ncname s = true /\ s <> "xmlns".
Proof. unfold bare_name. rewrite andb_true_iff, negb_true_iff, String.eqb_neq. tauto. Qed.
Definition kind_of (d : decl) (k : string) : option xkind := omap (fun f => x_kind (f_xml f)) (find_field d k).
Definition is_xchar (d : decl) (k : string) : bool := match kind_of d k with Some XChar => true | _ => false end.
Definition is_xelem (f : field) : bool := match x_kind (f_xml f) with XElem => true | _ => false end.
Definition decl_bare (d : decl) : bool :=
  match d_xml d with Some (ns, nm) => bare_name nm && String.eqb (xml_clean ns) ns | None => true end &&
  forallb (fun f => match x_kind (f_xml f) with XElem | XAttr => bare_name (x_name (f_xml f)) | _ => true end) (d_fields d) &&
  match filter (is_xchar d) (map f_name (d_fields d)) with [] => true | [_] => forallb (fun f => negb (is_xelem f)) (d_fields d) | _ => false end.
Lemma all_bare d : In d all_decls -> decl_bare d = true.
Proof. assert (forallb decl_bare all_decls = true) as K by (vm_compute; reflexivity). rewrite forallb_forall in K. exact (K d). Qed.
Definition elements_of (l : list xml) : Prop := Forall bare l /\ forallb (fun k => negb (is_text k)) l = true.
Lemma elements_concat ls : Forall elements_of ls -> elements_of (concat ls).
Proof.
  induction 1 as [|l ls [A B] HF [C D]]; [split; constructor|]. cbn [concat]. split; [apply Forall_app; split; assumption|]. rewrite forallb_app, B, D. reflexivity.
Qed.
Lemma simple_bare ns nm s : bare_name nm = true -> xml_clean ns = ns -> elements_of [XE ns nm [] (xtext s)].
Proof.
  intros H1 H2. destruct (bare_name_spec nm H1) as [A B]. split; [|reflexivity]. constructor; [|constructor]. cbn [bare]. repeat (split; [first [assumption|constructor]|]).
  unfold xtext. destruct (String.eqb_spec s "") as [->|H]; cbn [fold_right bare]; [split; [exact I|left; reflexivity]|]. split; [split; [exact H|exact I]|right; eexists; reflexivity].
Qed.
Lemma field_ns_clean d f : decl_bare d = true -> xml_clean (field_ns d f) = field_ns d f.
Proof.
  unfold decl_bare, field_ns. rewrite !andb_true_iff. intros [[H _] _]. destruct (d_xml d) as [[ns nm]|]; [|reflexivity]. destruct (untagged f); [reflexivity|].
  apply andb_true_iff in H as [_ H]. apply String.eqb_eq in H. exact H.
Qed.
Lemma field_in d k f : find_field d k = Some f -> In f (d_fields d).
Proof. unfold find_field. intros H. apply find_some in H. exact (proj1 H). Qed.
Lemma omapl_pair {A} (f : A -> option (list (string * string * string) * list xml)) (l : list A) ys : omapl f l = Some ys -> Forall2 (fun x y => f x = Some y) l ys.
Proof.
  revert ys. induction l as [|x l IH]; intros ys; [intros H; injection H as <-; constructor|]. rewrite omapl_cons.
  destruct (f x) eqn:E; [|discriminate]. destruct (omapl f l) eqn:E2; [|discriminate]. intros H. injection H as <-. constructor; auto.
Qed.
Theorem xraw_bare v : forall tag omit t l, has_type v t = true -> bare_name (snd tag) = true -> xml_clean (fst tag) = fst tag -> xraw tag omit t v = Some l -> elements_of l.
Proof.
  induction v as [s|z|x|b|x| |v IH|vs IH|fs IH] using gval_ind'; intros tag omit t l HT H1 H2 HE.
  all: cbn [xraw] in HE; destruct (omit && is_empty _); [injection HE as <-; split; constructor|].
  all: destruct t as [|bits| | | |t|t|n]; try discriminate HT.
  1,2,3,4: injection HE as <-; exact (simple_bare _ _ _ H1 H2).
  - destruct ((0 <=? t_year x)%Z && (t_year x <=? 9999)%Z); [|discriminate HE]. injection HE as <-. exact (simple_bare _ _ _ H1 H2).
  - injection HE as <-. split; constructor.
  - injection HE as <-. split; constructor.
  - exact (IH _ _ _ _ HT H1 H2 HE).
  - cbn [has_type] in HT. destruct (omapl _ vs) as [ls|] eqn:E; [|discriminate HE]. cbn [omap] in HE. injection HE as <-.
    apply elements_concat. revert E. apply omapl_Forall. rewrite forallb_forall in HT. rewrite Forall_forall in *.
    intros x Hx y Hy. exact (IH x Hx _ _ _ _ (HT x Hx) H1 H2 Hy).
  - destruct (find_decl n) as [d|] eqn:Ed; [|discriminate HE]. pose proof (find_decl_in n d Ed) as [HD _]. pose proof (all_bare d HD) as HB.
    destruct (omapl _ fs) as [ls|] eqn:E; [|discriminate HE]. injection HE as <-. split; [|reflexivity]. constructor; [|constructor].
    set (nm := match d_xml d with Some x => x | None => tag end).
    pose proof HB as HB'. unfold decl_bare in HB'. rewrite !andb_true_iff in HB'. destruct HB' as [[B1 B2] B3]. rewrite forallb_forall in B2.
    assert (HN : bare_name (snd nm) = true /\ xml_clean (fst nm) = fst nm).
    { unfold nm. destruct (d_xml d) as [[ns m]|]; [|split; assumption]. apply andb_true_iff in B1 as [B1 B1']. apply String.eqb_eq in B1'. split; assumption. }
    destruct HN as [N1 N2]. destruct (bare_name_spec _ N1) as [N3 N4]. apply omapl_pair in E.
    match type of E with Forall2 ?r _ _ => set (step := r) in E end.
    assert (K : Forall2 (fun kv y => Forall (fun a : string * string * string => fst (fst a) = "" /\ ncname (snd (fst a)) = true /\ snd (fst a) <> "xmlns") (fst y) /\
        match kind_of d (fst kv) with Some XElem => elements_of (snd y) | Some XChar => exists s, snd y = xtext s | _ => snd y = [] end) fs ls).
    { assert (G : forall kv y, In kv fs -> step kv y -> Forall (fun a : string * string * string => fst (fst a) = "" /\ ncname (snd (fst a)) = true /\ snd (fst a) <> "xmlns") (fst y) /\
        match kind_of d (fst kv) with Some XElem => elements_of (snd y) | Some XChar => exists s, snd y = xtext s | _ => snd y = [] end).
      { intros kv y Hkv Hy. unfold step in Hy. unfold kind_of. destruct (find_field d (fst kv)) as [f|] eqn:Ef; [|discriminate Hy]. cbn [omap].
        pose proof (typed_val n d fs kv f Ed HT Hkv Ef) as Tv. pose proof (B2 f (field_in d _ f Ef)) as Bf. rewrite Forall_forall in IH.
        destruct (x_kind (f_xml f)).
        - destruct (xraw _ _ _ (snd kv)) as [ks|] eqn:Ek; [|discriminate Hy]. injection Hy as <-. cbn [fst snd]. split; [constructor|].
          refine (IH kv Hkv _ _ _ _ Tv _ _ Ek); [exact Bf|exact (field_ns_clean d f HB)].
        - unfold rattr in Hy. destruct (x_omit (f_xml f) && is_empty (snd kv)); [injection Hy as <-; split; [constructor|reflexivity]|].
          destruct (snd kv) as [s| | | | | | | |]; try discriminate Hy. injection Hy as <-. cbn [fst snd]. split; [|reflexivity]. constructor; [|constructor].
          destruct (bare_name_spec _ Bf). cbn. auto.
        - destruct (snd kv) as [s| | | | | | | |]; try discriminate Hy. injection Hy as <-. cbn [fst snd]. split; [constructor|]. exists s. reflexivity.
        - injection Hy as <-. split; [constructor|reflexivity]. }
      clear - E G. revert G. induction E as [|kv y fs ls Hy HF IHF]; intros G; constructor; [apply G; [left; reflexivity|exact Hy]|]. apply IHF. intros kv' y' Hkv. apply G. right. exact Hkv. }
    assert (C : filter (is_xchar d) (map fst fs) = filter (is_xchar d) (map f_name (d_fields d))).
    { pose proof HT as HT'. apply has_type_struct in HT'. destruct HT' as (d' & Ed' & HT'). rewrite Ed in Ed'. injection Ed' as <-. rewrite (typed_keys _ _ HT'). reflexivity. }
    rewrite <- C in B3.
    assert (KA : Forall (fun a : string * string * string => fst (fst a) = "" /\ ncname (snd (fst a)) = true /\ snd (fst a) <> "xmlns") (concat (map fst ls))).
    { apply concat_Forall. clear - K. induction K as [|kv y fs ls [A _] HF IHF]; cbn [map]; constructor; assumption. }
    assert (KK : Forall bare (concat (map snd ls)) /\ (forallb (fun k => negb (is_text k)) (concat (map snd ls)) = true \/ exists s, concat (map snd ls) = [XT s])).
    { destruct (filter (is_xchar d) (map fst fs)) as [|k0 [|k1 kr]] eqn:EF; [| |discriminate B3].
      - assert (KE : elements_of (concat (map snd ls))).
        { apply elements_concat. clear - K EF. induction K as [|kv y fs ls [_ A] HF IHF]; cbn [map]; constructor.
          - cbn [map filter] in EF. unfold is_xchar in EF. destruct (kind_of d (fst kv)) as [[]|]; try (rewrite A; split; constructor); [exact A|discriminate EF].
          - apply IHF. cbn [map filter] in EF. destruct (is_xchar d (fst kv)); [discriminate EF|exact EF]. }
        destruct KE. auto.
      - assert (KE : exists s, concat (map snd ls) = xtext s).
        { assert (NE : forall k, kind_of d k <> Some XElem).
          { intros k Hk. unfold kind_of in Hk. destruct (find_field d k) as [f|] eqn:Ef; [|discriminate Hk]. injection Hk as Hk. rewrite forallb_forall in B3. pose proof (B3 f (field_in d k f Ef)) as Q.
            unfold is_xelem in Q. rewrite Hk in Q. discriminate Q. }
          clear - K EF NE. induction K as [|kv y fs ls [_ A] HF IHF]; [discriminate EF|]. cbn [map filter concat] in *. unfold is_xchar in EF at 1.
          pose proof (NE (fst kv)) as NE'. destruct (kind_of d (fst kv)) as [[]|]; try (rewrite A; exact (IHF EF)).
          + contradiction NE'. reflexivity.
          + injection EF as _ EF. destruct A as (s & ->). exists s.
            assert (Z : concat (map snd ls) = []).
            { clear - HF EF NE. induction HF as [|kv y fs ls [_ A] HF IHF]; [reflexivity|]. cbn [map filter concat] in *. unfold is_xchar in EF at 1. pose proof (NE (fst kv)) as NE'.
              destruct (kind_of d (fst kv)) as [[]|]; try (rewrite A; exact (IHF EF)); [contradiction NE'; reflexivity|discriminate EF]. }
            rewrite Z, app_nil_r. reflexivity. }
        destruct KE as (s & ->). unfold xtext. destruct (String.eqb_spec s "") as [->|Hs]; [split; [constructor|left; reflexivity]|]. split; [constructor; [exact Hs|constructor]|right; eexists; reflexivity]. }
    cbn [bare]. destruct KK as [KK1 KK2]. repeat (split; [first [assumption|apply bare_kids; assumption]|]). exact KK2.
Qed.

(** ** Reading it *)
Lemma bare_declares ns attrs : xml_clean ns = ns -> Forall (fun a => fst (fst a) = "" /\ ncname (snd (fst a)) = true /\ snd (fst a) <> "xmlns") attrs ->
  declares (map cattr_of (ns_attr ns ++ attrs)) = (if String.eqb ns "" then [] else [("", ns)]).
Proof.
  intros Hn HA. unfold declares. rewrite map_app, flat_map_app.
  assert (Z : flat_map (fun a => if String.eqb (a_prefix a) "xmlns" then [(a_local a, a_text a)]
                        else if String.eqb (a_prefix a) "" && String.eqb (a_local a) "xmlns" then [("", a_text a)] else []) (map cattr_of attrs) = []).
  { induction HA as [|[[sp lc] v] l (A & B & C) HF IH]; [reflexivity|]. cbn [fst snd] in *. cbn [map flat_map]. unfold cattr_of at 1 2 3 4 5 6. cbn [fst snd]. rewrite (ncname_split lc B). cbn [a_prefix a_local].
    apply String.eqb_neq in C. rewrite C. exact IH. }
  rewrite Z, app_nil_r. unfold ns_attr. destruct (String.eqb ns ""); [reflexivity|]. unfold cattr_of. cbn. rewrite Hn. reflexivity.
Qed.
Lemma bare_tree x : bare x -> forall env, tree env (cst_of x) = [settle true (namespace env "") x].
Proof.
  induction x as [ns nm attrs kids IH|s] using xml_ind'; intros H env; [|reflexivity]. cbn [bare] in H. destruct H as (H1 & H2 & H3 & H4 & H5 & H6). apply bare_kids in H5.
  cbn [cst_of]. rewrite (ncname_split nm H1). cbn [tree settle]. rewrite (bare_declares ns attrs H3 H4).
  set (env' := (if String.eqb ns "" then [] else [("", ns)]) ++ env).
  assert (EN : namespace env' "" = inherit (namespace env "") ns) by (unfold env', inherit, namespace; destruct (String.eqb ns ""); reflexivity).
  rewrite EN. f_equal. f_equal.
  - rewrite map_map. assert (HA : Forall (fun a => fst (fst a) = "" /\ ncname (snd (fst a)) = true) (ns_attr ns ++ attrs)).
    { apply Forall_app. split; [unfold ns_attr; destruct (String.eqb ns ""); constructor; [split; reflexivity|constructor]|]. eapply Forall_impl; [|exact H4]. cbv beta. tauto. }
    induction HA as [|[[sp lc] v] l (A & B) HF IHA]; [reflexivity|]. cbn [map]. cbn [fst snd] in *. f_equal; [|exact IHA]. unfold cattr_of. cbn [fst snd]. rewrite (ncname_split lc B). unfold attr_of. cbn. rewrite A. reflexivity.
  - clear - IH H5 EN. induction kids as [|k kids IHk]; [reflexivity|]. apply Forall_cons_iff in IH as [I1 I2], H5 as [G1 G2]. cbn [map flat_map]. rewrite (I1 G1), (IHk I2 G2), EN. reflexivity.
Qed.
Lemma bare_trees l env : Forall bare l -> flat_map (tree env) (map cst_of l) = map (settle true (namespace env "")) l.
Proof. induction 1 as [|x l H HF IH]; [reflexivity|]. cbn [map flat_map]. rewrite (bare_tree x H), IH. reflexivity. Qed.

(** ** Declarations among the attributes *)
Lemma mild_kids kids : fold_right (fun k r => mild k /\ r) True kids <-> Forall mild kids.
Proof. induction kids as [|k kids IH]; [split; constructor|]. cbn [fold_right]. rewrite IH, Forall_cons_iff. reflexivity. Qed.
Lemma attr_fields d f : In d all_decls -> In f (d_fields d) -> x_kind (f_xml f) = XAttr -> In (x_name (f_xml f)) field_attrs.
Proof.
  intros HD HF HK. assert (forallb (fun d => forallb (fun f => match x_kind (f_xml f) with XAttr => existsb (String.eqb (x_name (f_xml f))) field_attrs | _ => true end) (d_fields d)) all_decls = true) as K by (vm_compute; reflexivity).
  rewrite forallb_forall in K. specialize (K d HD). rewrite forallb_forall in K. specialize (K f HF). rewrite HK in K. apply existsb_exists in K. destruct K as (x & H1 & H2). apply String.eqb_eq in H2. rewrite H2. exact H1.
Qed.
Lemma take_attr_none d a fs : In d all_decls -> ~ In (snd (fst a)) field_attrs -> take_attr d a fs = fs.
Proof.
  intros HD HN. unfold take_attr. assert (HF : forall f, In f (d_fields d) -> x_kind (f_xml f) = XAttr -> String.eqb (x_name (f_xml f)) (snd (fst a)) = false).
  { intros f Hf HK. destruct (String.eqb_spec (x_name (f_xml f)) (snd (fst a))) as [E|]; [|reflexivity]. exfalso. apply HN. rewrite <- E. exact (attr_fields d f HD Hf HK). }
  revert fs. induction (d_fields d) as [|f l IH]; intros fs; [reflexivity|]. cbn [fold_left].
  replace (match x_kind (f_xml f) with XAttr => if String.eqb (x_name (f_xml f)) (snd (fst a)) then set_field (f_name f) (VStr (snd a)) fs else fs | _ => fs end) with fs.
  - apply IH. intros g Hg. apply HF. right. exact Hg.
  - destruct (x_kind (f_xml f)) eqn:EK; try reflexivity. rewrite (HF f (or_introl eq_refl) EK). reflexivity.
Qed.
Lemma attrs_same d attrs fs : In d all_decls -> Forall (fun a => is_decl a = true -> ~ In (snd (fst a)) field_attrs) attrs ->
  fold_left (fun fs a => take_attr d a fs) (filter (fun a => negb (is_decl a)) attrs) fs = fold_left (fun fs a => take_attr d a fs) attrs fs.
Proof.
  intros HD HA. revert fs. induction HA as [|a l H HF IH]; intros fs; [reflexivity|]. cbn [filter fold_left]. destruct (is_decl a); cbn [negb].
  - rewrite (take_attr_none d a fs HD (H eq_refl)). apply IH.
  - cbn [fold_left]. apply IH.
Qed.
Definition same_slots (a b : list ((string * string) * slot)) : Prop := Forall2 (fun x y => fst x = fst y /\ forall t cur, snd x t cur = snd y t cur) a b.
Lemma take_kids_same d a b : same_slots a b -> forall fs, take_kids d a fs = take_kids d b fs.
Proof.
  induction 1 as [|[e1 s1] [e2 s2] a b [E S] HF IH]; intros fs; [reflexivity|]. cbn [fst snd] in *. subst e2. cbn [take_kids].
  destruct (find (takes d e1) (d_fields d)) as [f|]; [|apply IH]. destruct (lookup (f_name f) fs) as [cur|]; [|reflexivity]. rewrite S. destruct (s2 (f_ty f) cur); [apply IH|reflexivity].
Qed.
Lemma xat_same el attrs txt a b t : Forall (fun a => is_decl a = true -> ~ In (snd (fst a)) field_attrs) attrs -> same_slots a b ->
  forall cur, xat el (filter (fun a => negb (is_decl a)) attrs) txt a t cur = xat el attrs txt b t cur.
Proof.
  intros HA HS. induction t as [| | | | |t IH|t IH|n]; intros cur; try reflexivity; cbn [xat].
  - rewrite IH. reflexivity.
  - rewrite IH. reflexivity.
  - destruct (find_decl n) as [d|] eqn:Ed; [|reflexivity]. destruct cur; try reflexivity. destruct (xname_ok d el); [|reflexivity].
    rewrite (attrs_same d attrs _ (proj1 (find_decl_in n d Ed)) HA). rewrite (take_kids_same d a b HS). reflexivity.
Qed.
Lemma undeclare_text kids : text_of (map undeclare kids) = text_of kids.
Proof. induction kids as [|k kids IH]; [reflexivity|]. cbn [map text_of fold_right]. fold (text_of kids). fold (text_of (map undeclare kids)). rewrite IH. destruct k; reflexivity. Qed.
Lemma undeclare_slots kids : Forall (fun k => mild k -> forall t cur, xdec (undeclare k) t cur = xdec k t cur) kids -> Forall mild kids -> same_slots (slots (map undeclare kids)) (slots kids).
Proof.
  unfold slots. induction 1 as [|k kids H HF IH]; intros HM; [constructor|]. apply Forall_cons_iff in HM as [M1 M2]. cbn [map flat_map]. destruct k as [ns nm attrs ks|s]; [|exact (IH M2)].
  cbn [undeclare app]. constructor; [|exact (IH M2)]. split; [reflexivity|]. exact (H M1).
Qed.
Lemma undeclare_xdec x : mild x -> forall t cur, xdec (undeclare x) t cur = xdec x t cur.
Proof.
  induction x as [ns nm attrs kids IH|s] using xml_ind'; intros HM t cur; [|reflexivity]. cbn [mild] in HM. destruct HM as [M1 M2]. apply mild_kids in M2.
  cbn [undeclare xdec]. rewrite undeclare_text. change (flat_map _ (map undeclare kids)) with (slots (map undeclare kids)). change (flat_map _ kids) with (slots kids). apply xat_same; [exact M1|]. exact (undeclare_slots kids IH M2).
Qed.
Lemma undeclare_last nm kids cur : last_text nm (map undeclare kids) cur = last_text nm kids cur.
Proof.
  unfold last_text. revert cur. induction kids as [|k kids IH]; intros cur; [reflexivity|]. cbn [map fold_left]. rewrite IH. destruct k as [ns l attrs ks|s]; [|reflexivity]. cbn [undeclare]. rewrite undeclare_text. reflexivity.
Qed.
Lemma undeclare_fault kids : fault_text (map undeclare kids) = fault_text kids.
Proof.
  unfold fault_text. match goal with |- fold_left ?f _ _ = _ => assert (G : forall cur, fold_left f (map undeclare kids) cur = fold_left f kids cur); [|exact (G "")] end.
  induction kids as [|k kids IH]; intros cur; [reflexivity|]. cbn [map fold_left]. rewrite IH. destruct k as [ns l attrs ks|s]; [|reflexivity]. cbn [undeclare]. rewrite undeclare_last. reflexivity.
Qed.
Lemma undeclare_body kids : Forall mild kids -> forall e, dec_body (map undeclare kids) e = dec_body kids e.
Proof.
  induction 1 as [|k kids H HF IH]; intros e; [reflexivity|]. destruct k as [ns nm attrs ks|s]; [|apply IH]. pose proof (undeclare_xdec _ H) as HX. cbn [undeclare] in HX.
  cbn [map undeclare dec_body]. rewrite undeclare_fault, IH. destruct (String.eqb nm "Fault"); [reflexivity|]. destruct (lookup nm soap_names) as [ty|]; [|reflexivity].
  rewrite HX. destruct (xdec _ _ _); [apply IH|reflexivity].
Qed.
Lemma undeclare_env kids : Forall mild kids -> forall e, dec_env_kids (map undeclare kids) e = dec_env_kids kids e.
Proof.
  induction 1 as [|k kids H HF IH]; intros e; [reflexivity|]. destruct k as [ns nm attrs ks|s]; [|apply IH]. cbn [mild] in H. destruct H as [_ H]. apply mild_kids in H.
  cbn [map undeclare dec_env_kids]. rewrite undeclare_last, (undeclare_body ks H), !IH. destruct (String.eqb nm "Header"); [reflexivity|]. destruct (String.eqb nm "Body"); [|reflexivity]. destruct (dec_body ks e); [apply IH|reflexivity].
Qed.
Theorem undeclare_envelope x : mild x -> dec_envelope (Some (undeclare x)) = dec_envelope (Some x).
Proof.
  destruct x as [ns nm attrs kids|s]; [|reflexivity]. intros [_ H]. apply mild_kids in H. cbn [undeclare dec_envelope]. rewrite (undeclare_env kids H). reflexivity.
Qed.

Lemma clean_attrs_undeclared ns attrs : Forall (fun a => fst (fst a) = "" /\ ncname (snd (fst a)) = true /\ snd (fst a) <> "xmlns") attrs ->
  filter (fun a => negb (is_decl a)) (map (fun a => (fst a, xml_clean (snd a))) (ns_attr ns ++ attrs)) = map (fun a => (fst a, xml_clean (snd a))) attrs /\
  Forall (fun a => is_decl a = true -> ~ In (snd (fst a)) field_attrs) (map (fun a => (fst a, xml_clean (snd a))) (ns_attr ns ++ attrs)).
Proof.
  intros HA. rewrite map_app, filter_app.
  assert (A1 : filter (fun a => negb (is_decl a)) (map (fun a => (fst a, xml_clean (snd a))) (ns_attr ns)) = []) by (unfold ns_attr; destruct (String.eqb ns ""); reflexivity).
  assert (A2 : Forall (fun a => is_decl a = false) (map (fun a : string * string * string => (fst a, xml_clean (snd a))) attrs)).
  { apply Forall_map. eapply Forall_impl; [|exact HA]. intros [[sp lc] v] (E & _ & H). cbn [fst snd] in *. unfold is_decl. cbn [fst snd]. rewrite E. apply String.eqb_neq in H. rewrite H. reflexivity. }
  rewrite A1. cbn [app]. split.
  - induction A2 as [|a l H HF IH]; [reflexivity|]. cbn [filter]. rewrite H. cbn [negb]. rewrite IH. reflexivity.
  - apply Forall_app. split; [|eapply Forall_impl; [|exact A2]; intros a H K; congruence].
    unfold ns_attr. destruct (String.eqb ns ""); constructor; [|constructor]. cbn. intros _ H. intuition discriminate.
Qed.
Lemma settle_undeclare x : bare x -> forall inh, undeclare (settle true inh x) = settle false inh x /\ mild (settle true inh x).
Proof.
  induction x as [ns nm attrs kids IH|s] using xml_ind'; intros H inh; [|split; [reflexivity|exact I]]. cbn [bare] in H. destruct H as (H1 & H2 & H3 & H4 & H5 & H6). apply bare_kids in H5.
  cbn [settle undeclare mild]. destruct (clean_attrs_undeclared ns attrs H4) as [A1 A2]. rewrite A1. cbn [app].
  assert (K : map undeclare (map (settle true (inherit inh ns)) kids) = map (settle false (inherit inh ns)) kids /\ Forall mild (map (settle true (inherit inh ns)) kids)).
  { clear - IH H5. induction kids as [|k kids IHk]; [split; [reflexivity|constructor]|]. apply Forall_cons_iff in IH as [I1 I2], H5 as [G1 G2]. destruct (I1 G1 (inherit inh ns)) as [P Q]. destruct (IHk I2 G2) as [R S].
    cbn [map]. rewrite P, R. split; [reflexivity|constructor; assumption]. }
  destruct K as [K1 K2]. rewrite K1. split; [reflexivity|]. split; [exact A2|apply mild_kids; exact K2].
Qed.
Lemma settle_undeclare_all l inh : Forall bare l -> map undeclare (map (settle true inh) l) = map (settle false inh) l /\ Forall mild (map (settle true inh) l).
Proof.
  induction 1 as [|x l H HF [A B]]; [split; [reflexivity|constructor]|]. destruct (settle_undeclare x H inh) as [P Q]. cbn [map]. rewrite P, A. split; [reflexivity|constructor; assumption].
Qed.

(** ** Envelopes *)
Definition env_S : list (string * string) := [("S", soap_ns)].
Definition env_W : list (string * string) := [("wsa5", wsa_ns); ("S", soap_ns)].
Definition at_S : string * string * string := ("xmlns", "S", soap_ns).
Definition at_W : string * string * string := ("xmlns", "wsa5", wsa_ns).
Lemma content_bare m c : msg_ok m = true -> rcontent m = Some c -> elements_of c.
Proof. intros HM HC. exact (xraw_bare (VPtr (m_val m)) ("", "Content") false (TPtr (TStruct (m_ty m))) c HM eq_refl eq_refl HC). Qed.
Lemma content_raw m : msg_ok m = true -> content m = omap (map (settle false "")) (rcontent m).
Proof. intros HM. exact (xenc_raw (VPtr (m_val m)) "" ("", "Content") false (TPtr (TStruct (m_ty m))) HM). Qed.
Lemma leaf_bare ns nm s : bare_name nm = true -> xml_clean ns = ns -> bare (rleaf ns nm s).
Proof. intros H1 H2. destruct (simple_bare ns nm s H1 H2) as [H _]. inversion H. assumption. Qed.
Lemma leaf_settle inh ns nm s : settle false inh (rleaf ns nm s) = leaf (inherit inh ns) nm s.
Proof. unfold rleaf, leaf. cbn [settle map app]. rewrite settle_text. reflexivity. Qed.
(** A leaf with a prefixed name. *)
Lemma leaf_prefixed env p l s : good_name p l = true -> p <> "" -> p <> "xml" -> tree env (cst_of (rleaf "" (qname p l) s)) = [leaf (namespace env p) l s].
Proof.
  intros H H1 H2. unfold rleaf, leaf. cbn [cst_of]. rewrite (split_qname p l H). cbn [tree ns_attr app map]. change (String.eqb "" "") with true. cbv iota. cbn [map app declares flat_map rev].
  change (declares []) with (@nil (string * string)). cbn [app]. f_equal. f_equal.
  unfold xtext. destruct (String.eqb_spec s "") as [->|Hs]; [reflexivity|]. pose proof (clean_nonempty s Hs) as K. apply String.eqb_neq in K. rewrite K. reflexivity.
Qed.
Lemma leaf_good p l s : good_name p l = true -> p <> "xmlns" -> l <> "xmlns" -> good_raw (rleaf "" (qname p l) s).
Proof.
  intros H H1 H2. unfold rleaf. cbn [good_raw]. rewrite (split_qname p l H). cbn [fst snd]. split; [exists p, l; split; [reflexivity|exact H]|]. split; [exact H1|]. split; [exact H2|]. split; [constructor|].
  unfold xtext. destruct (String.eqb_spec s "") as [->|Hs]; cbn [fold_right good_raw]; [split; [exact I|left; reflexivity]|]. split; [split; [exact Hs|exact I]|right; eexists; reflexivity].
Qed.
Lemma leaf_quiet ns nm s : undeclare (leaf ns nm s) = leaf ns nm s /\ mild (leaf ns nm s).
Proof. unfold leaf, xtext. destruct (String.eqb (xml_clean s) ""); repeat split; constructor. Qed.
Lemma good_elem nm attrs kids : is_qname nm -> fst (split_name nm) <> "xmlns" -> snd (split_name nm) <> "xmlns" -> Forall (fun a => is_qname (snd (fst a))) attrs ->
  Forall good_raw kids -> forallb (fun k => negb (is_text k)) kids = true -> good_raw (XE "" nm attrs kids).
Proof. intros. cbn [good_raw]. repeat (split; [first [assumption|apply raw_kids; assumption]|]). left. assumption. Qed.
Lemma q_of p l : good_name p l = true -> is_qname (qname p l).
Proof. intros H. exists p, l. split; [reflexivity|exact H]. Qed.

Definition body_of (c : list xml) (err : option string) : list xml := c ++ match err with Some e => [fault e] | None => [] end.
Definition rbody_of (c : list xml) (err : option string) : list xml := c ++ match err with Some e => [rfault e] | None => [] end.
Lemma fault_read e : tree env_S (cst_of (rfault e)) = [fault e] /\ good_raw (rfault e) /\ undeclare (fault e) = fault e /\ mild (fault e).
Proof.
  unfold rfault, fault. destruct (String.eqb_spec e "") as [->|He].
  - split; [reflexivity|]. split; [|split; [reflexivity|split; constructor]]. apply good_elem; [apply (q_of "S" "Fault"); reflexivity|discriminate|discriminate|constructor|constructor|reflexivity].
  - split; [|split].
    + cbn [cst_of map]. change (split_name "S:Fault") with ("S", "Fault"). cbv beta iota. change (ns_attr "" ++ []) with (@nil (string * string * string)).
      cbn [map tree]. change (declares []) with (@nil (string * string)). cbn [app flat_map]. rewrite (bare_tree (rleaf "" "reason" e)); [|apply leaf_bare; reflexivity]. cbn [app].
      change (namespace env_S "S") with soap_ns. change (namespace env_S "") with "". do 3 f_equal. unfold rleaf. cbn [settle map app ns_attr]. change (ns_attr "" ++ []) with (@nil (string * string * string)). cbn [map].
      rewrite settle_text. reflexivity.
    + apply good_elem; [apply (q_of "S" "Fault"); reflexivity|discriminate|discriminate|constructor| |reflexivity]. constructor; [|constructor]. apply bare_good, leaf_bare; reflexivity.
    + pose proof (leaf_quiet "" "reason" e) as [A B]. split; [cbn [undeclare map filter]; rewrite A; reflexivity|]. cbn [mild fold_right]. split; [constructor|]. split; [exact B|exact I].
Qed.
Lemma body_read c err : elements_of c ->
  flat_map (tree env_S) (map cst_of (rbody_of c err)) = map (settle true "") c ++ match err with Some e => [fault e] | None => [] end /\
  Forall good_raw (rbody_of c err) /\ forallb (fun k => negb (is_text k)) (rbody_of c err) = true /\
  map undeclare (map (settle true "") c ++ match err with Some e => [fault e] | None => [] end) = body_of (map (settle false "") c) err /\
  Forall mild (map (settle true "") c ++ match err with Some e => [fault e] | None => [] end).
Proof.
  intros [HB HT]. unfold rbody_of, body_of. destruct (settle_undeclare_all c "" HB) as [U1 U2]. rewrite !map_app, flat_map_app, (bare_trees c env_S HB). change (namespace env_S "") with "".
  assert (G : Forall good_raw c) by (eapply Forall_impl; [|exact HB]; intros x; apply bare_good).
  destruct err as [e|]; cbn [map flat_map].
  - destruct (fault_read e) as (F1 & F2 & F3 & F4). rewrite F1, F3, U1, forallb_app, HT. repeat split; try (apply Forall_app; split; [assumption|constructor; [assumption|constructor]]).
  - rewrite !app_nil_r, U1, HT. repeat split; assumption.
Qed.
Lemma reply_read uni resp err b rest : (forall m, resp = Some m -> msg_ok m = true) -> reply_bytes resp err = Some b ->
  exists doc X, marshal_reply resp err = Some doc /\ read_xml uni (b +++ rest) = Some X /\ undeclare X = doc /\ mild X /\ exists c, well_formed c /\ is_elem c = true /\ show c = b /\ tree [] c = [X].
Proof.
  intros HM HB. unfold reply_bytes in HB. unfold marshal_reply.
  destruct (match resp with Some m => rcontent m | None => Some [] end) as [c|] eqn:EC; [|discriminate HB]. injection HB as <-.
  assert (HC : elements_of c /\ match resp with Some m => content m | None => Some [] end = Some (map (settle false "") c)).
  { destruct resp as [m|]; [|injection EC as <-; split; [split; constructor|reflexivity]]. split; [exact (content_bare m c (HM m eq_refl) EC)|]. rewrite (content_raw m (HM m eq_refl)), EC. reflexivity. }
  destruct HC as [HC1 HC2]. rewrite HC2. change (c ++ match err with Some e => [rfault e] | None => [] end) with (rbody_of c err). destruct (body_read c err HC1) as (B1 & B2 & B3 & B4 & B5).
  assert (G : good_raw (renvelope [] (rbody_of c err))).
  { unfold renvelope. cbn [app]. apply good_elem; [apply (q_of "S" "Envelope"); reflexivity|discriminate|discriminate| | |reflexivity].
    - constructor; [apply (q_of "xmlns" "S"); reflexivity|constructor].
    - constructor; [|constructor]. apply good_elem; [apply (q_of "S" "Body"); reflexivity|discriminate|discriminate|constructor|exact B2|exact B3]. }
  destruct (read_print uni "" "S:Envelope" [("", "xmlns:S", soap_ns)] [XE "" "S:Body" [] (rbody_of c err)] rest G) as (X & X1 & X2).
  assert (WF : exists t, well_formed t /\ is_elem t = true /\ show t = print (renvelope [] (rbody_of c err)) /\ tree [] t = [X]).
  { destruct (cst_good _ G) as [G1 G2]. eexists. split; [exact G1|]. split; [reflexivity|]. split; [exact G2|exact X1]. }
  eexists; exists X. split; [reflexivity|]. split; [exact X2|].
  refine (match _ : _ /\ _ with conj P Q => conj P (conj Q WF) end). clear WF.
  cbn [cst_of map] in X1. change (split_name "S:Envelope") with ("S", "Envelope") in X1. change (split_name "S:Body") with ("S", "Body") in X1. cbv beta iota in X1.
  change (ns_attr "" ++ []) with (@nil (string * string * string)) in X1. change (ns_attr "" ++ [("", "xmlns:S", soap_ns)]) with [("", "xmlns:S", soap_ns)] in X1.
  cbn [map tree] in X1. change (declares [cattr_of ("", "xmlns:S", soap_ns)] ++ []) with env_S in X1. change (declares [] ++ env_S) with env_S in X1. cbn [flat_map] in X1.
  cbn [tree app] in X1. change (declares [] ++ env_S) with env_S in X1. rewrite B1 in X1. change (namespace env_S "S") with soap_ns in X1. cbn [map] in X1. change (attr_of env_S (cattr_of ("", "xmlns:S", soap_ns))) with at_S in X1. injection X1 as <-. split.
  - cbn [undeclare map]. rewrite B4. reflexivity.
  - cbn [mild fold_right]. split; [constructor; [|constructor]; intros _ K; cbn in K; intuition discriminate|]. split; [|exact I]. split; [constructor|]. apply mild_kids. exact B5.
Qed.
Lemma reply_none resp err : (forall m, resp = Some m -> msg_ok m = true) -> (reply_bytes resp err = None <-> marshal_reply resp err = None).
Proof.
  intros HM. unfold reply_bytes, marshal_reply. destruct resp as [m|]; [|split; discriminate]. rewrite (content_raw m (HM m eq_refl)). destruct (rcontent m); cbn [omap]; split; congruence.
Qed.
Lemma header_read url a mid from id :
  tree env_S (cst_of (rheader url a mid from id)) = [XE soap_ns "Header" [at_W]
    [leaf wsa_ns "To" url; leaf wsa_ns "Action" ("/" +++ a); leaf wsa_ns "MessageID" ("uuid:" +++ mid); XE wsa_ns "From" [] [leaf wsa_ns "Address" from]; settle true "" (rleaf cp_ns "chargeBoxIdentity" id)]] /\
  good_raw (rheader url a mid from id).
Proof.
  split.
  - unfold rheader. cbn [cst_of]. change (split_name "S:Header") with ("S", "Header"). cbv beta iota. change (ns_attr "" ++ [("", "xmlns:wsa5", wsa_ns)]) with [("", "xmlns:wsa5", wsa_ns)]. cbn [map].
    cbn [tree]. change (declares [cattr_of ("", "xmlns:wsa5", wsa_ns)] ++ env_S) with env_W. cbn [flat_map].
    change "wsa5:To" with (qname "wsa5" "To"). change "wsa5:Action" with (qname "wsa5" "Action"). change "wsa5:MessageID" with (qname "wsa5" "MessageID").
    rewrite !leaf_prefixed by first [reflexivity|discriminate]. rewrite (bare_tree (rleaf cp_ns "chargeBoxIdentity" id)) by (apply leaf_bare; reflexivity).
    cbn [cst_of]. change (split_name "wsa5:From") with ("wsa5", "From"). cbv beta iota. change (ns_attr "" ++ []) with (@nil (string * string * string)). cbn [map tree]. change (declares [] ++ env_W) with env_W. cbn [flat_map].
    change "wsa5:Address" with (qname "wsa5" "Address"). rewrite leaf_prefixed by first [reflexivity|discriminate]. reflexivity.
  - unfold rheader. change "wsa5:To" with (qname "wsa5" "To"). change "wsa5:Action" with (qname "wsa5" "Action"). change "wsa5:MessageID" with (qname "wsa5" "MessageID"). change "wsa5:Address" with (qname "wsa5" "Address").
    apply good_elem; [apply (q_of "S" "Header"); reflexivity|discriminate|discriminate| | |reflexivity].
    + constructor; [apply (q_of "xmlns" "wsa5"); reflexivity|constructor].
    + repeat first [apply Forall_nil|apply Forall_cons]; try (apply leaf_good; first [reflexivity|discriminate]); try (apply bare_good, leaf_bare; reflexivity).
      apply good_elem; [apply (q_of "wsa5" "From"); reflexivity|discriminate|discriminate|constructor| |reflexivity]. constructor; [|constructor]. apply leaf_good; first [reflexivity|discriminate].
Qed.
Lemma request_read uni url a mid from id req b rest : msg_ok req = true -> request_bytes url a mid from id req = Some b ->
  exists doc X, request_envelope url a mid from id req = Some doc /\ read_xml uni (b +++ rest) = Some X /\ undeclare X = doc /\ mild X /\ exists c, well_formed c /\ is_elem c = true /\ show c = b /\ tree [] c = [X].
Proof.
  intros HM HB. unfold request_bytes in HB. unfold request_envelope. destruct (rcontent req) as [c|] eqn:EC; [|discriminate HB]. cbn [omap] in HB. injection HB as <-.
  pose proof (content_bare req c HM EC) as HC. rewrite (content_raw req HM), EC. cbn [omap].
  destruct (body_read c None HC) as (B1 & B2 & B3 & B4 & B5). unfold rbody_of, body_of in *. rewrite app_nil_r in *. rewrite app_nil_r in *.
  destruct (header_read url a mid from id) as [H1 H2].
  destruct (settle_undeclare (rleaf cp_ns "chargeBoxIdentity" id) ltac:(apply leaf_bare; reflexivity) "") as [S1 S2].
  remember (settle true "" (rleaf cp_ns "chargeBoxIdentity" id)) as idl eqn:Eidl. clear Eidl.
  assert (G : good_raw (renvelope [rheader url a mid from id] c)).
  { unfold renvelope. cbn [app]. apply good_elem; [apply (q_of "S" "Envelope"); reflexivity|discriminate|discriminate| | |reflexivity].
    - constructor; [apply (q_of "xmlns" "S"); reflexivity|constructor].
    - constructor; [exact H2|]. constructor; [|constructor]. apply good_elem; [apply (q_of "S" "Body"); reflexivity|discriminate|discriminate|constructor|exact B2|exact B3]. }
  destruct (read_print uni "" "S:Envelope" [("", "xmlns:S", soap_ns)] [rheader url a mid from id; XE "" "S:Body" [] c] rest G) as (X & X1 & X2).
  assert (WF : exists t, well_formed t /\ is_elem t = true /\ show t = print (renvelope [rheader url a mid from id] c) /\ tree [] t = [X]).
  { destruct (cst_good _ G) as [G1 G2]. eexists. split; [exact G1|]. split; [reflexivity|]. split; [exact G2|exact X1]. }
  eexists; exists X. split; [reflexivity|]. split; [exact X2|].
  refine (match _ : _ /\ _ with conj P Q => conj P (conj Q WF) end). clear WF.
  remember (rheader url a mid from id) as h. cbn [cst_of map] in X1. change (split_name "S:Envelope") with ("S", "Envelope") in X1. change (split_name "S:Body") with ("S", "Body") in X1. cbv beta iota in X1.
  change (ns_attr "" ++ []) with (@nil (string * string * string)) in X1. change (ns_attr "" ++ [("", "xmlns:S", soap_ns)]) with [("", "xmlns:S", soap_ns)] in X1.
  cbn [map] in X1. remember (cst_of h) as ch. cbn [tree] in X1. change (declares [cattr_of ("", "xmlns:S", soap_ns)] ++ []) with env_S in X1. change (declares [] ++ env_S) with env_S in X1. cbn [flat_map] in X1.
  rewrite H1 in X1. cbn [tree app flat_map] in X1. change (declares [] ++ env_S) with env_S in X1. rewrite B1 in X1. change (namespace env_S "S") with soap_ns in X1. cbn [map] in X1. change (attr_of env_S (cattr_of ("", "xmlns:S", soap_ns))) with at_S in X1. injection X1 as <-.
  assert (Q : forall x y z, undeclare (leaf x y z) = leaf x y z) by (intros; apply leaf_quiet). assert (M : forall x y z, mild (leaf x y z)) by (intros; apply leaf_quiet).
  split.
  - cbn [undeclare map]. rewrite B4, S1, leaf_settle, !Q. reflexivity.
  - cbn [mild fold_right]. repeat split; try apply M; try exact S2; try (constructor; [|constructor]; intros _ K; cbn in K; intuition discriminate); try constructor. apply mild_kids. exact B5.
Qed.
Lemma request_none url a mid from id req : msg_ok req = true -> (request_bytes url a mid from id req = None <-> request_envelope url a mid from id req = None).
Proof.
  intros HM. unfold request_bytes, request_envelope. rewrite (content_raw req HM). destruct (rcontent req); cbn [omap]; split; congruence.
Qed.
