(** Documents with syntax errors are rejected. *)
From Verif Require Import GoBase Utf8 Json Float64 Codec Xml SpecXmlText XmlText XmlSyntax SpecXml XmlSyntaxProofs XmlCut.
Open Scope string_scope.
Open Scope list_scope.

Lemma ahead_none t : ahead t None = None.
Proof. reflexivity. Qed.
Lemma ahead_ahead t u o : ahead t (ahead u o) = ahead (t +++ u) o.
Proof. destruct o as [[v r]|]; [|reflexivity]. cbn [ahead]. rewrite sapp_assoc. reflexivity. Qed.
Lemma text_step q : quoted q -> forall ps s, spelled q ps s -> forall l b0 b1, recent l b0 b1 -> no_close (l ++ ps) ->
  exists c0 c1, recent (l ++ ps) c0 c1 /\ forall X, text q (TIn b0 b1) (show_pieces ps +++ X) = ahead s (text q (TIn c0 c1) X).
Proof.
  intros Hq ps s Hs. induction Hs as [|c ps s Hc Hs IH|a t ps s Ha Hs IH]; intros l b0 b1 HI HN.
  - exists b0, b1. rewrite app_nil_r. split; [exact HI|]. intros X. cbn [show_pieces fold_right String.append]. destruct (text q (TIn b0 b1) X) as [[u r]|]; reflexivity.
  - destruct Hc as (Hlt & Hamp & Hcr & Hqc). assert (H' : recent (l ++ [Lit c]) b1 c) by (apply (recent_lit l b0 b1 c); assumption).
    replace (l ++ Lit c :: ps) with ((l ++ [Lit c]) ++ ps) in * by (rewrite <- app_assoc; reflexivity). destruct (IH _ _ _ H' HN) as (c0 & c1 & R & E). exists c0, c1. split; [exact R|]. intros X.
    cbn [show_pieces fold_right show_piece str1 String.append]. fold (show_pieces ps). cbn [text]. destruct HI as (I1 & I2 & I3).
    rewrite !eqb_num. cbn [N.ltb N.compare Pos.compare Pos.compare_cont]. change (chr 93) with "]"%char. change (chr 62) with ">"%char. change (chr 60) with "<"%char. change (chr 38) with "&"%char.
    replace (Ascii.eqb b0 "]" && Ascii.eqb b1 "]" && Ascii.eqb c ">")%bool with false.
    2:{ symmetry. destruct (Ascii.eqb_spec b0 "]") as [E0|]; [|reflexivity]. destruct (Ascii.eqb_spec b1 "]") as [E1|]; [|reflexivity].
        destruct (Ascii.eqb_spec c ">") as [E2|]; [|reflexivity]. exfalso. destruct (I3 E0 E1) as (k & ->). apply (HN k ps). rewrite <- !app_assoc, E2. reflexivity. }
    destruct (Ascii.eqb_spec c "<"); [contradiction|].
    replace (match q with Some c0 => Ascii.eqb c c0 | None => false end) with false.
    2:{ destruct q as [d|]; [|reflexivity]. symmetry. destruct (Ascii.eqb_spec c d); [subst; contradiction|reflexivity]. }
    destruct (Ascii.eqb_spec c "&"); [contradiction|]. destruct (Ascii.eqb_spec c (chr 13)); [contradiction|].
    destruct (Ascii.eqb_spec b1 (chr 13)); [contradiction|]. cbn [andb]. rewrite (E X), ahead_ahead. reflexivity.
  - replace (l ++ Ref a :: ps) with ((l ++ [Ref a]) ++ ps) in * by (rewrite <- app_assoc; reflexivity). destruct (IH (l ++ [Ref a]) (chr 0) (chr 0) (recent_zero _) HN) as (c0 & c1 & R & E). exists c0, c1. split; [exact R|]. intros X.
    cbn [show_pieces fold_right show_piece String.append]. fold (show_pieces ps). rewrite !sapp_assoc. cbn [text].
    change (N.eqb (code "&") 62) with false. change (N.eqb (code "&") 60) with false. change (N.eqb (code "&") 38) with true. rewrite !andb_false_r.
    replace (match q with Some c0 => Ascii.eqb "&" c0 | None => false end) with false by (destruct q as [d|]; [destruct Hq as [->| ->]; reflexivity|reflexivity]).
    destruct (refers_read a t Ha) as [Hv Hsemi]. change (String ";" "" +++ show_pieces ps +++ X) with (";" +++ (show_pieces ps +++ X)).
    rewrite (text_amp q a "" _ Hsemi). cbn [String.append]. rewrite Hv, (E X), ahead_ahead. reflexivity.
Qed.
Lemma name_not_semi a : ncname a = true -> str_forall not_semi a = true /\ (exists c r, a = String c r /\ N.eqb (code c) 35 = false).
Proof.
  intros H. pose proof (ncname_all a H) as HA. split.
  - clear H. induction a as [|c a IH]; [reflexivity|]. cbn [str_forall] in *. apply andb_true_iff in HA as [H1 H2]. rewrite (IH H2), andb_true_r. unfold not_semi. destruct c as [[] [] [] [] [] [] [] []]; vm_compute in H1 |- *; congruence.
  - destruct a as [|c a]; [discriminate H|]. exists c, a. split; [reflexivity|]. cbn [ncname] in H. apply andb_true_iff in H as [H _]. destruct c as [[] [] [] [] [] [] [] []]; vm_compute in H |- *; congruence.
Qed.
Lemma unknown_ref a : ncname a = true -> ~ In a known_refs -> char_ref a = None.
Proof.
  intros H HN. destruct (name_not_semi a H) as [_ (c & r & E & E1)].
  assert (K : forall s, In s known_refs -> String.eqb a s = false) by (intros s Hs; destruct (String.eqb_spec a s) as [->|]; [contradiction|reflexivity]).
  unfold char_ref. destruct a as [|c' r']; [discriminate E|]. injection E as -> ->. rewrite E1. cbv iota.
  rewrite !K by (unfold known_refs; cbn [In]; tauto). reflexivity.
Qed.
Lemma bad_text_none q t : quoted q -> bad_text q t -> checked (text q (TIn (chr 0) (chr 0)) t) = None.
Proof.
  intros Hq H. destruct H as [ps s a rest HS HN HA HK|ps s rest HS HN|ps s rest HS HN HQ|ps s rest HS HN HX].
  all: destruct (text_step q Hq ps s HS [] (chr 0) (chr 0) (recent_zero _) HN) as (c0 & c1 & (R1 & R2 & R3) & E); cbn [app] in *; rewrite E; clear E.
  - replace (text q (TIn c0 c1) ("&" +++ a +++ ";" +++ rest)) with (text q (TAmp "") (a +++ ";" +++ rest)).
    + rewrite (text_amp q a "" rest (proj1 (name_not_semi a HA))). cbn [String.append]. rewrite (unknown_ref a HA HK). reflexivity.
    + symmetry. cbn [String.append text]. change (N.eqb (code "&") 62) with false. change (N.eqb (code "&") 60) with false. change (N.eqb (code "&") 38) with true. rewrite !andb_false_r.
      destruct q as [d|]; [destruct Hq as [->| ->]; reflexivity|reflexivity].
  - replace (text q (TIn c0 c1) ("]]>" +++ rest)) with (@None (string * string)); [reflexivity|]. symmetry. cbn [String.append text].
    change (N.eqb (code "]") 62) with false. change (N.eqb (code "]") 60) with false. change (N.eqb (code "]") 38) with false. change (N.eqb (code "]") 13) with false. change (N.eqb (code "]") 10) with false. change (N.eqb (code "]") 93) with true. change (N.eqb (code ">") 62) with true. rewrite !andb_false_r.
    destruct q as [d|]; [destruct Hq as [->| ->]|]; reflexivity.
  - replace (text q (TIn c0 c1) ("<" +++ rest)) with (@None (string * string)); [reflexivity|]. symmetry. cbn [String.append text].
    change (N.eqb (code "<") 62) with false. change (N.eqb (code "<") 60) with true. rewrite !andb_false_r. destruct q; [reflexivity|contradiction].
  - replace (text q (TIn c0 c1) (match q with None => "<" | Some c => str1 c end +++ rest)) with (Some ("", match q with None => "<" +++ rest | Some _ => rest end)).
    + cbn [ahead checked]. rewrite sapp_nil_r. destruct (String.eqb_spec (xml_clean s) s) as [K|K]; [|reflexivity]. exfalso. apply HX, clean_id, K.
    + symmetry. destruct q as [d|]; cbn [str1 String.append text].
      * assert (E1 : (N.eqb (code d) 62 = false)%N) by (destruct Hq as [->| ->]; reflexivity). assert (E2 : (N.eqb (code d) 60 = false)%N) by (destruct Hq as [->| ->]; reflexivity).
        rewrite E1, E2, !andb_false_r, Ascii.eqb_refl. reflexivity.
      * change (N.eqb (code "<") 62) with false. change (N.eqb (code "<") 60) with true. rewrite !andb_false_r. reflexivity.
Qed.
Lemma bad_data_none uni t : bad_text None t -> next_token uni t = None /\ t <> "".
Proof.
  intros H. pose proof (bad_text_none None t I H) as E.
  assert (F : exists c r, t = String c r /\ N.eqb (code c) 60 = false).
  { assert (G : forall ps s X, spelled None ps s -> (ps <> [] \/ exists c r, X = String c r /\ N.eqb (code c) 60 = false) -> exists c r, show_pieces ps +++ X = String c r /\ N.eqb (code c) 60 = false).
    { intros ps s X HS HX. destruct HS as [|c ps s (Hlt & _) HS|a v ps s Ha HS].
      - destruct HX as [HX|HX]; [contradiction|exact HX].
      - cbn [show_pieces fold_right show_piece str1 String.append]. exists c. eexists. split; [reflexivity|]. rewrite eqb_num. cbn [N.ltb N.compare Pos.compare Pos.compare_cont]. destruct (Ascii.eqb_spec c (chr 60)); [contradiction|reflexivity].
      - cbn [show_pieces fold_right show_piece String.append]. exists "&"%char. eexists. split; reflexivity. }
    destruct H as [ps s a rest HS HN HA HK|ps s rest HS HN|ps s rest HS HN HQ|ps s rest HS HN HX].
    - apply (G ps s _ HS). right. exists "&"%char. eexists. split; reflexivity.
    - apply (G ps s _ HS). right. exists "]"%char. eexists. split; reflexivity.
    - contradiction.
    - apply (G ps s _ HS). left. intros ->. inversion HS; subst. apply HX. apply clean_id. reflexivity. }
  destruct F as (c & r & -> & F). split; [|discriminate]. unfold next_token. rewrite F. cbn [negb]. rewrite E. reflexivity.
Qed.
Lemma attrs_over uni : forall attrs fuel X, Forall ok_attr attrs -> (forall f, read_attrs uni f X = None) -> read_attrs uni fuel (show_attrs attrs +++ X) = None.
Proof.
  induction attrs as [|a attrs IH]; intros [|f] X HF HX; try reflexivity; [apply HX|].
  apply Forall_cons_iff in HF as [Ha HF]. pose proof (quote_byte a Ha) as [Q1 Q2]. destruct Ha as (A1 & A2 & A3 & A4 & A5 & A6 & A7).
  cbn [show_attrs fold_right]. fold (show_attrs attrs). unfold show_attr. rewrite !sapp_assoc. cbn [read_attrs].
  destruct (qname_bytes _ _ A5) as (B1 & B2 & c & r & B3 & B4). destruct (letter_byte c B4) as (_ & _ & _ & _ & L1 & L2 & _ & _ & L3).
  rewrite skip_white; [|exact A2|rewrite B3; exists c; eexists; split; [reflexivity|exact L3]].
  set (T := show_attrs attrs +++ X).
  set (V := str1 (a_quote a) +++ show_pieces (a_pieces a) +++ str1 (a_quote a) +++ T).
  assert (R : read_nsname uni (qname (a_prefix a) (a_local a) +++ a_w1 a +++ "=" +++ a_w2 a +++ V) = Some ((a_prefix a, a_local a), a_w1 a +++ "=" +++ a_w2 a +++ V)).
  { apply read_nsname_at; [exact A5|]. apply stops_white; [exact A3|]. exists "="%char, (a_w2 a +++ V). split; reflexivity. }
  rewrite B3 in *. cbn [String.append] in *. rewrite L1, L2, R.
  change (String "=" (a_w2 a +++ V)) with ("=" +++ a_w2 a +++ V).
  rewrite skip_white; [|exact A3|exists "="%char, (a_w2 a +++ V); split; reflexivity]. cbn [String.append]. change (N.eqb (code "=") 61) with true. cbv iota.
  rewrite skip_white; [|exact A4|exists (a_quote a); eexists; split; [reflexivity|exact Q2]]. unfold V. cbn [str1 String.append]. rewrite Q1.
  change (String (a_quote a) T) with (final (Some (a_quote a)) T).
  rewrite (text_all (Some (a_quote a)) T (a_pieces a) (a_text a) A6 I A7). unfold T. rewrite (IH f X HF HX). reflexivity.
Qed.
Lemma bad_attr_none uni t : bad_attr t -> (forall f, read_attrs uni f t = None) /\ stops t.
Proof.
  assert (S : forall w X, w <> "" -> white w = true -> stops (w +++ X)).
  { intros w X H1 H2. destruct w as [|c w]; [contradiction|]. exists c, (w +++ X). split; [reflexivity|]. unfold white in H2. cbn [str_forall] in H2. apply andb_true_iff in H2 as [H2 _]. exact (space_byte c H2). }
  assert (G : forall w p l X f, white w = true -> good_name p l = true -> stops X -> read_attrs uni (Datatypes.S f) (w +++ qname p l +++ X) =
      match skip_space X with
      | String e r2 => if N.eqb (code e) 61 then match skip_space r2 with
          | String q r3 => if (N.eqb (code q) 34 || N.eqb (code q) 39)%bool then match checked (text (Some q) (TIn (chr 0) (chr 0)) r3) with
              | Some (v, r4) => match read_attrs uni f r4 with Some (l', e', r5) => Some (((p, l), v) :: l', e', r5) | None => None end | None => None end else None
          | EmptyString => None end else None
      | EmptyString => None end).
  { intros w p l X f Hw Hn HX. cbn [read_attrs]. destruct (qname_bytes _ _ Hn) as (B1 & B2 & c & r & B3 & B4). destruct (letter_byte c B4) as (_ & _ & _ & _ & L1 & L2 & _ & _ & L3).
    rewrite skip_white; [|exact Hw|rewrite B3; exists c; eexists; split; [reflexivity|exact L3]].
    pose proof (read_nsname_at uni p l X Hn HX) as R. rewrite B3 in *. cbn [String.append] in *. rewrite L1, L2, R. reflexivity. }
  intros H. destruct H as [w p l w1 c rest W0 W W1 Hn Hc|w p l w1 w2 c rest W0 W W1 W2 Hn Hc Hc1 Hc2|w p l w1 w2 q t W0 W W1 W2 Hn Hq HT]; (split; [intros [|f]; [reflexivity|]|apply S; assumption]).
  - assert (St : stops (String c rest)) by (exists c, rest; split; [reflexivity|destruct Hc as [-> | ->]; reflexivity]).
    rewrite G; [|exact W|exact Hn|apply stops_white; [exact W1|exact St]]. rewrite skip_white; [|exact W1|exists c, rest; split; [reflexivity|destruct Hc as [-> | ->]; reflexivity]].
    destruct Hc as [-> | ->]; reflexivity.
  - assert (St : stops ("=" +++ w2 +++ String c rest)) by (exists "="%char; eexists; split; reflexivity).
    rewrite G; [|exact W|exact Hn|apply stops_white; [exact W1|exact St]]. rewrite skip_white; [|exact W1|exists "="%char; eexists; split; reflexivity]. cbn [String.append]. change (N.eqb (code "=") 61) with true. cbv iota.
    rewrite white_byte in Hc. rewrite skip_white; [|exact W2|exists c, rest; split; [reflexivity|exact Hc]].
    rewrite !eqb_num. cbn [N.ltb N.compare Pos.compare Pos.compare_cont]. change (chr 34) with dq. change (chr 39) with "'"%char. destruct (Ascii.eqb_spec c dq); [contradiction|]. destruct (Ascii.eqb_spec c "'"); [contradiction|]. reflexivity.
  - assert (St : stops ("=" +++ w2 +++ str1 q +++ t)) by (exists "="%char; eexists; split; reflexivity).
    rewrite G; [|exact W|exact Hn|apply stops_white; [exact W1|exact St]]. rewrite skip_white; [|exact W1|exists "="%char; eexists; split; reflexivity]. cbn [String.append]. change (N.eqb (code "=") 61) with true. cbv iota.
    rewrite skip_white; [|exact W2|exists q, t; split; [reflexivity|destruct Hq as [-> | ->]; reflexivity]]. cbn [str1 String.append].
    rewrite (bad_text_none (Some q) t Hq HT). destruct Hq as [-> | ->]; reflexivity.
Qed.
Lemma bad_start_none uni p l attrs t : good_name p l = true -> Forall ok_attr attrs -> bad_attr t -> next_token uni ("<" +++ qname p l +++ show_attrs attrs +++ t) = None.
Proof.
  intros Hn HF HB. destruct (bad_attr_none uni t HB) as [HR HS]. destruct (qname_bytes _ _ Hn) as (B1 & B2 & c & r & B3 & B4). destruct (letter_byte c B4) as (_ & _ & _ & _ & L1 & _ & L2 & L3 & _).
  assert (R : read_nsname uni (qname p l +++ show_attrs attrs +++ t) = Some ((p, l), show_attrs attrs +++ t)).
  { apply read_nsname_at; [exact Hn|]. exact (stops_attrs attrs "" t HF eq_refl HS). }
  rewrite B3 in *. cbn [String.append next_token] in *. change (negb (N.eqb (code "<") 60)) with false. cbv iota. rewrite L1, L2, L3, R, (attrs_over uni attrs _ t HF HR). reflexivity.
Qed.

(** ** The way to the error *)
Lemma over_until uni kids : Forall well_formed kids -> apart kids = true -> forall rest, (is_chars (last kids (CComment "")) = true -> opens rest) -> step_over uni (show_all kids) rest (flat_map toks kids).
Proof.
  induction 1 as [|k kids H HF IH]; intros W rest HO; [apply over_nil|]. cbn [show_all fold_right flat_map]. fold (show_all kids).
  assert (A : apart kids = true) by (cbn [apart] in W; destruct kids; [reflexivity|apply andb_true_iff in W as [_ W]; exact W]).
  apply over_app; [|destruct kids as [|k2 kids]; [apply over_nil|exact (IH A rest HO)]]. apply over_doc; [exact H|]. intros Hk. destruct kids as [|k2 kids]; [exact (HO Hk)|].
  cbn [apart] in W. apply andb_true_iff in W as [W _]. rewrite Hk in W. cbn [andb] in W. apply negb_true_iff in W.
  apply Forall_cons_iff in HF as [F2 _]. destruct (show_opens k2 F2 W) as (r & E). cbn [show_all fold_right]. fold (show_all kids). rewrite E. eexists. reflexivity.
Qed.
Definition op_toks (o : opened) : list token := KStart (op_prefix o, op_local o) (map raw_attr (op_attrs o)) :: flat_map toks (op_kids o).
Definition show_path (l : list opened) : string := fold_right (fun o r => show_opened o +++ r) "" l.
Lemma over_opened uni o rest : ok_opened o -> (is_chars (last (op_kids o) (CComment "")) = true -> opens rest) -> step_over uni (show_opened o) rest (op_toks o).
Proof.
  intros (O1 & O2 & O3 & O4 & O5 & O6 & O7) HO. unfold show_opened, op_toks.
  replace ("<" +++ qname (op_prefix o) (op_local o) +++ show_attrs (op_attrs o) +++ op_white o +++ ">" +++ show_all (op_kids o))
    with (("<" +++ qname (op_prefix o) (op_local o) +++ show_attrs (op_attrs o) +++ op_white o +++ ">") +++ show_all (op_kids o)) by (rewrite !sapp_assoc; reflexivity).
  change (KStart (op_prefix o, op_local o) (map raw_attr (op_attrs o)) :: flat_map toks (op_kids o)) with ([KStart (op_prefix o, op_local o) (map raw_attr (op_attrs o))] ++ flat_map toks (op_kids o)).
  apply over_app; [|apply over_until; assumption]. apply over_one; [discriminate|]. rewrite !sapp_assoc. exact (start_read uni _ _ _ _ false _ O1 O4 O5).
Qed.
Lemma over_path uni path : Forall ok_opened path -> forall rest, (match rev path with o :: _ => is_chars (last (op_kids o) (CComment "")) = true -> opens rest | [] => True end) ->
  step_over uni (show_path path) rest (flat_map op_toks path).
Proof.
  induction 1 as [|o path H HF IH]; intros rest HO; [apply over_nil|]. cbn [show_path fold_right flat_map]. fold (show_path path). destruct path as [|o2 path].
  - apply over_app; [|apply over_nil]. apply over_opened; [exact H|]. cbn [show_path fold_right String.append]. exact HO.
  - apply over_app.
    + apply over_opened; [exact H|]. intros _. cbn [show_path fold_right]. unfold show_opened. rewrite !sapp_assoc. eexists. reflexivity.
    + apply IH. cbn [rev] in HO |- *. destruct (rev path ++ [o2]) as [|o' l] eqn:E; [exact I|]. cbn [app] in HO. exact HO.
Qed.
Lemma feed_path path : Forall ok_opened path -> forall env stk, exists env' stk', feed (flat_map op_toks path) env stk = FMore env' stk' /\
  match rev path with o :: _ => exists f r, stk' = f :: r /\ snd (fr_name f) = op_local o | [] => stk' = stk end.
Proof.
  induction 1 as [|o path H HF IH]; intros env stk; [exists env, stk; split; reflexivity|]. destruct H as (O1 & O2 & O3 & O4 & O5 & O6 & O7). cbn [flat_map]. rewrite feed_app. unfold op_toks at 1. cbn [feed].
  rewrite (feed_kids _ O6). rewrite (translate_elem _ _ _ O2 O3).
  set (env1 := rev (declared (map raw_attr (op_attrs o))) ++ env). match goal with |- context [feed (flat_map op_toks path) env1 ?s] => set (stk1 := s) end.
  destruct (IH env1 stk1) as (env' & stk' & E & K). exists env', stk'. split; [exact E|]. cbn [rev]. destruct (rev path) as [|o' l]; cbn [app]; [|exact K].
  subst stk' stk1. eexists. eexists. split; [reflexivity|]. reflexivity.
Qed.
Lemma run_begun uni b rest fuel : ok_begun b -> (String.length (show_begun b +++ rest) < fuel)%nat ->
  (is_chars (last (match innermost b with Some o => op_kids o | None => bg_before b end) (CComment "")) = true -> opens rest) ->
  exists fuel' env stk, (String.length rest < fuel')%nat /\ run uni fuel (show_begun b +++ rest) [] [] = run uni fuel' rest env stk /\
    match innermost b with Some o => exists f r, stk = f :: r /\ snd (fr_name f) = op_local o | None => stk = [] end.
Proof.
  intros (H1 & H2 & H3 & H4 & H5) Hf HO. unfold show_begun in *. rewrite !sapp_assoc in *. change (fold_right (fun o r => show_opened o +++ r) "" (bg_path b)) with (show_path (bg_path b)) in *.
  destruct (over_decl uni (bg_decl b) (show_all (bg_before b) +++ show_path (bg_path b) +++ rest) H1) as (ts & L1 & F1).
  destruct (run_lexes uni _ _ _ L1 fuel [] [] [] [] Hf F1) as (f1 & G1 & E1). rewrite E1.
  assert (L2 : lexes uni (show_all (bg_before b) +++ show_path (bg_path b) +++ rest) (flat_map toks (bg_before b)) (show_path (bg_path b) +++ rest)).
  { apply over_until; [exact H2|exact H4|]. unfold innermost in HO. destruct (bg_path b) as [|o path]; [exact HO|]. intros _. cbn [show_path fold_right]. unfold show_opened. rewrite !sapp_assoc. eexists. reflexivity. }
  destruct (run_lexes uni _ _ _ L2 f1 [] [] [] [] G1 (feed_outside _ H3)) as (f2 & G2 & E2). rewrite E2.
  assert (L3 : lexes uni (show_path (bg_path b) +++ rest) (flat_map op_toks (bg_path b)) rest).
  { apply over_path; [exact H5|]. unfold innermost in HO. destruct (rev (bg_path b)) as [|o l]; [exact I|exact HO]. }
  destruct (feed_path (bg_path b) H5 [] []) as (env & stk & F & K). destruct (run_lexes uni _ _ _ L3 f2 [] [] env stk G2 F) as (f3 & G3 & E3).
  exists f3, env, stk. split; [exact G3|]. split; [exact E3|]. unfold innermost. destruct (rev (bg_path b)) as [|o l]; exact K.
Qed.
Lemma read_bad uni b t : ok_begun b -> bad_next b t -> read_xml uni (show_begun b +++ t) = None.
Proof.
  intros HB HT. unfold read_xml. rewrite run_build.
  assert (HO : is_chars (last (match innermost b with Some o => op_kids o | None => bg_before b end) (CComment "")) = true -> opens t).
  { destruct HT as [p l w rest|p l attrs t|t HC]; [intros _; eexists; reflexivity|intros _; eexists; reflexivity|]. intros K. rewrite HC in K. discriminate K. }
  destruct (run_begun uni b t (S (String.length (show_begun b +++ t))) HB ltac:(lia) HO) as (f & env & stk & Hf & E & HK). rewrite E. destruct f as [|f]; [reflexivity|]. cbn [run].
  destruct HT as [p l w rest Hn Hp Hl Hw HI|p l attrs t Hn HF HA|t HC HT].
  - pose proof (end_read uni p l w rest Hn Hw) as R. change ("</" +++ qname p l +++ w +++ ">" +++ rest) with (String "<" ("/" +++ qname p l +++ w +++ ">" +++ rest)) in *. cbv iota. rewrite R. cbn [feed].
    destruct (innermost b) as [o|]; [|subst stk; reflexivity]. destruct HK as (fr & r & -> & HN). rewrite (translate_elem _ p l Hp Hl). unfold name_eqb. cbn [fst snd]. rewrite HN.
    destruct (String.eqb_spec l (op_local o)) as [K|K]; [exfalso; exact (HI o eq_refl (eq_sym K))|]. rewrite andb_false_r. reflexivity.
  - pose proof (bad_start_none uni p l attrs t Hn HF HA) as R. change ("<" +++ qname p l +++ show_attrs attrs +++ t) with (String "<" (qname p l +++ show_attrs attrs +++ t)) in *. cbv iota. rewrite R. reflexivity.
  - destruct (bad_data_none uni t HT) as [R NE]. destruct t as [|c t]; [contradiction|]. rewrite R. reflexivity.
Qed.

(** ** XML declarations *)
Lemma instr_result uni t d rest : ncname t = true -> without "?>" d -> d <> "" -> match d with String c _ => white (str1 c) = false | EmptyString => True end ->
  next_token uni ("<?" +++ t +++ " " +++ d +++ "?>" +++ rest) = if decl_ok t d then Some ([KOther], rest) else None.
Proof.
  intros Ht Hd Hne Hc. assert (G : good_name "" t = true) by exact Ht. destruct (qname_bytes _ _ G) as (B1 & B2 & B3). change (qname "" t) with t in *.
  set (T := " " +++ d +++ "?>" +++ rest).
  assert (R : read_name uni (t +++ T) = Some (t, T)).
  { apply read_name_at; [exact B1|exact B2|exact B3|]. unfold T. exists " "%char, (d +++ "?>" +++ rest). split; reflexivity. }
  assert (K : skip_space T = d +++ "?>" +++ rest).
  { unfold T. apply skip_white; [reflexivity|].
    destruct d as [|c d]; [contradiction|]. rewrite white_byte in Hc. exists c, (d +++ "?>" +++ rest). split; [reflexivity|exact Hc]. }
  cbn [String.append next_token]. change (negb (N.eqb (code "<") 60)) with false. change (N.eqb (code "?") 47) with false. change (N.eqb (code "?") 63) with true. cbv iota.
  rewrite R, K, (pi_read d rest Hd). reflexivity.
Qed.
Lemma prefix_refl_app a s : String.prefix a (a +++ s) = true.
Proof. induction a as [|c a IH]; [destruct s; reflexivity|]. cbn [String.append String.prefix]. destruct (ascii_dec c c); [exact IH|contradiction]. Qed.
Lemma substring_behind a : forall s, substring (String.length a) (String.length s) (a +++ s) = s.
Proof.
  induction a as [|c a IH]; intros s; [|exact (IH s)]. cbn [String.length String.append]. induction s as [|c s IH]; [reflexivity|]. cbn [String.length substring]. rewrite IH. reflexivity.
Qed.
Lemma behind_here sub s : behind sub (sub +++ s) = Some s.
Proof.
  assert (E : substring (String.length sub) (String.length (sub +++ s) - String.length sub) (sub +++ s) = s).
  { assert (L : (String.length (sub +++ s) - String.length sub)%nat = String.length s).
    { clear. induction sub as [|c sub IH]; [cbn [String.append String.length]; apply Nat.sub_0_r|exact IH]. }
    rewrite L. apply substring_behind. }
  destruct (sub +++ s) as [|c t] eqn:ES; cbn [behind]; rewrite <- ES in *; rewrite prefix_refl_app, E; reflexivity.
Qed.
Lemma behind_next sub c s : String.prefix sub (String c s) = false -> behind sub (String c s) = behind sub s.
Proof. intros H. cbn [behind]. rewrite H. reflexivity. Qed.
Lemma up_to_here q v s : str_forall (fun c => negb (Ascii.eqb c q)) v = true -> up_to q (v +++ String q s) = Some v.
Proof.
  induction v as [|c v IH]; intros H; cbn [String.append up_to]; [rewrite Ascii.eqb_refl; reflexivity|]. cbn [str_forall] in H. apply andb_true_iff in H. destruct H as [H1 H2].
  apply negb_true_iff in H1. rewrite H1, (IH H2). reflexivity.
Qed.
Lemma stateable_no c s : stateable s = true -> c = dq \/ c = "'"%char \/ c = "="%char \/ c = "?"%char -> str_forall (fun x => negb (Ascii.eqb x c)) s = true.
Proof.
  intros H HC. unfold stateable in H. induction s as [|x s IH]; [reflexivity|]. cbn [str_forall] in *. apply andb_true_iff in H. destruct H as [H1 H2]. rewrite (IH H2), andb_true_r.
  apply negb_true_iff. apply negb_true_iff in H1. rewrite !orb_false_iff in H1. destruct H1 as (((A & B) & C) & D). destruct HC as [->|[->|[->| ->]]]; assumption.
Qed.
Lemma no_char c s : str_forall (fun x => negb (Ascii.eqb x c)) s = true -> forall a b, s <> a +++ String c b.
Proof.
  induction s as [|x s IH]; intros H a b E; [destruct a; discriminate E|]. cbn [str_forall] in H. apply andb_true_iff in H. destruct H as [H1 H2]. destruct a as [|y a]; injection E as -> E.
  - rewrite Ascii.eqb_refl in H1. discriminate H1.
  - exact (IH H2 _ _ E).
Qed.
Lemma encoding_later w s : w <> "" -> str_forall (fun x => negb (Ascii.eqb x "=")) w = true -> String.prefix "encoding=" (w +++ "encoding=" +++ s) = false.
Proof.
  intros Hne H. destruct (String.prefix "encoding=" (w +++ "encoding=" +++ s)) eqn:E; [|reflexivity]. exfalso. apply prefix_split in E. destruct E as [t E].
  pose proof (no_char _ _ H) as N. clear H.
  destruct w as [|? w]; [exact (Hne eq_refl)|]. do 8 (destruct w as [|? w]; [cbn in E; discriminate E|]).
  cbn in E. injection E as -> -> -> -> -> -> -> -> -> E. exact (N "encoding" w eq_refl).
Qed.
Lemma behind_encoding w s : str_forall (fun x => negb (Ascii.eqb x "=")) w = true -> behind "encoding=" (w +++ "encoding=" +++ s) = Some s.
Proof.
  induction w as [|c w IH]; intros H; [exact (behind_here "encoding=" s)|]. change (String c w +++ "encoding=" +++ s) with (String c (w +++ "encoding=" +++ s)).
  rewrite behind_next; [apply IH; cbn [str_forall] in H; apply andb_true_iff in H; exact (proj2 H)|]. exact (encoding_later (String c w) s ltac:(discriminate) H).
Qed.
Definition declaration_data (q : ascii) (v : string) (e : option string) : string :=
  "version=" +++ str1 q +++ v +++ str1 q +++ match e with None => "" | Some e => " encoding=" +++ str1 q +++ e +++ str1 q end.
Lemma in_quotes q v s : q = dq \/ q = "'"%char -> stateable v = true ->
  (if (N.eqb (code q) 34 || N.eqb (code q) 39)%bool then match up_to q (v +++ String q s) with Some x => x | None => "" end else "") = v.
Proof.
  intros Hq Hv. rewrite up_to_here by (apply stateable_no; [exact Hv|tauto]). destruct Hq as [-> | ->]; reflexivity.
Qed.
Lemma data_version q v e : q = dq \/ q = "'"%char -> stateable v = true -> proc_inst "version" (declaration_data q v e) = v.
Proof.
  intros Hq Hv. unfold proc_inst, declaration_data. change ("version" +++ "=") with "version=". rewrite behind_here. cbn [String.append str1]. apply in_quotes; assumption.
Qed.
Lemma data_encoding q v e : q = dq \/ q = "'"%char -> stateable v = true -> stateable e = true -> proc_inst "encoding" (declaration_data q v (Some e)) = e.
Proof.
  intros Hq Hv He. unfold proc_inst, declaration_data. change ("encoding" +++ "=") with "encoding=".
  assert (E : behind "encoding=" ("version=" +++ str1 q +++ v +++ str1 q +++ " encoding=" +++ str1 q +++ e +++ str1 q) = Some (str1 q +++ e +++ str1 q)).
  { replace ("version=" +++ str1 q +++ v +++ str1 q +++ " encoding=" +++ str1 q +++ e +++ str1 q) with ("version=" +++ (str1 q +++ v +++ str1 q +++ " ") +++ "encoding=" +++ (str1 q +++ e +++ str1 q)) by (rewrite !sapp_assoc; reflexivity).
    set (W := str1 q +++ v +++ str1 q +++ " "). set (S := str1 q +++ e +++ str1 q).
    assert (HW : str_forall (fun x => negb (Ascii.eqb x "=")) W = true).
    { unfold W. assert (A : str_forall (fun x => negb (Ascii.eqb x "=")) (v +++ str1 q +++ " ") = true).
      { pose proof (stateable_no "=" v Hv ltac:(tauto)) as K. revert K. clear - Hq. induction v as [|c v IH]; [intros _; destruct Hq as [-> | ->]; reflexivity|]. cbn [String.append str_forall]. intros K. apply andb_true_iff in K. destruct K as [-> K]. exact (IH K). }
      cbn [str1 String.append str_forall] in *. rewrite A. destruct Hq as [-> | ->]; reflexivity. }
    assert (D : String.prefix "encoding=" (W +++ "encoding=" +++ S) = false).
    { apply encoding_later; [destruct Hq as [-> | ->]; discriminate|exact HW]. }
    assert (B : behind "encoding=" (W +++ "encoding=" +++ S) = Some S) by (apply behind_encoding; exact HW).
    change ("version=" +++ W +++ "encoding=" +++ S) with (String "v" (String "e" (String "r" (String "s" (String "i" (String "o" (String "n" (String "=" (W +++ "encoding=" +++ S))))))))).
    rewrite !behind_next by reflexivity. exact B. }
  rewrite E. cbn [String.append str1]. apply in_quotes; assumption.
Qed.
Lemma lower_is c d : lower c = d -> In d ["u"; "t"; "f"; "-"; "8"]%char -> c = d \/ (d = "u"%char /\ c = "U"%char) \/ (d = "t"%char /\ c = "T"%char) \/ (d = "f"%char /\ c = "F"%char).
Proof.
  intros <- H. destruct c as [[] [] [] [] [] [] [] []]; cbv in H; repeat (destruct H as [H|H]; [try discriminate H|]); try destruct H; cbv; tauto.
Qed.
Lemma utf8_names e : lower_all e = "utf-8" -> In e ["utf-8"; "utF-8"; "uTf-8"; "uTF-8"; "Utf-8"; "UtF-8"; "UTf-8"; "UTF-8"].
Proof.
  intros H. destruct e as [|a e]; [discriminate H|]. destruct e as [|b e]; [discriminate H|]. destruct e as [|c e]; [discriminate H|]. destruct e as [|d e]; [discriminate H|]. destruct e as [|g e]; [discriminate H|].
  destruct e as [|h e]; [|discriminate H]. cbn [lower_all] in H. injection H as A B C D G.
  apply lower_is in A; [|cbn; tauto]. apply lower_is in B; [|cbn; tauto]. apply lower_is in C; [|cbn; tauto]. apply lower_is in D; [|cbn; tauto]. apply lower_is in G; [|cbn; tauto].
  repeat match goal with K : _ \/ _ |- _ => destruct K as [K|K] | K : _ /\ _ |- _ => let X := fresh in destruct K as [X K]; try discriminate X end; subst; cbn; tauto.
Qed.
Lemma read_bad_declaration uni q v e rest : bad_declaration q v e -> read_xml uni (show_declaration q v e +++ rest) = None.
Proof.
  intros (Hq & Hv & He & HB). set (d := declaration_data q v e).
  assert (E : show_declaration q v e +++ rest = "<?" +++ "xml" +++ " " +++ d +++ "?>" +++ rest).
  { unfold d, show_declaration, declaration_data. destruct e; rewrite ?sapp_assoc; reflexivity. }
  assert (NQ : str_forall (fun x => negb (Ascii.eqb x "?")) d = true).
  { assert (AP : forall a b, str_forall (fun x => negb (Ascii.eqb x "?")) a = true -> str_forall (fun x => negb (Ascii.eqb x "?")) b = true -> str_forall (fun x => negb (Ascii.eqb x "?")) (a +++ b) = true).
    { clear. induction a as [|c a IH]; intros b H1 H2; [exact H2|]. cbn [String.append str_forall] in *. apply andb_true_iff in H1. destruct H1 as [-> H1]. exact (IH _ H1 H2). }
    assert (Q : str_forall (fun x => negb (Ascii.eqb x "?")) (str1 q) = true) by (destruct Hq as [-> | ->]; reflexivity).
    pose proof (stateable_no "?" v Hv ltac:(tauto)) as V. unfold d, declaration_data. apply AP; [reflexivity|]. apply AP; [exact Q|]. apply AP; [exact V|]. apply AP; [exact Q|].
    destruct e as [e|]; [|reflexivity]. apply AP; [reflexivity|]. apply AP; [exact Q|]. apply AP; [|exact Q]. apply stateable_no; [exact He|tauto]. }
  assert (W : without "?>" d) by (intros a b K; exact (no_char _ _ NQ _ _ K)).
  assert (F : decl_ok "xml" d = false).
  { unfold decl_ok. rewrite String.eqb_refl. unfold d. rewrite data_version by assumption. destruct HB as [(V1 & V2)|(e' & -> & E1 & E2)].
    - apply String.eqb_neq in V1, V2. rewrite V1, V2. reflexivity.
    - rewrite data_encoding by assumption. apply String.eqb_neq in E1. rewrite E1. destruct (String.eqb_spec (lower_all e') "utf-8") as [L|L]; [destruct (E2 (utf8_names _ L))|]. apply andb_false_r. }
  rewrite E. unfold read_xml. set (T := "<?" +++ "xml" +++ " " +++ d +++ "?>" +++ rest).
  assert (NT : next_token uni T = None).
  { unfold T. rewrite (instr_result uni "xml" d rest); [rewrite F; reflexivity|reflexivity|exact W|discriminate|reflexivity]. }
  destruct T as [|c t] eqn:ET; [discriminate ET|]. cbn [tokens]. rewrite NT. reflexivity.
Qed.
