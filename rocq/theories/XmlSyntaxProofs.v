(** The reader of XmlSyntax.v reads every document of SpecXml.v. *)
From Verif Require Import GoBase Utf8 Json Float64 Xml SpecXmlText XmlText XmlSyntax SpecXml.
Open Scope string_scope.
Open Scope list_scope.

(** ** Bytes *)
Lemma eqb_char c d : N.eqb (code c) (code d) = Ascii.eqb c d.
Proof.
  destruct (Ascii.eqb_spec c d) as [->|H]; [apply N.eqb_refl|].
  apply N.eqb_neq. intros E. apply H. rewrite <- (chr_code c), <- (chr_code d), E. reflexivity.
Qed.
Lemma eqb_num n c : N.eqb (code c) n = (if N.ltb n 256 then Ascii.eqb c (chr n) else false).
Proof.
  destruct (N.ltb_spec n 256) as [H|H].
  - rewrite <- eqb_char, code_chr by exact H. reflexivity.
  - apply N.eqb_neq. pose proof (code_bound c). lia.
Qed.
Definition small (c : ascii) : bool := N.ltb (code c) 128.
Ltac bytes c := destruct c as [[] [] [] [] [] [] [] []]; vm_compute; intuition discriminate.
Lemma letter_byte c : letter c = true -> name_byte c = true /\ small c = true /\ N.eqb (code c) 58 = false /\ first_byte c = true /\ N.eqb (code c) 47 = false /\ N.eqb (code c) 62 = false /\
  N.eqb (code c) 63 = false /\ N.eqb (code c) 33 = false /\ xml_space c = false.
Proof. bytes c. Qed.
Lemma name_char_byte c : name_char c = true -> name_byte c = true /\ small c = true /\ N.eqb (code c) 58 = false.
Proof. bytes c. Qed.
Lemma letter_name c : letter c = true -> name_char c = true.
Proof. unfold name_char. intros ->. reflexivity. Qed.
Lemma white_byte c : white (str1 c) = xml_space c.
Proof. unfold white. cbn. unfold xml_space. apply andb_true_r. Qed.
Lemma space_byte c : xml_space c = true -> name_byte c = false.
Proof. bytes c. Qed.

(** ** Names *)
Lemma ncname_all s : ncname s = true -> str_forall name_char s = true.
Proof. destruct s as [|c r]; [discriminate|]. cbn. rewrite andb_true_iff. intros [H1 H2]. rewrite (letter_name c H1), H2. reflexivity. Qed.
Definition stops (X : string) : Prop := exists c r, X = String c r /\ name_byte c = false.
Lemma span_app n X : str_forall name_byte n = true -> stops X -> span_name (n +++ X) = (n, X).
Proof.
  intros H (c & r & -> & Hc). induction n as [|d n IH]; cbn [String.append span_name].
  - rewrite Hc. reflexivity.
  - cbn in H. apply andb_true_iff in H as [H1 H2]. rewrite H1, (IH H2). reflexivity.
Qed.
Lemma qname_bytes p l : good_name p l = true -> str_forall name_byte (qname p l) = true /\ str_forall small (qname p l) = true /\
  (exists c r, qname p l = String c r /\ letter c = true).
Proof.
  unfold good_name, qname. rewrite andb_true_iff. intros [Hp Hl].
  assert (N : forall s, ncname s = true -> str_forall name_byte s = true /\ str_forall small s = true /\ (exists c r, s = String c r /\ letter c = true)).
  { intros s Hs. pose proof (ncname_all s Hs) as A. split; [|split].
    - clear Hs. induction s as [|c s IH]; [reflexivity|]. cbn in *. apply andb_true_iff in A as [A1 A2]. rewrite (proj1 (name_char_byte c A1)), IH by assumption. reflexivity.
    - clear Hs. induction s as [|c s IH]; [reflexivity|]. cbn in *. apply andb_true_iff in A as [A1 A2]. rewrite (proj1 (proj2 (name_char_byte c A1))), IH by assumption. reflexivity.
    - destruct s as [|c r]; [discriminate|]. cbn in Hs. apply andb_true_iff in Hs as [Hs _]. eauto. }
  destruct (String.eqb_spec p "") as [->|Hne]; [exact (N l Hl)|].
  cbn in Hp. destruct (N p Hp) as (P1 & P2 & c & r & P3 & P4). destruct (N l Hl) as (L1 & L2 & _).
  rewrite !str_forall_app. rewrite P1, P2, L1, L2. split; [reflexivity|split; [reflexivity|]].
  exists c, (r +++ ":" +++ l). rewrite P3. split; [reflexivity|exact P4].
Qed.
Lemma no_colon s : str_forall name_char s = true -> split_colon s = None.
Proof.
  induction s as [|c s IH]; [reflexivity|]. cbn [str_forall split_colon]. rewrite andb_true_iff. intros [H1 H2].
  rewrite (proj2 (proj2 (name_char_byte c H1))), (IH H2). reflexivity.
Qed.
Lemma colon_at p l : str_forall name_char p = true -> split_colon (p +++ ":" +++ l) = Some (p, l).
Proof.
  induction p as [|c p IH]; [reflexivity|]. cbn [str_forall]. rewrite andb_true_iff. intros [H1 H2].
  cbn [String.append split_colon] in *. rewrite (proj2 (proj2 (name_char_byte c H1))), (IH H2). reflexivity.
Qed.
Lemma split_qname p l : good_name p l = true -> split_name (qname p l) = (p, l).
Proof.
  unfold good_name, qname. rewrite andb_true_iff. intros [Hp Hl]. pose proof (ncname_all l Hl) as A.
  destruct (String.eqb_spec p "") as [->|Hne]; unfold split_name.
  - rewrite (no_colon l A). reflexivity.
  - cbn in Hp. rewrite (colon_at p l (ncname_all p Hp)), (no_colon l A).
    destruct (String.eqb_spec p "") as [E|_]; [contradiction|]. destruct (String.eqb_spec l "") as [->|_]; [discriminate Hl|]. reflexivity.
Qed.
Lemma read_name_at uni n X : str_forall name_byte n = true -> str_forall small n = true -> (exists c r, n = String c r /\ letter c = true) -> stops X ->
  read_name uni (n +++ X) = Some (n, X).
Proof.
  intros H1 H2 (c & r & E & H3) HX. unfold read_name. rewrite (span_app n X H1 HX).
  destruct HX as (d & r' & -> & _). unfold is_name. fold small.
  change (fun c => N.ltb (code c) 128) with small. rewrite H2, E. rewrite (proj1 (proj2 (proj2 (proj2 (letter_byte c H3))))). reflexivity.
Qed.
Lemma read_nsname_at uni p l X : good_name p l = true -> stops X -> read_nsname uni (qname p l +++ X) = Some ((p, l), X).
Proof.
  intros H HX. unfold read_nsname. destruct (qname_bytes p l H) as (A & B & C).
  rewrite (read_name_at uni _ X A B C HX), (split_qname p l H). reflexivity.
Qed.

(** ** White space *)
Definition solid (X : string) : Prop := exists c r, X = String c r /\ xml_space c = false.
Lemma skip_white w X : white w = true -> solid X -> skip_space (w +++ X) = X.
Proof.
  intros H (c & r & -> & Hc). induction w as [|d w IH]; cbn [String.append skip_space].
  - rewrite Hc. reflexivity.
  - unfold white in H. cbn in H. apply andb_true_iff in H as [H1 H2]. change (xml_space d = true) in H1. rewrite H1. exact (IH H2).
Qed.
Lemma stops_white w X : white w = true -> stops X -> stops (w +++ X).
Proof.
  intros H HX. destruct w as [|c w]; [exact HX|]. unfold white in H. cbn in H. apply andb_true_iff in H as [H1 _]. change (xml_space c = true) in H1.
  exists c, (w +++ X). split; [reflexivity|exact (space_byte c H1)].
Qed.

(** ** References *)
Lemma digit_value hex c d : digit_in hex c d -> base_digit hex c = Some d.
Proof.
  unfold digit_in, base_digit, between. intros [[H1 H2]|(-> & H1 & H2)].
  - rewrite H2. replace (48 <=? 48 + d)%N with true by (symmetry; apply N.leb_le; lia). replace (48 + d <=? 57)%N with true by (symmetry; apply N.leb_le; lia).
    cbn [andb]. cbv iota. f_equal. lia.
  - destruct H2 as [H2|H2]; rewrite H2.
    + replace (87 + d <=? 57)%N with false by (symmetry; apply N.leb_gt; lia). rewrite andb_false_r.
      replace (97 <=? 87 + d)%N with true by (symmetry; apply N.leb_le; lia). replace (87 + d <=? 102)%N with true by (symmetry; apply N.leb_le; lia). cbn [andb]. cbv iota. f_equal. lia.
    + replace (55 + d <=? 57)%N with false by (symmetry; apply N.leb_gt; lia). rewrite andb_false_r.
      replace (97 <=? 55 + d)%N with false by (symmetry; apply N.leb_gt; lia). cbn [andb].
      replace (65 <=? 55 + d)%N with true by (symmetry; apply N.leb_le; lia). replace (55 + d <=? 70)%N with true by (symmetry; apply N.leb_le; lia). cbn [andb]. cbv iota. f_equal. lia.
Qed.
Lemma base_value_app hex a b acc n : base_value hex acc a = Some n -> base_value hex acc (a +++ b) = base_value hex n b.
Proof.
  revert acc. induction a as [|c a IH]; cbn [String.append base_value]; intros acc H; [injection H as ->; reflexivity|].
  destruct (base_digit hex c); [exact (IH _ H)|discriminate].
Qed.
Lemma numeral_value hex s n : numeral hex s n -> base_value hex 0 s = Some n.
Proof.
  induction 1 as [c d H|s n c d H IH Hd].
  - cbn. rewrite (digit_value _ _ _ H). destruct hex; reflexivity.
  - rewrite (base_value_app _ _ _ _ _ IH). cbn. rewrite (digit_value _ _ _ Hd). reflexivity.
Qed.
Lemma numeral_cons hex s n : numeral hex s n -> exists c r d, s = String c r /\ digit_in hex c d.
Proof.
  induction 1 as [c d H|s n c d H (c1 & r & d1 & -> & Hd1) Hd]; [exists c, "", d; auto|].
  exists c1, (r +++ str1 c), d1. auto.
Qed.
Lemma digit_byte hex c d : digit_in hex c d -> (48 <= code c)%N /\ N.eqb (code c) 59 = false /\ (hex = false -> N.eqb (code c) 120 = false).
Proof.
  intros [[H1 H2]|(-> & H1 & H2)].
  - split; [lia|split; [apply N.eqb_neq; lia|intros _; apply N.eqb_neq; lia]].
  - split; [lia|split; [apply N.eqb_neq; lia|discriminate]].
Qed.
Definition not_semi (c : ascii) : bool := negb (N.eqb (code c) 59).
Lemma numeral_bytes hex s n : numeral hex s n -> str_forall not_semi s = true.
Proof.
  induction 1 as [c d H|s n c d H IH Hd].
  - cbn. unfold not_semi. rewrite (proj1 (proj2 (digit_byte _ _ _ H))). reflexivity.
  - rewrite str_forall_app, IH. cbn. unfold not_semi. rewrite (proj1 (proj2 (digit_byte _ _ _ Hd))). reflexivity.
Qed.
Lemma rune_char n : xml_char n -> (n <=? 1114111)%N = true /\ rune_text n = utf8_encode n.
Proof.
  unfold xml_char. intros H. split; [apply N.leb_le; lia|]. unfold rune_text.
  destruct (N.leb_spec 55296 n); destruct (N.leb_spec n 57343); cbn; try reflexivity. lia.
Qed.
Lemma refers_read a t : refers a t -> char_ref a = Some t /\ str_forall not_semi a = true.
Proof.
  destruct 1 as [| | | | |ds n H Hn|ds n H Hn]; try (split; reflexivity).
  - split; [|cbn; exact (numeral_bytes _ _ _ H)]. destruct (numeral_cons _ _ _ H) as (c & r & d & E & Hd).
    cbn [String.append char_ref]. change (N.eqb (code "#") 35) with true. cbv iota. rewrite E in *. rewrite (proj2 (proj2 (digit_byte _ _ _ Hd)) eq_refl).
    rewrite (numeral_value _ _ _ H). destruct (rune_char n Hn) as [-> ->]. reflexivity.
  - split; [|cbn; exact (numeral_bytes _ _ _ H)]. destruct (numeral_cons _ _ _ H) as (c & r & d & E & Hd).
    cbn [String.append char_ref]. change (N.eqb (code "#") 35) with true. cbv iota. change (N.eqb (code "x") 120) with true. cbv iota. rewrite E in *.
    rewrite (numeral_value _ _ _ H). destruct (rune_char n Hn) as [-> ->]. reflexivity.
Qed.

(** ** Character data *)
Lemma text_amp q a acc X : str_forall not_semi a = true ->
  text q (TAmp acc) (a +++ ";" +++ X) = match char_ref (acc +++ a) with Some t => ahead t (text q (TIn (chr 0) (chr 0)) X) | None => None end.
Proof.
  revert acc. induction a as [|c a IH]; intros acc H.
  - cbn [String.append text]. change (N.eqb (code ";") 59) with true. rewrite sapp_nil_r. reflexivity.
  - cbn [str_forall] in H. apply andb_true_iff in H as [H1 H2]. unfold not_semi in H1. apply negb_true_iff in H1.
    cbn [String.append text]. rewrite H1. rewrite (IH _ H2), sapp_assoc. reflexivity.
Qed.
Definition recent (l : list piece) (b0 b1 : ascii) : Prop :=
  b1 <> chr 13 /\ (b1 = "]"%char -> exists k, l = k ++ [Lit "]"]) /\ (b0 = "]"%char -> b1 = "]"%char -> exists k, l = k ++ [Lit "]"; Lit "]"]).
Lemma recent_lit l b0 b1 c : recent l b0 b1 -> c <> chr 13 -> recent (l ++ [Lit c]) b1 c.
Proof.
  intros (H1 & H2 & H3) Hc. split; [exact Hc|split].
  - intros ->. exists l. reflexivity.
  - intros E ->. destruct (H2 E) as (k & ->). exists k. rewrite <- app_assoc. reflexivity.
Qed.
Lemma recent_zero l : recent l (chr 0) (chr 0).
Proof. split; [discriminate|split; discriminate]. Qed.
Definition quoted (q : option ascii) : Prop := match q with None => True | Some c => c = dq \/ c = "'"%char end.
Definition final (q : option ascii) (rest : string) : string := match q with None => rest | Some c => String c rest end.
Definition bounded (q : option ascii) (rest : string) : Prop := match q with None => exists r, rest = String "<" r | Some _ => True end.
Lemma text_read q rest : quoted q -> bounded q rest -> forall ps s, spelled q ps s -> forall l b0 b1, recent l b0 b1 -> no_close (l ++ ps) ->
  text q (TIn b0 b1) (show_pieces ps +++ final q rest) = Some (s, rest).
Proof.
  intros Hq Hr ps s Hs. induction Hs as [|c ps s Hc Hs IH|a t ps s Ha Hs IH]; intros l b0 b1 HI HN.
  - cbn [show_pieces fold_right String.append]. destruct q as [c|]; cbn [final text].
    + assert (E1 : (N.eqb (code c) 62 = false)%N) by (destruct Hq as [->| ->]; reflexivity).
      assert (E2 : (N.eqb (code c) 60 = false)%N) by (destruct Hq as [->| ->]; reflexivity).
      rewrite E1, E2, !andb_false_r. cbv iota. rewrite Ascii.eqb_refl. reflexivity.
    + destruct Hr as (r & ->). cbn [text]. change (N.eqb (code "<") 62) with false. rewrite !andb_false_r. reflexivity.
  - cbn [show_pieces fold_right show_piece str1 String.append]. fold (show_pieces ps). cbn [text].
    destruct Hc as (Hlt & Hamp & Hcr & Hqc). destruct HI as (I1 & I2 & I3) eqn:EI. clear EI.
    rewrite !eqb_num. cbn [N.ltb N.compare Pos.compare Pos.compare_cont]. change (chr 93) with "]"%char. change (chr 62) with ">"%char. change (chr 60) with "<"%char. change (chr 38) with "&"%char.
    replace (Ascii.eqb b0 "]" && Ascii.eqb b1 "]" && Ascii.eqb c ">")%bool with false.
    2:{ symmetry. destruct (Ascii.eqb_spec b0 "]") as [E0|]; [|reflexivity]. destruct (Ascii.eqb_spec b1 "]") as [E1|]; [|reflexivity].
        destruct (Ascii.eqb_spec c ">") as [E2|]; [|reflexivity]. exfalso. destruct (I3 E0 E1) as (k & ->). apply (HN k ps). rewrite <- app_assoc, E2. reflexivity. }
    destruct (Ascii.eqb_spec c "<"); [contradiction|].
    replace (match q with Some c0 => Ascii.eqb c c0 | None => false end) with false.
    2:{ destruct q as [d|]; [|reflexivity]. symmetry. destruct (Ascii.eqb_spec c d); [subst; contradiction|reflexivity]. }
    destruct (Ascii.eqb_spec c "&"); [contradiction|]. destruct (Ascii.eqb_spec c (chr 13)); [contradiction|].
    destruct (Ascii.eqb_spec b1 (chr 13)); [contradiction|]. cbn [andb].
    assert (H' : recent (l ++ [Lit c]) b1 c) by (apply (recent_lit l b0 b1 c); [repeat split; assumption|assumption]).
    rewrite (IH (l ++ [Lit c]) b1 c H'); [reflexivity|]. rewrite <- app_assoc. exact HN.
  - cbn [show_pieces fold_right show_piece String.append]. fold (show_pieces ps). rewrite !sapp_assoc. cbn [text].
    change (N.eqb (code "&") 62) with false. change (N.eqb (code "&") 60) with false. change (N.eqb (code "&") 38) with true. rewrite !andb_false_r.
    replace (match q with Some c0 => Ascii.eqb "&" c0 | None => false end) with false by (destruct q as [d|]; [destruct Hq as [->| ->]; reflexivity|reflexivity]).
    destruct (refers_read a t Ha) as [Hv Hsemi]. change (String ";" "" +++ show_pieces ps +++ final q rest) with (";" +++ (show_pieces ps +++ final q rest)).
    rewrite (text_amp q a "" _ Hsemi). cbn [String.append]. rewrite Hv.
    rewrite (IH (l ++ [Ref a]) (chr 0) (chr 0) (recent_zero _)); [reflexivity|]. rewrite <- app_assoc. exact HN.
Qed.
Lemma text_all q rest ps s : quoted q -> bounded q rest -> writes_text q ps s ->
  checked (text q (TIn (chr 0) (chr 0)) (show_pieces ps +++ final q rest)) = Some (s, rest).
Proof.
  intros Hq Hr (Hs & HN & HX). rewrite (text_read q rest Hq Hr ps s Hs [] (chr 0) (chr 0) (recent_zero _) HN).
  cbn [checked]. apply clean_id in HX. rewrite HX, String.eqb_refl. reflexivity.
Qed.

(** ** Attributes *)
Definition raw_attr (a : cattr) : string * string * string := (a_prefix a, a_local a, a_text a).
Lemma quote_byte a : ok_attr a -> N.eqb (code (a_quote a)) 34 || N.eqb (code (a_quote a)) 39 = true /\ xml_space (a_quote a) = false.
Proof. intros (_ & _ & _ & _ & _ & [->| ->] & _); split; reflexivity. Qed.
Lemma read_attrs_at uni w e rest : white w = true -> forall attrs fuel, Forall ok_attr attrs -> (List.length attrs < fuel)%nat ->
  read_attrs uni fuel (show_attrs attrs +++ w +++ (if e : bool then "/>" else ">") +++ rest) = Some (map raw_attr attrs, e, rest).
Proof.
  intros Hw. induction attrs as [|a attrs IH]; intros [|f] HF Hl; try (cbn in Hl; lia).
  - cbn [show_attrs fold_right String.append read_attrs map].
    rewrite skip_white; [|exact Hw|destruct e; [exists "/"%char, (">" +++ rest)|exists ">"%char, rest]; split; reflexivity].
    destruct e; reflexivity.
  - apply Forall_cons_iff in HF as [Ha HF]. pose proof (quote_byte a Ha) as [Q1 Q2]. destruct Ha as (A1 & A2 & A3 & A4 & A5 & A6 & A7).
    cbn [show_attrs fold_right]. fold (show_attrs attrs). unfold show_attr. rewrite !sapp_assoc. cbn [read_attrs].
    destruct (qname_bytes _ _ A5) as (B1 & B2 & c & r & B3 & B4). destruct (letter_byte c B4) as (_ & _ & _ & _ & L1 & L2 & _ & _ & L3).
    rewrite skip_white; [|exact A2|rewrite B3; exists c; eexists; split; [reflexivity|exact L3]].
    set (T := show_attrs attrs +++ w +++ (if e then "/>" else ">") +++ rest).
    set (V := str1 (a_quote a) +++ show_pieces (a_pieces a) +++ str1 (a_quote a) +++ T).
    assert (R : read_nsname uni (qname (a_prefix a) (a_local a) +++ a_w1 a +++ "=" +++ a_w2 a +++ V) = Some ((a_prefix a, a_local a), a_w1 a +++ "=" +++ a_w2 a +++ V)).
    { apply read_nsname_at; [exact A5|]. apply stops_white; [exact A3|]. exists "="%char, (a_w2 a +++ V). split; reflexivity. }
    rewrite B3 in *. cbn [String.append] in *. rewrite L1, L2, R.
    change (String "=" (a_w2 a +++ V)) with ("=" +++ a_w2 a +++ V).
    rewrite skip_white; [|exact A3|exists "="%char, (a_w2 a +++ V); split; reflexivity]. cbn [String.append]. change (N.eqb (code "=") 61) with true. cbv iota.
    rewrite skip_white; [|exact A4|exists (a_quote a); eexists; split; [reflexivity|exact Q2]]. unfold V. cbn [str1 String.append]. rewrite Q1.
    change (String (a_quote a) T) with (final (Some (a_quote a)) T).
    rewrite (text_all (Some (a_quote a)) T (a_pieces a) (a_text a) A6 I A7).
    unfold T. rewrite IH; [reflexivity|exact HF|cbn in Hl; lia].
Qed.
Lemma show_attr_len a : ok_attr a -> (0 < String.length (show_attr a))%nat.
Proof. intros (A1 & _). unfold show_attr. rewrite sapp_length. destruct (a_white a); [contradiction|]. cbn. lia. Qed.
Lemma attrs_len attrs : Forall ok_attr attrs -> (List.length attrs <= String.length (show_attrs attrs))%nat.
Proof.
  induction 1 as [|a l Ha HF IH]; [cbn; lia|]. cbn [show_attrs fold_right List.length]. fold (show_attrs l). rewrite sapp_length. pose proof (show_attr_len a Ha). lia.
Qed.
Lemma stops_attrs attrs w X : Forall ok_attr attrs -> white w = true -> stops X -> stops (show_attrs attrs +++ w +++ X).
Proof.
  intros HF Hw HX. destruct HF as [|a l (A1 & A2 & _) HF]; [exact (stops_white w X Hw HX)|].
  cbn [show_attrs fold_right]. unfold show_attr. rewrite !sapp_assoc. destruct (a_white a) as [|c r]; [contradiction|].
  exists c; eexists; split; [reflexivity|]. unfold white in A2. cbn in A2. apply andb_true_iff in A2 as [A2 _]. exact (space_byte c A2).
Qed.

(** ** Sections that end at the first of something *)
Lemma without_cons sub c s : without sub (String c s) -> without sub s.
Proof. intros H a b E. apply (H (String c a) b). rewrite E. reflexivity. Qed.
Lemma cdata_read s rest : forall b1, b1 <> chr 13 -> without "]]>" s -> without (str1 (chr 13)) s ->
  cdata b1 (s +++ "]]>" +++ rest) = Some (s, rest).
Proof.
  induction s as [|c s IH]; intros b1 Hb H1 H2; [reflexivity|].
  assert (Hc : c <> chr 13) by (intros ->; apply (H2 "" s); reflexivity).
  pose proof (IH c Hc (without_cons _ _ _ H1) (without_cons _ _ _ H2)) as E.
  assert (G : (if N.eqb (code c) 13 then ahead (str1 (chr 10)) (cdata c (s +++ "]]>" +++ rest))
               else if (N.eqb (code b1) 13 && N.eqb (code c) 10)%bool then cdata c (s +++ "]]>" +++ rest)
               else ahead (str1 c) (cdata c (s +++ "]]>" +++ rest))) = Some (String c s, rest)).
  { rewrite (eqb_num 13 c), (eqb_num 13 b1). cbn [N.ltb N.compare Pos.compare Pos.compare_cont].
    destruct (Ascii.eqb_spec c (chr 13)); [contradiction|]. destruct (Ascii.eqb_spec b1 (chr 13)); [contradiction|]. cbn [andb]. rewrite E. reflexivity. }
  clear IH E. cbn [String.append cdata]. change ("]]>" +++ rest) with (String "]" (String "]" (String ">" rest))) in G. revert G.
  destruct (s +++ String "]" (String "]" (String ">" rest))) as [|d [|e r']] eqn:ES; intros G; [exact G|exact G|].
  destruct (N.eqb (code c) 93 && N.eqb (code d) 93 && N.eqb (code e) 62)%bool eqn:EE; [|exact G].
  exfalso. rewrite !eqb_num in EE. cbn [N.ltb N.compare Pos.compare Pos.compare_cont] in EE. apply andb_true_iff in EE as [EE E3]. apply andb_true_iff in EE as [E1 E2].
  apply Ascii.eqb_eq in E1, E2, E3. subst c d e.
  destruct s as [|d [|e s]]; cbn in ES.
  - discriminate ES.
  - injection ES as E1 E2. discriminate E2.
  - injection ES as E1 E2 E3. apply (H1 "" s). rewrite E1, E2. reflexivity.
Qed.
Lemma pi_read s rest : without "?>" s -> until_pi (s +++ "?>" +++ rest) = Some (s, rest).
Proof.
  induction s as [|c s IH]; intros H; [reflexivity|]. pose proof (IH (without_cons _ _ _ H)) as E.
  cbn [String.append until_pi] in *. destruct (s +++ String "?" (String ">" rest)) as [|d r'] eqn:ES.
  - rewrite E. reflexivity.
  - destruct (N.eqb (code c) 63 && N.eqb (code d) 62)%bool eqn:EE; [|rewrite E; reflexivity].
    exfalso. rewrite !eqb_num in EE. cbn [N.ltb N.compare Pos.compare Pos.compare_cont] in EE. apply andb_true_iff in EE as [E1 E2]. apply Ascii.eqb_eq in E1, E2. subst c d.
    destruct s as [|d s]; cbn in ES; [discriminate ES|]. injection ES as E1 E2. apply (H "" s). rewrite E1. reflexivity.
Qed.
Lemma comment_read s rest : without "--" (s +++ "-") -> until_comment (s +++ "-->" +++ rest) = Some rest.
Proof.
  induction s as [|c s IH]; intros H; [reflexivity|]. pose proof (IH (without_cons _ _ _ H)) as E.
  cbn [String.append until_comment] in *. destruct (s +++ String "-" (String "-" (String ">" rest))) as [|d r'] eqn:ES.
  - destruct s; discriminate ES.
  - destruct (N.eqb (code c) 45 && N.eqb (code d) 45)%bool eqn:EE; [|exact E].
    exfalso. rewrite !eqb_num in EE. cbn [N.ltb N.compare Pos.compare Pos.compare_cont] in EE. apply andb_true_iff in EE as [E1 E2]. apply Ascii.eqb_eq in E1, E2. subst c d.
    destruct s as [|d s]; cbn in ES.
    + apply (H "" ""). reflexivity.
    + injection ES as E1 E2. apply (H "" (s +++ "-")). rewrite E1. reflexivity.
Qed.

(** ** Tokens *)
Fixpoint toks (c : cst) : list token :=
  match c with
  | CElem p l attrs _ kids _ => KStart (p, l) (map raw_attr attrs) :: flat_map toks kids ++ [KEnd (p, l)]
  | CEmpty p l attrs _ => [KStart (p, l) (map raw_attr attrs); KEnd (p, l)]
  | CChars _ s => [KText s]
  | CCData s => [KText s]
  | CComment _ | CInstr _ _ => [KOther]
  end.
Definition opens (X : string) : Prop := exists r, X = String "<" r.
Lemma start_read uni p l attrs w (e : bool) rest : good_name p l = true -> Forall ok_attr attrs -> white w = true ->
  next_token uni ("<" +++ qname p l +++ show_attrs attrs +++ w +++ (if e then "/>" else ">") +++ rest) =
  Some (KStart (p, l) (map raw_attr attrs) :: (if e then [KEnd (p, l)] else []), rest).
Proof.
  intros Hn HF Hw. destruct (qname_bytes _ _ Hn) as (B1 & B2 & c & r & B3 & B4). destruct (letter_byte c B4) as (_ & _ & _ & _ & L1 & _ & L2 & L3 & _).
  set (T := show_attrs attrs +++ w +++ (if e then "/>" else ">") +++ rest).
  assert (R : read_nsname uni (qname p l +++ T) = Some ((p, l), T)).
  { apply read_nsname_at; [exact Hn|]. apply stops_attrs; [exact HF|exact Hw|]. destruct e; [exists "/"%char, (">" +++ rest)|exists ">"%char, rest]; split; reflexivity. }
  rewrite B3 in *. cbn [String.append next_token] in *. change (negb (N.eqb (code "<") 60)) with false. cbv iota. rewrite L1, L2, L3, R.
  unfold T at 2. rewrite (read_attrs_at uni w e rest Hw attrs _ HF).
  - destruct e; reflexivity.
  - unfold T. rewrite sapp_length. pose proof (attrs_len attrs HF). lia.
Qed.
Lemma end_read uni p l w rest : good_name p l = true -> white w = true -> next_token uni ("</" +++ qname p l +++ w +++ ">" +++ rest) = Some ([KEnd (p, l)], rest).
Proof.
  intros Hn Hw. cbn [String.append next_token]. change (negb (N.eqb (code "<") 60)) with false. change (N.eqb (code "/") 47) with true. cbv iota.
  change (String ">" rest) with (">" +++ rest). rewrite read_nsname_at; [|exact Hn|apply stops_white; [exact Hw|exists ">"%char, rest; split; reflexivity]].
  rewrite skip_white; [reflexivity|exact Hw|exists ">"%char, rest; split; reflexivity].
Qed.
Lemma substring_all s : substring 0 (String.length s) s = s.
Proof. induction s as [|c s IH]; [reflexivity|]. cbn. rewrite IH. reflexivity. Qed.
Lemma drop6 s : substring 6 (String.length ("CDATA[" +++ s) - 6) ("CDATA[" +++ s) = s.
Proof. cbn [String.append String.length]. replace (S (S (S (S (S (S (String.length s)))))) - 6)%nat with (String.length s) by lia. cbn [substring]. apply substring_all. Qed.
Lemma cdata_token uni s rest : without "]]>" s -> without (str1 (chr 13)) s -> xml_text s ->
  next_token uni ("<![CDATA[" +++ s +++ "]]>" +++ rest) = Some ([KText s], rest).
Proof.
  intros H1 H2 H3. cbn [String.append]. set (T := s +++ String "]" (String "]" (String ">" rest))).
  assert (E : cdata (chr 0) T = Some (s, rest)) by (apply cdata_read; [discriminate|exact H1|exact H2]).
  unfold next_token. change (negb (N.eqb (code "<") 60)) with false. change (N.eqb (code "!") 47) with false. change (N.eqb (code "!") 63) with false. change (N.eqb (code "!") 33) with true. cbv iota.
  change (N.eqb (code "[") 45) with false. change (N.eqb (code "[") 91) with true. cbv iota.
  change (String "C" (String "D" (String "A" (String "T" (String "A" (String "[" T)))))) with ("CDATA[" +++ T). rewrite drop6.
  change (String.prefix "CDATA[" ("CDATA[" +++ T)) with (String.prefix "" T). destruct T eqn:ET; cbn [String.prefix]; rewrite E; cbn [checked];
    apply clean_id in H3; rewrite H3, String.eqb_refl; reflexivity.
Qed.
Lemma comment_token uni s rest : without "--" (s +++ "-") -> next_token uni ("<!--" +++ s +++ "-->" +++ rest) = Some ([KOther], rest).
Proof.
  intros H. pose proof (comment_read s rest H) as E. cbn [String.append next_token] in *.
  change (negb (N.eqb (code "<") 60)) with false. change (N.eqb (code "!") 47) with false. change (N.eqb (code "!") 63) with false. change (N.eqb (code "!") 33) with true. cbv iota.
  change (N.eqb (code "-") 45) with true. cbv iota. rewrite E. reflexivity.
Qed.
Lemma instr_token uni t d rest : ncname t = true -> decl_ok t d = true -> without "?>" d -> match d with String c _ => white (str1 c) = false | EmptyString => True end ->
  next_token uni ("<?" +++ t +++ (if String.eqb d "" then "" else " " +++ d) +++ "?>" +++ rest) = Some ([KOther], rest).
Proof.
  intros Ht Hok Hd Hc. assert (G : good_name "" t = true) by exact Ht. destruct (qname_bytes _ _ G) as (B1 & B2 & B3). change (qname "" t) with t in *.
  set (T := (if String.eqb d "" then "" else " " +++ d) +++ "?>" +++ rest).
  assert (R : read_name uni (t +++ T) = Some (t, T)).
  { apply read_name_at; [exact B1|exact B2|exact B3|]. unfold T. destruct (String.eqb d ""); [exists "?"%char, (">" +++ rest)|exists " "%char, (d +++ "?>" +++ rest)]; split; reflexivity. }
  assert (K : skip_space T = d +++ "?>" +++ rest).
  { unfold T. destruct (String.eqb_spec d "") as [->|Hne]; [reflexivity|]. rewrite sapp_assoc. apply skip_white; [reflexivity|].
    destruct d as [|c d]; [contradiction|]. rewrite white_byte in Hc. exists c, (d +++ "?>" +++ rest). split; [reflexivity|exact Hc]. }
  cbn [String.append next_token]. change (negb (N.eqb (code "<") 60)) with false. change (N.eqb (code "?") 47) with false. change (N.eqb (code "?") 63) with true. cbv iota.
  rewrite R, K, (pi_read d rest Hd), Hok. reflexivity.
Qed.
Lemma chars_token uni ps s rest : ps <> [] -> writes_text None ps s -> opens rest -> next_token uni (show_pieces ps +++ rest) = Some ([KText s], rest).
Proof.
  intros Hne HW HO. pose proof (text_all None rest ps s I HO HW) as E. cbn [final] in E.
  destruct ps as [|[c|a] ps]; [contradiction| |].
  - destruct HW as (HS & _ & _). inversion HS as [|? ? ? Hp _|]; subst. destruct Hp as (Hlt & _).
    cbn [show_pieces fold_right show_piece str1 String.append] in *. fold (show_pieces ps) in *. unfold next_token.
    rewrite (eqb_num 60 c). cbn [N.ltb N.compare Pos.compare Pos.compare_cont]. change (chr 60) with "<"%char. destruct (Ascii.eqb_spec c "<"); [contradiction|]. cbn [negb]. rewrite E. reflexivity.
  - cbn [show_pieces fold_right show_piece String.append] in *. unfold next_token. change (negb (N.eqb (code "&") 60)) with true. cbv iota. rewrite E. reflexivity.
Qed.
Lemma token_step uni fuel s ts rest : s <> "" -> next_token uni s = Some (ts, rest) -> (String.length s < fuel)%nat -> (String.length rest < String.length s)%nat ->
  exists fuel', (String.length rest < fuel')%nat /\ tokens uni fuel s = ts ++ tokens uni fuel' rest.
Proof.
  intros Hne H Hf Hr. destruct fuel as [|f]; [lia|]. exists f. split; [lia|]. cbn [tokens]. destruct s as [|c s]; [contradiction|]. rewrite H. reflexivity.
Qed.
(** Documents, as trees. *)
Lemma cst_ind' (P : cst -> Prop) (HE : forall p l attrs w1 kids w2, Forall P kids -> P (CElem p l attrs w1 kids w2)) (HM : forall p l attrs w1, P (CEmpty p l attrs w1))
  (HC : forall ps s, P (CChars ps s)) (HD : forall s, P (CCData s)) (HO : forall s, P (CComment s)) (HI : forall t d, P (CInstr t d)) : forall c, P c.
Proof.
  fix IH 1. intros [p l attrs w1 kids w2|p l attrs w1|ps s|s|s|t d]; [|apply HM|apply HC|apply HD|apply HO|apply HI].
  apply HE. induction kids as [|k kids IHk]; constructor; [apply IH|exact IHk].
Qed.
Lemma kids_wf kids : fold_right (fun k r => well_formed k /\ r) True kids -> Forall well_formed kids.
Proof. induction kids as [|k kids IH]; intros H; constructor; [exact (proj1 H)|exact (IH (proj2 H))]. Qed.
Inductive lexes (uni : string -> bool) : string -> list token -> string -> Prop :=
| lex_nil s : lexes uni s [] s
| lex_cons s ts r1 ts' r : s <> "" -> next_token uni s = Some (ts, r1) -> (String.length r1 < String.length s)%nat -> lexes uni r1 ts' r -> lexes uni s (ts ++ ts') r.
Lemma lexes_tokens uni s ts r : lexes uni s ts r -> forall fuel, (String.length s < fuel)%nat ->
  exists fuel', (String.length r < fuel')%nat /\ tokens uni fuel s = ts ++ tokens uni fuel' r.
Proof.
  induction 1 as [s|s ts r1 ts' r Hne H HL HR IH]; intros fuel Hf; [exists fuel; split; [exact Hf|reflexivity]|].
  destruct (token_step uni fuel s ts r1 Hne H Hf HL) as (f1 & F1 & E1). destruct (IH f1 F1) as (f2 & F2 & E2). exists f2. split; [exact F2|]. rewrite E1, E2, app_assoc. reflexivity.
Qed.
Lemma lexes_app uni a t1 b t2 c : lexes uni a t1 b -> lexes uni b t2 c -> lexes uni a (t1 ++ t2) c.
Proof. induction 1 as [s|s ts r1 ts' r Hne H HL HR IH]; intros H2; [exact H2|]. rewrite <- app_assoc. exact (lex_cons uni s ts r1 _ c Hne H HL (IH H2)). Qed.
Definition step_over (uni : string -> bool) (s rest : string) (ts : list token) : Prop := lexes uni (s +++ rest) ts rest.
Lemma over_one uni s rest ts : s <> "" -> next_token uni (s +++ rest) = Some (ts, rest) -> step_over uni s rest ts.
Proof.
  intros Hne H. unfold step_over. rewrite <- (app_nil_r ts). apply (lex_cons uni _ ts rest); [destruct s; [contradiction|discriminate]|exact H| |constructor].
  rewrite sapp_length. destruct s; [contradiction|cbn; lia].
Qed.
Lemma over_nil uni rest : step_over uni "" rest [].
Proof. constructor. Qed.
Lemma over_app uni a b rest t1 t2 : step_over uni a (b +++ rest) t1 -> step_over uni b rest t2 -> step_over uni (a +++ b) rest (t1 ++ t2).
Proof. unfold step_over. rewrite sapp_assoc. apply lexes_app. Qed.
Lemma show_opens c : well_formed c -> is_chars c = false -> exists r, show c = String "<" r.
Proof. destruct c; cbn [is_chars]; intros _ H; try discriminate H; eexists; reflexivity. Qed.
Lemma over_doc uni c : well_formed c -> forall rest, (is_chars c = true -> opens rest) -> step_over uni (show c) rest (toks c).
Proof.
  induction c as [p l attrs w1 kids w2 IH|p l attrs w1|ps s|s|s|t d] using cst_ind'; intros HW rest HO.
  - cbn [well_formed] in HW. destruct HW as (W1 & _ & _ & W2 & W3 & W4 & W5 & W6). apply kids_wf in W5. cbn [show toks].
    change (fold_right (fun k r => show k +++ r) "" kids) with (show_all kids).
    assert (K : forall rest', opens rest' -> step_over uni (show_all kids) rest' (flat_map toks kids)).
    { clear - IH W5 W6. induction kids as [|k kids IHk]; intros rest' HO'; [apply over_nil|]. apply Forall_cons_iff in IH as [I1 I2], W5 as [F1 F2].
      cbn [show_all fold_right flat_map]. fold (show_all kids).
      assert (A : apart kids = true) by (cbn [apart] in W6; destruct kids; [reflexivity|apply andb_true_iff in W6 as [_ W6]; exact W6]).
      apply over_app; [|exact (IHk I2 F2 A rest' HO')]. apply I1; [exact F1|]. intros Hk. destruct kids as [|k2 kids]; [exact HO'|].
      cbn [apart] in W6. apply andb_true_iff in W6 as [W6 _]. rewrite Hk in W6. cbn [andb] in W6. apply negb_true_iff in W6.
      apply Forall_cons_iff in F2 as [F2 _]. destruct (show_opens k2 F2 W6) as (r & E). cbn [show_all fold_right]. fold (show_all kids). rewrite E. eexists. reflexivity. }
    replace ("<" +++ qname p l +++ show_attrs attrs +++ w1 +++ ">" +++ show_all kids +++ "</" +++ qname p l +++ w2 +++ ">")
      with (("<" +++ qname p l +++ show_attrs attrs +++ w1 +++ ">") +++ show_all kids +++ ("</" +++ qname p l +++ w2 +++ ">")) by (rewrite !sapp_assoc; reflexivity).
    change (KStart (p, l) (map raw_attr attrs) :: flat_map toks kids ++ [KEnd (p, l)]) with ([KStart (p, l) (map raw_attr attrs)] ++ flat_map toks kids ++ [KEnd (p, l)]).
    apply over_app; [|apply over_app].
    + apply over_one; [discriminate|]. rewrite !sapp_assoc. exact (start_read uni p l attrs w1 false _ W1 W2 W3).
    + apply K. rewrite !sapp_assoc. eexists. reflexivity.
    + apply over_one; [discriminate|]. rewrite !sapp_assoc. exact (end_read uni p l w2 rest W1 W4).
  - cbn [well_formed] in HW. destruct HW as (W1 & _ & _ & W2 & W3). cbn [show toks]. apply over_one; [discriminate|]. rewrite !sapp_assoc. exact (start_read uni p l attrs w1 true rest W1 W2 W3).
  - destruct HW as (W1 & W2). cbn [show toks]. apply over_one; [destruct ps as [|[c|a] ps]; [contradiction|discriminate|discriminate]|]. exact (chars_token uni ps s rest W1 W2 (HO eq_refl)).
  - destruct HW as (W1 & W2 & W3). cbn [show toks]. apply over_one; [discriminate|]. rewrite !sapp_assoc. exact (cdata_token uni s rest W1 W2 W3).
  - cbn [show toks]. apply over_one; [discriminate|]. rewrite !sapp_assoc. exact (comment_token uni s rest HW).
  - destruct HW as (W1 & W2 & W3 & W4). cbn [show toks]. apply over_one; [discriminate|]. rewrite !sapp_assoc. apply instr_token; [exact W1| |exact W3|exact W4].
    unfold decl_ok. destruct (String.eqb_spec t "xml"); [contradiction|reflexivity].
Qed.

(** ** Elements *)
Lemma find_ns p env : ns_find p env = match find (fun x => String.eqb p (fst x)) env with Some x => Some (snd x) | None => None end.
Proof. induction env as [|[q u] env IH]; [reflexivity|]. cbn [ns_find find fst snd]. destruct (String.eqb p q); [reflexivity|exact IH]. Qed.
Lemma declared_spec attrs : rev (declared (map raw_attr attrs)) = declares attrs.
Proof. unfold declared, declares. f_equal. induction attrs as [|a attrs IH]; [reflexivity|]. cbn [map flat_map]. rewrite IH. reflexivity. Qed.
Lemma translate_elem env p l : p <> "xmlns" -> l <> "xmlns" -> translate env true (p, l) = (namespace env p, l).
Proof.
  intros Hp Hl. unfold translate, namespace. cbn [fst snd negb]. rewrite andb_false_r.
  destruct (String.eqb_spec p "xmlns"); [contradiction|]. destruct (String.eqb_spec p "xml"); [reflexivity|].
  destruct (String.eqb_spec l "xmlns"); [contradiction|]. rewrite andb_false_r. rewrite find_ns. destruct (find (fun x => String.eqb p (fst x)) env); reflexivity.
Qed.
Lemma translate_attr env a : tr_attr env (raw_attr a) = attr_of env a.
Proof.
  unfold tr_attr, raw_attr, attr_of, translate, namespace. cbn [fst snd negb]. rewrite andb_true_r.
  destruct (String.eqb_spec (a_prefix a) "xmlns") as [->|Hx]; [reflexivity|]. destruct (String.eqb_spec (a_prefix a) "") as [->|He]; [reflexivity|]. cbn [orb].
  destruct (String.eqb_spec (a_prefix a) "xml"); [reflexivity|]. cbn [andb]. rewrite find_ns. destruct (find (fun x => String.eqb (a_prefix a) (fst x)) env); reflexivity.
Qed.
Lemma name_eqb_refl n : name_eqb n n = true.
Proof. unfold name_eqb. rewrite !String.eqb_refl. reflexivity. Qed.
Definition grown (xs : list xml) (f : frame) : frame := MkFrame (fr_name f) (fr_attrs f) (rev xs ++ fr_kids f) (fr_env f).
Lemma grown_app a b f : grown b (grown a f) = grown (a ++ b) f.
Proof. unfold grown. cbn [fr_name fr_attrs fr_kids fr_env]. rewrite rev_app_distr, app_assoc. reflexivity. Qed.
Lemma build_doc c : well_formed c -> forall r env f stk, build (toks c ++ r) env (f :: stk) = build r env (grown (tree env c) f :: stk).
Proof.
  induction c as [p l attrs w1 kids w2 IH|p l attrs w1|ps s|s|s|t d] using cst_ind'; intros HW r env f stk; try (destruct f; reflexivity).
  - cbn [well_formed] in HW. destruct HW as (_ & W1 & W2 & _ & _ & _ & W5 & _). apply kids_wf in W5.
    assert (K : forall r env f stk, build (flat_map toks kids ++ r) env (f :: stk) = build r env (grown (flat_map (tree env) kids) f :: stk)).
    { clear - IH W5. induction kids as [|k kids IHk]; intros r env f stk; [destruct f; reflexivity|]. apply Forall_cons_iff in IH as [I1 I2], W5 as [F1 F2].
      cbn [flat_map]. rewrite <- app_assoc, (I1 F1), (IHk I2 F2), grown_app. reflexivity. }
    cbn [toks app build]. rewrite declared_spec, <- app_assoc, K. cbn [app build]. rewrite (translate_elem _ p l W1 W2).
    cbn [grown fr_name fr_attrs fr_kids fr_env]. rewrite name_eqb_refl, app_nil_r, rev_involutive, map_map. cbn [add_kid fst snd tree].
    rewrite (map_ext _ _ (translate_attr _)). reflexivity.
  - destruct HW as (_ & W1 & W2 & _ & _). cbn [toks app build]. rewrite declared_spec, (translate_elem _ p l W1 W2). cbn [fr_name fr_attrs fr_kids fr_env]. rewrite name_eqb_refl, map_map.
    cbn [add_kid fst snd tree rev]. rewrite (map_ext _ _ (translate_attr _)). reflexivity.
Qed.
Lemma build_root c r : well_formed c -> is_elem c = true -> exists x, tree [] c = [x] /\ build (toks c ++ r) [] [] = Some x.
Proof.
  destruct c as [p l attrs w1 kids w2|p l attrs w1|ps s|s|s|t d]; intros HW HE; try discriminate HE; (eexists; split; [reflexivity|]).
  - cbn [well_formed] in HW. destruct HW as (_ & W1 & W2 & _ & _ & _ & W5 & _). apply kids_wf in W5.
    assert (K : forall r env f stk, build (flat_map toks kids ++ r) env (f :: stk) = build r env (grown (flat_map (tree env) kids) f :: stk)).
    { clear - W5. induction kids as [|k kids IHk]; intros r env f stk; [destruct f; reflexivity|]. apply Forall_cons_iff in W5 as [F1 F2].
      cbn [flat_map]. rewrite <- app_assoc, (build_doc k F1), (IHk F2), grown_app. reflexivity. }
    cbn [toks app build]. rewrite declared_spec, <- app_assoc, K. cbn [app build]. rewrite (translate_elem _ p l W1 W2).
    cbn [grown fr_name fr_attrs fr_kids fr_env]. rewrite name_eqb_refl, !app_nil_r, rev_involutive, map_map. cbn [fst snd].
    rewrite (map_ext _ _ (translate_attr _)). reflexivity.
  - destruct HW as (_ & W1 & W2 & _ & _). cbn [toks app build]. rewrite declared_spec, (translate_elem _ p l W1 W2). cbn [fr_name fr_attrs fr_kids fr_env]. rewrite name_eqb_refl, map_map.
    cbn [fst snd rev]. rewrite (map_ext _ _ (translate_attr _)). reflexivity.
Qed.
