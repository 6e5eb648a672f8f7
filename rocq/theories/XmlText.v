(** Proofs about the characters the SOAP side writes. *)
From Coq Require Import Arith ZifyBool.
From Verif Require Import GoBase Utf8 Json JsonProofs Xml SpecXmlText.
From Coq Require Import Lia.
Ltac Zify.zify_post_hook ::= Z.div_mod_to_equations.
Open Scope string_scope.
Open Scope list_scope.

Lemma chr_code c : chr (code c) = c.
Proof. unfold chr, code. apply ascii_N_embedding. Qed.

(** The rune of each valid sequence. *)
Lemma enc1 a : (code a <? 128)%N = true -> utf8_encode (code a) = str1 a.
Proof. intros H. unfold utf8_encode. rewrite H, chr_code. reflexivity. Qed.
Lemma enc2 a b : between 194 223 a = true -> between 128 191 b = true ->
  utf8_encode ((code a - 192) * 64 + (code b - 128)) = String a (str1 b).
Proof.
  rewrite !between_spec. intros HA HB. unfold utf8_encode.
  destruct (_ <? 128)%N eqn:E1; [lia|]. destruct (_ <? 2048)%N eqn:E2; [|lia].
  f_equal; [|f_equal]; etransitivity; [|apply chr_code| |apply chr_code]; f_equal; lia.
Qed.
Lemma size3 a b c : utf8_size (String a (String b (String c ""))) = 3%nat ->
  (224 <= code a <= 239 /\ 128 <= code b <= 191 /\ 128 <= code c <= 191)%N /\
  (code a = 224 -> 160 <= code b)%N /\ (code a = 237 -> code b <= 159)%N.
Proof.
  unfold utf8_size. intros H.
  destruct (code a <? 128)%N; [discriminate|]. destruct (between 194 223 a); [destruct (between 128 191 b); discriminate|].
  destruct (between 224 239 a) eqn:E; [|destruct (between 240 244 a); discriminate].
  rewrite between_spec in E.
  destruct (between _ _ b && between 128 191 c) eqn:B; [|discriminate].
  apply andb_true_iff in B. rewrite !between_spec in B. destruct (code a =? 224)%N eqn:X, (code a =? 237)%N eqn:Y; lia.
Qed.
Lemma enc3 a b c : utf8_size (String a (String b (String c ""))) = 3%nat ->
  utf8_encode ((code a - 224) * 4096 + (code b - 128) * 64 + (code c - 128)) = String a (String b (str1 c)).
Proof.
  intros H. apply size3 in H. destruct H as (H1 & H2 & H3). unfold utf8_encode.
  destruct (_ <? 128)%N eqn:E1; [lia|]. destruct (_ <? 2048)%N eqn:E2; [lia|]. destruct (_ <? 65536)%N eqn:E3; [|lia].
  f_equal; [|f_equal; [|f_equal]]; etransitivity; [|apply chr_code| |apply chr_code| |apply chr_code]; f_equal; lia.
Qed.
Lemma size4 a b c d : utf8_size (String a (String b (String c (String d "")))) = 4%nat ->
  (240 <= code a <= 244 /\ 128 <= code b <= 191 /\ 128 <= code c <= 191 /\ 128 <= code d <= 191)%N /\
  (code a = 240 -> 144 <= code b)%N /\ (code a = 244 -> code b <= 143)%N.
Proof.
  unfold utf8_size. intros H.
  destruct (code a <? 128)%N; [discriminate|]. destruct (between 194 223 a); [destruct (between 128 191 b); discriminate|].
  destruct (between 224 239 a); [destruct (between _ _ b && between 128 191 c); discriminate|].
  destruct (between 240 244 a) eqn:E; [|discriminate].
  rewrite between_spec in E.
  destruct (between _ _ b && between 128 191 c && between 128 191 d) eqn:B; [|discriminate].
  rewrite !andb_true_iff in B. rewrite !between_spec in B. destruct (code a =? 240)%N eqn:X, (code a =? 244)%N eqn:Y; lia.
Qed.
Lemma enc4 a b c d : utf8_size (String a (String b (String c (String d "")))) = 4%nat ->
  utf8_encode ((code a - 240) * 262144 + (code b - 128) * 4096 + (code c - 128) * 64 + (code d - 128)) =
  String a (String b (String c (str1 d))).
Proof.
  intros H. apply size4 in H. destruct H as (H1 & H2 & H3). unfold utf8_encode.
  destruct (_ <? 128)%N eqn:E1; [lia|]. destruct (_ <? 2048)%N eqn:E2; [lia|]. destruct (_ <? 65536)%N eqn:E3; [lia|].
  f_equal; [|f_equal; [|f_equal; [|f_equal]]]; (etransitivity; [|apply chr_code]); f_equal; lia.
Qed.

Lemma xml_text_cons n s : xml_char n -> xml_text s -> xml_text (utf8_encode n +++ s).
Proof. intros H (ns & F & ->). exists (n :: ns). split; [constructor; auto|reflexivity]. Qed.
Lemma xml_text_nil : xml_text "".
Proof. exists []. split; [constructor|reflexivity]. Qed.

Lemma clean_1 a r : utf8_size (String a r) = 1%nat ->
  xml_clean (String a r) = if xml_ctl a then fffd +++ xml_clean r else String a (xml_clean r).
Proof. intros H. cbn [xml_clean]. rewrite H. reflexivity. Qed.
Lemma clean_2 a b r : utf8_size (String a (String b r)) = 2%nat ->
  xml_clean (String a (String b r)) = String a (String b (xml_clean r)).
Proof. intros H. cbn [xml_clean]. rewrite H. reflexivity. Qed.
Lemma clean_3 a b c r : utf8_size (String a (String b (String c r))) = 3%nat ->
  xml_clean (String a (String b (String c r))) =
  if xml_bad3 a b c then fffd +++ xml_clean r else String a (String b (String c (xml_clean r))).
Proof. intros H. cbn [xml_clean]. rewrite H. reflexivity. Qed.
Lemma clean_4 a b c d r : utf8_size (String a (String b (String c (String d r)))) = 4%nat ->
  xml_clean (String a (String b (String c (String d r)))) = String a (String b (String c (String d (xml_clean r)))).
Proof. intros H. cbn [xml_clean]. rewrite H. reflexivity. Qed.
Lemma clean_0 a r : utf8_size (String a r) = 0%nat -> xml_clean (String a r) = fffd +++ xml_clean r.
Proof. intros H. cbn [xml_clean]. rewrite H. destruct r; reflexivity. Qed.

Lemma fffd_enc : fffd = utf8_encode 65533.
Proof. reflexivity. Qed.

(** Whatever the string, what is written is XML text. *)
Theorem clean_text s : xml_text (xml_clean s).
Proof.
  assert (FF : forall t, xml_text t -> xml_text (fffd +++ t)).
  { intros t H. rewrite fffd_enc. apply xml_text_cons; [unfold xml_char; lia|exact H]. }
  induction s as [s IH] using str_len_ind.
  destruct (uview_all s) as [|a r L Z|a b r A B Z|a b c r A B C Z|a b c d r A B C D Z|a r L Z].
  - exact xml_text_nil.
  - rewrite clean_1 by exact Z. assert (I : xml_text (xml_clean r)) by (apply IH; cbn [String.length]; lia).
    unfold xml_ctl. destruct (_ && negb (N.eqb (code a) 13))%bool eqn:X; [apply FF, I|].
    change (String a (xml_clean r)) with (str1 a +++ xml_clean r). rewrite <- enc1 by exact L.
    apply xml_text_cons; [|exact I]. unfold xml_char. lia.
  - rewrite clean_2 by apply Z. assert (I : xml_text (xml_clean r)) by (apply IH; cbn [String.length]; lia).
    change (String a (String b (xml_clean r))) with (String a (str1 b) +++ xml_clean r). rewrite <- enc2 by assumption.
    apply xml_text_cons; [|exact I]. apply between_spec in A. apply between_spec in B. unfold xml_char. lia.
  - rewrite clean_3 by apply Z. assert (I : xml_text (xml_clean r)) by (apply IH; cbn [String.length]; lia).
    unfold xml_bad3. destruct (N.eqb (code a) 239 && N.eqb (code b) 191 && _)%bool eqn:X; [apply FF, I|].
    change (String a (String b (String c (xml_clean r)))) with (String a (String b (str1 c)) +++ xml_clean r).
    rewrite <- enc3 by apply Z. apply xml_text_cons; [|exact I].
    pose proof (size3 a b c (Z "")) as (S1 & S2 & S3). unfold xml_char. lia.
  - rewrite clean_4 by apply Z. assert (I : xml_text (xml_clean r)) by (apply IH; cbn [String.length]; lia).
    change (String a (String b (String c (String d (xml_clean r))))) with (String a (String b (String c (str1 d))) +++ xml_clean r).
    rewrite <- enc4 by apply Z. apply xml_text_cons; [|exact I].
    pose proof (size4 a b c d (Z "")) as (S1 & S2 & S3). unfold xml_char. lia.
  - rewrite clean_0 by exact Z. apply FF, IH. cbn [String.length]. lia.
Qed.

(** XML text is written as it is. *)
Lemma clean_enc n s : xml_char n -> xml_clean (utf8_encode n +++ s) = utf8_encode n +++ xml_clean s.
Proof.
  intros H. unfold xml_char in H. unfold utf8_encode.
  destruct (n <? 128)%N eqn:E1.
  { cbn [String.append str1]. rewrite clean_1 by (apply size1_lt; rewrite code_chr; lia).
    unfold xml_ctl. rewrite code_chr by lia.
    destruct (N.ltb n 32 && negb (N.eqb n 9) && negb (N.eqb n 10) && negb (N.eqb n 13))%bool eqn:X; [lia|reflexivity]. }
  destruct (n <? 2048)%N eqn:E2.
  { cbn [String.append str1]. apply clean_2. unfold utf8_size, between. rewrite !code_chr by lia.
    destruct (192 + n / 64 <? 128)%N eqn:?; [lia|].
    destruct ((194 <=? 192 + n / 64) && (192 + n / 64 <=? 223))%N eqn:?; [|lia].
    destruct ((128 <=? 128 + n mod 64) && (128 + n mod 64 <=? 191))%N eqn:?; [|lia]. reflexivity. }
  destruct (n <? 65536)%N eqn:E3.
  { cbn [String.append str1]. rewrite clean_3.
    - unfold xml_bad3. rewrite !code_chr by lia.
      match goal with |- (if ?b then _ else _) = _ => destruct b eqn:X; [exfalso; lia|reflexivity] end.
    - unfold utf8_size, between. rewrite !code_chr by lia.
      destruct (224 + n / 4096 <? 128)%N eqn:?; [lia|].
      destruct ((194 <=? 224 + n / 4096) && (224 + n / 4096 <=? 223))%N eqn:?; [lia|].
      destruct ((224 <=? 224 + n / 4096) && (224 + n / 4096 <=? 239))%N eqn:?; [|lia].
      destruct (224 + n / 4096 =? 224)%N eqn:?; destruct (224 + n / 4096 =? 237)%N eqn:?; cbv iota;
      match goal with |- (if ?b then _ else _) = _ => destruct b eqn:?; [reflexivity|exfalso; lia] end. }
  cbn [String.append str1]. apply clean_4. unfold utf8_size, between. rewrite !code_chr by lia.
  destruct (240 + n / 262144 <? 128)%N eqn:?; [lia|].
  destruct ((194 <=? 240 + n / 262144) && (240 + n / 262144 <=? 223))%N eqn:?; [lia|].
  destruct ((224 <=? 240 + n / 262144) && (240 + n / 262144 <=? 239))%N eqn:?; [lia|].
  destruct ((240 <=? 240 + n / 262144) && (240 + n / 262144 <=? 244))%N eqn:?; [|lia].
  destruct (240 + n / 262144 =? 240)%N eqn:?; destruct (240 + n / 262144 =? 244)%N eqn:?; cbv iota;
  match goal with |- (if ?b then _ else _) = _ => destruct b eqn:?; [reflexivity|exfalso; lia] end.
Qed.
Theorem clean_id s : xml_text s <-> xml_clean s = s.
Proof.
  split; [|intros <-; apply clean_text].
  intros (ns & F & ->). induction F as [|n ns H F IH]; [reflexivity|].
  cbn [utf8_text fold_right]. fold (utf8_text ns). rewrite clean_enc by exact H. f_equal. exact IH.
Qed.
