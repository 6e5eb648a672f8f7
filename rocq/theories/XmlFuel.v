(** The tokenizer always takes bytes, so the fuel of [tokens] and [read_attrs] is enough for every input: it never causes an error. *)
From Verif Require Import GoBase Utf8 Json Float64 Xml SpecXmlText XmlText XmlSyntax SpecXml XmlSyntaxProofs XmlCut.
Open Scope string_scope.
Open Scope list_scope.
Local Notation len := String.length.

Lemma skip_len s : (len (skip_space s) <= len s)%nat.
Proof. induction s as [|c s IH]; cbn [skip_space len]; [lia|]. destruct (xml_space c); cbn [len]; lia. Qed.
Lemma span_len s : (len (fst (span_name s)) + len (snd (span_name s)) = len s)%nat.
Proof. induction s as [|c s IH]; cbn [span_name]; [reflexivity|]. destruct (name_byte c); [|reflexivity]. destruct (span_name s) as [n q]. cbn [fst snd len] in *. lia. Qed.
Lemma name_len uni s n r : read_name uni s = Some (n, r) -> (len r < len s)%nat.
Proof.
  unfold read_name. pose proof (span_len s) as L. destruct (span_name s) as [m q]. cbn [fst snd] in L. destruct q as [|c q]; [discriminate|]. destruct m as [|d m]; [discriminate|].
  destruct (is_name uni (String d m)); [|discriminate]. intros H. injection H as _ <-. cbn [len] in *. lia.
Qed.
Lemma nsname_len uni s n r : read_nsname uni s = Some (n, r) -> (len r < len s)%nat.
Proof. unfold read_nsname. destruct (read_name uni s) as [[m q]|] eqn:E; [|discriminate]. intros H. injection H as _ <-. exact (name_len uni s m q E). Qed.
Lemma ahead_some t o u r : ahead t o = Some (u, r) -> exists v, o = Some (v, r).
Proof. destruct o as [[v q]|]; [|discriminate]. intros H. injection H as _ <-. exists v. reflexivity. Qed.
Lemma checked_some o u r : checked o = Some (u, r) -> o = Some (u, r).
Proof. destruct o as [[v q]|]; [|discriminate]. cbn [checked]. destruct (String.eqb (xml_clean v) v); [exact (fun H => H)|discriminate]. Qed.
Lemma text_len q s : forall st t r, text q st s = Some (t, r) -> (len r <= len s)%nat.
Proof.
  induction s as [|b s IH]; intros st t r H.
  - destruct q, st; try discriminate H. injection H as _ <-. lia.
  - cbn [text] in H. cbn [len]. destruct st as [b0 b1|a].
    + destruct (_ && _ && _)%bool; [discriminate H|]. destruct (N.eqb (code b) 60). { destruct q; [discriminate H|]. injection H as _ <-. cbn [len]. lia. }
      destruct (match q with Some c => Ascii.eqb b c | None => false end). { injection H as _ <-. lia. }
      destruct (N.eqb (code b) 38). { apply IH in H. lia. }
      destruct (N.eqb (code b) 13). { apply ahead_some in H as (v & H). apply IH in H. lia. }
      destruct (_ && _)%bool. { apply IH in H. lia. } apply ahead_some in H as (v & H). apply IH in H. lia.
    + destruct (N.eqb (code b) 59); [|apply IH in H; lia]. destruct (char_ref a); [|discriminate H]. apply ahead_some in H as (v & H). apply IH in H. lia.
Qed.
Lemma text_first b s t r : N.eqb (code b) 60 = false -> text None (TIn (chr 0) (chr 0)) (String b s) = Some (t, r) -> (len r < len (String b s))%nat.
Proof.
  intros Hb H. cbn [text] in H. cbn [len]. destruct (_ && _ && _)%bool; [discriminate H|]. rewrite Hb in H.
  destruct (N.eqb (code b) 38). { apply text_len in H. lia. }
  destruct (N.eqb (code b) 13). { apply ahead_some in H as (v & H). apply text_len in H. lia. }
  destruct (_ && _)%bool. { apply text_len in H. lia. } apply ahead_some in H as (v & H). apply text_len in H. lia.
Qed.
Lemma cdata_len s : forall b1 t r, cdata b1 s = Some (t, r) -> (len r <= len s)%nat.
Proof.
  induction s as [|b s IH]; intros b1 t r H; [discriminate H|]. cbn [cdata] in H. cbn [len].
  assert (G : forall b1 t r, (if N.eqb (code b) 13 then ahead (str1 (chr 10)) (cdata b s) else if (N.eqb (code b1) 13 && N.eqb (code b) 10)%bool then cdata b s else ahead (str1 b) (cdata b s)) = Some (t, r) -> (len r <= len s)%nat).
  { clear - IH. intros b1 t r H. destruct (N.eqb (code b) 13). { apply ahead_some in H as (v & H). exact (IH _ _ _ H). } destruct (_ && _)%bool; [exact (IH _ _ _ H)|]. apply ahead_some in H as (v & H). exact (IH _ _ _ H). }
  destruct s as [|c [|d s]]; try (apply G in H; lia). destruct (_ && _ && _)%bool; [|apply G in H; lia]. injection H as _ <-. cbn [len]. lia.
Qed.
Lemma pi_len s : forall t r, until_pi s = Some (t, r) -> (len r <= len s)%nat.
Proof.
  induction s as [|b s IH]; intros t r H; [discriminate H|]. cbn [until_pi] in H. cbn [len]. destruct s as [|c s]; [discriminate H|].
  destruct (_ && _)%bool; [injection H as _ <-; cbn [len]; lia|]. apply ahead_some in H as (v & H). apply IH in H. lia.
Qed.
Lemma comment_len s : forall r, until_comment s = Some r -> (len r <= len s)%nat.
Proof.
  induction s as [|b s IH]; intros r H; [discriminate H|]. cbn [until_comment] in H. cbn [len]. destruct s as [|c s]; [discriminate H|].
  destruct (_ && _)%bool; [|apply IH in H; lia]. destruct s as [|d s]; [discriminate H|]. destruct (N.eqb (code d) 62); [|discriminate H]. injection H as <-. cbn [len]. lia.
Qed.
Lemma directive_len s : forall st r, until_directive st s = Some r -> (len r <= len s)%nat.
Proof.
  induction s as [|b s IH]; intros st r H; [discriminate H|]. cbn [until_directive] in H. cbn [len].
  destruct st as [[q|] [|d]|i d|b0 b1 d]; try (apply IH in H; lia).
  - destruct (N.eqb (code b) 62); [injection H as <-; lia|apply IH in H; lia].
  - destruct (N.eqb _ _); apply IH in H; lia.
  - destruct (_ && _ && _)%bool; apply IH in H; lia.
Qed.
Lemma attrs_fuel uni : forall n s, (len s < n)%nat -> forall m, (len s < m)%nat -> read_attrs uni n s = read_attrs uni m s.
Proof.
  induction n as [|n IH]; intros s Hn [|m] Hm; try lia. cbn [read_attrs]. destruct (skip_space s) as [|b r] eqn:ES; [reflexivity|]. pose proof (skip_len s) as L. rewrite ES in L.
  destruct (N.eqb (code b) 47); [reflexivity|]. destruct (N.eqb (code b) 62); [reflexivity|]. destruct (read_nsname uni (String b r)) as [[nm r1]|] eqn:EN; [|reflexivity]. apply nsname_len in EN.
  pose proof (skip_len r1) as L1. destruct (skip_space r1) as [|e r2]; [reflexivity|]. destruct (N.eqb (code e) 61); [|reflexivity]. pose proof (skip_len r2) as L2. destruct (skip_space r2) as [|q r3]; [reflexivity|].
  destruct (_ || _)%bool; [|reflexivity]. destruct (checked _) as [[v r4]|] eqn:ET; [|reflexivity]. apply checked_some, text_len in ET. cbn [len] in *. rewrite (IH r4 ltac:(lia) m ltac:(lia)). reflexivity.
Qed.
Lemma attrs_len_le uni : forall n s l e r, read_attrs uni n s = Some (l, e, r) -> (len r <= len s)%nat.
Proof.
  induction n as [|n IH]; intros s l e0 r H; [discriminate H|]. cbn [read_attrs] in H. pose proof (skip_len s) as L. destruct (skip_space s) as [|b r0]; [discriminate H|]. cbn [len] in L.
  destruct (N.eqb (code b) 47). { destruct r0 as [|c r']; [discriminate H|]. destruct (N.eqb (code c) 62); [|discriminate H]. injection H as _ _ <-. cbn [len] in L. lia. }
  destruct (N.eqb (code b) 62). { injection H as _ _ <-. lia. }
  destruct (read_nsname uni (String b r0)) as [[nm r1]|] eqn:EN; [|discriminate H]. apply nsname_len in EN. cbn [len] in EN.
  pose proof (skip_len r1) as L1. destruct (skip_space r1) as [|e r2]; [discriminate H|]. destruct (N.eqb (code e) 61); [|discriminate H]. pose proof (skip_len r2) as L2. destruct (skip_space r2) as [|q r3]; [discriminate H|].
  destruct (_ || _)%bool; [|discriminate H]. destruct (checked _) as [[v r4]|] eqn:ET; [|discriminate H]. apply checked_some, text_len in ET.
  destruct (read_attrs uni n r4) as [[[l' e'] r5]|] eqn:EA; [|discriminate H]. injection H as _ _ <-. apply IH in EA. cbn [len] in *. lia.
Qed.
Lemma substring_len n : forall m s, (len (substring n m s) <= len s)%nat.
Proof.
  induction n as [|n IHn].
  - induction m as [|m IHm]; intros [|c s]; cbn [substring len]; try lia. specialize (IHm s). lia.
  - intros m [|c s]; cbn [substring len]; [destruct m; cbn; lia|]. specialize (IHn m s). lia.
Qed.
Lemma token_len uni s ts r : next_token uni s = Some (ts, r) -> (len r < len s)%nat.
Proof.
  destruct s as [|l s]; [discriminate|]. unfold next_token. destruct (N.eqb (code l) 60) eqn:EL; cbn [negb].
  2:{ destruct (checked _) as [[t r']|] eqn:ET; [|discriminate]. intros H. injection H as _ <-. apply checked_some in ET. exact (text_first l s t r' EL ET). }
  destruct s as [|b s]; [discriminate|]. cbn [len]. destruct (N.eqb (code b) 47).
  { destruct (read_nsname uni s) as [[n r2]|] eqn:EN; [|discriminate]. apply nsname_len in EN. pose proof (skip_len r2) as L. destruct (skip_space r2) as [|c r3]; [discriminate|]. cbn [len] in L.
    destruct (N.eqb (code c) 62); [|discriminate]. intros H. injection H as _ <-. lia. }
  destruct (N.eqb (code b) 63).
  { destruct (read_name uni s) as [[n r2]|] eqn:EN; [|discriminate]. apply name_len in EN. pose proof (skip_len r2) as L. destruct (until_pi (skip_space r2)) as [[data r3]|] eqn:EP; [|discriminate].
    destruct (decl_ok n data); [|discriminate]. intros H. injection H as _ <-. apply pi_len in EP. lia. }
  destruct (N.eqb (code b) 33).
  { destruct s as [|c s]; [discriminate|]. cbn [len]. destruct (N.eqb (code c) 45).
    { destruct s as [|d s]; [discriminate|]. destruct (N.eqb (code d) 45); [|discriminate]. destruct (until_comment s) as [r4|] eqn:EC; [|discriminate]. intros H. injection H as _ <-. apply comment_len in EC. cbn [len]. lia. }
    destruct (N.eqb (code c) 91).
    { destruct (String.prefix "CDATA[" s); [|discriminate]. destruct (checked _) as [[t r3]|] eqn:EC; [|discriminate]. intros H. injection H as _ <-. apply checked_some, cdata_len in EC.
      pose proof (substring_len 6 (len s - 6) s). lia. }
    destruct (until_directive (DIn None 0) s) as [r3|] eqn:EC; [|discriminate]. intros H. injection H as _ <-. apply directive_len in EC. lia. }
  destruct (read_nsname uni (String b s)) as [[n r2]|] eqn:EN; [|discriminate]. apply nsname_len in EN. destruct (read_attrs uni (S (len r2)) r2) as [[[a e] r3]|] eqn:EA; [|discriminate].
  intros H. injection H as _ <-. apply attrs_len_le in EA. cbn [len] in EN. lia.
Qed.
Lemma tokens_fuel uni : forall n s m, (len s < n)%nat -> (len s < m)%nat -> tokens uni n s = tokens uni m s.
Proof.
  induction n as [|n IH]; intros s [|m] Hn Hm; try lia. cbn [tokens]. destruct s as [|c s]; [reflexivity|]. destruct (next_token uni (String c s)) as [[ts r]|] eqn:E; [|reflexivity].
  apply token_len in E. rewrite (IH r m) by lia. reflexivity.
Qed.
