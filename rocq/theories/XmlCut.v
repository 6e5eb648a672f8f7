(** Documents with what precedes the root; documents that are cut off. *)
From Verif Require Import GoBase Utf8 Json Float64 Xml SpecXmlText XmlText XmlSyntax SpecXml XmlSyntaxProofs.
Open Scope string_scope.
Open Scope list_scope.

(** ** The reader, with what it leaves unread *)
Inductive fed := FDone (x : xml) | FMore (env : list (string * string)) (stk : list frame) | FErr.
Fixpoint feed (ts : list token) (env : list (string * string)) (stk : list frame) : fed :=
  match ts with
  | [] => FMore env stk
  | KStart n attrs :: r =>
    let env' := rev (declared attrs) ++ env in
    feed r env' (MkFrame (translate env' true n) (map (tr_attr env') attrs) [] env :: stk)
  | KEnd n :: r =>
    match stk with
    | [] => FErr
    | f :: stk' =>
      if name_eqb (translate env true n) (fr_name f) then
        let x := XE (fst (fr_name f)) (snd (fr_name f)) (fr_attrs f) (rev (fr_kids f)) in
        match stk' with [] => FDone x | _ => feed r (fr_env f) (add_kid x stk') end
      else FErr
    end
  | KText s :: r => feed r env (add_kid (XT s) stk)
  | KOther :: r => feed r env stk
  | KErr :: _ => FErr
  | KEof :: _ => FErr
  end.
Fixpoint run (uni : string -> bool) (fuel : nat) (s : string) (env : list (string * string)) (stk : list frame) : option (xml * string) :=
  match fuel with
  | O => None
  | S f => match s with
           | EmptyString => None
           | _ => match next_token uni s with
                  | None => None
                  | Some (ts, r) => match feed ts env stk with FDone x => Some (x, r) | FMore env' stk' => run uni f r env' stk' | FErr => None end
                  end
           end
  end.
Lemma build_feed ts : forall env stk more, build (ts ++ more) env stk = match feed ts env stk with FDone x => Some x | FMore env' stk' => build more env' stk' | FErr => None end.
Proof.
  induction ts as [|t ts IH]; intros env stk more; [reflexivity|]. destruct t as [n attrs|n|s| | |]; cbn [app build feed]; try apply IH; try reflexivity.
  destruct stk as [|f stk]; [reflexivity|]. destruct (name_eqb _ _); [|reflexivity]. destruct stk; [reflexivity|apply IH].
Qed.
Lemma run_build uni fuel : forall s env stk, build (tokens uni fuel s) env stk = omap fst (run uni fuel s env stk).
Proof.
  induction fuel as [|fuel IH]; intros s env stk; [reflexivity|]. cbn [tokens run]. destruct s as [|c s]; [reflexivity|].
  destruct (next_token uni (String c s)) as [[ts r]|]; [|reflexivity]. rewrite build_feed. destruct (feed ts env stk); [reflexivity|apply IH|reflexivity].
Qed.

(** ** More input behind what was enough *)
Lemma span_more s q : forall n c r, span_name s = (n, String c r) -> span_name (s +++ q) = (n, String c (r +++ q)).
Proof.
  induction s as [|d s IH]; intros n c r H; [discriminate H|]. cbn [String.append span_name] in *. destruct (name_byte d).
  - destruct (span_name s) as [n' s'] eqn:E. injection H as <- ->. rewrite (IH _ _ _ eq_refl). reflexivity.
  - injection H as <- <- <-. reflexivity.
Qed.
Lemma name_more uni s q n r : read_name uni s = Some (n, r) -> read_name uni (s +++ q) = Some (n, r +++ q).
Proof.
  unfold read_name. destruct (span_name s) as [n' [|c r']] eqn:E; [discriminate|]. rewrite (span_more s q _ _ _ E). destruct (is_name uni n'); [|discriminate]. intros H. injection H as <- <-. reflexivity.
Qed.
Lemma nsname_more uni s q n r : read_nsname uni s = Some (n, r) -> read_nsname uni (s +++ q) = Some (n, r +++ q).
Proof.
  unfold read_nsname. destruct (read_name uni s) as [[n' r']|] eqn:E; [|discriminate]. rewrite (name_more uni s q _ _ E). intros H. injection H as <- <-. reflexivity.
Qed.
Lemma space_more s q c r : skip_space s = String c r -> skip_space (s +++ q) = String c (r +++ q).
Proof. induction s as [|d s IH]; intros H; [discriminate H|]. cbn [String.append skip_space] in *. destruct (xml_space d); [exact (IH H)|]. injection H as <- <-. reflexivity. Qed.
Lemma ahead_some t o u r : ahead t o = Some (u, r) -> exists v, o = Some (v, r) /\ u = t +++ v.
Proof. destruct o as [[v r']|]; [|discriminate]. intros H. injection H as <- <-. eauto. Qed.
Lemma text_more qo q s : forall st t r, text qo st s = Some (t, r) -> (qo = None /\ r = "") \/ text qo st (s +++ q) = Some (t, r +++ q).
Proof.
  induction s as [|b s IH]; intros st t r H.
  - cbn [text] in H. destruct qo, st; try discriminate H. injection H as <- <-. left. split; reflexivity.
  - assert (A : forall u st', ahead u (text qo st' s) = Some (t, r) -> (qo = None /\ r = "") \/ ahead u (text qo st' (s +++ q)) = Some (t, r +++ q)).
    { intros u st' HA. apply ahead_some in HA. destruct HA as (v & HA & ->). destruct (IH _ _ _ HA) as [K|K]; [left; exact K|right; rewrite K; reflexivity]. }
    cbn [String.append text] in *. destruct st as [b0 b1|a].
    + destruct (N.eqb (code b0) 93 && N.eqb (code b1) 93 && N.eqb (code b) 62)%bool; [discriminate H|].
      destruct (N.eqb (code b) 60); [destruct qo; [discriminate H|]; injection H as <- <-; right; reflexivity|].
      destruct (match qo with Some c => Ascii.eqb b c | None => false end); [injection H as <- <-; right; reflexivity|].
      destruct (N.eqb (code b) 38); [exact (IH _ _ _ H)|]. destruct (N.eqb (code b) 13); [exact (A _ _ H)|].
      destruct (N.eqb (code b1) 13 && N.eqb (code b) 10)%bool; [exact (IH _ _ _ H)|exact (A _ _ H)].
    + destruct (N.eqb (code b) 59); [|exact (IH _ _ _ H)]. destruct (char_ref a); [exact (A _ _ H)|discriminate H].
Qed.
Lemma checked_some o t r : checked o = Some (t, r) -> o = Some (t, r) /\ String.eqb (xml_clean t) t = true.
Proof. unfold checked. destruct o as [[u v]|]; [|discriminate]. destruct (String.eqb (xml_clean u) u) eqn:E; [|discriminate]. intros H. injection H as <- <-. split; [reflexivity|exact E]. Qed.
Lemma checked_more o o' t r q : checked o = Some (t, r) -> o' = Some (t, r +++ q) -> checked o' = Some (t, r +++ q).
Proof. intros H ->. apply checked_some in H. destruct H as [_ H]. cbn [checked]. rewrite H. reflexivity. Qed.
Lemma cdata_short b1 c d : cdata b1 (str1 c) = None /\ cdata b1 (String c (str1 d)) = None.
Proof.
  assert (A : forall b1 c, cdata b1 (str1 c) = None) by (intros b c'; cbn; destruct (N.eqb (code c') 13); [reflexivity|]; destruct (N.eqb (code b) 13 && N.eqb (code c') 10)%bool; reflexivity).
  split; [apply A|]. change (cdata b1 (String c (str1 d))) with (if N.eqb (code c) 13 then ahead (str1 (chr 10)) (cdata c (str1 d)) else if (N.eqb (code b1) 13 && N.eqb (code c) 10)%bool then cdata c (str1 d) else ahead (str1 c) (cdata c (str1 d))).
  rewrite A. destruct (N.eqb (code c) 13); [reflexivity|]. destruct (N.eqb (code b1) 13 && N.eqb (code c) 10)%bool; reflexivity.
Qed.
Lemma cdata_more q s : forall b1 t r, cdata b1 s = Some (t, r) -> cdata b1 (s +++ q) = Some (t, r +++ q).
Proof.
  induction s as [|b s IH]; intros b1 t r H; [discriminate H|]. destruct s as [|c [|d s']].
  - pose proof (cdata_short b1 b b) as [K _]. unfold str1 in K. rewrite K in H. discriminate H.
  - pose proof (cdata_short b1 b c) as [_ K]. unfold str1 in K. rewrite K in H. discriminate H.
  - set (s := String c (String d s')) in *.
    assert (G : (if N.eqb (code b) 13 then ahead (str1 (chr 10)) (cdata b s) else if (N.eqb (code b1) 13 && N.eqb (code b) 10)%bool then cdata b s else ahead (str1 b) (cdata b s)) = Some (t, r) ->
                (if N.eqb (code b) 13 then ahead (str1 (chr 10)) (cdata b (s +++ q)) else if (N.eqb (code b1) 13 && N.eqb (code b) 10)%bool then cdata b (s +++ q) else ahead (str1 b) (cdata b (s +++ q))) = Some (t, r +++ q)).
    { destruct (N.eqb (code b) 13); [|destruct (N.eqb (code b1) 13 && N.eqb (code b) 10)%bool]; intros K; try (exact (IH _ _ _ K)); apply ahead_some in K; destruct K as (v & K & ->); rewrite (IH _ _ _ K); reflexivity. }
    assert (E : forall b1' x, cdata b1' (String b (String c (String d x))) = if (N.eqb (code b) 93 && N.eqb (code c) 93 && N.eqb (code d) 62)%bool then Some ("", x) else
        if N.eqb (code b) 13 then ahead (str1 (chr 10)) (cdata b (String c (String d x))) else if (N.eqb (code b1') 13 && N.eqb (code b) 10)%bool then cdata b (String c (String d x)) else ahead (str1 b) (cdata b (String c (String d x)))) by reflexivity.
    change (String b s +++ q) with (String b (String c (String d (s' +++ q)))). unfold s in H. rewrite E in *. change (s +++ q) with (String c (String d (s' +++ q))) in G. unfold s in G.
    destruct (N.eqb (code b) 93 && N.eqb (code c) 93 && N.eqb (code d) 62)%bool; [injection H as <- <-; reflexivity|]. exact (G H).
Qed.

Lemma length_more s q : (String.length s <= String.length (s +++ q))%nat.
Proof. rewrite sapp_length. lia. Qed.
Lemma attrs_more uni q f : forall f' s l e r, (f <= f')%nat -> read_attrs uni f s = Some (l, e, r) -> read_attrs uni f' (s +++ q) = Some (l, e, r +++ q).
Proof.
  induction f as [|f IH]; intros f' s l e r Hf H; [discriminate H|]. destruct f' as [|f']; [lia|]. cbn [read_attrs] in *.
  destruct (skip_space s) as [|b s1] eqn:E1; [discriminate H|]. rewrite (space_more s q _ _ E1).
  destruct (N.eqb (code b) 47).
  { destruct s1 as [|c s2]; [discriminate H|]. cbn [String.append]. destruct (N.eqb (code c) 62); [|discriminate H]. injection H as <- <- <-. reflexivity. }
  destruct (N.eqb (code b) 62); [injection H as <- <- <-; reflexivity|].
  destruct (read_nsname uni (String b s1)) as [[n r1]|] eqn:E2; [|discriminate H].
  apply (nsname_more uni _ q) in E2. cbn [String.append] in E2. rewrite E2.
  destruct (skip_space r1) as [|e1 r2] eqn:E3; [discriminate H|]. rewrite (space_more r1 q _ _ E3). destruct (N.eqb (code e1) 61); [|discriminate H].
  destruct (skip_space r2) as [|q1 r3] eqn:E4; [discriminate H|]. rewrite (space_more r2 q _ _ E4). destruct (N.eqb (code q1) 34 || N.eqb (code q1) 39)%bool; [|discriminate H].
  destruct (checked (text (Some q1) (TIn (chr 0) (chr 0)) r3)) as [[v r4]|] eqn:E5; [|discriminate H].
  pose proof (checked_some _ _ _ E5) as [E6 _]. apply (text_more _ q) in E6. destruct E6 as [[E6 _]|E6]; [discriminate E6|]. rewrite (checked_more _ _ _ _ q E5 E6).
  destruct (read_attrs uni f r4) as [[[l' e'] r5]|] eqn:E7; [|discriminate H]. rewrite (IH f' r4 l' e' r5); [|lia|exact E7]. injection H as <- <- <-. reflexivity.
Qed.
Lemma pi_eq b r : until_pi (String b r) = match r with String c r' => if (N.eqb (code b) 63 && N.eqb (code c) 62)%bool then Some ("", r') else ahead (str1 b) (until_pi r) | EmptyString => ahead (str1 b) (until_pi r) end.
Proof. reflexivity. Qed.
Lemma pi_more q s : forall t r, until_pi s = Some (t, r) -> until_pi (s +++ q) = Some (t, r +++ q).
Proof.
  induction s as [|b s IH]; intros t r H; [discriminate H|]. change (String b s +++ q) with (String b (s +++ q)). rewrite pi_eq in *.
  destruct s as [|c s]; [discriminate H|]. change (String c s +++ q) with (String c (s +++ q)) in *. cbv beta iota in *. destruct (N.eqb (code b) 63 && N.eqb (code c) 62)%bool; [injection H as <- <-; reflexivity|].
  apply ahead_some in H. destruct H as (v & H & ->). rewrite (IH _ _ H). reflexivity.
Qed.
Lemma pi_space_more s q t r : until_pi (skip_space s) = Some (t, r) -> until_pi (skip_space (s +++ q)) = Some (t, r +++ q).
Proof.
  intros H. destruct (skip_space s) as [|c s'] eqn:E; [discriminate H|]. rewrite (space_more s q _ _ E). exact (pi_more q _ _ _ H).
Qed.
Lemma comment_eq b c r : until_comment (String b (String c r)) = if (N.eqb (code b) 45 && N.eqb (code c) 45)%bool then match r with String d r'' => if N.eqb (code d) 62 then Some r'' else None | EmptyString => None end else until_comment (String c r).
Proof. reflexivity. Qed.
Lemma comment_more q s : forall r, until_comment s = Some r -> until_comment (s +++ q) = Some (r +++ q).
Proof.
  induction s as [|b s IH]; intros r H; [discriminate H|]. destruct s as [|c s]; [discriminate H|]. change (String b (String c s) +++ q) with (String b (String c (s +++ q))). rewrite comment_eq in *.
  destruct (N.eqb (code b) 45 && N.eqb (code c) 45)%bool; [|exact (IH r H)]. destruct s as [|d s]; [discriminate H|]. cbn [String.append]. destruct (N.eqb (code d) 62); [injection H as <-; reflexivity|discriminate H].
Qed.
Lemma directive_more q s : forall st r, until_directive st s = Some r -> until_directive st (s +++ q) = Some (r +++ q).
Proof.
  induction s as [|b s IH]; intros st r H; [destruct st as [[c|] [|d]|i d|b0 b1 d]; discriminate H|].
  change (String b s +++ q) with (String b (s +++ q)). destruct st as [[c|] [|d]|i d|b0 b1 d]; cbn [until_directive] in *; try exact (IH _ _ H).
  - destruct (N.eqb (code b) 62); [injection H as <-; reflexivity|exact (IH _ _ H)].
  - destruct (N.eqb (code b) _); exact (IH _ _ H).
  - destruct (N.eqb (code b0) 45 && N.eqb (code b1) 45 && N.eqb (code b) 62)%bool; exact (IH _ _ H).
Qed.
Lemma prefix_app a s q : String.prefix a s = true -> String.prefix a (s +++ q) = true.
Proof.
  revert s. induction a as [|c a IH]; intros s H; [destruct (s +++ q); reflexivity|]. destruct s as [|d s]; [discriminate H|]. cbn [String.append String.prefix] in *. destruct (ascii_dec c d); [exact (IH s H)|discriminate H].
Qed.
Lemma prefix_split a : forall s, String.prefix a s = true -> exists t, s = a +++ t.
Proof.
  induction a as [|c a IH]; intros s H; [exists s; reflexivity|]. destruct s as [|d s]; [discriminate H|]. cbn [String.prefix] in H. destruct (ascii_dec c d) as [->|]; [|discriminate H].
  destruct (IH s H) as (t & ->). exists t. reflexivity.
Qed.
Lemma token_more uni s q ts r : next_token uni s = Some (ts, r) -> (exists t, ts = [KText t] /\ r = "") \/ next_token uni (s +++ q) = Some (ts, r +++ q).
Proof.
  destruct s as [|l s]; [discriminate|]. change (String l s +++ q) with (String l (s +++ q)). unfold next_token.
  destruct (negb (N.eqb (code l) 60)).
  { change (String l (s +++ q)) with (String l s +++ q). destruct (checked (text None (TIn (chr 0) (chr 0)) (String l s))) as [[t r']|] eqn:E; [|discriminate]. intros H. injection H as <- <-.
    pose proof (checked_some _ _ _ E) as [E6 _]. apply (text_more _ q) in E6. destruct E6 as [[_ E6]|E6]; [left; eauto|right]. rewrite (checked_more _ _ _ _ q E E6). reflexivity. }
  intros H. right. destruct s as [|b r1]; [discriminate H|]. change (String b r1 +++ q) with (String b (r1 +++ q)). cbv beta iota.
  destruct (N.eqb (code b) 47).
  { destruct (read_nsname uni r1) as [[n r2]|] eqn:E; [|discriminate H]. rewrite (nsname_more uni r1 q _ _ E). destruct (skip_space r2) as [|c r3] eqn:E2; [discriminate H|]. rewrite (space_more r2 q _ _ E2).
    destruct (N.eqb (code c) 62); [injection H as <- <-; reflexivity|discriminate H]. }
  destruct (N.eqb (code b) 63).
  { destruct (read_name uni r1) as [[n r2]|] eqn:E; [|discriminate H]. rewrite (name_more uni r1 q _ _ E). destruct (until_pi (skip_space r2)) as [[d r3]|] eqn:E2; [|discriminate H].
    rewrite (pi_space_more r2 q _ _ E2). destruct (decl_ok n d); [injection H as <- <-; reflexivity|discriminate H]. }
  destruct (N.eqb (code b) 33).
  { destruct r1 as [|c r2]; [discriminate H|]. change (String c r2 +++ q) with (String c (r2 +++ q)). cbv beta iota. destruct (N.eqb (code c) 45).
    { destruct r2 as [|d r3]; [discriminate H|]. change (String d r3 +++ q) with (String d (r3 +++ q)). cbv beta iota. destruct (N.eqb (code d) 45); [|discriminate H].
      destruct (until_comment r3) as [r4|] eqn:E; [|discriminate H]. rewrite (comment_more q r3 _ E). cbn [omap] in *. injection H as <- <-. reflexivity. }
    destruct (N.eqb (code c) 91).
    { destruct (String.prefix "CDATA[" r2) eqn:EP; [|discriminate H]. rewrite (prefix_app _ _ q EP). destruct (prefix_split _ _ EP) as (t & ->). rewrite sapp_assoc, !drop6 in *.
      destruct (checked (cdata (chr 0) t)) as [[u r3]|] eqn:E; [|discriminate H]. pose proof (checked_some _ _ _ E) as [E6 _]. apply (cdata_more q) in E6. rewrite (checked_more _ _ _ _ q E E6).
      injection H as <- <-. reflexivity. }
    destruct (until_directive (DIn None 0) r2) as [r3|] eqn:E; [|discriminate H]. rewrite (directive_more q _ _ _ E). cbn [omap] in *. injection H as <- <-. reflexivity. }
  change (String b (r1 +++ q)) with (String b r1 +++ q). destruct (read_nsname uni (String b r1)) as [[n r2]|] eqn:E; [|discriminate H]. rewrite (nsname_more uni _ q _ _ E).
  destruct (read_attrs uni (S (String.length r2)) r2) as [[[attrs e] r3]|] eqn:E2; [|discriminate H]. rewrite (attrs_more uni q (S (String.length r2)) (S (String.length (r2 +++ q))) r2 attrs e r3); [|pose proof (length_more r2 q); lia|exact E2].
  injection H as <- <-. reflexivity.
Qed.
Lemma run_more uni q fuel : forall fuel' s env stk x r, (fuel <= fuel')%nat -> run uni fuel s env stk = Some (x, r) -> run uni fuel' (s +++ q) env stk = Some (x, r +++ q).
Proof.
  induction fuel as [|fuel IH]; intros fuel' s env stk x r Hf H; [discriminate H|]. destruct fuel' as [|fuel']; [lia|]. cbn [run] in *. destruct s as [|c s]; [discriminate H|].
  change (String c s +++ q) with (String c (s +++ q)). cbv iota. change (String c (s +++ q)) with (String c s +++ q). destruct (next_token uni (String c s)) as [[ts r1]|] eqn:E; [|discriminate H].
  apply (token_more uni _ q) in E. destruct E as [(t & -> & ->)|E].
  - cbn [feed] in H. destruct fuel; discriminate H.
  - rewrite E. destruct (feed ts env stk) as [y|env' stk'|]; [injection H as <- <-; reflexivity|apply (IH fuel' r1 env' stk' x r); [lia|exact H]|discriminate H].
Qed.

(** ** Whole documents *)
Lemma feed_app a : forall b env stk, feed (a ++ b) env stk = match feed a env stk with FDone x => FDone x | FMore e s => feed b e s | FErr => FErr end.
Proof.
  induction a as [|t a IH]; intros b env stk; [reflexivity|]. destruct t as [n attrs|n|s| | |]; cbn [app feed]; try apply IH; try reflexivity.
  destruct stk as [|f stk]; [reflexivity|]. destruct (name_eqb _ _); [|reflexivity]. destruct stk; [reflexivity|apply IH].
Qed.
Lemma feed_doc c : well_formed c -> forall r env f stk, feed (toks c ++ r) env (f :: stk) = feed r env (grown (tree env c) f :: stk).
Proof.
  induction c as [p l attrs w1 kids w2 IH|p l attrs w1|ps s|s|s|t d] using cst_ind'; intros HW r env f stk; try (destruct f; reflexivity).
  - cbn [well_formed] in HW. destruct HW as (_ & W1 & W2 & _ & _ & _ & W5 & _). apply kids_wf in W5.
    assert (K : forall r env f stk, feed (flat_map toks kids ++ r) env (f :: stk) = feed r env (grown (flat_map (tree env) kids) f :: stk)).
    { clear - IH W5. induction kids as [|k kids IHk]; intros r env f stk; [destruct f; reflexivity|]. apply Forall_cons_iff in IH as [I1 I2], W5 as [F1 F2].
      cbn [flat_map]. rewrite <- app_assoc, (I1 F1), (IHk I2 F2), grown_app. reflexivity. }
    cbn [toks app feed]. rewrite declared_spec, <- app_assoc, K. cbn [app feed]. rewrite (translate_elem _ p l W1 W2).
    cbn [grown fr_name fr_attrs fr_kids fr_env]. rewrite name_eqb_refl, app_nil_r, rev_involutive, map_map. cbn [add_kid fst snd tree].
    rewrite (map_ext _ _ (translate_attr _)). reflexivity.
  - destruct HW as (_ & W1 & W2 & _ & _). cbn [toks app feed]. rewrite declared_spec, (translate_elem _ p l W1 W2). cbn [fr_name fr_attrs fr_kids fr_env]. rewrite name_eqb_refl, map_map.
    cbn [add_kid fst snd tree rev]. rewrite (map_ext _ _ (translate_attr _)). reflexivity.
Qed.
Lemma feed_kids kids : Forall well_formed kids -> forall env f stk, feed (flat_map toks kids) env (f :: stk) = FMore env (grown (flat_map (tree env) kids) f :: stk).
Proof.
  induction 1 as [|k kids H HF IH]; intros env f stk; [destruct f; reflexivity|]. cbn [flat_map]. rewrite (feed_doc k H), IH, grown_app. reflexivity.
Qed.
Lemma run_lexes uni s ts r : lexes uni s ts r -> forall fuel env stk env' stk', (String.length s < fuel)%nat -> feed ts env stk = FMore env' stk' ->
  exists fuel', (String.length r < fuel')%nat /\ run uni fuel s env stk = run uni fuel' r env' stk'.
Proof.
  induction 1 as [s|s ts r1 ts' r Hne H HL HR IH]; intros fuel env stk env' stk' Hf HF.
  - injection HF as <- <-. exists fuel. split; [exact Hf|reflexivity].
  - rewrite feed_app in HF. destruct (feed ts env stk) as [x|e1 s1|] eqn:E; try discriminate HF. destruct fuel as [|fuel]; [lia|].
    destruct (IH fuel e1 s1 env' stk') as (f' & F1 & F2); [lia|exact HF|]. exists f'. split; [exact F1|]. rewrite <- F2. cbn [run]. destruct s as [|c s]; [contradiction|]. rewrite H, E. reflexivity.
Qed.
Lemma over_kids uni kids : Forall well_formed kids -> apart kids = true -> forall rest, (forall k, In k kids -> is_chars k = true -> opens rest) -> step_over uni (show_all kids) rest (flat_map toks kids).
Proof.
  induction 1 as [|k kids H HF IH]; intros W rest HO; [apply over_nil|]. cbn [show_all fold_right flat_map]. fold (show_all kids).
  assert (A : apart kids = true) by (cbn [apart] in W; destruct kids; [reflexivity|apply andb_true_iff in W as [_ W]; exact W]).
  apply over_app; [|apply (IH A rest); intros k' Hk'; apply HO; right; exact Hk']. apply over_doc; [exact H|]. intros Hk. destruct kids as [|k2 kids]; [exact (HO k (or_introl eq_refl) Hk)|].
  cbn [apart] in W. apply andb_true_iff in W as [W _]. rewrite Hk in W. cbn [andb] in W. apply negb_true_iff in W.
  apply Forall_cons_iff in HF as [F2 _]. destruct (show_opens k2 F2 W) as (r & E). cbn [show_all fold_right]. fold (show_all kids). rewrite E. eexists. reflexivity.
Qed.
(** What stands before the root is passed over. *)
Lemma feed_outside l : forallb outside l = true -> feed (flat_map toks l) [] [] = FMore [] [].
Proof.
  induction l as [|k l IH]; intros H; [reflexivity|]. cbn [forallb] in H. apply andb_true_iff in H as [H1 H2]. cbn [flat_map]. rewrite feed_app.
  destruct k; try discriminate H1; cbn [toks feed add_kid]; exact (IH H2).
Qed.
Definition decl_data (q : ascii) (e : option string) : string := "version=" +++ str1 q +++ "1.0" +++ str1 q +++ match e with None => "" | Some e => " encoding=" +++ str1 q +++ e +++ str1 q end.
Fixpoint has_sub (sub s : string) : bool := String.prefix sub s || match s with String _ r => has_sub sub r | EmptyString => false end.
Lemma has_sub_spec sub s : has_sub sub s = false -> without sub s.
Proof.
  induction s as [|c s IH]; intros H a b E; cbn [has_sub] in H; apply orb_false_iff in H as [H1 H2].
  - destruct a; [|discriminate E]. change ("" +++ sub +++ b) with (sub +++ b) in E. destruct sub; [discriminate H1|discriminate E].
  - destruct a as [|d a].
    + change ("" +++ sub +++ b) with (sub +++ b) in E. rewrite E in H1. rewrite (prefix_app sub sub b) in H1; [discriminate H1|]. clear. induction sub as [|c s IH]; [reflexivity|]. cbn [String.prefix]. destruct (ascii_dec c c); [exact IH|contradiction].
    + injection E as <- E. exact (IH H2 _ _ E).
Qed.
Lemma over_decl uni d rest : ok_decl d -> exists ts, step_over uni (show_decl d) rest ts /\ feed ts [] [] = FMore [] [].
Proof.
  destruct d as [[q e]|]; [|intros _; exists []; split; [apply over_nil|reflexivity]]. intros (Hq & He). exists [KOther]. split; [|reflexivity].
  assert (E : show_decl (Some (q, e)) = "<?" +++ "xml" +++ (if String.eqb (decl_data q e) "" then "" else " " +++ decl_data q e) +++ "?>") by (change (if String.eqb (decl_data q e) "" then "" else " " +++ decl_data q e) with (" " +++ decl_data q e); unfold decl_data; cbn [show_decl]; destruct e; destruct Hq as [-> | ->]; cbn [String.append str1]; rewrite ?sapp_assoc; reflexivity).
  rewrite E. apply over_one; [discriminate|]. rewrite !sapp_assoc. apply instr_token; [reflexivity| | |reflexivity].
  - destruct e as [e|]; [destruct He as [-> | ->]|]; destruct Hq as [-> | ->]; reflexivity.
  - apply has_sub_spec. destruct e as [e|]; [destruct He as [-> | ->]|]; destruct Hq as [-> | ->]; reflexivity.
Qed.
(** The root is read, and nothing behind it. *)
Lemma run_root uni c rest fuel : well_formed c -> is_elem c = true -> (String.length (show c +++ rest) < fuel)%nat -> exists x, tree [] c = [x] /\ run uni fuel (show c +++ rest) [] [] = Some (x, rest).
Proof.
  destruct c as [p l attrs w1 kids w2|p l attrs w1|ps s|s|s|t d]; intros HW HE Hf; try discriminate HE; (eexists; split; [reflexivity|]).
  - cbn [well_formed] in HW. destruct HW as (W1 & W2 & W3 & W4 & W5 & W6 & W7 & W8). apply kids_wf in W7. cbn [show] in *. change (fold_right (fun k r => show k +++ r) "" kids) with (show_all kids) in *.
    set (E := "</" +++ qname p l +++ w2 +++ ">" +++ rest).
    assert (L : lexes uni (("<" +++ qname p l +++ show_attrs attrs +++ w1 +++ ">") +++ show_all kids +++ E) ([KStart (p, l) (map raw_attr attrs)] ++ flat_map toks kids) E).
    { apply lexes_app with (show_all kids +++ E).
      - apply over_one; [discriminate|]. rewrite !sapp_assoc. exact (start_read uni p l attrs w1 false _ W1 W4 W5).
      - apply over_kids; [exact W7|exact W8|]. intros _ _ _. eexists. reflexivity. }
    assert (EQ : ("<" +++ qname p l +++ show_attrs attrs +++ w1 +++ ">" +++ show_all kids +++ "</" +++ qname p l +++ w2 +++ ">") +++ rest = ("<" +++ qname p l +++ show_attrs attrs +++ w1 +++ ">") +++ show_all kids +++ E)
      by (unfold E; rewrite !sapp_assoc; reflexivity).
    rewrite EQ in *. destruct (run_lexes uni _ _ _ L fuel [] [] (rev (declared (map raw_attr attrs)) ++ [])
      [grown (flat_map (tree (rev (declared (map raw_attr attrs)) ++ [])) kids) (MkFrame (translate (rev (declared (map raw_attr attrs)) ++ []) true (p, l)) (map (tr_attr (rev (declared (map raw_attr attrs)) ++ [])) (map raw_attr attrs)) [] [])]) as (f & F1 & F2).
    + exact Hf.
    + cbn [app feed]. apply feed_kids. exact W7.
    + rewrite F2. destruct f as [|f]; [lia|]. cbn [run]. unfold E at 1. cbn [String.append]. pose proof (end_read uni p l w2 rest W1 W6) as R. fold E in R. cbv iota. rewrite R. cbn [feed].
      cbn [grown fr_name fr_attrs fr_kids fr_env]. rewrite name_eqb_refl, (translate_elem _ p l W2 W3), declared_spec, !app_nil_r, rev_involutive, map_map. cbn [fst snd].
      rewrite (map_ext _ _ (translate_attr _)). reflexivity.
  - destruct HW as (W1 & W2 & W3 & W4 & W5). cbn [show] in *. destruct fuel as [|f]; [lia|]. cbn [run]. pose proof (start_read uni p l attrs w1 true rest W1 W4 W5) as R.
    rewrite !sapp_assoc in *. rewrite R. cbn [String.append feed]. rewrite declared_spec, (translate_elem _ p l W2 W3). cbn [fr_name fr_attrs fr_kids fr_env]. rewrite name_eqb_refl, map_map.
    cbn [fst snd rev]. rewrite (map_ext _ _ (translate_attr _)). reflexivity.
Qed.
Lemma run_document uni d rest fuel : ok_doc d -> (String.length (show_doc d +++ rest) < fuel)%nat -> exists x, stands_for d x /\ run uni fuel (show_doc d +++ rest) [] [] = Some (x, rest).
Proof.
  intros (H1 & H2 & H3 & H4 & H5 & H6) Hf. unfold show_doc in *. rewrite !sapp_assoc in *.
  destruct (over_decl uni (dc_decl d) (show_all (dc_before d) +++ show (dc_root d) +++ rest) H1) as (ts & L1 & F1).
  destruct (run_lexes uni _ _ _ L1 fuel [] [] [] [] Hf F1) as (f1 & G1 & E1). rewrite E1.
  assert (L2 : lexes uni (show_all (dc_before d) +++ show (dc_root d) +++ rest) (flat_map toks (dc_before d)) (show (dc_root d) +++ rest)).
  { apply over_kids; [exact H2|exact H4|]. intros _ _ _. destruct (show_opens _ H5) as (r & E); [destruct (dc_root d); try discriminate H6; reflexivity|]. rewrite E. eexists. reflexivity. }
  destruct (run_lexes uni _ _ _ L2 f1 [] [] [] [] G1 (feed_outside _ H3)) as (f2 & G2 & E2). rewrite E2. exact (run_root uni _ rest f2 H5 H6 G2).
Qed.
Lemma read_document uni d rest : ok_doc d -> exists x, stands_for d x /\ read_xml uni (show_doc d +++ rest) = Some x.
Proof.
  intros H. destruct (run_document uni d rest (S (String.length (show_doc d +++ rest))) H) as (x & Hx & R); [lia|]. exists x. split; [exact Hx|]. unfold read_xml. rewrite run_build, R. reflexivity.
Qed.
Lemma read_cut uni d p q : ok_doc d -> show_doc d = p +++ q -> q <> "" -> read_xml uni p = None.
Proof.
  intros H E Hq. unfold read_xml. rewrite run_build. destruct (run uni (S (String.length p)) p [] []) as [[x r]|] eqn:R; [exfalso|reflexivity].
  apply (run_more uni q _ (S (String.length (p +++ q)))) in R; [|rewrite sapp_length; lia].
  destruct (run_document uni d "" (S (String.length (p +++ q))) H) as (y & _ & R2); [rewrite E, sapp_nil_r; lia|]. rewrite sapp_nil_r, E, R in R2. injection R2 as _ R2. destruct r; [destruct q; [contradiction|discriminate R2]|discriminate R2].
Qed.
