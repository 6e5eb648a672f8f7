(** The texts written are spelled as [SpecJson] says. *)
From Coq Require Import Arith ZifyBool ZifyNat ZifyN.
From Verif Require Import GoBase Utf8 Json JsonProofs JsonText SpecJson JsonGrammar Codec Any AnyProofs Frame.
Open Scope string_scope.
Local Open Scope N_scope.

Lemma qascii_spelled a v t : code a < 128 -> spelled v t -> spelled (String a v) (qascii a +++ t).
Proof.
  intros Ha H. change (String a v) with (str1 a +++ v). pose proof (size_1_of a Ha) as Hu.
  assert (qascii a = str1 a /\ ~ odd_one_out (code a) \/ In (code a, qascii a) spellings) as [[-> K]|K].
  { clear Hu H. destruct a as [[] [] [] [] [] [] [] []]; try (vm_compute in Ha; discriminate Ha);
      ((left; split; [reflexivity|]; unfold odd_one_out; vm_compute; intros X; repeat (destruct X as [X|X]; [discriminate X|]); discriminate X) ||
       (right; cbn; tauto)). }
  - now apply (sp_self (code a)).
  - now apply (sp_odd (code a)).
Qed.

Lemma qbody_spelled v : utf8_valid v = true -> spelled v (qbody v).
Proof.
  induction v as [v IH] using str_len_ind. intros V.
  destruct (uview_all v) as [|a r Ha Hsz|a b r Ha Hb Hsz|a b c r Ha Hb Hc Hsz|a b c d r Ha Hb Hc Hd Hsz|a r Ha Hsz].
  - apply sp_end.
  - rewrite qbody_1 by exact Hsz. rewrite valid_1 in V by exact Hsz. apply qascii_spelled; [lia|].
    apply IH; [cbn; lia|exact V].
  - rewrite qbody_2 by apply Hsz. rewrite valid_2 in V by apply Hsz.
    pose proof (size_2_of a b (Hsz "")) as Hu. pose proof (of_range _ _ Hu) as R. cbn [String.length str1] in R.
    change (String a (String b r)) with (String a (str1 b) +++ r).
    change (String a (String b (qbody r))) with (String a (str1 b) +++ qbody r).
    apply (sp_self _ _ _ _ Hu); [|apply IH; [cbn; lia|exact V]].
    apply between_spec in Ha, Hb. unfold odd_one_out. lia.
  - rewrite qbody_3 by apply Hsz. rewrite valid_3 in V by apply Hsz.
    pose proof (size_3_of a b c (Hsz "")) as Hu. pose proof (of_range _ _ Hu) as R. cbn [String.length str1] in R.
    change (String a (String b (String c r))) with (String a (String b (str1 c)) +++ r).
    specialize (IH r ltac:(cbn; lia) V). unfold q3. destruct (is_line_sep a b c) eqn:E.
    + unfold is_line_sep in E. apply andb_true_iff in E as [E E3]. apply andb_true_iff in E as [E1 E2].
      apply N.eqb_eq, code_inj in E1, E2. subst a b.
      apply orb_true_iff in E3 as [E3|E3]; apply N.eqb_eq, code_inj in E3; subst c.
      * apply (sp_odd 8232 _ "\u2028"); [exact Hu|cbn; tauto|exact IH].
      * apply (sp_odd 8233 _ "\u2029"); [exact Hu|cbn; tauto|exact IH].
    + change (String a (String b (str1 c)) +++ qbody r) with (String a (String b (str1 c)) +++ qbody r).
      apply (sp_self _ _ _ _ Hu); [|exact IH].
      apply between_spec in Ha, Hb, Hc. unfold is_line_sep in E. unfold odd_one_out. lia.
  - rewrite qbody_4 by apply Hsz. rewrite valid_4 in V by apply Hsz.
    pose proof (size_4_of a b c d (Hsz "")) as Hu. 
    change (String a (String b (String c (String d r)))) with (String a (String b (String c (str1 d))) +++ r).
    change (String a (String b (String c (String d (qbody r))))) with (String a (String b (String c (str1 d))) +++ qbody r).
    apply (sp_self _ _ _ _ Hu); [|apply IH; [cbn; lia|exact V]].
    assert (65536 <= 262144 * (code a - 240) + 4096 * (code b - 128) + 64 * (code c - 128) + (code d - 128)) as R.
    { inversion Hu as [m Hm E1 E2|m Hm E1 E2|m Hm Hs E1 E2|m Hm E1 E2]. exact (proj1 Hm). }
    unfold odd_one_out. lia.
  - rewrite valid_0 in V by exact Hsz. discriminate V.
Qed.

Lemma print_tight j : clean j -> tight j (print j).
Proof.
  induction j as [|b|l|s|l IH|l IH] using json_ind'; intros [W J].
  - apply ti_null.
  - destruct b; [apply ti_true|apply ti_false].
  - apply ti_num. cbn in W. unfold is_num in W. apply number_read.
    destruct (pnum l) as [[x [|? ?]]|] eqn:E; try discriminate W.
    pose proof (pnum_cat _ _ _ E) as Q. rewrite sapp_nil_r in Q. now subst x.
  - cbn in J. injection J as J. apply ti_str, qbody_spelled. now apply sanitize_id_iff.
  - assert (Forall clean l) as Hc by (apply clean_arr; split; assumption). clear W J.
    destruct l as [|j l]; [apply ti_arr0|]. cbn [print]. apply ti_arr.
    revert j IH Hc. induction l as [|k l IHl]; intros j IH Hc.
    + inversion IH; inversion Hc; subst. cbn. apply ts_one. auto.
    + inversion IH; inversion Hc; subst. change (join "," (map print (j :: k :: l))) with (print j +++ "," +++ join "," (map print (k :: l))).
      apply ts_more; auto.
  - assert (Forall (fun kv => sanitize (fst kv) = fst kv /\ clean (snd kv)) l) as Hc by (apply clean_obj; split; assumption). clear W J.
    destruct l as [|j l]; [apply ti_obj0|]. cbn [print]. apply ti_obj.
    revert j IH Hc. induction l as [|k l IHl]; intros [x j] IH Hc.
    + inversion IH as [|? ? I1 I2]; inversion Hc as [|? ? [C1 C2] C3]; subst. cbn [map join fst snd] in *.
      apply (tf_one x (qbody x)); [apply qbody_spelled; now apply sanitize_id_iff|auto].
    + inversion IH as [|? ? I1 I2]; inversion Hc as [|? ? [C1 C2] C3]; subst. specialize (IHl k I2 C3).
      set (f := fun kv : string * json => quote (fst kv) +++ ":" +++ print (snd kv)) in *.
      change (join "," (map f ((x, j) :: k :: l))) with (f (x, j) +++ "," +++ join "," (map f (k :: l))).
      unfold f at 1. cbn [fst snd]. rewrite !sapp_assoc.
      apply (tf_more x (qbody x)); [apply qbody_spelled; now apply sanitize_id_iff|auto|exact IHl].
Qed.

Theorem written_tight m s : marshal_message m = Ok s -> exists j, tight j s /\ document s j.
Proof.
  unfold marshal_message. destruct (rmap (fun x => x) (marshal_elems m)) as [l| |]; cbn [rbind]; try discriminate.
  unfold compact. destruct (parse _) as [j|] eqn:E; [|discriminate]. intros H. injection H as <-.
  exists j. split; [apply print_tight; eapply parse_clean, E|].
  apply parse_document. eapply parse_compact, E.
Qed.

(** ** No control characters *)

Definition printable (s : string) : Prop := str_forall (fun c => 32 <=? code c)%N s = true.

Lemma printable_app a b : printable a -> printable b -> printable (a +++ b).
Proof. unfold printable. rewrite str_forall_app. now intros -> ->. Qed.

Lemma of_printable n u : utf8_of n u -> 32 <= n -> printable u.
Proof.
  intros [m H|m H|m H K|m H] L; unfold printable; cbn [bytes str_forall]; rewrite !code_chr by lia; lia.
Qed.

Lemma spelled_printable v t : spelled v t -> printable t.
Proof.
  intros H. induction H as [|n u v t Hu Ho _ IH|n u x v t Hu Hx _ IH].
  - reflexivity.
  - apply printable_app; [|exact IH]. apply (of_printable n u Hu). unfold odd_one_out in Ho. lia.
  - apply printable_app; [|exact IH]. revert Hx. clear. cbn [In spellings].
    intros H. repeat (destruct H as [H|H]; [injection H as <- <-; reflexivity|]). exact (False_ind _ H).
Qed.

Lemma numchars_printable s : str_forall numchar s = true -> printable s.
Proof.
  unfold printable. induction s as [|c s IH]; [reflexivity|]. cbn [str_forall]. rewrite !andb_true_iff. intros [H1 H2].
  split; [|auto]. revert H1. clear. destruct c as [[] [] [] [] [] [] [] []]; intros H; try discriminate H; reflexivity.
Qed.

Lemma marks_printable t : printable t -> printable (in_marks t).
Proof. intros H. unfold in_marks. change (String dq (t +++ str1 dq)) with (str1 dq +++ t +++ str1 dq). repeat apply printable_app; auto; reflexivity. Qed.

Scheme tight_mind := Induction for tight Sort Prop
  with tights_mind := Induction for tights Sort Prop
  with tight_fields_mind := Induction for tight_fields Sort Prop.
Combined Scheme tight_mutual from tight_mind, tights_mind, tight_fields_mind.

Lemma tight_printable :
  (forall j t, tight j t -> printable t) /\ (forall l t, tights l t -> printable t) /\
  (forall l t, tight_fields l t -> printable t).
Proof.
  apply tight_mutual; try reflexivity.
  - intros l H. apply number_read, pnum_chars in H. now apply numchars_printable.
  - intros v t H. apply marks_printable. eapply spelled_printable, H.
  - intros l t _ IH. repeat apply printable_app; auto; reflexivity.
  - intros l t _ IH. repeat apply printable_app; auto; reflexivity.
  - auto.
  - intros j t l u _ H1 _ H2. repeat apply printable_app; auto; reflexivity.
  - intros k x j t Hk _ H. apply printable_app; [apply marks_printable; eapply spelled_printable, Hk|].
    apply printable_app; [reflexivity|exact H].
  - intros k x j t l u Hk _ H _ H2. apply printable_app; [apply marks_printable; eapply spelled_printable, Hk|].
    apply printable_app; [reflexivity|]. apply printable_app; [exact H|]. apply printable_app; [reflexivity|exact H2].
Qed.

Theorem written_no_control m s : marshal_message m = Ok s -> str_forall (fun c => 32 <=? code c)%N s = true.
Proof. intros H. apply written_tight in H as (j & Ht & _). exact (proj1 tight_printable j s Ht). Qed.

Lemma spellings_odd n x : In (n, x) spellings -> odd_one_out n.
Proof.
  cbn [In spellings]. intros H. unfold odd_one_out.
  repeat (destruct H as [H|H]; [injection H as <- _; lia|]). exact (False_ind _ H).
Qed.

Theorem spelled_verbatim v t : spelled v t ->
  (forall n u x y, utf8_of n u -> v = x +++ u +++ y -> ~ odd_one_out n) -> t = v.
Proof.
  intros H. induction H as [|n u v t Hu Ho _ IH|n u x v t Hu Hx _ IH]; intros F.
  - reflexivity.
  - f_equal. apply IH. intros m w a b Hw E. apply (F m w (u +++ a) b Hw). rewrite E. now rewrite sapp_assoc.
  - exfalso. apply (F n u "" v Hu eq_refl). eapply spellings_odd, Hx.
Qed.

Lemma ascii_ordinary v :
  str_forall (fun c => (32 <=? code c) && (code c <? 127) && negb (existsb (N.eqb (code c)) [34; 38; 60; 62; 92])) v = true ->
  forall n u x y, utf8_of n u -> v = x +++ u +++ y -> ~ odd_one_out n.
Proof.
  intros H n u x y Hu ->. rewrite !str_forall_app, !andb_true_iff in H. destruct H as (_ & H & _).
  destruct Hu as [m Hm|m Hm|m Hm Hs|m Hm]; cbn [bytes str_forall] in H; rewrite !code_chr in H by lia;
    cbn [existsb] in H; unfold odd_one_out; lia.
Qed.
