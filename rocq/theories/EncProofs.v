(** What the transcribed MarshalJSON programs write: a verified checker turns
    each program into a list of members, and json.Marshal of every value is
    shown to print the JSON tree computed from those lists. *)
From Verif Require Import GoBase Utf8 Json JsonProofs JsonText Float64 Float64Proofs GoTime Lang Types Codec.
Open Scope string_scope.
Open Scope list_scope.

(** ** Items *)

Inductive icond := CAlways | CNotNil | CNotEmpty.
Inductive item :=
| ItReq (f msg : string)
| ItField (key f : string) (tm : bool) (c : icond).

Definition skipped (c : icond) (v : gval) : bool :=
  match c with CAlways => false | CNotNil => is_nil v | CNotEmpty => is_empty v end.

Fixpoint items_run {A} (mt : gval -> res A) (env : list (string * (gval * res A))) (its : list item)
  : res (list (string * A)) :=
  match its with
  | [] => Ok []
  | ItReq f msg :: r =>
    match lookup f env with
    | Some (v, _) => if is_nil v then Err msg else items_run mt env r
    | None => Err "ill-typed"
    end
  | ItField k f tm c :: r =>
    match lookup f env with
    | Some (v, t) =>
      if skipped c v then items_run mt env r
      else rbind (if tm then mt v else t) (fun x =>
           rbind (items_run mt env r) (fun l => Ok ((k, x) :: l)))
    | None => Err "ill-typed"
    end
  end.

(** ** The checker *)

Fixpoint until_dq (s : string) : string :=
  match s with
  | EmptyString => EmptyString
  | String c r => if Ascii.eqb c dq then EmptyString else String c (until_dq r)
  end.

Definition key_of (s : string) : option string :=
  match s with
  | String _ r => let k := until_dq r in if String.eqb s (quote k +++ ": ") then Some k else None
  | EmptyString => None
  end.

Lemma key_of_spec s k : key_of s = Some k -> s = quote k +++ ": ".
Proof.
  unfold key_of. destruct s as [|c r]; [discriminate|].
  destruct (String.eqb_spec (String c r) (quote (until_dq r) +++ ": ")) as [E|E]; [|discriminate].
  intros H. injection H as <-. exact E.
Qed.

Inductive phase := Fresh | Ready | Done.

Definition ocons {A} (x : A) (o : option (list A)) : option (list A) :=
  match o with Some l => Some (x :: l) | None => None end.

Definition is_done (p : phase) : bool := match p with Done => true | _ => false end.

Definition marshal_of (i : instr) : option (string * bool) :=
  match i with IMarshal f => Some (f, false) | IMarshalTime f => Some (f, true) | _ => None end.

Fixpoint chk (l : list instr) (ph : phase) (cm : bool) {struct l} : option (list item) :=
  match l with
  | [] => None
  | IWrite s :: r0 =>
    if String.eqb s "}" then
      match r0, ph with [], Fresh => Some [] | [], Done => Some [] | _, _ => None end
    else if String.eqb s "," then (if is_done ph then chk r0 Ready cm else None)
    else match key_of s, r0 with
         | Some k, m :: r =>
           match marshal_of m with
           | Some (f, tm) => if is_done ph then None else ocons (ItField k f tm CAlways) (chk r Done cm)
           | None => None
           end
         | _, _ => None
         end
  | ICommaFalse :: r => chk r ph false
  | ISetComma :: r => chk r ph true
  | IComma :: r => if cm then (if is_done ph then chk r Ready cm else None) else chk r ph cm
  | IReqNil f m :: r => ocons (ItReq f m) (chk r ph cm)
  | IIfSet c [IWrite s1; IWrite s2; m] :: r =>
    match key_of s2, marshal_of m with
    | Some k, Some (f, tm) =>
      if is_done ph && String.eqb s1 "," && String.eqb c f
      then ocons (ItField k f tm CNotNil) (chk r Done cm) else None
    | _, _ => None
    end
  | IIfSet c [IWrite s1; m; IWrite s2] :: r =>
    match key_of s1, marshal_of m with
    | Some k, Some (f, tm) =>
      if negb (is_done ph) && String.eqb s2 "," && String.eqb c f
      then ocons (ItField k f tm CNotNil) (chk r Ready cm) else None
    | _, _ => None
    end
  | _ => None
  end.

Definition items_prog (p : list instr) : option (list item) :=
  match p with
  | IWrite s :: r => if String.eqb s "{" then chk r Fresh false else None
  | _ => None
  end.

(** ** Text of an object under construction *)

Definition mtext (kt : string * string) : string := quote (fst kt) +++ ": " +++ snd kt.
Definition mts (ms : list (string * string)) : string := join "," (map mtext ms).
Definition otext (ms : list (string * string)) : string := "{" +++ mts ms +++ "}".

Definition rep (ph : phase) (buf : string) (ms : list (string * string)) : Prop :=
  match ph with
  | Fresh => ms = [] /\ buf = "{"
  | Ready => (ms = [] /\ buf = "{") \/ (ms <> [] /\ buf = "{" +++ mts ms +++ ",")
  | Done => ms <> [] /\ buf = "{" +++ mts ms
  end.

Lemma join_snoc sep l x : l <> [] -> join sep (l ++ [x]) = join sep l +++ sep +++ x.
Proof.
  induction l as [|y l IH]; [congruence|]. intros _. destruct l as [|z l]; [reflexivity|].
  change ((y :: z :: l) ++ [x]) with (y :: (z :: l) ++ [x]).
  change (join sep (y :: (z :: l) ++ [x])) with (y +++ sep +++ join sep ((z :: l) ++ [x])).
  rewrite IH by discriminate. change (join sep (y :: z :: l)) with (y +++ sep +++ join sep (z :: l)).
  rewrite !sapp_assoc. reflexivity.
Qed.

Lemma mts_snoc ms kt : ms <> [] -> mts (ms ++ [kt]) = mts ms +++ "," +++ mtext kt.
Proof.
  intros H. unfold mts. rewrite map_app. cbn [map]. apply join_snoc.
  destruct ms; [congruence|discriminate].
Qed.

Lemma rep_field ph buf ms k t : is_done ph = false -> rep ph buf ms ->
  rep Done (buf +++ (quote k +++ ": ") +++ t) (ms ++ [(k, t)]).
Proof.
  intros Hp H. split; [destruct ms; discriminate|].
  assert (HA : (ms = [] /\ buf = "{") \/ (ms <> [] /\ buf = "{" +++ mts ms +++ ",")).
  { destruct ph; cbn [rep] in H; [left; exact H|exact H|discriminate]. }
  destruct HA as [[-> ->]|[Hm ->]].
  - cbn [app mts map join]. unfold mtext. cbn [fst snd]. rewrite ?sapp_assoc. reflexivity.
  - rewrite mts_snoc by exact Hm. unfold mtext. cbn [fst snd]. rewrite !sapp_assoc. reflexivity.
Qed.

Lemma rep_comma buf ms : rep Done buf ms -> rep Ready (buf +++ ",") ms.
Proof. intros [H ->]. right. split; [exact H|]. rewrite sapp_assoc. reflexivity. Qed.

Definition lift (r : res (string * bool)) : res string := rbind r (fun st => Ok (fst st)).

Lemma lift_bind (r : res (string * bool)) k : lift (rbind r k) = rbind r (fun st => lift (k st)).
Proof. destruct r; reflexivity. Qed.

Lemma rbind_assoc {A B C} (r : res A) (f : A -> res B) (g : B -> res C) :
  rbind (rbind r f) g = rbind r (fun x => rbind (f x) g).
Proof. destruct r; reflexivity. Qed.

Lemma exec_if env f body st : exec env (IIfSet f body) st =
  match lookup f env with
  | Some (v, _) => if is_nil v then Ok st else exec_list env body st
  | None => Err "ill-typed"
  end.
Proof.
  destruct st as [buf cm]. cbn [exec]. destruct (lookup f env) as [[v r]|]; [|reflexivity].
  destruct (is_nil v); [reflexivity|].
  generalize (buf, cm). induction body as [|x body IH]; intros st; [reflexivity|].
  cbn [exec_list]. destruct (exec env x st) as [st'| |]; cbn [rbind]; [apply IH|reflexivity|reflexivity].
Qed.

(** Outcome of json.Marshal on the field named by a marshalling statement. *)
Definition mval (env : fenv) (f : string) (tm : bool) : res string :=
  match lookup f env with
  | Some (v, t) => if tm then marshal_time v else t
  | None => Err "ill-typed"
  end.

Lemma exec_marshal env i f tm buf cm : marshal_of i = Some (f, tm) ->
  exec env i (buf, cm) = rbind (mval env f tm) (fun t => Ok (buf +++ t, cm)).
Proof.
  unfold mval. destruct i; cbn [marshal_of]; intros H; try discriminate; injection H as <- <-; cbn [exec];
    destruct (lookup _ env) as [[v r]|]; reflexivity.
Qed.

Lemma items_field {A} mt (env : list (string * (gval * res A))) k f tm r :
  items_run mt env (ItField k f tm CAlways :: r) =
  rbind (match lookup f env with Some (v, t) => if tm then mt v else t | None => Err "ill-typed" end)
    (fun x => rbind (items_run mt env r) (fun l => Ok ((k, x) :: l))).
Proof. cbn [items_run]. destruct (lookup f env) as [[v t]|]; [|reflexivity]. cbn [skipped]. destruct tm; reflexivity. Qed.

Lemma app_cons_assoc {A} (l : list A) x r : l ++ x :: r = (l ++ [x]) ++ r.
Proof. rewrite <- app_assoc. reflexivity. Qed.

Definition goal_of env l ph cm its : Prop :=
  forall buf ms, rep ph buf ms ->
  lift (exec_list env l (buf, cm)) =
  rbind (items_run marshal_time env its) (fun new => Ok (otext (ms ++ new))).

Lemma chk_sound env : forall n l, length l <= n -> forall ph cm its,
  chk l ph cm = Some its -> goal_of env l ph cm its.
Proof.
  induction n as [|n IH]; intros l Hn ph cm its H buf ms HR.
  { destruct l; [cbn in H; discriminate|cbn in Hn; lia]. }
  destruct l as [|i l]; [cbn in H; discriminate|].
  cbn [length] in Hn. assert (Hl : length l <= n) by lia.
  assert (FIELD : forall k f tm m l', l = m :: l' -> marshal_of m = Some (f, tm) -> is_done ph = false ->
    forall its', chk l' Done cm = Some its' ->
    lift (exec_list env (IWrite (quote k +++ ": ") :: l) (buf, cm)) =
    rbind (items_run marshal_time env (ItField k f tm CAlways :: its')) (fun new => Ok (otext (ms ++ new)))).
  { intros k f tm m l' -> Hm Hp its' HC. cbn [exec_list exec rbind].
    rewrite (exec_marshal env m f tm _ _ Hm). rewrite items_field.
    fold (mval env f tm). destruct (mval env f tm) as [t|e|]; cbn [rbind]; [|reflexivity|reflexivity].
    rewrite sapp_assoc.
    cbn [length] in Hl.
    rewrite (IH l' ltac:(lia) Done cm its' HC _ (ms ++ [(k, t)])).
    2:{ apply rep_field with (ph := ph); assumption. }
    destruct (items_run marshal_time env its') as [new| |]; cbn [rbind]; [|reflexivity|reflexivity].
    rewrite <- app_assoc. reflexivity. }
  destruct i as [|s| | |f msg|f|f|c body]; cbn [chk] in H.
  - (* ICommaFalse *) cbn [exec_list exec rbind]. apply (IH l Hl ph false its H); assumption.
  - (* IWrite *)
    destruct (String.eqb_spec s "}") as [->|Ns].
    { destruct l as [|i l]; [|discriminate].
      assert (its = []) as -> by (destruct ph; congruence).
      cbn [exec_list exec rbind lift fst items_run]. f_equal. rewrite app_nil_r. unfold otext.
      destruct ph; cbn [rep] in HR; [|discriminate|].
      - destruct HR as [-> ->]. reflexivity.
      - destruct HR as [_ ->]. rewrite sapp_assoc. reflexivity. }
    destruct (String.eqb_spec s ",") as [->|Ns'].
    { destruct ph; try discriminate. cbn [is_done] in H. cbn [exec_list exec rbind].
      apply (IH l Hl Ready cm its H). apply rep_comma. exact HR. }
    destruct (key_of s) as [k|] eqn:Ek; [|discriminate]. apply key_of_spec in Ek. subst s.
    destruct l as [|m l']; [discriminate|].
    destruct (marshal_of m) as [[f tm]|] eqn:Em; [|discriminate].
    destruct (is_done ph) eqn:Ep; [discriminate|].
    destruct (chk l' Done cm) as [its'|] eqn:EC; [|discriminate]. cbn [ocons] in H. injection H as <-.
    apply (FIELD k f tm m l' eq_refl Em eq_refl its' EC).
  - (* IComma *)
    cbn [exec_list exec rbind]. destruct cm.
    + destruct ph; try discriminate. cbn [is_done] in H.
      apply (IH l Hl Ready true its H). apply rep_comma. exact HR.
    + apply (IH l Hl ph false its H). exact HR.
  - (* ISetComma *) cbn [exec_list exec rbind]. apply (IH l Hl ph true its H); assumption.
  - (* IReqNil *)
    destruct (chk l ph cm) as [its'|] eqn:EC; [|discriminate]. cbn [ocons] in H. injection H as <-.
    cbn [exec_list exec items_run]. destruct (lookup f env) as [[v t]|]; [|reflexivity].
    destruct (is_nil v); cbn [rbind]; [reflexivity|].
    apply (IH l Hl ph cm its' EC). exact HR.
  - discriminate.
  - discriminate.
  - (* IIfSet *)
    destruct body as [|b1 [|b2 [|b3 [|b4 body]]]]; try (destruct b1; try discriminate; destruct b2; try discriminate; destruct b3; discriminate);
      try (destruct b1; discriminate); try discriminate; try (destruct b1; try discriminate; destruct b2; discriminate).
    destruct b1 as [|s1| | | | | | ]; try discriminate.
    assert (CASE1 : forall s2, b2 = IWrite s2 -> forall k f tm, key_of s2 = Some k -> marshal_of b3 = Some (f, tm) ->
      is_done ph && String.eqb s1 "," && String.eqb c f = true -> forall its', chk l Done cm = Some its' ->
      lift (exec_list env (IIfSet c [IWrite s1; b2; b3] :: l) (buf, cm)) =
      rbind (items_run marshal_time env (ItField k f tm CNotNil :: its')) (fun new => Ok (otext (ms ++ new)))).
    { intros s2 -> k f tm Ek Em HB its' EC.
      apply andb_true_iff in HB. destruct HB as [HB Hc]. apply andb_true_iff in HB. destruct HB as [Hp Hs].
      apply String.eqb_eq in Hc, Hs. subst c s1. destruct ph; try discriminate.
      apply key_of_spec in Ek. subst s2.
      cbn [exec_list]. rewrite exec_if. cbn [items_run].
      destruct (lookup f env) as [[v t]|] eqn:El; [|reflexivity]. cbn [skipped].
      destruct (is_nil v) eqn:En; cbn [rbind].
      { apply (IH l Hl Done cm its' EC). exact HR. }
      cbn [exec_list exec rbind]. rewrite (exec_marshal env b3 f tm _ _ Em). unfold mval. rewrite El.
      destruct (if tm then marshal_time v else t) as [x|e|]; cbn [rbind]; [|reflexivity|reflexivity].
      rewrite (sapp_assoc (buf +++ ",")).
      rewrite (IH l Hl Done cm its' EC _ (ms ++ [(k, x)])).
      2:{ apply rep_field with (ph := Ready); [reflexivity|]. apply rep_comma. exact HR. }
      destruct (items_run marshal_time env its') as [new| |]; cbn [rbind]; [|reflexivity|reflexivity].
      rewrite <- app_assoc. reflexivity. }
    assert (CASE2 : forall s2, b3 = IWrite s2 -> forall k f tm, key_of s1 = Some k -> marshal_of b2 = Some (f, tm) ->
      negb (is_done ph) && String.eqb s2 "," && String.eqb c f = true -> forall its', chk l Ready cm = Some its' ->
      lift (exec_list env (IIfSet c [IWrite s1; b2; b3] :: l) (buf, cm)) =
      rbind (items_run marshal_time env (ItField k f tm CNotNil :: its')) (fun new => Ok (otext (ms ++ new)))).
    { intros s2 -> k f tm Ek Em HB its' EC.
      apply andb_true_iff in HB. destruct HB as [HB Hc]. apply andb_true_iff in HB. destruct HB as [Hp Hs].
      apply String.eqb_eq in Hc, Hs. subst c s2. apply negb_true_iff in Hp.
      apply key_of_spec in Ek. subst s1.
      cbn [exec_list]. rewrite exec_if. cbn [items_run].
      destruct (lookup f env) as [[v t]|] eqn:El; [|reflexivity]. cbn [skipped].
      destruct (is_nil v) eqn:En; cbn [rbind].
      { apply (IH l Hl Ready cm its' EC). destruct ph; [left; exact HR|exact HR|discriminate]. }
      cbn [exec_list exec rbind]. rewrite (exec_marshal env b2 f tm _ _ Em). unfold mval. rewrite El.
      destruct (if tm then marshal_time v else t) as [x|e|]; cbn [rbind]; [|reflexivity|reflexivity].
      cbn [exec_list exec rbind]. rewrite (sapp_assoc buf).
      rewrite (IH l Hl Ready cm its' EC _ (ms ++ [(k, x)])).
      2:{ apply rep_comma. apply rep_field with (ph := ph); [exact Hp|exact HR]. }
      destruct (items_run marshal_time env its') as [new| |]; cbn [rbind]; [|reflexivity|reflexivity].
      rewrite <- app_assoc. reflexivity. }
    destruct b2 as [|s2| | | |f2|f2| ]; try (destruct b3; try discriminate; destruct (key_of s1); discriminate).
    + (* second is a write *)
      assert (HH : match key_of s2, marshal_of b3 with
                   | Some k, Some (f, tm) =>
                     if is_done ph && String.eqb s1 "," && String.eqb c f
                     then ocons (ItField k f tm CNotNil) (chk l Done cm) else None
                   | _, _ => None end = Some its) by (destruct b3; exact H).
      clear H. destruct (key_of s2) as [k|] eqn:Ek; [|discriminate].
      destruct (marshal_of b3) as [[f tm]|] eqn:Em; [|discriminate].
      destruct (is_done ph && String.eqb s1 "," && String.eqb c f) eqn:HB; [|discriminate].
      destruct (chk l Done cm) as [its'|] eqn:EC; [|discriminate]. cbn [ocons] in HH. injection HH as <-.
      apply (CASE1 s2 eq_refl k f tm); auto.
    + destruct b3 as [|s3| | | | | | ]; try discriminate.
      destruct (key_of s1) as [k|] eqn:Ek; [|discriminate]. cbn [marshal_of] in H.
      destruct (negb (is_done ph) && String.eqb s3 "," && String.eqb c f2) eqn:HB; [|discriminate].
      destruct (chk l Ready cm) as [its'|] eqn:EC; [|discriminate]. cbn [ocons] in H. injection H as <-.
      apply (CASE2 s3 eq_refl k f2 false); auto.
    + destruct b3 as [|s3| | | | | | ]; try discriminate.
      destruct (key_of s1) as [k|] eqn:Ek; [|discriminate]. cbn [marshal_of] in H.
      destruct (negb (is_done ph) && String.eqb s3 "," && String.eqb c f2) eqn:HB; [|discriminate].
      destruct (chk l Ready cm) as [its'|] eqn:EC; [|discriminate]. cbn [ocons] in H. injection H as <-.
      apply (CASE2 s3 eq_refl k f2 true); auto.
Qed.

Lemma prog_items env p its : items_prog p = Some its ->
  run_prog env p = rbind (items_run marshal_time env its) (fun ms => Ok (otext ms)).
Proof.
  unfold items_prog. destruct p as [|[|s| | | | | | ] r]; try discriminate.
  destruct (String.eqb_spec s "{") as [->|]; [|discriminate]. intros H.
  unfold run_prog. cbn [exec_list exec rbind].
  apply (chk_sound env (length r) r (le_n _) Fresh false its H "{" []). split; reflexivity.
Qed.

(** Every transcribed MarshalJSON passes the checker. *)
Definition prog_ok (d : decl) : bool :=
  match d_enc d with EProg p => match items_prog p with Some _ => true | None => false end | _ => true end.
Lemma all_progs_ok : forallb prog_ok all_decls = true.
Proof. vm_compute. reflexivity. Qed.

(** ** Reading an object text back *)

Lemma members_sp_ok ms : Forall (fun kv => wf_json (snd kv) = true) ms -> ms <> [] ->
  forall rest, exists n,
    pmembers n (mts (map (fun kv => (fst kv, print (snd kv))) ms) +++ String "}"%char rest)
    = Some (map (fun kv => (sanitize (fst kv), jsan (snd kv))) ms, rest).
Proof.
  induction ms as [|[k j] l IH]; intros HF Hne rest; [congruence|].
  inversion HF as [|? ? Hj HF']; subst. cbn [snd] in Hj.
  pose proof (print_ok j Hj) as PO.
  destruct l as [|kj l].
  - destruct (PO (String "}"%char rest) eq_refl) as [n Hn].
    exists (S n). cbn [map mts join]. unfold mts. cbn [map join]. unfold mtext. cbn [fst snd].
    rewrite !sapp_assoc, quote_app. rewrite pmembers_S. rewrite skip_ws_nws by reflexivity.
    change (Ascii.eqb dq dq) with true. cbv iota.
    rewrite pstr_qbody. cbn [String.append]. rewrite skip_ws_nws by reflexivity.
    change (Ascii.eqb ":" ":") with true. cbv iota.
    rewrite pval_skip. change (skip_ws (String " " (print j +++ String "}" rest))) with (skip_ws (print j +++ String "}" rest)).
    rewrite <- pval_skip. rewrite Hn. reflexivity.
  - destruct (IH HF' ltac:(discriminate) rest) as [n Hn].
    set (tl := mts (map (fun kv => (fst kv, print (snd kv))) (kj :: l))) in *.
    destruct (PO (String ","%char (tl +++ String "}"%char rest)) eq_refl) as [m Hm].
    exists (S (n + m)).
    replace (mts (map (fun kv => (fst kv, print (snd kv))) ((k, j) :: kj :: l)) +++ String "}"%char rest)
      with (String dq (qbody k +++ String dq (String ":"%char (String " "%char
              (print j +++ String ","%char (tl +++ String "}"%char rest)))))).
    2:{ change (mts (map (fun kv => (fst kv, print (snd kv))) ((k, j) :: kj :: l)))
          with (mtext (k, print j) +++ String ","%char tl).
        unfold mtext. cbn [fst snd]. rewrite !sapp_assoc, quote_app. reflexivity. }
    rewrite pmembers_S, skip_ws_nws by reflexivity.
    change (Ascii.eqb dq dq) with true. cbv iota.
    rewrite pstr_qbody. rewrite skip_ws_nws by reflexivity.
    change (Ascii.eqb ":" ":") with true. cbv iota.
    rewrite pval_skip. change (skip_ws (String " " ?x)) with (skip_ws x).
    rewrite <- pval_skip.
    rewrite (pval_mono m (n + m) _ _ ltac:(lia) Hm).
    rewrite skip_ws_nws by reflexivity. change (Ascii.eqb "," ",") with true. cbv iota.
    rewrite (pmembers_mono n (n + m) _ _ ltac:(lia) Hn). reflexivity.
Qed.

Lemma otext_parse ms : Forall (fun kv => wf_json (snd kv) = true) ms ->
  parse (otext (map (fun kv => (fst kv, print (snd kv))) ms)) = Some (jsan (JObj ms)).
Proof.
  intros HF. unfold otext. destruct ms as [|kj l]; [reflexivity|].
  destruct (members_sp_ok (kj :: l) HF ltac:(discriminate) EmptyString) as [n Hn].
  set (b := mts (map (fun kv => (fst kv, print (snd kv))) (kj :: l))) in *.
  assert (exists r, b = String dq r) as [r Hr].
  { unfold b, mts. cbn [map]. destruct (join_head (mtext (fst kj, print (snd kj)))
      (map mtext (map (fun kv => (fst kv, print (snd kv))) l))) as [r Hr]. rewrite Hr.
    unfold mtext. rewrite !sapp_assoc, quote_app. eauto. }
  apply (parse_intro (S n) _ _ EmptyString); [|reflexivity].
  change ("{" +++ b +++ "}") with (String "{"%char (b +++ "}")).
  rewrite pval_S, skip_ws_nws by reflexivity.
  change (Ascii.eqb "{" dq) with false. change (Ascii.eqb "{" "[") with false.
  change (Ascii.eqb "{" "{") with true. cbv iota.
  change (b +++ "}") with (b +++ String "}"%char EmptyString).
  rewrite Hn. rewrite Hr. cbn [String.append]. rewrite skip_ws_nws by reflexivity. reflexivity.
Qed.

Lemma jsan_wf j : wf_json j = true -> wf_json (jsan j) = true.
Proof.
  induction j as [|b|l|s|l IH|l IH] using json_ind'; cbn [jsan wf_json]; intros H; try exact H.
  - rewrite forallb_forall in *. intros x Hx. apply in_map_iff in Hx. destruct Hx as (y & <- & Hy).
    rewrite Forall_forall in IH. auto.
  - rewrite forallb_forall in *. intros x Hx. apply in_map_iff in Hx. destruct Hx as (y & <- & Hy).
    rewrite Forall_forall in IH. cbn [snd]. auto.
Qed.

Lemma jsan_idem j : jsan (jsan j) = jsan j.
Proof.
  induction j as [|b|l|s|l IH|l IH] using json_ind'; cbn [jsan]; try reflexivity.
  - rewrite sanitize_idem. reflexivity.
  - f_equal. rewrite map_map. apply map_ext_in. rewrite Forall_forall in IH. exact IH.
  - f_equal. rewrite map_map. apply map_ext_in. rewrite Forall_forall in IH.
    intros x Hx. cbn [fst snd]. rewrite sanitize_idem, (IH x Hx). reflexivity.
Qed.

(** ** JSON trees *)

(** Members written for one struct, as items; [None] when a program is not
    understood (never the case, [all_progs_ok]). *)
Definition items_of (d : decl) : option (list item) :=
  match d_enc d with
  | EProg p => items_prog p
  | EOptMap key f => Some [ItField key f false CNotNil]
  | EDefault => Some (map (fun f => ItField (f_json f) (f_name f) false
                                      (if f_jomit f then CNotEmpty else CAlways)) (d_fields d))
  end.

Definition time_tree (v : gval) : res json :=
  match v with
  | VTime t | VPtr (VTime t) => Ok (JStr (format_rfc3339 t))
  | VNil => Panic
  | _ => Err "ill-typed"
  end.

(** Does the encoder of [d] go through MarshalJSON (and so through compact)? *)
Definition customised (d : decl) : bool := match d_enc d with EDefault => false | _ => true end.

Definition struct_tree (d : decl) (env : list (string * (gval * res json))) : res json :=
  match items_of d with
  | None => Err "ill-typed"
  | Some its => rbind (items_run time_tree env its) (fun ms =>
      Ok (if customised d then jsan (JObj ms) else JObj ms))
  end.

Fixpoint jt (t : gty) (v : gval) {struct v} : res json :=
  match t, v with
  | TStr, VStr s => Ok (JStr s)
  | TInt _, VInt z => Ok (JNum (dec_int z))
  | TF64, VF64 x => match fmt_float x with Some s => Ok (JNum s) | None => Err "json: unsupported value" end
  | TBool, VBool b => Ok (JBool b)
  | TTime, VTime x =>
    if (0 <=? t_year x)%Z && (t_year x <=? 9999)%Z then Ok (JStr (format_nano x))
    else Err "Time.MarshalJSON: year outside of range [0,9999]"
  | TPtr _, VNil => Ok JNull
  | TPtr t', VPtr v' => jt t' v'
  | TSlice _, VNil => Ok JNull
  | TSlice t', VSlice l => rbind (rmap (fun x => jt t' x) l) (fun l => Ok (JArr l))
  | TStruct n, VStruct fs =>
    match find_decl n with
    | None => Err "ill-typed"
    | Some d =>
      struct_tree d
        (map (fun kv =>
           match find_field d (fst kv) with
           | Some f => (fst kv, (snd kv, jt (f_ty f) (snd kv)))
           | None => (fst kv, (snd kv, Err "ill-typed"))
           end) fs)
    end
  | _, _ => Err "ill-typed"
  end.

Definition gval_ind' (P : gval -> Prop)
  (Hs : forall s, P (VStr s)) (Hi : forall z, P (VInt z)) (Hf : forall x, P (VF64 x))
  (Hb : forall b, P (VBool b)) (Ht : forall t, P (VTime t)) (Hn : P VNil)
  (Hp : forall v, P v -> P (VPtr v))
  (Hl : forall l, Forall P l -> P (VSlice l))
  (Hst : forall fs, Forall (fun kv => P (snd kv)) fs -> P (VStruct fs)) : forall v, P v :=
  fix rec (v : gval) : P v :=
    match v with
    | VStr s => Hs s | VInt z => Hi z | VF64 x => Hf x | VBool b => Hb b | VTime t => Ht t
    | VNil => Hn
    | VPtr v => Hp v (rec v)
    | VSlice l => Hl l ((fix go l : Forall P l := match l with
                           | [] => Forall_nil _ | x :: r => Forall_cons _ (rec x) (go r) end) l)
    | VStruct fs => Hst fs ((fix go l : Forall (fun kv => P (snd kv)) l := match l with
                           | [] => Forall_nil _ | x :: r => Forall_cons _ (rec (snd x)) (go r) end) fs)
    end.

(** The text [r1] is the print of the tree [r2], or both fail alike. *)
Definition rrel (r1 : res string) (r2 : res json) : Prop :=
  match r1, r2 with
  | Ok s, Ok j => s = print j /\ wf_json j = true
  | Err e, Err e' => e = e'
  | Panic, Panic => True
  | _, _ => False
  end.

Definition erel (e1 : fenv) (e2 : list (string * (gval * res json))) : Prop :=
  Forall2 (fun a b => fst a = fst b /\ fst (snd a) = fst (snd b) /\ rrel (snd (snd a)) (snd (snd b))) e1 e2.

Lemma erel_lookup e1 e2 f : erel e1 e2 ->
  match lookup f e1, lookup f e2 with
  | Some (v1, r1), Some (v2, r2) => v1 = v2 /\ rrel r1 r2
  | None, None => True
  | _, _ => False
  end.
Proof.
  induction 1 as [|[k1 [v1 r1]] [k2 [v2 r2]] e1 e2 (E1 & E2 & E3) _ IH]; [exact I|].
  cbn [fst snd] in *. subst k2 v2. cbn [lookup]. destruct (String.eqb f k1); [split; auto|exact IH].
Qed.

Definition msrel (r1 : res (list (string * string))) (r2 : res (list (string * json))) : Prop :=
  match r1, r2 with
  | Ok a, Ok b => a = map (fun kv => (fst kv, print (snd kv))) b /\ Forall (fun kv => wf_json (snd kv) = true) b
  | Err e, Err e' => e = e'
  | Panic, Panic => True
  | _, _ => False
  end.

Lemma time_rel v : rrel (marshal_time v) (time_tree v).
Proof. destruct v as [| | | |t| |[]| | ]; cbn; auto. Qed.

Lemma items_rel e1 e2 its : erel e1 e2 -> msrel (items_run marshal_time e1 its) (items_run time_tree e2 its).
Proof.
  intros HE. induction its as [|it its IH]; [cbn; auto|].
  destruct it as [f msg|k f tm c]; cbn [items_run]; pose proof (erel_lookup e1 e2 f HE) as HL;
    destruct (lookup f e1) as [[v1 r1]|], (lookup f e2) as [[v2 r2]|]; try contradiction; try reflexivity;
    destruct HL as [<- HR].
  - destruct (is_nil v1); [reflexivity|exact IH].
  - destruct (skipped c v1); [exact IH|].
    assert (HX : rrel (if tm then marshal_time v1 else r1) (if tm then time_tree v1 else r2)).
    { destruct tm; [apply time_rel|exact HR]. }
    destruct (if tm then marshal_time v1 else r1) as [s| |], (if tm then time_tree v1 else r2) as [j| |];
      cbn in HX; try contradiction; cbn [rbind]; [|exact HX|exact I].
    destruct HX as [-> HW].
    destruct (items_run marshal_time e1 its) as [a| |], (items_run time_tree e2 its) as [b| |];
      cbn in IH; try contradiction; cbn [rbind]; [|exact IH|exact I].
    destruct IH as [-> HF]. cbn. split; [reflexivity|]. constructor; assumption.
Qed.

Lemma compact_clean j : wf_json j = true -> jsan j = j -> compact (print j) = Ok (print j).
Proof. intros H1 H2. unfold compact. rewrite parse_print by exact H1. rewrite H2. reflexivity. Qed.

Lemma default_members_items env fs :
  match default_members env fs,
        items_run marshal_time env (map (fun f => ItField (f_json f) (f_name f) false
                                      (if f_jomit f then CNotEmpty else CAlways)) fs) with
  | Ok a, Ok b => a = map (fun kt => quote (fst kt) +++ ":" +++ snd kt) b
  | Err e, Err e' => e = e'
  | Panic, Panic => True
  | _, _ => False
  end.
Proof.
  induction fs as [|f fs IH]; [reflexivity|]. cbn [default_members map items_run].
  destruct (lookup (f_name f) env) as [[v t]|]; [|reflexivity].
  assert (E : f_jomit f && is_empty v = skipped (if f_jomit f then CNotEmpty else CAlways) v)
    by (destruct (f_jomit f); reflexivity).
  rewrite E. destruct (skipped _ v); [exact IH|].
  destruct t as [t| |]; cbn [rbind]; [|reflexivity|exact I].
  destruct (default_members env fs) as [a| |], (items_run _ env _) as [b| |]; try contradiction; cbn [rbind];
    [|exact IH|exact I].
  subst a. reflexivity.
Qed.

Lemma struct_rel d e1 e2 : In d all_decls -> erel e1 e2 -> rrel (marshal_struct d e1) (struct_tree d e2).
Proof.
  intros HD HE. unfold marshal_struct, struct_tree, items_of, customised.
  destruct (d_enc d) as [p|key f|] eqn:Ed.
  - pose proof all_progs_ok as HA. rewrite forallb_forall in HA. specialize (HA d HD). unfold prog_ok in HA.
    rewrite Ed in HA. destruct (items_prog p) as [its|] eqn:Ei; [|discriminate].
    rewrite (prog_items e1 p its Ei). pose proof (items_rel e1 e2 its HE) as HR.
    destruct (items_run marshal_time e1 its) as [a| |], (items_run time_tree e2 its) as [b| |];
      cbn in HR; try contradiction; cbn [rbind]; [|exact HR|exact I].
    destruct HR as [-> HF]. unfold compact. rewrite otext_parse by exact HF.
    cbn. split; [reflexivity|].
    change (wf_json (jsan (JObj b)) = true). apply jsan_wf. cbn [wf_json]. rewrite forallb_forall.
    rewrite Forall_forall in HF. exact HF.
  - pose proof (erel_lookup e1 e2 f HE) as HL. cbn [items_run].
    destruct (lookup f e1) as [[v1 r1]|], (lookup f e2) as [[v2 r2]|]; try contradiction; [|reflexivity].
    destruct HL as [<- HR]. cbn [skipped]. destruct (is_nil v1).
    { cbn. split; reflexivity. }
    destruct r1 as [s| |], r2 as [j| |]; cbn in HR; try contradiction; cbn [rbind]; [|exact HR|exact I].
    destruct HR as [-> HW]. unfold compact.
    change ("{" +++ quote key +++ ":" +++ print j +++ "}")
      with ("{" +++ (quote key +++ ":" +++ print j +++ "}")).
    assert (E : "{" +++ quote key +++ ":" +++ print j +++ "}" = print (JObj [(key, j)])).
    { cbn [print map join fst snd]. rewrite !sapp_assoc. reflexivity. }
    rewrite E. rewrite parse_print by (cbn; rewrite HW; reflexivity).
    cbn [rrel]. split; [reflexivity|]. apply jsan_wf. cbn. rewrite HW. reflexivity.
  - pose proof (default_members_items e1 (d_fields d)) as HD1.
    pose proof (items_rel e1 e2 (map (fun f => ItField (f_json f) (f_name f) false
                                      (if f_jomit f then CNotEmpty else CAlways)) (d_fields d)) HE) as HR.
    destruct (items_run marshal_time e1 _) as [a| |], (items_run time_tree e2 _) as [b| |];
      cbn in HR; try contradiction; destruct (default_members e1 (d_fields d)) as [m| |]; try contradiction;
      cbn [rbind]; [|cbn; congruence|exact I].
    destruct HR as [-> HF]. subst m. cbn. split.
    + rewrite map_map. reflexivity.
    + rewrite forallb_forall. rewrite Forall_forall in HF. exact HF.
Qed.

Lemma find_decl_in n d : find_decl n = Some d -> In d all_decls /\ d_name d = n.
Proof. intros H. apply find_some in H. destruct H as [H1 H2]. apply String.eqb_eq in H2. auto. Qed.

Lemma rmap_rel t l : Forall (fun v => rrel (enc t v) (jt t v)) l ->
  match rmap (enc t) l, rmap (jt t) l with
  | Ok a, Ok b => a = map print b /\ forallb wf_json b = true
  | Err e, Err e' => e = e'
  | Panic, Panic => True
  | _, _ => False
  end.
Proof.
  induction 1 as [|v l Hv _ IH]; [cbn; auto|]. cbn [rmap].
  destruct (enc t v) as [s| |], (jt t v) as [j| |]; cbn in Hv; try contradiction; cbn [rbind]; [|exact Hv|exact I].
  destruct Hv as [-> HW]. fold (rmap (enc t)). fold (rmap (jt t)).
  destruct (rmap (enc t) l) as [a| |], (rmap (jt t) l) as [b| |]; try contradiction; cbn [rbind]; [|exact IH|exact I].
  destruct IH as [-> HF]. cbn. rewrite HW, HF. auto.
Qed.

(** All floats inside are canonical. *)
Fixpoint fcanon (v : gval) : bool :=
  match v with
  | VF64 x => canon x
  | VPtr v => fcanon v
  | VSlice l => forallb fcanon l
  | VStruct fs => forallb (fun kv => fcanon (snd kv)) fs
  | _ => true
  end.

Theorem enc_jt v : fcanon v = true -> forall t, rrel (enc t v) (jt t v).
Proof.
  induction v as [s|z|x|b|x| |v IH|l IH|fs IH] using gval_ind'; intros HC t;
    destruct t as [|bits| | | |t|t|n]; try exact eq_refl; cbn [enc jt]; try exact (conj eq_refl eq_refl).
  - split; [reflexivity|]. apply dec_int_is_num.
  - cbn [fcanon] in HC. destruct (fmt_float x) as [s|] eqn:E; [|reflexivity].
    assert (EF : finite x = true) by (destruct x; [reflexivity|discriminate|discriminate]).
    destruct (fmt_parse x HC EF) as (s' & Es & Hn & _). rewrite E in Es. injection Es as <-.
    split; [reflexivity|exact Hn].
  - destruct ((0 <=? t_year x)%Z && (t_year x <=? 9999)%Z); [split; reflexivity|reflexivity].
  - apply IH. exact HC.
  - cbn [fcanon] in HC. rewrite forallb_forall in HC.
    assert (HF : Forall (fun v => rrel (enc t v) (jt t v)) l).
    { apply Forall_forall. intros y Hy. rewrite Forall_forall in IH. apply IH; auto. }
    pose proof (rmap_rel t l HF) as HR.
    change (rmap (fun x => enc t x) l) with (rmap (enc t) l). change (rmap (fun x => jt t x) l) with (rmap (jt t) l).
    destruct (rmap (enc t) l) as [a| |], (rmap (jt t) l) as [c| |]; try contradiction; cbn [rbind]; [|exact HR|exact I].
    destruct HR as [-> HW]. split; [reflexivity|exact HW].
  - destruct (find_decl n) as [d|] eqn:Ed; [|reflexivity].
    apply find_decl_in in Ed. destruct Ed as [HD _]. apply struct_rel; [exact HD|].
    cbn [fcanon] in HC. rewrite forallb_forall in HC. rewrite Forall_forall in IH.
    unfold erel. clear HD. induction fs as [|[k y] fs IHf]; [constructor|]. cbn [map]. constructor.
    + cbn [fst snd]. pose proof (IH (k, y) (or_introl eq_refl) (HC (k, y) (or_introl eq_refl))) as Hy.
      cbn [snd] in Hy. destruct (find_field d k) as [f|]; cbn [fst snd]; split; [reflexivity|split;[reflexivity|apply Hy]|reflexivity|split;reflexivity].
    + apply IHf; intros z Hz; [apply IH|apply HC]; right; exact Hz.
Qed.
