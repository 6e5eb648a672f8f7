(** Lemmas on the SOAP transport. *)
From Verif Require Import GoBase Utf8 Json Float64 GoTime Lang Types Codec EncProofs Tables Registry
  SpecCodec SpecEnc RoundTrip Xml XmlProofs Soap SpecSoap.
Open Scope string_scope.
Open Scope list_scope.

(** ** Names *)

Definition all_names : list (string * string * string) :=
  map (fun a => (decap a +++ "Request", "urn://Ocpp/Cs/2012/06/", "cpreq." +++ a)) from_charge_point ++
  map (fun a => (decap a +++ "Response", "urn://Ocpp/Cs/2012/06/", "cpresp." +++ a)) from_charge_point ++
  map (fun a => (decap a +++ "Request", "urn://Ocpp/Cp/2012/06/", "csreq." +++ a)) from_central_system ++
  map (fun a => (decap a +++ "Response", "urn://Ocpp/Cp/2012/06/", "csresp." +++ a)) from_central_system.

Lemma element_in nm ns ty : element_of nm ns ty <-> In (nm, ns, ty) all_names.
Proof.
  unfold all_names. rewrite !in_app_iff, !in_map_iff. split.
  - intros [a H|a H|a H|a H]; [left|right; left|right; right; left|right; right; right]; exists a; auto.
  - intros [(a & E & H)|[(a & E & H)|[(a & E & H)|(a & E & H)]]]; injection E as <- <- <-; constructor; exact H.
Qed.

(** The table of marshal.go against the messages of OCPP 1.5. *)
Lemma table_names nm ty : lookup nm soap_names = Some ty <->
  exists ns, element_of nm ns ty /\ charge_point_transfer ty = false.
Proof.
  split.
  - intros H. apply lookup_In in H.
    assert (forallb (fun p => negb (charge_point_transfer (snd p)) &&
       existsb (fun q => String.eqb (fst (fst q)) (fst p) && String.eqb (snd q) (snd p)) all_names) soap_names = true) as K
      by (vm_compute; reflexivity).
    rewrite forallb_forall in K. specialize (K _ H). cbn [fst snd] in K. apply andb_true_iff in K. destruct K as [K1 K2].
    apply existsb_exists in K2. destruct K2 as ([[n s] t] & K3 & K4). cbn [fst snd] in K4.
    apply andb_true_iff in K4. destruct K4 as [K4 K5]. apply String.eqb_eq in K4. apply String.eqb_eq in K5. subst n t.
    exists s. split; [apply element_in; exact K3|]. apply negb_true_iff. exact K1.
  - intros (ns & H & HT). apply element_in in H.
    assert (forallb (fun q => charge_point_transfer (snd q) ||
       match lookup (fst (fst q)) soap_names with Some t => String.eqb t (snd q) | None => false end) all_names = true) as K
      by (vm_compute; reflexivity).
    rewrite forallb_forall in K. specialize (K _ H). cbn [fst snd] in K. rewrite HT in K. cbn [orb] in K.
    destruct (lookup nm soap_names) as [t|]; [|discriminate K]. apply String.eqb_eq in K. congruence.
Qed.

(** XMLName of the struct types. *)
Definition xmlname (ty : string) : option (string * string) :=
  match find_decl ty with Some d => d_xml d | None => None end.
Lemma type_names nm ns ty : element_of nm ns ty -> xmlname ty = Some (ns, nm).
Proof.
  intros H. apply element_in in H.
  assert (forallb (fun q => match xmlname (snd q) with Some (s, n) => String.eqb s (snd (fst q)) && String.eqb n (fst (fst q)) | None => false end) all_names = true) as K
    by (vm_compute; reflexivity).
  rewrite forallb_forall in K. specialize (K _ H). cbn [fst snd] in K. destruct (xmlname ty) as [[s n]|]; [|discriminate K].
  apply andb_true_iff in K. destruct K as [K1 K2]. apply String.eqb_eq in K1. apply String.eqb_eq in K2. congruence.
Qed.

Lemma table_xmlname nm ty : lookup nm soap_names = Some ty -> exists ns, ns <> "" /\ xmlname ty = Some (ns, nm).
Proof.
  intros H. apply table_names in H. destruct H as (ns & H & _). exists ns. split; [|apply type_names; exact H].
  inversion H; subst; discriminate.
Qed.

(** ** Decoding a struct checks its name *)

Lemma xdec_name x ty v : xdec x (TStruct ty) (zero (TStruct ty)) = Some v -> forall ns nm, xmlname ty = Some (ns, nm) -> ns <> "" ->
  local x = nm /\ space x = ns.
Proof.
  destruct x as [n l at_ ks|]; [|discriminate]. unfold xmlname. cbn [xdec xat zero local space].
  destruct (find_decl ty) as [d|]; [|discriminate]. unfold zero_struct. intros H ns nm HX HN.
  destruct (xname_ok d (n, l)) eqn:E; [|discriminate H]. unfold xname_ok in E. rewrite HX in E. cbn [fst snd] in E.
  apply andb_true_iff in E. destruct E as [E1 E2]. apply String.eqb_eq in E1. apply String.eqb_neq in HN. rewrite HN in E2.
  cbn [orb] in E2. apply String.eqb_eq in E2. auto.
Qed.

(** ** Bodies *)

Definition is_fault (k : xml) : bool := String.eqb (local k) "Fault".
Definition reads (k : xml) (m : msg) : Prop :=
  lookup (local k) soap_names = Some (m_ty m) /\
  xdec k (TStruct (m_ty m)) (zero (TStruct (m_ty m))) = Some (m_val m).

(** Effect of a list of body elements. *)
Inductive body_run : list xml -> envelope -> envelope -> Prop :=
| BNil e : body_run [] e e
| BFault k ks e e' : is_fault k = true -> body_run ks (MkE (e_header e) (e_content e) (Some (fault_text (children k)))) e' ->
    body_run (k :: ks) e e'
| BMsg k ks e e' m : is_fault k = false -> reads k m -> body_run ks (MkE (e_header e) (Some m) (e_fault e)) e' ->
    body_run (k :: ks) e e'.

Lemma dec_body_run kids : forall e e', dec_body kids e = Some e' <-> body_run (elements kids) e e'.
Proof.
  induction kids as [|k kids IH]; intros e e'.
  - cbn. split; [intros H; injection H as <-; constructor|]. intros H. inversion H. reflexivity.
  - destruct k as [ns nm at_ ks|s]; [|exact (IH e e')].
    cbn [dec_body elements filter is_element]. change (filter is_element kids) with (elements kids).
    destruct (String.eqb_spec nm "Fault") as [EF|EF].
    + rewrite IH. split; intros H.
      * apply BFault; [unfold is_fault; cbn [local]; subst nm; reflexivity|exact H].
      * inversion H as [|? ? ? ? H1 H2|? ? ? ? ? H1 H2 H3]; subst; [exact H2|discriminate H1].
    + destruct (lookup nm soap_names) as [ty|] eqn:EL.
      * destruct (xdec (XE ns nm at_ ks) (TStruct ty) (zero (TStruct ty))) as [v|] eqn:EX.
        -- rewrite IH. split; intros H.
           ++ apply (BMsg _ _ _ _ (MkMsg ty v)); [|split; [exact EL|exact EX]|exact H].
              unfold is_fault. cbn [local]. apply String.eqb_neq. exact EF.
           ++ inversion H as [|? ? ? ? H1 H2|? ? ? ? m H1 [H2 H3] H4]; subst.
              ** unfold is_fault in H1. cbn [local] in H1. apply String.eqb_eq in H1. contradiction.
              ** cbn [local] in H2. rewrite EL in H2. injection H2 as H2. destruct m as [t0 v0]. cbn [m_ty m_val] in *. subst t0.
                 rewrite EX in H3. injection H3 as <-. exact H4.
        -- split; [discriminate|]. intros H. exfalso. inversion H as [|? ? ? ? H1 H2|? ? ? ? m H1 [H2 H3] H4]; subst.
           ++ unfold is_fault in H1. cbn [local] in H1. apply String.eqb_eq in H1. contradiction.
           ++ cbn [local] in H2. rewrite EL in H2. injection H2 as H2. rewrite <- H2, EX in H3. discriminate H3.
      * split; [discriminate|]. intros H. exfalso. inversion H as [|? ? ? ? H1 H2|? ? ? ? m H1 [H2 H3] H4]; subst.
        -- unfold is_fault in H1. cbn [local] in H1. apply String.eqb_eq in H1. contradiction.
        -- cbn [local] in H2. rewrite EL in H2. discriminate H2.
Qed.

Lemma body_run_app a b e e' : body_run (a ++ b) e e' <-> exists e1, body_run a e e1 /\ body_run b e1 e'.
Proof.
  revert e. induction a as [|k a IH]; intros e; cbn [app].
  - split; [intros H; exists e; split; [constructor|exact H]|]. intros (e1 & H1 & H2). inversion H1; subst. exact H2.
  - split.
    + intros H. inversion H as [|? ? ? ? H1 H2|? ? ? ? m H1 H2 H3]; subst.
      * apply IH in H2. destruct H2 as (e1 & H2 & H3). exists e1. split; [apply BFault; assumption|exact H3].
      * apply IH in H3. destruct H3 as (e1 & H3 & H4). exists e1. split; [apply (BMsg _ _ _ _ m); assumption|exact H4].
    + intros (e1 & H & HB). inversion H as [|? ? ? ? H1 H2|? ? ? ? m H1 H2 H3]; subst.
      * apply BFault; [exact H1|]. apply IH. exists e1. auto.
      * apply (BMsg _ _ _ _ m); [exact H1|exact H2|]. apply IH. exists e1. auto.
Qed.

(** Headers do not interact with bodies. *)
Lemma body_run_header ks e e' : body_run ks e e' -> e_header e' = e_header e.
Proof. induction 1; auto. Qed.
Lemma body_run_with ks e e' h : body_run ks e e' -> body_run ks (MkE h (e_content e) (e_fault e)) (MkE h (e_content e') (e_fault e')).
Proof.
  induction 1 as [e|k ks e e' H1 H2 IH|k ks e e' m H1 H2 H3 IH]; [constructor| |].
  - apply BFault; [exact H1|exact IH].
  - apply (BMsg _ _ _ _ m); [exact H1|exact H2|exact IH].
Qed.

(** ** Envelopes *)

Definition fold_id (hs : list xml) (cur : option string) : option string :=
  fold_left (fun cur h => Some (last_text "chargeBoxIdentity" (children h) (match cur with Some s => s | None => "" end))) hs cur.

Definition bodies (kids : list xml) : list xml := flat_map (fun b => elements (children b)) (named "Body" kids).

Lemma dec_env_run kids : forall e e', dec_env_kids kids e = Some e' <->
  body_run (bodies kids) (MkE (fold_id (named "Header" kids) (e_header e)) (e_content e) (e_fault e)) e'.
Proof.
  induction kids as [|k kids IH]; intros e e'.
  - cbn. split; [intros H; injection H as <-; destruct e; constructor|]. intros H. inversion H. destruct e; reflexivity.
  - destruct k as [ns nm at_ ks|s]; [|exact (IH e e')].
    cbn [dec_env_kids]. unfold bodies, named. cbn [filter is_element local andb].
    destruct (String.eqb_spec nm "Header") as [EH|EH].
    + subst nm. cbn [flat_map fold_id fold_left children]. rewrite IH. reflexivity.
    + destruct (String.eqb_spec nm "Body") as [EB|EB].
      * cbn [flat_map children]. rewrite body_run_app.
        destruct (dec_body ks e) as [e1|] eqn:ED.
        -- rewrite IH. apply dec_body_run in ED. pose proof (body_run_header _ _ _ ED) as EHd.
           change (filter (fun k => is_element k && (local k =? "Body")) kids) with (named "Body" kids).
           change (filter (fun k => is_element k && (local k =? "Header")) kids) with (named "Header" kids).
           fold (bodies kids). split; intros H.
           ++ eexists. split; [apply (body_run_with _ _ _ (fold_id (named "Header" kids) (e_header e)) ED)|].
              rewrite <- EHd. exact H.
           ++ destruct H as (e2 & H1 & H2). pose proof (body_run_header _ _ _ H1) as E2. cbn [e_header] in E2. apply (body_run_with _ _ _ (e_header e)) in H1. cbn [e_content e_fault] in H1.
              destruct e as [eh ec ef]. cbn [e_header e_content e_fault] in *.
              assert (MkE eh (e_content e2) (e_fault e2) = e1) as E.
              { apply dec_body_run in H1. apply dec_body_run in ED. congruence. }
              subst e1. cbn [e_header e_content e_fault].
              rewrite <- E2. destruct e2; exact H2.
        -- split; [discriminate|]. intros (e2 & H1 & _). apply (body_run_with _ _ _ (e_header e)) in H1.
           cbn [e_content e_fault] in H1. destruct e as [eh ec ef]. cbn [e_header e_content e_fault] in *.
           apply dec_body_run in H1. rewrite ED in H1. discriminate H1.
      * exact (IH e e').
Qed.

Lemma last_text_spec kids nm : forall cur, last_text nm kids cur =
  match rev (named nm kids) with [] => cur | x :: _ => chars x end.
Proof.
  induction kids as [|k kids IH]; intros cur; [reflexivity|].
  change (last_text nm (k :: kids) cur) with (last_text nm kids (match k with XE _ l _ ks => if String.eqb l nm then text_of ks else cur | XT _ => cur end)).
  rewrite IH. unfold named. cbn [filter].
  destruct k as [ns l at_ ks|s]; cbn [is_element local andb]; [|reflexivity].
  destruct (String.eqb l nm); [|reflexivity]. cbn [rev].
  change (filter (fun k => is_element k && (local k =? nm)) kids) with (named nm kids).
  destruct (rev (named nm kids)); reflexivity.
Qed.

Lemma fold_id_spec hs : forall cur, fold_id hs cur =
  match hs with
  | [] => cur
  | _ => Some (match rev (flat_map (fun h => named "chargeBoxIdentity" (children h)) hs) with
               | [] => match cur with Some s => s | None => "" end
               | x :: _ => chars x
               end)
  end.
Proof.
  induction hs as [|h hs IH]; intros cur; [reflexivity|].
  change (fold_id (h :: hs) cur) with (fold_id hs (Some (last_text "chargeBoxIdentity" (children h) (match cur with Some s => s | None => "" end)))).
  rewrite IH. cbn [flat_map]. rewrite rev_app_distr.
  destruct hs as [|h' hs]; [cbn [flat_map rev app]; rewrite last_text_spec; reflexivity|].
  destruct (rev (flat_map _ (h' :: hs))) as [|x l]; [|reflexivity].
  cbn [app]. rewrite last_text_spec. reflexivity.
Qed.

(** [Unmarshal] in terms of the elements of the document. *)
Lemma dec_envelope_run doc e : dec_envelope (Some doc) = Some e <->
  local doc = "Envelope" /\ body_run (body_elements doc) (MkE (stated_identity doc) None None) e.
Proof.
  destruct doc as [ns nm at_ ks|s].
  - cbn [dec_envelope local]. destruct (String.eqb_spec nm "Envelope") as [E|E].
    + rewrite dec_env_run. cbn [e_header e_content e_fault]. rewrite fold_id_spec. unfold stated_identity, body_elements. cbn [children].
      fold (bodies ks).
      split; [intros H; split; [exact E|]|intros [_ H]]; destruct (named "Header" ks); exact H.
    + split; [discriminate|]. intros [H _]. contradiction.
  - split; [discriminate|]. intros [H _]. discriminate H.
Qed.

(** The last message of a list of body elements. *)
Definition last_message (l : list xml) (m : msg) : Prop :=
  exists a k b, l = a ++ k :: b /\ is_fault k = false /\ forallb is_fault b = true /\ reads k m.

Lemma body_run_each l e e' : body_run l e e' -> forall k, In k l -> is_fault k = true \/ exists m, reads k m.
Proof. induction 1 as [|k ks e e' H1 H2 IH|k ks e e' m H1 H2 H3 IH]; intros k0 HI.
  - destruct HI.
  - destruct HI as [<-|HI]; [left; exact H1|exact (IH k0 HI)].
  - destruct HI as [<-|HI]; [right; exists m; exact H2|exact (IH k0 HI)].
Qed.

Lemma body_run_total l : (forall k, In k l -> is_fault k = true \/ exists m, reads k m) -> forall e, exists e', body_run l e e'.
Proof.
  induction l as [|k l IH]; intros H e; [exists e; constructor|].
  destruct (is_fault k) eqn:EF.
  - destruct (IH (fun k' HI => H k' (or_intror HI)) (MkE (e_header e) (e_content e) (Some (fault_text (children k))))) as [e' H'].
    exists e'. apply BFault; assumption.
  - destruct (H k (or_introl eq_refl)) as [K|[m K]]; [congruence|].
    destruct (IH (fun k' HI => H k' (or_intror HI)) (MkE (e_header e) (Some m) (e_fault e))) as [e' H'].
    exists e'. apply (BMsg _ _ _ _ m); assumption.
Qed.

Lemma faults_only l e e' : body_run l e e' -> forallb is_fault l = true -> e_content e' = e_content e.
Proof.
  induction 1 as [|k ks e e' H1 H2 IH|k ks e e' m H1 H2 H3 IH]; intros HF; [reflexivity| |].
  - cbn in HF. apply andb_true_iff in HF. exact (IH (proj2 HF)).
  - cbn in HF. rewrite H1 in HF. discriminate HF.
Qed.

Lemma body_run_content l e e' : body_run l e e' ->
  (forallb is_fault l = true /\ e_content e' = e_content e) \/ (exists m, e_content e' = Some m /\ last_message l m).
Proof.
  induction 1 as [|k ks e e' H1 H2 IH|k ks e e' m H1 H2 H3 IH].
  - left. split; reflexivity.
  - destruct IH as [[IH1 IH2]|(m & IH1 & a & k' & b & -> & IH3)].
    + left. split; [cbn; rewrite H1; exact IH1|exact IH2].
    + right. exists m. split; [exact IH1|]. exists (k :: a), k', b. split; [reflexivity|exact IH3].
  - right. destruct IH as [[IH1 IH2]|(m' & IH1 & a & k' & b & -> & IH3)].
    + exists m. split; [exact IH2|]. exists [], k, ks. auto.
    + exists m'. split; [exact IH1|]. exists (k :: a), k', b. split; [reflexivity|exact IH3].
Qed.

Lemma body_run_fault l e e' : body_run l e e' ->
  e_fault e' = match rev (filter is_fault l) with [] => e_fault e | k :: _ => Some (fault_text (children k)) end.
Proof.
  induction 1 as [|k ks e e' H1 H2 IH|k ks e e' m H1 H2 H3 IH]; [reflexivity| |].
  - cbn [filter]. rewrite H1. cbn [rev]. rewrite IH. destruct (rev (filter is_fault ks)); reflexivity.
  - cbn [filter]. rewrite H1. rewrite IH. reflexivity.
Qed.

Lemma reads_fun k m m' : reads k m -> reads k m' -> m = m'.
Proof.
  intros [H1 H2] [H3 H4]. destruct m as [t v], m' as [t' v']. cbn [m_ty m_val] in *.
  rewrite H1 in H3. injection H3 as <-. rewrite H2 in H4. injection H4 as <-. reflexivity.
Qed.

(** What [reads] means in the words of the OCPP 1.5 service descriptions. *)
Lemma reads_spec k m : reads k m <->
  exists ns, element_of (local k) ns (m_ty m) /\ charge_point_transfer (m_ty m) = false /\ space k = ns /\
    xdec k (TStruct (m_ty m)) (zero (TStruct (m_ty m))) = Some (m_val m).
Proof.
  split.
  - intros [H1 H2]. pose proof H1 as H3. apply table_names in H3. destruct H3 as (ns & H3 & H4). exists ns.
    split; [exact H3|]. split; [exact H4|]. split; [|exact H2].
    apply (fun H => proj2 (xdec_name _ _ _ H2 _ _ (type_names _ _ _ H3) H)). inversion H3; subst; discriminate.
  - intros (ns & H1 & H2 & H3 & H4). split; [|exact H4]. apply table_names. eauto.
Qed.
