(** Property theorem C98: what an accepted SOAP message means. *)
From Verif Require Import SpecJson SpecDouble.
From Verif Require DoubleProofs.
From Verif Require Import GoBase Utf8 Json Float64 GoTime Lang Types Codec SpecCodec SpecEnc SpecSchema Xml SpecSoap Wsdl SpecWsdl SpecTime SpecTells.
From Verif Require Import EncProofs DecTyped XmlTyped Registry Soap SoapProofs PropsSoap TellsProofs.
Open Scope string_scope.
Open Scope list_scope.

(** *** C98: every field of an accepted SOAP message comes from the element or attribute of its name. *)

Lemma element_typed nm ns ty : element_of nm ns ty -> exists d, find_decl ty = Some d /\ nm <> "".
Proof.
  intros H. pose proof (type_names _ _ _ H) as HX. unfold xmlname in HX. destruct (find_decl ty) as [d|]; [|discriminate HX]. exists d. split; [reflexivity|].
  destruct H as [a HI|a HI|a HI|a HI]; cbn in HI; repeat (destruct HI as [<-|HI]; [vm_compute; discriminate|]); destruct HI.
Qed.

(** An element is taken as a message exactly if it says it. *)
Theorem C98_element : forall x m, holds x m <-> bears x m.
Proof.
  intros x m. unfold holds, bears.
  assert (G : element_of (local x) (space x) (m_ty m) -> (xdec x (TStruct (m_ty m)) (zero (TStruct (m_ty m))) = Some (m_val m) <-> tells (TStruct (m_ty m)) x (m_val m))).
  { intros H. destruct (element_typed _ _ _ H) as (d & Hd & NE). apply decoded_tells; [cbn [tyok]; rewrite Hd; reflexivity|].
    destruct x; [reflexivity|]. contradiction (NE eq_refl). }
  split; intros (H1 & H2 & H3); (split; [exact H1|split; [exact H2|apply (G H1); exact H3]]).
Qed.
Print Assumptions C98_element.

(** It says one thing at most. *)
Theorem C98_certain : forall ty d x v w, find_decl ty = Some d -> is_element x = true -> tells (TStruct ty) x v -> tells (TStruct ty) x w -> v = w.
Proof.
  intros ty d x v w Hd HE H1 H2. assert (HT : tyok (TStruct ty) = true) by (cbn [tyok]; rewrite Hd; reflexivity).
  apply (decoded_tells x _ _ HT HE) in H1. apply (decoded_tells x _ _ HT HE) in H2. congruence.
Qed.
Print Assumptions C98_certain.
Lemma bears_one k m m' : bears k m -> bears k m' -> m = m'.
Proof.
  intros H H'. apply C98_element in H, H'. apply holds_reads in H, H'. destruct H as [H1 H2], H' as [H1' H2']. destruct m as [ty v], m' as [ty' v']. cbn [m_ty m_val] in *.
  assert (ty' = ty) as -> by congruence. f_equal. congruence.
Qed.

(** The handler of a server is called with a request exactly if the last element of
    the body that is no fault says that request, every other element says some
    message or is a fault, the sender is stated, and there is a handler for it. *)
Theorem C98_called : forall app dir serve doc m id, server app dir serve ->
  (In (m, id) (o_calls (serve doc)) <->
   exists d, doc = Some d /\ local d = "Envelope" /\ dir (m_ty m) = true /\ stated_identity d = Some id /\
     (forall k, In k (body_elements d) -> local k = "Fault" \/ exists m', bears k m') /\
     exists a k b, body_elements d = a ++ k :: b /\ local k <> "Fault" /\ bears k m /\ forall k', In k' b -> local k' = "Fault").
Proof.
  intros app dir serve doc m id HS. split.
  - intros HI. destruct (C53_called_with _ _ _ _ _ _ HS HI) as (d & e & -> & HE & HC & HID & HD & _). exists d. split; [reflexivity|].
    destruct (proj1 (C50_accepted d) (ex_intro _ e HE)) as [HL HK]. split; [exact HL|]. split; [exact HD|]. split; [exact HID|]. split.
    + intros k Hk. destruct (HK k Hk) as [K|[m' K]]; [left; exact K|right; exists m'; apply C98_element; exact K].
    + pose proof (C50_last_wins d e HE) as LW. rewrite HC in LW. destruct LW as (a & k & b & E1 & E2 & E3 & E4). exists a, k, b.
      split; [exact E1|]. split; [exact E2|]. split; [apply C98_element; exact E3|exact E4].
  - intros (d & -> & HL & HD & HID & HK & a & k & b & E1 & E2 & E3 & E4).
    destruct (proj2 (C50_accepted d)) as [e HE].
    { split; [exact HL|]. intros j Hj. destruct (HK j Hj) as [K|[m' K]]; [left; exact K|right; exists m'; apply C98_element; exact K]. }
    pose proof (C50_last_wins d e HE) as LW. destruct (e_content e) as [m'|] eqn:EC.
    2: { exfalso. apply E2, LW. rewrite E1. apply in_or_app. right. left. reflexivity. }
    destruct LW as (a' & k' & b' & F1 & F2 & F3 & F4).
    assert (U : forall (a a' b b' : list xml), a ++ k :: b = a' ++ k' :: b' -> (forall j, In j b -> local j = "Fault") -> (forall j, In j b' -> local j = "Fault") -> k = k').
    { clear -E2 F2. induction a as [|x a IH]; intros [|x' a'] b b' E B B'; cbn [app] in E; injection E as X E.
      - exact X.
      - exfalso. apply F2, B. rewrite E. apply in_or_app. right. left. reflexivity.
      - exfalso. apply E2, B'. rewrite <- E. apply in_or_app. right. left. reflexivity.
      - exact (IH _ _ _ E B B'). }
    assert (k = k') as <- by (apply (U a a' b b'); [congruence|exact E4|exact F4]).
    apply C98_element in F3. assert (m = m') as <- by exact (bears_one _ _ _ E3 F3).
    pose proof (C53_reached app dir serve d e m HS HE EC HD) as R. rewrite HID in R. destruct R as [R _]. rewrite R. left. reflexivity.
Qed.
Print Assumptions C98_called.

(** A call returns a response exactly if the only element of the body that comes
    last says it and is a response to the request. *)
Theorem C98_response : forall url mid from id req post m, is_request (m_ty req) = true ->
  (fst (soap_send url mid from id req post) = Ok m <->
   url <> "" /\ exists a x st d, action_of (m_ty req) = Some a /\ request_envelope url a mid from id req = Some x /\ post x = HDoc st (Some d) /\
     local d = "Envelope" /\ response_of (m_ty req) = Some (m_ty m) /\
     (forall k, In k (body_elements d) -> exists m', bears k m') /\
     exists b k, body_elements d = b ++ [k] /\ bears k m).
Proof.
  intros url mid from id req post m HQ. rewrite (C55_result url mid from id req post m HQ).
  split; intros (NU & a & x & st & d & H1 & H2 & H3 & H4 & H5 & H6 & b & k & H7 & H8); (split; [exact NU|]); exists a, x, st, d;
    (split; [exact H1|]); (split; [exact H2|]); (split; [exact H3|]); (split; [exact H4|]); (split; [exact H5|]);
    (split; [intros j Hj; destruct (H6 j Hj) as [m' K]; exists m'; apply C98_element; exact K|]);
    exists b, k; (split; [exact H7|]); apply C98_element; exact H8.
Qed.
Print Assumptions C98_response.

(** In particular: a field is nil, zero or empty if no child element is meant for
    it; the value of a repeated plain element is that of its last occurrence; and
    the pieces of a nested sequence are put together. *)
Theorem C98_field : forall ty d x v, find_decl ty = Some d -> tells (TStruct ty) x v ->
  exists fs, v = VStruct fs /\ map fst fs = map f_name (d_fields d) /\
  forall fd u, In fd (d_fields d) -> lookup (f_name fd) fs = Some u -> x_kind (f_xml fd) = XElem ->
    let ks := filter (meant d fd) (elements (children x)) in
    given (f_ty fd) ks u /\
    ((forall k, In k (children x) -> is_element k = true -> local k <> x_name (f_xml fd)) -> u = zero (f_ty fd)) /\
    (forall l k, ks = l ++ [k] -> leaf_type (f_ty fd) = true -> tells (f_ty fd) k u) /\
    (forall n, ks <> [] -> f_ty fd = TPtr (TStruct n) -> exists w, u = VPtr w /\ tells (TStruct n) (merged ks) w).
Proof.
  intros ty d x v Hd H. inversion H as [| | | | | | |n d' x' fs Hd' HX HF]; subst. assert (d' = d) as -> by congruence. exists fs. split; [reflexivity|].
  pose proof (names_nodup d (proj1 (find_decl_in _ _ Hd))) as HN.
  destruct (forall2_named _ _ _ HF (fun fd kv P => proj1 P) HN) as [F1 F2]. split; [exact F1|]. intros fd u Hf Hu Kd ks.
  destruct (F2 fd Hf) as (u' & U1 & _ & _ & _ & _ & U2). assert (u' = u) as -> by congruence. cbn [snd] in U2. specialize (U2 Kd). fold ks in U2.
  split; [exact U2|]. split; [|split].
  - intros HA. assert (ks = []) as EK.
    { destruct ks as [|k l] eqn:EF; [reflexivity|]. exfalso.
      assert (In k ks) as I1 by (rewrite EF; left; reflexivity). unfold ks in I1. apply filter_In in I1. destruct I1 as [I1 I2]. unfold elements in I1. apply filter_In in I1. destruct I1 as [I1 I3].
      apply (HA k I1 I3). unfold meant in I2. apply andb_true_iff in I2. apply String.eqb_eq. apply I2. }
    rewrite EK in U2. inversion U2 as [t|t l k v HL HO Hk E1 E2|t ks' vs NE HF'|n ks' v NE Hm]; subst.
    + reflexivity.
    + destruct l; discriminate E2.
    + contradiction (NE eq_refl).
    + contradiction (NE eq_refl).
  - intros l k EK LT. rewrite EK in U2. inversion U2 as [t E1 E2|t l' k' v HL HO Hk E1 E2|t ks' vs NE HF' E1|n ks' v NE Hm E1]; subst.
    + destruct l; discriminate E2.
    + apply app_inj_tail in E2. destruct E2 as [_ ->]. exact Hk.
    + rewrite <- E1 in LT. discriminate LT.
    + rewrite <- E1 in LT. discriminate LT.
  - intros n NE EN. rewrite EN in U2. inversion U2 as [t E1 E2|t l' k' v HL HO Hk E1 E2|t ks' vs NE' HF' E1|n' ks' v NE' Hm E1]; subst.
    + contradiction (NE (eq_sym E2)).
    + discriminate HL.
    + exists v. auto.
Qed.
Print Assumptions C98_field.

(** A case that no service description knows: elements out of order, one repeated,
    one of another namespace, text in between, an unknown one. *)
Definition odd_start : xml :=
  XE ocpp_cs "startTransactionRequest" [("", "id", "x")]
    [XE ocpp_cs "meterStart" [] [XT "1"]; XT " text "; XE "urn:else" "idTag" [] [XT "other"]; XE ocpp_cs "idTag" [] [XT "ta"; XE "" "b" [] [XT "!"]; XT "g"];
     XE ocpp_cs "meterStart" [] [XT (String (chr 10) " +007 ")]; XE ocpp_cs "timestamp" [] [XT "2020-02-29T1:00:00Z"]; XE ocpp_cs "never" [] []].
Definition odd_value : gval := VStruct [("ConnectorId", VInt 0); ("IdTag", VStr "tag"); ("MeterStart", VInt 7); ("ReservationId", VInt 0);
  ("Timestamp", VTime (MkTime 2020 2 29 1 0 0 0 0))].
Example C98_ex : holds odd_start (MkMsg "cpreq.StartTransaction" odd_value).
Proof. split; [exact (ByCPReq "StartTransaction" ltac:(cbn; tauto))|]. split; vm_compute; reflexivity. Qed.

(** An answer to Authorize whose id-tag info comes in two pieces. *)
Definition pieces : xml :=
  XE ocpp_cs "authorizeResponse" []
    [XE ocpp_cs "idTagInfo" [] [XE ocpp_cs "status" [] [XT "Blocked"]; XE ocpp_cs "status" [] [XT "Accepted"]]; XE "urn:else" "idTagInfo" [] [];
     XE ocpp_cs "idTagInfo" [] [XE ocpp_cs "parentIdTag" [] [XT "P1"]]].
Example C98_pieces_ex : bears pieces (MkMsg "cpresp.Authorize"
  (VStruct [("IdTagInfo", VPtr (VStruct [("ExpiryDate", VNil); ("ParentIdTag", VStr "P1"); ("Status", VStr "Accepted")]))])).
Proof. apply C98_element. split; [exact (ByCPResp "Authorize" ltac:(cbn; tauto))|]. split; vm_compute; reflexivity. Qed.

(** *** C101: the numbers received over SOAP, whatever their form. *)

(** A text stands for one double at most. *)
Theorem C101_certain : forall s x y, double_text s x -> double_text s y -> x = y.
Proof. exact DoubleProofs.double_text_certain. Qed.
Print Assumptions C101_certain.

(** An answer to BootNotification with some text for its interval. *)
Definition boot_doc (t : string) : xml :=
  XE ocpp_cs "bootNotificationResponse" []
    [XE ocpp_cs "status" [] [XT "Accepted"]; XE ocpp_cs "currentTime" [] [XT "2020-02-29T01:00:00Z"]; XE ocpp_cs "heartbeatInterval" [] [XT t]].
Definition boot_message (y : f64) : msg := MkMsg "cpresp.BootNotification"
  (VStruct [("Status", VStr "Accepted"); ("CurrentTime", VTime (MkTime 2020 2 29 1 0 0 0 0)); ("Interval", VF64 y)]).

(** It is accepted exactly if the text stands for a double, and then with that one. *)
Theorem C101_interval : forall t m, holds (boot_doc t) m <-> exists y, double_text t y /\ m = boot_message y.
Proof.
  intros t m. assert (X : xdec (boot_doc t) (TStruct "cpresp.BootNotification") (zero (TStruct "cpresp.BootNotification")) =
    match xml_float t with Some y => Some (m_val (boot_message y)) | None => None end).
  { replace (xml_float t) with (xml_float (t +++ "")) by (rewrite sapp_nil_r; reflexivity). lazy -[xml_float]. destruct (xml_float _); reflexivity. }
  split.
  - intros (H1 & H2 & H3).
    assert (E : m_ty m = "cpresp.BootNotification").
    { assert (G : forall l s ty, element_of l s ty -> l = "bootNotificationResponse" -> ty = "cpresp.BootNotification").
      { intros l s ty [a HI|a HI|a HI|a HI] EL; cbn in HI; repeat (destruct HI as [<-|HI]; [solve [discriminate EL|reflexivity]|]); destruct HI. }
      exact (G _ _ _ H1 eq_refl). }
    rewrite E in H3. rewrite X in H3. destruct (xml_float t) as [y|] eqn:EY; [|discriminate H3]. exists y.
    split; [apply DoubleProofs.xml_float_spec; exact EY|]. destruct m as [ty v]. cbn [m_ty m_val] in *. subst ty.
    assert (v = m_val (boot_message y)) as -> by congruence. reflexivity.
  - intros (y & H & ->). apply DoubleProofs.xml_float_spec in H. split; [exact (ByCPResp "BootNotification" ltac:(cbn; tauto))|]. split; [reflexivity|].
    change (m_ty (boot_message y)) with "cpresp.BootNotification". rewrite X, H. reflexivity.
Qed.
Print Assumptions C101_interval.

(** The interval a charge point is told over SOAP, wherever the element stands. *)
Theorem C101_result : forall url mid from id req post m, m_ty req = "cpreq.BootNotification" -> fst (soap_send url mid from id req post) = Ok m ->
  exists x st d b k fs y, post x = HDoc st (Some d) /\ body_elements d = b ++ [k] /\ m_val m = VStruct fs /\ lookup "Interval" fs = Some (VF64 y) /\
    let intervals := filter (fun j => String.eqb (local j) "heartbeatInterval" && (String.eqb (space j) "urn://Ocpp/Cs/2012/06/")) (elements (children k)) in
    (intervals = [] -> y = FFin false 0 (-1074)%Z) /\ (forall l j, intervals = l ++ [j] -> double_text (chars j) y).
Proof.
  intros url mid from id req post m HR H. assert (HQ : is_request (m_ty req) = true) by (rewrite HR; vm_compute; reflexivity).
  pose proof H as H'. apply (C55_result url mid from id req post m HQ) in H'. destruct H' as (_ & _ & _ & _ & _ & _ & _ & _ & _ & HT & _).
  rewrite HR in HT. assert (ET : m_ty m = "cpresp.BootNotification") by (assert (K : response_of "cpreq.BootNotification" = Some "cpresp.BootNotification") by reflexivity; congruence).
  apply (C98_response url mid from id req post m HQ) in H. destruct H as (_ & a & x & st & d & _ & _ & H1 & _ & _ & _ & b & k & H3 & _ & _ & H5). rewrite ET in H5.
  destruct (C98_field "cpresp.BootNotification" d_cpresp_BootNotification k (m_val m) eq_refl H5) as (fs & H6 & H7 & H8).
  set (fd := MkF "Interval" TF64 "interval" false (MkX XElem "heartbeatInterval" true)) in *.
  destruct (lookup "Interval" fs) as [u|] eqn:EU.
  2: { exfalso. assert (In "Interval" (map fst fs)) as I by (rewrite H7; right; right; left; reflexivity). clear -EU I. induction fs as [|[n v] fs IH]; [destruct I|].
       cbn [lookup] in EU. destruct (String.eqb_spec "Interval" n) as [E|N]; [discriminate EU|]. destruct I as [I|I]; [cbn [fst] in I; congruence|auto]. }
  destruct (H8 fd u ltac:(right; right; left; reflexivity) EU eq_refl) as (G & _ & L & _). clear H8.
  assert (FE : filter (fun j => String.eqb (local j) "heartbeatInterval" && String.eqb (space j) "urn://Ocpp/Cs/2012/06/") (elements (children k)) =
    filter (meant d_cpresp_BootNotification fd) (elements (children k))).
  { apply filter_ext. intros j. unfold meant, fd. cbn [f_xml x_name d_cpresp_BootNotification d_xml f_name].
    change (String.eqb "urn://Ocpp/Cs/2012/06/" "") with false. change (String.eqb "heartbeatInterval" "Interval") with false. rewrite !orb_false_r. reflexivity. }
  destruct (filter (meant d_cpresp_BootNotification fd) (elements (children k))) as [|j0 js] eqn:EF.
  - assert (u = VF64 (FFin false 0 (-1074))) as ->.
    { inversion G as [t E1 E2|t l' k' v HL HO Hk E1 E2|t ks' vs NE' HF' E1|n' ks' v NE' Hm E1]; subst. reflexivity. destruct l'; discriminate E2. }
    exists x, st, d, b, k, fs, (FFin false 0 (-1074)%Z). cbv zeta. rewrite FE. split; [exact H1|]. split; [exact H3|]. split; [exact H6|]. split; [exact EU|].
    split; [reflexivity|]. intros l j E. destruct l; discriminate E.
  - destruct (@exists_last _ (j0 :: js) ltac:(discriminate)) as (l0 & j1 & EL).
    pose proof (L l0 j1 EL eq_refl) as T. cbn [fd f_ty] in T. inversion T as [| |? y HD| | | | |]; subst.
    exists x, st, d, b, k, fs, y. cbv zeta. rewrite FE. split; [exact H1|]. split; [exact H3|]. split; [exact H6|]. split; [exact EU|].
    split; [discriminate|]. intros l j E. rewrite EL in E. apply app_inj_tail in E. destruct E as [_ <-]. exact HD.
Qed.
Print Assumptions C101_result.

(** Some forms that are no JSON numbers, and some that are refused. *)
Example C101_ex : Forall (fun p => holds (boot_doc (fst p)) (boot_message (snd p)))
    [("", FFin false 0 (-1074)%Z); (" 0x1.8p+1 ", FFin false (3 * 2 ^ 51)%Z (-51)%Z); ("1_000.5e0", FFin false (2001 * 2 ^ 42)%Z (-43)%Z); ("-.5", FFin true (2 ^ 52)%Z (-53)%Z);
     ("+00", FFin false 0 (-1074)%Z); ("-Infinity", FInf true); ("nAn", FNaN); (bytes [194; 160; 55; 46; 227; 128; 128]%N, FFin false (7 * 2 ^ 50)%Z (-50)%Z)] /\
  Forall (fun t => forall m, ~ holds (boot_doc t) m) [" "; "1__0"; "_1"; "0x1"; "1e400"; "+nan"; "1,5"; "0x1p2000"; "."; "1e"].
Proof.
  split.
  - repeat constructor; (apply C101_interval || idtac); eexists; (split; [|reflexivity]); apply DoubleProofs.xml_float_spec; vm_compute; reflexivity.
  - repeat constructor; intros m H; apply C101_interval in H; destruct H as (y & H & _); apply DoubleProofs.xml_float_spec in H; vm_compute in H; discriminate H.
Qed.
