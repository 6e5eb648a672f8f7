(** Property theorems C85 - C90: the SOAP transport, byte by byte. *)
From Verif Require Import GoBase Utf8 Json Float64 GoTime Lang Types Codec EncProofs Tables Registry Leaves
  SpecCodec SpecEnc RoundTrip DecTyped Xml XmlProofs XmlTyped Soap SpecSoap SoapProofs SoapMore
  SpecXmlText XmlText XmlWritten XmlSyntax SpecXml XmlSyntaxProofs XmlWrite XmlWriteProofs XmlCut XmlBad PropsSoap PropsSoapWire.
Open Scope string_scope.
Open Scope list_scope.

(** The two servers of the library, given bytes ([serve]) and given documents ([on_docs], as in C50 - C67). *)
Inductive byte_server (uni : string -> bool) : (msg -> string -> answer) -> (string -> bool) -> (string -> boutcome) -> (option xml -> outcome) -> Prop :=
| CentralSystemBytes app : byte_server uni app is_cp_request (cs_soap_bytes uni app) (cs_soap app)
| ChargePointBytes app : byte_server uni (fun m _ => app m) is_cs_request (cp_soap_bytes uni app) (cp_soap app).
(** Handlers answer with values of their Go types. *)
Definition typed_app (app : msg -> string -> answer) : Prop := forall m id r e, app m id = (Some r, e) -> msg_ok r = true.

Lemma byte_server_is uni app dir serve on_docs : byte_server uni app dir serve on_docs ->
  serve = handle_bytes uni (guarded dir app) /\ on_docs = handle (guarded dir app) /\ server app dir on_docs.
Proof. intros []; repeat split; constructor. Qed.
Lemma bytes_cases uni h s : handle_bytes uni h s =
  match dec_envelope (read_xml uni s) with
  | None => MkBO [] None false
  | Some e =>
    match e_content e with
    | None => MkBO [] None false
    | Some m =>
      if is_request (m_ty m) then
        match e_header e with
        | None => MkBO [] None true
        | Some id => MkBO (snd (h m id)) (reply_bytes (fst (fst (h m id))) (snd (fst (h m id)))) false
        end
      else MkBO [] None false
    end
  end.
Proof.
  unfold handle_bytes. destruct (dec_envelope (read_xml uni s)) as [e|]; [|reflexivity]. destruct (e_content e) as [m|]; [|reflexivity].
  destruct (is_request (m_ty m)); [|reflexivity]. destruct (e_header e) as [id|]; [|reflexivity]. destruct (h m id) as [[r er] c]. cbn [fst snd]. destruct (reply_bytes r er); reflexivity.
Qed.

(** [answers bo o]: the bytes written are those of a document that is the one of [o], apart from namespace declarations. *)
Definition writes (b : option string) (x : option xml) : Prop :=
  match b, x with
  | None, None => True
  | Some b, Some x => exists d y, ok_doc d /\ show_doc d = b /\ stands_for d y /\ undeclare y = x /\ mild y
  | _, _ => False
  end.
Definition answers (bo : boutcome) (o : outcome) : Prop :=
  bo_calls bo = o_calls o /\ bo_panic bo = o_panic o /\ writes (bo_written bo) (o_written o).
Lemma root_doc c : well_formed c -> is_elem c = true -> ok_doc (MkDoc None [] c) /\ show_doc (MkDoc None [] c) = show c.
Proof. intros H1 H2. split; [|reflexivity]. repeat split; [constructor|exact H1|exact H2]. Qed.
Lemma reply_writes resp err : (forall m, resp = Some m -> msg_ok m = true) -> writes (reply_bytes resp err) (marshal_reply resp err).
Proof.
  intros HM. pose proof (reply_none resp err HM) as HN. destruct (reply_bytes resp err) as [b|] eqn:EB.
  - destruct (reply_read (fun _ => false) resp err b "" HM EB) as (x & y & E1 & _ & E2 & E3 & c & C1 & C2 & C3 & C4). rewrite E1. cbn [writes].
    destruct (root_doc c C1 C2) as [D1 D2]. exists (MkDoc None [] c), y. rewrite D2. repeat split; assumption || apply D1.
  - rewrite (proj1 HN eq_refl). exact I.
Qed.
Lemma guarded_typed app dir m id : typed_app app -> forall r, fst (fst (guarded dir app m id)) = Some r -> msg_ok r = true.
Proof.
  intros HA r. unfold guarded. destruct (dir (m_ty m)); cbn [fst]; [|discriminate]. destruct (app m id) as [r' e] eqn:E. cbn [fst]. intros ->. exact (HA _ _ _ _ E).
Qed.
Lemma handle_same uni app dir s x : typed_app app -> dec_envelope (read_xml uni s) = dec_envelope (Some x) -> answers (handle_bytes uni (guarded dir app) s) (handle (guarded dir app) (Some x)).
Proof.
  intros HA HE. rewrite bytes_cases, handle_cases, HE. destruct (dec_envelope (Some x)) as [e|]; [|repeat split]. destruct (e_content e) as [m|]; [|repeat split].
  destruct (is_request (m_ty m)); [|repeat split]. destruct (e_header e) as [id|]; [|repeat split]. split; [reflexivity|]. split; [reflexivity|]. cbn [bo_written o_written].
  apply reply_writes. exact (guarded_typed app dir m id HA).
Qed.
Lemma doc_reads uni d x rest : ok_doc d -> stands_for d x -> read_xml uni (show_doc d +++ rest) = Some x.
Proof. intros H1 H2. destruct (read_document uni d rest H1) as (y & Y1 & Y2). unfold stands_for in *. rewrite H2 in Y1. injection Y1 as <-. exact Y2. Qed.

(** *** C85: documents, however they are written *)
Theorem C85_document : forall uni d rest, ok_doc d -> exists x, stands_for d x /\ read_xml uni (show_doc d +++ rest) = Some x.
Proof. intros uni d rest H. exact (read_document uni d rest H). Qed.
Theorem C85_server : forall uni app dir serve on_docs d x rest, byte_server uni app dir serve on_docs -> typed_app app -> ok_doc d -> stands_for d x ->
  answers (serve (show_doc d +++ rest)) (on_docs (Some x)).
Proof.
  intros uni app dir serve on_docs d x rest HS HA H1 H2. destruct (byte_server_is _ _ _ _ _ HS) as (-> & -> & _). apply handle_same; [exact HA|].
  rewrite (doc_reads uni d x rest H1 H2). reflexivity.
Qed.
(** Spelling and declarations do not matter ... *)
Theorem C85_spelling : forall uni app dir serve on_docs d1 d2 x1 x2 rest1 rest2, byte_server uni app dir serve on_docs -> ok_doc d1 -> ok_doc d2 ->
  stands_for d1 x1 -> stands_for d2 x2 -> undeclare x1 = undeclare x2 -> mild x1 -> mild x2 -> serve (show_doc d1 +++ rest1) = serve (show_doc d2 +++ rest2).
Proof.
  intros uni app dir serve on_docs d1 d2 x1 x2 r1 r2 HS H1 H2 S1 S2 HU M1 M2. destruct (byte_server_is _ _ _ _ _ HS) as (-> & _ & _).
  rewrite !bytes_cases, (doc_reads uni d1 x1 r1 H1 S1), (doc_reads uni d2 x2 r2 H2 S2), <- (undeclare_envelope x1 M1), <- (undeclare_envelope x2 M2), HU. reflexivity.
Qed.
(** ... nor at the client. *)
Definition delivers (uni : string -> bool) (b : bhttp) (h : http) : Prop :=
  match b, h with
  | BError, HError => True
  | BBody st body, HEmpty st' => st = st' /\ body = ""
  | BBody st body, HDoc st' doc => st = st' /\ body <> "" /\ dec_envelope (read_xml uni body) = dec_envelope doc
  | _, _ => False
  end.
Lemma client_same uni url mid from id req bpost post : msg_ok req = true ->
  (forall a b x, action_of (m_ty req) = Some a -> request_bytes url a mid from id req = Some b -> request_envelope url a mid from id req = Some x -> delivers uni (bpost b) (post x)) ->
  fst (send_bytes uni url mid from id req bpost) = fst (soap_send url mid from id req post).
Proof.
  intros HM HD. unfold send_bytes, soap_send. destruct (action_of (m_ty req)) as [a|]; [|reflexivity]. destruct (response_of (m_ty req)) as [r|]; [|reflexivity].
  unfold call_bytes, call. destruct (String.eqb url ""); [reflexivity|]. pose proof (request_none url a mid from id req HM) as HN. specialize (HD a).
  destruct (request_bytes url a mid from id req) as [b|]; [|rewrite (proj1 HN eq_refl); reflexivity].
  destruct (request_envelope url a mid from id req) as [x|]; [|discriminate (proj2 HN eq_refl)]. specialize (HD b x eq_refl eq_refl eq_refl). cbn [fst].
  destruct (bpost b) as [|st body], (post x) as [|st'|st' doc]; try contradiction HD; [reflexivity| |].
  - destruct HD as [<- ->]. change (String.eqb "" "") with true. cbn [andb]. destruct (Z.eqb st 200); reflexivity.
  - destruct HD as (<- & HB & HE). apply String.eqb_neq in HB. rewrite HB, HE. reflexivity.
Qed.
Lemma doc_nonempty d rest : ok_doc d -> show_doc d +++ rest <> "".
Proof.
  intros H E. destruct (read_document (fun _ => false) d rest H) as (x & _ & R). rewrite E in R. discriminate R.
Qed.
Theorem C85_client : forall uni url mid from id req st d x rest, msg_ok req = true -> ok_doc d -> stands_for d x ->
  fst (send_bytes uni url mid from id req (fun _ => BBody st (show_doc d +++ rest))) = fst (soap_send url mid from id req (fun _ => HDoc st (Some x))).
Proof.
  intros uni url mid from id req st d x rest HM H1 H2. apply client_same; [exact HM|]. intros a b y _ _ _. split; [reflexivity|]. split; [apply doc_nonempty; exact H1|].
  rewrite (doc_reads uni d x rest H1 H2). reflexivity.
Qed.

(** A document with an XML declaration, a comment, prefixes, both kinds of quotes, references, a CDATA section. *)
Fixpoint lits (s : string) : list piece := match s with EmptyString => [] | String c r => Lit c :: lits r end.
Definition typed_in (s : string) : cst := CChars (lits s) s.
Definition tag (nm : string) (kids : list cst) : cst := CElem "" nm [] "" kids "".
Definition loose_doc : document := MkDoc (Some ("'"%char, Some "utf-8")) [CComment " hello "; typed_in (str1 (chr 10))]
  (CElem "s" "Envelope" [MkAttr " " "xmlns" "s" "" "" "'" (lits soap_ns) soap_ns; MkAttr (str1 (chr 10)) "" "xmlns" " " " " dq (lits ocpp_cs) ocpp_cs] " "
    [CElem "s" "Header" [] "" [tag "chargeBoxIdentity" [CChars [Lit "b"; Ref "#x6F"; Lit "x"] "box"]] "";
     typed_in "  ";
     CElem "s" "Body" [] "" [tag "startTransactionRequest"
       [tag "connectorId" [typed_in "1"]; CEmpty "" "idTag" [] ""; tag "idTag" [CCData "tag"]; tag "timestamp" [typed_in "2020-02-29T12:00:01.5Z"]; CInstr "p" "i"; tag "meterStart" [typed_in " 7 "]]] " "] "").
Lemma writes_lits q s : q = None \/ q = Some dq \/ q = Some "'"%char ->
  str_forall (fun c => negb (Ascii.eqb c "<" || Ascii.eqb c "&" || Ascii.eqb c (chr 13) || Ascii.eqb c dq || Ascii.eqb c "'" || Ascii.eqb c "]")) s = true -> xml_clean s = s -> writes_text q (lits s) s.
Proof.
  intros Hq Hs Hc. split; [|split; [|apply clean_id; exact Hc]]; clear Hc.
  - induction s as [|c s IH]; [constructor|]. cbn [str_forall] in Hs. apply andb_true_iff in Hs as [H1 H2]. cbn [lits]. constructor; [|exact (IH H2)].
    apply negb_true_iff in H1. repeat (apply orb_false_iff in H1 as [H1 ?]). repeat match goal with H : Ascii.eqb _ _ = false |- _ => apply Ascii.eqb_neq in H end.
    repeat split; try assumption. intros ->. destruct Hq as [K|[K|K]]; [discriminate K|injection K as ->; contradiction|injection K as ->; contradiction].
  - intros l1 l2 E. assert (HI : In (Lit "]") (lits s)) by (rewrite E; apply in_or_app; right; left; reflexivity). clear E. induction s as [|c s IH]; [exact HI|].
    cbn [str_forall] in Hs. apply andb_true_iff in Hs as [H1 H2]. destruct HI as [K|K]; [|exact (IH H2 K)]. injection K as ->. discriminate H1.
Qed.
Ltac wf := repeat match goal with
  | |- _ /\ _ => split
  | |- True => exact I
  | |- Forall _ [] => constructor
  | |- Forall _ (_ :: _) => constructor
  | |- writes_text _ (lits _) _ => apply writes_lits; [tauto|reflexivity|reflexivity]
  | |- without _ _ => apply has_sub_spec; reflexivity
  | |- xml_text _ => apply clean_id; reflexivity
  | |- _ = true => reflexivity
  | |- _ = false => reflexivity
  | |- _ <> _ => discriminate
  end.
Lemma loose_ok : ok_doc loose_doc.
Proof.
  unfold ok_doc, loose_doc, tag, typed_in. cbn [dc_decl dc_before dc_root ok_decl well_formed fold_right]. wf; try (left; reflexivity); try (right; reflexivity); cbn [well_formed]; wf; try discriminate.
  - repeat split; cbn [a_white a_prefix a_local a_w1 a_w2 a_quote a_pieces a_text]; wf; try discriminate; try (right; reflexivity); apply (writes_lits (Some "'"%char) soap_ns); first [tauto|reflexivity].
  - repeat split; cbn [a_white a_prefix a_local a_w1 a_w2 a_quote a_pieces a_text]; wf; try discriminate; try (left; reflexivity); apply (writes_lits (Some dq) ocpp_cs); first [tauto|reflexivity].
  - split; [|split].
    + constructor; [repeat split; discriminate|]. change "ox" with (utf8_encode 111 +++ "x"). constructor; [|repeat constructor; discriminate]. apply (ref_hex "6F" 111); [|unfold xml_char; lia].
      change "6F" with (str1 "6" +++ str1 "F"). apply (num_more true (str1 "6") 6 "F" 15); [constructor; left; split; reflexivity|]. right. repeat split; try lia. right. reflexivity.
    + intros l1 l2 E. assert (HI : In (Lit "]") [Lit "b"; Ref "#x6F"; Lit "x"]) by (rewrite E; apply in_or_app; right; left; reflexivity). cbn in HI. intuition discriminate.
    + apply clean_id. reflexivity.
Qed.
Example C85_ex : ok_doc loose_doc /\ show_doc loose_doc =
  ("<?xml version='1.0' encoding='utf-8'?><!-- hello -->" +++ str1 (chr 10) +++ "<s:Envelope xmlns:s='http://www.w3.org/2003/05/soap-envelope'" +++ str1 (chr 10) +++ "xmlns = ""urn://Ocpp/Cs/2012/06/"" ><s:Header><chargeBoxIdentity>b&#x6F;x</chargeBoxIdentity></s:Header>  <s:Body><startTransactionRequest><connectorId>1</connectorId><idTag/><idTag><![CDATA[tag]]></idTag><timestamp>2020-02-29T12:00:01.5Z</timestamp><?p i?><meterStart> 7 </meterStart></startTransactionRequest></s:Body ></s:Envelope>") /\
  (exists x, stands_for loose_doc x /\ mild x) /\ typed_app accept_all /\
  bo_calls (cs_soap_bytes (fun _ => false) accept_all (show_doc loose_doc)) = [(start_msg, "box")].
Proof.
  split; [exact loose_ok|]. split; [vm_compute; reflexivity|]. split.
  - eexists. split; [vm_compute; reflexivity|]. cbn [mild fold_right]. repeat split; repeat constructor; cbn; intuition discriminate.
  - split; [|vm_compute; reflexivity]. intros m id r e H. injection H as <- _. vm_compute. reflexivity.
Qed.

(** *** C86: documents that are cut off *)
Theorem C86_request_cut : forall uni app dir serve on_docs d p q, byte_server uni app dir serve on_docs -> ok_doc d -> show_doc d = p +++ q -> q <> "" -> serve p = MkBO [] None false.
Proof.
  intros uni app dir serve on_docs d p q HS H E Hq. destruct (byte_server_is _ _ _ _ _ HS) as (-> & _ & _). rewrite bytes_cases, (read_cut uni d p q H E Hq). reflexivity.
Qed.
Theorem C86_reply_cut : forall uni url mid from id req post d p q, is_request (m_ty req) = true -> (forall s, exists st, post s = BBody st p) ->
  ok_doc d -> show_doc d = p +++ q -> q <> "" -> exists t, fst (send_bytes uni url mid from id req post) = Err t.
Proof.
  intros uni url mid from id req post d p q HQ HP H E Hq. unfold send_bytes. destruct (request_total (m_ty req) HQ) as (a & r & -> & ->). unfold call_bytes. destruct (String.eqb url ""); [eexists; reflexivity|].
  destruct (request_bytes url a mid from id req) as [b|]; [|eexists; reflexivity]. cbn [fst]. destruct (HP b) as (st & ->). rewrite (read_cut uni d p q H E Hq). cbn [dec_envelope].
  destruct (String.eqb p "" && negb (Z.eqb st 200))%bool; [eexists; reflexivity|]. destruct (String.eqb p ""); eexists; reflexivity.
Qed.

(** *** C87: what is written *)
Theorem C87_request : forall uni url mid from id req post post', msg_ok req = true ->
  writes (snd (send_bytes uni url mid from id req post)) (snd (soap_send url mid from id req post')).
Proof.
  intros uni url mid from id req post post' HM. unfold send_bytes, soap_send. destruct (action_of (m_ty req)) as [a|]; [|exact I]. destruct (response_of (m_ty req)) as [r|]; [|exact I].
  unfold call_bytes, call. destruct (String.eqb url ""); [exact I|]. pose proof (request_none url a mid from id req HM) as HN. destruct (request_bytes url a mid from id req) as [b|] eqn:EB.
  - destruct (request_read (fun _ => false) url a mid from id req b "" HM EB) as (x & y & E1 & _ & E2 & E3 & c & C1 & C2 & C3 & C4). rewrite E1. cbn [writes snd].
    destruct (root_doc c C1 C2) as [D1 D2]. exists (MkDoc None [] c), y. rewrite D2. repeat split; assumption || apply D1.
  - rewrite (proj1 HN eq_refl). exact I.
Qed.
(** Whatever is received, document or not. *)
Theorem C87_reply : forall uni app dir serve on_docs s, byte_server uni app dir serve on_docs -> typed_app app -> answers (serve s) (on_docs (read_xml uni s)).
Proof.
  intros uni app dir serve on_docs s HS HA. destruct (byte_server_is _ _ _ _ _ HS) as (-> & -> & _). destruct (read_xml uni s) as [x|] eqn:E.
  - apply handle_same; [exact HA|]. rewrite E. reflexivity.
  - rewrite bytes_cases, handle_cases, E. repeat split.
Qed.
(** So what the library writes, it reads, and no part of it. *)
Lemma writes_read uni b x rest : writes (Some b) (Some x) -> exists y, read_xml uni (b +++ rest) = Some y /\ undeclare y = x /\ mild y /\ b +++ rest <> "".
Proof.
  intros (d & y & H1 & <- & H2 & H3 & H4). exists y. split; [exact (doc_reads uni d y rest H1 H2)|]. split; [exact H3|]. split; [exact H4|]. apply doc_nonempty. exact H1.
Qed.
Lemma writes_dec uni b x rest : writes (Some b) (Some x) -> dec_envelope (read_xml uni (b +++ rest)) = dec_envelope (Some x).
Proof. intros H. destruct (writes_read uni b x rest H) as (y & -> & <- & M & _). symmetry. apply undeclare_envelope. exact M. Qed.
Theorem C87_own_request_cut : forall uni app dir serve on_docs url mid from id req post p q, byte_server uni app dir serve on_docs -> msg_ok req = true ->
  snd (send_bytes uni url mid from id req post) = Some (p +++ q) -> q <> "" -> serve p = MkBO [] None false.
Proof.
  intros uni app dir serve on_docs url mid from id req post p q HS HM HB Hq. pose proof (C87_request uni url mid from id req post (fun _ => HError) HM) as W. rewrite HB in W.
  destruct (snd (soap_send url mid from id req (fun _ => HError))) as [x|]; [|destruct W]. destruct W as (d & y & H1 & H2 & _). exact (C86_request_cut uni app dir serve on_docs d p q HS H1 H2 Hq).
Qed.
Theorem C87_own_reply_cut : forall uni app dir serve on_docs s url mid from id req post p q, byte_server uni app dir serve on_docs -> typed_app app -> is_request (m_ty req) = true ->
  bo_written (serve s) = Some (p +++ q) -> q <> "" -> (forall b, exists st, post b = BBody st p) -> exists t, fst (send_bytes uni url mid from id req post) = Err t.
Proof.
  intros uni app dir serve on_docs s url mid from id req post p q HS HA HQ HB Hq HP. destruct (C87_reply uni app dir serve on_docs s HS HA) as (_ & _ & W). rewrite HB in W.
  destruct (o_written (on_docs (read_xml uni s))) as [x|]; [|destruct W]. destruct W as (d & y & H1 & H2 & _). exact (C86_reply_cut uni url mid from id req post d p q HQ HP H1 H2 Hq).
Qed.
Definition byte_exchange (uni : string -> bool) (serve : string -> boutcome) (url mid from id : string) (req : msg) : res msg :=
  fst (send_bytes uni url mid from id req (fun b => breply_of (serve b))).
Example C87_ex : msg_ok odd_msg = true /\ typed_app accept_all /\
  (exists b, snd (send_bytes (fun _ => false) ex_url "m" "" "bo""x" odd_msg (fun _ => BError)) = Some b /\ String.length b = 612%nat /\ (exists q, b = "<S:Envelope xmlns:S" +++ q)) /\
  (exists b, bo_written (cs_soap_bytes (fun _ => false) accept_all (show_doc loose_doc)) = Some b /\ String.length b = 318%nat).
Proof.
  split; [reflexivity|]. split; [intros m id r e H; injection H as <- _; vm_compute; reflexivity|]. split.
  - eexists. split; [vm_compute; reflexivity|]. split; [vm_compute; reflexivity|]. eexists. cbn [String.append]. reflexivity.
  - eexists. split; vm_compute; reflexivity.
Qed.

(** *** C88: client and server *)
Theorem C88_same : forall uni app dir serve on_docs url mid from id req, byte_server uni app dir serve on_docs -> typed_app app -> msg_ok req = true ->
  byte_exchange uni serve url mid from id req = exchange on_docs url mid from id req.
Proof.
  intros uni app dir serve on_docs url mid from id req HS HA HM. unfold byte_exchange, exchange. apply client_same; [exact HM|]. intros a b x HAc HB HX.
  destruct (request_read uni url a mid from id req b "" HM HB) as (x' & y & E1 & E2 & E3 & E4 & _). rewrite HX in E1. injection E1 as <-. rewrite sapp_nil_r in E2.
  destruct (byte_server_is _ _ _ _ _ HS) as (-> & -> & _).
  assert (K : answers (handle_bytes uni (guarded dir app) b) (handle (guarded dir app) (Some x))) by (apply handle_same; [exact HA|]; rewrite E2, <- E3; symmetry; apply undeclare_envelope; exact E4).
  destruct K as (_ & K2 & K3). unfold breply_of, reply_of. rewrite K2. destruct (o_panic (handle (guarded dir app) (Some x))); [exact I|].
  destruct (bo_written (handle_bytes uni (guarded dir app) b)) as [w|], (o_written (handle (guarded dir app) (Some x))) as [v|]; try contradiction K3; [|split; reflexivity].
  split; [reflexivity|]. pose proof (writes_dec uni w v "" K3) as D. destruct (writes_read uni w v "" K3) as (_ & _ & _ & _ & N). rewrite sapp_nil_r in D, N. split; [exact N|exact D].
Qed.
Theorem C88_handler_called : forall uni app dir serve on_docs url mid from id req, byte_server uni app dir serve on_docs -> typed_app app -> sendable dir req -> url <> "" ->
  exists b, snd (send_bytes uni url mid from id req (fun b => breply_of (serve b))) = Some b /\ bo_calls (serve b) = [(arrived req, xml_clean id)] /\ bo_panic (serve b) = false.
Proof.
  intros uni app dir serve on_docs url mid from id req HS HA HQ HU. destruct (byte_server_is _ _ _ _ _ HS) as (_ & _ & HS'). 
  destruct (C63_handler_called app dir on_docs url mid from id req HS' HQ HU) as (x & HX & HC).
  pose proof (C87_request uni url mid from id req (fun b => breply_of (serve b)) (fun x => reply_of (on_docs (Some x))) (proj1 HQ)) as W. rewrite HX in W.
  destruct (snd (send_bytes uni url mid from id req (fun b => breply_of (serve b)))) as [b|]; [|destruct W]. exists b. split; [reflexivity|].
  pose proof (writes_dec uni b x "" W) as D. rewrite sapp_nil_r in D. assert (K : answers (serve b) (on_docs (Some x))) by (destruct (byte_server_is _ _ _ _ _ HS) as (-> & -> & _); apply handle_same; [exact HA|exact D]).
  destruct K as (K1 & K2 & _). rewrite K1, K2, HC. split; [reflexivity|].
  destruct (o_panic (on_docs (Some x))) eqn:EP; [|reflexivity]. exfalso. apply (C53_panic app dir on_docs (Some x) HS') in EP. destruct EP as (d & e & m & E & _ & _ & _ & HI). injection E as <-.
  assert (In (arrived req, xml_clean id) (o_calls (on_docs (Some x)))) as HIn by (rewrite HC; left; reflexivity).
  destruct (C53_called_with _ _ _ _ _ _ HS' HIn) as (d & _ & E & _ & _ & HI' & _). injection E as <-. rewrite HI in HI'. discriminate HI'.
Qed.
Theorem C88_response : forall uni app dir serve on_docs url mid from id req resp, byte_server uni app dir serve on_docs -> typed_app app -> sendable dir req -> url <> "" ->
  app (arrived req) (xml_clean id) = (Some resp, None) -> wire_times (m_val resp) -> response_of (m_ty req) = Some (m_ty resp) ->
  byte_exchange uni serve url mid from id req = Ok (arrived resp).
Proof.
  intros uni app dir serve on_docs url mid from id req resp HS HA HQ HU HApp HW HR. destruct (byte_server_is _ _ _ _ _ HS) as (_ & _ & HS').
  rewrite (C88_same uni app dir serve on_docs url mid from id req HS HA (proj1 HQ)). exact (C63_response app dir on_docs url mid from id req resp HS' HQ HU HApp (HA _ _ _ _ HApp) HW HR).
Qed.
Theorem C88_error : forall uni app dir serve on_docs url mid from id req resp e, byte_server uni app dir serve on_docs -> typed_app app -> sendable dir req -> url <> "" ->
  app (arrived req) (xml_clean id) = (resp, Some e) -> exists t, byte_exchange uni serve url mid from id req = Err t.
Proof.
  intros uni app dir serve on_docs url mid from id req resp e HS HA HQ HU HApp. destruct (byte_server_is _ _ _ _ _ HS) as (_ & _ & HS').
  rewrite (C88_same uni app dir serve on_docs url mid from id req HS HA (proj1 HQ)). exact (C63_error app dir on_docs url mid from id req resp e HS' HQ HU HApp).
Qed.
(** A network that cuts off the request or the reply, or adds to them: an error, or what it would have been. *)
Inductive disturbed (serve : string -> boutcome) (b : string) : bhttp -> Prop :=
| ReqCut p q : b = p +++ q -> q <> "" -> disturbed serve b (breply_of (serve p))
| ReplyCut w p q : bo_panic (serve b) = false -> bo_written (serve b) = Some w -> w = p +++ q -> q <> "" -> disturbed serve b (BBody 200 p)
| Added s t w : bo_panic (serve (b +++ s)) = false -> bo_written (serve (b +++ s)) = Some w -> disturbed serve b (BBody 200 (w +++ t)).
Theorem C88_disturbed : forall uni app dir serve on_docs url mid from id req post, byte_server uni app dir serve on_docs -> typed_app app -> msg_ok req = true -> is_request (m_ty req) = true ->
  (forall b, disturbed serve b (post b)) ->
  (exists t, fst (send_bytes uni url mid from id req post) = Err t) \/ fst (send_bytes uni url mid from id req post) = byte_exchange uni serve url mid from id req.
Proof.
  intros uni app dir serve on_docs url mid from id req post HS HA HM HQ HD. pose proof (C87_request uni url mid from id req post (fun _ => HError) HM) as W.
  rewrite (C88_same uni app dir serve on_docs url mid from id req HS HA HM). unfold send_bytes in W. 
  assert (EM : forall p, serve p = MkBO [] None false -> breply_of (serve p) = BBody 200 "") by (intros p ->; reflexivity).
  destruct (snd (send_bytes uni url mid from id req post)) as [b|] eqn:EB.
  - assert (EB' : forall post', snd (send_bytes uni url mid from id req post') = Some b).
    { intros post'. rewrite <- EB. unfold send_bytes. destruct (action_of (m_ty req)) as [a|], (response_of (m_ty req)) as [r|]; try reflexivity. unfold call_bytes. destruct (String.eqb url ""); [reflexivity|].
      destruct (request_bytes url a mid from id req); reflexivity. }
    assert (EF : forall post', post' b = post b -> fst (send_bytes uni url mid from id req post') = fst (send_bytes uni url mid from id req post)).
    { intros post' E. revert EB. unfold send_bytes. destruct (action_of (m_ty req)) as [a|], (response_of (m_ty req)) as [r|]; try reflexivity. unfold call_bytes. destruct (String.eqb url ""); [reflexivity|].
      destruct (request_bytes url a mid from id req) as [b'|]; [|reflexivity]. cbn [snd fst]. intros K. injection K as ->. rewrite E. reflexivity. }
    specialize (HD b). inversion HD as [p q E Hq HP|w p q HP HW E Hq HP'|s t w HP HW HP'].
    + left. rewrite <- (EF (fun _ => breply_of (serve p)) HP). rewrite (C87_own_request_cut uni app dir serve on_docs url mid from id req post p q HS HM) by first [rewrite EB, E; reflexivity|exact Hq].
      cbn [breply_of bo_panic bo_written]. unfold send_bytes. destruct (request_total (m_ty req) HQ) as (a & r & -> & ->). unfold call_bytes. destruct (String.eqb url ""); [eexists; reflexivity|].
      destruct (request_bytes url a mid from id req); eexists; reflexivity.
    + left. rewrite <- (EF (fun _ => BBody 200 p) HP'). subst w. exact (C87_own_reply_cut uni app dir serve on_docs b url mid from id req (fun _ => BBody 200 p) p q HS HA HQ HW Hq (fun _ => ex_intro _ 200%Z eq_refl)).
    + right. rewrite <- (EF (fun _ => BBody 200 (w +++ t)) HP'). clear EF HD HP'.
      assert (K : forall x, snd (soap_send url mid from id req (fun _ => HError)) = Some x -> answers (serve (b +++ s)) (on_docs (Some x))).
      { intros x HX. pose proof (C87_request uni url mid from id req post (fun _ => HError) HM) as W'. rewrite EB, HX in W'. destruct (byte_server_is _ _ _ _ _ HS) as (-> & -> & _).
        apply handle_same; [exact HA|]. exact (writes_dec uni b x s W'). }
      apply client_same; [exact HM|]. intros a b0 x HAc HB HX.
      assert (HSd : forall post'', snd (soap_send url mid from id req post'') = Some x).
      { intros post''. specialize (EB' (fun _ => BError)). unfold send_bytes in EB'. unfold soap_send. rewrite HAc in *. destruct (response_of (m_ty req)); [|discriminate EB']. unfold call_bytes in EB'. unfold call. destruct (String.eqb url ""); [discriminate EB'|].
        rewrite HX. reflexivity. }
      destruct (K x (HSd _)) as (_ & K2 & K3). unfold reply_of. rewrite <- K2, HP. rewrite HW in K3. destruct (o_written (on_docs (Some x))) as [v|]; [|destruct K3].
      split; [reflexivity|]. split; [destruct (writes_read uni w v t K3) as (_ & _ & _ & _ & N); exact N|]. exact (writes_dec uni w v t K3).
  - left. unfold send_bytes in *. destruct (request_total (m_ty req) HQ) as (a & r & HAc & HR). rewrite HAc, HR in *. unfold call_bytes in *. destruct (String.eqb url ""); [eexists; reflexivity|].
    destruct (request_bytes url a mid from id req); [discriminate EB|]. eexists. reflexivity.
Qed.
Example C88_ex : byte_server (fun _ => false) accept_all is_cp_request (cs_soap_bytes (fun _ => false) accept_all) (cs_soap accept_all) /\ typed_app accept_all /\ sendable is_cp_request start_msg /\
  byte_exchange (fun _ => false) (cs_soap_bytes (fun _ => false) accept_all) "http://h" "m" "" "box" start_msg =
    Ok (MkMsg "cpresp.StartTransaction" (VStruct [("IdTagInfo", tag_info "Accepted"); ("TransactionId", VInt 5)])) /\
  byte_exchange (fun _ => false) (cp_soap_bytes (fun _ => false) reset_app) "http://h" "m" "" "box" reset_msg = Ok (MkMsg "csresp.Reset" (VStruct [("Status", VStr "Accepted")])) /\
  (forall b, disturbed (cs_soap_bytes (fun _ => false) accept_all) (String "<" b) (breply_of (cs_soap_bytes (fun _ => false) accept_all "<"))  \/ b = "").
Proof.
  split; [constructor|]. split; [intros m id r e H; injection H as <- _; vm_compute; reflexivity|]. split; [exact (proj1 C63_ex)|]. split; [vm_compute; reflexivity|]. split; [vm_compute; reflexivity|].
  intros [|c b]; [right; reflexivity|left]. apply (ReqCut _ _ "<" (String c b)); [reflexivity|discriminate].
Qed.

(** *** C89: prefixes that are called like attributes *)
Definition metered (prefix : string) : string :=
  "<s:Envelope xmlns:s='http://www.w3.org/2003/05/soap-envelope'><s:Header><i:chargeBoxIdentity xmlns:i='urn://Ocpp/Cs/2012/06/'>box</i:chargeBoxIdentity></s:Header><s:Body>" +++
  "<meterValuesRequest xmlns='urn://Ocpp/Cs/2012/06/'><connectorId>1</connectorId><values><timestamp>2020-02-29T12:00:01Z</timestamp>" +++
  "<value xmlns:" +++ prefix +++ "='urn:x'>7</value></values></meterValuesRequest></s:Body></s:Envelope>".
Definition units (v : gval) : list gval :=
  match v with
  | VStruct fs => flat_map (fun kv => match snd kv with
      | VSlice l => flat_map (fun p => match p with VPtr (VStruct fs') => flat_map (fun kv' => match snd kv' with
          | VSlice l' => flat_map (fun p' => match p' with VPtr (VStruct fs'') => match lookup "Unit" fs'' with Some u => [u] | None => [] end | _ => [] end) l'
          | _ => [] end) fs' | _ => [] end) l
      | _ => [] end) fs
  | _ => []
  end.
Theorem C89_prefix_taken_refuted : forall app, exists x1 x2 m1 m2,
  read_xml (fun _ => false) (metered "foo") = Some x1 /\ read_xml (fun _ => false) (metered "unit") = Some x2 /\ undeclare x1 = undeclare x2 /\
  bo_calls (cs_soap_bytes (fun _ => false) app (metered "foo")) = [(m1, "box")] /\ bo_calls (cs_soap_bytes (fun _ => false) app (metered "unit")) = [(m2, "box")] /\
  m_ty m1 = "cpreq.MeterValues" /\ m_ty m2 = "cpreq.MeterValues" /\ units (m_val m1) = [VStr ""] /\ units (m_val m2) = [VStr "urn:x"].
Proof.
  intros app. destruct (read_xml (fun _ => false) (metered "foo")) as [x1|] eqn:E1; [|vm_compute in E1; discriminate E1]. destruct (read_xml (fun _ => false) (metered "unit")) as [x2|] eqn:E2; [|vm_compute in E2; discriminate E2].
  destruct (dec_envelope (Some x1)) as [e1|] eqn:D1; [|vm_compute in E1; injection E1 as <-; vm_compute in D1; discriminate D1].
  destruct (dec_envelope (Some x2)) as [e2|] eqn:D2; [|vm_compute in E2; injection E2 as <-; vm_compute in D2; discriminate D2].
  unfold cs_soap_bytes. rewrite !bytes_cases, E1, E2, D1, D2. vm_compute in E1. vm_compute in E2. injection E1 as <-. injection E2 as <-. vm_compute in D1. vm_compute in D2. injection D1 as <-. injection D2 as <-.
  do 4 eexists. split; [reflexivity|]. split; [reflexivity|]. split; [vm_compute; reflexivity|]. cbn [e_content e_header]. split; [reflexivity|]. split; [reflexivity|]. repeat split; vm_compute; reflexivity.
Qed.
(** With no prefix called like an attribute of the messages, declarations do not reach the handler. *)
Theorem C89_otherwise : forall x, mild x -> dec_envelope (Some (undeclare x)) = dec_envelope (Some x).
Proof. exact undeclare_envelope. Qed.

(** *** C90: documents with errors in them *)
Theorem C90_server : forall uni app dir serve on_docs b t, byte_server uni app dir serve on_docs -> ok_begun b -> bad_next b t -> serve (show_begun b +++ t) = MkBO [] None false.
Proof.
  intros uni app dir serve on_docs b t HS HB HT. destruct (byte_server_is _ _ _ _ _ HS) as (-> & _ & _). rewrite bytes_cases, (read_bad uni b t HB HT). reflexivity.
Qed.
Theorem C90_client : forall uni url mid from id req post b t, is_request (m_ty req) = true -> (forall s, exists st, post s = BBody st (show_begun b +++ t)) ->
  ok_begun b -> bad_next b t -> exists e, fst (send_bytes uni url mid from id req post) = Err e.
Proof.
  intros uni url mid from id req post b t HQ HP HB HT. unfold send_bytes. destruct (request_total (m_ty req) HQ) as (a & r & -> & ->). unfold call_bytes. destruct (String.eqb url ""); [eexists; reflexivity|].
  destruct (request_bytes url a mid from id req) as [s|]; [|eexists; reflexivity]. cbn [fst]. destruct (HP s) as (st & ->). rewrite (read_bad uni b t HB HT). cbn [dec_envelope].
  destruct (String.eqb (show_begun b +++ t) "" && negb (Z.eqb st 200))%bool; [eexists; reflexivity|]. destruct (String.eqb (show_begun b +++ t) ""); eexists; reflexivity.
Qed.
(** XML declarations: a version other than 1.0, an encoding other than UTF-8. *)
Theorem C90_declaration_server : forall uni app dir serve on_docs q v e rest, byte_server uni app dir serve on_docs -> bad_declaration q v e ->
  serve (show_declaration q v e +++ rest) = MkBO [] None false.
Proof.
  intros uni app dir serve on_docs q v e rest HS HB. destruct (byte_server_is _ _ _ _ _ HS) as (-> & _ & _). rewrite bytes_cases, (read_bad_declaration uni q v e rest HB). reflexivity.
Qed.
Theorem C90_declaration_client : forall uni url mid from id req post q v e rest, is_request (m_ty req) = true -> (forall s, exists st, post s = BBody st (show_declaration q v e +++ rest)) ->
  bad_declaration q v e -> exists t, fst (send_bytes uni url mid from id req post) = Err t.
Proof.
  intros uni url mid from id req post q v e rest HQ HP HB. unfold send_bytes. destruct (request_total (m_ty req) HQ) as (a & r & -> & ->). unfold call_bytes. destruct (String.eqb url ""); [eexists; reflexivity|].
  destruct (request_bytes url a mid from id req) as [s|]; [|eexists; reflexivity]. cbn [fst]. destruct (HP s) as (st & ->). rewrite (read_bad_declaration uni q v e rest HB). cbn [dec_envelope].
  destruct (String.eqb (show_declaration q v e +++ rest) "" && negb (Z.eqb st 200))%bool; [eexists; reflexivity|]. destruct (String.eqb (show_declaration q v e +++ rest) ""); eexists; reflexivity.
Qed.
(** The same document is accepted without its declaration, and with a proper one. *)
Example C90_declaration_ex : let doc := "<Envelope><Header/><Body><clearCacheRequest xmlns='urn://Ocpp/Cp/2012/06/'/></Body></Envelope>" in
  bad_declaration dq "1.1" None /\ bad_declaration "'" "1.0" (Some "ISO-8859-1") /\
  let called := fun s => bo_calls (cp_soap_bytes (fun _ => false) (fun _ => (None, Some "no")) s) in
  called doc <> [] /\ called (show_declaration dq "1.0" (Some "utf-8") +++ doc) <> [] /\ called (show_declaration dq "1.1" None +++ doc) = [] /\
  called (show_declaration "'" "1.0" (Some "ISO-8859-1") +++ doc) = [].
Proof.
  cbv zeta. split; [|split; [|repeat split; vm_compute; first [reflexivity|discriminate]]].
  - split; [left; reflexivity|]. split; [reflexivity|]. split; [exact I|]. left. split; discriminate.
  - split; [right; reflexivity|]. split; [reflexivity|]. split; [reflexivity|]. right. exists "ISO-8859-1". split; [reflexivity|]. split; [discriminate|].
    intros H. cbn in H. repeat (destruct H as [H|H]; [discriminate H|]). destruct H.
Qed.
(** A whole request, then the end of the envelope where that of its body should be; a reference to nothing, a byte that is not UTF-8, an attribute without quotes. *)
Definition open_tag (nm : string) (kids : list cst) : opened := MkOpen "" nm [] "" kids.
Definition begun_body (kids : list cst) : begun := MkBegun None []
  [MkOpen "s" "Envelope" [MkAttr " " "xmlns" "s" "" "" "'" (lits soap_ns) soap_ns; MkAttr " " "" "xmlns" "" "" dq (lits ocpp_cs) ocpp_cs] "" [CElem "s" "Header" [] "" [tag "chargeBoxIdentity" [typed_in "box"]] ""]; MkOpen "s" "Body" [] "" kids].
Definition start_fields : list cst := [tag "connectorId" [typed_in "1"]; tag "idTag" [typed_in "tag"]; tag "timestamp" [typed_in "2020-02-29T12:00:01.5Z"]].
Lemma begun_body_ok kids : Forall well_formed kids -> apart kids = true -> ok_begun (begun_body kids).
Proof.
  intros H1 H2. repeat split; try constructor; try (constructor; fail).
  - repeat split; try discriminate; try reflexivity.
    + constructor; [|constructor; [|constructor]]; [|repeat split; cbn [a_white a_prefix a_local a_w1 a_w2 a_quote a_pieces a_text]; wf; try discriminate; try (left; reflexivity); apply (writes_lits (Some dq) ocpp_cs); first [tauto|reflexivity]]. repeat split; cbn [a_white a_prefix a_local a_w1 a_w2 a_quote a_pieces a_text]; wf; try discriminate; try (right; reflexivity); apply (writes_lits (Some "'"%char) soap_ns); first [tauto|reflexivity].
    + constructor; [|constructor]. cbn [well_formed]. unfold tag, typed_in. wf; cbn [well_formed fold_right]; wf; discriminate.
  - constructor; [|constructor]. repeat split; try discriminate; try reflexivity; [constructor|exact H1|exact H2].
Qed.
Example C90_ex : let b := begun_body [tag "startTransactionRequest" start_fields] in
  ok_begun b /\ bad_next b "</s:Envelope>" /\
  bad_next b "<x a=1/></s:Body></s:Envelope>" /\
  bad_next b ("tag&nbsp;</s:Body></s:Envelope>") /\ bad_next b (String (chr 255) "</s:Body></s:Envelope>") /\
  bo_calls (cs_soap_bytes (fun _ => false) accept_all (show_begun b +++ "</s:Body></s:Envelope>")) <> [].
Proof.
  intros b. split; [|split; [|split; [|split; [|split]]]].
  - apply begun_body_ok; [|reflexivity]. constructor; [|constructor]. unfold tag, start_fields, tag, typed_in. cbn [well_formed fold_right]. wf; cbn [well_formed fold_right]; wf.
  - apply (bad_end b "s" "Envelope" "" ""); try reflexivity; try discriminate. intros o E. vm_compute in E. injection E as <-. discriminate.
  - apply (bad_start b "" "x" [] " a=1/></s:Body></s:Envelope>"); [reflexivity|constructor|]. apply (bad_unquoted " " "" "a" "" "" "1" "/></s:Body></s:Envelope>"); first [reflexivity|discriminate].
  - apply bad_data; [reflexivity|]. apply (bad_ref None (lits "tag") "tag" "nbsp" "</s:Body></s:Envelope>"); [| |reflexivity|cbn; intuition discriminate].
    + exact (proj1 (writes_lits None "tag" (or_introl eq_refl) eq_refl eq_refl)).
    + exact (proj1 (proj2 (writes_lits None "tag" (or_introl eq_refl) eq_refl eq_refl))).
  - apply bad_data; [reflexivity|]. apply (bad_chars None [Lit (chr 255)] (str1 (chr 255)) "/s:Body></s:Envelope>").
    + constructor; [repeat split; discriminate|constructor].
    + intros l1 l2 E. assert (HI : In (Lit "]") [Lit (chr 255)]) by (rewrite E; apply in_or_app; right; left; reflexivity). destruct HI as [K|[]]. discriminate K.
    + intros K. apply clean_id in K. vm_compute in K. discriminate K.
  - intros K. vm_compute in K. discriminate K.
Qed.
