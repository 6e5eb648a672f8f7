(** Property theorem C104: SOAP over HTTP - status, header lines, handlers that panic. *)
From Verif Require Import GoBase Utf8 Json Float64 GoTime Lang Types Codec EncProofs Tables Registry Leaves
  SpecCodec SpecEnc RoundTrip DecTyped Xml XmlProofs XmlTyped Soap SpecSoap SoapProofs SoapMore
  SpecXmlText XmlText XmlWritten XmlSyntax SpecXml XmlSyntaxProofs XmlWrite XmlWriteProofs XmlCut XmlBad PropsSoap PropsSoapWire PropsXml
  CentralSystem Http SpecHttp.
Open Scope string_scope.
Open Scope list_scope.

(** The two servers of the library, with an application that may panic. *)
Inductive http_server (uni : string -> bool) : shaky -> (string -> bool) -> (string -> list (msg * string) * option http_reply) -> Prop :=
| CentralSystemHttp app : http_server uni app is_cp_request (cs_serve_http uni app)
| ChargePointHttp app : http_server uni (fun m _ => app m) is_cs_request (cp_serve_http uni app).
Lemma http_server_is uni app dir serve : http_server uni app dir serve -> serve = serve_http uni dir app.
Proof. intros []; reflexivity. Qed.

(** The same application with an error in the place of a panic. *)
Definition calmed (app : shaky) : msg -> string -> answer := fun m id => match app m id with Some a => a | None => (None, Some "") end.

(** What one request does, read off from the server on bytes of C85 - C90. *)
Lemma http_cases uni dir app b :
  let o := handle_bytes uni (guarded dir (calmed app)) b in
  fst (serve_http uni dir app b) = bo_calls o /\
  ((exists m id, bo_calls o = [(m, id)] /\ app m id = None /\ snd (serve_http uni dir app b) = None) \/
   ((forall m id, In (m, id) (bo_calls o) -> app m id <> None) /\
    snd (serve_http uni dir app b) =
      if bo_panic o then None
      else Some match bo_written o with None => blank | Some w => MkReply 200 [("Content-Type", "application/soap+xml"); ("Content-Encoding", "deflate")] w end)).
Proof.
  cbv zeta. rewrite bytes_cases. unfold serve_http. destruct (dec_envelope (read_xml uni b)) as [e|]; [|split; [reflexivity|right; split; [intros ? ? []|reflexivity]]].
  destruct (e_content e) as [m|]; [|split; [reflexivity|right; split; [intros ? ? []|reflexivity]]].
  destruct (is_request (m_ty m)); [|split; [reflexivity|right; split; [intros ? ? []|reflexivity]]].
  destruct (e_header e) as [id|]; [|split; [reflexivity|right; split; [intros ? ? []|reflexivity]]].
  unfold guarded, calmed. destruct (dir (m_ty m)).
  - destruct (app m id) as [[resp err]|] eqn:EA.
    + cbn [fst snd bo_calls bo_written bo_panic]. destruct (reply_bytes resp err); (split; [reflexivity|]); right; (split; [|reflexivity]);
        intros m' id' [K|[]]; injection K as <- <-; rewrite EA; discriminate.
    + split; [reflexivity|]. left. exists m, id. split; [reflexivity|]. split; [exact EA|reflexivity].
  - cbn [fst snd bo_calls bo_written bo_panic]. destruct (reply_bytes None (Some "request is not a cprequest")); (split; [reflexivity|]); right; (split; [intros ? ? []|reflexivity]).
Qed.

(** A server of C85 - C90, which had applications that do not panic, does the same. *)
Theorem C104_calm : forall uni app app' dir serve serve' on_docs b, http_server uni app dir serve -> byte_server uni app' dir serve' on_docs ->
  (forall m id, app m id = Some (app' m id)) ->
  fst (serve b) = bo_calls (serve' b) /\ (snd (serve b) = None <-> bo_panic (serve' b) = true) /\
  (forall r, snd (serve b) = Some r -> r_body r = match bo_written (serve' b) with Some w => w | None => "" end).
Proof.
  intros uni app app' dir serve serve' on_docs b HS HB HE. rewrite (http_server_is _ _ _ _ HS). destruct (byte_server_is _ _ _ _ _ HB) as (-> & _ & _).
  assert (E : handle_bytes uni (guarded dir (calmed app)) b = handle_bytes uni (guarded dir app') b).
  { rewrite !bytes_cases. destruct (dec_envelope (read_xml uni b)) as [e|]; [|reflexivity]. destruct (e_content e) as [m|]; [|reflexivity]. destruct (is_request (m_ty m)); [|reflexivity].
    destruct (e_header e) as [id|]; [|reflexivity]. unfold guarded, calmed. rewrite HE. reflexivity. }
  pose proof (http_cases uni dir app b) as (H1 & H2). rewrite E in H1, H2. split; [exact H1|].
  destruct H2 as [(m & id & _ & K & _)|(_ & ->)]; [rewrite HE in K; discriminate K|].
  destruct (bo_panic (handle_bytes uni (guarded dir app') b)).
  - split; [split; reflexivity|]. discriminate.
  - split; [split; discriminate|]. intros r K. injection K as <-. destruct (bo_written (handle_bytes uni (guarded dir app') b)); reflexivity.
Qed.

(** A panic of the application, or a request without a header, drops the connection; nothing else does. *)
Theorem C104_dropped : forall uni app dir serve b, http_server uni app dir serve ->
  (snd (serve b) = None <->
     (exists m id, fst (serve b) = [(m, id)] /\ app m id = None) \/
     (fst (serve b) = [] /\ exists e m, dec_envelope (read_xml uni b) = Some e /\ e_content e = Some m /\ is_request (m_ty m) = true /\ e_header e = None)).
Proof.
  intros uni app dir serve b HS. rewrite (http_server_is _ _ _ _ HS). unfold serve_http. split.
  - destruct (dec_envelope (read_xml uni b)) as [e|] eqn:ED; [|discriminate]. destruct (e_content e) as [m|] eqn:EC; [|discriminate]. destruct (is_request (m_ty m)) eqn:EQ; [|discriminate].
    destruct (e_header e) as [id|] eqn:EH.
    + destruct (dir (m_ty m)).
      * destruct (app m id) as [[resp err]|] eqn:EA; [destruct (reply_bytes resp err); discriminate|]. intros _. left. exists m, id. split; [reflexivity|exact EA].
      * destruct (reply_bytes None (Some "request is not a cprequest")); discriminate.
    + intros _. right. split; [reflexivity|]. exists e, m. repeat split; assumption.
  - intros [(m & id & H1 & H2)|(_ & e & m & -> & -> & -> & ->)]; [|reflexivity].
    destruct (dec_envelope (read_xml uni b)) as [e|]; [|discriminate H1]. destruct (e_content e) as [m'|]; [|discriminate H1]. destruct (is_request (m_ty m')); [|discriminate H1].
    destruct (e_header e) as [id'|]; [|discriminate H1]. destruct (dir (m_ty m')).
    + destruct (app m' id') as [[resp err]|] eqn:EA; [|reflexivity]. exfalso.
      assert (K : [(m', id')] = [(m, id)]) by (destruct (reply_bytes resp err); exact H1). injection K as -> ->. rewrite EA in H2. discriminate H2.
    + destruct (reply_bytes None (Some "request is not a cprequest")); discriminate H1.
Qed.

Lemma reply_begins resp err b : reply_bytes resp err = Some b -> exists r, b = "<S:Envelope xmlns:S=" +++ r.
Proof.
  unfold reply_bytes. intros H. destruct (match resp with Some m => rcontent m | None => Some [] end) as [c|]; [|discriminate H]. injection H as <-.
  eexists. unfold renvelope. cbn [print fold_right]. cbn [ns_attr String.eqb List.app fold_right print_attr fst snd String.append]. reflexivity.
Qed.

(** Whatever is received, the status is 200; header lines are set exactly if there is a body. *)
Theorem C104_reply : forall uni app dir serve b r, http_server uni app dir serve -> snd (serve b) = Some r ->
  r_status r = 200%Z /\
  ((r_body r = "" /\ r_headers r = []) \/
   (r_body r <> "" /\ r_headers r = [("Content-Type", "application/soap+xml"); ("Content-Encoding", "deflate")])).
Proof.
  intros uni app dir serve b r HS H. rewrite (http_server_is _ _ _ _ HS) in H. unfold serve_http in H.
  assert (B : Some blank = Some r -> r_status r = 200%Z /\ ((r_body r = "" /\ r_headers r = []) \/
     (r_body r <> "" /\ r_headers r = [("Content-Type", "application/soap+xml"); ("Content-Encoding", "deflate")]))).
  { intros K. injection K as <-. split; [reflexivity|]. left. split; reflexivity. }
  assert (W : forall resp err, reply_bytes resp err <> Some "").
  { intros resp err K. destruct (reply_begins resp err _ K) as (q & E). discriminate E. }
  destruct (dec_envelope (read_xml uni b)) as [e|]; [|exact (B H)]. destruct (e_content e) as [m|]; [|exact (B H)]. destruct (is_request (m_ty m)); [|exact (B H)].
  destruct (e_header e) as [id|]; [|discriminate H].
  destruct (if dir (m_ty m) then (app m id, [(m, id)]) else (Some (None, Some "request is not a cprequest"), [])) as [out calls].
  destruct out as [[resp err]|]; [|discriminate H]. destruct (reply_bytes resp err) as [w|] eqn:EW; [|exact (B H)].
  cbn [snd] in H. injection H as <-. split; [reflexivity|]. right. split; [|reflexivity]. cbn [r_body]. intros ->. exact (W _ _ EW).
Qed.

(** A body is called "deflate", and is not: neither the zlib stream that HTTP means nor a bare one, nor gzip. *)
Theorem C104_not_deflate_refuted : forall uni app dir serve b r, http_server uni app dir serve -> snd (serve b) = Some r -> r_body r <> "" ->
  In ("Content-Encoding", "deflate") (r_headers r) /\ ~ zlib_head (r_body r) /\ ~ deflate_head (r_body r) /\ ~ gzip_head (r_body r).
Proof.
  intros uni app dir serve b r HS H HN. destruct (C104_reply uni app dir serve b r HS H) as (_ & [(K & _)|(_ & ->)]); [destruct (HN K)|].
  split; [right; left; reflexivity|]. rewrite (http_server_is _ _ _ _ HS) in H. unfold serve_http in H.
  assert (W : exists q, r_body r = "<S:Envelope xmlns:S=" +++ q).
  { assert (B : Some blank = Some r -> exists q, r_body r = "<S:Envelope xmlns:S=" +++ q) by (intros K; injection K as <-; destruct (HN eq_refl)).
    destruct (dec_envelope (read_xml uni b)) as [e|]; [|exact (B H)]. destruct (e_content e) as [m|]; [|exact (B H)]. destruct (is_request (m_ty m)); [|exact (B H)].
    destruct (e_header e) as [id|]; [|discriminate H].
    destruct (if dir (m_ty m) then (app m id, [(m, id)]) else (Some (None, Some "request is not a cprequest"), [])) as [out calls].
    destruct out as [[resp err]|]; [|discriminate H]. destruct (reply_bytes resp err) as [w|] eqn:EW; [|exact (B H)].
    cbn [snd] in H. injection H as <-. exact (reply_begins _ _ _ EW). }
  destruct W as (q & ->). split; [|split].
  - intros (cmf & flg & r' & K & H1 & _). cbn [String.append] in K. injection K as <- _ _. vm_compute in H1. discriminate H1.
  - intros (_ & K). specialize (K eq_refl). vm_compute in K. repeat (apply le_S_n in K). inversion K.
  - intros (r' & K). cbn [String.append] in K. injection K as K _ _. vm_compute in K. discriminate K.
Qed.

(** The library's client: POST, two media types; the central system takes what it posts as SOAP. *)
Theorem C104_posted : forall uni url mid from id req net, snd (send_http uni url mid from id req net) = None \/
  exists b, snd (send_http uni url mid from id req net) = Some (posted url b) /\
    (forall post, snd (send_bytes uni url mid from id req post) = Some b) /\
    (forall app, cs_http uni app (posted url b) = ToSoap (cs_serve_http uni app b)).
Proof.
  intros uni url mid from id req net. unfold send_http. cbn [fst snd].
  destruct (snd (send_bytes uni url mid from id req (fun b => match net (posted url b) with Some r => BBody (r_status r) (r_body r) | None => BError end))) as [b|] eqn:EB; [right|left; reflexivity].
  exists b. split; [reflexivity|]. split.
  - intros post. rewrite <- EB. unfold send_bytes. destruct (action_of (m_ty req)) as [a|], (response_of (m_ty req)) as [r|]; try reflexivity. unfold call_bytes.
    destruct (String.eqb url ""); [reflexivity|]. destruct (request_bytes url a mid from id req); reflexivity.
  - reflexivity.
Qed.
(** It does not look at the header lines of the reply. *)
Theorem C104_headers_ignored : forall uni url mid from id req net net',
  (forall q, match net q, net' q with Some r, Some r' => r_status r = r_status r' /\ r_body r = r_body r' | None, None => True | _, _ => False end) ->
  send_http uni url mid from id req net = send_http uni url mid from id req net'.
Proof.
  intros uni url mid from id req net net' H. unfold send_http, send_bytes. destruct (action_of (m_ty req)) as [a|]; [|reflexivity]. destruct (response_of (m_ty req)) as [r|]; [|reflexivity].
  unfold call_bytes. destruct (String.eqb url ""); [reflexivity|]. destruct (request_bytes url a mid from id req) as [s|]; [|reflexivity].
  specialize (H (posted url s)). destruct (net (posted url s)) as [x|], (net' (posted url s)) as [y|]; try destruct H; [rewrite H, H0|]; reflexivity.
Qed.

(** Client and server together: the network hands over what the one posts and the other replies. *)
Definition http_exchange (uni : string -> bool) (serve : string -> list (msg * string) * option http_reply) (url mid from id : string) (req : msg) : res msg :=
  fst (send_http uni url mid from id req (fun q => snd (serve (q_body q)))).
(** A handler that panics: it was called once, with the request; the caller gets an error. *)
Theorem C104_panic : forall uni app dir serve url mid from id req, http_server uni app dir serve -> typed_app (calmed app) -> sendable dir req -> url <> "" ->
  app (arrived req) (xml_clean id) = None ->
  (exists b, snd (send_http uni url mid from id req (fun q => snd (serve (q_body q)))) = Some (posted url b) /\ serve b = ([(arrived req, xml_clean id)], None)) /\
  exists t, http_exchange uni serve url mid from id req = Err t.
Proof.
  intros uni app dir serve url mid from id req HS HA HQ HU HP.
  assert (HB : exists serve' on_docs app', byte_server uni app' dir serve' on_docs /\ typed_app app' /\ serve' = handle_bytes uni (guarded dir (calmed app))).
  { destruct HS as [app|app].
    - exists (cs_soap_bytes uni (calmed app)), (cs_soap (calmed app)), (calmed app). split; [constructor|]. split; [exact HA|reflexivity].
    - set (app2 := fun m => match app m with Some a => a | None => (None, Some "") end).
      exists (cp_soap_bytes uni app2), (cp_soap app2), (fun m _ => app2 m). split; [constructor|]. split; [exact HA|reflexivity]. }
  destruct HB as (serve' & on_docs & app' & HB & HA' & ES).
  destruct (C88_handler_called uni app' dir serve' on_docs url mid from id req HB HA' HQ HU) as (b & B1 & B2 & _).
  rewrite (http_server_is _ _ _ _ HS). rewrite ES in B2.
  assert (HD : serve_http uni dir app b = ([(arrived req, xml_clean id)], None)).
  { pose proof (http_cases uni dir app b) as (H1 & H2). rewrite B2 in H1. rewrite (surjective_pairing (serve_http uni dir app b)), H1. f_equal.
    destruct H2 as [(m & i & _ & _ & K)|(K & _)]; [exact K|]. rewrite B2 in K. destruct (K _ _ (or_introl eq_refl) HP). }
  assert (EB : forall post, snd (send_bytes uni url mid from id req post) = Some b).
  { intros post. rewrite <- B1. unfold send_bytes. destruct (action_of (m_ty req)) as [a|], (response_of (m_ty req)) as [r|]; try reflexivity. unfold call_bytes.
    destruct (String.eqb url ""); [reflexivity|]. destruct (request_bytes url a mid from id req); reflexivity. }
  split.
  - exists b. split; [|exact HD]. unfold send_http. cbn [snd]. rewrite EB. reflexivity.
  - unfold http_exchange, send_http. cbn [fst]. specialize (EB (fun b => match snd (serve_http uni dir app (q_body (posted url b))) with None => BError | Some r => BBody (r_status r) (r_body r) end)).
    revert EB. unfold send_bytes. destruct (action_of (m_ty req)) as [a|]; [|discriminate]. destruct (response_of (m_ty req)) as [r|]; [|discriminate]. unfold call_bytes.
    destruct (String.eqb url ""); [discriminate|]. destruct (request_bytes url a mid from id req) as [s|]; [|discriminate]. cbn [fst snd]. intros K. injection K as ->.
    cbn [q_body posted]. rewrite HD. cbn [snd]. eexists. reflexivity.
Qed.
(** One that does not: what C88 says. *)
Theorem C104_served : forall uni app app' dir serve serve' on_docs url mid from id req, http_server uni app dir serve -> byte_server uni app' dir serve' on_docs ->
  (forall m i, app m i = Some (app' m i)) -> http_exchange uni serve url mid from id req = byte_exchange uni serve' url mid from id req.
Proof.
  intros uni app app' dir serve serve' on_docs url mid from id req HS HB HE. unfold http_exchange, send_http, byte_exchange, send_bytes. cbn [fst].
  destruct (action_of (m_ty req)) as [a|]; [|reflexivity]. destruct (response_of (m_ty req)) as [r|]; [|reflexivity]. unfold call_bytes.
  destruct (String.eqb url ""); [reflexivity|]. destruct (request_bytes url a mid from id req) as [s|]; [|reflexivity]. cbn [fst q_body posted].
  destruct (C104_calm uni app app' dir serve serve' on_docs s HS HB HE) as (_ & H2 & H3). unfold breply_of.
  destruct (snd (serve s)) as [rep|] eqn:EV.
  - destruct (bo_panic (serve' s)) eqn:EP; [destruct H2 as [_ H2]; discriminate (H2 eq_refl)|].
    rewrite (H3 rep eq_refl). destruct (C104_reply uni app dir serve s rep HS EV) as (-> & _). destruct (bo_written (serve' s)); reflexivity.
  - destruct H2 as [H2 _]. rewrite (H2 eq_refl). reflexivity.
Qed.
(** Panics included: one call at most. *)
Theorem C104_once : forall uni app dir serve b, http_server uni app dir serve ->
  fst (serve b) = [] \/ exists m id, fst (serve b) = [(m, id)] /\ dir (m_ty m) = true.
Proof.
  intros uni app dir serve b HS. rewrite (http_server_is _ _ _ _ HS). unfold serve_http. destruct (dec_envelope (read_xml uni b)) as [e|]; [|left; reflexivity].
  destruct (e_content e) as [m|]; [|left; reflexivity]. destruct (is_request (m_ty m)); [|left; reflexivity]. destruct (e_header e) as [id|]; [|left; reflexivity].
  destruct (dir (m_ty m)) eqn:ED.
  - right. exists m, id. split; [|exact ED]. destruct (app m id) as [[resp err]|]; [destruct (reply_bytes resp err)|]; reflexivity.
  - left. destruct (reply_bytes None (Some "request is not a cprequest")); reflexivity.
Qed.

(** Concrete: an application that panics on one message only; a body that is no document; headers that ask for a websocket. *)
Definition jumpy : shaky := fun m id => if String.eqb (m_ty m) "cpreq.Heartbeat" then None else Some (accept_all m id).
Definition ex_beat : msg := MkMsg "cpreq.Heartbeat" (VStruct []).
Example C104_ex_premises : typed_app (calmed jumpy) /\ sendable is_cp_request ex_beat /\ jumpy (arrived ex_beat) (xml_clean "a<b") = None.
Proof.
  split; [|split].
  - intros m id r e. unfold calmed, jumpy. destruct (String.eqb (m_ty m) "cpreq.Heartbeat"); [discriminate|]. intros K. injection K as <- _. vm_compute. reflexivity.
  - split; [vm_compute; reflexivity|]. split; [repeat constructor|]. both; vm_compute; reflexivity.
  - vm_compute. reflexivity.
Qed.
Definition ex_cs : string -> list (msg * string) * option http_reply := cs_serve_http (fun _ => false) jumpy.
Example C104_ex_panic : http_exchange (fun _ => false) ex_cs "http://cs" "m" "" "a<b" ex_beat = Err "http error".
Proof. vm_compute. reflexivity. Qed.
Example C104_ex_served : http_exchange (fun _ => false) ex_cs "http://cs" "m" "" "box" start_msg =
    Ok (MkMsg "cpresp.StartTransaction" (VStruct [("IdTagInfo", tag_info "Accepted"); ("TransactionId", VInt 5)])).
Proof. vm_compute. reflexivity. Qed.
Definition ex_reply : option http_reply :=
  match snd (send_http (fun _ => false) "http://cs" "m" "" "x" start_msg (fun _ => None)) with Some q => snd (ex_cs (q_body q)) | None => None end.
Example C104_ex_reply : match ex_reply with Some r => negb (String.eqb (r_body r) "") | None => false end = true.
Proof. vm_compute. reflexivity. Qed.
Example C104_ex_refused : ex_cs "<a>" = ([], Some blank).
Proof. vm_compute. reflexivity. Qed.
Example C104_ex_upgrade : wants_websocket [("Connection", "keep-alive, Upgrade"); ("Upgrade", "websocket")] = true /\ wants_websocket (q_headers (posted "http://cs" "")) = false.
Proof. split; vm_compute; reflexivity. Qed.

Definition http_theorems := (C104_calm, C104_dropped, C104_reply, C104_not_deflate_refuted, C104_posted, C104_headers_ignored, C104_panic, C104_served, C104_once).
Print Assumptions http_theorems.
