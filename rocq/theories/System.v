(** The whole system: one central system (cs/cs.go), any number of charge points
    that use this library (cp/cp.go, cp/json.go), and other websocket clients.

    A wire per upgrade request that reached the central system.  The two
    directions of a wire are the queues of Net.v.  The client of a wire is a
    charge point of this system, from its Dial on, or a stranger, who may send any
    text at any moment.

    Simplifications: one process per charge point, none of them restarts (a
    restarted charge point is one more entry of the list, with the same URL and
    identity); every URL names this central system; Dial succeeds only when the
    central system's side of the handshake has succeeded (the converse need not
    hold: a dial may fail, say by its timeout, after that). *)
From Verif Require Import GoBase Utf8 Json Float64 Lang Types Codec Any Tables Registry Frame Conn CentralSystem ChargePoint Net.
Open Scope string_scope.
Open Scope list_scope.

(** The client of a websocket: somebody else; charge point j, whose Dial (ws/conn.go:56-65) has not
    returned; charge point j, for which it is connection i (cp/json.go:22-26); charge point j, whose Dial failed. *)
Inductive peer := Stranger | Dialling (j : nat) | Met (j i : nat) | GaveUp (j : nat).
(** A websocket (cs/cs.go:102, ws/conn.go:60): texts on their way to the central system, and from it. *)
Record wire := MkW { w_peer : peer; w_in : list string; w_out : list string }.
(** A charge point: the URL and identity given to New (cp/cp.go:42), and its state. *)
Record point := MkPt { pt_url : string; pt_id : string; pt_cp : cpoint }.
(** cs.New (cs/cs.go:60) was called once, cp.New (cp/cp.go:42) once for each charge point. *)
Record sys := MkY { y_central : csys; y_points : list point; y_wires : list wire }.
(** Before anything happened: a list of URLs and identities (cp/cp.go:42). *)
Definition sys0 (cfg : list (string * string)) : sys := MkY csys0 (map (fun x => MkPt (fst x) (snd x) cpoint0) cfg) [].

(** A step of the central system (cs/cs.go), with what strangers send; the upgrade request of charge point j
    arrives (cs/cs.go:73); Dial returns (ws/conn.go:60) at charge point j, connected by wire k; a step of charge point j. *)
Inductive yevent := YCentral (v : cevent) | YAsk (j : nat) | YMeet (j k : nat) | YPoint (j : nat) (x : pevent).
(** What is seen, at the central system (cs/cs.go), at charge point j (cp/json.go), and of the network: wire k was
    made by charge point j, is its connection i, carries a text written at one end (ws/conn.go:274). *)
Inductive yobs :=
| AtCentral (o : cobs)
| AtPoint (j : nat) (o : pobs)
| Asked (k j : nat)
| Connected (k j i : nat)
| OnWire (k : nat) (s : side) (w : who) (t : string).

(** What an event at one end of a wire may read, and what it leaves (Net.allowed): ws/conn.go:176. *)
Definition wire_allows (s : side) (e : event) (w : wire) : option (list string) :=
  allowed s e (MkNet conn0 conn0 (w_in w) (w_out w)).
(** A stranger's texts are not queued: any text may be read (ws/conn.go:176). *)
Definition central_allows (e : event) (w : wire) : option (list string) :=
  match w_peer w, e with
  | Stranger, ERead _ _ => Some (w_in w)
  | _, _ => wire_allows Central e w
  end.
(** The messages of ws/conn.go:274 enter the network. *)
Definition put (k : nat) (s : side) (l : list (who * string)) : list yobs := map (fun wt => OnWire k s (fst wt) (snd wt)) l.

(** Steps of the central system, cs/cs.go:71-234. *)
Definition ycentral (v : cevent) (y : sys) : option (sys * list yobs) :=
  match cstep v (y_central y) with
  | None => None
  | Some (s', o) =>
    match v with
    | VConn k e =>
      match nth_error (y_wires y) k, nth_error (s_ks (y_central y)) k with
      | Some w, Some x =>
        match central_allows e w with
        | Some q => let out := finished e (k_conn x) in
                    Some (MkY s' (y_points y) (upd k (MkW (w_peer w) q (w_out w ++ map snd out)) (y_wires y)), map AtCentral o ++ put k Central out)
        | None => None
        end
      | _, _ => None
      end
    | VHttp up meth _ =>
      Some (MkY s' (y_points y) (match dispatch up meth with BWebsocket => y_wires y ++ [MkW Stranger [] []] | _ => y_wires y end), map AtCentral o)
    | _ => Some (MkY s' (y_points y) (y_wires y), map AtCentral o)
    end
  end.

(** Dial (ws/conn.go:56-65) of charge point j is under way on this wire. *)
Definition dialling (j : nat) (w : wire) : bool := match w_peer w with Dialling j' => Nat.eqb j j' | _ => false end.
(** The central system's side of the handshake succeeded (cs/cs.go:102-107). *)
Definition shaken (p : kpc) : bool := match p with KLog | KShake | KFailed => false | _ => true end.
(** The wire of connection i of charge point j (cp/json.go:22-26). *)
Fixpoint find_wire (j i : nat) (l : list wire) : option nat :=
  match l with
  | [] => None
  | w :: r => match w_peer w with
              | Met j' i' => if Nat.eqb j j' && Nat.eqb i i' then Some 0 else option_map S (find_wire j i r)
              | _ => option_map S (find_wire j i r)
              end
  end.
(** Charge point j moves on: cp/json.go. *)
Definition set_point (j : nat) (pt : point) (p : cpoint) (y : sys) : list point := upd j (MkPt (pt_url pt) (pt_id pt) p) (y_points y).

(** An event [e] of connection i of charge point j: step [x] of that charge point (cp/json.go:34-64, ws/conn.go). *)
Definition ylink (j : nat) (pt : point) (x : pevent) (i : nat) (e : event) (y : sys) : option (sys * list yobs) :=
  match find_wire j i (y_wires y), nth_error (p_conns (pt_cp pt)) i with
  | Some k, Some c =>
    match nth_error (y_wires y) k with
    | Some w =>
      match wire_allows Point e w, xstep x (pt_cp pt) with
      | Some q, Some (p', o) =>
        let out := finished e c in
        Some (MkY (y_central y) (set_point j pt p' y) (upd k (MkW (w_peer w) (w_in w ++ map snd out) q) (y_wires y)), map (AtPoint j) o ++ put k Point out)
      | _, _ => None
      end
    | None => None
    end
  | _, _ => None
  end.

(** One step of the whole: cs/cs.go, cp/json.go, ws/conn.go:56-93. *)
Definition ystep (v : yevent) (y : sys) : option (sys * list yobs) :=
  match v with
  | YCentral v => ycentral v y
  | YAsk j =>
    match nth_error (y_points y) j with
    | Some pt =>
      match p_crash (pt_cp pt), p_pc (pt_cp pt), existsb (dialling j) (y_wires y), url_path (pt_url pt ++ "/" ++ pt_id pt) with
      | false, PDial, false, Some path =>
        match cstep (VHttp true "GET" path) (y_central y) with
        | Some (s', o) => Some (MkY s' (y_points y) (y_wires y ++ [MkW (Dialling j) [] []]), map AtCentral o ++ [Asked (length (y_wires y)) j])
        | None => None
        end
      | _, _, _, _ => None
      end
    | None => None
    end
  | YMeet j k =>
    match nth_error (y_points y) j, nth_error (y_wires y) k, nth_error (s_ks (y_central y)) k with
    | Some pt, Some w, Some x =>
      if dialling j w && shaken (k_pc x) then
        match xstep (XDial true) (pt_cp pt) with
        | Some (p', o) =>
          let i := length (p_conns (pt_cp pt)) in
          Some (MkY (y_central y) (set_point j pt p' y) (upd k (MkW (Met j i) (w_in w) (w_out w)) (y_wires y)), map (AtPoint j) o ++ [Connected k j i])
        | None => None
        end
      else None
    | _, _, _ => None
    end
  | YPoint j x =>
    match nth_error (y_points y) j with
    | Some pt =>
      match x with
      | XDial true => None
      | XDial false =>
        match xstep x (pt_cp pt) with
        | Some (p', o) => Some (MkY (y_central y) (set_point j pt p' y)
                                  (map (fun w => if dialling j w then MkW (GaveUp j) (w_in w) (w_out w) else w) (y_wires y)), map (AtPoint j) o)
        | None => None
        end
      | XConn i e => ylink j pt x i e y
      | XSend inh id q => ylink j pt x (p_svc (pt_cp pt)) (ESend inh id q) y
      | _ =>
        match xstep x (pt_cp pt) with
        | Some (p', o) => Some (MkY (y_central y) (set_point j pt p' y) (y_wires y), map (AtPoint j) o)
        | None => None
        end
      end
    | None => None
    end
  end.

(** Executions of cs/cs.go and cp/json.go joined by the network. *)
Fixpoint yrun (vs : list yevent) (y : sys) : option (sys * list yobs) :=
  match vs with
  | [] => Some (y, [])
  | v :: r => match ystep v y with
              | Some (y1, o1) => match yrun r y1 with Some (y2, o2) => Some (y2, o1 ++ o2) | None => None end
              | None => None
              end
  end.
(** Executions of cs/cs.go and cp/json.go joined by the network: the state and what was seen so far. *)
Inductive yreach (cfg : list (string * string)) : sys -> list yobs -> Prop :=
| yreach_0 : yreach cfg (sys0 cfg) []
| yreach_S : forall y tr v y' o, yreach cfg y tr -> ystep v y = Some (y', o) -> yreach cfg y' (tr ++ o).
