(** Specification vocabulary for a connection: what can be read off the list of
    observations, in the order in which they happened.  Nothing here refers to the
    machine's steps. *)
From Verif Require Import GoBase Utf8 Json Float64 Codec Any Tables Registry Frame Conn.
Open Scope string_scope.
Open Scope list_scope.

Definition pick {A} (f : obs -> option A) (tr : list obs) : list A :=
  flat_map (fun o => match f o with Some a => [a] | None => [] end) tr.

(** Messages read, in order. *)
Definition reads := pick (fun o => match o with ORead t => Some t | _ => None end).
(** Requests handed to the loop; handler calls; handler returns; replies. *)
Definition takens := pick (fun o => match o with OTaken q id => Some (id, q) | _ => None end).
Definition handles := pick (fun o => match o with OHandle q id => Some (id, q) | _ => None end).
Definition returns := pick (fun o => match o with OReturn id r => Some (id, r) | _ => None end).
(** Requests whose handler panicked. *)
Definition panics := pick (fun o => match o with OHPanic id => Some id | _ => None end).
Definition replies := pick (fun o => match o with OReply id r x => Some ((id, r), x) | _ => None end).
Definition rejects := pick (fun o => match o with OReject id c x => Some ((id, c), x) | _ => None end).
(** Messages completely written: by anybody, by the loop, by readers, by callers. *)
Definition writes := pick (fun o => match o with OWrote _ t => Some t | _ => None end).
Definition loop_writes := pick (fun o => match o with OWrote WL t => Some t | _ => None end).
Definition reader_writes := pick (fun o => match o with OWrote (WR _) t => Some t | _ => None end).
Definition sender_writes := pick (fun o => match o with OWrote (WS i) t => Some (i, t) | _ => None end).
Definition concat_all (l : list string) : string := fold_right String.append "" l.
Definition bytes (tr : list obs) : string :=
  concat_all (pick (fun o => match o with OBytes s => Some s | _ => None end) tr).
(** Calls of SendRequest and their results. *)
Definition sends := pick (fun o => match o with OCall i id q => Some (i, (id, q)) | _ => None end).
Definition rets := pick (fun o => match o with ORet i o => Some (i, o) | _ => None end).

(** What a received text is to this library. *)
Inductive inbound :=
| IRequest (id : string) (q : msg)         (* a CALL that decodes to a request *)
| IRefused (id c : string)                 (* a CALL that does not: the error code *)
| IResult (id : string) (p : any)          (* a CALLRESULT *)
| IError (id c d : string) (det : any)     (* a CALLERROR *)
| IBad                                     (* not a message *)
| ICrash.                                  (* crashes the reader *)
Definition inbound_of (text : string) : inbound :=
  match read_text text with
  | Ok (MCall id a p) => match call_to_request a p with inl q => IRequest id q | inr c => IRefused id c end
  | Ok (MResult id (PAny p)) => IResult id p
  | Ok (MResult id _) => IBad
  | Ok (MError id c d det) => IError id c d det
  | Err _ => IBad
  | Panic => ICrash
  end.
Definition requests_in (texts : list string) : list (string * msg) :=
  flat_map (fun t => match inbound_of t with IRequest id q => [(id, q)] | _ => [] end) texts.
Definition refused_in (texts : list string) : list (string * string) :=
  flat_map (fun t => match inbound_of t with IRefused id c => [(id, c)] | _ => [] end) texts.
Definition responses_in (texts : list string) : list string :=
  flat_map (fun t => match inbound_of t with IResult id _ => [id] | IError id _ _ _ => [id] | _ => [] end) texts.

(** [l1] is [l2] without at most its last element. *)
Definition all_but_last {A} (l1 l2 : list A) : Prop := l2 = l1 \/ exists x, l2 = l1 ++ [x].

(** The request as the handler of each side sees it: a central system skips what
    is not a charge point's request; a charge point passes nil instead. *)
Definition seen (ro : role) (x : string * msg) : list (string * option msg) :=
  match ro with
  | CS => if is_cp_request (m_ty (snd x)) then [(fst x, Some (snd x))] else []
  | CP => [(fst x, if is_cs_request (m_ty (snd x)) then Some (snd x) else None)]
  end.

(** A call of SendRequest got an answer from the peer (as opposed to failing here). *)
Definition answered (o : outcome) : bool :=
  match o with RResp _ | RCode _ | RCallErr _ _ _ _ => true | _ => false end.

(** The text justifies the outcome of a call with the given id and request. *)
Definition justifies (text id : string) (q : msg) (o : outcome) : Prop :=
  match o with
  | RResp m => exists p a, inbound_of text = IResult id p /\ action_of (m_ty q) = Some a /\ result_to_response a p = Ok (inl m)
  | RCode c => exists p a, inbound_of text = IResult id p /\ action_of (m_ty q) = Some a /\ result_to_response a p = Ok (inr c)
  | RCallErr id' c d det => id' = id /\ inbound_of text = IError id c d det
  | _ => False
  end.

(** The texts that can answer a call begun after [before] had happened: those
    read since, and the one that was being dealt with at that moment. *)
Definition last1 {A} (l : list A) : list A := match rev l with x :: _ => [x] | [] => [] end.
Definition candidates (before after : list obs) : list string := last1 (reads before) ++ reads after.

(** Readers between starting to read and having delivered what they read. *)
Definition busy (p : rpc) : bool := match p with RRes _ | RDone => false | _ => true end.
(** The loop has left, or is leaving, this connection. *)
Definition loop_left (c : conn) : bool := match c_loop c with LClose | LCancel | LGone => true | _ => false end.
(** Reader goroutines that have not ended; the one the loop waits for, if any. *)
Definition goroutines (c : conn) : nat := length (filter (fun p => match p with RDone => false | _ => true end) (c_readers c)).
Definition awaited (c : conn) (r : nat) : Prop := c_loop c = LSel r.
Definition awaits (c : conn) : nat := match c_loop c with LSel _ => 1 | _ => 0 end.

(** The table of pending requests. *)
Definition pending (c : conn) (id : string) : Prop := lookup id (c_sent c) <> None.

(** Everything except readers and loop is unchanged. *)
Definition intact (c c' : conn) : Prop :=
  c_sent c' = c_sent c /\ c_resp c' = c_resp c /\ c_senders c' = c_senders c /\ c_lock c' = c_lock c /\ c_wbroken c' = c_wbroken c /\
  c_rbroken c' = c_rbroken c /\ c_closed c' = c_closed c /\ c_done c' = c_done c /\ c_closers c' = c_closers c /\ c_crash c' = c_crash c.

(** The map a goroutine is about to access, and how (conn.go:191, 213, 218, 244,
    295, 296, 302, 303, 304).  Nothing orders such accesses: both goroutines are
    able to take their step. *)
Inductive map_name := Sent | Responses.
Inductive access := Reads | Writes.
Definition next_access (c : conn) (w : who) : option (map_name * access) :=
  match w with
  | WS i => match nth_error (c_senders c) i with
            | Some sd => match sd_pc sd with
                         | SReg1 => Some (Sent, Writes) | SReg2 => Some (Responses, Writes)
                         | SSel => Some (Responses, Reads)
                         | SDel1 _ => Some (Sent, Writes) | SDel2 _ => Some (Responses, Writes)
                         | _ => None
                         end
            | None => None
            end
  | WR r => match nth_error (c_readers c) r with
            | Some (RLook _) => Some (Sent, Reads) | Some (RConv _ _) => Some (Sent, Reads)
            | Some (RChan _ _) => Some (Responses, Reads)
            | _ => None
            end
  | WL => None
  end.
Definition race (c : conn) : Prop := exists w1 w2 m a, w1 <> w2 /\ next_access c w1 = Some (m, Writes) /\ next_access c w2 = Some (m, a).
Definition write_race (c : conn) : Prop := exists w1 w2 m, w1 <> w2 /\ next_access c w1 = Some (m, Writes) /\ next_access c w2 = Some (m, Writes).

(** Calls of SendRequest that have not returned. *)
Definition running (tr : list obs) (i : nat) : Prop := In i (map fst (sends tr)) /\ ~ In i (map fst (rets tr)).
(** A text that is a response with the given id. *)
Definition response_to (text id : string) : Prop :=
  (exists p, inbound_of text = IResult id p) \/ (exists c d det, inbound_of text = IError id c d det).
(** Calls with the given id that got an answer. *)
Definition completed (tr : list obs) (id : string) : list (nat * outcome) :=
  filter (fun io => answered (snd io) && existsb (fun s => Nat.eqb (fst s) (fst io) && String.eqb (fst (snd s)) id) (sends tr)) (rets tr).

(** Texts completely written, among the outcomes of sending. *)
Definition written (l : list sendres) : list string := flat_map (fun x => match x with Written t => [t] | _ => [] end) l.
(** What the peer gets on the wire for what the handler returned. *)
Definition reply_on_wire (id : string) (r : hret) (t : string) : Prop :=
  match r with
  | inl (Some m) => exists text p, marshal_msg (m_ty m) (m_val m) = Ok text /\ unmarshal_any text = Some p /\ read_text t = Ok (MResult id (PAny p))
  | inl None => parse t = Some (JArr [JNum "3"; JStr id; JNull])
  | inr e => read_text t = Ok (MError id "InternalError" (sanitize e) (AObj []))
  end.
(** Calls that ended with a timeout or a failed write. *)
Definition gave_up (o : outcome) : bool := match o with RTimeout | RSendErr => true | _ => false end.
(** Reader [r] is dealing with [text], which it has just read. *)
Definition dealing (c : conn) (r : nat) (text : string) : Prop :=
  nth_error (c_readers c) r = Some (RDecode text) \/ exists m, nth_error (c_readers c) r = Some (RLook m) /\ read_text text = Ok m.
(** The loop waits for the reader it started and that one waits for the socket. *)
Definition idle (c : conn) (r : nat) : Prop :=
  c_loop c = LSel r /\ nth_error (c_readers c) r = Some RRead /\ c_crash c = false /\ c_rbroken c = false.
(** A complete OCPP-J message on the wire. *)
Definition is_frame (t : string) : Prop := exists k id rest, parse t = Some (JArr (JNum k :: JStr id :: rest)) /\ In k ["2"; "3"; "4"].
(** Goroutine [r] will never end: it is blocked sending its result and stays so. *)
Definition never_ends (ro : role) (c : conn) (r : nat) : Prop :=
  forall es c' o, run ro es c = Some (c', o) -> exists x, nth_error (c_readers c') r = Some (RRes x).
