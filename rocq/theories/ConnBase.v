(** Lists, maps and the case analysis of a step. *)
From Coq Require Import Arith.
From Verif Require Import GoBase Utf8 Json Float64 Codec Any Tables Registry Frame Conn SpecConn.
Open Scope string_scope.
Open Scope list_scope.

Lemma upd_length {A} i (x : A) l : length (upd i x l) = length l.
Proof. revert i. induction l as [|y l IH]; intros [|i]; cbn; auto. Qed.
Lemma nth_upd {A} i j (x : A) l : nth_error (upd i x l) j =
  if Nat.eqb i j then (match nth_error l j with Some _ => Some x | None => None end) else nth_error l j.
Proof.
  revert i j. induction l as [|y l IH]; intros [|i] [|j]; cbn; auto; destruct (Nat.eqb i j); reflexivity.
Qed.
Lemma nth_upd_inv {A} i j (x y : A) l : nth_error (upd i x l) j = Some y -> (j = i /\ y = x) \/ (j <> i /\ nth_error l j = Some y).
Proof.
  rewrite nth_upd. destruct (Nat.eqb_spec i j) as [E|E].
  - destruct (nth_error l j); [|discriminate]. intros H. left. split; congruence.
  - intros H. right. split; auto.
Qed.
Lemma nth_app_inv {A} (l : list A) x j y : nth_error (l ++ [x]) j = Some y -> nth_error l j = Some y \/ (j = length l /\ y = x).
Proof.
  intros H. destruct (Nat.lt_ge_cases j (length l)) as [L|L].
  - left. rewrite nth_error_app1 in H; auto.
  - right. rewrite nth_error_app2 in H by exact L. destruct (j - length l) as [|k] eqn:E; cbn in H.
    + split; [lia|congruence].
    + destruct k; discriminate.
Qed.
Lemma nth_lt {A} (l : list A) j y : nth_error l j = Some y -> j < length l.
Proof. intros H. apply nth_error_Some. congruence. Qed.

Lemma lookup_mput {A} k k' (v : A) m : lookup k (mput k' v m) = if String.eqb k k' then Some v else lookup k m.
Proof.
  unfold mput. cbn [lookup]. destruct (String.eqb_spec k k') as [E|E]; [reflexivity|].
  unfold mdel. induction m as [|[x y] m IH]; cbn [filter lookup fst]; [reflexivity|].
  destruct (String.eqb_spec k' x) as [E1|E1]; cbn [negb].
  - subst x. destruct (String.eqb_spec k k'); [contradiction|]. exact IH.
  - cbn [lookup]. destruct (String.eqb k x); [reflexivity|exact IH].
Qed.
Lemma lookup_mdel {A} k k' (m : list (string * A)) : lookup k (mdel k' m) = if String.eqb k k' then None else lookup k m.
Proof.
  unfold mdel. induction m as [|[x y] m IH]; cbn [filter lookup fst].
  - destruct (String.eqb k k'); reflexivity.
  - destruct (String.eqb_spec k' x) as [E1|E1]; cbn [negb].
    + subst x. rewrite IH. destruct (String.eqb k k'); reflexivity.
    + cbn [lookup]. rewrite IH. destruct (String.eqb_spec k x) as [E2|E2]; [|reflexivity].
      subst x. destruct (String.eqb_spec k k'); [congruence|reflexivity].
Qed.

Lemma pick_app {A} (f : obs -> option A) a b : pick f (a ++ b) = pick f a ++ pick f b.
Proof. apply flat_map_app. Qed.
Lemma pick_in {A} (f : obs -> option A) tr x : In x (pick f tr) <-> exists o, In o tr /\ f o = Some x.
Proof.
  unfold pick. rewrite in_flat_map. split; intros (o & H1 & H2); exists o; split; auto.
  - destruct (f o); [|destruct H2]. destruct H2 as [H2|[]]. congruence.
  - rewrite H2. left. reflexivity.
Qed.

Lemma send_ok_run id q c : negb (send_ok true id q c) = false -> exists id', c_loop c = LRun id' /\ handled c = id'.
Proof.
  intros H. apply negb_false_iff in H. unfold send_ok in H. apply andb_true_iff in H. destruct H as [_ H]. cbn [negb orb] in H. unfold handled. destruct (c_loop c); try discriminate H. eauto.
Qed.
(** All the ways a step can happen, with the guards as hypotheses. *)
Ltac nomatch x := lazymatch x with context [match _ with _ => _ end] => fail | _ => idtac end.
Ltac sinv1 H :=
  match type of H with
  | context [match ?x with _ => _ end] => nomatch x; let E := fresh "E" in destruct x eqn:E; cbv beta iota zeta in H; try (match type of H with None = Some _ => discriminate H end)
  end.
Ltac csimp := cbn [c_sent c_resp c_lock c_wbroken c_rbroken c_closed c_done c_closers c_senders c_readers c_loop c_crash
  set_sent set_resp set_lock set_wbroken set_rbroken set_closed set_done set_closers set_senders set_readers set_loop set_crash set_spc set_rpc
  sd_id sd_q sd_inh sd_call sd_pc fst snd].
Ltac csimp_in H := cbn [c_sent c_resp c_lock c_wbroken c_rbroken c_closed c_done c_closers c_senders c_readers c_loop c_crash
  set_sent set_resp set_lock set_wbroken set_rbroken set_closed set_done set_closers set_senders set_readers set_loop set_crash set_spc set_rpc
  sd_id sd_q sd_inh sd_call sd_pc fst snd] in H.
Ltac step_open H e :=
  unfold step in H; match type of H with (if c_crash ?c then _ else _) = _ => destruct (c_crash c) eqn:?; [discriminate H|] end;
  destruct e; cbv beta iota in H;
  try match type of H with context [?w] => is_var w; match type of w with who => destruct w end end;
  unfold do_send, sender_step, reader_step, loop_step, writing, set_rest, end_write, crash in H; cbv beta zeta iota in H.
Ltac step_inv H e := step_open H e; csimp_in H; repeat (sinv1 H); try (injection H as <- <-); try (match type of H with Some ?x = Some _ => injection H as <- <- end);
  try match goal with HX : negb (send_ok true _ _ _) = false |- _ => let L := fresh "ELR" in let R := fresh "EHR" in let I := fresh "idr" in destruct (send_ok_run _ _ _ HX) as (I & L & R) end.
