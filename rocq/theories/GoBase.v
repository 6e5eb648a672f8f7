(** Basic vocabulary shared by the whole model.

    Go strings and []byte are modelled as Coq [string] (a sequence of bytes).
    [res] is the outcome of running a piece of Go code that may return an error
    or panic (nil dereference, index out of range, explicit panic). *)
From Coq Require Export String Ascii List Bool ZArith NArith Lia.
Export ListNotations.
Open Scope list_scope.

Infix "+++" := String.append (at level 60, right associativity).

(** Outcome of a Go function with an [error] result.  [Panic] is a Go run-time
    panic; no recover() exists anywhere in /repo, so outside net/http handlers a
    panic terminates the process.
    For instance ws/conn.go:116. *)
Inductive res (A : Type) : Type :=
| Ok (a : A)
| Err (e : string)
| Panic.
Arguments Ok {A} a.
Arguments Err {A} e.
Arguments Panic {A}.

(** if err != nil { return ... }, for instance ws/conn.go:119-121. *)
Definition rbind {A B} (r : res A) (f : A -> res B) : res B :=
  match r with Ok a => f a | Err e => Err e | Panic => Panic end.

(** err == nil, for instance ws/conn.go:184. *)
Definition is_ok {A} (r : res A) : bool := match r with Ok _ => true | _ => false end.

(** The same for an optional value, for instance soap/marshal.go:14-19. *)
Definition omap {A B} (f : A -> B) (o : option A) : option B :=
  match o with Some a => Some (f a) | None => None end.

(** A byte as a number (messages are []byte, ws/conn.go:116). *)
Definition code (c : ascii) : N := N_of_ascii c.
(** A number as a byte (messages are []byte, ws/conn.go:116). *)
Definition chr (n : N) : ascii := ascii_of_N n.

(** Range of a byte, for the parsers called at ws/conn.go:118. *)
Definition between (lo hi : N) (c : ascii) : bool :=
  (N.leb lo (code c) && N.leb (code c) hi)%bool.

(** A byte as a string, for the printers called at ws/conn.go:269. *)
Definition str1 (c : ascii) : string := String c EmptyString.

(** Double-quote and backslash, which are awkward to write in Coq literals.
    Used by the printers called at ws/conn.go:269. *)
Definition dq : ascii := chr 34.
(** Backslash, used by the printers called at ws/conn.go:269. *)
Definition bsl : ascii := chr 92.

(** All bytes of a string, for statements about the text of ws/conn.go:269. *)
Fixpoint str_forall (p : ascii -> bool) (s : string) : bool :=
  match s with
  | EmptyString => true
  | String c r => p c && str_forall p r
  end.

(** strings.Join, for the printers called at ws/conn.go:269. *)
Fixpoint join (sep : string) (l : list string) : string :=
  match l with
  | [] => EmptyString
  | [x] => x
  | x :: r => x +++ sep +++ join sep r
  end.

(** Association lists keyed by strings.
    Reading a Go map, for instance ws/conn.go:191, cs/cs.go:195. *)
Fixpoint lookup {A} (k : string) (l : list (string * A)) : option A :=
  match l with
  | [] => None
  | (k', v) :: r => if String.eqb k k' then Some v else lookup k r
  end.

(** _, ok := m[k], ws/conn.go:191. *)
Definition has_key {A} (k : string) (l : list (string * A)) : bool :=
  match lookup k l with Some _ => true | None => false end.

(** ** Elementary lemmas on strings *)

Lemma sapp_nil_r (s : string) : s +++ EmptyString = s.
Proof. induction s as [|c s IH]; cbn; [reflexivity|now rewrite IH]. Qed.

Lemma sapp_assoc (a b c : string) : (a +++ b) +++ c = a +++ (b +++ c).
Proof. induction a as [|x a IH]; cbn; [reflexivity|now rewrite IH]. Qed.

Lemma sapp_length (a b : string) :
  String.length (a +++ b) = String.length a + String.length b.
Proof. induction a as [|x a IH]; cbn; [reflexivity|now rewrite IH]. Qed.

Lemma str_forall_app p a b : str_forall p (a +++ b) = str_forall p a && str_forall p b.
Proof. induction a as [|x a IH]; cbn; [reflexivity|]. rewrite IH. now rewrite andb_assoc. Qed.

Lemma code_bound c : (code c < 256)%N.
Proof. apply N_ascii_bounded. Qed.

Lemma chr_code c : chr (code c) = c.
Proof. apply ascii_N_embedding. Qed.

Lemma code_chr n : (n < 256)%N -> code (chr n) = n.
Proof. apply N_ascii_embedding. Qed.

Lemma lookup_In {A} k (l : list (string * A)) v : lookup k l = Some v -> In (k, v) l.
Proof.
  induction l as [|[k' v'] l IH]; cbn; [discriminate|].
  destruct (String.eqb_spec k k') as [E|E]; intros H.
  - left. injection H as H. subst. reflexivity.
  - right. auto.
Qed.

Lemma lookup_None {A} k (l : list (string * A)) : lookup k l = None <-> ~ In k (map fst l).
Proof.
  induction l as [|[k' v'] l IH]; cbn; [split; [intros _ []|reflexivity]|].
  destruct (String.eqb_spec k k') as [E|E].
  - split; [discriminate|]. intros H; exfalso; apply H; left; congruence.
  - rewrite IH. split; intros H; [intros [H'|H']; [congruence|auto]|intros H'; apply H; auto].
Qed.

Lemma In_lookup {A} k v (l : list (string * A)) :
  NoDup (map fst l) -> In (k, v) l -> lookup k l = Some v.
Proof.
  induction l as [|[k' v'] l IH]; cbn; [intros _ []|].
  intros ND [H|H].
  - injection H as H1 H2; subst. now rewrite String.eqb_refl.
  - inversion ND as [|? ? Hn ND']; subst.
    destruct (String.eqb_spec k k') as [E|E]; [|auto].
    subst. exfalso. apply Hn. change k' with (fst (k', v)). now apply in_map.
Qed.
