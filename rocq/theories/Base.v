(** Shared vocabulary of the model: exceptions as values and Python's
    insertion-ordered dictionaries.  Nothing here is specific to GSP. *)
From Coq Require Export String Ascii.
From Coq Require Export List Arith ZArith NArith Lia Bool.
Export ListNotations.

(** Python exception classes that the modelled code raises or lets escape.
    Not code of its own: used by every model file, which cites the raising lines. *)
Inductive exn :=
| KeyError | TypeError | ValueError | AttributeError | NameError | IndexError
| ZeroDivisionError | NotImplementedError | UnboundLocalError | RuntimeErr
| OutOfFuel (* never raised by the code: the model ran out of recursion fuel *)
| UserError (n : nat) (* an exception raised by code outside the model *).

(** Outcome of a Python expression: a value, or an exception. Not code of its own. *)
Inductive res (A : Type) := Ok (a : A) | Err (e : exn).
Arguments Ok {A} a.
Arguments Err {A} e.

(** Sequencing: an exception ends the enclosing Python function.  Not code of its own. *)
Definition bind {A B} (r : res A) (f : A -> res B) : res B :=
  match r with Ok a => f a | Err e => Err e end.
Notation "'let*' x ':=' r 'in' k" := (bind r (fun x => k))
  (at level 200, x pattern, r at level 100, k at level 200).

(** Whether a Python expression returned.  Not code of its own. *)
Definition is_ok {A} (r : res A) : bool := match r with Ok _ => true | Err _ => false end.

(** Decidable equality on dictionary keys. Python's == on hashable keys; not code of its own. *)
Class EqB (K : Type) := {
  eqb : K -> K -> bool;
  eqb_spec : forall a b, reflect (a = b) (eqb a b) }.

#[export] Instance EqB_string : EqB string := {| eqb := String.eqb; eqb_spec := String.eqb_spec |}.
#[export] Instance EqB_Z : EqB Z := {| eqb := Z.eqb; eqb_spec := Z.eqb_spec |}.
#[export] Instance EqB_nat : EqB nat := {| eqb := Nat.eqb; eqb_spec := Nat.eqb_spec |}.

Lemma pair_eqb_spec {A B} {HA : EqB A} {HB : EqB B} (p q : A * B) :
  reflect (p = q) (eqb (fst p) (fst q) && eqb (snd p) (snd q)).
Proof.
  destruct p as [a b], q as [a' b']; cbn [fst snd].
  destruct (eqb_spec a a'), (eqb_spec b b'); cbn; constructor; congruence.
Qed.
#[export] Instance EqB_pair {A B} {HA : EqB A} {HB : EqB B} : EqB (A * B) :=
  {| eqb := fun p q => eqb (fst p) (fst q) && eqb (snd p) (snd q);
     eqb_spec := pair_eqb_spec |}.

Lemma eqb_refl {K} {H : EqB K} (k : K) : eqb k k = true.
Proof. destruct (eqb_spec k k); congruence. Qed.
Lemma eqb_eq {K} {H : EqB K} (a b : K) : eqb a b = true <-> a = b.
Proof. destruct (eqb_spec a b); split; congruence. Qed.
Lemma eqb_neq {K} {H : EqB K} (a b : K) : eqb a b = false <-> a <> b.
Proof. destruct (eqb_spec a b); split; congruence. Qed.

(** Python [dict]: an association list in insertion order.  Assigning an
    existing key keeps its position; a new key goes last. *)
Section Dict.
  Context {K V : Type} {HK : EqB K}.
  (** Such as Object.objects, gsp/object.py:64, and NamedSingleton._instances, gsp/io/command.py:60. *)
  Definition dict := list (K * V).

  (** [d.get(k)] As in gsp/io/command.py:69. *)
  Fixpoint dget (d : dict) (k : K) : option V :=
    match d with
    | [] => None
    | (k', v) :: r => if eqb k k' then Some v else dget r k
    end.
  (** [k in d] As in gsp/io/command.py:67. *)
  Definition dmem (d : dict) (k : K) : bool :=
    match dget d k with Some _ => true | None => false end.
  (** [d[k] = v] As in gsp/io/command.py:68. *)
  Fixpoint dset (d : dict) (k : K) (v : V) : dict :=
    match d with
    | [] => [(k, v)]
    | (k', v') :: r => if eqb k k' then (k', v) :: r else (k', v') :: dset r k v
    end.
  (** [del d[k]] when [k] is present (callers test first) As in gsp/object.py:77-78. *)
  Fixpoint ddel (d : dict) (k : K) : dict :=
    match d with
    | [] => []
    | (k', v') :: r => if eqb k k' then ddel r k else (k', v') :: ddel r k
    end.
  (** [d.keys()] As in gsp/io/command.py:67. *)
  Definition dkeys (d : dict) : list K := map fst d.

  Lemma dget_dset_same d k v : dget (dset d k v) k = Some v.
  Proof.
    induction d as [|[k' v'] r IH]; cbn; [now rewrite eqb_refl|].
    destruct (eqb k k') eqn:E; cbn; rewrite E; auto.
  Qed.
  Lemma dget_dset_other d k k1 v : k1 <> k -> dget (dset d k v) k1 = dget d k1.
  Proof.
    intros Hn. induction d as [|[k' v'] r IH]; cbn.
    - now rewrite (proj2 (eqb_neq k1 k) Hn).
    - destruct (eqb k k') eqn:E; cbn.
      + apply eqb_eq in E; subst. rewrite (proj2 (eqb_neq k1 k') Hn); auto.
      + destruct (eqb k1 k'); auto.
  Qed.
  Lemma dget_dset d k k1 v : dget (dset d k v) k1 = if eqb k1 k then Some v else dget d k1.
  Proof.
    destruct (eqb_spec k1 k) as [->|Hn]; [apply dget_dset_same | now apply dget_dset_other].
  Qed.
  Lemma dget_ddel d k k1 : dget (ddel d k) k1 = if eqb k1 k then None else dget d k1.
  Proof.
    induction d as [|[k' v'] r IH]; cbn; [now destruct (eqb k1 k)|].
    destruct (eqb_spec k k') as [->|Hn].
    - rewrite IH. destruct (eqb_spec k1 k'); auto.
    - cbn. rewrite IH. destruct (eqb_spec k1 k') as [->|]; auto.
      destruct (eqb_spec k' k); congruence.
  Qed.
  Lemma dget_app d1 d2 k :
    dget (d1 ++ d2) k = match dget d1 k with Some v => Some v | None => dget d2 k end.
  Proof.
    induction d1 as [|[k' v'] r IH]; cbn; auto. destruct (eqb k k'); auto.
  Qed.
  Lemma dget_in d k v : dget d k = Some v -> In (k, v) d.
  Proof.
    induction d as [|[k' v'] r IH]; cbn; [congruence|].
    destruct (eqb_spec k k') as [->|]; intros E; [left; congruence | right; auto].
  Qed.
  Lemma dget_none d k : dget d k = None <-> ~ In k (dkeys d).
  Proof.
    induction d as [|[k' v'] r IH]; cbn; [tauto|].
    destruct (eqb_spec k k') as [->|Hn]; [split; [congruence | intros H; exfalso; tauto]|].
    rewrite IH. split; [intros H [E|E]; [congruence | auto] | tauto].
  Qed.
  Lemma dget_nodup_in d k v : NoDup (dkeys d) -> In (k, v) d -> dget d k = Some v.
  Proof.
    induction d as [|[k' v'] r IH]; cbn; [tauto|].
    intros Hnd Hin. inversion Hnd as [|? ? Hni Hnd']; subst.
    destruct Hin as [E|Hin].
    - injection E as -> ->. now rewrite eqb_refl.
    - destruct (eqb_spec k k') as [->|]; [|auto].
      exfalso; apply Hni. change k' with (fst (k', v)). now apply in_map.
  Qed.
  Lemma dmem_in d k : dmem d k = true <-> In k (dkeys d).
  Proof.
    unfold dmem. destruct (dget d k) eqn:E.
    - split; [|reflexivity]. intros _. apply dget_in in E. change k with (fst (k, v)). now apply in_map.
    - apply dget_none in E. split; [congruence | tauto].
  Qed.
  Lemma dmem_false d k : dmem d k = false <-> dget d k = None.
  Proof. unfold dmem; destruct (dget d k); split; congruence. Qed.
  Lemma dkeys_dset d k v :
    dkeys (dset d k v) = if dmem d k then dkeys d else dkeys d ++ [k].
  Proof.
    unfold dmem. induction d as [|[k' v'] r IH]; cbn; auto.
    destruct (eqb_spec k k') as [->|Hn]; cbn; auto.
    fold (dkeys (dset r k v)). rewrite IH. destruct (dget r k); auto.
  Qed.
  Lemma dset_nodup d k v : NoDup (dkeys d) -> NoDup (dkeys (dset d k v)).
  Proof.
    intros H. rewrite dkeys_dset. destruct (dmem d k) eqn:E; auto.
    apply dmem_false, dget_none in E.
    apply NoDup_rev in H. rewrite <- (rev_involutive (dkeys d ++ [k])). apply NoDup_rev.
    rewrite rev_app_distr. cbn. constructor; auto. now rewrite <- in_rev.
  Qed.
  Lemma dset_new d k v : dmem d k = false -> dset d k v = d ++ [(k, v)].
  Proof.
    unfold dmem. induction d as [|[k' v'] r IH]; cbn; auto.
    destruct (eqb_spec k k') as [->|]; [congruence|]. intros H. now rewrite IH.
  Qed.
  Lemma ddel_keys d k : dkeys (ddel d k) = filter (fun k' => negb (eqb k k')) (dkeys d).
  Proof.
    unfold dkeys. induction d as [|[k' v'] r IH]; cbn; auto.
    destruct (eqb k k'); cbn; [exact IH | now rewrite IH].
  Qed.
  Lemma ddel_nodup d k : NoDup (dkeys d) -> NoDup (dkeys (ddel d k)).
  Proof. intros H. rewrite ddel_keys. now apply NoDup_filter. Qed.
  Lemma ddel_notin d k : dget d k = None -> ddel d k = d.
  Proof.
    induction d as [|[k' v'] r IH]; cbn; auto.
    destruct (eqb k k'); [congruence|]. intros H; now rewrite IH.
  Qed.
End Dict.
Arguments dict : clear implicits.

(** List update [l[i] = x]; unchanged when the index is out of range.
    Python's list and numpy's item assignment; not code of its own. *)
Fixpoint upd {A} (l : list A) (i : nat) (x : A) : list A :=
  match l, i with
  | [], _ => []
  | _ :: r, O => x :: r
  | y :: r, S j => y :: upd r j x
  end.
Lemma upd_length {A} (l : list A) i x : length (upd l i x) = length l.
Proof. revert i; induction l as [|y r IH]; intros [|j]; cbn; auto. Qed.
Lemma nth_error_upd {A} (l : list A) i j x :
  nth_error (upd l i x) j =
  if Nat.eqb j i then match nth_error l j with Some _ => Some x | None => None end
  else nth_error l j.
Proof.
  revert i j; induction l as [|y r IH]; intros [|i] [|j]; cbn; auto.
  now destruct (j =? i).
Qed.
