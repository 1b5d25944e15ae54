(** Vocabulary for recorded methods that call recorded methods. *)
From Verif Require Import Base Nested.

Section Spec.
Context {St Cl : Type}.

(** The calls made while a body runs, with those made within each; whether they were asked
    not to be recorded and whether they returned. *)
Inductive tree := Made (c : Cl) (quiet ok : bool) (within : list tree).
(** What python does with a body, whoever records: [runs meth proper s b s' ok ts]. *)
Inductive runs (meth : Cl -> body St Cl) (proper : Cl -> bool) : St -> body St Cl -> St -> bool -> list tree -> Prop :=
| RReturn s : runs meth proper s Return s true []
| RRaise s : runs meth proper s Raise s false []
| RChange s f k s' ok ts : runs meth proper (f s) k s' ok ts -> runs meth proper s (Change f k) s' ok ts
| RRead s k s' ok ts : runs meth proper s (k s) s' ok ts -> runs meth proper s (Read k) s' ok ts
| RCall s q c k s1 ok1 ts1 s2 ok2 ts2 :
    runs meth proper s (meth c) s1 ok1 ts1 -> runs meth proper s1 (k (ok1 && proper c)) s2 ok2 ts2 ->
    runs meth proper s (Call q c k) s2 ok2 (Made c q (ok1 && proper c) ts1 :: ts2).
(** The calls that returned and were not asked to stay unrecorded, in the order they ended. *)
Fixpoint ended (t : tree) : list Cl :=
  match t with Made c q ok ts => flat_map ended ts ++ (if ok && negb q then [c] else []) end.
(** A call that returns, from one state to another. *)
Definition returns (meth : Cl -> body St Cl) (proper : Cl -> bool) (c : Cl) (s s' : St) : Prop :=
  proper c = true /\ exists ts, runs meth proper s (meth c) s' true ts.
(** A call that raises. *)
Definition raises (meth : Cl -> body St Cl) (proper : Cl -> bool) (c : Cl) (s s' : St) : Prop :=
  exists ok ts, runs meth proper s (meth c) s' ok ts /\ (ok = false \/ proper c = false).
(** Calls one after the other, all of which return. *)
Fixpoint all_return (meth : Cl -> body St Cl) (proper : Cl -> bool) (cs : list Cl) (s s' : St) : Prop :=
  match cs with
  | [] => s = s'
  | c :: r => exists s1, returns meth proper c s s1 /\ all_return meth proper r s1 s'
  end.
(** Making [c'] before [c] makes no difference, once [c] is made. *)
Definition absorbs (meth : Cl -> body St Cl) (proper : Cl -> bool) (c c' : Cl) : Prop :=
  forall s s2, returns meth proper c s s2 -> exists s1, returns meth proper c' s s1 /\ returns meth proper c s1 s2.
(** The calls recorded while [c] runs, from some state, before it is recorded itself. *)
Definition recorded_within (meth : Cl -> body St Cl) (proper : Cl -> bool) (c c' : Cl) : Prop :=
  exists s s' ok ts, runs meth proper s (meth c) s' ok ts /\ In c' (flat_map ended ts).

(** Bodies whose calls do not depend on the state, and do not raise. *)
Fixpoint straight (b : body St Cl) : Prop :=
  match b with
  | Return => True
  | Raise => False
  | Change _ k => straight k
  | Read _ => False
  | Call _ _ k => straight (k true)
  end.
(** Bodies that ask all their calls to stay unrecorded. *)
Fixpoint hushed (b : body St Cl) : Prop :=
  match b with
  | Return | Raise => True
  | Change _ k => hushed k
  | Read k => forall s, hushed (k s)
  | Call q _ k => q = true /\ forall ok, hushed (k ok)
  end.
(** How many times [c] was made, by what counts as [c]. *)
Fixpoint made (is_c : Cl -> bool) (t : tree) : nat :=
  match t with Made c _ _ ts => (if is_c c then 1 else 0) + list_sum (map (made is_c) ts) end.
(** The same, each counted once for every recorded call it is part of, itself included;
    [d] recorded calls are around. *)
Fixpoint weight (is_c : Cl -> bool) (d : nat) (t : tree) : nat :=
  match t with
  | Made c q ok ts =>
      let d' := if ok && negb q then S d else d in
      (if is_c c then d' else 0) + list_sum (map (weight is_c d') ts)
  end.
End Spec.
Arguments tree : clear implicits.

(** A counter and a mark.  0 counts, 1 counts twice, 2 counts and then raises, 3 marks; 4 sets
    the counter, 5 sets the counter and marks; 6 counts twice without recording the steps. *)
Definition counter (c : nat) : body (Z * bool) nat :=
  match c with
  | 0 => Change (fun s => (fst s + 1, snd s)%Z) Return
  | 1 => Call false 0 (fun _ => Call false 0 (fun _ => Return))
  | 2 => Change (fun s => (fst s, true)) (Call false 0 (fun _ => Raise))
  | 3 => Change (fun s => (fst s, true)) Return
  | 4 => Change (fun s => (7, snd s)%Z) Return
  | 5 => Call false 4 (fun _ => Call false 3 (fun _ => Return))
  | 6 => Call true 0 (fun _ => Call true 0 (fun _ => Return))
  | _ => Raise
  end.
Definition tally (c : nat) : body (Z * bool) nat := match c with 0 => counter 0 | _ => counter 1 end.
Definition any (c : nat) : bool := true.
