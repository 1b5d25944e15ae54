(** Vocabulary for the properties of transforms: the tree a transform stands
    for, and the value of a tree. *)
From Verif Require Import Base Transform.

Section Spec.
Context {V : Type}.

(** A tree: kind, left and right operand, next transform, buffer. *)
Inductive tree := Node (k : kind) (l r n : branch) (b : option V)
with branch := BT (t : tree) | BC (v : V) | BN.

(** Object [i] of the heap stands for the tree [t], and all objects it is made of
    satisfy [P]. *)
Fixpoint stands (P : nat -> Prop) (h : heap V) (t : tree) (i : nat) {struct t} : Prop :=
  match t with
  | Node k l r n b =>
      P i /\ exists nd, nth_error h i = Some nd /\ n_kind nd = k /\ n_buf nd = b /\
        stands_branch P h l (n_left nd) /\ stands_branch P h r (n_right nd) /\ stands_branch P h n (n_next nd)
  end
with stands_branch (P : nat -> Prop) (h : heap V) (x : branch) (o : operand V) {struct x} : Prop :=
  match x, o with
  | BT t, OT j => stands P h t j
  | BC v, OC v' => v = v'
  | BN, ON => True
  | _, _ => False
  end.
Definition anywhere (_ : nat) : Prop := True.

(** The objects of [h] are still there, unchanged, in [h']. *)
Definition keeps (h h' : heap V) : Prop := forall i, i < length h -> nth_error h' i = nth_error h i.

(** The base of a transform is an older transform (true of all transforms made
    without set_base). *)
Definition bases_older (h : heap V) : Prop :=
  forall i nd b, nth_error h i = Some nd -> n_base nd = Some b -> b < i.

(** Depth of a tree. *)
Fixpoint depth (t : tree) : nat :=
  match t with Node _ l r n _ => S (Nat.max (depth_branch l) (Nat.max (depth_branch r) (depth_branch n))) end
with depth_branch (x : branch) : nat := match x with BT t => depth t | _ => 0 end.

(** The value of a tree. *)
Fixpoint value (I : interp V) (t : tree) : res V :=
  match t with
  | Node (KOut name) _ _ _ _ => e_out I name
  | Node (KOp o) l r _ _ =>
      let* a := value_branch I l in
      let* b := value_branch I r in
      match a, b with Some x, Some y => e_arith I o x y | _, _ => Err TypeError end
  | Node k _ _ n b =>
      let* _ := e_ready I k in
      let* v := (match n with
                 | BT t => value I t
                 | _ => match b with Some v => Ok v | None => default_value I k end
                 end) in
      e_app I k v
  end
with value_branch (I : interp V) (x : branch) : res (option V) :=
  match x with
  | BT t => let* v := value I t in Ok (Some v)
  | BC v => Ok (Some v)
  | BN => Ok None
  end.

(** Trees that copy supports: the right operand of every operator is a
    transform (and only operators have operands). *)
Fixpoint copyable (t : tree) : Prop :=
  match t with
  | Node k l r n b =>
      match k with
      | KOp _ => copyable_branch l /\ (match r with BT _ => True | _ => False end) /\ copyable_branch r
      | _ => l = BN /\ r = BN
      end /\ copyable_branch n
  end
with copyable_branch (x : branch) : Prop := match x with BT t => copyable t | _ => True end.

(** Transforms that map the value of the next transform. *)
Definition stage (k : kind) : Prop := match k with KOp _ | KOut _ => False | _ => True end.
Definition head (t : tree) : kind := match t with Node k _ _ _ _ => k end.

(** The chain k, ks... of transforms, the last one bound to [b]. *)
Fixpoint line (k : kind) (ks : list kind) (b : option V) : tree :=
  match ks with
  | [] => Node k BN BN BN b
  | k' :: r => Node k BN BN (BT (line k' r b)) None
  end.
(** The buffer at the end of the chain a tree starts. *)
Fixpoint last_buffer (t : tree) : option V :=
  match t with Node _ _ _ n b => match n with BT t' => last_buffer t' | _ => b end end.

(** Expressions over transforms (objects) and constants: t, e op e, c op e. *)
Inductive expr := ELeaf (i : nat) | EOp (o : opr) (a b : expr) | ELeft (o : opr) (c : V) (a : expr).
Fixpoint build (fuel : nat) (h : heap V) (e : expr) : res (heap V * nat) :=
  match e with
  | ELeaf i => Ok (h, i)
  | EOp o a b =>
      let* x := build fuel h a in
      let* y := build fuel (fst x) b in
      op_tt fuel (fst y) o (snd x) (snd y)
  | ELeft o c a =>
      let* x := build fuel h a in
      op_ct fuel (fst x) o c (snd x)
  end.
Fixpoint meaning (I : interp V) (leaf : nat -> res V) (e : expr) : res V :=
  match e with
  | ELeaf i => leaf i
  | EOp o a b => let* x := meaning I leaf a in let* y := meaning I leaf b in e_arith I o x y
  | ELeft o c a => let* x := meaning I leaf a in e_arith I o c x
  end.
Fixpoint leaves (e : expr) : list nat :=
  match e with ELeaf i => [i] | EOp _ a b => (leaves a ++ leaves b)%list | ELeft _ _ a => leaves a end.
(** Constants may stand on the left of - and * (Python gives c + t to
    [t.__radd__], which makes t + c, and has no c / t). *)
Fixpoint supported (e : expr) : Prop :=
  match e with
  | ELeaf _ => True
  | EOp _ a b => supported a /\ supported b
  | ELeft o _ a => (o = Minus \/ o = Times) /\ supported a
  end.
Fixpoint size (e : expr) : nat :=
  match e with ELeaf _ => 0 | EOp _ a b => S (size a + size b) | ELeft _ _ a => S (size a) end.

(** t1(t2(...(x))). *)
Fixpoint nest (fuel : nat) (h : heap V) (l : list nat) (x : nat) : res (heap V * nat) :=
  match l with
  | [] => Ok (h, x)
  | i :: r => let* q := nest fuel h r x in call fuel (fst q) i (snd q)
  end.

(** A chain of stages applied to a value, innermost (last) first. *)
Fixpoint apply_all (I : interp V) (l : list kind) (v : res V) : res V :=
  match l with
  | [] => v
  | k :: r => let* _ := e_ready I k in let* x := apply_all I r v in e_app I k x
  end.
End Spec.
Arguments tree V : clear implicits.
Arguments branch V : clear implicits.
Arguments expr V : clear implicits.
