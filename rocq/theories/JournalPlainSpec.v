(** The same programs on transforms with and without the recording of commands. *)
From Verif Require Import Base Registry Convert Command Execute Protocol Session Journal JournalSpec.
From Verif Require Transform.
Open Scope string_scope.

(** A transform of the model with recording as one of the model without: the kind [K]
    gives it from its class and attributes, operands, next transform, buffer and base. *)
Definition kind_code := tclass -> dict string value -> Transform.kind.
Definition same_opr (o : opr) : Transform.opr :=
  match o with Plus => Transform.Plus | Minus => Transform.Minus | Times => Transform.Times | Divide => Transform.Divide end.
(** Operators stay operators, outputs outputs and colour maps maps; the others are none
    of these, except that anything may stand for a buffer. *)
Definition codes (K : kind_code) : Prop := forall k a,
  match k with
  | Op o => K k a = Transform.KOp (same_opr o)
  | Out => exists n, K k a = Transform.KOut n
  | Cmap => exists p, K k a = Transform.KMap p
  | Buf => (forall o, K k a <> Transform.KOp o) /\ (forall n, K k a <> Transform.KOut n)
  | _ => (forall o, K k a <> Transform.KOp o) /\ (forall n, K k a <> Transform.KOut n) /\ (forall p, K k a <> Transform.KMap p)
  end.
Definition as_operand (v : value) : Transform.operand value :=
  match a_transform v with
  | Some i => Transform.OT i
  | None => match v with VNone => Transform.ON | _ => Transform.OC v end
  end.
Definition as_buffer (v : value) : option value := match v with VNone => None | _ => Some v end.
Definition as_base (v : value) : option nat := match v with VObj _ i => Some i | _ => None end.
Definition as_node (K : kind_code) (n : tnode) : Transform.node value :=
  Transform.mkNode (K (t_class n) (t_attrs n)) (as_operand (t_left n)) (as_operand (t_right n)) (as_operand (t_next n))
                   (as_buffer (t_buf n)) (as_base (t_base n)).

(** The steps on the model without recording.  Buffers have a place in the list but
    are never followed. *)
Definition plain_set (h : Transform.heap value) (i : nat) (m : string) (v : value) : res (Transform.heap value) :=
  let* n := Transform.get h i in
  let operator := match Transform.n_kind n with Transform.KOp _ => true | _ => false end in
  if String.eqb m "set_buffer" then Transform.set_buffer h i (as_buffer v)
  else if String.eqb m "set_next" then Transform.set_next h i (as_operand v)
  else if String.eqb m "set_base" then
    Ok (upd h i (Transform.mkNode (Transform.n_kind n) (Transform.n_left n) (Transform.n_right n) (Transform.n_next n) (Transform.n_buf n) (as_base v)))
  else if String.eqb m "set_colormap" then
    match Transform.n_kind n with Transform.KMap _ => Ok h | _ => Err AttributeError end
  else if operator then
    if String.eqb m "set_left" then Transform.set_left h i (as_operand v)
    else if String.eqb m "set_right" then Transform.set_right h i (as_operand v)
    else if String.eqb m "set_operator" then Ok h
    else Err AttributeError
  else Err AttributeError.
Definition plain_step (K : kind_code) (I : Transform.interp value) (fuel : nat) (h : Transform.heap value) (a : step) : res (Transform.heap value) :=
  match a with
  | Make k args kw =>
      let* b := bind_args (sig_of k) args kw in
      match k with
      | Op o => let* r := Transform.make_op fuel h (same_opr o) (as_operand (arg b "left")) (as_operand (arg b "right")) in Ok (fst r)
      | _ => Ok (h ++ [as_node K (blank k b)])%list
      end
  | Copy i => let* r := Transform.copy fuel h i in Ok (fst r)
  | Chain i j => let* r := Transform.call fuel h i j in Ok (fst r)
  | Bind i v => let '(h', r) := Transform.bind_to I fuel h i v in let* _ := r in Ok h'
  | Set_ i m v => plain_set h i m v
  end.
Fixpoint plain_steps (K : kind_code) (I : Transform.interp value) (fuel : nat) (h : Transform.heap value) (l : list step) : res (Transform.heap value) :=
  match l with [] => Ok h | a :: r => let* h' := plain_step K I fuel h a in plain_steps K I fuel h' r end.

(** Steps with arguments of the types the annotations ask for: known classes; objects
    the program has made; copied, chained and bound are transforms, bound to a number or
    a buffer, the next and the base transform a transform or None. *)
Definition transform_at (c : st) (i : nat) : Prop := exists n, nth_error (nodes c) i = Some n /\ t_class n <> Buf.
Definition bindable (v : value) : bool :=
  match v with VInt _ | VFloat _ => true | VObj c _ => String.eqb c "Buffer" | _ => false end.
Definition transform_or_none (v : value) : Prop := v = VNone \/ a_transform v <> None.
Definition typed (c : st) (a : step) : Prop :=
  match a with
  | Make k args kw => In k classes /\ (forall v, In v args -> held c v) /\ (forall n v, In (n, v) kw -> held c v)
  | Copy i => transform_at c i
  | Chain i j => transform_at c i /\ transform_at c j
  | Bind i v => transform_at c i /\ held c v /\ bindable v = true
  | Set_ i m v => transform_at c i /\ held c v /\ (m = "set_next" \/ m = "set_base" -> transform_or_none v)
  end.
Fixpoint all_typed (fuel : nat) (c : st) (l : list step) : Prop :=
  match l with
  | [] => True
  | a :: r => typed c a /\ match do_step fuel c a with Ok c' => all_typed fuel c' r | Err _ => True end
  end.
(** The same end: the same transforms, or the same exception. *)
Definition same_end (K : kind_code) (r : res st) (p : res (Transform.heap value)) : Prop :=
  match r, p with
  | Ok s, Ok h => map (as_node K) (nodes s) = h
  | Err e, Err e' => e = e'
  | _, _ => False
  end.

(** A code: accessors by key, units by name. *)
Definition code : kind_code := fun k a =>
  match k with
  | Op o => Transform.KOp (same_opr o)
  | Out => Transform.KOut (match arg a "name" with VStr s => s | _ => "" end)
  | Letter _ | Acc => Transform.KAcc (match arg a "key" with VStr s => s | _ => "" end)
  | Unit u => Transform.KMeas u
  | Cmap => Transform.KMap 1
  | Buf => Transform.KMap 0
  end.
(** The same transforms, whatever was recorded. *)
Definition same_nodes (r r' : res st) : Prop :=
  match r, r' with Ok s, Ok s' => nodes s = nodes s' | Err e, Err e' => e = e' | _, _ => False end.

(** X(Y(buffer)) + 2 * Pixel, copied, with its left operand replaced. *)
Definition program : list step :=
  [Make Buf [VInt 4; VStr "vec4"] []; Make (Letter "X") [] []; Make (Letter "Y") [] []; Chain 1 2; Bind 3 (VObj "Buffer" 0%nat);
   Make (Unit "Pixel") [] []; Make (Op Times) [VObj "Pixel" 7%nat; VInt 2] []; Make (Op Plus) [VObj "X" 5%nat; VObj "Mul" 8%nat] []; Copy 10;
   Set_ 10 "set_left" (VObj "Y" 2%nat); Set_ 2 "set_buffer" (VFloat 1); Make Cmap [VStr "magma"] []; Set_ 20 "set_colormap" (VStr "gray")].
Definition any : Transform.interp value :=
  Transform.mkI (fun _ => Ok tt) (fun _ v => Ok v) VNone (fun _ => Ok VNone) (fun _ v _ => Ok v) bindable.
