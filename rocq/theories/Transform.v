(** Transforms.  Models gsp/transform/transform.py, operator.py, accessor.py,
    measure.py (the evaluation scheme), colormap.py, light.py and out.py.

    Transforms are objects in a heap, named by their position.
    Simplifications: recorded commands and the type checks of decorated methods
    are left out (modelled in Command.v; the values stay the same); what one stage
    computes on a value is given by an interpretation; the constructors of Operator
    (abstract) and Measure (raises TypeError) are left out. *)
From Verif Require Import Base.
Local Open Scope string_scope.

(** The operators, operator.py:19-20 and 147-207. *)
Inductive opr := Plus | Minus | Times | Divide.
(** Accessor, unit of measure, any other transform that maps a value (Colormap,
    Light), output variable, operator.
    The classes of gsp/transform: accessor.py:10, measure.py:9, out.py:8, operator.py:8, colormap.py:8. *)
Inductive kind := KAcc (key : string) | KMeas (unit : string) | KMap (params : Z) | KOut (name : string) | KOp (o : opr).

Section Model.
Context {V : Type}.

(** Operands and next transforms: a transform, a constant, or None.
    operator.py:33-41 and transform.py:38. *)
Inductive operand := OT (i : nat) | OC (v : V) | ON.
(** _left, _right (operators only), _next, _buffer, _base.
    transform.py:37-39 and operator.py:28-31. *)
Record node := mkNode { n_kind : kind; n_left : operand; n_right : operand; n_next : operand;
                        n_buf : option V; n_base : option nat }.
(** The transforms that exist; one is known by its number, transform.py:36. *)
Definition heap := list node.

(** One evaluation: checks made before the operand is evaluated (the resolution
    a measure needs, measure.py:56-72), what a stage does to a value, the value of
    an unbound measure (82), output variables, arithmetic, and the types a
    transform can be called on (transform.py:156). *)
Record interp := mkI { e_ready : kind -> res unit; e_app : kind -> V -> res V; e_one : V;
                       e_out : string -> res V; e_arith : opr -> V -> V -> res V; e_bindable : V -> bool }.

(** The attributes of a transform, transform.py:37-39. *)
Definition get (h : heap) (i : nat) : res node :=
  match nth_error h i with Some n => Ok n | None => Err KeyError end.
(** isinstance(x, Transform), operator.py:110, 115, 124 and 129, transform.py:153. *)
Definition is_transform (o : operand) : bool := match o with OT _ => true | _ => false end.

(** The class called without arguments: transform.py:36-39, operator.py:27-32. *)
Definition new (h : heap) (k : kind) : heap * nat := ((h ++ [mkNode k ON ON ON None None])%list, length h).

(** The base property, transform.py:92-100. *)
Fixpoint base (fuel : nat) (h : heap) (i : nat) : res nat :=
  match fuel with
  | O => Err OutOfFuel
  | S f => let* n := get h i in match n_base n with Some b => base f h b | None => Ok i end
  end.

(** copy: transform.py:135-145; operator.py:103-120; accessor.py:31-34;
    colormap.py:57-66; light.py:52-61; out.py:32-43.  When the right operand of an
    operator is not a transform, the left operand is set again, to the original
    one, and the right operand stays None. *)
Fixpoint copy (fuel : nat) (h : heap) (i : nat) : res (heap * nat) :=
  match fuel with
  | O => Err OutOfFuel
  | S f =>
      let copy_operand h o :=
        match o with
        | OT j => let* r := copy f h j in Ok (fst r, OT (snd r))
        | _ => Ok (h, o)
        end in
      let* n := get h i in
      let* b := base (S (length h)) h i in
      let (h1, j) := new h (n_kind n) in
      let* r1 := copy_operand h1 (n_next n) in
      match n_kind n with
      | KOp _ =>
          let* r2 := copy_operand (fst r1) (n_left n) in
          if is_transform (n_right n) then
            let* r3 := copy_operand (fst r2) (n_right n) in
            Ok (upd (fst r3) j (mkNode (n_kind n) (snd r2) (snd r3) (snd r1) (n_buf n) (Some b)), j)
          else
            Ok (upd (fst r2) j (mkNode (n_kind n) (n_left n) ON (snd r1) (n_buf n) (Some b)), j)
      | _ => Ok (upd (fst r1) j (mkNode (n_kind n) ON ON (snd r1) (n_buf n) (Some b)), j)
      end
  end.

(** last, transform.py:118-126. *)
Fixpoint last_of (fuel : nat) (h : heap) (i : nat) : res nat :=
  match fuel with
  | O => Err OutOfFuel
  | S f => let* n := get h i in match n_next n with OT j => last_of f h j | _ => Ok i end
  end.
(** bound, transform.py:128-133 and operator.py:43-49 (constants have no such
    attribute). *)
Fixpoint bound (fuel : nat) (h : heap) (i : nat) : res bool :=
  match fuel with
  | O => Err OutOfFuel
  | S f =>
      let* n := get h i in
      match n_kind n with
      | KOp _ =>
          match n_left n with
          | OT l => let* a := bound f h l in
                    if a then match n_right n with OT r => bound f h r | _ => Err AttributeError end
                    else Ok false
          | _ => Err AttributeError
          end
      | _ => let* j := last_of fuel h i in
             let* m := get h j in Ok (match n_buf m with Some _ => true | None => false end)
      end
  end.

(** transform.py:68-78. *)
Definition set_buffer (h : heap) (i : nat) (b : option V) : res heap :=
  let* n := get h i in
  Ok (upd h i (mkNode (n_kind n) (n_left n) (n_right n) (n_next n) b (n_base n))).
(** transform.py:54-66. *)
Definition set_next (h : heap) (i : nat) (o : operand) : res heap :=
  let* n := get h i in
  Ok (upd h i (mkNode (n_kind n) (n_left n) (n_right n) o (n_buf n) (n_base n))).
(** operator.py:76-87. *)
Definition set_left (h : heap) (i : nat) (o : operand) : res heap :=
  let* n := get h i in
  Ok (upd h i (mkNode (n_kind n) o (n_right n) (n_next n) (n_buf n) (n_base n))).
(** operator.py:89-101. *)
Definition set_right (h : heap) (i : nat) (o : operand) : res heap :=
  let* n := get h i in
  Ok (upd h i (mkNode (n_kind n) (n_left n) o (n_next n) (n_buf n) (n_base n))).

(** __call__ on a transform, transform.py:152-155; Out refuses arguments
    (out.py:29-30). *)
Definition call (fuel : nat) (h : heap) (i j : nat) : res (heap * nat) :=
  let* n := get h i in
  match n_kind n with
  | KOut _ => Err TypeError
  | _ =>
      let* r := copy fuel h i in
      let* q := copy fuel (fst r) j in
      let* h2 := set_next (fst q) (snd r) (OT (snd q)) in
      let* h3 := set_buffer h2 (snd r) None in
      Ok (h3, snd r)
  end.
(** __call__ on a buffer or constant, transform.py:156-162.  The first result is
    the heap, also when an exception is raised. *)
Definition bind_to (I : interp) (fuel : nat) (h : heap) (i : nat) (v : V) : heap * res nat :=
  match get h i with
  | Err e => (h, Err e)
  | Ok n =>
      match n_kind n with
      | KOut _ => (h, Err TypeError)
      | _ =>
          match copy fuel h i with
          | Err e => (h, Err e)
          | Ok (h1, t) =>
              if e_bindable I v then
                match bound fuel h i with
                | Err e => (h1, Err e)
                | Ok true => (h1, Err ValueError)
                | Ok false =>
                    match (let* k := last_of fuel h1 t in set_buffer h1 k (Some v)) with
                    | Ok h2 => (h2, Ok t)
                    | Err e => (h1, Err e)
                    end
                end
              else (h1, Err ValueError)
          end
      end
  end.

(** Add, Sub, Mul and Div, operator.py:27-41 and 147-207: transforms are
    copied. *)
Definition make_op (fuel : nat) (h : heap) (o : opr) (l r : operand) : res (heap * nat) :=
  let copy_operand h x :=
    match x with
    | OT j => let* q := copy fuel h j in Ok (fst q, OT (snd q))
    | _ => Ok (h, x)
    end in
  let (h1, j) := new h (KOp o) in
  let* r1 := copy_operand h1 l in
  let* r2 := copy_operand (fst r1) r in
  Ok (upd (fst r2) j (mkNode (KOp o) (snd r1) (snd r2) ON None None), j).

(** The Python operators, transform.py:164-194.  Between two transforms: *)
Definition op_tt fuel h o i j := make_op fuel h o (OT i) (OT j).
(** A transform and then a constant, transform.py:164-194. *)
Definition op_tc fuel h o i v := make_op fuel h o (OT i) (OC v).
(** A constant and then a transform, transform.py:168-170, 180-182 and 188-190. *)
Definition op_ct fuel h o v i : res (heap * nat) :=
  match o with
  | Plus => make_op fuel h Plus (OT i) (OC v)
  | Minus => make_op fuel h Minus (OC v) (OT i)
  | Times => make_op fuel h Times (OC v) (OT i)
  | Divide => Err TypeError
  end.
(** transform.py:176-178. *)
Definition neg fuel h (minus_one : V) i := make_op fuel h Times (OT i) (OC minus_one).
(** Measure * constant binds, measure.py:98-104. *)
Definition measure_mul (I : interp) (number : V -> bool) fuel h i v : heap * res nat :=
  if number v then bind_to I fuel h i v
  else match op_tc fuel h Times i v with Ok (h', j) => (h', Ok j) | Err e => (h, Err e) end.

(** What stands for a value that is missing: accessor.py:36-56, measure.py:51-96,
    colormap.py:69-84, light.py:63-96. *)
Definition default_value (I : interp) (k : kind) : res V :=
  match k with
  | KMeas _ => Ok (e_one I)
  | KAcc _ => Err ValueError
  | _ => Err AttributeError
  end.
(** evaluate: accessor.py:36-56, measure.py:51-96, colormap.py:69-84, light.py:63-96, out.py:46-74, operator.py:122-134 and 159-207. *)
Fixpoint evaluate (I : interp) (fuel : nat) (h : heap) (i : nat) : res V :=
  match fuel with
  | O => Err OutOfFuel
  | S f =>
      let value o :=
        match o with
        | OT j => let* v := evaluate I f h j in Ok (Some v)
        | OC v => Ok (Some v)
        | ON => Ok None
        end in
      let* n := get h i in
      match n_kind n with
      | KOut name => e_out I name
      | KOp o =>
          let* a := value (n_left n) in
          let* b := value (n_right n) in
          match a, b with Some x, Some y => e_arith I o x y | _, _ => Err TypeError end
      | k =>
          let* _ := e_ready I k in
          let* v := (match n_next n with
                     | OT j => evaluate I f h j
                     | _ => match n_buf n with Some v => Ok v | None => default_value I k end
                     end) in
          e_app I k v
      end
  end.
End Model.
Arguments operand V : clear implicits.
Arguments node V : clear implicits.
Arguments heap V : clear implicits.
Arguments interp V : clear implicits.
