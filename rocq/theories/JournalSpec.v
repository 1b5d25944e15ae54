(** What it means that a transform has been rebuilt. *)
From Verif Require Import Base Registry Convert Command CommandSpec Execute Protocol Session Journal.
Open Scope string_scope.

(** ** The value of a transform *)

(** [i_leaf k a x]: what an accessor, measure, colour map or output variable with
    attributes [a] makes of [x], the value it is applied to, if any. *)
Record interp (X : Type) := mkI {
  i_leaf : tclass -> dict string value -> option X -> res X;
  i_op : opr -> X -> X -> res X;
  i_buf : dict string value -> X;
  i_num : value -> res X }.
Arguments i_leaf {X}. Arguments i_op {X}. Arguments i_buf {X}. Arguments i_num {X}.

Fixpoint eval {X} (I : interp X) (fuel : nat) (ns : list tnode) (v : value) : res X :=
  match fuel with
  | O => Err OutOfFuel
  | S f =>
      match v with
      | VObj _ i =>
          match nth_error ns i with
          | None => Err KeyError
          | Some n =>
              match t_class n with
              | Buf => Ok (i_buf I (t_attrs n))
              | Op o => let* a := eval I f ns (t_left n) in let* b := eval I f ns (t_right n) in i_op I o a b
              | k =>
                  let* x := match a_transform (t_next n) with
                            | Some _ => let* y := eval I f ns (t_next n) in Ok (Some y)
                            | None => match t_buf n with
                                      | VNone => Ok None
                                      | w => let* y := eval I f ns w in Ok (Some y)
                                      end
                            end in
                  i_leaf I k (t_attrs n) x
              end
          end
      | VNone => Err TypeError
      | _ => i_num I v
      end
  end.

(** ** Rebuilt *)

(** Object [j] of process [s] is registered under the identifier of object [i] of
    process [c]. *)
Definition stands (c s : st) (i j : nat) : Prop :=
  exists z, id_of (reg c) i = Some z /\ lookup (reg s) z = Some j.
Definition same_value (c s : st) (v w : value) : Prop :=
  match v with VObj k i => exists j, w = VObj k j /\ stands c s i j | _ => w = v end.
(** Same class, attributes, operands, next transform and buffer. *)
Definition rebuilt (c s : st) (i : nat) : Prop :=
  exists j n m, stands c s i j /\ nth_error (nodes c) i = Some n /\ nth_error (nodes s) j = Some m /\
    t_class m = t_class n /\ t_attrs m = t_attrs n /\
    same_value c s (t_left n) (t_left m) /\ same_value c s (t_right n) (t_right m) /\
    same_value c s (t_next n) (t_next m) /\ same_value c s (t_buf n) (t_buf m).

(** ** Steps that survive *)

(** A transform that copies whole: accessors X to A and units, not chained and not
    bound to a buffer, and operators on such transforms, on buffers and numbers. *)
Inductive whole (ns : list tnode) : nat -> Prop :=
| W_leaf i n : nth_error ns i = Some n ->
    (match t_class n with Letter _ | Unit _ => True | _ => False end) ->
    a_transform (t_next n) = None -> is_object (t_buf n) = false -> whole ns i
| W_op i n o : nth_error ns i = Some n -> t_class n = Op o ->
    a_transform (t_next n) = None -> is_object (t_buf n) = false ->
    (forall t, a_transform (t_left n) = Some t -> whole ns t) ->
    (forall t, a_transform (t_right n) = Some t -> whole ns t) -> whole ns i.
(** A value a program can pass: an object it has made, or a number, string, ... *)
Definition held (c : st) (v : value) : Prop :=
  match v with
  | VObj k i => exists n, nth_error (nodes c) i = Some n /\ class_name (t_class n) = k
  | _ => plain v = true
  end.
(** Making any object without giving it an object; copying a whole transform;
    binding a whole accessor or unit to a number; setting an operand to anything;
    setting anything else to something that is not an object. *)
Definition survives (c : st) (a : step) : Prop :=
  match a with
  | Make k args kw => In k classes /\ NoDup (dkeys kw) /\
      (forall v, In v args -> plain v = true) /\ (forall n v, In (n, v) kw -> plain v = true)
  | Copy i => whole (nodes c) i
  | Bind i v => whole (nodes c) i /\ plain v = true
  | Set_ i m v => held c v /\ (m = "set_left" \/ m = "set_right" \/ plain v = true)
  | Chain _ _ => False
  end.
Fixpoint all_survive (fuel : nat) (c : st) (l : list step) : Prop :=
  match l with
  | [] => True
  | a :: r => survives c a /\ match do_step fuel c a with Ok c' => all_survive fuel c' r | Err _ => True end
  end.

(** A process able to play a file back: objects are recorded, and it has given
    out no fewer identifiers than a new process. *)
Definition able (s : st) : Prop :=
  recording (reg s) = true /\ (0 <= counter (reg s))%Z /\ length (nodes s) = length (heap (reg s)).
(** Needs more than one copy: a chained transform, or an operator on a transform. *)
Definition compound (n : tnode) : Prop :=
  a_transform (t_next n) <> None \/
  (exists o, t_class n = Op o) /\ (a_transform (t_left n) <> None \/ a_transform (t_right n) <> None).

(** A value a program can pass, and calls that pass only such values. *)
Definition passable (v : value) : Prop := plain v = true \/ is_object v = true.
Definition proper (a : step) : Prop :=
  match a with
  | Make k args kw => In k classes /\ NoDup (dkeys kw) /\ (forall v, In v args -> passable v) /\ (forall n v, In (n, v) kw -> passable v)
  | _ => True
  end.
(** The value is a compound transform. *)
Definition nested (c : st) (v : value) : Prop := exists t n, a_transform v = Some t /\ nth_error (nodes c) t = Some n /\ compound n.
(** A process playing commands back. *)
Definition ready (s : st) : Prop := on s = false /\ length (nodes s) = length (heap (reg s)).
(** The transform or buffer a transform is applied to. *)
Definition link (m : string) (n : tnode) : value := if String.eqb m "set_next" then t_next n else t_buf n.

(** The methods of a transform by its class. *)
Definition methods_of (k : tclass) : list string :=
  (["set_base"; "set_next"; "set_buffer"] ++
   match k with Op _ => ["set_operator"; "set_left"; "set_right"] | Cmap => ["set_colormap"] | _ => [] end)%list.

(** ** Data of the examples *)
Local Open Scope nat_scope.

(** X and Y, an addition filled in afterwards, a copy of it, and ten pixels. *)
Definition sum_program : list step :=
  [Make (Letter "X") [] []; Make (Letter "Y") [] []; Make (Op Plus) [] []; Set_ 2 "set_left" (VObj "X" 0); Set_ 2 "set_right" (VObj "Y" 1);
   Copy 2; Make (Unit "Pixel") [] []; Bind 6 (VInt 10%Z)].
(** The same sum written X() + Y(). *)
Definition plus_program : list step :=
  [Make (Letter "X") [] []; Make (Letter "Y") [] []; Make (Op Plus) [VObj "X" 0; VObj "Y" 1] []].
(** (X() + Y()) + Z(). *)
Definition nested_program : list step :=
  [Make (Letter "X") [] []; Make (Letter "Y") [] []; Make (Op Plus) [VObj "X" 0; VObj "Y" 1] []; Make (Letter "Z") [] []; Make (Op Plus) [VObj "Add" 2; VObj "Z" 5] []].
(** A buffer, and X bound to it; a colour map and a copy of it. *)
Definition bound_program : list step :=
  [Make Buf [VInt 3%Z; VStr "float32"] []; Make (Letter "X") [] []; Set_ 1 "set_buffer" (VObj "Buffer" 0)].
Definition colours_program : list step := [Make Cmap [VStr "magma"; VInt 0%Z; VInt 1%Z] []; Copy 0].
(** A process that has already made five objects. *)
Definition ahead : st := mkSt (mkR 5%Z true [] [1; 2; 3; 4; 5]%Z) (repeat (blank Out []) 5) [] true.
(** What a transform makes of numbers: accessors give 3 and 4, lengths are in pixels. *)
Definition sums : interp Z := mkI Z
  (fun k a x => match k, x with
                | Letter "X", _ => Ok 3%Z | Letter "Y", _ => Ok 4%Z
                | Unit "Pixel", Some z => Ok z | Unit "Inch", Some z => Ok (72 * z)%Z
                | Cmap, _ => match dget a "vmax" with Some (VInt z) => Ok z | _ => Err TypeError end
                | _, _ => Err TypeError end)
  (fun o a b => match o with Plus => Ok (a + b)%Z | Minus => Ok (a - b)%Z | Times => Ok (a * b)%Z | Divide => Err TypeError end)
  (fun _ => 0%Z) (fun v => match v with VInt z => Ok z | _ => Err TypeError end).
(** The value of the transform a process knows under an identifier. *)
Definition value_of (s : res st) (z : Z) : res Z :=
  let* s := s in match lookup (reg s) z with Some j => eval sums 9 (nodes s) (obj s j) | None => Err KeyError end.

(** The key of the letter's class. *)
Definition small_letter (c : string) : string :=
  match List.find (fun p => String.eqb (fst p) c)
    [("X", "x"); ("Y", "y"); ("Z", "z"); ("W", "w"); ("R", "r"); ("G", "g"); ("B", "b"); ("A", "a")] with
  | Some p => snd p
  | None => c
  end.
