(** What building transforms records, and what playing it back rebuilds.  Models
    gsp/transform/transform.py, operator.py, accessor.py, colormap.py, measure.py (the
    constructors and the product with a number) and out.py together with the recording of
    their decorated methods (gsp/io/command.py:202-303) and Command.execute
    (command.py:409-455).  The backend is gsp itself.

    Transforms and buffers are the only objects; an object is its position in
    [nodes], which is also its position in the registry.
    Simplifications: the type checks of decorated methods are left out (they accept
    the transforms, buffers, numbers, strings and None used here, see C12); arrays
    given instead of buffers are left out; Light is not exported, Transform and
    Operator are only bases. *)
From Verif Require Import Base Registry Convert Command Execute Protocol Session.
Open Scope string_scope.

(** The operators, operator.py:147-207. *)
Inductive opr := Plus | Minus | Times | Divide.
(** Letter: X, Y, Z, W, R, G, B, A (accessor.py:59-131); Unit: Pixel, Inch, Point,
    Centimeter, Millimeter, Meter, Kilometer (measure.py:121-233). *)
Inductive tclass := Buf | Letter (c : string) | Acc | Cmap | Unit (u : string) | Out | Op (o : opr).
(** self.__class__.__name__, gsp/io/command.py:297. *)
Definition class_name (k : tclass) : string :=
  match k with
  | Buf => "Buffer" | Letter c => c | Acc => "Accessor" | Cmap => "Colormap" | Unit u => u | Out => "Out"
  | Op Plus => "Add" | Op Minus => "Sub" | Op Times => "Mul" | Op Divide => "Div"
  end.
(** The names given to the decorator, such as operator.py:149, accessor.py:61, measure.py:126. *)
Definition path (k : tclass) : string :=
  match k with Buf => "core.Buffer" | _ => "transform." ++ class_name k end.
(** The classes gsp/transform/__init__.py exports and gsp.core.Buffer. *)
Definition classes : list tclass :=
  [Buf; Letter "X"; Letter "Y"; Letter "Z"; Letter "W"; Letter "R"; Letter "G"; Letter "B"; Letter "A"; Acc; Cmap;
   Unit "Pixel"; Unit "Inch"; Unit "Point"; Unit "Centimeter"; Unit "Millimeter"; Unit "Meter"; Unit "Kilometer";
   Out; Op Plus; Op Minus; Op Times; Op Divide].
(** The parameters of the constructors.
    gsp/core/buffer.py:20-23, accessor.py:62 and 16-17, colormap.py:14-17, measure.py:127, out.py:15, operator.py:150-151. *)
Definition sig_of (k : tclass) : sig :=
  match k with
  | Buf => takes [req "count"; req "dtype"; opt "data"]
  | Letter _ => takes [opt "buffer"]
  | Acc => takes [opt "buffer"; opt "key"]
  | Cmap => takes [opt "colormap"; opt "vmin"; opt "vmax"]
  | Unit _ => takes []
  | Out => takes [opt "name"]
  | Op _ => takes [opt "left"; opt "right"]
  end.
(** The methods: transform.py:41-78, operator.py:63-101, colormap.py:41-42. *)
Definition method_sig (m : string) : option sig :=
  if String.eqb m "set_base" then Some (takes [opt "base"])
  else if String.eqb m "set_next" then Some (takes [opt "next"])
  else if String.eqb m "set_buffer" then Some (takes [opt "buffer"])
  else if String.eqb m "set_operator" then Some (takes [req "operator"])
  else if String.eqb m "set_left" then Some (takes [req "left"])
  else if String.eqb m "set_right" then Some (takes [req "right"])
  else if String.eqb m "set_colormap" then Some (takes [req "colormap"])
  else None.
(** Which class defines or inherits them: transform.py:41-78, operator.py:63-101,
    colormap.py:41-55. *)
Definition has_method (k : tclass) (m : string) : bool :=
  match k with
  | Buf => false
  | Op _ => negb (String.eqb m "set_colormap")
  | Cmap => negb (String.eqb m "set_operator" || String.eqb m "set_left" || String.eqb m "set_right")
  | _ => negb (String.eqb m "set_operator" || String.eqb m "set_left" || String.eqb m "set_right" || String.eqb m "set_colormap")
  end.

(** An object: _left, _right (operators), _next, _buffer, _base, and the
    attributes of its own class (_key; _colormap, _vmin, _vmax; name; _operator; of a
    buffer what it was made with). transform.py:37-39 and operator.py:28-41. *)
Record tnode := mkT { t_class : tclass; t_left : value; t_right : value; t_next : value;
                      t_buf : value; t_base : value; t_attrs : dict string value }.
(** A process: its registry, its objects, the commands recorded, and whether
    commands are recorded (while a queue runs it is read-only, command.py:150-154). *)
Record st := mkSt { reg : rstate; nodes : list tnode; log : list command; on : bool }.

(** The object at a position; positions replace Python references. *)
Definition get (s : st) (i : nat) : res tnode :=
  match nth_error (nodes s) i with Some n => Ok n | None => Err KeyError end.
(** The name of the class of an object. gsp/io/command.py:297. *)
Definition cls_in (s : st) (i : nat) : string :=
  match nth_error (nodes s) i with Some n => class_name (t_class n) | None => "" end.
(** A reference to an object as an argument. *)
Definition obj (s : st) (i : nat) : value := VObj (cls_in s i) i.
(** isinstance(v, Transform). transform.py:149-162 and operator.py:33-41. *)
Definition a_transform (v : value) : option nat :=
  match v with VObj c i => if String.eqb c "Buffer" then None else Some i | _ => None end.
(** Object.__init__ (gsp/object.py:66-69). *)
Definition alloc (s : st) (n : tnode) : st * nat :=
  (mkSt (fst (create (reg s))) (nodes s ++ [n])%list (log s) (on s), length (nodes s)).
(** The decorator, after the body (command.py:216-303). *)
Definition note (s : st) (i : nat) (k m : string) (sg : sig) (args : list value) (kw : dict string value) : res st :=
  if on s then
    let* c := mk_command (oid_in (reg s)) (Z.of_nat (length (log s))) k m
                (build_parameters (oid_in (reg s) i) sg args kw) in
    Ok (mkSt (reg s) (nodes s) (log s ++ [c])%list (on s))
  else Ok s.
(** An attribute assigned on an object, such as transform.py:52. *)
Definition put (s : st) (i : nat) (n : tnode) : st := mkSt (reg s) (upd (nodes s) i n) (log s) (on s).

(** The bodies of the methods: transform.py:52, 66, 78; operator.py:74, 87, 101.
    set_colormap does nothing, colormap.py:55. *)
Definition assign (m : string) (n : tnode) (v : value) : tnode :=
  let '(mkT k l r x b o a) := n in
  if String.eqb m "set_base" then mkT k l r x b v a
  else if String.eqb m "set_next" then mkT k l r v b o a
  else if String.eqb m "set_buffer" then mkT k l r x v o a
  else if String.eqb m "set_operator" then mkT k l r x b o (dset a "operator" v)
  else if String.eqb m "set_left" then mkT k v r x b o a
  else if String.eqb m "set_right" then mkT k l v x b o a
  else n.
(** A decorated method called with one argument.
    transform.py:41-78, operator.py:63-101 and colormap.py:41-55 with the decorator,
    gsp/io/command.py:202-303. *)
Definition method (s : st) (i : nat) (m : string) (v : value) : res st :=
  let* n := get s i in
  match method_sig m with
  | Some sg => if has_method (t_class n) m
               then note (put s i (assign m n v)) i (class_name (t_class n)) m sg [v] []
               else Err AttributeError
  | None => Err AttributeError
  end.

(** The attributes a constructor sets from its parameters: accessor.py:27-29 and
    65-131, colormap.py:37-39, out.py:27, operator.py:28, buffer.py:37-39. *)
Definition arg (b : dict string value) (n : string) : value := match dget b n with Some v => v | None => VNone end.
(** operator.py:147-207. *)
Definition symbol (o : opr) : string := match o with Plus => "+" | Minus => "-" | Times => "*" | Divide => "/" end.
(** The keys of accessor.py:59-131. *)
Definition lower (c : string) : string :=
  match c with String a r => String (ascii_of_nat (nat_of_ascii a + 32)) r | EmptyString => "" end.
(** The same for each class. *)
Definition attrs_of (k : tclass) (b : dict string value) : dict string value :=
  match k with
  | Buf => [("count", arg b "count"); ("dtype", arg b "dtype"); ("data", arg b "data")]
  | Letter c => [("key", VStr (lower c))]
  | Acc => [("key", arg b "key")]
  | Cmap => [("colormap", arg b "colormap"); ("vmin", arg b "vmin"); ("vmax", arg b "vmax")]
  | Unit _ => []
  | Out => [("name", arg b "name")]
  | Op o => [("operator", VStr (symbol o))]
  end.
(** The object as its constructor makes it, before operands are copied.
    transform.py:37-39, operator.py:27-31. *)
Definition blank (k : tclass) (b : dict string value) : tnode :=
  mkT k VNone VNone VNone (match k with Letter _ | Acc => arg b "buffer" | _ => VNone end) VNone (attrs_of k b).

(** The class called without arguments, as copy does. transform.py:135-145. *)
Definition make0 (s : st) (k : tclass) : res (st * nat) :=
  let* b := bind_args (sig_of k) [] [] in
  let (s1, i) := alloc s (blank k b) in
  let* s2 := note s1 i (class_name k) (path k) (sig_of k) [] [] in Ok (s2, i).

(** The base property, transform.py:92-100. *)
Fixpoint base_of (fuel : nat) (s : st) (i : nat) : res nat :=
  match fuel with
  | O => Err OutOfFuel
  | S f => let* n := get s i in match t_base n with VObj _ b => base_of f s b | _ => Ok i end
  end.
(** copy: transform.py:135-145, operator.py:103-120, accessor.py:31-34,
    colormap.py:57-66, out.py:32-43.  The attributes are assigned directly, which
    records nothing. *)
Fixpoint copy (fuel : nat) (s : st) (i : nat) : res (st * nat) :=
  match fuel with
  | O => Err OutOfFuel
  | S f =>
      let copied s v m j :=
        match a_transform v with
        | Some t => let* r := copy f s t in method (fst r) j m (obj (fst r) (snd r))
        | None => method s j m v
        end in
      let* n := get s i in
      let* r := make0 s (t_class n) in
      let j := snd r in
      let* s1 := method (fst r) j "set_buffer" (t_buf n) in
      let* b := base_of (length (nodes s1)) s1 i in
      let* s2 := method s1 j "set_base" (obj s1 b) in
      let* s3 := match a_transform (t_next n) with
                 | Some _ => copied s2 (t_next n) "set_next" j
                 | None => Ok s2
                 end in
      match t_class n with
      | Op _ =>
          let* s4 := method s3 j "set_operator" (arg (t_attrs n) "operator") in
          let* s5 := copied s4 (t_left n) "set_left" j in
          let* s6 := match a_transform (t_right n) with
                     | Some _ => copied s5 (t_right n) "set_right" j
                     | None => method s5 j "set_left" (t_left n)
                     end in
          Ok (s6, j)
      | _ => let* m := get s3 j in
             Ok (put s3 j (mkT (t_class m) (t_left m) (t_right m) (t_next m) (t_buf m) (t_base m) (t_attrs n)), j)
      end
  end.

(** Making an object: the constructors (their own calls of the constructors above
    them are not recorded), operator.py:27-41 for the operands of operators. *)
Definition operand (fuel : nat) (s : st) (v : value) : res (st * value) :=
  match a_transform v with
  | Some t => let* r := copy fuel s t in Ok (fst r, obj (fst r) (snd r))
  | None => Ok (s, v)
  end.
(** operator.py:10-41, and the constructors of the other classes. *)
Definition body (fuel : nat) (s : st) (k : tclass) (b : dict string value) : res (st * nat) :=
  let (s1, i) := alloc s (blank k b) in
  match k with
  | Op _ =>
      let* l := operand fuel s1 (arg b "left") in
      let* r := operand fuel (fst l) (arg b "right") in
      Ok (put (fst r) i (mkT k (snd l) (snd r) VNone VNone VNone (attrs_of k b)), i)
  | _ => Ok (s1, i)
  end.
(** A constructor called, with the decorator, gsp/io/command.py:202-303. *)
Definition make (fuel : nat) (s : st) (k : tclass) (args : list value) (kw : dict string value) : res (st * nat) :=
  let* b := bind_args (sig_of k) args kw in
  let* r := body fuel s k b in
  let* s2 := note (fst r) (snd r) (class_name k) (path k) (sig_of k) args kw in Ok (s2, snd r).

(** last, transform.py:118-126. *)
Fixpoint last_of (fuel : nat) (s : st) (i : nat) : res nat :=
  match fuel with
  | O => Err OutOfFuel
  | S f => let* n := get s i in match a_transform (t_next n) with Some j => last_of f s j | None => Ok i end
  end.
(** bound, transform.py:128-133 and operator.py:43-49 (numbers and None have no such
    attribute; buffers neither). *)
Fixpoint bound (fuel : nat) (s : st) (i : nat) : res bool :=
  match fuel with
  | O => Err OutOfFuel
  | S f =>
      let* n := get s i in
      match t_class n with
      | Op _ =>
          match a_transform (t_left n) with
          | Some l => let* a := bound f s l in
                      if a then match a_transform (t_right n) with Some r => bound f s r | None => Err AttributeError end
                      else Ok false
          | None => Err AttributeError
          end
      | _ => let* j := last_of fuel s i in
             let* m := get s j in Ok (match t_buf m with VNone => false | _ => true end)
      end
  end.
(** Calling a transform on another one (transform.py:152-155), or on a buffer or a
    number (156-162); Out takes no argument (out.py:29-30). *)
Definition chain (fuel : nat) (s : st) (i j : nat) : res (st * nat) :=
  let* n := get s i in
  match t_class n with
  | Out => Err TypeError
  | _ =>
      let* r := copy fuel s i in
      let* q := copy fuel (fst r) j in
      let* s1 := method (fst q) (snd r) "set_next" (obj (fst q) (snd q)) in
      let* s2 := method s1 (snd r) "set_buffer" VNone in
      Ok (s2, snd r)
  end.
(** transform.py:147-162 for anything but a transform; Out: out.py:29-30. *)
Definition bind_to (fuel : nat) (s : st) (i : nat) (v : value) : res (st * nat) :=
  let* n := get s i in
  match t_class n with
  | Out => Err TypeError
  | _ =>
      let* r := copy fuel s i in
      let* b := bound fuel s i in
      if b then Err ValueError
      else
        let* m := last_of fuel (fst r) (snd r) in
        let* s1 := method (fst r) m "set_buffer" v in Ok (s1, snd r)
  end.

(** What a program does with transforms.  The operators of Python are the
    constructors of the operators (transform.py:164-194), the product of a measure
    and a number is a binding (measure.py:98-104). *)
Inductive step :=
| Make (k : tclass) (args : list value) (kw : dict string value)
| Copy (i : nat) | Chain (i j : nat) | Bind (i : nat) (v : value)
| Set_ (i : nat) (m : string) (v : value).
(** One of these, transform.py:41-194. *)
Definition do_step (fuel : nat) (s : st) (a : step) : res st :=
  match a with
  | Make k args kw => let* r := make fuel s k args kw in Ok (fst r)
  | Copy i => let* r := copy fuel s i in Ok (fst r)
  | Chain i j => let* r := chain fuel s i j in Ok (fst r)
  | Bind i v => let* r := bind_to fuel s i v in Ok (fst r)
  | Set_ i m v => method s i m v
  end.
(** Statements in order; the first that raises ends the program. *)
Fixpoint do_steps (fuel : nat) (s : st) (l : list step) : res st :=
  match l with [] => Ok s | a :: r => let* s' := do_step fuel s a in do_steps fuel s' r end.

(** A command after saving and loading: a dotted name becomes a class to be built
    (gsp/io/json.py:43-49 and 95-98).  Identifiers become plain numbers, which are the
    same keys of the registry: they are left as they are. *)
Definition reload (c : command) : command :=
  if contains "." (c_method c) then mkC (c_id c) (c_method c) "__init__" (c_params c) else c.

(** Evaluating backend_module.transform.X (command.py:445-447). *)
Definition class_at (p : string) : option tclass := List.find (fun k => String.eqb (path k) p) classes.
(** Command.execute. gsp/io/command.py:409-455. *)
Definition redo (fuel : nat) (s : st) (c : command) : res st :=
  match dget (c_params c) "id" with
  | None => Err KeyError
  | Some idv =>
      let* kw := resolve (objects (reg s)) (cls_in s) (fun _ v => Ok v) (c_params c) in
      match oid_of idv with
      | None => Err TypeError
      | Some oid =>
          if String.eqb (c_method c) "__init__" then
            match class_at (c_class c) with
            | None => Err AttributeError
            | Some k =>
                let* r := make fuel s k [] kw in
                let s1 := set_id (reg (fst r)) (snd r) oid in
                Ok (mkSt (mkR (counter s1) (recording s1) (dset (objects s1) oid (snd r)) (heap s1))
                         (nodes (fst r)) (log (fst r)) (on (fst r)))
            end
          else
            match lookup (reg s) oid with
            | None => Err KeyError
            | Some i =>
                let* n := get s i in
                match method_sig (c_method c) with
                | None => Err AttributeError
                | Some sg =>
                    if has_method (t_class n) (c_method c) then
                      let* b := bind_args sg [] kw in
                      match b with
                      | [(_, v)] => Ok (put s i (assign (c_method c) n v))
                      | _ => Err TypeError
                      end
                    else Err AttributeError
                end
            end
      end
  end.
(** CommandQueue.run on the loaded commands, gsp/io/command.py:152-153. *)
Fixpoint redo_all (fuel : nat) (s : st) (l : list command) : res st :=
  match l with [] => Ok s | c :: r => let* s' := redo fuel s (reload c) in redo_all fuel s' r end.

(** A new process, and a process about to play a file back: gsp.load has cleared
    the registry (gsp/__init__.py:83). *)
Definition fresh : st := mkSt rinit [] [] true.
(** gsp/__init__.py:83 and gsp/io/command.py:151. *)
Definition loading (s : st) : st :=
  mkSt (mkR (counter (reg s)) (recording (reg s)) [] (heap (reg s))) (nodes s) (log s) false.
