(** Vocabulary for C41-C43 and C57: path descriptions as a list of drawing
    operations, what SVG says they draw, and the shape of the lists returned. *)
From Verif Require Import Base Svg.
Local Open Scope Qc_scope.

(** Codes in complete groups: two for a quadratic curve, three for a cubic one. *)
Inductive grouped : list code -> Prop :=
| g_nil : grouped []
| g_move l : grouped l -> grouped (MOVETO :: l)
| g_line l : grouped l -> grouped (LINETO :: l)
| g_quad l : grouped l -> grouped (CURVE3 :: CURVE3 :: l)
| g_cubic l : grouped l -> grouped (CURVE4 :: CURVE4 :: CURVE4 :: l)
| g_close l : grouped l -> grouped (CLOSEPOLY :: l).

(** A drawing operation, and an item of a path: an operation with absolute (true)
    or relative coordinates. *)
Inductive op :=
| MoveTo (p : point) | Close | LineTo (p : point) | HLine (x : Qc) | VLine (y : Qc)
| Cubic (a b e : point) | Smooth (b e : point) | Quad (a e : point) | SmoothQuad (e : point)
| Arc (r : point) (rotation large sweep : Qc) (e : point).
Definition item : Type := op * bool.

(** How an operation is written. *)
Definition letter_of (o : op) : letter :=
  match o with MoveTo _ => LM | Close => LZ | LineTo _ => LL | HLine _ => LH | VLine _ => LV | Cubic _ _ _ => LC | Smooth _ _ => LS
             | Quad _ _ => LQ | SmoothQuad _ => LT | Arc _ _ _ _ _ => LA end.
Definition two (p : point) : list elt := [Num (fst p); Num (snd p)].
Definition args (o : op) : list elt :=
  match o with
  | MoveTo p | LineTo p | SmoothQuad p => two p
  | Close => []
  | HLine x | VLine x => [Num x]
  | Cubic a b e => (two a ++ two b ++ two e)%list
  | Smooth b e | Quad b e => (two b ++ two e)%list
  | Arc r x l s e => (two r ++ [Num x; Num l; Num s] ++ two e)%list
  end.
Definition written (i : item) : list elt := Cmd (letter_of (fst i)) (snd i) :: args (fst i).
Definition path (l : list item) : list elt := concat (map written l).

(** The operation with [c] added to its coordinates (not to radii, angle, flags). *)
Definition shift (c : point) (o : op) : op :=
  match o with
  | MoveTo p => MoveTo (fst p + fst c, snd p + snd c)
  | Close => Close
  | LineTo p => LineTo (fst p + fst c, snd p + snd c)
  | HLine x => HLine (x + fst c)
  | VLine y => VLine (y + snd c)
  | Cubic a b e => Cubic (fst a + fst c, snd a + snd c) (fst b + fst c, snd b + snd c) (fst e + fst c, snd e + snd c)
  | Smooth b e => Smooth (fst b + fst c, snd b + snd c) (fst e + fst c, snd e + snd c)
  | Quad a e => Quad (fst a + fst c, snd a + snd c) (fst e + fst c, snd e + snd c)
  | SmoothQuad e => SmoothQuad (fst e + fst c, snd e + snd c)
  | Arc r x l s e => Arc r x l s (fst e + fst c, snd e + snd c)
  end.
(** The current point after an operation with absolute coordinates, [c] being the
    current point before and [s] the start of the subpath. *)
Definition ends (c s : point) (o : op) : point :=
  match o with
  | MoveTo p | LineTo p | Cubic _ _ p | Smooth _ p | Quad _ p | SmoothQuad p | Arc _ _ _ _ p => p
  | Close => s
  | HLine x => (x, snd c)
  | VLine y => (fst c, y)
  end.
Definition starts (s : point) (o : op) : point := match o with MoveTo p => p | _ => s end.
(** The same path with absolute coordinates throughout. *)
Fixpoint absolutes (c s : point) (l : list item) : list op :=
  match l with
  | [] => []
  | (o, ab) :: r =>
      let o' := if ab then o else shift c o in
      o' :: absolutes (ends c s o') (starts s o') r
  end.
Definition absolutely (o : op) : item := (o, true).

(** The state of a parse, apart from whether the last letter was upper case. *)
Definition setabs (s : state) (ab : bool) : state := mkSt (cur s) (start s) (cmd s) ab (ctrl2 s) (ctrl s).
Definition relabel (r : res (out * state * list elt)) : res (out * state * list elt) :=
  match r with Ok (o, s, k) => Ok (o, setabs s true, k) | Err x => Err x end.

(** An operation followed by more arguments of the same kind without repeating
    the letter: after a moveto they are linetos. *)
Definition follow (l : letter) : letter := match l with LM => LL | _ => l end.
Definition kindred (o o' : op) : Prop := letter_of o' = follow (letter_of o) /\ letter_of o' <> LZ.
Record chunk := mkChunk { first : op; is_abs : bool; more : list op }.
Definition implicitly (k : chunk) : list elt := (written (first k, is_abs k) ++ concat (map args (more k)))%list.
Definition explicitly (k : chunk) : list elt :=
  (written (first k, is_abs k) ++ concat (map (fun o => written (o, is_abs k)) (more k)))%list.

(** What SVG says a path draws (absolute coordinates).  [cc] and [qc]: the last
    control point when the previous operation was a cubic or quadratic curve. *)
Definition reflect (c : point) (k : option point) : point :=
  match k with Some q => (fst c + fst c - fst q, snd c + snd c - snd q) | None => c end.
Section Draw.
Variable arc : point -> point -> Qc -> Qc -> Qc -> point -> res (point * list (point * point * point)).
Definition pre (cs : list code) (vs : list point) (o : res out) : res out :=
  match o with Ok o => Ok ((cs ++ fst o)%list, (vs ++ snd o)%list) | Err e => Err e end.
Fixpoint draw (c s : point) (cc qc : option point) (l : list op) : res out :=
  match l with
  | [] => Ok ([], [])
  | MoveTo p :: r => pre [MOVETO] [p] (draw p p None None r)
  | Close :: r => if peqb c s then pre [CLOSEPOLY] [s] (draw s s None None r)
              else pre [LINETO; CLOSEPOLY] [s; s] (draw s s None None r)
  | LineTo p :: r => pre [LINETO] [p] (draw p s None None r)
  | HLine x :: r => pre [LINETO] [(x, snd c)] (draw (x, snd c) s None None r)
  | VLine y :: r => pre [LINETO] [(fst c, y)] (draw (fst c, y) s None None r)
  | Cubic a b e :: r => pre [CURVE4; CURVE4; CURVE4] [a; b; e] (draw e s (Some b) None r)
  | Smooth b e :: r => pre [CURVE4; CURVE4; CURVE4] [reflect c cc; b; e] (draw e s (Some b) None r)
  | Quad a e :: r => pre [CURVE3; CURVE3] [a; e] (draw e s None (Some a) r)
  | SmoothQuad e :: r => pre [CURVE3; CURVE3] [reflect c qc; e] (draw e s None (Some (reflect c qc)) r)
  | Arc rad x lg sw e :: r =>
      if peqb c e then draw e s None None r
      else if Qc_eq_bool (fst rad) 0 || Qc_eq_bool (snd rad) 0 then pre [LINETO] [e] (draw e s None None r)
      else match arc c rad x lg sw e with
           | Ok (p, l) =>
               pre (LINETO :: concat (map (fun _ => [CURVE4; CURVE4; CURVE4]) l))
                   (p :: concat (map (fun t => [fst (fst t); snd (fst t); snd t]) l)) (draw e s None None r)
           | Err x => Err x
           end
  end.
End Draw.
(** SVG's grammar: a path starts with a moveto. *)
Definition svg_valid (l : list item) : Prop := match l with (MoveTo _, _) :: _ => True | [] => True | _ => False end.
(** After a closepath the next operation is a moveto. *)
Fixpoint move_after_close (l : list item) : Prop :=
  match l with
  | (Close, _) :: r => match r with (MoveTo _, _) :: _ => True | [] => True | _ => False end /\ move_after_close r
  | _ :: r => move_after_close r
  | [] => True
  end.

(** Every CLOSEPOLY is at the vertex of the last MOVETO, is preceded by a vertex
    there, and is the only one for that MOVETO. *)
Fixpoint closed_at_start (m : option point) (pen : point) (cs : list code) (vs : list point) : Prop :=
  match cs, vs with
  | MOVETO :: cs, v :: vs => closed_at_start (Some v) v cs vs
  | CLOSEPOLY :: cs, v :: vs => m = Some v /\ pen = v /\ closed_at_start None v cs vs
  | _ :: cs, v :: vs => closed_at_start m v cs vs
  | _, _ => True
  end.
(** An arc ends where it was asked to end. *)
Definition arcs_end (arc : point -> point -> Qc -> Qc -> Qc -> point -> res (point * list (point * point * point))) : Prop :=
  forall c r x lg sw e p l, arc c r x lg sw e = Ok (p, l) -> exists i t, l = (i ++ [t])%list /\ snd t = e.
Definition arcs_work (arc : point -> point -> Qc -> Qc -> Qc -> point -> res (point * list (point * point * point))) : Prop :=
  forall c r x lg sw e, exists g, arc c r x lg sw e = Ok g.

(** Numbers as text: optional sign, digits with an optional fraction, optional
    exponent. *)
Local Open Scope char_scope.
Record numeral := mkNum { n_sign : option ascii; n_int : list ascii; n_frac : option (list ascii);
                          n_exp : option (ascii * option ascii * list ascii) }.
Definition opt (o : option ascii) : list ascii := match o with Some a => [a] | None => [] end.
Definition spelled (n : numeral) : list ascii :=
  (opt (n_sign n) ++ n_int n ++ match n_frac n with Some f => "." :: f | None => [] end ++
   match n_exp n with Some (e, s, d) => e :: opt s ++ d | None => [] end)%list.
Definition all_digits (l : list ascii) : Prop := Forall (fun a => In a ["0"; "1"; "2"; "3"; "4"; "5"; "6"; "7"; "8"; "9"]) l.
Definition a_sign (o : option ascii) : Prop := o = None \/ o = Some "-" \/ o = Some "+".
Definition proper (n : numeral) : Prop :=
  a_sign (n_sign n) /\ all_digits (n_int n) /\
  match n_frac n with Some f => f <> [] /\ all_digits f | None => n_int n <> [] end /\
  match n_exp n with Some (e, s, d) => (e = "e" \/ e = "E") /\ a_sign s /\ d <> [] /\ all_digits d | None => True end.
(** A text made of command letters and numbers separated by spaces. *)
Inductive word := WCmd (a : ascii) | WNum (n : numeral).
Definition word_ok (w : word) : Prop :=
  match w with
  | WCmd a => In a ["M"; "m"; "Z"; "z"; "L"; "l"; "H"; "h"; "V"; "v"; "C"; "c"; "S"; "s"; "Q"; "q"; "T"; "t"; "A"; "a"]
  | WNum n => proper n
  end.
Definition word_text (w : word) : list ascii := match w with WCmd a => [a] | WNum n => spelled n end.
Fixpoint text (l : list word) : list ascii :=
  match l with [] => [] | w :: r => (word_text w ++ " " :: text r)%list end.
Fixpoint as_string (l : list ascii) : string := match l with [] => EmptyString | a :: r => String a (as_string r) end.
Definition word_token (w : word) : token := match w with WCmd a => TCmd a | WNum n => TNum (spelled n) end.

(** ** Normalised vertices *)
Definition within (x : Qc) : Prop := - half <= x /\ x <= half.
(** Some coordinate of [l] has this value. *)
Definition coordinate (l : list point) (x : Qc) : Prop := exists p, In p l /\ (x = fst p \/ x = snd p).
