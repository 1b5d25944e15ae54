(** SVG path descriptions.  Models gsp/core/svg.py:27-57 and 266-521.

    Simplifications: numbers are exact rationals; the value of a number token is a
    parameter ([float] never fails on a match of FLOAT_RE); arc_path (177-263) is a
    parameter that gives the point the arc starts at and the Bezier segments it is
    made of, or raises; where numpy would compute 0/0 (all coordinates equal) the
    result is [NaN]. *)
From Verif Require Import Base.
From Coq Require Export QArith Qcanon.
Local Open Scope nat_scope.
Local Open Scope string_scope.

(** COMMANDS and UPPERCASE, 27-28: letter and whether it is upper case. *)
Inductive letter := LM | LZ | LL | LH | LV | LC | LS | LQ | LT | LA.
(** COMMANDS and UPPERCASE, svg.py:27-28. *)
Definition command_of (a : ascii) : option (letter * bool) :=
  match a with
  | "M" => Some (LM, true) | "m" => Some (LM, false)
  | "Z" => Some (LZ, true) | "z" => Some (LZ, false)
  | "L" => Some (LL, true) | "l" => Some (LL, false)
  | "H" => Some (LH, true) | "h" => Some (LH, false)
  | "V" => Some (LV, true) | "v" => Some (LV, false)
  | "C" => Some (LC, true) | "c" => Some (LC, false)
  | "S" => Some (LS, true) | "s" => Some (LS, false)
  | "Q" => Some (LQ, true) | "q" => Some (LQ, false)
  | "T" => Some (LT, true) | "t" => Some (LT, false)
  | "A" => Some (LA, true) | "a" => Some (LA, false)
  | _ => None
  end%char.

(** ** Tokens, 266-271 *)
Definition is_digit (a : ascii) : bool := (48 <=? nat_of_ascii a)%nat && (nat_of_ascii a <=? 57)%nat.
(** [-+], svg.py:31. *)
Definition is_sign (a : ascii) : bool := (a =? "-")%char || (a =? "+")%char.
(** [eE], svg.py:31. *)
Definition is_exp (a : ascii) : bool := (a =? "e")%char || (a =? "E")%char.
(** Greedy match of [0-9]*, svg.py:31. *)
Fixpoint digits (l : list ascii) : list ascii * list ascii :=
  match l with
  | a :: r => if is_digit a then let (d, s) := digits r in (a :: d, s) else ([], l)
  | [] => ([], [])
  end.
(** Greedy match of [-+]?, svg.py:31. *)
Definition sign (l : list ascii) : list ascii * list ascii :=
  match l with a :: r => if is_sign a then ([a], r) else ([], l) | [] => ([], []) end.
(** Greedy match of [0-9]*\.?[0-9]+ (with the backtracking it entails). *)
Definition mantissa (l : list ascii) : option (list ascii * list ascii) :=
  let (d, r) := digits l in
  let whole := match d with [] => None | _ => Some (d, r) end in
  match r with
  | a :: r' =>
      if (a =? ".")%char then
        let (f, r'') := digits r' in
        match f with [] => whole | _ => Some ((d ++ a :: f)%list, r'') end
      else whole
  | [] => whole
  end.
(** (?:[eE][-+]?[0-9]+)? *)
Definition exponent (l : list ascii) : list ascii * list ascii :=
  match l with
  | a :: r =>
      if is_exp a then
        let (s, r1) := sign r in
        let (d, r2) := digits r1 in
        match d with [] => ([], l) | _ => ((a :: s ++ d)%list, r2) end
      else ([], l)
  | [] => ([], l)
  end.
(** FLOAT_RE at the start of [l]. svg.py:31. *)
Definition match_float (l : list ascii) : option (list ascii * list ascii) :=
  let (s, r) := sign l in
  match mantissa r with
  | Some (m, r1) => let (e, r2) := exponent r1 in Some ((s ++ m ++ e)%list, r2)
  | None => None
  end.
(** FLOAT_RE.findall. svg.py:270. *)
Fixpoint find_floats (fuel : nat) (l : list ascii) : list (list ascii) :=
  match fuel, l with
  | S f, a :: r =>
      match match_float l with
      | Some (m, rest) => m :: find_floats f rest
      | None => find_floats f r
      end
  | _, _ => []
  end.
(** What _tokenize_path yields, svg.py:268-271. *)
Inductive token := TCmd (a : ascii) | TNum (s : list ascii).
(** COMMAND_RE.split: the text up to the next command letter, that letter, and
    the rest. svg.py:267-271. *)
Fixpoint tokens_from (piece : list ascii) (l : list ascii) : list token :=
  let floats := map TNum (find_floats (length piece) (rev piece)) in
  match l with
  | [] => floats
  | a :: r => match command_of a with
              | Some _ => (floats ++ TCmd a :: tokens_from [] r)%list
              | None => tokens_from (a :: piece) r
              end
  end.
(** The characters of a text, svg.py:267. *)
Fixpoint chars (s : string) : list ascii := match s with EmptyString => [] | String a r => a :: chars r end.
(** _tokenize_path, svg.py:266-271. *)
Definition tokenize (s : string) : list token := tokens_from [] (chars s).

(** ** Parsing *)
(** A complex number, svg.py:275. *)
Definition point : Type := Qc * Qc.
(** Addition of complex numbers, svg.py:319. *)
Definition padd (a b : point) : point := (fst a + fst b, snd a + snd b)%Qc.
(** Subtraction of complex numbers, svg.py:408. *)
Definition psub (a b : point) : point := (fst a - fst b, snd a - snd b)%Qc.
(** Equality of complex numbers, svg.py:472. *)
Definition peqb (a b : point) : bool := Qc_eq_bool (fst a) (fst b) && Qc_eq_bool (snd a) (snd b).
(** COMMAND_CODES, 33-44. *)
Inductive code := MOVETO | LINETO | CURVE3 | CURVE4 | CLOSEPOLY.
(** A command token or a number token with its value. svg.py:283. *)
Inductive elt := Cmd (l : letter) (absolute : bool) | Num (x : Qc).

Section Parse.
(** The arc from a point with radius, rotation, flags to an end point: first
    vertex and cubic Bezier segments. *)
Variable arc : point -> point -> Qc -> Qc -> Qc -> point -> res (point * list (point * point * point)).

(** The local variables of _parse_path: current_pos, start_pos, command,
    absolute, control2 (C and S), control (Q and T). svg.py:278-299, 380, 424. *)
Record state := mkSt { cur : point; start : option point; cmd : option letter; absol : bool;
                       ctrl2 : option point; ctrl : option point }.
(** svg.py:287-288. *)
Definition initial (p : point) : state := mkSt p None None false None None.

(** float(elements.pop()). svg.py:275, 359-370 and 464-466. *)
Definition next (es : list elt) : res (Qc * list elt) :=
  match es with [] => Err IndexError | Num x :: r => Ok (x, r) | Cmd _ _ :: _ => Err ValueError end.
(** _next_pos, 274-275. *)
Definition next_pos (es : list elt) : res (point * list elt) :=
  let* a := next es in let* b := next (snd a) in Ok ((fst a, fst b), snd b).
(** A position is relative unless the command is absolute, svg.py:351-352. *)
Definition rel (absolute : bool) (c p : point) : point := if absolute then p else padd p c.
(** 336: current_pos != start_pos (None is different from every point). svg.py:336. *)
Definition at_start (c : point) (s : option point) : bool := match s with Some p => peqb c p | None => false end.
(** The codes arc_path returns, svg.py:177-263. *)
Definition arc_codes (l : list (point * point * point)) : list code :=
  LINETO :: concat (map (fun _ => [CURVE4; CURVE4; CURVE4]) l).
(** The vertices arc_path returns, svg.py:177-263. *)
Definition arc_verts (p : point) (l : list (point * point * point)) : list point :=
  p :: concat (map (fun t => [fst (fst t); snd (fst t); snd t]) l).

(** What _parse_path yields, svg.py:513-517. *)
Definition out : Type := list code * list point.
(** One turn of the loop, 290-485, once the command [c] with the previous command
    [last] is determined. *)
Definition run (c : letter) (last : option letter) (s : state) (es : list elt) : res (out * state * list elt) :=
  let ab := absol s in
  match c with
  | LM =>
      let* n := next_pos es in
      let p := rel ab (cur s) (fst n) in
      Ok (([MOVETO], [p]), mkSt p (Some p) (Some LL) ab (ctrl2 s) (ctrl s), snd n)
  | LZ =>
      match start s with
      | None => Err AttributeError
      | Some p =>
          Ok ((if at_start (cur s) (start s) then ([CLOSEPOLY], [p]) else ([LINETO; CLOSEPOLY], [p; p])),
              mkSt p None None ab (ctrl2 s) (ctrl s), es)
      end
  | LL =>
      let* n := next_pos es in
      let p := rel ab (cur s) (fst n) in
      Ok (([LINETO], [p]), mkSt p (start s) (Some LL) ab (ctrl2 s) (ctrl s), snd n)
  | LH =>
      let* n := next es in
      let p := (if ab then fst n else fst n + fst (cur s), snd (cur s))%Qc in
      Ok (([LINETO], [p]), mkSt p (start s) (Some LH) ab (ctrl2 s) (ctrl s), snd n)
  | LV =>
      let* n := next es in
      let p := (fst (cur s), if ab then fst n else fst n + snd (cur s))%Qc in
      Ok (([LINETO], [p]), mkSt p (start s) (Some LV) ab (ctrl2 s) (ctrl s), snd n)
  | LC =>
      let* a := next_pos es in let* b := next_pos (snd a) in let* e := next_pos (snd b) in
      let p1 := rel ab (cur s) (fst a) in let p2 := rel ab (cur s) (fst b) in let p := rel ab (cur s) (fst e) in
      Ok (([CURVE4; CURVE4; CURVE4], [p1; p2; p]), mkSt p (start s) (Some LC) ab (Some p2) (ctrl s), snd e)
  | LS =>
      let* p1 := (match last with
                  | None => Err TypeError
                  | Some LC | Some LS =>
                      match ctrl2 s with Some q => Ok (psub (padd (cur s) (cur s)) q) | None => Err UnboundLocalError end
                  | Some _ => Ok (cur s)
                  end) in
      let* b := next_pos es in let* e := next_pos (snd b) in
      let p2 := rel ab (cur s) (fst b) in let p := rel ab (cur s) (fst e) in
      Ok (([CURVE4; CURVE4; CURVE4], [p1; p2; p]), mkSt p (start s) (Some LS) ab (Some p2) (ctrl s), snd e)
  | LQ =>
      let* a := next_pos es in let* e := next_pos (snd a) in
      let p1 := rel ab (cur s) (fst a) in let p := rel ab (cur s) (fst e) in
      Ok (([CURVE3; CURVE3], [p1; p]), mkSt p (start s) (Some LQ) ab (ctrl2 s) (Some p1), snd e)
  | LT =>
      let* p1 := (match last with
                  | None => Err TypeError
                  | Some LQ | Some LT =>
                      match ctrl s with Some q => Ok (psub (padd (cur s) (cur s)) q) | None => Err UnboundLocalError end
                  | Some _ => Ok (cur s)
                  end) in
      let* e := next_pos es in
      let p := rel ab (cur s) (fst e) in
      Ok (([CURVE3; CURVE3], [p1; p]), mkSt p (start s) (Some LT) ab (ctrl2 s) (Some p1), snd e)
  | LA =>
      let* r := next_pos es in let* rot := next (snd r) in
      let* lg := next (snd rot) in let* sw := next (snd lg) in let* e := next_pos (snd sw) in
      let p := rel ab (cur s) (fst e) in
      let s' := mkSt p (start s) (Some LA) ab (ctrl2 s) (ctrl s) in
      if peqb (cur s) p then Ok (([], []), mkSt (cur s) (start s) (Some LA) ab (ctrl2 s) (ctrl s), snd e)
      else if Qc_eq_bool (fst (fst r)) 0 || Qc_eq_bool (snd (fst r)) 0 then Ok (([LINETO], [p]), s', snd e)
      else let* g := arc (cur s) (fst r) (fst rot) (fst lg) (fst sw) p in
           Ok ((arc_codes (snd g), arc_verts (fst g) (snd g)), s', snd e)
  end.
(** 292-309: the current command. *)
Definition step (s : state) (es : list elt) : res (out * state * list elt) :=
  match es with
  | Cmd l ab :: r => run l (cmd s) (mkSt (cur s) (start s) (cmd s) ab (ctrl2 s) (ctrl s)) r
  | _ => match cmd s with
         | None => Err ValueError
         | Some l => run l (cmd s) s es
         end
  end.
(** The loop, svg.py:290-485.  [fuel]: every turn takes an element. *)
Fixpoint parse (fuel : nat) (s : state) (es : list elt) : res out :=
  match es with
  | [] => Ok ([], [])
  | _ =>
      match fuel with
      | O => Err OutOfFuel
      | S f =>
          let* r := step s es in
          let* o := parse f (snd (fst r)) (snd r) in
          Ok ((fst (fst (fst r)) ++ fst o)%list, (snd (fst (fst r)) ++ snd o)%list)
      end
  end.
(** _parse_path, svg.py:278-485. *)
Definition parse_path (es : list elt) (p : point) : res out := parse (length es) (initial p) es.

(** The value of a number token. *)
Variable float : list ascii -> Qc.
(** A token as _parse_path takes it, svg.py:294 and 275. *)
Definition element (t : token) : elt :=
  match t with
  | TCmd a => match command_of a with Some (l, ab) => Cmd l ab | None => Num 0 end
  | TNum s => Num (float s)
  end.

(** ** Normalisation, 518-521 *)
Definition coords (l : list point) : list Qc := concat (map (fun p => [fst p; snd p]) l).
(** Comparison of numbers, svg.py:519. *)
Definition Qcleb (a b : Qc) : bool := if Qclt_le_dec b a then false else true.
(** The smaller one, svg.py:519. *)
Definition qmin (a b : Qc) : Qc := if Qcleb a b then a else b.
(** The larger one, svg.py:519. *)
Definition qmax (a b : Qc) : Qc := if Qcleb a b then b else a.
(** verts.min(), svg.py:519. *)
Fixpoint least (x : Qc) (l : list Qc) : Qc := match l with [] => x | y :: r => least (qmin x y) r end.
(** verts.max(), svg.py:519. *)
Fixpoint greatest (x : Qc) (l : list Qc) : Qc := match l with [] => x | y :: r => greatest (qmax x y) r end.
(** The vertices, or nan everywhere, svg.py:519. *)
Inductive normalised := Points (l : list point) | NaN.
(** 0.5, svg.py:519. *)
Definition half : Qc := Q2Qc (1 # 2).
(** svg.py:518-520. *)
Definition normalise (l : list point) : res normalised :=
  match coords l with
  | [] => Err ValueError
  | x :: r =>
      let mn := least x r in
      let mx := greatest x r in
      if Qc_eq_bool mx mn then Ok NaN
      else let f v := ((v - mn) / (mx - mn) - half)%Qc in
           Ok (Points (map (fun p => (f (fst p), - f (snd p))%Qc) l))
  end.
(** matplotlib's Path requires codes and vertices of the same length and a first
    code MOVETO. svg.py:521. *)
Definition make_path (v : normalised) (n : nat) (codes : list code) : res (normalised * list code) :=
  if negb (Nat.eqb n (length codes)) then Err ValueError
  else match codes with
       | [] => Ok (v, codes)
       | MOVETO :: _ => Ok (v, codes)
       | _ => Err ValueError
       end.
(** svg_to_path, 488-521. *)
Definition svg_to_path (d : string) (p : point) : res (normalised * list code) :=
  let* o := parse_path (map element (tokenize d)) p in
  let* v := normalise (snd o) in
  make_path v (length (snd o)) (fst o).
End Parse.
