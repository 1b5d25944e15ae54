(** Transforms, commands and queues as text.  Models Transform.__repr__
    (gsp/transform/transform.py:197-208), Operator.__repr__
    (gsp/transform/operator.py:136-145), CommandQueue.__str__, Command.__str__ and
    Command.dump (gsp/io/command.py:98-111, 373-386, 389-406).

    Simplifications: [shown] is repr() of anything that is not a transform, [called] the
    name of a converter; the id of a command is a number or an object id. *)
From Coq Require Import Decimal DecimalString.
From Verif Require Import Base Registry Convert Command Session Journal.
From Verif Require Queue.
Open Scope string_scope.

(** [str] and [repr] of an integer, "%d". transform.py:200-207, command.py:382-399. *)
Definition decimal (z : Z) : string := NilZero.string_of_int (Z.to_int z).
(** "%03d". command.py:396. *)
Fixpoint zeros (n : nat) : string := match n with O => "" | S k => String "0" (zeros k) end.
(** [%03d] of an integer, command.py:396-399. *)
Definition padded (z : Z) : string :=
  if (z <? 0)%Z then "-" ++ zeros (2 - String.length (decimal (- z))) ++ decimal (- z)
  else zeros (3 - String.length (decimal z)) ++ decimal z.

(** The truth of a value: [len] of a buffer is its count (gsp/core/buffer.py:56-59),
    which must be a number that is not negative; other objects of the protocol are true.
    [arrays] is the truth of the remaining values (an array of several elements has
    none). *)
Definition truth (arrays : value -> res bool) (s : st) (v : value) : res bool :=
  match v with
  | VNone => Ok false
  | VInt z | VFloat z | VOid z => Ok (negb (Z.eqb z 0))
  | VStr x => Ok (negb (String.eqb x ""))
  | VBytes b => Ok (match b with [] => false | _ => true end)
  | VSeq l => Ok (match l with [] => false | _ => true end)
  | VObj c i =>
      let* n := get s i in
      match t_class n with
      | Buf => match arg (t_attrs n) "count" with
               | VInt z => if (z <? 0)%Z then Err ValueError else Ok (negb (Z.eqb z 0))
               | _ => Err TypeError
               end
      | _ => Ok true
      end
  | VAtom _ _ | VConv _ _ => arrays v
  end.
(** [v.id]: only objects of the protocol have one. transform.py:205-207. *)
Definition id_of_value (s : st) (v : value) : res Z :=
  match v with VObj _ i => let* _ := get s i in Ok (oid_in (reg s) i) | _ => Err AttributeError end.

(** transform.py:199-202, operator.py:138-141, without what closes. *)
Definition head (arrays : value -> res bool) (fuel : nat) (s : st) (i : nat) : res string :=
  let* n := get s i in
  let* b := truth arrays s (t_base n) in
  let start := class_name (t_class n) ++ " (id=" ++ decimal (oid_in (reg s) i) in
  if b then let* r := base_of fuel s i in Ok (start ++ "[base=" ++ decimal (oid_in (reg s) r) ++ "]")
  else Ok start.
(** transform.py:204-207. *)
Definition tail (arrays : value -> res bool) (s : st) (n : tnode) : res string :=
  let* x := truth arrays s (t_next n) in
  if x then let* z := id_of_value s (t_next n) in Ok ("(" ++ decimal z ++ ")")
  else let* b := truth arrays s (t_buf n) in
       if b then let* z := id_of_value s (t_buf n) in Ok ("(" ++ decimal z ++ ")") else Ok "".
(** repr(transform); buffers are not transforms.  [fuel] bounds the depth, Python's
    recursion limit. transform.py:197-208, operator.py:136-145. *)
Fixpoint repr (shown : value -> string) (arrays : value -> res bool) (fuel : nat) (s : st) (i : nat) : res string :=
  match fuel with
  | O => Err OutOfFuel
  | S f =>
      let operand v := match a_transform v with Some j => repr shown arrays f s j | None => Ok (shown v) end in
      let* n := get s i in
      let* h := head arrays fuel s i in
      match t_class n with
      | Buf => Ok (shown (VObj (class_name Buf) i))
      | Op _ => let* l := operand (t_left n) in
                let* r := operand (t_right n) in
                Ok (h ++ ", (left=" ++ l ++ ", right=" ++ r ++ ")")
      | _ => let* t := tail arrays s n in Ok (h ++ ")" ++ t)
      end
  end.

(** ** Commands *)
(** command.py:379-381, 393-395: a creation. *)
Definition creation (c : command) : bool := String.eqb (c_method c) "" || contains "." (c_method c).
(** ["%d" % id]. command.py:378-399.  Simplification: a float, which Python cuts to an
    integer and no recorded command has here, is refused. *)
Definition object_id (c : command) : res Z :=
  match dget (c_params c) "id" with
  | None => Err KeyError
  | Some (VInt z) | Some (VOid z) => Ok z
  | Some _ => Err TypeError
  end.
(** str(command). command.py:373-386. *)
Definition command_text (c : command) : res string :=
  let* z := object_id c in
  let start := "Command #" ++ decimal (c_id c) ++ ": " ++ c_class c ++ "(id=" ++ decimal z ++ ")" in
  Ok (if creation c then start else start ++ "/" ++ c_method c ++ "(…)").
(** command.dump(): the lines printed. command.py:401-406. *)
Definition param_line (called : func -> string) (kv : string * value) : string :=
  match snd kv with
  | VConv f w => "      | " ++ fst kv ++ ": " ++ class_of w ++ " (→ " ++ called f ++ ")"
  | v => "      | " ++ fst kv ++ ": " ++ class_of v
  end.
(** command.dump(), command.py:389-406. *)
Definition dumped (called : func -> string) (c : command) : res (list string) :=
  let* z := object_id c in
  let first :=
    if creation c then "#" ++ padded (c_id c) ++ ": Creation of " ++ c_class c ++ "(id=" ++ decimal z ++ ")"
    else "#" ++ padded (c_id c) ++ ": " ++ c_class c ++ "(id=" ++ decimal z ++ ") → " ++ c_method c ++ "(…)" in
  Ok (first :: map (param_line called) (c_params c)).

(** ** Queues *)
(** The end of a line, command.py:106-110. *)
Definition eol : string := String (ascii_of_nat 10) "".
(** The loop of command.py:109-110. *)
Fixpoint command_lines (l : list command) : res string :=
  match l with
  | [] => Ok ""
  | c :: r => let* x := command_text c in let* t := command_lines r in Ok ("  - " ++ x ++ eol ++ t)
  end.
(** str(queue). command.py:98-111. *)
Definition queue_text (s : Queue.sys) (q : Queue.qid) : res string :=
  match nth_error (Queue.qs s) q with
  | None => Err KeyError
  | Some d =>
      let active := match Queue.active s with Some a => Nat.eqb a q | None => false end in
      let* t := command_lines (Queue.q_cmds d) in
      Ok ("CommandQueue(""" ++ Queue.q_name d ++ """, " ++ (if active then "active, " else "not active, ") ++
          (if Queue.q_ro d then "read-only) : " else "read-write) : ") ++ decimal (Z.of_nat (length (Queue.q_cmds d))) ++ " command(s)" ++ eol ++ t)
  end.
