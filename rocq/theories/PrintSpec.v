(** Vocabulary for transforms, commands and queues as text. *)
From Verif Require Import Base Registry Convert Command Execute Session Journal Print.
From Verif Require Queue Text.
Open Scope string_scope.

(** How often a character occurs in a text. *)
Fixpoint occurrences (c : ascii) (s : string) : nat :=
  match s with EmptyString => 0%nat | String x r => ((if Ascii.eqb c x then 1 else 0) + occurrences c r)%nat end.
(** As many opening as closing parentheses. *)
Definition balanced (s : string) : Prop := occurrences "(" s = occurrences ")" s.
Definition lines (s : string) : list string := split_on (ascii_of_nat 10) s.
Definition one_line (s : string) : Prop := contains (ascii_of_nat 10) s = false.

(** The tree of the operators below a transform: an operator has two sides, each
    a transform or something else. *)
Inductive shape := Single | Pair (l r : option shape).
Inductive has_shape (s : st) : nat -> shape -> Prop :=
| single i n : get s i = Ok n -> t_class n <> Buf -> (forall o, t_class n <> Op o) -> has_shape s i Single
| pair_of i n o l r : get s i = Ok n -> t_class n = Op o -> side s (t_left n) l -> side s (t_right n) r -> has_shape s i (Pair l r)
with side (s : st) : value -> option shape -> Prop :=
| other v : a_transform v = None -> side s v None
| inner v j t : a_transform v = Some j -> has_shape s j t -> side s v (Some t).
Fixpoint operators (t : shape) : nat :=
  match t with
  | Single => 0
  | Pair l r => S (match l with Some a => operators a | None => 0 end + match r with Some b => operators b | None => 0 end)
  end%nat.
(** The transforms of that tree. *)
Inductive within (s : st) : nat -> nat -> Prop :=
| itself i : within s i i
| below i n v j k : get s i = Ok n -> (exists o, t_class n = Op o) -> v = t_left n \/ v = t_right n ->
    a_transform v = Some j -> within s j k -> within s i k.

(** A buffer with a number of elements. *)
Definition buffer_of (s : st) (v : value) (count : Z) : Prop :=
  exists c j m, v = VObj c j /\ get s j = Ok m /\ t_class m = Buf /\ arg (t_attrs m) "count" = VInt count /\ (0 <= count)%Z.
Definition transform_of (s : st) (v : value) (j : nat) : Prop :=
  exists c m, v = VObj c j /\ get s j = Ok m /\ t_class m <> Buf.
(** What a transform is attached to: its next transform or else its buffer. *)
Definition attached (s : st) (n : tnode) (o : option nat) : Prop :=
  match o with
  | Some j => transform_of s (t_next n) j \/
              t_next n = VNone /\ (transform_of s (t_buf n) j \/ exists count, buffer_of s (t_buf n) count /\ (0 < count)%Z /\ exists c, t_buf n = VObj c j)
  | None => t_next n = VNone /\ (t_buf n = VNone \/ buffer_of s (t_buf n) 0)
  end.
(** Based on a transform that is based on nothing. *)
Inductive based (s : st) : nat -> nat -> Prop :=
| ground i n : get s i = Ok n -> (forall c j, t_base n <> VObj c j) -> based s i i
| upon i n c j b : get s i = Ok n -> t_base n = VObj c j -> based s j b -> based s i b.
(** Its base: none, or a transform, followed to the end. *)
Definition base_known (s : st) (i : nat) (n : tnode) (o : option nat) : Prop :=
  match o with
  | None => t_base n = VNone
  | Some b => (exists j, transform_of s (t_base n) j) /\ based s i b
  end.
(** Attached to nothing, to a transform or to a buffer, and its base can be followed. *)
Definition presentable (s : st) (i : nat) : Prop :=
  exists n, get s i = Ok n /\ (exists b, base_known s i n b) /\ ((exists o, t_class n = Op o) \/ exists o, attached s n o).

(** How a transform reads. *)
Definition id_text (s : st) (i : nat) : string := decimal (oid_in (reg s) i).
Definition base_text (s : st) (b : option nat) : string := match b with Some j => "[base=" ++ id_text s j ++ "]" | None => "" end.
Definition attached_text (s : st) (o : option nat) : string := match o with Some j => "(" ++ id_text s j ++ ")" | None => "" end.
Inductive reads (shown : value -> string) (s : st) : nat -> string -> Prop :=
| read_single i n b o : get s i = Ok n -> t_class n <> Buf -> (forall op, t_class n <> Op op) -> base_known s i n b -> attached s n o ->
    reads shown s i (class_name (t_class n) ++ " (id=" ++ id_text s i ++ base_text s b ++ ")" ++ attached_text s o)
| read_operator i n op b l r : get s i = Ok n -> t_class n = Op op -> base_known s i n b ->
    side_reads shown s (t_left n) l -> side_reads shown s (t_right n) r ->
    reads shown s i (class_name (t_class n) ++ " (id=" ++ id_text s i ++ base_text s b ++ ", (left=" ++ l ++ ", right=" ++ r ++ ")")
with side_reads (shown : value -> string) (s : st) : value -> string -> Prop :=
| read_other v : a_transform v = None -> side_reads shown s v (shown v)
| read_inner v j x : a_transform v = Some j -> reads shown s j x -> side_reads shown s v x.

(** Known transforms: of classes of the library. *)
Definition known (s : st) (i : nat) : Prop := exists n, get s i = Ok n /\ In (t_class n) classes /\ t_class n <> Buf.

(** A command of which one line can tell. *)
Definition proper_command (c : command) : Prop := (exists z, object_id c = Ok z) /\ one_line (c_class c) /\ one_line (c_method c).
Definition item (x : string) : string := "  - " ++ x.
Definition state_text (active ro : bool) : string :=
  (if active then "active, " else "not active, ") ++ (if ro then "read-only" else "read-write").
(** The first line: name, state and number of commands. *)
Definition queue_head (d : Queue.qdata) (active : bool) : string :=
  "CommandQueue(""" ++ Queue.q_name d ++ """, " ++ state_text active (Queue.q_ro d) ++ ") : " ++ decimal (Z.of_nat (length (Queue.q_cmds d))) ++ " command(s)".

(** X bound to a number; X bound to a buffer; X + Y; X + (Y + 2). *)
Definition session : list step :=
  [Make Buf [VInt 4; VStr "vec4"] []; Make (Letter "X") [] []; Bind 1 (VInt 3); Bind 1 (VObj "Buffer" 0%nat);
   Make (Letter "Y") [] []; Make (Op Plus) [VObj "Y" 4%nat; VInt 2] []; Make (Op Plus) [VObj "X" 1%nat; VObj "Add" 5%nat] [];
   Chain 1 4; Make Buf [VInt 0; VStr "vec4"] []; Bind 4 (VObj "Buffer" 13%nat); Bind 4 (VInt 0)].
Definition plainly (v : value) : string := match v with VInt z => decimal z | VNone => "None" | _ => "?" end.
Definition no_truth (_ : value) : res bool := Err ValueError.
(** A queue with the creation of a buffer and a call. *)
Definition a_queue : Queue.sys := Queue.mkSys [Queue.mkQ "default" false [mkC 1 "Buffer" "core.Buffer" [("id", VOid 1); ("count", VInt 4)]; mkC 2 "X" "set_buffer" [("id", VOid 2); ("buffer(id)", VOid 1)]]] [] (Some 0%nat) true 2.
