(** C99: what printing shows. *)
From Verif Require Import Base Registry Convert Command Execute Session Journal Print PrintSpec PrintFacts.
From Verif Require Queue.
Open Scope string_scope.

(** A transform reads as its class, its id, the id of its base and the id of what it is
    attached to; an operator as its class, its id, the id of its base and its operands. *)
Theorem C99_text shown arrays s i x : reads shown s i x -> exists F, forall fuel, (F <= fuel)%nat -> repr shown arrays fuel s i = Ok x.
Proof. exact (reads_repr shown arrays s i x). Qed.
Print Assumptions C99_text.
(** Every transform made of transforms attached to nothing, to transforms and to buffers
    can be printed ... *)
Theorem C99_printed_partial shown arrays s i t : has_shape s i t -> (forall j, within s i j -> presentable s j) ->
  exists x F, forall fuel, (F <= fuel)%nat -> repr shown arrays fuel s i = Ok x.
Proof. exact (printed shown arrays s i t). Qed.
Print Assumptions C99_printed_partial.
(** ... one bound to a number other than zero cannot ... *)
Theorem C99_number_refuted shown arrays s i n v z f : get s i = Ok n -> t_class n <> Buf -> (forall o, t_class n <> Op o) -> t_next n = VNone ->
  t_buf n = v -> v = VInt z \/ v = VFloat z -> z <> 0%Z -> (exists h, head arrays (S f) s i = Ok h) ->
  repr shown arrays (S f) s i = Err AttributeError.
Proof. exact (number_unprinted shown arrays s i n v z f). Qed.
Print Assumptions C99_number_refuted.
(** ... nor can an operator that has been made its own operand. *)
Theorem C99_endless_refuted shown arrays s i n o : get s i = Ok n -> t_class n = Op o -> a_transform (t_left n) = Some i ->
  forall fuel x, repr shown arrays fuel s i <> Ok x.
Proof. exact (own_operand shown arrays s i n o). Qed.
Print Assumptions C99_endless_refuted.
(** After any program, two transforms never read the same. *)
Theorem C99_told_apart shown arrays f l s : do_steps f fresh l = Ok s ->
  forall fuel fuel' i j x, known s i -> known s j -> repr shown arrays fuel s i = Ok x -> repr shown arrays fuel' s j = Ok x -> i = j.
Proof. exact (told_apart shown arrays f l s). Qed.
Print Assumptions C99_told_apart.
(** One closing parenthesis is missing for every operator shown. *)
Theorem C99_parentheses_refuted shown arrays s : (forall v, balanced (shown v)) -> (forall i n, get s i = Ok n -> In (t_class n) classes) ->
  forall fuel i t x, has_shape s i t -> repr shown arrays fuel s i = Ok x -> occurrences "(" x = (occurrences ")" x + operators t)%nat.
Proof. exact (parentheses shown arrays s). Qed.
Print Assumptions C99_parentheses_refuted.

(** A queue reads as its name, its state and the number of its commands, then one line
    for each command, in the order they were recorded. *)
Theorem C99_queue s q d : nth_error (Queue.qs s) q = Some d -> one_line (Queue.q_name d) -> Forall proper_command (Queue.q_cmds d) ->
  exists x xs b, queue_text s q = Ok x /\ map command_text (Queue.q_cmds d) = map Ok xs /\ (b = true <-> Queue.active s = Some q) /\
    lines x = (queue_head d b :: map item xs ++ [""])%list.
Proof. exact (queue_read s q d). Qed.
Print Assumptions C99_queue.
(** The lines of two recorded commands are never the same. *)
Theorem C99_commands_apart h q i j c d x : nth_error (Queue.commands (Queue.history h) q) i = Some c -> nth_error (Queue.commands (Queue.history h) q) j = Some d ->
  command_text c = Ok x -> command_text d = Ok x -> i = j.
Proof. exact (recorded_apart h q i j c d x). Qed.
Print Assumptions C99_commands_apart.
(** A recorded command shows the id of its object, unless a parameter is called id. *)
Theorem C99_object oidf cid cn mn id sg args kw c : mk_command oidf cid cn mn (build_parameters id sg args kw) = Ok c ->
  ~ In "id" (p_names sg ++ s_locals sg) -> ~ In "id" (dkeys kw) -> object_id c = Ok id.
Proof. exact (recorded_id oidf cid cn mn id sg args kw c). Qed.
Print Assumptions C99_object.
(** A command can be shown when it has the number of its object under "id". *)
Theorem C99_identified called c :
  match dget (c_params c) "id" with
  | None => command_text c = Err KeyError /\ dumped called c = Err KeyError
  | Some (VInt z) | Some (VOid z) => object_id c = Ok z /\ is_ok (command_text c) = true /\ is_ok (dumped called c) = true
  | Some (VFloat _) => True
  | Some _ => command_text c = Err TypeError /\ dumped called c = Err TypeError
  end.
Proof. exact (identified called c). Qed.
Print Assumptions C99_identified.
(** A creation reads as the class and the id; after saving and loading, as a call. *)
Theorem C99_reloaded_refuted c z : contains "." (c_method c) = true -> object_id c = Ok z ->
  command_text c = Ok ("Command #" ++ decimal (c_id c) ++ ": " ++ c_class c ++ "(id=" ++ decimal z ++ ")") /\
  command_text (reload c) = Ok ("Command #" ++ decimal (c_id c) ++ ": " ++ c_method c ++ "(id=" ++ decimal z ++ ")/__init__(…)").
Proof. exact (creation_reloaded c z). Qed.
Print Assumptions C99_reloaded_refuted.
(** Dumping a command shows its number, its class, its object and, unless it is a
    creation, its method; then a line for each parameter with its name and the class of
    its value. *)
Theorem C99_dump called c l : dumped called c = Ok l -> exists z x, object_id c = Ok z /\ l = (x :: map (param_line called) (c_params c))%list /\
  x = "#" ++ padded (c_id c) ++ ": " ++ (if creation c then "Creation of " ++ c_class c ++ "(id=" ++ decimal z ++ ")" else c_class c ++ "(id=" ++ decimal z ++ ") → " ++ c_method c ++ "(…)").
Proof. exact (dump_read called c l). Qed.
Print Assumptions C99_dump.
Theorem C99_parameter called k v :
  param_line called (k, v) = "      | " ++ k ++ ": " ++ match v with VConv f w => class_of w ++ " (→ " ++ called f ++ ")" | _ => class_of v end.
Proof. exact (param_shown called k v). Qed.
Print Assumptions C99_parameter.
Theorem C99_creation c : creation c = true <-> c_method c = "" \/ contains "." (c_method c) = true.
Proof. exact (creation_iff c). Qed.
Print Assumptions C99_creation.
(** At least three digits. *)
Theorem C99_three_digits z : (0 <= z)%Z ->
  (3 <= String.length (padded z))%nat /\ exists k, padded z = zeros k ++ decimal z /\ (k = 0%nat \/ String.length (padded z) = 3%nat).
Proof. exact (three_digits z). Qed.
Print Assumptions C99_three_digits.
(** Numbers read back. *)
Theorem C99_decimal z z' : decimal z = decimal z' -> z = z'.
Proof. exact (decimal_inj z z'). Qed.
Print Assumptions C99_decimal.

Example C99_decimals : map decimal [0; 7; 10; -25; 1024]%Z = ["0"; "7"; "10"; "-25"; "1024"] /\ map padded [0; 7; 25; 1024; -5]%Z = ["000"; "007"; "025"; "1024"; "-05"].
Proof. split; vm_compute; reflexivity. Qed.
Example C99_case : match do_steps 9 fresh session with
  | Ok s => map (fun i => repr plainly no_truth 9 s i) [1; 2; 3; 5; 7; 11; 14; 15]%nat =
      [Ok "X (id=2)"; Err AttributeError; Ok "X (id=4[base=2])(1)"; Ok "Add (id=6, (left=Y (id=7[base=5]), right=2)";
       Ok "Add (id=8, (left=X (id=9[base=2]), right=Add (id=10[base=6], (left=Y (id=7[base=5]), right=None))";
       Ok "X (id=12[base=2])(13)"; Ok "Y (id=15[base=5])"; Ok "Y (id=16[base=5])"] /\
      known s 1 /\ known s 3 /\ presentable s 3 /\ presentable s 14
  | Err _ => False end.
Proof.
  vm_compute. split; [reflexivity|]. split; [eexists; split; [reflexivity|]; split; [tauto|discriminate]|].
  split; [eexists; split; [reflexivity|]; split; [tauto|discriminate]|]. split.
  - eexists. split; [reflexivity|]. split; [exists (Some 1%nat); split|right; exists (Some 0%nat)].
    + exists 1%nat, "X". eexists. split; [reflexivity|]. split; [reflexivity|discriminate].
    + eapply upon; [reflexivity|reflexivity|]. eapply ground; [reflexivity|]. discriminate.
    + right. split; [reflexivity|]. right. exists 4%Z. split; [|split; [reflexivity|eexists; reflexivity]]. exists "Buffer", 0%nat. eexists.
      split; [reflexivity|]. split; [reflexivity|]. split; [reflexivity|]. split; [reflexivity|discriminate].
  - eexists. split; [reflexivity|]. split; [exists (Some 4%nat); split|right; exists None].
    + exists 4%nat, "Y". eexists. split; [reflexivity|]. split; [reflexivity|discriminate].
    + eapply upon; [reflexivity|reflexivity|]. eapply ground; [reflexivity|]. discriminate.
    + split; [reflexivity|]. right. exists "Buffer", 13%nat. eexists.
      split; [reflexivity|]. split; [reflexivity|]. split; [reflexivity|]. split; [reflexivity|discriminate].
Qed.
(** X + (Y + 2) has the shape of two operators, and its text two parentheses too few;
    made its own left operand, it has no text. *)
Example C99_shape_case : match do_steps 9 fresh session with
  | Ok s => has_shape s 7 (Pair (Some Single) (Some (Pair (Some Single) None))) /\
      match repr plainly no_truth 9 s 7 with Ok x => occurrences "(" x = 6%nat /\ occurrences ")" x = 4%nat | Err _ => False end /\
      match do_steps 9 s [Set_ 7 "set_left" (VObj "Add" 7%nat)] with Ok s' => repr plainly no_truth 50 s' 7 = Err OutOfFuel | Err _ => False end
  | Err _ => False end.
Proof.
  vm_compute. split; [|repeat split; reflexivity].
  eapply pair_of; [reflexivity|reflexivity| |].
  - eapply inner; [reflexivity|]. eapply single; [reflexivity|discriminate|discriminate].
  - eapply inner; [reflexivity|]. eapply pair_of; [reflexivity|reflexivity| |].
    + eapply inner; [reflexivity|]. eapply single; [reflexivity|discriminate|discriminate].
    + apply other. reflexivity.
Qed.
Example C99_queue_case : match queue_text a_queue 0%nat with
  | Ok x => lines x = ["CommandQueue(""default"", active, read-write) : 2 command(s)"; "  - Command #1: Buffer(id=1)"; "  - Command #2: X(id=2)/set_buffer(…)"; ""]
  | Err _ => False end /\
  match nth_error (Queue.qs a_queue) 0%nat with Some d => one_line (Queue.q_name d) /\ Forall proper_command (Queue.q_cmds d) | None => False end /\
  dumped (fun _ => "f") (mkC 2 "X" "set_buffer" [("id", VOid 2); ("buffer", VInt 3)]) = Ok ["#002: X(id=2) → set_buffer(…)"; "      | id: OID"; "      | buffer: int"].
Proof.
  split; [vm_compute; reflexivity|]. split; [|vm_compute; reflexivity]. split; [reflexivity|].
  constructor; [|constructor; [|constructor]]; (split; [eexists; reflexivity|split; reflexivity]).
Qed.
