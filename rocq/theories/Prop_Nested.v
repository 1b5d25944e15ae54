(** Theorems about recorded methods that call recorded methods. *)
From Verif Require Import Base Nested NestedSpec NestedFacts.

(** ** C108: recorded methods that call recorded methods *)

(** Whatever the methods do, a program records exactly the calls that return, made by it or
    by other methods, in the order in which they end. *)
Theorem C108_recorded {St Cl} (meth : Cl -> body St Cl) proper s cs s' l :
  (exists n, record meth proper n s cs = Some (s', l)) <->
  exists ts, runs meth proper s (script cs) s' true ts /\ l = flat_map ended ts.
Proof. exact (recorded meth proper s cs s' l). Qed.
Print Assumptions C108_recorded.
(** A replay makes the recorded calls one after the other. *)
Theorem C108_replayed {St Cl} (meth : Cl -> body St Cl) proper s l s' :
  (exists n, replay meth proper n s l = Some (s', true)) <-> all_return meth proper l s s'.
Proof. exact (replayed meth proper s l s'). Qed.
Print Assumptions C108_replayed.
(** It stops at the first call that raises, with what that call did. *)
Theorem C108_stopped {St Cl} (meth : Cl -> body St Cl) proper s l s' :
  (exists n, replay meth proper n s l = Some (s', false)) <->
  exists l1 c l2 s1, l = l1 ++ c :: l2 /\ all_return meth proper l1 s s1 /\ raises meth proper c s1 s'.
Proof. exact (stopped meth proper s l s'). Qed.
Print Assumptions C108_stopped.
(** A method that counts twice by counting and counting again has counted four times after
    the replay. *)
Theorem C108_replay_refuted :
  record counter any 9 (0%Z, false) [1] = Some ((2%Z, false), [0; 0; 1]) /\
  replay counter any 9 (0%Z, false) [0; 0; 1] = Some ((4%Z, false), true).
Proof. split; reflexivity. Qed.
Print Assumptions C108_replay_refuted.
(** In general, when which calls are made does not depend on the state, the replay makes
    each call once for every recorded call it was part of, itself included. *)
Theorem C108_times {St Cl} (meth : Cl -> body St Cl) proper is_c n m s cs s' l s0 s0' :
  (forall c, straight (meth c)) -> (forall c, proper c = true) ->
  record meth proper n s cs = Some (s', l) -> replay meth proper m s0 l = Some (s0', true) ->
  exists ts us, runs meth proper s (script cs) s' true ts /\ runs meth proper s0 (script l) s0' true us /\
    list_sum (map (made is_c) us) = list_sum (map (weight is_c 0) ts).
Proof. exact (fun A B => replay_times meth proper is_c A B n m s cs s' l s0 s0'). Qed.
Print Assumptions C108_times.
(** What a method did before it raised is lost, but not the calls it made. *)
Theorem C108_raised_refuted :
  record counter any 9 (0%Z, false) [2] = Some ((1%Z, true), [0]) /\
  replay counter any 9 (0%Z, false) [0] = Some ((1%Z, false), true).
Proof. split; reflexivity. Qed.
Print Assumptions C108_raised_refuted.
(** Methods that ask for their calls not to be recorded are replayed right, if none of the
    calls of the program raised. *)
Theorem C108_unrecorded_partial {St Cl} (meth : Cl -> body St Cl) proper n s cs s' l :
  (forall c, hushed (meth c)) -> record meth proper n s cs = Some (s', l) -> length l = length cs ->
  l = cs /\ exists m, replay meth proper m s l = Some (s', true).
Proof. exact (hushed_replay meth proper n s cs s' l). Qed.
Print Assumptions C108_unrecorded_partial.
(** So are methods for which the calls they record make no difference if made before, as
    when they set what the method sets again. *)
Theorem C108_absorbed_partial {St Cl} (meth : Cl -> body St Cl) proper cs s s' :
  (forall c c', In c cs -> recorded_within meth proper c c' -> absorbs meth proper c c') ->
  all_return meth proper cs s s' ->
  exists n l, record meth proper n s cs = Some (s', l) /\ replay meth proper n s l = Some (s', true).
Proof. exact (absorbed_replay meth proper cs s s'). Qed.
Print Assumptions C108_absorbed_partial.
Example C108_case_times : (forall c, straight (tally c)) /\
  exists ts, runs tally any (0%Z, false) (script [1; 0]) (3%Z, false) true ts /\
    list_sum (map (made (Nat.eqb 0)) ts) = 3 /\ list_sum (map (weight (Nat.eqb 0) 0) ts) = 5.
Proof. exact counter_times. Qed.
Example C108_case_stopped : replay counter any 9 (0%Z, false) [0; 2; 0] = Some ((2%Z, true), false).
Proof. reflexivity. Qed.
Example C108_case_unrecorded : hushed (counter 6) /\ hushed (counter 0) /\
  record counter any 9 (0%Z, false) [6; 0] = Some ((3%Z, false), [6; 0]) /\
  replay counter any 9 (0%Z, false) [6; 0] = Some ((3%Z, false), true).
Proof. repeat split. Qed.
Example C108_case_absorbed : (forall c', recorded_within counter any 5 c' -> absorbs counter any 5 c') /\
  recorded_within counter any 5 4 /\ all_return counter any [5] (0%Z, false) (7%Z, true) /\
  record counter any 9 (0%Z, false) [5] = Some ((7%Z, true), [4; 3; 5]) /\
  replay counter any 9 (0%Z, false) [4; 3; 5] = Some ((7%Z, true), true).
Proof. exact counter_absorbs. Qed.
