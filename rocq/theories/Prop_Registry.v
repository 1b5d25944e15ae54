(** C01-C05: object identity, registry, equality. *)
From Verif Require Import Base Registry RegistrySpec RegistryFacts.
Open Scope Z_scope.

(** C01. In any history that does not enter the documentation helper, the
    identifiers drawn are 1, 2, 3, ... in order: one per object created. *)
Theorem C01_fresh_ids_consecutive : forall ops,
  forallb (fun o => negb (is_mkdocs o)) ops = true ->
  drawn rinit ops = map (fun i => 1 + Z.of_nat i) (seq 0 (list_sum (map creations ops))).
Proof. exact (drawn_spec rinit). Qed.
Print Assumptions C01_fresh_ids_consecutive.

Theorem C01_fresh_ids_distinct : forall s ops,
  forallb (fun o => negb (is_mkdocs o)) ops = true -> NoDup (drawn s ops).
Proof. exact drawn_nodup. Qed.
Print Assumptions C01_fresh_ids_distinct.

Example C01_example :
  let ops := [Create; SetId 0%nat 7; Clear; Create; Replay 1%nat 2%nat 1; SetRecord false; Create] in
  forallb (fun o => negb (is_mkdocs o)) ops = true /\
  drawn rinit ops = [1; 2; 3; 4; 5; 6; 7].
Proof. split; reflexivity. Qed.

(** The guard is needed: the documentation helper restarts the counter. *)
Theorem C01_mkdocs_refuted : exists ops, ~ NoDup (drawn rinit ops).
Proof. exact mkdocs_repeats. Qed.
Print Assumptions C01_mkdocs_refuted.

(** C02. *)
Theorem C02_registry_coherent : forall ops k r,
  lookup (rrun rinit ops) k = Some r -> id_of (rrun rinit ops) r = Some k.
Proof. exact (fun ops => coherent_run rinit ops coherent_init). Qed.
Print Assumptions C02_registry_coherent.

Theorem C02_one_id_per_object : forall ops k1 k2 r,
  lookup (rrun rinit ops) k1 = Some r -> lookup (rrun rinit ops) k2 = Some r -> k1 = k2.
Proof. exact (fun ops k1 k2 r => one_id_per_object rinit ops k1 k2 r coherent_init). Qed.
Print Assumptions C02_one_id_per_object.

Example C02_example :
  let s := rrun rinit [Create; Create; SetId 0%nat 2; SetId 1%nat 9; Replay 0%nat 1%nat 4] in
  lookup s 9 = Some 1%nat /\ lookup s 4 = Some 2%nat.
Proof. split; reflexivity. Qed.

(** C03. [r] is any object currently found under its id [old]. *)
Theorem C03_renumbering_moves : forall ops r old n,
  let s := rrun rinit ops in
  lookup s old = Some r ->
  let s' := set_id s r n in
  lookup s' n = Some r /\
  id_of s' r = Some n /\
  (old <> n -> lookup s' old = None) /\
  (forall k, k <> n -> k <> old -> lookup s' k = lookup s k) /\
  (forall q, q <> r -> id_of s' q = id_of s q) /\
  counter s' = counter s /\ recording s' = recording s /\
  (forall q, lookup s n = Some q -> q <> r -> forall k, lookup s' k <> Some q).
Proof.
  exact (fun ops r old n => rename_moves (rrun rinit ops) r old n
           (coherent_run rinit ops coherent_init)).
Qed.
Print Assumptions C03_renumbering_moves.

Example C03_example :
  let s := rrun rinit [Create; Create; Create] in
  lookup s 2 = Some 1%nat /\ lookup (set_id s 1%nat 3) 3 = Some 1%nat /\
  lookup (set_id s 1%nat 3) 1 = Some 0%nat /\ lookup (set_id s 1%nat 3) 2 = None.
Proof. repeat split. Qed.

(** Renumbering an object that is not registered changes no entry, unless
    another object occupies its id. *)
Theorem C03_renumbering_unregistered : forall s r old n,
  id_of s r = Some old -> lookup s old = None ->
  forall k, lookup (set_id s r n) k = lookup s k.
Proof. exact lookup_set_id_unregistered. Qed.
Print Assumptions C03_renumbering_unregistered.

(** An object evicted by a collision, when renumbered to an unused id, removes
    the unrelated object that took its place: after creating objects 0 and 1,
    giving object 0 the id of object 1, and renumbering object 1 to the unused
    id 9, object 0 is no longer registered although it was not touched. *)
Theorem C03_unregistered_frame_refuted : exists ops r n k q,
  let s := rrun rinit ops in
  lookup s n = None /\ lookup s k = Some q /\ q <> r /\ lookup (set_id s r n) k = None.
Proof. exact evicted_rename. Qed.
Print Assumptions C03_unregistered_frame_refuted.

(** C04. Exactly which recorded objects survive a replay: the one recorded at
    position [i] under [oid] is found under [oid] at the end iff no later
    command draws [oid] from the process counter. *)
Theorem C04_replay_exact : forall l s s' rs i pre post oid r,
  recording s = true -> NoDup (oids l) -> replay_all s l = (s', rs) ->
  nth_error l i = Some (pre, post, oid) -> nth_error rs i = Some r ->
  (lookup s' oid = Some r <->
   ~ (counter s + draws (firstn (S i) l) < oid <= counter s + draws l)).
Proof. exact replay_all_exact. Qed.
Print Assumptions C04_replay_exact.

Theorem C04_replay_safe_counter : forall l s s' rs i pre post oid r,
  recording s = true -> NoDup (oids l) -> replay_all s l = (s', rs) ->
  (forall k, In k (oids l) -> k <= counter s) ->
  nth_error l i = Some (pre, post, oid) -> nth_error rs i = Some r ->
  lookup s' oid = Some r.
Proof. exact replay_all_safe. Qed.
Print Assumptions C04_replay_safe_counter.

(** A client that recorded every object it created from counter [c] on can be
    replayed in any process whose counter is at least [c]. *)
Theorem C04_replay_client : forall shape c s s' rs i pre post oid r,
  recording s = true -> c <= counter s ->
  replay_all s (client_ids c shape) = (s', rs) ->
  nth_error (client_ids c shape) i = Some (pre, post, oid) -> nth_error rs i = Some r ->
  lookup s' oid = Some r.
Proof. exact replay_client. Qed.
Print Assumptions C04_replay_client.

Example C04_example :
  let l := client_ids 0 [(0, 0); (1, 2); (0, 0)]%nat in
  l = [(0%nat, 0%nat, 1); (1%nat, 2%nat, 3); (0%nat, 0%nat, 6)] /\
  exists s' rs, replay_all rinit l = (s', rs) /\ lookup s' 3 = nth_error rs 1.
Proof. split; [reflexivity|]. eexists; eexists; split; reflexivity. Qed.

(** The unguarded claim fails: objects recorded as 2 and 3 (object 1 was
    created without being recorded), replayed in a fresh process: object 2 is
    lost. *)
Theorem C04_replay_refuted : exists l s' rs oid r,
  NoDup (oids l) /\ replay_all rinit l = (s', rs) /\
  nth_error l 0 = Some (0%nat, 0%nat, oid) /\ nth_error rs 0 = Some r /\
  lookup s' oid = None.
Proof. exact replay_loses. Qed.
Print Assumptions C04_replay_refuted.

(** C05. Equality never looks at the identifier while the hash is the
    identifier. *)
Theorem C05_equal_implies_same_hash_refuted : exists a b,
  py_eq a b = Ok true /\ py_hash a <> py_hash b.
Proof. exact hash_differs. Qed.
Print Assumptions C05_equal_implies_same_hash_refuted.

(** What [==] decides: same class, and every attribute of the left operand is
    present with an equal value on the right. *)
Theorem C05_equality_characterised : forall a b,
  py_eq a b = Ok true <->
  cls a = cls b /\ forall k v, In (k, v) (attrs a) -> dget (attrs b) k = Some v.
Proof. exact py_eq_true. Qed.
Print Assumptions C05_equality_characterised.

Theorem C05_equality_symmetric : forall a b,
  NoDup (dkeys (attrs a)) -> NoDup (dkeys (attrs b)) ->
  (forall k, In k (dkeys (attrs b)) -> In k (dkeys (attrs a))) ->
  py_eq a b = Ok true -> py_eq b a = Ok true.
Proof. exact py_eq_sym. Qed.
Print Assumptions C05_equality_symmetric.

Example C05_example :
  py_eq (mkO "A" 1 [("x"%string, 5); ("y"%string, 6)]) (mkO "A" 2 [("y"%string, 6); ("x"%string, 5)]) = Ok true.
Proof. reflexivity. Qed.

(** Without the key-set condition symmetry fails: the reversed comparison
    raises. *)
Theorem C05_symmetry_refuted : exists a b,
  py_eq a b = Ok true /\ py_eq b a = Err AttributeError.
Proof. exact eq_asym. Qed.
Print Assumptions C05_symmetry_refuted.
