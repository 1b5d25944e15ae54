(** C54: the comparison of expected and produced JSON documents. *)
From Verif Require Import Base JsonComp JsonCompSpec JsonCompFacts.
Local Open Scope list_scope.
Local Open Scope string_scope.

Definition n (z : Z) : json := JNum (Q2Qc (z # 1)).

Theorem C54_symmetric x y : deep_comp x y = deep_comp y x.
Proof. exact (symmetric x y). Qed.
Print Assumptions C54_symmetric.
(** A document is accepted with itself, or two elements of one of its lists
    cannot be ordered. *)
Theorem C54_accepts_itself_partial x : deep_comp x x = Ok true \/ deep_comp x x = Err TypeError.
Proof. exact (self x). Qed.
Print Assumptions C54_accepts_itself_partial.
Theorem C54_accepts_itself_uniform x : uniform x -> deep_comp x x = Ok true.
Proof. exact (uniform_self x). Qed.
Print Assumptions C54_accepts_itself_uniform.
Example C54_example_uniform :
  uniform (JObj [("name", JStr "a"); ("at", JList [JList [n 2; n 1]; JList [n 1; n 3]]); ("none", JNull); ("on", JList [JBool true; n 3])]).
Proof.
  apply uniform_obj.
  - cbn. repeat constructor; cbn; intuition discriminate.
  - apply Forall_cons; [|apply Forall_cons; [|apply Forall_cons; [|apply Forall_cons; [|apply Forall_nil]]]]; cbn [snd].
    + apply uniform_text. eexists. reflexivity.
    + apply uniform_rows. repeat constructor; eexists; (split; [reflexivity|]); repeat constructor; eexists; reflexivity.
    + apply uniform_null.
    + apply uniform_numbers. repeat constructor; eexists; reflexivity.
Qed.
Theorem C54_accepts_itself_refuted :
  deep_comp (JList [JNull; JNull]) (JList [JNull; JNull]) = Err TypeError /\
  deep_comp (JList [n 1; JStr "a"]) (JList [n 1; JStr "a"]) = Err TypeError /\
  deep_comp (JList [JObj [("c", JNull)]; JObj [("c", n 1)]]) (JList [JObj [("c", JNull)]; JObj [("c", n 1)]]) = Err TypeError.
Proof. repeat split. Qed.
Print Assumptions C54_accepts_itself_refuted.
(** Exactly the alike documents are accepted. *)
Theorem C54_accepts_iff_alike x y : deep_comp x x = Ok true -> (deep_comp x y = Ok true <-> alike x y).
Proof. exact (accepts_iff x y). Qed.
Print Assumptions C54_accepts_iff_alike.
Theorem C54_rejects_iff_not_alike x y : deep_comp x x = Ok true -> deep_comp y y = Ok true ->
  (deep_comp x y = Ok false <-> ~ alike x y).
Proof. exact (rejects_iff x y). Qed.
Print Assumptions C54_rejects_iff_not_alike.
(** Alike objects have as many members, and alike values under each key; alike
    lists have as many elements. *)
Theorem C54_members l m k u : NoDup (map fst m) -> alike (JObj l) (JObj m) -> dget l k = Some u ->
  exists v, dget m k = Some v /\ alike u v.
Proof. exact (alike_members l m k u). Qed.
Print Assumptions C54_members.
Theorem C54_sizes l m l' m' : (alike (JObj l) (JObj m) -> length l = length m) /\ (alike (JList l') (JList m') -> length l' = length m').
Proof. exact (conj (alike_size l m) (alike_length l' m')). Qed.
Print Assumptions C54_sizes.
Example C54_example_alike :
  deep_comp (JObj [("b", n 1); ("a", JList [n 2; n 3])]) (JObj [("a", JList [n 2; n 3]); ("b", n 1)]) = Ok true /\
  deep_comp (JObj [("b", n 1); ("a", JList [n 2; n 3])]) (JObj [("a", JList [n 2; n 4]); ("b", n 1)]) = Ok false.
Proof. split; reflexivity. Qed.
(** So documents that differ are accepted: coordinates exchanged, truth values for
    numbers, an object for a list. *)
Theorem C54_rejects_differences_refuted :
  deep_comp (JObj [("position", JList [n 0; n 1])]) (JObj [("position", JList [n 1; n 0])]) = Ok true /\
  deep_comp (JBool true) (n 1) = Ok true /\
  deep_comp (JObj []) (JList []) = Ok true.
Proof. repeat split. Qed.
Print Assumptions C54_rejects_differences_refuted.
