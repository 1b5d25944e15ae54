(** Vocabulary used to state the registry properties; independent of the
    proofs. *)
From Verif Require Import Base Registry.
Open Scope Z_scope.

(** Number of objects an operation creates. *)
Definition creations (o : rop) : nat :=
  match o with Create => 1 | Replay pre post _ => pre + 1 + post | _ => 0 end%nat.
Definition is_mkdocs (o : rop) : bool := match o with Mkdocs => true | _ => false end.

(** Every registry entry names an object carrying that identifier. *)
Definition coherent (s : rstate) : Prop :=
  forall k r, lookup s k = Some r -> id_of s r = Some k.

(** Number of identifiers a list of recorded constructors draws on replay:
    one per object it creates, helpers included. *)
Definition draws (l : list (nat * nat * Z)) : Z :=
  Z.of_nat (list_sum (map (fun '(pre, post, _) => (pre + 1 + post)%nat) l)).

(** The recorded identifiers. *)
Definition oids (l : list (nat * nat * Z)) : list Z := map snd l.

(** The ids a client records when every drawn id belongs to a recorded
    constructor (with its helpers), starting with counter [c]. *)
Fixpoint client_ids (c : Z) (shape : list (nat * nat)) : list (nat * nat * Z) :=
  match shape with
  | [] => []
  | (pre, post) :: r =>
      (pre, post, c + Z.of_nat pre + 1) :: client_ids (c + Z.of_nat (pre + 1 + post)) r
  end.

