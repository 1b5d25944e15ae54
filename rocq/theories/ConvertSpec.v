(** Specification vocabulary for the converter properties. *)
From Verif Require Import Base Convert.
Open Scope string_scope.

(** One pair seen through a history of single registrations: registering takes
    effect only when the pair is free; unregistering frees it. *)
Inductive sop := SReg (src dst : string) (f : func) | SUnreg (src dst : string).
Definition to_cop (o : sop) : cop :=
  match o with SReg s d f => Reg (One s) d f | SUnreg s d => Unreg (One s) d end.
Definition on_pair (p : string * string) (o : sop) : bool :=
  match o with SReg s d _ | SUnreg s d => eqb (s, d) p end.

(** The events of a history that concern the pair [p]. *)
Definition events (p : string * string) (h : list sop) : list sop := filter (on_pair p) h.

(** The first registration in a list of events. *)
Fixpoint first_reg (h : list sop) : option func :=
  match h with
  | [] => None
  | SReg _ _ f :: _ => Some f
  | SUnreg _ _ :: r => first_reg r
  end.
(** The events after the last unregistration. *)
Fixpoint after_last_unreg (h : list sop) : list sop :=
  match h with
  | [] => []
  | SUnreg _ _ :: r => after_last_unreg r
  | SReg s d f :: r =>
      if existsb (fun o => match o with SUnreg _ _ => true | _ => false end) r
      then after_last_unreg r else SReg s d f :: r
  end.

(** First registered pair of a list of candidates. *)
Fixpoint first_found (d : registry) (l : list (string * string)) : option func :=
  match l with
  | [] => None
  | p :: r => match dget d p with Some f => Some f | None => first_found d r end
  end.
(** The documented lookup order for a source name and the bases. *)
Definition candidates (src : string) (bases : list string) (dst : string) : list (string * string) :=
  (src, dst) :: ("*", dst) :: flat_map (fun b => [(b, dst); ("*", dst)]) bases.

(** The operation mentions the pair as one to unregister; as one to register with
    [f]. *)
Definition unregisters (o : cop) (p : string * string) : Prop :=
  match o with
  | Unreg (One s) dst => p = (s, dst)
  | Unreg (Many l) dst => exists s, In s l /\ p = (s, dst)
  | Reg _ _ _ => False
  end.
Definition registers (o : cop) (p : string * string) (f : func) : Prop :=
  match o with
  | Reg (One s) dst g => p = (s, dst) /\ f = g
  | Reg (Many l) dst g => (exists s, In s l /\ p = (s, dst)) /\ f = g
  | Unreg _ _ => False
  end.
