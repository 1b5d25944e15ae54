(** Vocabulary for the properties of caps, joins and styles. *)
From Verif Require Import Base Lines.

(** The caps last given. *)
Definition last_caps (c : attr) (h : list event) : attr := fold_left (fun c e => match e with Caps a => a | _ => c end) h c.
(** The cap an enumeration stands for. *)
Inductive stands : Z -> cap -> Prop := sbutt : stands 1 Butt | sround : stands 2 Round | scap : stands 3 Projecting.
(** The cap with which viewport [v] shows the lines. *)
Definition cap_in (s : lines) (v : nat) : option cap := match dget (shown s) v with Some l => l_cap l | None => None end.
Definition renders (v : nat) (e : event) : Prop := e = Render v.
