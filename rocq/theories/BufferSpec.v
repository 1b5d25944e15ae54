(** What buffers should hold. *)
From Verif Require Import Base Base64 Buffer.
Local Open Scope nat_scope.
Local Open Scope list_scope.

(** A sequence of bytes is that of items of [w] bytes each. *)
Definition items_of (w : nat) (l : list N) (its : list (list N)) : Prop :=
  concat its = l /\ Forall (fun i => length i = w) its.
(** The bytes of a source. *)
Definition holds (mem : memory) (d : source) (l : list N) : Prop :=
  match d with
  | SNone => False
  | SBytes x => x = l
  | SText t => b64decode t = Ok l
  | SArray a => mem a = l
  end.
(** Numbers below 256. *)
Definition all_bytes (l : list N) : Prop := Forall (fun x => (x < 256)%N) l.
Definition bytes_event (e : event) : Prop := match e with ETrack _ _ _ => True | EAssign _ new _ => all_bytes new end.
(** Two buffers read the same: same length, item size and bytes, or the same error. *)
Definition reads_same (mem : memory) (b b' : buffer) : Prop :=
  len b = len b' /\ b_width b = b_width b' /\
  forall fresh mem', match array mem fresh b, array mem' fresh b' with
                     | Ok (_, s), Ok (_, s') => bytes_of mem s = bytes_of mem' s'
                     | Err e, Err e' => e = e'
                     | _, _ => False
                     end.
(** The buffers made in a history, with the bytes of their arrays when they were made. *)
Fixpoint first_bytes (mem : memory) (l : list event) : list (nat * nat * list N) :=
  match l with
  | [] => []
  | ETrack a n w :: r => (n, w, mem a) :: first_bytes mem r
  | EAssign a new _ :: r => first_bytes (fun x => if x =? a then new else mem x) r
  end.
(** The array a buffer was made from does not change afterwards. *)
Fixpoint unchanged_after (mem : memory) (l : list event) : Prop :=
  match l with
  | [] => True
  | ETrack a _ _ :: r => (forall x new, In (EAssign a new x) r -> new = mem a) /\ unchanged_after mem r
  | EAssign a new _ :: r => unchanged_after (fun x => if x =? a then new else mem x) r
  end.
(** A receiver that writes the updates it is sent. *)
Definition kept (mem : memory) (held : list (list N)) (c : command) : list (list N) :=
  match c with
  | CCreate a _ _ => held ++ [mem a]
  | CSet b o d => at_place held b (fun l => firstn o l ++ d ++ skipn (o + length d) l)
  end.
Fixpoint kept_all (s : session) (held : list (list N)) (l : list event) : list (list N) :=
  match l with
  | [] => held
  | e :: r => kept_all (happens s e) (fold_left (kept (s_mem (happens s e))) (skipn (length (s_log s)) (s_log (happens s e))) held) r
  end.
(** Arrays keep their size; reports go to the buffers of the array, are inside it
    and cover the bytes that change. *)
Definition reported (s : session) (e : event) : Prop :=
  match e with
  | ETrack _ _ _ => True
  | EAssign a new reports =>
      length new = length (s_mem s a) /\
      (forall b start stop, In (b, (start, stop)) reports -> start <= stop <= length new /\ exists x, nth_error (s_buffers s) b = Some (a, x)) /\
      (forall b x k, nth_error (s_buffers s) b = Some (a, x) -> nth_error new k <> nth_error (s_mem s a) k ->
         exists start stop, In (b, (start, stop)) reports /\ start <= k < stop)
  end.
Fixpoint all_reported (s : session) (l : list event) : Prop :=
  match l with [] => True | e :: r => reported s e /\ all_reported (happens s e) r end.
(** The update for a report carries the reported bytes and no others. *)
Definition carries (new : list N) (r : nat * (nat * nat)) (c : command) : Prop :=
  exists d, c = CSet (fst r) (fst (snd r)) d /\ length d = snd (snd r) - fst (snd r) /\
    forall k, k < length d -> nth_error d k = nth_error new (fst (snd r) + k).
