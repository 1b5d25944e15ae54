(** Specification of queues as logs, over histories (oldest event first). *)
From Verif Require Import Base Registry Convert Command Queue.
Open Scope string_scope.

(** Last assignment wins. *)
Fixpoint last_rec (d : bool) (h : list event) : bool :=
  match h with [] => d | ERec b :: r => last_rec b r | _ :: r => last_rec d r end.
Fixpoint last_ro (q : qid) (d : bool) (h : list event) : bool :=
  match h with
  | [] => d
  | ERo q' b :: r => last_ro q (if Nat.eqb q q' then b else d) r
  | _ :: r => last_ro q d r
  end.

(** A call is loggable if the undecorated method returns, the parameters pass
    the type check, and it is not marked __no_command__. *)
Definition loggable (k : call) : option (dict string value) :=
  match undecorated k, call_params k, k_nocmd k with
  | Ok _, Ok p, false => Some p
  | _, _, _ => None
  end.

(** The queue that is active after history [h] (see C18 for which one it is);
    a recorded call creates one if there is none. *)
Definition cur (s : sys) : qid :=
  match active s with Some q => q | None => length (qs s) end.
Definition active_after (h : list event) : qid := cur (history h).

(** The log of queue [q]: for each event, what it appends or clears.  [past]
    is the history before the event. *)
Definition appended (q : qid) (past : list event) (e : event) : option command :=
  match e with
  | ECall k =>
      match loggable k with
      | Some p =>
          if last_rec true past && Nat.eqb (active_after past) q && negb (last_ro q false past)
          then Some (mkC (1 + cids (history past)) (k_class k) (k_method k)
                         (map (fun kv => (fst kv, id_value (k_oidf k) (snd kv))) p))
          else None
      | None => None
      end
  | EPush q' oidf cn mn p =>
      if Nat.eqb q' q && Nat.ltb q (length (qs (history past))) && dmem p "id" && negb (last_ro q false past)
      then Some (mkC (1 + cids (history past)) cn mn
                     (map (fun kv => (fst kv, id_value oidf (snd kv))) p))
      else None
  | _ => None
  end.
Fixpoint log_from (q : qid) (past : list event) (h : list event) (acc : list command) : list command :=
  match h with
  | [] => acc
  | e :: r =>
      let acc' := match e with
                  | EEmpty q' => if Nat.eqb q q' then [] else acc
                  | _ => match appended q past e with Some c => (acc ++ [c])%list | None => acc end
                  end in
      log_from q (past ++ [e])%list r acc'
  end.
Definition log (q : qid) (h : list event) : list command := log_from q [] h [].

(** The queues that can be named in a history exist. *)
Definition names_existing (h : list event) : Prop :=
  forall past e rest, h = (past ++ e :: rest)%list ->
    match e with ERo q _ => (q < length (qs (history past)))%nat | _ => True end.

(** Strictly increasing command ids, all at most [n]. *)
Definition increasing_upto (n : Z) (l : list command) : Prop :=
  (forall c, In c l -> (c_id c <= n)%Z) /\
  (forall l1 c1 l2 c2 l3, l = (l1 ++ c1 :: l2 ++ c2 :: l3)%list -> (c_id c1 < c_id c2)%Z).

(** What a program sees after asking for queues: [requests] maps each name to
    the queue returned. *)
Definition ask (s : sys) (n : option string) : qid := snd (get_queue s n).
