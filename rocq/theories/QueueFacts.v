(** Proofs about Queue.v. *)
From Verif Require Import Base Registry Convert Command CommandSpec CommandFacts Queue QueueSpec.
Open Scope string_scope.
Open Scope nat_scope.

(** ** Invariant of reachable states *)
Definition wf (s : sys) : Prop :=
  active s = match length (qs s) with O => None | S n => Some n end /\
  (forall n q, dget (inst s) n = Some q -> q < length (qs s)) /\
  (forall n1 n2 q, dget (inst s) n1 = Some q -> dget (inst s) n2 = Some q -> n1 = n2) /\
  dget (inst s) "active" = None.

(** [s'] differs from [s] only by having possibly one more, empty, writable
    queue, now active. *)
Definition extends (s s' : sys) : Prop :=
  (exists l, qs s' = (qs s ++ l)%list /\ forall x, In x l -> q_ro x = false /\ q_cmds x = []) /\
  rec s' = rec s /\ cids s' = cids s.

Lemma extends_commands s s' q : extends s s' -> commands s' q = commands s q.
Proof.
  intros ((l & E & H) & _). unfold commands. rewrite E.
  destruct (Nat.ltb_spec q (length (qs s))) as [Hl|Hl].
  - now rewrite nth_error_app1.
  - rewrite nth_error_app2 by assumption.
    assert (nth_error (qs s) q = None) as -> by now apply nth_error_None.
    destruct (nth_error l (q - length (qs s))) as [x|] eqn:Ex; auto.
    apply nth_error_In, H in Ex. tauto.
Qed.
Lemma extends_readonly s s' q : extends s s' -> readonly s' q = readonly s q.
Proof.
  intros ((l & E & H) & _). unfold readonly. rewrite E.
  destruct (Nat.ltb_spec q (length (qs s))) as [Hl|Hl].
  - now rewrite nth_error_app1.
  - rewrite nth_error_app2 by assumption.
    assert (nth_error (qs s) q = None) as -> by now apply nth_error_None.
    destruct (nth_error l (q - length (qs s))) as [x|] eqn:Ex; auto.
    apply nth_error_In, H in Ex. tauto.
Qed.
Lemma extends_refl s : extends s s.
Proof. split; [|auto]. exists []. split; [now rewrite app_nil_r | intros x []]. Qed.

Lemma new_queue_spec s n s1 q : new_queue s n = (s1, q) ->
  q = length (qs s) /\ extends s s1 /\ inst s1 = inst s /\ active s1 = Some q /\
  length (qs s1) = S (length (qs s)).
Proof.
  unfold new_queue. intros H. injection H as <- <-. cbn. rewrite app_length. cbn.
  split; [auto|]. split; [|split; [auto|split; [auto|lia]]].
  split; [|auto]. exists [mkQ n false []]. split; auto. intros x [<-|[]]. auto.
Qed.

Lemma get_active_spec s : wf s ->
  let s1 := fst (get_queue s None) in let q := snd (get_queue s None) in
  extends s s1 /\ inst s1 = inst s /\ active s1 = Some q /\ q < length (qs s1) /\
  q = cur s /\
  (active s <> None -> s1 = s) /\ wf s1.
Proof.
  intros Hwf. pose proof Hwf as (Ha & Hi & Hinj & Hna). unfold get_queue, cur. destruct (active s) as [q|] eqn:E; cbn [fst snd].
  - assert (Hq : q < length (qs s)) by (destruct (length (qs s)); [discriminate | injection Ha as ->; lia]).
    split; [apply extends_refl|]. auto 10.
  - destruct (new_queue s "default") as [s1 q] eqn:En. cbn [fst snd].
    destruct (new_queue_spec _ _ _ _ En) as (-> & Hex & Hin & Hac & Hlen).
    split; [exact Hex|]. split; [exact Hin|]. split; [exact Hac|]. split; [lia|]. split; [reflexivity|].
    split; [congruence|]. split; [now rewrite Hac, Hlen|]. rewrite Hin. split; [|auto].
    intros m q H. apply Hi in H. lia.
Qed.

Lemma get_queue_spec s n : wf s ->
  let s1 := fst (get_queue s n) in let q := snd (get_queue s n) in
  extends s s1 /\ wf s1 /\ q < length (qs s1).
Proof.
  intros Hwf. destruct n as [n|].
  2: { destruct (get_active_spec s Hwf) as (? & ? & ? & ? & ? & ? & ?). auto. }
  unfold get_queue. destruct (String.eqb_spec n "active") as [->|Hn].
  { change (match active s with Some q => (s, q) | None => new_queue s "default" end) with (get_queue s None).
    destruct (get_active_spec s Hwf) as (? & ? & ? & ? & ? & ? & ?). auto. }
  destruct (dget (inst s) n) as [q|] eqn:E; cbn [fst snd].
  { split; [apply extends_refl|]. split; auto. destruct Hwf as (_ & Hi & _). eauto. }
  destruct (new_queue s n) as [s1 q] eqn:En. cbn [fst snd].
  destruct (new_queue_spec _ _ _ _ En) as (-> & Hex & Hin & Hac & Hlen).
  destruct Hwf as (Ha & Hi & Hinj & Hna). destruct Hex as (Hex & Hr & Hc).
  split; [split; auto|]. cbn [qs]. split; [|lia].
  split; [cbn [qs active]; now rewrite Hac, Hlen|]. cbn [qs inst]. rewrite Hin, Hlen.
  split; [|split].
  - intros m q. rewrite dget_dset. destruct (eqb m n); [intros H; injection H as <-; lia|].
    intros H. apply Hi in H. lia.
  - intros n1 n2 q. rewrite !dget_dset.
    destruct (eqb_spec n1 n) as [->|H1]; destruct (eqb_spec n2 n) as [->|H2]; auto.
    + intros H; injection H as <-. intros H. apply Hi in H. lia.
    + intros H3 H; injection H as <-. apply Hi in H3. lia.
    + apply Hinj.
  - rewrite dget_dset. assert (eqb "active" n = false) as -> by (apply eqb_neq; congruence). auto.
Qed.

(** ** Queue updates *)
Lemma on_queue_len s q f : length (qs (on_queue s q f)) = length (qs s).
Proof. unfold on_queue. destruct (nth_error (qs s) q); auto. cbn. apply upd_length. Qed.
Lemma on_queue_nth s q f q' :
  nth_error (qs (on_queue s q f)) q' =
  if Nat.eqb q' q then option_map f (nth_error (qs s) q') else nth_error (qs s) q'.
Proof.
  unfold on_queue. destruct (nth_error (qs s) q) as [x|] eqn:E; cbn [qs set_qs].
  - rewrite nth_error_upd. destruct (Nat.eqb_spec q' q) as [->|]; auto.
    rewrite E. assert (q < length (qs s)) by (apply nth_error_Some; congruence).
    destruct (Nat.ltb_spec q (length (qs s))); [reflexivity | lia].
  - destruct (Nat.eqb_spec q' q) as [->|]; auto. now rewrite E.
Qed.
Lemma on_queue_rest s q f :
  inst (on_queue s q f) = inst s /\ active (on_queue s q f) = active s /\
  rec (on_queue s q f) = rec s /\ cids (on_queue s q f) = cids s.
Proof. unfold on_queue. destruct (nth_error (qs s) q); cbn; auto. Qed.
Lemma wf_on_queue s q f : wf s -> wf (on_queue s q f).
Proof.
  unfold wf. rewrite on_queue_len. destruct (on_queue_rest s q f) as (-> & -> & _). auto.
Qed.

Lemma push_eq s q c : fst (push s q c) =
  if readonly s q then s else on_queue s q (fun x => mkQ (q_name x) false (q_cmds x ++ [c])%list).
Proof.
  unfold push, readonly, on_queue. destruct (nth_error (qs s) q) as [x|]; auto. destruct (q_ro x); auto.
Qed.
Lemma commands_on_queue s q f q' :
  (forall x, q_cmds (f x) = q_cmds x) -> commands (on_queue s q f) q' = commands s q'.
Proof.
  intros H. unfold commands. rewrite on_queue_nth. destruct (Nat.eqb q' q); auto.
  destruct (nth_error (qs s) q'); cbn; auto.
Qed.

(** ** Effect of one decorated call *)
Definition log_entry (s : sys) (k : call) (q : qid) : list command :=
  match loggable k with
  | Some p =>
      if rec s && Nat.eqb (cur s) q && negb (readonly s q)
      then [mkC (1 + cids s) (k_class k) (k_method k) (map (fun kv => (fst kv, id_value (k_oidf k) (snd kv))) p)]
      else []
  | None => []
  end.

Lemma check_parameters_id E d ann p p' : check_parameters E d ann p = Ok p' -> dmem p' "id" = dmem p "id".
Proof.
  intros H. destruct (check_parameters_get _ _ _ _ _ H) as [_ Hg]. specialize (Hg "id"). unfold dmem.
  destruct (dget p "id"); [destruct Hg as (v' & -> & _); reflexivity | now rewrite Hg].
Qed.
Lemma build_has_id id s args kwargs : dmem (build_parameters id s args kwargs) "id" = true.
Proof.
  unfold build_parameters.
  assert (Hs : forall (p : dict string value) k v, dmem p "id" = true -> dmem (dset p k v) "id" = true).
  { intros p k v. unfold dmem. rewrite dget_dset. destruct (eqb "id" k); auto. }
  assert (H1 : forall l p, dmem p "id" = true -> dmem (fold_left add_positional l p) "id" = true).
  { induction l as [|kv l IH]; intros p Hp; cbn [fold_left]; auto. apply IH. now apply Hs. }
  assert (H2 : forall l p, dmem p "id" = true -> dmem (fold_left add_missing l p) "id" = true).
  { induction l as [|kv l IH]; intros p Hp; cbn [fold_left]; auto. apply IH. unfold add_missing.
    destruct (dmem p (fst kv)); auto. }
  apply H2, H2, H1. reflexivity.
Qed.
Lemma call_params_id k p : call_params k = Ok p -> dmem p "id" = true.
Proof.
  unfold call_params, recorded_parameters. intros H. rewrite (check_parameters_id _ _ _ _ _ H).
  apply build_has_id.
Qed.

Lemma complete_effect s k : wf s ->
  let s' := fst (complete s k) in
  wf s' /\ rec s' = rec s /\ inst s' = inst s /\
  (forall q, readonly s' q = readonly s q) /\
  (forall q, commands s' q = (commands s q ++ log_entry s k q)%list) /\
  (cids s' = cids s \/ cids s' = (1 + cids s)%Z) /\
  (cids s' = cids s -> forall q, log_entry s k q = []) /\
  length (qs s) <= length (qs s') /\ (active s <> None -> length (qs s') = length (qs s)).
Proof.
  intros Hwf s'. subst s'. unfold complete.
  assert (Hnone : loggable k = None -> forall s0 q, log_entry s0 k q = []).
  { intros H s0 q. unfold log_entry. now rewrite H. }
  assert (Hoff : rec s = false -> forall q, log_entry s k q = []).
  { intros H q. unfold log_entry. rewrite H. destruct (loggable k); auto. }
  assert (Hsame : forall s1, extends s s1 -> wf s1 -> inst s1 = inst s -> (forall q, log_entry s k q = []) ->
     length (qs s) <= length (qs s1) /\ (active s <> None -> length (qs s1) = length (qs s)) ->
     wf s1 /\ rec s1 = rec s /\ inst s1 = inst s /\ (forall q, readonly s1 q = readonly s q) /\
     (forall q, commands s1 q = (commands s q ++ log_entry s k q)%list) /\
     (cids s1 = cids s \/ cids s1 = (1 + cids s)%Z) /\
     (cids s1 = cids s -> forall q, log_entry s k q = []) /\
     length (qs s) <= length (qs s1) /\ (active s <> None -> length (qs s1) = length (qs s))).
  { intros s1 He Hw Hi Hl Hlen. pose proof He as (_ & Hr & Hc). split; [exact Hw|]. split; [exact Hr|]. split; [exact Hi|].
    split; [intros q; now apply extends_readonly|].
    split; [intros q; rewrite Hl, app_nil_r; now apply extends_commands|]. tauto. }
  destruct (undecorated k) as [r|e] eqn:Eu; cbn [fst].
  2: { apply Hsame; auto using extends_refl. apply Hnone. unfold loggable. now rewrite Eu. }
  destruct (rec s) eqn:Er; cbn [negb].
  2: { cbn [fst]. apply Hsame; auto using extends_refl. }
  destruct (get_active_spec s Hwf) as (He & Hi & Ha & Hq & Hqe & Hsame1 & Hwf1).
  destruct (get_queue s None) as [s1 q0] eqn:Eg. cbn [fst snd] in *.
  assert (Hlen : length (qs s) <= length (qs s1) /\ (active s <> None -> length (qs s1) = length (qs s))).
  { split; [destruct He as ((l & -> & _) & _); rewrite app_length; lia | intros H; now rewrite Hsame1]. }
  destruct (call_params k) as [p|e] eqn:Ep; cbn [fst].
  2: { apply Hsame; auto. apply Hnone. unfold loggable. now rewrite Eu, Ep. }
  assert (Hlog : loggable k = if k_nocmd k then None else Some p).
  { unfold loggable. rewrite Eu, Ep. destruct (k_nocmd k); auto. }
  destruct (k_nocmd k) eqn:Enc; cbn [negb andb].
  { cbn [fst]. apply Hsame; auto. }
  destruct (readonly s1 q0) eqn:Ero; cbn [negb].
  { cbn [fst]. apply Hsame; auto. intros q. unfold log_entry. rewrite Hlog, Er, <- Hqe. cbn [andb].
    destruct (Nat.eqb_spec q0 q) as [->|]; auto. rewrite <- (extends_readonly s s1 q He), Ero. reflexivity. }
  unfold new_command, mk_command. rewrite (call_params_id k p Ep). cbn [fst].
  set (c := mkC _ _ _ _). set (s2 := mkSys _ _ _ _ _).
  assert (Hro2 : readonly s2 q0 = false) by exact Ero.
  rewrite push_eq, Hro2.
  set (f := fun x => mkQ (q_name x) false (q_cmds x ++ [c])%list).
  assert (Hwf2 : wf s2) by exact Hwf1.
  destruct (on_queue_rest s2 q0 f) as (Ri & Ra & Rr & Rc).
  destruct He as (He1 & He2 & He3). assert (He : extends s s1) by (split; auto).
  split; [now apply wf_on_queue|]. split; [rewrite Rr; unfold s2; cbn; congruence|].
  split; [rewrite Ri; exact Hi|].
  split; [|split; [|split; [|split]]].
  - intros q. rewrite <- (extends_readonly s s1 q He). unfold readonly. rewrite on_queue_nth.
    change (qs s2) with (qs s1). destruct (Nat.eqb_spec q q0) as [->|]; auto.
    unfold readonly in Ero. destruct (nth_error (qs s1) q0); cbn; auto.
  - intros q. rewrite <- (extends_commands s s1 q He). unfold commands at 1. rewrite on_queue_nth.
    change (qs s2) with (qs s1). unfold log_entry. rewrite Hlog, Er, <- Hqe. cbn [andb].
    rewrite (Nat.eqb_sym q q0).
    destruct (Nat.eqb_spec q0 q) as [->|].
    + rewrite <- (extends_readonly s s1 q He), Ero. cbn [negb andb]. unfold commands.
      destruct (nth_error (qs s1) q) as [x|] eqn:Ex.
      2: { apply nth_error_None in Ex. lia. }
      cbn. unfold c. now rewrite He3.
    + cbn [andb]. now rewrite app_nil_r.
  - right. rewrite Rc. unfold s2. cbn [cids]. now rewrite He3.
  - rewrite Rc. unfold s2. cbn [cids]. intros H. exfalso. rewrite He3 in H. lia.
  - rewrite on_queue_len. exact Hlen.
Qed.

(** ** Histories *)
Lemma history_snoc h e : history (h ++ [e])%list = step (history h) e.
Proof. unfold history. now rewrite fold_left_app. Qed.
Lemma wf_init : wf sinit.
Proof. repeat split; auto; discriminate. Qed.

Lemma wf_step s e : wf s -> wf (step s e).
Proof.
  intros H. destruct e; cbn [step].
  - now apply get_queue_spec.
  - now apply wf_on_queue.
  - now apply wf_on_queue.
  - exact H.
  - unfold new_command. destruct (mk_command _ _ _ _ _) as [c|]; [|exact H].
    rewrite push_eq. destruct (readonly _ q); [exact H|]. apply wf_on_queue. exact H.
  - now apply complete_effect.
Qed.
Lemma wf_history h : wf (history h).
Proof.
  induction h as [|e h IH] using rev_ind; [apply wf_init|]. rewrite history_snoc. now apply wf_step.
Qed.

Lemma last_rec_snoc d h e : last_rec d (h ++ [e])%list = match e with ERec b => b | _ => last_rec d h end.
Proof.
  revert d; induction h as [|e0 h IH]; intros d; cbn [app last_rec]; [now destruct e|].
  destruct e0; rewrite IH; now destruct e.
Qed.
Lemma last_ro_snoc q d h e : last_ro q d (h ++ [e])%list =
  match e with ERo q' b => if Nat.eqb q q' then b else last_ro q d h | _ => last_ro q d h end.
Proof.
  revert d; induction h as [|e0 h IH]; intros d; cbn [app last_ro]; [now destruct e|].
  destruct e0; rewrite IH; now destruct e.
Qed.

Lemma step_rec s e : wf s -> rec (step s e) = match e with ERec b => b | _ => rec s end.
Proof.
  intros Hwf. destruct e; cbn [step]; auto.
  - destruct (get_queue_spec s name Hwf) as ((_ & H & _) & _). exact H.
  - apply on_queue_rest.
  - apply on_queue_rest.
  - unfold new_command. destruct (mk_command _ _ _ _ _) as [c|]; [|reflexivity].
    rewrite push_eq. destruct (readonly _ q); [reflexivity|].
    match goal with |- rec (on_queue ?a ?b ?c) = _ => destruct (on_queue_rest a b c) as (_ & _ & -> & _) end.
    reflexivity.
  - destruct (complete_effect s k Hwf) as (_ & H & _). exact H.
Qed.
Lemma rec_history h : rec (history h) = last_rec true h.
Proof.
  induction h as [|e h IH] using rev_ind; [reflexivity|].
  rewrite history_snoc, step_rec, last_rec_snoc by apply wf_history. destruct e; auto.
Qed.

Lemma readonly_on_queue s q f q' :
  (forall x, q_ro (f x) = q_ro x) -> readonly (on_queue s q f) q' = readonly s q'.
Proof.
  intros H. unfold readonly. rewrite on_queue_nth. destruct (Nat.eqb q' q); auto.
  destruct (nth_error (qs s) q'); cbn; auto.
Qed.

Lemma step_readonly s e q : wf s ->
  match e with ERo q' _ => q' < length (qs s) | _ => True end ->
  readonly (step s e) q = match e with ERo q' b => if Nat.eqb q q' then b else readonly s q | _ => readonly s q end.
Proof.
  intros Hwf Hex. destruct e; cbn [step]; auto.
  - apply extends_readonly. now apply get_queue_spec.
  - now apply readonly_on_queue.
  - unfold set_ro, readonly. rewrite on_queue_nth. destruct (Nat.eqb_spec q q0) as [->|]; auto.
    destruct (nth_error (qs s) q0) eqn:E; [reflexivity|]. apply nth_error_None in E. lia.
  - unfold new_command. destruct (mk_command _ _ _ _ _) as [c|]; [|reflexivity].
    rewrite push_eq. destruct (readonly _ q0) eqn:Er; [reflexivity|].
    unfold readonly in *. rewrite on_queue_nth. cbn [qs] in *.
    destruct (Nat.eqb_spec q q0) as [->|]; auto. destruct (nth_error (qs s) q0); cbn in *; auto.
  - now apply complete_effect.
Qed.
Lemma names_existing_snoc h e : names_existing (h ++ [e])%list ->
  names_existing h /\ match e with ERo q _ => q < length (qs (history h)) | _ => True end.
Proof.
  intros H. split.
  - intros past e0 rest E. apply (H past e0 (rest ++ [e])%list). subst. now rewrite <- app_assoc.
  - exact (H h e [] eq_refl).
Qed.
Lemma ro_history h q : names_existing h -> readonly (history h) q = last_ro q false h.
Proof.
  induction h as [|e h IH] using rev_ind; intros Hn; [now destruct q|].
  apply names_existing_snoc in Hn as [Hn He].
  rewrite history_snoc, step_readonly, last_ro_snoc by (auto using wf_history). destruct e; rewrite ?IH; auto.
Qed.

Lemma log_from_snoc q h e : forall past acc,
  log_from q past (h ++ [e])%list acc =
  let acc1 := log_from q past h acc in
  match e with
  | EEmpty q' => if Nat.eqb q q' then [] else acc1
  | _ => match appended q (past ++ h)%list e with Some c => (acc1 ++ [c])%list | None => acc1 end
  end.
Proof.
  induction h as [|e0 h IH]; intros past acc; cbn [app log_from].
  - rewrite app_nil_r. destruct e; reflexivity.
  - rewrite IH. cbn zeta. rewrite <- app_assoc. reflexivity.
Qed.

(** C14 *)
Lemma commands_log h q : names_existing h -> commands (history h) q = log q h.
Proof.
  induction h as [|e h IH] using rev_ind; intros Hn; [now destruct q|].
  apply names_existing_snoc in Hn as [Hn He].
  unfold log. rewrite log_from_snoc. fold (log q h). cbn zeta. rewrite <- (IH Hn). cbn [app].
  rewrite history_snoc. pose proof (wf_history h) as Hwf.
  destruct e; cbn [step appended].
  - apply extends_commands. now apply get_queue_spec.
  - unfold empty, commands. rewrite on_queue_nth. destruct (Nat.eqb_spec q q0) as [->|]; auto.
    destruct (nth_error _ q0); reflexivity.
  - now apply commands_on_queue.
  - reflexivity.
  - unfold new_command, mk_command. destruct (dmem p "id"); rewrite ?andb_false_r; cbn [andb]; [|reflexivity].
    rewrite !andb_true_r. rewrite push_eq. set (s2 := mkSys _ _ _ _ _).
    change (readonly s2 q0) with (readonly (history h) q0). rewrite ro_history by assumption.
    destruct (Nat.eqb_spec q0 q) as [->|Hne]; cbn [andb].
    + destruct (last_ro q false h) eqn:Er; cbn [negb]; rewrite ?andb_false_r, ?andb_true_r; [reflexivity|].
      unfold commands. rewrite on_queue_nth, Nat.eqb_refl. change (qs s2) with (qs (history h)).
      destruct (Nat.ltb_spec q (length (qs (history h)))) as [Hl|Hl].
      * destruct (nth_error (qs (history h)) q) eqn:En; [reflexivity|]. apply nth_error_None in En. lia.
      * assert (nth_error (qs (history h)) q = None) as -> by now apply nth_error_None. reflexivity.
    + destruct (last_ro q0 false h); [reflexivity|]. unfold commands. rewrite on_queue_nth.
      assert (Nat.eqb q q0 = false) as -> by (apply Nat.eqb_neq; auto). reflexivity.
  - destruct (complete_effect (history h) k Hwf) as (_ & _ & _ & _ & Hc & _). rewrite Hc.
    unfold log_entry. fold (active_after h). rewrite rec_history, ro_history by assumption.
    destruct (loggable k); [|apply app_nil_r].
    destruct (last_rec true h && Nat.eqb (active_after h) q && negb (last_ro q false h)); auto using app_nil_r.
Qed.

Lemma increasing_mono n m l : (n <= m)%Z -> increasing_upto n l -> increasing_upto m l.
Proof. intros H [H1 H2]. split; auto. intros c Hc. apply H1 in Hc. lia. Qed.
Lemma increasing_snoc n l c : increasing_upto n l -> c_id c = (1 + n)%Z -> increasing_upto (1 + n) (l ++ [c])%list.
Proof.
  intros [H1 H2] Hc. split.
  - intros c' H. apply in_app_or in H as [H|[<-|[]]]; [apply H1 in H; lia | lia].
  - intros l1 c1 l2 c2 l3 E.
    destruct l3 as [|x l3] using rev_ind; [|clear IHl3].
    + assert (E' : (l ++ [c] = (l1 ++ c1 :: l2) ++ [c2])%list) by (rewrite E, <- app_assoc; reflexivity).
      apply app_inj_tail in E' as [-> <-].
      assert (c_id c1 <= n)%Z by (apply H1, in_or_app; right; now left). lia.
    + assert (E' : (l ++ [c] = (l1 ++ c1 :: l2 ++ c2 :: l3) ++ [x])%list).
      { rewrite E. rewrite <- !app_assoc. cbn. rewrite <- app_assoc. reflexivity. }
      apply app_inj_tail in E' as [-> _]. eapply H2; reflexivity.
Qed.
Lemma increasing_nil n : increasing_upto n [].
Proof. split; [intros c []|]. intros l1 c1 l2 c2 l3 E. destruct l1; discriminate. Qed.

Lemma step_increasing s e q : wf s ->
  increasing_upto (cids s) (commands s q) ->
  increasing_upto (cids (step s e)) (commands (step s e) q).
Proof.
  intros Hwf H. destruct e; cbn [step].
  - destruct (get_queue_spec s name Hwf) as (He & _). rewrite (extends_commands _ _ q He).
    destruct He as (_ & _ & ->). exact H.
  - unfold empty. destruct (on_queue_rest s q0 (fun x => mkQ (q_name x) (q_ro x) [])) as (_ & _ & _ & ->).
    unfold commands in *. rewrite on_queue_nth. destruct (Nat.eqb_spec q q0) as [->|]; auto.
    destruct (nth_error (qs s) q0); apply increasing_nil.
  - unfold set_ro. rewrite commands_on_queue by reflexivity.
    destruct (on_queue_rest s q0 (fun x => mkQ (q_name x) b (q_cmds x))) as (_ & _ & _ & ->). exact H.
  - exact H.
  - unfold new_command. set (s2 := mkSys _ _ _ _ _).
    assert (Hs2 : increasing_upto (cids s2) (commands s2 q)) by (eapply increasing_mono; [|exact H]; cbn [cids s2]; lia).
    unfold mk_command. destruct (dmem p "id"); [|exact Hs2].
    rewrite push_eq. destruct (readonly s2 q0); [exact Hs2|].
    match goal with |- context [on_queue s2 q0 ?f] => destruct (on_queue_rest s2 q0 f) as (_ & _ & _ & ->); set (g := f) end.
    unfold commands in *. rewrite on_queue_nth. change (qs s2) with (qs s) in *. change (cids s2) with (1 + cids s)%Z in *.
    destruct (Nat.eqb_spec q q0) as [->|]; auto.
    destruct (nth_error (qs s) q0) as [x|] eqn:Ex; [|apply increasing_nil]. cbn.
    apply increasing_snoc; auto.
  - destruct (complete_effect s k Hwf) as (_ & _ & _ & _ & Hc & Hcid & Hnil & _). rewrite Hc.
    destruct Hcid as [Hcid|Hcid].
    + rewrite (Hnil Hcid), app_nil_r, Hcid. exact H.
    + rewrite Hcid. unfold log_entry. destruct (loggable k); [|rewrite app_nil_r; eapply increasing_mono; [|exact H]; lia].
      destruct (rec s && _ && _); [now apply increasing_snoc|].
      rewrite app_nil_r. eapply increasing_mono; [|exact H]; lia.
Qed.
Lemma increasing_history h q : increasing_upto (cids (history h)) (commands (history h) q).
Proof.
  induction h as [|e h IH] using rev_ind; [destruct q; apply increasing_nil|].
  rewrite history_snoc. apply step_increasing; auto using wf_history.
Qed.

(** C13 *)
Lemma complete_off s k : rec s = false -> complete s k = (s, undecorated k).
Proof. intros H. unfold complete. rewrite H. destruct (undecorated k); reflexivity. Qed.
Lemma run_calls_off s l : rec s = false -> run_calls s l = s.
Proof.
  intros H. induction l as [|k l IH]; cbn [run_calls fold_left]; auto.
  rewrite complete_off by assumption. exact IH.
Qed.
Lemma complete_result s k : rec s = true ->
  snd (complete s k) = match undecorated k with
                       | Err e => Err e
                       | Ok r => match call_params k with Ok _ => Ok r | Err e => Err e end end.
Proof.
  intros H. unfold complete. rewrite H. cbn [negb]. destruct (undecorated k); auto.
  destruct (get_queue s None) as [s1 q]. destruct (call_params k) as [p|] eqn:Ep; auto.
  destruct (negb (k_nocmd k) && negb (readonly s1 q)); auto.
  unfold new_command, mk_command. rewrite (call_params_id k p Ep). reflexivity.
Qed.
Lemma no_command_unrecorded s k : wf s -> k_nocmd k = true ->
  forall q, commands (fst (complete s k)) q = commands s q.
Proof.
  intros Hwf Hk q. destruct (complete_effect s k Hwf) as (_ & _ & _ & _ & Hc & _). rewrite Hc.
  unfold log_entry, loggable. rewrite Hk. destruct (undecorated k), (call_params k); apply app_nil_r.
Qed.

(** C15 *)
Definition touches (q : qid) (e : event) : bool :=
  match e with ERo q' _ | EEmpty q' => Nat.eqb q q' | _ => false end.
Lemma readonly_step s e q : wf s -> readonly s q = true -> touches q e = false ->
  commands (step s e) q = commands s q /\ readonly (step s e) q = true.
Proof.
  intros Hwf Hro Ht. destruct e; cbn [step touches] in *.
  - destruct (get_queue_spec s name Hwf) as (He & _).
    rewrite (extends_commands _ _ q He), (extends_readonly _ _ q He). auto.
  - unfold empty, commands, readonly in *. rewrite on_queue_nth, Ht. auto.
  - unfold set_ro, commands, readonly in *. rewrite on_queue_nth, Ht. auto.
  - auto.
  - unfold new_command. set (s2 := mkSys _ _ _ _ _). destruct (mk_command _ _ _ _ _) as [c|]; [|auto].
    rewrite push_eq. destruct (readonly s2 q0) eqn:Er; [auto|].
    assert (Hne : q <> q0). { intros ->. change (readonly s q0 = false) in Er. congruence. }
    unfold commands, readonly in *. rewrite on_queue_nth.
    assert (Nat.eqb q q0 = false) as -> by now apply Nat.eqb_neq. auto.
  - destruct (complete_effect s k Hwf) as (_ & _ & _ & Hr & Hc & _). rewrite Hr, Hc. split; auto.
    unfold log_entry. destruct (loggable k); [|apply app_nil_r]. rewrite Hro. cbn [negb].
    rewrite andb_false_r. apply app_nil_r.
Qed.
Lemma readonly_frame h h' q :
  readonly (history h) q = true -> (forall e, In e h' -> touches q e = false) ->
  commands (history (h ++ h')) q = commands (history h) q /\ readonly (history (h ++ h')) q = true.
Proof.
  revert h; induction h' as [|e h' IH]; intros h Hro Ht; [rewrite app_nil_r; auto|].
  replace (h ++ e :: h')%list with ((h ++ [e]) ++ h')%list by (rewrite <- app_assoc; reflexivity).
  destruct (readonly_step (history h) e q (wf_history h) Hro (Ht e (or_introl eq_refl))) as [Hc Hr].
  rewrite <- history_snoc in Hc, Hr.
  destruct (IH (h ++ [e])%list Hr) as [H1 H2]; [intros e' He; apply Ht; now right|]. split; auto. congruence.
Qed.
Lemma push_refused s q c : readonly s q = true -> push s q c = (s, false).
Proof. unfold readonly, push. destruct (nth_error (qs s) q) as [x|]; [|discriminate]. now intros ->. Qed.
Lemma push_accepted s q c : q < length (qs s) -> readonly s q = false ->
  snd (push s q c) = true /\ commands (fst (push s q c)) q = (commands s q ++ [c])%list /\
  forall q', q' <> q -> commands (fst (push s q c)) q' = commands s q'.
Proof.
  intros Hl Hr. split; [|split].
  - unfold push, readonly in *. destruct (nth_error (qs s) q) as [x|] eqn:E; [now rewrite Hr|].
    apply nth_error_None in E. lia.
  - rewrite push_eq, Hr. unfold commands. rewrite on_queue_nth, Nat.eqb_refl.
    destruct (nth_error (qs s) q) as [x|] eqn:E; [reflexivity|]. apply nth_error_None in E. lia.
  - intros q' Hne. rewrite push_eq, Hr. unfold commands. rewrite on_queue_nth.
    apply Nat.eqb_neq in Hne. now rewrite Hne.
Qed.

(** ** C18 *)
Lemma get_inst s n m : wf s -> m <> "active" ->
  dget (inst (fst (get_queue s n))) m =
  match dget (inst s) m with
  | Some q => Some q
  | None => if match n with Some n => eqb n m | None => false end then Some (length (qs s)) else None
  end.
Proof.
  intros Hwf Hm. destruct n as [n|].
  2: { destruct (get_active_spec s Hwf) as (_ & -> & _). now destruct (dget (inst s) m). }
  unfold get_queue. destruct (String.eqb_spec n "active") as [->|Hn].
  { change (match active s with Some q => (s, q) | None => new_queue s "default" end) with (get_queue s None).
    destruct (get_active_spec s Hwf) as (_ & -> & _).
    assert (eqb "active" m = false) as -> by (apply eqb_neq; congruence). now destruct (dget (inst s) m). }
  destruct (dget (inst s) n) as [q|] eqn:E; cbn [fst].
  - destruct (dget (inst s) m) eqn:Em; auto. destruct (eqb_spec n m) as [->|]; [congruence|auto].
  - destruct (new_queue s n) as [s1 q] eqn:En. cbn [fst inst].
    destruct (new_queue_spec _ _ _ _ En) as (-> & _ & -> & _). rewrite dget_dset.
    destruct (eqb_spec m n) as [->|Hne]; [rewrite E, eqb_refl; auto|].
    assert (eqb n m = false) as -> by (apply eqb_neq; congruence). now destruct (dget (inst s) m).
Qed.
Lemma step_inst_mono s e n q : wf s -> dget (inst s) n = Some q -> dget (inst (step s e)) n = Some q.
Proof.
  intros Hwf H. destruct e; cbn [step]; auto.
  - assert (n <> "active") by (intros ->; destruct Hwf as (_ & _ & _ & Hn); congruence).
    rewrite get_inst by assumption. now rewrite H.
  - destruct (on_queue_rest s q0 (fun x => mkQ (q_name x) (q_ro x) [])) as (E & _). unfold empty. now rewrite E.
  - destruct (on_queue_rest s q0 (fun x => mkQ (q_name x) b (q_cmds x))) as (E & _). unfold set_ro. now rewrite E.
  - unfold new_command. destruct (mk_command _ _ _ _ _) as [c|]; [|exact H].
    rewrite push_eq. destruct (readonly _ q0); [exact H|].
    match goal with |- dget (inst (on_queue ?a ?b ?c)) _ = _ => destruct (on_queue_rest a b c) as (-> & _) end. exact H.
  - destruct (complete_effect s k Hwf) as (_ & _ & -> & _). exact H.
Qed.
Lemma inst_mono h h' n q : dget (inst (history h)) n = Some q -> dget (inst (history (h ++ h'))) n = Some q.
Proof.
  induction h' as [|e h' IH] using rev_ind; intros H; [now rewrite app_nil_r|].
  rewrite app_assoc, history_snoc. apply step_inst_mono; auto using wf_history.
Qed.
Lemma ask_named s n : wf s -> n <> "active" -> dget (inst (fst (get_queue s (Some n)))) n = Some (ask s (Some n)).
Proof.
  intros Hwf Hn. rewrite get_inst by assumption. unfold ask, get_queue.
  apply String.eqb_neq in Hn. rewrite Hn. destruct (dget (inst s) n) as [q|]; auto.
  rewrite eqb_refl. destruct (new_queue s n) as [s1 q] eqn:En. cbn.
  destruct (new_queue_spec _ _ _ _ En) as (-> & _). reflexivity.
Qed.
Lemma ask_existing s n q : n <> "active" -> dget (inst s) n = Some q -> get_queue s (Some n) = (s, q).
Proof. intros Hn H. unfold get_queue. apply String.eqb_neq in Hn. now rewrite Hn, H. Qed.

Lemma same_name h h' n : n <> "active" ->
  get_queue (history (h ++ EGet (Some n) :: h')) (Some n) =
  (history (h ++ EGet (Some n) :: h'), ask (history h) (Some n)).
Proof.
  intros Hn. apply ask_existing; auto.
  replace (h ++ EGet (Some n) :: h')%list with ((h ++ [EGet (Some n)]) ++ h')%list by (rewrite <- app_assoc; reflexivity).
  apply inst_mono. rewrite history_snoc. apply ask_named; auto using wf_history.
Qed.
Lemma different_names h h' n1 n2 : n1 <> "active" -> n2 <> "active" -> n1 <> n2 ->
  ask (history h) (Some n1) <> ask (history (h ++ EGet (Some n1) :: h')) (Some n2).
Proof.
  intros H1 H2 Hne E. set (h2 := (h ++ EGet (Some n1) :: h')%list) in *.
  assert (G1 : dget (inst (fst (get_queue (history h2) (Some n2)))) n1 = Some (ask (history h) (Some n1))).
  { assert (dget (inst (history h2)) n1 = Some (ask (history h) (Some n1))).
    { pose proof (same_name h h' n1 H1) as Hs. fold h2 in Hs.
      pose proof (ask_named (history h2) n1 (wf_history h2) H1) as Hn. unfold ask in Hn at 1. rewrite Hs in Hn. exact Hn. }
    rewrite get_inst by auto using wf_history. now rewrite H. }
  pose proof (ask_named (history h2) n2 (wf_history h2) H2) as G2.
  destruct (get_queue_spec (history h2) (Some n2) (wf_history h2)) as (_ & (_ & _ & Hinj & _) & _).
  apply Hne. eapply Hinj; [exact G1|]. rewrite G2. congruence.
Qed.
Lemma active_is_latest h n : n = None \/ n = Some "active" ->
  ask (history h) n = pred (length (qs (history h))) /\
  (qs (history h) <> [] -> fst (get_queue (history h) n) = history h).
Proof.
  intros Hn. assert (E : get_queue (history h) n = get_queue (history h) None) by (destruct Hn as [->| ->]; reflexivity).
  unfold ask. rewrite E. destruct (wf_history h) as (Ha & _). unfold get_queue. rewrite Ha.
  destruct (qs (history h)) as [|x l] eqn:Eq; cbn; auto. unfold new_queue; cbn. rewrite Eq. cbn. split; auto. congruence.
Qed.

(** ** Running *)
Lemma run_calls_effect l : forall s q, wf s ->
  let s' := run_calls s l in
  wf s' /\ rec s' = rec s /\ (forall q, readonly s' q = readonly s q) /\
  (readonly s q = true -> commands s' q = commands s q).
Proof.
  induction l as [|k l IH]; intros s q Hwf; cbn [run_calls fold_left]; auto.
  destruct (complete_effect s k Hwf) as (Hw & Hr & _ & Hro & Hc & _).
  destruct (IH (fst (complete s k)) q Hw) as (H1 & H2 & H3 & H4).
  split; [exact H1|]. split; [unfold run_calls in H2; congruence|]. split.
  - intros q'. unfold run_calls in H3. now rewrite H3.
  - intros Hq. unfold run_calls in H4. rewrite H4 by now rewrite Hro. rewrite Hc.
    unfold log_entry. destruct (loggable k); [|apply app_nil_r]. rewrite Hq. cbn [negb].
    rewrite andb_false_r. apply app_nil_r.
Qed.
Lemma run_calls_others s l q : wf s -> active s <> None ->
  active s <> Some q -> commands (run_calls s l) q = commands s q.
Proof.
  revert s; induction l as [|k l IH]; intros s Hwf Ha Hq; cbn [run_calls fold_left]; auto.
  destruct (complete_effect s k Hwf) as (Hw & Hr & _ & Hro & Hc & _ & _ & _ & Hlen).
  assert (Hae : active (fst (complete s k)) = active s).
  { destruct Hw as (Hw & _). destruct Hwf as (Hwf & _). rewrite Hw, Hwf, Hlen by assumption. reflexivity. }
  fold (run_calls (fst (complete s k)) l). rewrite IH by (auto; now rewrite Hae).
  rewrite Hc. unfold log_entry. destruct (loggable k); [|apply app_nil_r].
  unfold cur. destruct (active s) as [a|]; [|congruence]. assert (Nat.eqb a q = false) as -> by (apply Nat.eqb_neq; congruence).
  rewrite andb_false_r. apply app_nil_r.
Qed.
Lemma run_calls_active s l : wf s -> active s <> None -> active (run_calls s l) = active s.
Proof.
  revert s; induction l as [|k l IH]; intros s Hwf Ha; cbn [run_calls fold_left]; auto.
  destruct (complete_effect s k Hwf) as (Hw & Hr & _ & Hro & Hc & _ & _ & _ & Hlen).
  assert (Hae : active (fst (complete s k)) = active s).
  { destruct Hw as (Hw & _). destruct Hwf as (Hwf & _). rewrite Hw, Hwf, Hlen by assumption. reflexivity. }
  fold (run_calls (fst (complete s k)) l). rewrite IH; auto. congruence.
Qed.

Section RunFacts.
  Context {W : Type} (beh : command -> W -> W * list call * res unit).

  Lemma run_loop_effect cmds : forall s w s' w' o q,
    wf s -> run_loop beh s w cmds = (s', w', o) ->
    wf s' /\ rec s' = rec s /\ (forall q, readonly s' q = readonly s q) /\
    (readonly s q = true -> commands s' q = commands s q) /\
    (rec s = false -> s' = s) /\
    (active s <> None -> active s' = active s /\ (active s <> Some q -> commands s' q = commands s q)).
  Proof.
    induction cmds as [|c cmds IH]; intros s w s' w' o q Hwf H; cbn [run_loop] in H.
    - injection H as <- _ _. auto 10.
    - destruct (beh c w) as [[w1 calls] o1].
      destruct (run_calls_effect calls s q Hwf) as (H1 & H2 & H3 & H4).
      assert (H5 : rec s = false -> run_calls s calls = s) by apply run_calls_off.
      assert (H6 : active s <> None -> active (run_calls s calls) = active s) by now apply run_calls_active.
      assert (H7 : active s <> None -> active s <> Some q -> commands (run_calls s calls) q = commands s q)
        by now apply run_calls_others.
      destruct o1 as [u|e].
      + destruct (IH _ _ _ _ _ q H1 H) as (G1 & G2 & G3 & G4 & G5 & G6).
        split; [exact G1|]. split; [congruence|]. split; [intros q'; now rewrite G3|].
        split; [intros Hq; rewrite G4 by (now rewrite H3); auto|].
        split; [intros Hr; rewrite G5 by congruence; auto|].
        intros Ha. rewrite H6 in G6 by assumption. destruct (G6 Ha) as [G7 G8].
        split; [congruence|]. intros Hq. rewrite G8 by assumption. auto.
      + injection H as <- _ _. auto 10.
  Qed.

  (** What running a list of commands must do, independently of queues. *)
  Inductive executes : W -> list command -> W -> res unit -> Prop :=
  | ex_done w : executes w [] w (Ok tt)
  | ex_step w c r w1 calls w2 o :
      beh c w = (w1, calls, Ok tt) -> executes w1 r w2 o -> executes w (c :: r) w2 o
  | ex_fail w c r w1 calls e :
      beh c w = (w1, calls, Err e) -> executes w (c :: r) w1 (Err e).
  Lemma run_loop_executes cmds : forall s w s' w' o,
    run_loop beh s w cmds = (s', w', o) -> executes w cmds w' o.
  Proof.
    induction cmds as [|c cmds IH]; intros s w s' w' o H; cbn [run_loop] in H.
    - injection H as _ <- <-. constructor.
    - destruct (beh c w) as [[w1 calls] [[]|e]] eqn:E.
      + eapply ex_step; eauto.
      + injection H as _ <- <-. eapply ex_fail; eauto.
  Qed.

  Lemma set_ro_readonly s q b q' : q < length (qs s) ->
    readonly (set_ro s q b) q' = if Nat.eqb q' q then b else readonly s q'.
  Proof.
    intros Hl. unfold set_ro, readonly. rewrite on_queue_nth. destruct (Nat.eqb_spec q' q) as [->|]; auto.
    destruct (nth_error (qs s) q) eqn:E; [reflexivity|]. apply nth_error_None in E. lia.
  Qed.
  Lemma wf_len_loop s w cmds s' w' o : wf s -> run_loop beh s w cmds = (s', w', o) ->
    length (qs s) <= length (qs s').
  Proof.
    revert s w; induction cmds as [|c cmds IH]; intros s w Hwf H; cbn [run_loop] in H.
    - injection H as <- _ _. auto.
    - destruct (beh c w) as [[w1 calls] o1].
      assert (Hl : length (qs s) <= length (qs (run_calls s calls)) /\ wf (run_calls s calls)).
      { clear H. revert s Hwf. induction calls as [|k calls IHc]; intros s Hwf; cbn [run_calls fold_left]; auto.
        destruct (complete_effect s k Hwf) as (Hw & _ & _ & _ & _ & _ & _ & Hl & _).
        destruct (IHc _ Hw) as [H1 H2]. unfold run_calls in *. split; [lia | auto]. }
      destruct o1; [apply IH in H; [lia | tauto] | injection H as <- _ _; tauto].
  Qed.

  Lemma run_queue_spec h w q s' w' o :
    let s := history h in
    q < length (qs s) -> run_queue beh s w q = (s', w', o) ->
    executes w (commands s q) w' o /\
    commands s' q = commands s q /\
    (o = Ok tt -> forall q', readonly s' q' = readonly s q') /\
    (forall e, o = Err e -> readonly s' q = true) /\
    (active s = Some q \/ rec s = false -> forall q', commands s' q' = commands s q').
  Proof.
    intros s Hl H. unfold run_queue in H.
    destruct (nth_error (qs s) q) as [x|] eqn:Ex; [|apply nth_error_None in Ex; lia].
    destruct (run_loop beh (set_ro s q true) w (q_cmds x)) as [[s1 w1] o1] eqn:E.
    assert (Hwf : wf (set_ro s q true)) by (apply wf_on_queue, wf_history).
    assert (Hcm : commands s q = q_cmds x) by (unfold commands; now rewrite Ex).
    assert (Hrx : readonly s q = q_ro x) by (unfold readonly; now rewrite Ex).
    pose proof (run_loop_executes _ _ _ _ _ _ E) as Hexec.
    pose proof (wf_len_loop _ _ _ _ _ _ Hwf E) as Hlen. unfold set_ro in Hlen at 1. rewrite on_queue_len in Hlen.
    assert (Hroq : readonly (set_ro s q true) q = true) by (rewrite set_ro_readonly by assumption; now rewrite Nat.eqb_refl).
    destruct (run_loop_effect _ _ _ _ _ _ q Hwf E) as (G1 & G2 & G3 & G4 & _ & _).
    assert (Hc0 : forall q', commands (set_ro s q true) q' = commands s q') by (intros q'; now apply commands_on_queue).
    assert (Hac : active (set_ro s q true) = active s) by apply on_queue_rest.
    assert (Hre : rec (set_ro s q true) = rec s) by apply on_queue_rest.
    assert (Hothers : active s = Some q \/ rec s = false -> forall q', commands s1 q' = commands s q').
    { intros [Ha|Hr] q'.
      - destruct (Nat.eq_dec q' q) as [->|Hne]; [rewrite G4 by assumption; auto|].
        destruct (run_loop_effect _ _ _ _ _ _ q' Hwf E) as (_ & _ & _ & _ & _ & G6).
        rewrite Hac, Ha in G6. destruct G6 as [_ G6]; [discriminate|]. rewrite G6 by congruence. auto.
      - destruct (run_loop_effect _ _ _ _ _ _ q' Hwf E) as (_ & _ & _ & _ & G5 & _).
        rewrite G5 by congruence. auto. }
    destruct o1 as [u|e]; injection H as <- <- <-.
    - destruct u. rewrite Hcm. split; [exact Hexec|].
      split; [unfold set_ro; rewrite commands_on_queue by reflexivity; rewrite G4, Hc0 by assumption; auto|].
      split; [|split; [discriminate|]].
      + intros _ q'. rewrite set_ro_readonly by lia. destruct (Nat.eqb_spec q' q) as [->|Hne]; auto.
        rewrite G3, set_ro_readonly by assumption. apply Nat.eqb_neq in Hne. now rewrite Hne.
      + intros Hc q'. unfold set_ro. rewrite commands_on_queue by reflexivity. auto.
    - rewrite Hcm. split; [exact Hexec|]. split; [rewrite G4, Hc0 by assumption; auto|].
      split; [discriminate|]. split; [|auto]. intros e0 He. rewrite G3. exact Hroq.
  Qed.
End RunFacts.

(** ** Witnesses *)
Definition E1 : cenv := mkE (fun c => [c; "object"]) (fun _ => "object") (fun _ => ["object"]).
Definition simple_call (id : Z) (m : string) : call :=
  mkK E1 [] Z.of_nat id "Foo" m (mkS [] []) [] [] false (Ok VNone).
Definition ex_history : list event :=
  [EGet (Some "first"); ECall (simple_call 1 "a"); EGet (Some "second"); ECall (simple_call 2 "b")].

Lemma run_records_elsewhere_witness :
  exists h q q' (beh : command -> unit -> unit * list call * res unit) s',
    q <> q' /\ run_queue beh (history h) tt q = (s', tt, Ok tt) /\
    commands s' q' <> commands (history h) q'.
Proof.
  exists ex_history, 0, 1, (fun _ _ => (tt, [simple_call 9 "c"], Ok tt)). eexists.
  split; [discriminate|]. split; [reflexivity|]. cbn. discriminate.
Qed.
Lemma run_error_flag_witness :
  exists h q (beh : command -> unit -> unit * list call * res unit) s' e,
    q < length (qs (history h)) /\ run_queue beh (history h) tt q = (s', tt, Err e) /\
    readonly (history h) q = false /\ readonly s' q = true.
Proof.
  exists ex_history, 1, (fun _ _ => (tt, [], Err KeyError)). do 2 eexists.
  split; [cbn; lia|]. split; [reflexivity|]. split; reflexivity.
Qed.
Lemma implicit_default_witness :
  exists h, let s := history h in
    q_name (nth (ask s None) (qs s) (mkQ "" false [])) = "default" /\
    ask s None <> ask s (Some "default").
Proof. exists [ECall (simple_call 1 "a")]. cbn. split; [reflexivity | discriminate]. Qed.
