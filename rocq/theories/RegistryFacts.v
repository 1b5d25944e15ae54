(** Proofs about Registry.v. *)
From Coq Require Import FinFun.
From Verif Require Import Base Registry RegistrySpec.
Open Scope Z_scope.

(** ** Drawn identifiers *)
Lemma counter_create s : counter (fst (create s)) = counter s + 1.
Proof. reflexivity. Qed.
Lemma recording_create s : recording (fst (create s)) = recording s.
Proof. reflexivity. Qed.
Lemma counter_create_n n s : counter (create_n n s) = counter s + Z.of_nat n.
Proof.
  revert s; induction n as [|n IH]; intros s; cbn [create_n]; [lia|].
  rewrite IH, counter_create; lia.
Qed.
Lemma recording_create_n n s : recording (create_n n s) = recording s.
Proof. revert s; induction n as [|n IH]; intros s; cbn [create_n]; auto. now rewrite IH. Qed.
Lemma heap_create_n n s :
  heap (create_n n s) = heap s ++ map (fun i => counter s + 1 + Z.of_nat i) (seq 0 n).
Proof.
  revert s; induction n as [|n IH]; intros s; cbn [create_n seq map]; [now rewrite app_nil_r|].
  rewrite IH. unfold create; cbn [fst heap counter]. rewrite <- app_assoc. cbn [app].
  do 2 f_equal; [lia|].
  rewrite <- seq_shift, map_map. apply map_ext; intros i; lia.
Qed.
Lemma set_id_counter s r n : counter (set_id s r n) = counter s.
Proof. unfold set_id; destruct (nth_error _ _); auto. Qed.
Lemma set_id_recording s r n : recording (set_id s r n) = recording s.
Proof. unfold set_id; destruct (nth_error _ _); auto. Qed.
Lemma set_id_heap_length s r n : List.length (heap (set_id s r n)) = List.length (heap s).
Proof. unfold set_id; destruct (nth_error _ _); cbn; auto. apply upd_length. Qed.

Lemma drawn_n_spec n s :
  drawn_n n s = map (fun i => counter s + 1 + Z.of_nat i) (seq 0 n).
Proof.
  revert s; induction n as [|n IH]; intros s; cbn [drawn_n seq map]; auto.
  rewrite IH, counter_create. cbn [create snd].
  f_equal; [lia|]. rewrite <- seq_shift, map_map. apply map_ext; intros i; lia.
Qed.

Lemma drawn1_spec s o :
  drawn1 s o = map (fun i => counter s + 1 + Z.of_nat i) (seq 0 (creations o)).
Proof. destruct o; cbn [drawn1 creations]; try reflexivity; apply drawn_n_spec. Qed.
Lemma counter_step s o :
  is_mkdocs o = false -> counter (rstep s o) = counter s + Z.of_nat (creations o).
Proof.
  destruct o; cbn [is_mkdocs rstep creations counter]; intros H; try lia; try congruence.
  - rewrite counter_create; lia.
  - rewrite set_id_counter; lia.
  - unfold replay. destruct (create (create_n pre s)) as [s2 [r id]] eqn:E.
    cbn [fst counter]. rewrite set_id_counter, counter_create_n.
    assert (counter s2 = counter (create_n pre s) + 1) as ->
      by (rewrite <- counter_create, E; reflexivity).
    rewrite counter_create_n. lia.
Qed.

Lemma map_seq_shift (c : Z) a n :
  map (fun i => c + Z.of_nat i) (seq a n) = map (fun i => c + Z.of_nat a + Z.of_nat i) (seq 0 n).
Proof.
  revert a c; induction n as [|n IH]; intros a c; cbn [seq map]; auto.
  rewrite IH. rewrite (IH 1%nat). f_equal; [lia|]. apply map_ext; intros i; lia.
Qed.

Lemma drawn_spec s ops :
  forallb (fun o => negb (is_mkdocs o)) ops = true ->
  drawn s ops =
  map (fun i => counter s + 1 + Z.of_nat i) (seq 0 (list_sum (map creations ops))).
Proof.
  revert s; induction ops as [|o ops IH]; intros s H; cbn [drawn map list_sum fold_right]; auto.
  cbn [forallb] in H. apply andb_true_iff in H as [H1 H2]. apply negb_true_iff in H1.
  rewrite IH, drawn1_spec, counter_step by assumption.
  change (fold_right Init.Nat.add 0%nat (map creations ops)) with (list_sum (map creations ops)).
  rewrite seq_app, map_app. f_equal. cbn [plus]. rewrite (map_seq_shift _ (creations o)).
  apply map_ext; intros i; lia.
Qed.

Lemma drawn_nodup s ops :
  forallb (fun o => negb (is_mkdocs o)) ops = true -> NoDup (drawn s ops).
Proof.
  intros H. rewrite drawn_spec by assumption.
  apply Injective_map_NoDup; [intros a b E; lia | apply seq_NoDup].
Qed.

(** ** Coherence *)
Lemma coherent_init : coherent rinit.
Proof. intros k r H; discriminate. Qed.

Lemma nth_error_snoc_old {A} (l : list A) x i y :
  nth_error l i = Some y -> nth_error (l ++ [x]) i = Some y.
Proof. intros H. rewrite nth_error_app1; auto. apply nth_error_Some; congruence. Qed.
Lemma nth_error_snoc_new {A} (l : list A) x : nth_error (l ++ [x]) (List.length l) = Some x.
Proof. rewrite nth_error_app2 by lia. now rewrite Nat.sub_diag. Qed.

Lemma coherent_create s : coherent s -> coherent (fst (create s)).
Proof.
  intros H k r. unfold lookup, id_of, create; cbn [fst objects heap].
  destruct (recording s).
  - rewrite dget_dset. destruct (eqb_spec k (1 + counter s)) as [->|].
    + intros E; injection E as <-. apply nth_error_snoc_new.
    + intros E. apply nth_error_snoc_old, H, E.
  - intros E. apply nth_error_snoc_old, H, E.
Qed.
Lemma coherent_create_n n s : coherent s -> coherent (create_n n s).
Proof. revert s; induction n as [|n IH]; intros s H; cbn; auto. apply IH, coherent_create, H. Qed.

Lemma coherent_set_id s r n : coherent s -> coherent (set_id s r n).
Proof.
  intros H k q. unfold lookup, id_of, set_id.
  destruct (nth_error (heap s) r) as [old|] eqn:Er; [|apply H].
  cbn [objects heap]. rewrite nth_error_upd.
  destruct (dmem (objects s) old) eqn:Em.
  - rewrite dget_dset. destruct (eqb_spec k n) as [->|Hk].
    + intros E; injection E as <-. now rewrite Nat.eqb_refl, Er.
    + rewrite dget_ddel. destruct (eqb_spec k old) as [->|Hold]; [congruence|].
      intros E. pose proof (H _ _ E) as Hq. unfold id_of in Hq.
      destruct (Nat.eqb_spec q r) as [->|]; [congruence | exact Hq].
  - intros E. pose proof (H _ _ E) as Hq. unfold id_of in Hq.
    destruct (Nat.eqb_spec q r) as [->|]; [|exact Hq].
    rewrite Er in Hq; injection Hq as ->. unfold dmem in Em. rewrite E in Em. discriminate.
Qed.

Lemma id_of_set_id s r n q :
  id_of (set_id s r n) q =
  if Nat.eqb q r then match id_of s q with Some _ => Some n | None => None end else id_of s q.
Proof.
  unfold id_of, set_id. destruct (nth_error (heap s) r) as [old|] eqn:E.
  - cbn [heap]. apply nth_error_upd.
  - destruct (Nat.eqb_spec q r) as [->|]; auto. now rewrite E.
Qed.

Lemma replay_unfold s pre post oid :
  let s1 := create_n pre s in
  let s3 := create_n post (fst (create s1)) in
  let r := (List.length (heap s) + pre)%nat in
  replay s pre post oid =
  (mkR (counter (set_id s3 r oid)) (recording (set_id s3 r oid))
       (dset (objects (set_id s3 r oid)) oid r) (heap (set_id s3 r oid)), r).
Proof.
  intros s1 s3 r. unfold replay. fold s1.
  destruct (create s1) as [s2 [r' id]] eqn:E.
  assert (r' = r) as ->.
  { unfold create in E. injection E as _ <- _. unfold s1, r.
    rewrite heap_create_n, app_length, map_length, seq_length. reflexivity. }
  cbn [fst] in *. subst s3. reflexivity.
Qed.

Lemma coherent_replay s pre post oid : coherent s -> coherent (fst (replay s pre post oid)).
Proof.
  intros H. pose proof (replay_unfold s pre post oid) as E. cbn zeta in E. rewrite E.
  set (s3 := create_n post (fst (create (create_n pre s)))) in *.
  set (r := (List.length (heap s) + pre)%nat) in *.
  assert (H3 : coherent s3) by (apply coherent_create_n, coherent_create, coherent_create_n, H).
  pose proof (coherent_set_id s3 r oid H3) as H4.
  assert (Hr : id_of s3 r <> None).
  { unfold id_of, s3. apply nth_error_Some.
    rewrite heap_create_n, app_length. cbn [create fst heap].
    rewrite app_length, heap_create_n, app_length, map_length, seq_length. cbn. subst r. lia. }
  intros k q. unfold lookup, id_of; cbn [fst objects heap].
  rewrite dget_dset. destruct (eqb_spec k oid) as [->|Hk].
  - intros E'; injection E' as <-. fold (id_of (set_id s3 r oid) r).
    rewrite id_of_set_id, Nat.eqb_refl. destruct (id_of s3 r); congruence.
  - apply H4.
Qed.

Lemma coherent_step s o : coherent s -> coherent (rstep s o).
Proof.
  intros H. destruct o; cbn [rstep].
  - now apply coherent_create.
  - now apply coherent_set_id.
  - exact H.
  - intros k r E; discriminate.
  - now apply coherent_replay.
  - intros k r E; discriminate.
Qed.
Lemma coherent_run s ops : coherent s -> coherent (rrun s ops).
Proof.
  revert s; induction ops as [|o ops IH]; intros s H; cbn; auto. apply IH, coherent_step, H.
Qed.

Lemma one_id_per_object s ops k1 k2 r :
  coherent s -> lookup (rrun s ops) k1 = Some r -> lookup (rrun s ops) k2 = Some r -> k1 = k2.
Proof.
  intros H H1 H2. pose proof (coherent_run s ops H) as Hc.
  apply Hc in H1. apply Hc in H2. congruence.
Qed.

(** ** Renumbering *)
Lemma lookup_set_id_registered s r old n :
  id_of s r = Some old -> lookup s old <> None ->
  forall k, lookup (set_id s r n) k =
            if Z.eqb k n then Some r else if Z.eqb k old then None else lookup s k.
Proof.
  intros Hid Hl k. unfold lookup, set_id, id_of in *. rewrite Hid. cbn [objects].
  assert (dmem (objects s) old = true) as -> by (unfold dmem; destruct (dget _ _); congruence).
  rewrite dget_dset. change (eqb k n) with (Z.eqb k n).
  destruct (Z.eqb k n); auto. rewrite dget_ddel. reflexivity.
Qed.
Lemma lookup_set_id_unregistered s r old n :
  id_of s r = Some old -> lookup s old = None ->
  forall k, lookup (set_id s r n) k = lookup s k.
Proof.
  intros Hid Hl k. unfold lookup, set_id, id_of in *. rewrite Hid. cbn [objects].
  assert (dmem (objects s) old = false) as -> by (unfold dmem; now rewrite Hl). auto.
Qed.

Lemma rename_moves s r old n :
  coherent s -> lookup s old = Some r ->
  let s' := set_id s r n in
  lookup s' n = Some r /\
  id_of s' r = Some n /\
  (old <> n -> lookup s' old = None) /\
  (forall k, k <> n -> k <> old -> lookup s' k = lookup s k) /\
  (forall q, q <> r -> id_of s' q = id_of s q) /\
  counter s' = counter s /\ recording s' = recording s /\
  (forall q, lookup s n = Some q -> q <> r -> forall k, lookup s' k <> Some q).
Proof.
  intros Hc Hl s'. pose proof (Hc _ _ Hl) as Hid.
  assert (Hlk : forall k, lookup s' k =
            if Z.eqb k n then Some r else if Z.eqb k old then None else lookup s k).
  { apply lookup_set_id_registered; congruence. }
  pose proof (coherent_set_id s r n Hc) as Hc'. fold s' in Hc'.
  repeat split.
  - now rewrite Hlk, Z.eqb_refl.
  - unfold s'. rewrite id_of_set_id, Nat.eqb_refl, Hid. reflexivity.
  - intros Hn. rewrite Hlk, Z.eqb_refl. destruct (Z.eqb_spec old n); congruence.
  - intros k H1 H2. rewrite Hlk.
    destruct (Z.eqb_spec k n); [congruence|]. destruct (Z.eqb_spec k old); congruence.
  - intros q Hq. unfold s'. rewrite id_of_set_id. destruct (Nat.eqb_spec q r); congruence.
  - apply set_id_counter.
  - apply set_id_recording.
  - intros q Hq Hqr k Hk. rewrite Hlk in Hk.
    destruct (Z.eqb_spec k n) as [E1|E1]; [congruence|].
    destruct (Z.eqb_spec k old) as [E2|E2]; [congruence|].
    apply Hc in Hk. apply Hc in Hq. congruence.
Qed.

(** ** Replay *)
Lemma draws_cons a l : draws (a :: l) = (Z.of_nat (fst (fst a)) + 1 + Z.of_nat (snd (fst a))) + draws l.
Proof. destruct a as [[pre post] oid]. unfold draws. cbn [map list_sum fold_right fst snd].
  change (fold_right Init.Nat.add 0%nat) with list_sum. lia. Qed.
Lemma draws_nonneg l : 0 <= draws l.
Proof. unfold draws; lia. Qed.

Lemma objects_create_n n s :
  recording s = true ->
  forall k, lookup (create_n n s) k =
    if (counter s <? k) && (k <=? counter s + Z.of_nat n)
    then Some (List.length (heap s) + Z.to_nat (k - counter s - 1))%nat
    else lookup s k.
Proof.
  revert s; induction n as [|n IH]; intros s Hr k; cbn [create_n].
  - destruct (Z.ltb_spec (counter s) k), (Z.leb_spec k (counter s + Z.of_nat 0)); cbn; auto; lia.
  - rewrite IH by exact Hr. rewrite counter_create.
    assert (List.length (heap (fst (create s))) = S (List.length (heap s))) as ->
      by (cbn; rewrite app_length; cbn; lia).
    assert (lookup (fst (create s)) k =
            if Z.eqb k (1 + counter s) then Some (List.length (heap s)) else lookup s k) as ->.
    { unfold lookup, create; cbn [fst objects]. rewrite Hr, dget_dset. reflexivity. }
    destruct (Z.eqb_spec k (1 + counter s)),
      (Z.ltb_spec (counter s + 1) k), (Z.leb_spec k (counter s + 1 + Z.of_nat n)),
      (Z.ltb_spec (counter s) k), (Z.leb_spec k (counter s + Z.of_nat (S n))); cbn [andb];
      try lia; auto; f_equal; lia.
Qed.

Lemma replay_lookup s pre post oid :
  recording s = true -> 
  forall k, k <> oid ->
  (~ (counter s < k <= counter s + Z.of_nat (pre + 1 + post)) ->
    lookup (fst (replay s pre post oid)) k = lookup s k) /\
  ((counter s < k <= counter s + Z.of_nat (pre + 1 + post)) ->
    forall r, lookup (fst (replay s pre post oid)) k = Some r -> (List.length (heap s) <= r)%nat).
Proof.
  intros Hr k Hk. pose proof (replay_unfold s pre post oid) as E. cbn zeta in E. rewrite E.
  set (s1 := create_n pre s) in *. set (s2 := fst (create s1)) in *.
  set (s3 := create_n post s2) in *. set (r := (List.length (heap s) + pre)%nat) in *.
  assert (Hrr : r = (List.length (heap s) + pre)%nat) by reflexivity.
  assert (Hr1 : recording s1 = true) by (unfold s1; now rewrite recording_create_n).
  assert (Hr2 : recording s2 = true) by exact Hr1.
  assert (Hc1 : counter s1 = counter s + Z.of_nat pre) by apply counter_create_n.
  assert (Hc2 : counter s2 = counter s + Z.of_nat pre + 1) by (unfold s2; rewrite counter_create; lia).
  assert (Hh1 : List.length (heap s1) = r).
  { unfold s1. rewrite heap_create_n, app_length, map_length, seq_length. reflexivity. }
  assert (Hh2 : List.length (heap s2) = S r).
  { unfold s2. cbn. rewrite app_length. cbn. lia. }
  assert (Hl2 : forall k, lookup s2 k = if Z.eqb k (1 + counter s1) then Some r else lookup s1 k).
  { intros k'. unfold s2, lookup, create; cbn [fst objects]. rewrite Hr1, dget_dset, Hh1. reflexivity. }
  assert (Hid : id_of s3 r = Some (1 + counter s1)).
  { unfold id_of, s3. rewrite heap_create_n. rewrite nth_error_app1 by lia.
    unfold s2. cbn. rewrite nth_error_app2 by lia. rewrite Hh1, Nat.sub_diag. reflexivity. }
  pose proof (objects_create_n post s2 Hr2) as Hl3. fold s3 in Hl3.
  assert (Hreg : lookup s3 (1 + counter s1) <> None).
  { rewrite Hl3. destruct ((_ <? _) && _); [congruence|]. rewrite Hl2, Z.eqb_refl. congruence. }
  pose proof (lookup_set_id_registered s3 r (1 + counter s1) oid Hid Hreg k) as Hl4.
  unfold lookup at 1 3; cbn [fst objects]. rewrite dget_dset.
  destruct (eqb_spec k oid) as [|_]; [congruence|].
  fold (lookup (set_id s3 r oid) k). rewrite Hl4.
  destruct (Z.eqb_spec k oid) as [|_]; [congruence|].
  rewrite Hl3, Hl2. pose proof (objects_create_n pre s Hr k) as Hl1. fold s1 in Hl1. rewrite Hl1.
  destruct (Z.eqb_spec k (1 + counter s1)).
  - split; [lia | discriminate].
  - split.
    + intros Hout.
      destruct (Z.ltb_spec (counter s2) k), (Z.leb_spec k (counter s2 + Z.of_nat post)),
        (Z.ltb_spec (counter s) k), (Z.leb_spec k (counter s + Z.of_nat pre)); cbn [andb]; auto; lia.
    + intros Hin q. clearbody s3. clearbody s2. clearbody s1.
      destruct (Z.ltb_spec (counter s2) k), (Z.leb_spec k (counter s2 + Z.of_nat post)),
        (Z.ltb_spec (counter s) k), (Z.leb_spec k (counter s + Z.of_nat pre)); cbn [andb];
        try lia; intros Eq; injection Eq as <-; lia.
Qed.

Lemma replay_result s pre post oid :
  let '(s', r) := replay s pre post oid in
  lookup s' oid = Some r /\ r = (List.length (heap s) + pre)%nat /\
  counter s' = counter s + Z.of_nat (pre + 1 + post) /\
  recording s' = recording s /\
  (List.length (heap s') = List.length (heap s) + (pre + 1 + post))%nat.
Proof.
  pose proof (replay_unfold s pre post oid) as E. cbn zeta in E. rewrite E.
  split; [unfold lookup; cbn [objects]; apply dget_dset_same|].
  split; [reflexivity|]. cbn [counter recording heap].
  rewrite set_id_counter, counter_create_n, counter_create, counter_create_n.
  split; [lia|]. rewrite set_id_recording, recording_create_n, recording_create, recording_create_n.
  split; [reflexivity|]. rewrite set_id_heap_length, heap_create_n, app_length. cbn.
  rewrite app_length, heap_create_n, app_length, !map_length, !seq_length. cbn. lia.
Qed.

Lemma replay_all_frame l : forall s s' rs k r,
  recording s = true -> replay_all s l = (s', rs) -> ~ In k (oids l) ->
  (r < List.length (heap s))%nat ->
  (lookup s' k = Some r <->
   lookup s k = Some r /\ ~ (counter s < k <= counter s + draws l)).
Proof.
  induction l as [|[[pre post] oid] l IH]; intros s s' rs k r Hr E Hni Hlt.
  - cbn in E. injection E as <- <-. unfold draws; cbn. intuition lia.
  - cbn [replay_all] in E. destruct (replay s pre post oid) as [s1 r1] eqn:E1.
    destruct (replay_all s1 l) as [s2 rs2] eqn:E2. injection E as <- <-.
    pose proof (replay_result s pre post oid) as Hres. rewrite E1 in Hres.
    destruct Hres as (Hlo & Hr1 & Hc1 & Hrec1 & Hh1).
    cbn [oids map snd] in Hni.
    assert (Hk : k <> oid) by (intros ->; apply Hni; now left).
    destruct (replay_lookup s pre post oid Hr k Hk) as [Hout Hin]. rewrite E1 in Hout, Hin.
    cbn [fst] in Hout, Hin.
    rewrite (IH s1 s2 rs2 k r) by (try assumption; try congruence; try lia; intros H; apply Hni; now right).
    rewrite Hc1, draws_cons. cbn [fst snd]. pose proof (draws_nonneg l).
    destruct (Z_lt_le_dec (counter s) k) as [H1|H1];
      [destruct (Z_le_gt_dec k (counter s + Z.of_nat (pre + 1 + post))) as [H2|H2]|].
    + assert (counter s < k <= counter s + Z.of_nat (pre + 1 + post)) as Hi by lia.
      split; [intros [Hl _]; pose proof (Hin Hi r Hl); lia | intros [_ Hl]; lia].
    + rewrite Hout by lia. intuition lia.
    + rewrite Hout by lia. intuition lia.
Qed.

Lemma replay_all_exact l : forall s s' rs i pre post oid r,
  recording s = true -> NoDup (oids l) -> replay_all s l = (s', rs) ->
  nth_error l i = Some (pre, post, oid) -> nth_error rs i = Some r ->
  (lookup s' oid = Some r <->
   ~ (counter s + draws (firstn (S i) l) < oid <= counter s + draws l)).
Proof.
  induction l as [|[[pre0 post0] oid0] l IH]; intros s s' rs i pre post oid r Hr Hnd E Hi Hri;
    [destruct i; discriminate|].
  cbn [replay_all] in E. destruct (replay s pre0 post0 oid0) as [s1 r1] eqn:E1.
  destruct (replay_all s1 l) as [s2 rs2] eqn:E2. injection E as <- <-.
  pose proof (replay_result s pre0 post0 oid0) as Hres. rewrite E1 in Hres.
  destruct Hres as (Hlo & Hr1 & Hc1 & Hrec1 & Hh1).
  cbn [oids map snd] in Hnd. inversion Hnd as [|? ? Hni Hnd']; subst.
  destruct i as [|i]; cbn [nth_error] in Hi, Hri.
  - injection Hi as -> -> ->. injection Hri as <-.
    rewrite (replay_all_frame l s1 s2 rs2 oid) by (try assumption; try congruence; lia).
    cbn [firstn]. rewrite !draws_cons. unfold draws at 2. cbn [fst snd map list_sum fold_right].
    rewrite Hc1. intuition lia.
  - rewrite (IH s1 s2 rs2 i pre post oid r) by (try assumption; congruence).
    cbn [firstn]. rewrite !draws_cons. cbn [fst snd]. rewrite Hc1. split; intros H; lia.
Qed.

Lemma replay_all_refs_length l : forall s s' rs,
  replay_all s l = (s', rs) -> List.length rs = List.length l.
Proof.
  induction l as [|[[pre post] oid] l IH]; intros s s' rs E; cbn [replay_all] in E.
  - now injection E as <- <-.
  - destruct (replay s pre post oid) as [s1 r1]. destruct (replay_all s1 l) as [s2 rs2] eqn:E2.
    injection E as <- <-. cbn. f_equal. eauto.
Qed.

(** Sufficient condition: all ids are at most the counter when the replay starts. *)
Lemma replay_all_safe l s s' rs i pre post oid r :
  recording s = true -> NoDup (oids l) -> replay_all s l = (s', rs) ->
  (forall k, In k (oids l) -> k <= counter s) ->
  nth_error l i = Some (pre, post, oid) -> nth_error rs i = Some r ->
  lookup s' oid = Some r.
Proof.
  intros Hr Hnd E Hle Hi Hri. eapply replay_all_exact; eauto.
  assert (In oid (oids l)) as Hin by (apply in_map_iff; exists (pre, post, oid); split; auto;
    eapply nth_error_In; eauto).
  apply Hle in Hin. pose proof (draws_nonneg (firstn (S i) l)). lia.
Qed.

Lemma client_ids_bounds shape : forall c k,
  In k (oids (client_ids c shape)) -> c < k.
Proof.
  induction shape as [|[pre post] shape IH]; intros c k; cbn; [tauto|].
  intros [<-|H]; [lia|]. apply IH in H. lia.
Qed.
Lemma client_ids_le shape : forall c i pre post oid,
  nth_error (client_ids c shape) i = Some (pre, post, oid) ->
  oid <= c + draws (firstn (S i) (client_ids c shape)).
Proof.
  induction shape as [|[p q] shape IH]; intros c i pre post oid H; [destruct i; discriminate|].
  destruct i as [|i]; cbn [client_ids nth_error firstn] in *.
  - injection H as <- <- <-. rewrite draws_cons. unfold draws; cbn. lia.
  - apply IH in H. rewrite draws_cons. cbn [fst snd]. cbn [firstn] in H. lia.
Qed.
Lemma client_ids_nodup shape : forall c, NoDup (oids (client_ids c shape)).
Proof.
  induction shape as [|[pre post] shape IH]; intros c; cbn; constructor; [|apply IH].
  intros H. apply client_ids_bounds in H. lia.
Qed.
Lemma replay_client shape c s s' rs i pre post oid r :
  recording s = true -> c <= counter s ->
  replay_all s (client_ids c shape) = (s', rs) ->
  nth_error (client_ids c shape) i = Some (pre, post, oid) -> nth_error rs i = Some r ->
  lookup s' oid = Some r.
Proof.
  intros Hr Hc E Hi Hri. eapply replay_all_exact; eauto using client_ids_nodup.
  apply client_ids_le in Hi. lia.
Qed.

(** ** Equality *)
Lemma eq_loop_true l o :
  eq_loop l o = Ok true <-> forall k v, In (k, v) l -> dget (attrs o) k = Some v.
Proof.
  induction l as [|[k v] l IH]; cbn [eq_loop].
  - split; [intros _ k v [] | reflexivity].
  - destruct (dget (attrs o) k) as [v'|] eqn:E.
    + destruct (Z.eqb_spec v v') as [<-|Hn].
      * rewrite IH. split; intros H; [intros k1 v1 [E1|E1]; [congruence | auto] | intros k1 v1 H1; apply H; now right].
      * split; [discriminate|]. intros H. specialize (H k v (or_introl eq_refl)). congruence.
    + split; [discriminate|]. intros H. specialize (H k v (or_introl eq_refl)). congruence.
Qed.

Lemma py_eq_true a b :
  py_eq a b = Ok true <->
  cls a = cls b /\ forall k v, In (k, v) (attrs a) -> dget (attrs b) k = Some v.
Proof.
  unfold py_eq. destruct (String.eqb_spec (cls a) (cls b)) as [E|E]; cbn [negb].
  - rewrite eq_loop_true. tauto.
  - split; [discriminate | tauto].
Qed.

Lemma py_eq_sym a b :
  NoDup (dkeys (attrs a)) -> NoDup (dkeys (attrs b)) ->
  (forall k, In k (dkeys (attrs b)) -> In k (dkeys (attrs a))) ->
  py_eq a b = Ok true -> py_eq b a = Ok true.
Proof.
  rewrite !py_eq_true. intros Ha Hb Hk [Hc H]. split; [congruence|].
  intros k v Hin. pose proof (dget_nodup_in _ _ _ Hb Hin) as Hg.
  assert (In k (dkeys (attrs a))) as Hka by (apply Hk; change k with (fst (k, v)); now apply in_map).
  apply in_map_iff in Hka as [[k' v'] [Ek Hin']]. cbn in Ek; subst k'.
  pose proof (H _ _ Hin') as Hg'. rewrite Hg in Hg'. injection Hg' as <-.
  now apply dget_nodup_in.
Qed.

(** ** Counterexamples *)
Lemma mkdocs_repeats : exists ops, ~ NoDup (drawn rinit ops).
Proof.
  exists [Create; Mkdocs; Create]. cbn. intros H. inversion H as [|? ? Hn]; subst. apply Hn. now left.
Qed.
Lemma evicted_rename : exists ops r n k q,
  let s := rrun rinit ops in
  lookup s n = None /\ lookup s k = Some q /\ q <> r /\ lookup (set_id s r n) k = None.
Proof.
  exists [Create; Create; SetId 0%nat 2], 1%nat, 9, 2, 0%nat. repeat split; discriminate.
Qed.
Lemma replay_loses : exists l s' rs oid r,
  NoDup (oids l) /\ replay_all rinit l = (s', rs) /\
  nth_error l 0 = Some (0%nat, 0%nat, oid) /\ nth_error rs 0 = Some r /\
  lookup s' oid = None.
Proof.
  exists [(0%nat, 0%nat, 2); (0%nat, 0%nat, 3)]. do 2 eexists. exists 2, 0%nat.
  split; [repeat constructor; cbn; intuition lia|]. split; [vm_compute; reflexivity|]. repeat split.
Qed.
Lemma hash_differs : exists a b, py_eq a b = Ok true /\ py_hash a <> py_hash b.
Proof.
  exists (mkO "Canvas" 1 [("w"%string, 5)]), (mkO "Canvas" 2 [("w"%string, 5)]).
  split; [reflexivity | cbn; lia].
Qed.
Lemma eq_asym : exists a b, py_eq a b = Ok true /\ py_eq b a = Err AttributeError.
Proof.
  exists (mkO "A" 1 [("x"%string, 5)]), (mkO "A" 2 [("x"%string, 5); ("y"%string, 6)]). split; reflexivity.
Qed.
