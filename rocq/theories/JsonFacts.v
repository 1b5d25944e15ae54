(** Proofs about Execute.v and Json.v. *)
From Verif Require Import Base Registry RegistrySpec RegistryFacts Convert Command CommandSpec CommandFacts
  Queue QueueSpec QueueFacts Base64 Base64Facts Execute Json JsonSpec.
Open Scope string_scope.

(** ** Splitting *)
Lemma split_none c s : contains c s = false -> split_on c s = [s].
Proof.
  induction s as [|x s IH]; cbn [contains split_on]; auto. intros H. apply orb_false_iff in H as [H1 H2].
  rewrite Ascii.eqb_sym in H1. rewrite H1, (IH H2). reflexivity.
Qed.
Lemma split_once c s1 s2 : contains c s1 = false -> contains c s2 = false ->
  split_on c (s1 ++ String c s2) = [s1; s2].
Proof.
  intros H1 H2. induction s1 as [|x s1 IH]; cbn [append split_on].
  - rewrite Ascii.eqb_refl, split_none; auto.
  - cbn [contains] in H1. apply orb_false_iff in H1 as [Hx H1]. rewrite Ascii.eqb_sym in Hx.
    rewrite Hx, (IH H1). reflexivity.
Qed.
Lemma split_method_text c : slash_free c -> split_method (method_text c) = target_of c.
Proof.
  intros [H1 H2]. unfold split_method, method_text, target_of.
  destruct (String.eqb (c_method c) ""); [now rewrite split_none|].
  destruct (contains "." (c_method c)); [now rewrite split_none|].
  cbn [append]. now rewrite split_once.
Qed.

(** ** C19 *)
Lemma execute_dotted B cls ap s c x : contains "." (c_method c) = true -> execute B cls ap s c <> Ok x.
Proof.
  intros H. unfold execute. destruct (dget (c_params c) "id"); [|discriminate].
  destruct (resolve (objects s) cls ap (c_params c)); [|discriminate]. cbn [bind]. rewrite H. discriminate.
Qed.
Lemma id_of_replay s pre post oid :
  id_of (fst (replay s pre post oid)) (snd (replay s pre post oid)) = Some oid.
Proof.
  pose proof (replay_unfold s pre post oid) as E. cbn zeta in E. rewrite E. cbn [fst snd].
  unfold id_of. cbn [heap]. set (s3 := create_n post (fst (create (create_n pre s)))).
  set (r := (List.length (heap s) + pre)%nat). fold (id_of (set_id s3 r oid) r).
  assert (Hl : (r < List.length (heap s3))%nat).
  { unfold s3. rewrite heap_create_n, app_length. cbn. rewrite app_length, heap_create_n, app_length, !map_length, !seq_length.
    unfold r. cbn. lia. }
  rewrite id_of_set_id. destruct (Nat.eqb_spec r r); [|congruence].
  unfold id_of. destruct (nth_error (heap s3) r) eqn:En; auto. apply nth_error_None in En. lia.
Qed.
Lemma execute_constructor B cls ap s c idv oid kw pre post :
  c_method c = "__init__" -> dget (c_params c) "id" = Some idv -> oid_of idv = Some oid ->
  resolve (objects s) cls ap (c_params c) = Ok kw ->
  b_class B (c_class c) = true -> b_new B (c_class c) kw = Ok (pre, post) ->
  exists s' r, execute B cls ap s c = Ok (s', Built r (c_class c) kw) /\
    id_of s' r = Some oid /\ lookup s' oid = Some r /\ (List.length (heap s) <= r)%nat.
Proof.
  intros Hm Hid Ho Hr Hc Hn. unfold execute. rewrite Hid, Hr. cbn [bind]. rewrite Hm. cbn [contains orb].
  cbn [String.eqb]. rewrite Hc, Hn. cbn [bind fst snd]. rewrite Ho.
  pose proof (replay_result s pre post oid) as H. pose proof (id_of_replay s pre post oid) as H'.
  destruct (replay s pre post oid) as [s' r]. destruct H as (H1 & H2 & _). exists s', r. cbn in H'.
  repeat split; auto. lia.
Qed.

(** ** Saving *)
Section Save.
  Context (txt : string -> Z -> option jval) (pure : func -> value -> res value) (ap : conv) (oidf : ref -> Z)
    (Hpure : forall f v, ap f v = ([], pure f v)).

  Lemma saveable_saved c : saveable txt pure oidf c ->
    exists p, Forall2 (fun kv kx => saved1 pure oidf kv = Ok kx) (c_params c) p /\
              NoDup (dkeys p) /\ exists e, encode_params txt oidf p = Ok e.
  Proof.
    intros (e & He & Hnd). assert (H : exists p, Forall2 (fun kv kx => saved1 pure oidf kv = Ok kx) (c_params c) p /\
      encode_params txt oidf p = Ok e /\ dkeys p = dkeys e).
    { clear Hnd. induction He as [|kv [k j] p e (x & Hx & Hj) He (p' & H1 & H2 & H3)].
      - exists []. repeat split; constructor.
      - exists ((k, x) :: p'). cbn [fst snd] in *. split; [constructor; auto|].
        split; [cbn [encode_params]; rewrite Hj; cbn [bind]; now rewrite H2 | unfold dkeys in *; cbn [map fst]; now rewrite H3]. }
    destruct H as (p & H1 & H2 & H3). exists p. split; [exact H1|]. rewrite H3. split; [exact Hnd | eauto].
  Qed.

  Lemma dump_params_pure s p p' : forall acc,
    Forall2 (fun kv kx => saved1 pure oidf kv = Ok kx) p p' ->
    NoDup (dkeys (acc ++ p')%list) ->
    dump_params ap oidf s p acc = (s, Ok (acc ++ p')%list).
  Proof.
    intros acc H. revert acc. induction H as [|[k v] [k' x] p p' Hkv H IH]; intros acc Hnd; cbn [dump_params].
    - now rewrite app_nil_r.
    - unfold saved1 in Hkv. cbn [fst snd] in Hkv.
      assert (Hset : forall k' x', (k', x') = (k', x') -> NoDup (dkeys (acc ++ (k', x') :: p')%list) ->
                dset acc k' x' = (acc ++ [(k', x')])%list).
      { intros k1 x1 _ Hn. apply dset_new, dmem_false, dget_none. intros Hin.
        unfold dkeys in Hn. rewrite map_app in Hn. cbn in Hn. apply NoDup_remove_2 in Hn. apply Hn.
        apply in_or_app. now left. }
      assert (Hgo : forall k1 x1, (k1, x1) = (k', x) ->
                dump_params ap oidf s p (dset acc k1 x1) = (s, Ok (acc ++ (k', x) :: p')%list)).
      { intros k1 x1 E. injection E as -> ->. rewrite Hset; auto. rewrite IH.
        - now rewrite <- app_assoc.
        - rewrite <- app_assoc. exact Hnd. }
      destruct v; try (cbn in Hkv; injection Hkv as E1 E2; apply Hgo; congruence).
      rewrite Hpure. cbn [run_calls fold_left]. destruct (pure f v) as [y|e]; [|discriminate].
      cbn [bind] in Hkv.
      destruct y; cbn in Hkv; injection Hkv as E1 E2; apply Hgo; congruence.
  Qed.

  Definition out_of (c : command) (e : string * Z * dict string value) : Prop :=
    fst (fst e) = method_text c /\ snd (fst e) = c_id c /\
    Forall2 (fun kv kx => saved1 pure oidf kv = Ok kx) (c_params c) (snd e) /\ NoDup (dkeys (snd e)).

  Lemma dump_loop_pure s q n : forall i,
    (forall c, In c (commands s q) -> exists p, Forall2 (fun kv kx => saved1 pure oidf kv = Ok kx) (c_params c) p /\ NoDup (dkeys p)) ->
    (length (commands s q) <= n + i)%nat -> 
    exists l, dump_loop ap oidf n s q i = (s, Ok l) /\ Forall2 out_of (skipn i (commands s q)) l.
  Proof.
    induction n as [|n IH]; intros i Hs Hn.
    - exists []. assert (E : nth_error (commands s q) i = None) by (apply nth_error_None; lia).
      cbn [dump_loop]. rewrite E. split; auto. rewrite skipn_all2 by lia. constructor.
    - cbn [dump_loop]. destruct (nth_error (commands s q) i) as [c|] eqn:E.
      + destruct (Hs c (nth_error_In _ _ E)) as (p & Hp & Hnd).
        unfold dump_command. rewrite (dump_params_pure s (c_params c) p [] Hp Hnd). cbn [bind app].
        destruct (IH (S i) Hs ltac:(lia)) as (l & -> & Hl).
        exists ((method_text c, c_id c, p) :: l). split; auto.
        assert (Hsk : skipn i (commands s q) = c :: skipn (S i) (commands s q)).
        { clear - E. revert i E; induction (commands s q) as [|x l IH]; intros [|i] E; cbn in E; try discriminate.
          - injection E as ->. reflexivity.
          - cbn [skipn]. apply IH in E. rewrite E. reflexivity. }
        rewrite Hsk. constructor; auto. repeat split; auto.
      + exists []. split; auto. rewrite skipn_all2 by (apply nth_error_None in E; lia). constructor.
  Qed.

  Lemma encode_params_forall2 p e : encode_params txt oidf p = Ok e ->
    Forall2 (fun kx kj => fst kj = fst kx /\ encode txt oidf (snd kx) = Ok (snd kj)) p e.
  Proof.
    revert e; induction p as [|[k v] p IH]; intros e H; cbn [encode_params] in H; [injection H as <-; constructor|].
    destruct (encode txt oidf v) as [j|] eqn:Ej; [|discriminate]. cbn [bind] in H.
    destruct (encode_params txt oidf p) as [r|]; [|discriminate]. cbn [bind] in H. injection H as <-.
    constructor; auto.
  Qed.

  Lemma saved1_fun kv x y : saved1 pure oidf kv = Ok x -> saved1 pure oidf kv = Ok y -> x = y.
  Proof. congruence. Qed.

  Lemma encode_all_written l outs :
    (forall c, In c l -> saveable txt pure oidf c) -> Forall2 out_of l outs ->
    exists es, encode_all txt oidf outs = Ok es /\ Forall2 (written txt pure oidf) l es.
  Proof.
    intros Hs H. induction H as [|c [[m i] p] l outs (Hm & Hi & Hp & Hnd) H IH]; [exists []; split; auto|].
    destruct IH as (es & Hes & Hw); [intros c' Hc'; apply Hs; now right|].
    destruct (saveable_saved c (Hs c (or_introl eq_refl))) as (p0 & Hp0 & _ & e & He).
    cbn [fst snd] in *.
    assert (p0 = p).
    { clear - Hp Hp0. revert p0 Hp0. induction Hp as [|kv kx l1 l2 Hx Hp IH]; intros p0 Hp0; inversion Hp0; subst; auto.
      f_equal; [congruence | auto]. }
    subst p0. exists (mkEntry m i e :: es). cbn [encode_all]. rewrite He. cbn [bind]. rewrite Hes. cbn [bind].
    split; auto. constructor; auto. split; [exact Hm|]. split; [exact Hi|]. cbn [e_params].
    apply encode_params_forall2 in He. clear - Hp He.
    revert e He. induction Hp as [|kv kx l1 l2 Hx Hp IH]; intros e He; inversion He as [|a kj b l3 Hkj Hr]; subst; constructor; auto.
    destruct Hkj as [Hk Hj]. exists (snd kx). split; auto. rewrite Hk. now destruct kx.
  Qed.

  Lemma save_exact s q fuel : commands s q <> [] ->
    (forall c, In c (commands s q) -> saveable txt pure oidf c) -> (length (commands s q) <= fuel)%nat ->
    exists es, save_queue txt ap oidf fuel s (Some q) = (s, Ok es) /\
      Forall2 (written txt pure oidf) (commands s q) es.
  Proof.
    intros Hne Hs Hf. unfold save_queue, queue_or_active.
    destruct (commands s q) as [|c0 l0] eqn:E0; [congruence|]. rewrite E0, <- E0 in *.
    destruct (dump_loop_pure s q fuel 0) as (outs & -> & Ho).
    { intros c Hc. destruct (saveable_saved c (Hs c Hc)) as (p & Hp & Hnd & _). eauto. }
    { lia. }
    cbn [skipn] in Ho. cbn [bind]. destruct (encode_all_written _ _ Hs Ho) as (es & -> & Hw). eauto.
  Qed.
End Save.

(** ** Loading *)

Lemma dmem_map {A B} (f : A -> B) (p : dict string A) k :
  dmem (map (fun kv => (fst kv, f (snd kv))) p) k = dmem p k.
Proof. unfold dmem. induction p as [|[k0 v0] p IH]; cbn; auto. destruct (String.eqb k k0); auto. Qed.
Lemma decode_not_object j : is_object (decode j) = false.
Proof. destruct j; reflexivity. Qed.

Lemma new_command_loaded s cn mn (p : dict string jval) : dmem p "id" = true ->
  new_command s (fun _ => 0%Z) cn mn (map (fun kv => (fst kv, decode (snd kv))) p) =
  (mkSys (qs s) (inst s) (active s) (rec s) (1 + cids s),
   Ok (mkC (1 + cids s) cn mn (map (fun kv => (fst kv, decode (snd kv))) p))).
Proof.
  intros H. unfold new_command, mk_command. rewrite (dmem_map decode), H. do 3 f_equal.
  rewrite map_map. apply map_ext. intros [k j]. cbn. f_equal. apply id_value_plain, decode_not_object.
Qed.

Lemma load_loop_exact l : forall s q,
  (q < length (qs s))%nat -> readonly s q = false -> (forall e, In e l -> has_id e) ->
  exists s', load_loop s q l = (s', Ok tt) /\
    commands s' q = (commands s q ++ loaded_from (cids s) l)%list /\
    (forall q', q' <> q -> commands s' q' = commands s q') /\
    cids s' = (cids s + Z.of_nat (length l))%Z /\
    inst s' = inst s /\ active s' = active s /\ rec s' = rec s /\
    length (qs s') = length (qs s) /\ (forall q', readonly s' q' = readonly s q').
Proof.
  induction l as [|e l IH]; intros s q Hl Hr Hid; cbn [load_loop].
  - exists s. cbn. rewrite app_nil_r. repeat split; auto. lia.
  - destruct (split_method (e_method e)) as [cn mn] eqn:Es.
    rewrite new_command_loaded by (apply Hid; now left).
    set (c := mkC _ _ _ _). set (s1 := mkSys _ _ _ _ _).
    assert (Hr1 : readonly s1 q = false) by exact Hr. assert (Hl1 : (q < length (qs s1))%nat) by exact Hl.
    destruct (push_accepted s1 q c Hl1 Hr1) as (_ & Hc & Ho).
    assert (Hrest : inst (fst (push s1 q c)) = inst s /\ active (fst (push s1 q c)) = active s /\
              rec (fst (push s1 q c)) = rec s /\ cids (fst (push s1 q c)) = (1 + cids s)%Z /\
              length (qs (fst (push s1 q c))) = length (qs s) /\
              forall q', readonly (fst (push s1 q c)) q' = readonly s q').
    { rewrite push_eq, Hr1. destruct (on_queue_rest s1 q (fun x => mkQ (q_name x) false (q_cmds x ++ [c])%list)) as (-> & -> & -> & ->).
      rewrite on_queue_len. repeat split; auto. intros q'. unfold readonly. rewrite on_queue_nth. cbn [qs s1].
      destruct (Nat.eqb_spec q' q) as [->|]; auto. unfold readonly in Hr. destruct (nth_error (qs s) q); cbn; auto. }
    destruct Hrest as (R1 & R2 & R3 & R4 & R5 & R6).
    destruct (IH (fst (push s1 q c)) q) as (s' & E & G1 & G2 & G3 & G4 & G5 & G6 & G7 & G8).
    { lia. } { now rewrite R6. } { intros e' He'. apply Hid. now right. }
    exists s'. split; [exact E|]. split.
    { rewrite G1, Hc, R4. cbn [loaded_from]. rewrite Es. cbn [fst snd]. rewrite <- app_assoc. reflexivity. }
    split; [intros q' Hq'; rewrite G2, Ho by assumption; reflexivity|].
    split; [rewrite G3, R4; cbn [length]; lia|].
    split; [congruence|]. split; [congruence|]. split; [congruence|]. split; [congruence|].
    intros q'. now rewrite G8, R6.
Qed.

Lemma empty_effect s q : (q < length (qs s))%nat ->
  commands (empty s q) q = [] /\ (forall q', q' <> q -> commands (empty s q) q' = commands s q') /\
  (forall q', readonly (empty s q) q' = readonly s q') /\ length (qs (empty s q)) = length (qs s) /\
  cids (empty s q) = cids s /\ inst (empty s q) = inst s /\ active (empty s q) = active s /\ rec (empty s q) = rec s.
Proof.
  intros Hl. unfold empty. destruct (on_queue_rest s q (fun x => mkQ (q_name x) (q_ro x) [])) as (-> & -> & -> & ->).
  rewrite on_queue_len. repeat split; auto.
  - unfold commands. rewrite on_queue_nth, Nat.eqb_refl. destruct (nth_error (qs s) q); reflexivity.
  - intros q' Hne. unfold commands. rewrite on_queue_nth. apply Nat.eqb_neq in Hne. now rewrite Hne.
  - intros q'. now apply readonly_on_queue.
Qed.

Lemma load_into s q l :
  commands s q <> [] -> readonly s q = false -> (forall e, In e l -> has_id e) ->
  exists s', load_queue s (Some q) (Ok l) = (s', Ok q) /\
    commands s' q = loaded_from (cids s) l /\
    (forall q', q' <> q -> commands s' q' = commands s q') /\
    cids s' = (cids s + Z.of_nat (length l))%Z /\ inst s' = inst s /\ active s' = active s.
Proof.
  intros Hne Hr Hid.
  assert (Hl : (q < length (qs s))%nat).
  { unfold commands in Hne. destruct (nth_error (qs s) q) eqn:E; [|congruence]. apply nth_error_Some. congruence. }
  unfold load_queue, queue_or_active. destruct (commands s q) eqn:E; [congruence|].
  destruct (empty_effect s q Hl) as (E1 & E2 & E3 & E4 & E5 & E6 & E7 & E8).
  destruct (load_loop_exact l (empty s q) q) as (s' & G & G1 & G2 & G3 & G4 & G5 & _); auto.
  { lia. } { now rewrite E3. }
  exists s'. rewrite G. cbn [bind]. split; auto. rewrite E1 in G1. cbn in G1. rewrite E5 in G1, G3.
  split; auto. split; [intros q' Hq'; rewrite G2, E2; auto|]. repeat split; congruence.
Qed.

(** Loading with no queue given fills the active one. *)
Lemma load_active s q l : active s = Some q -> (q < length (qs s))%nat ->
  readonly s q = false -> (forall e, In e l -> has_id e) ->
  exists s', load_queue s None (Ok l) = (s', Ok q) /\
    commands s' q = loaded_from (cids s) l /\
    (forall q', q' <> q -> commands s' q' = commands s q').
Proof.
  intros Ha Hl Hr Hid. unfold load_queue, queue_or_active, get_queue. rewrite Ha.
  destruct (empty_effect s q Hl) as (E1 & E2 & E3 & E4 & E5 & E6 & E7 & E8).
  destruct (load_loop_exact l (empty s q) q) as (s' & G & G1 & G2 & G3 & _); auto.
  { lia. } { now rewrite E3. }
  exists s'. rewrite G. cbn [bind]. split; auto. rewrite E1, E5 in G1. split; auto.
  intros q' Hq'. rewrite G2, E2; auto.
Qed.

(** Loading into an empty queue that is not the active one empties and fills
    the active one. *)
Lemma load_empty_goes_to_active s q a l :
  commands s q = [] -> active s = Some a -> q <> a -> (a < length (qs s))%nat ->
  readonly s a = false -> (forall e, In e l -> has_id e) ->
  exists s', load_queue s (Some q) (Ok l) = (s', Ok a) /\
    commands s' q = [] /\ commands s' a = loaded_from (cids s) l.
Proof.
  intros Hq Ha Hne Hl Hr Hid.
  destruct (load_active s a l Ha Hl Hr Hid) as (s' & H1 & H2 & H3).
  exists s'. split; [|rewrite H3 by assumption; auto].
  unfold load_queue, queue_or_active in *. rewrite Hq. exact H1.
Qed.

(** Loading into a read-only queue empties it. *)
Lemma load_loop_readonly l : forall s q, readonly s q = true -> (forall e, In e l -> has_id e) ->
  exists s', load_loop s q l = (s', Ok tt) /\ qs s' = qs s.
Proof.
  induction l as [|e l IH]; intros s q Hr Hid; cbn [load_loop]; [eauto|].
  destruct (split_method (e_method e)) as [cn mn]. rewrite new_command_loaded by (apply Hid; now left).
  set (s1 := mkSys _ _ _ _ _). rewrite push_refused by exact Hr. cbn [fst].
  destruct (IH s1 q Hr) as (s' & H1 & H2); [intros e' He'; apply Hid; now right|]. exists s'. split; auto.
Qed.
Lemma load_readonly s q l :
  commands s q <> [] -> readonly s q = true -> (forall e, In e l -> has_id e) ->
  exists s', load_queue s (Some q) (Ok l) = (s', Ok q) /\ commands s' q = [] /\
    (forall q', q' <> q -> commands s' q' = commands s q').
Proof.
  intros Hne Hr Hid.
  assert (Hl : (q < length (qs s))%nat).
  { unfold commands in Hne. destruct (nth_error (qs s) q) eqn:E; [|congruence]. apply nth_error_Some. congruence. }
  unfold load_queue, queue_or_active. destruct (commands s q) eqn:E; [congruence|].
  destruct (empty_effect s q Hl) as (E1 & E2 & E3 & _).
  destruct (load_loop_readonly l (empty s q) q) as (s' & -> & Hqs); auto; [now rewrite E3|].
  exists s'. cbn [bind]. split; auto. unfold commands in *. rewrite Hqs. auto.
Qed.

(** ** Round trip *)
Lemma loaded_length l : forall n, length (loaded_from n l) = length l.
Proof. induction l as [|e l IH]; intros n; cbn [loaded_from length]; auto. Qed.
Lemma loaded_forall2 l : forall n, Forall2 (fun e c =>
     (c_class c, c_method c) = split_method (e_method e) /\
     c_params c = map (fun kv => (fst kv, decode (snd kv))) (e_params e)) l (loaded_from n l).
Proof.
  induction l as [|e l IH]; intros n; cbn [loaded_from]; constructor; auto. cbn. split; auto.
  now destruct (split_method (e_method e)).
Qed.
Lemma loaded_ids l : forall n i c, nth_error (loaded_from n l) i = Some c -> c_id c = (n + 1 + Z.of_nat i)%Z.
Proof.
  induction l as [|e l IH]; intros n [|i] c H; cbn [loaded_from nth_error] in H; try discriminate.
  - injection H as <-. change (1 + n = n + 1 + Z.of_nat 0)%Z. lia.
  - apply IH in H. rewrite H. lia.
Qed.

Lemma written_has_id txt pure oidf c e v :
  dget (c_params c) "id" = Some v -> (v = VOid 0 \/ exists z, v = VOid z \/ v = VInt z) ->
  written txt pure oidf c e -> has_id e.
Proof.
  intros Hid Hv (_ & _ & Hp). unfold has_id, dmem. revert Hp Hid. generalize (c_params c) as p, (e_params e) as q.
  intros p q Hp. induction Hp as [|[k w] [k' j] p q (x & Hs & _) Hp IH]; cbn [dget]; [discriminate|].
  destruct (eqb_spec "id" k) as [<-|Hk].
  - intros E. injection E as ->. unfold saved1 in Hs. cbn [fst snd] in Hs.
    assert (k' = "id") as ->; [|reflexivity].
    destruct Hv as [->|(z & [->| ->])]; cbn in Hs; injection Hs as <- _; reflexivity.
  - intros E. destruct (eqb "id" k'); auto.
Qed.

Lemma roundtrip txt pure ap oidf s q fuel s2 q2 :
  (forall f v, ap f v = ([], pure f v)) ->
  commands s q <> [] -> (length (commands s q) <= fuel)%nat ->
  (forall c, In c (commands s q) -> saveable txt pure oidf c /\ slash_free c /\
     exists z, dget (c_params c) "id" = Some (VOid z) \/ dget (c_params c) "id" = Some (VInt z)) ->
  commands s2 q2 <> [] -> readonly s2 q2 = false ->
  exists file s', save_queue txt ap oidf fuel s (Some q) = (s, Ok file) /\
    load_queue s2 (Some q2) (Ok file) = (s', Ok q2) /\
    Forall2 (same_command txt pure oidf) (commands s q) (commands s' q2) /\
    (forall i c, nth_error (commands s' q2) i = Some c -> c_id c = (cids s2 + 1 + Z.of_nat i)%Z) /\
    (forall q', q' <> q2 -> commands s' q' = commands s2 q').
Proof.
  intros Hp Hne Hf Hc Hne2 Hr2.
  destruct (save_exact txt pure ap oidf Hp s q fuel Hne) as (es & Hs & Hw); auto.
  { intros c Hin. now apply Hc. }
  assert (Hid : forall e, In e es -> has_id e).
  { intros e He. apply In_nth_error in He as (i & Hi).
    assert (Hci : exists c, nth_error (commands s q) i = Some c /\ written txt pure oidf c e).
    { clear - Hw Hi. revert i Hi. induction Hw as [|c e0 l l' H Hw IH]; intros [|i] Hi; cbn in *; try discriminate; eauto.
      injection Hi as ->. eauto. }
    destruct Hci as (c & Hci & Hwc). apply nth_error_In in Hci. destruct (Hc c Hci) as (_ & _ & z & [Hz|Hz]);
      eapply written_has_id; eauto. }
  destruct (load_into s2 q2 es Hne2 Hr2 Hid) as (s' & Hl & Hcm & Ho & _).
  exists es, s'. split; [exact Hs|]. split; [exact Hl|]. split.
  - rewrite Hcm. pose proof (loaded_forall2 es (cids s2)) as Hlf.
    revert Hlf. generalize (loaded_from (cids s2) es). clear Hid Hl Hcm Ho Hs.
    assert (Hsf : forall c, In c (commands s q) -> slash_free c) by (intros c Hin; now apply Hc).
    clear Hc Hne Hf. revert Hsf. induction Hw as [|c e l l' H Hw IH]; intros Hsf cs Hlf; inversion Hlf as [|? c' ? cs' [H1 H2] Hr]; subst; constructor.
    + destruct H as (Hm & _ & Hps). split.
      * rewrite H1, Hm. apply split_method_text, Hsf. now left.
      * rewrite H2. clear - Hps. induction Hps as [|kv kj p q (x & Hx & Hj) Hps IH]; cbn [map]; constructor; auto.
        exists x, (snd kj). cbn. auto.
    + apply IH; auto. intros c0 H0. apply Hsf. now right.
  - split; [|exact Ho]. intros i c. rewrite Hcm. apply loaded_ids.
Qed.

(** JSON-native values come back as they were. *)
Lemma native_roundtrip txt oidf v : native v -> exists j, encode txt oidf v = Ok j /\ decode j = v.
Proof.
  revert v. fix IH 2. intros v H. destruct H as [|z|z|s|l Hl]; try (eexists; split; reflexivity).
  assert (G : exists js, (fix go (l : list value) : res (list jval) :=
                    match l with
                    | [] => Ok []
                    | x :: r => let* x' := encode txt oidf x in let* r' := go r in Ok (x' :: r')
                    end) l = Ok js /\ map decode js = l).
  { assert (Hall : forall v, In v l -> exists j, encode txt oidf v = Ok j /\ decode j = v) by exact (fun v Hv => IH v (Hl v Hv)).
    clear - Hall. induction l as [|x r IHl]; [exists []; split; reflexivity|].
    destruct (Hall x (or_introl eq_refl)) as (j & Hj & Hd).
    destruct (IHl (fun v Hv => Hall v (or_intror Hv))) as (js & Hjs & Hds).
    exists (j :: js). rewrite Hj. cbn [bind]. rewrite Hjs. cbn [bind map]. split; [reflexivity | congruence]. }
  destruct G as (js & Hjs & Hd). exists (JList js). cbn [encode]. rewrite Hjs. cbn [bind decode].
  split; [reflexivity | congruence].
Qed.

(** ** C19 after saving and loading *)
Lemma saved1_key pure oidf k w k' x : saved1 pure oidf (k, w) = Ok (k', x) -> k' = k \/ k' = (k ++ "(id)")%string.
Proof.
  unfold saved1. cbn [fst snd]. intros H.
  match type of H with bind ?m _ = _ => destruct m as [y|]; [cbn [bind] in H | discriminate H] end.
  destruct y; injection H; intros; subst; auto.
Qed.
Lemma saved1_key_id pure oidf k w x : saved1 pure oidf (k, w) = Ok ("id", x) -> k = "id".
Proof.
  intros H. apply saved1_key in H as [H|H]; [auto|]. apply (f_equal String.length) in H.
  rewrite string_length_app in H. cbn in H. lia.
Qed.
Lemma dget_same txt pure oidf c c' v : same_command txt pure oidf c c' ->
  dget (c_params c) "id" = Some (VOid v) -> dget (c_params c') "id" = Some (VInt v).
Proof.
  intros (_ & Hp). revert Hp. generalize (c_params c) as p, (c_params c') as p'.
  intros p p' Hp. induction Hp as [|[k w] [k' w'] p p' (x & j & Hs & He & Hd) Hp IH]; cbn [dget]; [discriminate|].
  cbn [fst snd] in *. destruct (eqb_spec "id" k) as [<-|Hne].
  - intros E. injection E as ->. cbn in Hs. injection Hs as <- <-. cbn in He. injection He as <-. cbn in Hd. subst. reflexivity.
  - intros E. destruct (eqb_spec "id" k') as [<-|Hne']; [|auto].
    exfalso. apply saved1_key_id in Hs. congruence.
Qed.

Lemma constructor_after_load txt pure oidf c c' oid B cls ap s kw pre post :
  same_command txt pure oidf c c' ->
  contains "." (c_method c) = true -> dget (c_params c) "id" = Some (VOid oid) ->
  resolve (objects s) cls ap (c_params c') = Ok kw ->
  b_class B (c_method c) = true -> b_new B (c_method c) kw = Ok (pre, post) ->
  exists s' r, execute B cls ap s c' = Ok (s', Built r (c_method c) kw) /\
    id_of s' r = Some oid /\ lookup s' oid = Some r /\ (List.length (heap s) <= r)%nat.
Proof.
  intros Hs Hd Hid Hr Hc Hn.
  assert (Hid' : dget (c_params c') "id" = Some (VInt oid)).
  { eapply dget_same; eauto. }
  destruct Hs as [Ht _]. unfold target_of in Ht.
  destruct (String.eqb_spec (c_method c) "") as [E|E]; [rewrite E in Hd; discriminate|]. rewrite Hd in Ht.
  injection Ht as Ht1 Ht2. rewrite <- Ht1 in *.
  eapply execute_constructor; eauto.
Qed.

(** ** Refutation witnesses *)
Lemma save_empty_is_active txt ap oidf fuel s q : commands s q = [] ->
  save_queue txt ap oidf fuel s (Some q) = save_queue txt ap oidf fuel s None.
Proof. intros H. unfold save_queue. cbn [queue_or_active]. now rewrite H. Qed.

Definition two_queues : sys := history
  [EGet (Some "first"); EGet (Some "second"); ECall (simple_call 1 "a")].
Lemma save_empty_witness :
  exists s q, commands s q = [] /\ forall txt ap oidf, exists e,
    snd (save_queue txt ap oidf 5 s (Some q)) = Ok [e] /\ e_method e = "Foo/a".
Proof.
  exists two_queues, 0%nat. split; [reflexivity|]. intros txt ap oidf. eexists. split; reflexivity.
Qed.

(** A delayed conversion that builds a recorded object: a Points visual whose
    positions are an array, saved with the array-to-Buffer converter. *)
Definition late_call : call := mkK E1 [] Z.of_nat 7 "Buffer" "core.Buffer" (mkS [] []) [] [] false (Ok VNone).
Definition late_conv : conv := fun _ _ => ([late_call], Ok (VObj "Buffer" 7)).
Definition late_session' : sys := history
  [EGet (Some "q"); EPush 0 Z.of_nat "Points" "visual.Points" [("id", VOid 3); ("positions", VConv 9%nat (VInt 0))]].
Lemma late_conversion_witness :
  exists s q s' e1 e2, save_queue (fun _ _ => None) late_conv Z.of_nat 5 s (Some q) = (s', Ok [e1; e2]) /\
    length (commands s q) = 1%nat /\ length (commands s' q) = 2%nat /\
    e_method e1 = "visual.Points" /\ dget (e_params e1) "positions(id)" = Some (JInt 7) /\
    e_method e2 = "core.Buffer" /\ dget (e_params e2) "id" = Some (JInt 7).
Proof.
  exists late_session', 0%nat. eexists. eexists. eexists. split; [reflexivity|]. repeat split; reflexivity.
Qed.

Lemma gsp_load_exact rs s known file :
  let '(rs', s', o) := gsp_load rs s known file in
  objects rs' = [] /\ counter rs' = counter rs /\ heap rs' = heap rs /\
  (known = false -> o = Err ValueError /\
     s' = empty (fst (get_queue s None)) (snd (get_queue s None))).
Proof.
  unfold gsp_load. destruct (get_queue s None) as [s1 q]. destruct known; [|now repeat split].
  destruct (load_queue (empty s1 q) None file) as [s3 o]. repeat split; auto; discriminate.
Qed.
Lemma gsp_load_witness :
  exists rs s q file, objects rs <> [] /\ active s = Some q /\ commands s q <> [] /\
    let '(rs', s', o) := gsp_load rs s false file in
    o = Err ValueError /\ objects rs' <> objects rs /\ commands s' q <> commands s q.
Proof.
  exists (mkR 1 true [(1%Z, 0%nat)] [1%Z]), (history ex_history), 1%nat, (Err (UserError 0)).
  split; [discriminate|]. split; [reflexivity|]. split; [discriminate|]. cbn.
  split; [reflexivity|]. split; discriminate.
Qed.

Lemma load_empty_witness :
  exists s q a file s', q <> a /\ commands s q = [] /\ commands s a <> [] /\ file <> [] /\
    load_queue s (Some q) (Ok file) = (s', Ok a) /\ commands s' q = [] /\ commands s' a <> commands s a.
Proof.
  exists two_queues, 0%nat, 1%nat, [mkEntry "core.Canvas" 1 [("id", JInt 4)]]. eexists.
  split; [discriminate|]. split; [reflexivity|]. split; [discriminate|]. split; [discriminate|].
  split; [reflexivity|]. split; [reflexivity|]. cbn. discriminate.
Qed.
Lemma load_parse_error s q e : load_queue s q (Err e) = (s, Err e).
Proof. reflexivity. Qed.

Lemma buffer_roundtrip txt oidf b : bytes_ok b ->
  exists j, encode txt oidf (VBytes b) = Ok j /\ buffer_data (decode j) = Ok (VBytes b) /\
    exists t, j = JStr t /\ all_chars b64_char t = true /\ String.length t = (4 * ((length b + 2) / 3))%nat.
Proof.
  intros H. exists (JStr (b64encode b)). split; [reflexivity|]. split.
  - cbn [decode buffer_data]. now rewrite b64_roundtrip.
  - exists (b64encode b). split; [reflexivity|]. split; [now apply b64_alphabet | apply b64_length].
Qed.

(** What Command.execute refuses. *)
Lemma execute_refused B cls ap s c : 
  (dget (c_params c) "id" = None -> execute B cls ap s c = Err KeyError) /\
  (forall idv kw, dget (c_params c) "id" = Some idv -> resolve (objects s) cls ap (c_params c) = Ok kw ->
   contains "." (c_method c) = false ->
   (c_method c = "__init__" ->
      (b_class B (c_class c) = false -> execute B cls ap s c = Err AttributeError) /\
      (forall e, b_class B (c_class c) = true -> b_new B (c_class c) kw = Err e -> execute B cls ap s c = Err e)) /\
   (c_method c <> "__init__" -> forall z, idv = VInt z \/ idv = VOid z ->
      (lookup s z = None -> execute B cls ap s c = Err KeyError) /\
      (forall r, lookup s z = Some r ->
         (b_meth B (cls r) (c_method c) = false -> execute B cls ap s c = Err AttributeError) /\
         (forall e, b_meth B (cls r) (c_method c) = true -> b_call B (cls r) (c_method c) r kw = Err e -> execute B cls ap s c = Err e)))) /\
  (forall idv e, dget (c_params c) "id" = Some idv -> resolve (objects s) cls ap (c_params c) = Err e -> execute B cls ap s c = Err e).
Proof.
  unfold execute. split; [|split].
  - intros ->. reflexivity.
  - intros idv kw -> -> D. cbn [bind]. rewrite D. split.
    + intros M. rewrite M. cbn [String.eqb]. change (String.eqb "__init__" "__init__") with true. cbv iota. split.
      * intros ->. reflexivity.
      * intros e -> ->. reflexivity.
    + intros M z I. apply String.eqb_neq in M. rewrite M.
      assert (O : oid_of idv = Some z) by (destruct I as [-> | ->]; reflexivity). rewrite O. split.
      * intros ->. reflexivity.
      * intros r ->. split; [intros ->; reflexivity|]. intros e -> ->. reflexivity.
  - intros idv e -> ->. reflexivity.
Qed.
