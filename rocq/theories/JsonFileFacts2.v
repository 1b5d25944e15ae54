(** Proofs: the layout of session files. *)
From Verif Require Import Base Registry Convert Command Queue Base64 Execute Json JsonText JsonTextSpec JsonTextFacts JsonTextFacts2 JsonFile JsonFileSpec JsonFileFacts JsonGrammarSpec JsonGrammarFacts.
Open Scope string_scope.

Section Layout.
  Context (ftok : Z -> text) (txt : string -> Z -> option jval) (oidf : ref -> Z).
  Lemma tree_layout j : value_layout ftok j (tree_of ftok j).
  Proof.
    induction j as [l IH|j N] using jval_induction.
    - cbn [tree_of]. constructor. induction IH; cbn [map]; constructor; assumption.
    - destruct j; cbn [tree_of]; try constructor. now destruct (N l).
  Qed.
  Lemma params_layout p p' : encode_params txt oidf p = Ok p' ->
    Forall2 (fun kv kx => fst kx = of_string (fst kv) /\ value_layout ftok (snd kv) (snd kx)) p'
      (map (fun kv => (of_string (fst kv), value_tree ftok txt oidf (snd kv))) p).
  Proof.
    revert p'. induction p as [|[k v] p IH]; intros p' H; cbn [encode_params] in H; [injection H as <-; constructor|].
    pose proof (value_tree_encode ftok txt oidf v) as V. destruct (encode txt oidf v) as [j|e]; [|discriminate].
    cbn [bind] in H. destruct (encode_params txt oidf p) as [q|e]; [|discriminate]. cbn [bind] in H. injection H as <-.
    cbn [map fst snd]. constructor; [|now apply IH]. cbn [fst snd]. split; [reflexivity|]. rewrite V. apply tree_layout.
  Qed.
  Lemma commands_layout stamp l : forall es i0, encode_all txt oidf l = Ok es ->
    length (command_trees ftok txt oidf stamp i0 l) = length es /\
    forall i e c, nth_error es i = Some e -> nth_error (command_trees ftok txt oidf stamp i0 l) i = Some c -> command_layout ftok (stamp (i0 + i)%nat) e c.
  Proof.
    induction l as [|[[m n] p] l IH]; intros es i0 H; cbn [encode_all] in H.
    - injection H as <-. split; [reflexivity|]. intros [|i] e c K; discriminate.
    - destruct (encode_params txt oidf p) as [p'|e] eqn:P; [|discriminate]. cbn [bind] in H.
      destruct (encode_all txt oidf l) as [es'|e] eqn:A; [|discriminate]. cbn [bind] in H. injection H as <-.
      destruct (IH es' (S i0) eq_refl) as [L K]. cbn [command_trees length]. split; [now rewrite L|].
      intros [|i] e c E C; cbn [nth_error] in E, C.
      + injection E as <-. injection C as <-. rewrite Nat.add_0_r. unfold command_tree. cbn [fst snd].
        eexists. split; [reflexivity|]. now apply params_layout.
      + rewrite <- plus_n_Sm. now apply (K i).
  Qed.
End Layout.

Lemma loads_pr st v : writable v -> loads (pr st 0 v) = Ok v.
Proof. intros W. pose proof (loads_dumps st v W) as R. rewrite dumps_pr in R by exact W. exact R. Qed.
Lemma save_layout ftok fval stamp : float_texts ftok fval stamp -> forall txt ap oidf fuel can_open fs s q name fs' s' s2 es,
  save_file ftok stamp txt ap oidf fuel can_open fs s q name = (fs', s', Ok tt) ->
  save_queue txt ap oidf fuel s q = (s2, Ok es) ->
  exists x v, dget fs' name = Some x /\ document v x /\ session_layout ftok stamp es v.
Proof.
  intros [Hf Hs] txt ap oidf fuel can_open fs s q name fs' s' s2 es. unfold save_file, save_queue.
  destruct (queue_or_active s q) as [s0 q0]. destruct (queue_or_active s0 (Some q0)) as [s1 q1].
  destruct (dump_loop ap oidf fuel s1 q1 0) as [s3 [l|e]] eqn:L; cbn [bind]; [|discriminate].
  intros H1 H2. injection H2 as _ A. apply dump_loop_keys in L. destruct (can_open name); [|discriminate].
  pose proof (payload_encode ftok fval stamp Hf Hs txt oidf l L) as P. rewrite A in P. destruct P as [W _].
  assert (Y : session_layout ftok stamp es (payload ftok txt oidf stamp l)).
  { unfold payload. eexists. split; [reflexivity|]. exact (commands_layout ftok txt oidf stamp l es 0 A). }
  set (pl := payload ftok txt oidf stamp l) in *. clearbody pl.
  rewrite write_pr in H1 by assumption. injection H1 as <- _. rewrite dget_dset_same. exists (pr Compact 0 pl), pl. split; [reflexivity|]. split; [|exact Y].
  apply reads_spec. exact (loads_pr Compact pl W).
Qed.
Lemma dump_layout ftok fval stamp : float_texts ftok fval stamp -> forall txt ap oidf fuel s q s1 x s2 es, commands s q <> [] ->
  dump_text ftok stamp txt ap oidf fuel s (Some q) = (s1, Ok x) ->
  save_queue txt ap oidf fuel s (Some q) = (s2, Ok es) ->
  exists v, document v x /\ session_layout ftok stamp es v.
Proof.
  intros [Hf Hs] txt ap oidf fuel s q s1 x s2 es N. unfold dump_text, save_queue.
  assert (Q : queue_or_active s (Some q) = (s, q)). { cbn [queue_or_active]. destruct (commands s q); [now destruct N|reflexivity]. }
  rewrite Q. rewrite Q. destruct (dump_loop ap oidf fuel s q 0) as [s3 [l|e]] eqn:L; cbn [bind]; [|discriminate].
  intros H1 H2. injection H2 as _ A. apply dump_loop_keys in L.
  pose proof (payload_encode ftok fval stamp Hf Hs txt oidf l L) as P. rewrite A in P. destruct P as [W _].
  assert (Y : session_layout ftok stamp es (payload ftok txt oidf stamp l)).
  { unfold payload. eexists. split; [reflexivity|]. exact (commands_layout ftok txt oidf stamp l es 0 A). }
  set (pl := payload ftok txt oidf stamp l) in *. clearbody pl.
  rewrite dumps_pr in H1 by assumption. injection H1 as _ <-. exists pl. split; [|exact Y].
  apply reads_spec. exact (loads_pr Indented pl W).
Qed.
Lemma missing_file fval fs name : dget fs name = None -> read_file fval fs name = Err os_error.
Proof. intros H. unfold read_file. now rewrite H. Qed.
