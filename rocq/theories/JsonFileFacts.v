(** Proofs about session files on disk. *)
From Coq Require Import Lia.
From Verif Require Import Base Registry Convert Command Queue Base64 Execute Json JsonText JsonTextSpec JsonTextFacts JsonTextFacts2 JsonFile JsonFileSpec.
Open Scope string_scope.

Lemma of_string_small s c : In c (of_string s) -> (c < 256)%N.
Proof. unfold of_string. rewrite in_map_iff. intros (a & <- & _). apply N_ascii_bounded. Qed.
Lemma of_string_proper s : proper_string (of_string s).
Proof.
  split.
  - intros c H. apply of_string_small in H. lia.
  - intros i a b A _ [K _]. apply nth_error_In in A. apply of_string_small in A. lia.
Qed.
Lemma to_of_string s : to_string (of_string s) = s.
Proof.
  unfold to_string, of_string. rewrite map_map. rewrite (map_ext _ (fun a => a)) by apply ascii_N_embedding.
  rewrite map_id. apply string_of_list_ascii_of_string.
Qed.
Lemma of_string_inj a b : of_string a = of_string b -> a = b.
Proof. intros H. rewrite <- (to_of_string a), <- (to_of_string b). now rewrite H. Qed.

Section Values.
  Variable P : value -> Prop.
  Hypothesis Hseq : forall l, Forall P l -> P (VSeq l).
  Hypothesis Hother : forall v, (forall l, v <> VSeq l) -> P v.
  Fixpoint value_induction (v : value) : P v :=
    match v as v return P v with
    | VSeq l => Hseq l ((fix go l := match l return Forall P l with [] => Forall_nil _ | x :: r => Forall_cons x (value_induction x) (go r) end) l)
    | v => Hother v ltac:(discriminate)
    end.
End Values.
Section Jvals.
  Variable P : jval -> Prop.
  Hypothesis Hlist : forall l, Forall P l -> P (JList l).
  Hypothesis Hother : forall v, (forall l, v <> JList l) -> P v.
  Fixpoint jval_induction (v : jval) : P v :=
    match v as v return P v with
    | JList l => Hlist l ((fix go l := match l return Forall P l with [] => Forall_nil _ | x :: r => Forall_cons x (jval_induction x) (go r) end) l)
    | v => Hother v ltac:(discriminate)
    end.
End Jvals.

Section File.
  Context (ftok : Z -> text) (fval : text -> Z) (stamp : nat -> text)
    (Hf : forall z, float_token (ftok z) /\ fval (ftok z) = z) (Hs : forall i, float_token (stamp i))
    (txt : string -> Z -> option jval) (oidf : ref -> Z).

  Lemma tree_writable j : writable (tree_of ftok j).
  Proof.
    induction j as [l IH|v H] using jval_induction; cbn [tree_of].
    - constructor. intros x Hx. apply in_map_iff in Hx as (y & <- & Hy). rewrite Forall_forall in IH. now apply IH.
    - destruct v; cbn [tree_of]; try constructor; [apply Hf|apply of_string_proper|]. now destruct (H l).
  Qed.
  Lemma value_of_tree j : value_of fval (tree_of ftok j) = Ok j.
  Proof.
    induction j as [l IH|v H] using jval_induction.
    - cbn [tree_of value_of].
      enough (E : (fix go (l : list jt) : res (list jval) :=
                    match l with [] => Ok [] | x :: r => let* x' := value_of fval x in let* r' := go r in Ok (x' :: r') end)
                  (map (tree_of ftok) l) = Ok l) by now rewrite E.
      induction IH as [|x l Hx _ IH]; [reflexivity|]. cbn [map]. rewrite Hx. cbn [bind]. now rewrite IH.
    - destruct v; cbn [tree_of value_of]; try reflexivity.
      + now rewrite (proj2 (Hf z)).
      + now rewrite to_of_string.
      + now destruct (H l).
  Qed.

  (** A value is written as its tree in Json.v, or cannot be written. *)
  Lemma value_tree_encode v :
    match encode txt oidf v with
    | Ok j => value_tree ftok txt oidf v = tree_of ftok j
    | Err e => e = TypeError /\ unwritable (value_tree ftok txt oidf v)
    end.
  Proof.
    induction v as [l IH|v H] using value_induction.
    - cbn [encode value_tree].
      enough (E : match (fix go (l : list value) : res (list jval) :=
                    match l with [] => Ok [] | x :: r => let* x' := encode txt oidf x in let* r' := go r in Ok (x' :: r') end) l with
                  | Ok l' => map (value_tree ftok txt oidf) l = map (tree_of ftok) l'
                  | Err e => e = TypeError /\ exists x, In x (map (value_tree ftok txt oidf) l) /\ unwritable x end).
      { destruct ((fix go (l : list value) : res (list jval) := _) l) as [l'|e]; cbn [bind].
        - cbn [tree_of]. now f_equal.
        - destruct E as (-> & x & Hx & U). split; [reflexivity|]. now apply (u_list _ x). }
      induction IH as [|x l Hx _ IH]; [reflexivity|]. destruct (encode txt oidf x) as [j|e]; cbn [bind map].
      + destruct ((fix go (l : list value) : res (list jval) := _) l) as [l'|e]; cbn [bind map].
        * now f_equal.
        * destruct IH as (-> & y & Hy & U). split; [reflexivity|]. exists y. split; [now right|exact U].
      + destruct Hx as [-> U]. split; [reflexivity|]. eexists. split; [now left|exact U].
    - destruct v; cbn [encode value_tree]; try reflexivity.
      + now destruct (H l).
      + destruct (txt c n); [reflexivity|]. split; [reflexivity|constructor].
      + split; [reflexivity|constructor].
  Qed.
  Lemma value_tree_mended v : writable (mended (value_tree ftok txt oidf v)).
  Proof.
    induction v as [l IH|v H] using value_induction.
    - cbn [value_tree mended]. rewrite map_map. constructor. intros x Hx. apply in_map_iff in Hx as (y & <- & Hy).
      rewrite Forall_forall in IH. now apply IH.
    - assert (T : forall j, writable (mended (tree_of ftok j))).
      { intros j. induction j as [l IH|j N] using jval_induction.
        - cbn [tree_of mended]. rewrite map_map. constructor. intros x Hx. apply in_map_iff in Hx as (y & <- & Hy).
          rewrite Forall_forall in IH. now apply IH.
        - destruct j; cbn [tree_of mended]; try constructor; [apply Hf|apply of_string_proper|]. now destruct (N l). }
      destruct v; cbn [value_tree mended]; try constructor; try apply Hf; try apply of_string_proper.
      + now destruct (H l).
      + destruct (txt c n); [apply T|constructor].
  Qed.

  Definition out1 := (string * Z * dict string value)%type.
  Definition keys_ok (e : out1) : Prop := NoDup (dkeys (snd e)).
  Lemma of_string_nodup l : NoDup l -> NoDup (map of_string l).
  Proof.
    induction 1 as [|x l N _ IH]; cbn [map]; constructor; [|exact IH]. intros K. apply in_map_iff in K as (y & E & Hy).
    apply of_string_inj in E. now subst.
  Qed.
  Lemma params_keys (p : dict string value) (f : value -> jt) :
    map fst (map (fun kv => (of_string (fst kv), f (snd kv))) p) = map of_string (dkeys p).
  Proof. unfold dkeys. rewrite !map_map. reflexivity. Qed.

  Lemma params_encode p :
    match encode_params txt oidf p with
    | Ok p' => each (fun kv => let* j := value_of fval (snd kv) in Ok (to_string (fst kv), j))
                 (map (fun kv => (of_string (fst kv), value_tree ftok txt oidf (snd kv))) p) = Ok p'
               /\ forall k x, In (k, x) (map (fun kv => (of_string (fst kv), value_tree ftok txt oidf (snd kv))) p) -> proper_string k /\ writable x
    | Err e => e = TypeError /\ exists k x, In (k, x) (map (fun kv => (of_string (fst kv), value_tree ftok txt oidf (snd kv))) p) /\ unwritable x
    end.
  Proof.
    induction p as [|[k v] p IH]; [split; [reflexivity|intros k x []]|]. cbn [encode_params map fst snd].
    pose proof (value_tree_encode v) as V. destruct (encode txt oidf v) as [j|e]; cbn [bind].
    - destruct (encode_params txt oidf p) as [p'|e]; cbn [bind].
      + destruct IH as [E W]. split.
        * cbn [each fst snd]. rewrite V, value_of_tree. cbn [bind]. rewrite to_of_string. now rewrite E.
        * intros k' x [K|K]; [|now apply (W k')]. injection K as <- <-. rewrite V. split; [apply of_string_proper|apply tree_writable].
      + destruct IH as (-> & k' & x & K & U). split; [reflexivity|]. exists k', x. split; [now right|exact U].
    - destruct V as [-> U]. split; [reflexivity|]. eexists _, _. split; [now left|exact U].
  Qed.
  Lemma four_keys {A} (a b c d : A) : NoDup (map fst [(of_string "method", a); (of_string "id", b); (of_string "timestamp", c); (of_string "parameters", d)]).
  Proof. cbn [map fst]. repeat first [apply NoDup_nil | apply NoDup_cons; [vm_compute; intuition discriminate|]]. Qed.
  Lemma two_keys {A} (a b : A) : NoDup (map fst [(of_string "gsp_version", a); (of_string "commands", b)]).
  Proof. cbn [map fst]. repeat first [apply NoDup_nil | apply NoDup_cons; [vm_compute; intuition discriminate|]]. Qed.

  Lemma command_tree_mended i e : keys_ok e -> writable (mended (command_tree ftok txt oidf (stamp i) e)).
  Proof.
    intros K. unfold command_tree. cbn [mended map fst snd]. rewrite map_map. constructor; [apply four_keys|].
    intros k x [H|[H|[H|[H|[]]]]]; injection H as <- <-; (split; [apply of_string_proper|]).
    - constructor. apply of_string_proper.
    - constructor.
    - constructor. apply Hs.
    - constructor.
      + rewrite (params_keys (snd e) (fun v => mended (value_tree ftok txt oidf v))). now apply of_string_nodup.
      + intros k x H. apply in_map_iff in H as (y & H & _). injection H as <- <-.
        split; [apply of_string_proper|apply value_tree_mended].
  Qed.
  Lemma command_tree_encode i e : keys_ok e ->
    match encode_params txt oidf (snd e) with
    | Ok p => read_entry fval (command_tree ftok txt oidf (stamp i) e) = Ok (mkEntry (fst (fst e)) (snd (fst e)) p)
              /\ writable (command_tree ftok txt oidf (stamp i) e)
    | Err x => x = TypeError /\ unwritable (command_tree ftok txt oidf (stamp i) e)
    end.
  Proof.
    intros K. pose proof (params_encode (snd e)) as P. destruct (encode_params txt oidf (snd e)) as [p|x].
    - destruct P as [E W]. split.
      + unfold read_entry, command_tree, subscript.
        set (d := map (fun kv => (of_string (fst kv), value_tree ftok txt oidf (snd kv))) (snd e)) in *.
        change (item ?a (of_string "method")) with (Ok (TStr (of_string (fst (fst e))))).
        change (item ?a (of_string "id")) with (Ok (TInt (snd (fst e)))).
        change (item ?a (of_string "parameters")) with (Ok (TDict d)).
        cbn [bind]. rewrite E. cbn [bind]. now rewrite to_of_string.
      + unfold command_tree. constructor; [apply four_keys|].
        intros k x [H|[H|[H|[H|[]]]]]; injection H as <- <-; (split; [apply of_string_proper|]).
        * constructor. apply of_string_proper.
        * constructor.
        * constructor. apply Hs.
        * constructor; [rewrite (params_keys (snd e) (value_tree ftok txt oidf)); now apply of_string_nodup|exact W].
    - destruct P as (-> & k & y & H & U). split; [reflexivity|]. unfold command_tree.
      eapply u_dict; [right; right; right; left; reflexivity|]. now apply (u_dict _ k y).
  Qed.
  Lemma commands_encode l : Forall keys_ok l -> forall i,
    match encode_all txt oidf l with
    | Ok es => each (read_entry fval) (command_trees ftok txt oidf stamp i l) = Ok es
               /\ forall x, In x (command_trees ftok txt oidf stamp i l) -> writable x
    | Err e => e = TypeError /\ exists x, In x (command_trees ftok txt oidf stamp i l) /\ unwritable x
    end.
  Proof.
    induction 1 as [|[[m n] p] l K _ IH]; intros i; [split; [reflexivity|intros x []]|].
    cbn [encode_all command_trees]. pose proof (command_tree_encode i _ K) as C. cbn [fst snd] in C.
    destruct (encode_params txt oidf p) as [p'|e]; cbn [bind].
    - destruct C as [C1 C2]. specialize (IH (S i)). destruct (encode_all txt oidf l) as [es|e]; cbn [bind].
      + destruct IH as [E W]. split; [cbn [each]; rewrite C1; cbn [bind]; now rewrite E|].
        intros x [<-|Hx]; [exact C2|now apply W].
      + destruct IH as (-> & x & Hx & U). split; [reflexivity|]. exists x. split; [now right|exact U].
    - destruct C as [-> U]. split; [reflexivity|]. eexists. split; [now left|exact U].
  Qed.
  Lemma commands_mended l : Forall keys_ok l -> forall i x, In x (map mended (command_trees ftok txt oidf stamp i l)) -> writable x.
  Proof.
    induction 1 as [|e l K _ IH]; intros i x; [intros []|]. cbn [command_trees map].
    intros [<-|Hx]; [now apply command_tree_mended|now apply (IH (S i))].
  Qed.
  Lemma payload_encode l : Forall keys_ok l ->
    match encode_all txt oidf l with
    | Ok es => writable (payload ftok txt oidf stamp l) /\
               (forall st, read_text fval (pr st 0 (payload ftok txt oidf stamp l)) = Ok es)
    | Err e => e = TypeError /\ unwritable (payload ftok txt oidf stamp l)
    end.
  Proof.
    intros K. pose proof (commands_encode l K 0) as C. destruct (encode_all txt oidf l) as [es|e].
    - destruct C as [E W].
      assert (P : writable (payload ftok txt oidf stamp l)).
      { unfold payload. constructor; [apply two_keys|]. intros k x [H|[H|[]]]; injection H as <- <-; (split; [apply of_string_proper|]).
        - constructor. apply of_string_proper.
        - constructor. exact W. }
      split; [exact P|]. intros st. unfold read_text. pose proof (loads_dumps st _ P) as L. rewrite dumps_pr in L by assumption. cbn [bind] in L.
      rewrite L. cbn [bind]. unfold payload, subscript. set (c := command_trees ftok txt oidf stamp 0 l) in *.
      change (item ?a (of_string "commands")) with (Ok (TList c)). cbn [bind]. exact E.
    - destruct C as (-> & x & Hx & U). split; [reflexivity|]. unfold payload.
      eapply u_dict; [right; left; reflexivity|]. now apply (u_list _ x).
  Qed.
  Lemma payload_mended l : Forall keys_ok l -> writable (mended (payload ftok txt oidf stamp l)).
  Proof.
    intros K. unfold payload. cbn [mended map fst snd]. constructor; [apply two_keys|].
    intros k x [H|[H|[]]]; injection H as <- <-; (split; [apply of_string_proper|]).
    - constructor. apply of_string_proper.
    - constructor. intros x Hx. now apply (commands_mended l K 0).
  Qed.
End File.

Lemma dump_params_keys ap oidf p : forall s acc s' x, NoDup (dkeys acc) -> dump_params ap oidf s p acc = (s', Ok x) -> NoDup (dkeys x).
Proof.
  induction p as [|[k v] p IH]; intros s acc s' x N H; cbn [dump_params] in H; [now injection H as <- <-|].
  destruct (match v with VConv f w => let '(calls, y) := ap f w in (run_calls s calls, y) | _ => (s, Ok v) end) as [s1 [y|e]]; [|discriminate].
  destruct y; (eapply IH; [|exact H]); apply dset_nodup; exact N.
Qed.
Lemma dump_loop_keys ap oidf n : forall s q i s' l, dump_loop ap oidf n s q i = (s', Ok l) -> Forall keys_ok l.
Proof.
  induction n as [|n IH]; intros s q i s' l H; cbn [dump_loop] in H; (destruct (nth_error (commands s q) i) as [c|]; [|injection H as <- <-; constructor]); [discriminate|].
  destruct (dump_command ap oidf s c) as [s1 [e|e]] eqn:D; [|discriminate].
  destruct (dump_loop ap oidf n s1 q (S i)) as [s2 [r|e']] eqn:L; cbn [bind] in H; [|discriminate]. injection H as <- <-.
  constructor; [|now apply (IH _ _ _ _ _ L)]. unfold dump_command in D.
  destruct (dump_params ap oidf s (c_params c) []) as [s3 [p|x]] eqn:P; cbn [bind] in D; [|discriminate]. injection D as _ <-.
  unfold keys_ok. cbn [snd]. eapply dump_params_keys; [|exact P]. constructor.
Qed.

(** *** Saving to a file *)
Section Saves.
  Context (ftok : Z -> text) (fval : text -> Z) (stamp : nat -> text)
    (Hf : forall z, float_token (ftok z) /\ fval (ftok z) = z) (Hs : forall i, float_token (stamp i))
    (txt : string -> Z -> option jval) (ap : conv) (oidf : ref -> Z) (fuel : nat).

  Lemma save_file_cases can_open fs s q name fs' s' o s2 r :
    save_file ftok stamp txt ap oidf fuel can_open fs s q name = (fs', s', o) ->
    save_queue txt ap oidf fuel s q = (s2, r) ->
    s' = s2 /\
    match r with
    | Ok es => if can_open name then
                 o = Ok tt /\ exists x, fs' = dset fs name x /\ read_text fval x = Ok es /\
                   forall p, cut_short p x -> read_text fval p = Err ValueError
               else o = Err os_error /\ fs' = fs
    | Err e => (o = Err e /\ fs' = fs) \/ (can_open name = false /\ o = Err os_error /\ fs' = fs) \/
               (can_open name = true /\ e = TypeError /\ o = Err TypeError /\
                exists x, fs' = dset fs name x /\ read_text fval x = Err ValueError)
    end.
  Proof.
    unfold save_file, save_queue. destruct (queue_or_active s q) as [s0 q0]. destruct (queue_or_active s0 (Some q0)) as [s1 q1].
    destruct (dump_loop ap oidf fuel s1 q1 0) as [s3 [l|e]] eqn:L; cbn [bind].
    2:{ intros H1 H2. injection H1 as <- <- <-. injection H2 as <- <-. split; [reflexivity|]. now left. }
    intros H1 H2. injection H2 as <- <-. apply dump_loop_keys in L.
    pose proof (payload_encode ftok fval stamp Hf Hs txt oidf l L) as P. pose proof (payload_mended ftok fval stamp Hf Hs txt oidf l L) as M.
    assert (C1 : composite (payload ftok txt oidf stamp l)) by exact I.
    assert (C2 : composite (mended (payload ftok txt oidf stamp l))) by exact I.
    set (pl := payload ftok txt oidf stamp l) in *. clearbody pl.
    destruct (encode_all txt oidf l) as [es|e].
    - destruct P as [W R]. destruct (can_open name).
      + rewrite write_pr in H1 by assumption. injection H1 as <- <- <-. split; [reflexivity|]. split; [reflexivity|].
        eexists. split; [reflexivity|]. split; [apply R|]. intros p C.
        unfold read_text. rewrite (cut_refused Compact _ p W); [reflexivity|exact C1|exact C].
      + injection H1 as <- <- <-. now repeat split.
    - destruct P as [-> U]. destruct (can_open name).
      + pose proof (part_write Compact pl 0) as [E|(p & u & E & X & N)].
        * exfalso. apply (write_false Compact _ 0) in U. rewrite E in U. discriminate.
        * rewrite E in H1. injection H1 as <- <- <-. split; [reflexivity|]. right. right. repeat split; auto.
          exists p. split; [reflexivity|]. unfold read_text. rewrite (cut_refused Compact _ p M); [reflexivity|exact C2|].
          exists u. split; [exact N|]. now rewrite pr_mended.
      + injection H1 as <- <- <-. split; [reflexivity|]. right. now left.
  Qed.
  Lemma dump_text_cases s q : commands s q <> [] ->
    match dump_text ftok stamp txt ap oidf fuel s (Some q), save_queue txt ap oidf fuel s (Some q) with
    | (s1, o), (s2, r) => s1 = s2 /\ match r with Ok es => exists x, o = Ok x /\ read_text fval x = Ok es | Err e => o = Err e end
    end.
  Proof.
    intros N. unfold dump_text, save_queue.
    assert (Q : queue_or_active s (Some q) = (s, q)). { cbn [queue_or_active]. destruct (commands s q); [now destruct N|reflexivity]. }
    rewrite Q. rewrite Q. destruct (dump_loop ap oidf fuel s q 0) as [s3 [l|e]] eqn:L; cbn [bind]; [|split; reflexivity].
    split; [reflexivity|]. apply dump_loop_keys in L. pose proof (payload_encode ftok fval stamp Hf Hs txt oidf l L) as P.
    destruct (encode_all txt oidf l) as [es|e].
    - destruct P as [W R]. rewrite dumps_pr by assumption. eexists. split; [reflexivity|]. apply R.
    - destruct P as [-> U]. unfold dumps. apply (write_false Indented _ 0) in U.
      destruct (write Indented 0 (payload ftok txt oidf stamp l)) as [x ok]. cbn [snd] in U. now subst.
  Qed.
End Saves.

Lemma save_reads_back ftok fval stamp : float_texts ftok fval stamp -> forall txt ap oidf fuel can_open fs s q name fs' s' s2 es,
  can_open name = true ->
  save_file ftok stamp txt ap oidf fuel can_open fs s q name = (fs', s', Ok tt) ->
  save_queue txt ap oidf fuel s q = (s2, Ok es) ->
  s' = s2 /\ read_file fval fs' name = Ok es /\ (forall other, other <> name -> dget fs' other = dget fs other) /\
  exists x, dget fs' name = Some x /\ forall p, cut_short p x -> read_text fval p = Err ValueError.
Proof.
  intros [Hf Hs] txt ap oidf fuel can_open fs s q name fs' s' s2 es O H1 H2.
  destruct (save_file_cases ftok fval stamp Hf Hs txt ap oidf fuel _ _ _ _ _ _ _ _ _ _ H1 H2) as [E C].
  rewrite O in C. destruct C as (_ & x & -> & R & K). split; [exact E|]. unfold read_file. rewrite dget_dset_same.
  split; [exact R|]. split; [intros other N; now apply dget_dset_other|]. now exists x.
Qed.
Lemma save_succeeds ftok fval stamp : float_texts ftok fval stamp -> forall txt ap oidf fuel can_open fs s q name,
  is_ok (snd (save_file ftok stamp txt ap oidf fuel can_open fs s q name)) = true <->
  can_open name = true /\ is_ok (snd (save_queue txt ap oidf fuel s q)) = true.
Proof.
  intros [Hf Hs] txt ap oidf fuel can_open fs s q name.
  destruct (save_file ftok stamp txt ap oidf fuel can_open fs s q name) as [[fs' s'] o] eqn:H1.
  destruct (save_queue txt ap oidf fuel s q) as [s2 r] eqn:H2.
  destruct (save_file_cases ftok fval stamp Hf Hs txt ap oidf fuel _ _ _ _ _ _ _ _ _ _ H1 H2) as [E C]. cbn [snd].
  destruct r as [es|e].
  - destruct (can_open name); [destruct C as [-> _]; now cbn|destruct C as [-> _]; cbn; intuition discriminate].
  - destruct C as [[-> _]|[(_ & -> & _)|(_ & _ & -> & _)]]; cbn; intuition discriminate.
Qed.
Lemma save_fails ftok fval stamp : float_texts ftok fval stamp -> forall txt ap oidf fuel can_open fs s q name fs' s' e,
  save_file ftok stamp txt ap oidf fuel can_open fs s q name = (fs', s', Err e) ->
  (forall other, other <> name -> dget fs' other = dget fs other) /\
  (fs' = fs \/ e = TypeError /\ can_open name = true /\ (exists x, dget fs' name = Some x) /\ read_file fval fs' name = Err ValueError /\
                snd (save_queue txt ap oidf fuel s q) = Err TypeError).
Proof.
  intros [Hf Hs] txt ap oidf fuel can_open fs s q name fs' s' e H1.
  destruct (save_queue txt ap oidf fuel s q) as [s2 r] eqn:H2.
  destruct (save_file_cases ftok fval stamp Hf Hs txt ap oidf fuel _ _ _ _ _ _ _ _ _ _ H1 H2) as [E C].
  destruct r as [es|x].
  - destruct (can_open name); [destruct C as [C _]; discriminate|]. destruct C as [_ ->]. split; [reflexivity|now left].
  - destruct C as [[_ ->]|[(_ & _ & ->)|(O & -> & X & y & -> & R)]]; [split; [reflexivity|now left]..|].
    split; [intros other N; now apply dget_dset_other|]. right. split; [congruence|]. split; [exact O|].
    unfold read_file. rewrite dget_dset_same. split; [now exists y|]. split; [exact R|reflexivity].
Qed.
Lemma conversion_fails ftok stamp txt ap oidf fuel can_open fs s q name s0 q0 s1 q1 e s2 :
  queue_or_active s q = (s0, q0) -> queue_or_active s0 (Some q0) = (s1, q1) -> dump_loop ap oidf fuel s1 q1 0 = (s2, Err e) ->
  save_file ftok stamp txt ap oidf fuel can_open fs s q name = (fs, s2, Err e).
Proof. intros A B C. unfold save_file. now rewrite A, B, C. Qed.

Lemma whole_token z : float_token (whole_tok z).
Proof.
  unfold whole_tok. destruct (write_int_shape z) as (sg & w & -> & S & W & _). right. right. right.
  exists sg, w, (t ".0"), []. split; [rewrite <- app_assoc; reflexivity|]. split; [exact S|]. split; [exact W|].
  split; [right; exists (t "0"); split; [reflexivity|]; split; [now apply digits_check|discriminate]|].
  split; [now left|left; discriminate].
Qed.
Lemma whole_texts : float_texts whole_tok whole_val noon.
Proof.
  split.
  - intros z. split; [apply whole_token|]. unfold whole_val, whole_tok.
    change (t ".0") with (["."%char] ++ ["0"%char])%list. rewrite app_assoc, removelast_last, removelast_last.
    pose proof (scan_int z [] I) as E. rewrite app_nil_r in E. now rewrite E.
  - intros i. exact (whole_token 1700000000).
Qed.
Lemma failed_save_witness : exists fs s name fs' s' es,
  read_file whole_val fs name = Ok es /\ es <> [] /\
  save_file whole_tok noon (fun _ _ => None) no_conv Z.of_nat 5%nat yes fs s (Some 0%nat) name = (fs', s', Err TypeError) /\
  dget fs' name <> dget fs name /\ read_file whole_val fs' name = Err ValueError.
Proof.
  exists disk, second_session, "s.json". eexists _, _, _.
  split; [vm_compute; reflexivity|]. split; [discriminate|]. split; [vm_compute; reflexivity|].
  split; [vm_compute; discriminate|vm_compute; reflexivity].
Qed.
Lemma failed_save_loses : ~ forall ftok fval stamp, float_texts ftok fval stamp -> forall txt ap oidf fuel can_open fs s q name fs' s' e,
  save_file ftok stamp txt ap oidf fuel can_open fs s q name = (fs', s', Err e) -> dget fs' name = dget fs name.
Proof.
  intros H. destruct failed_save_witness as (fs & s & name & fs' & s' & es & _ & _ & S & N & _). apply N.
  exact (H _ _ _ whole_texts _ _ _ _ _ _ _ _ _ _ _ _ S).
Qed.
