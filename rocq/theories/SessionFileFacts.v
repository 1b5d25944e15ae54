(** Proofs about saving and loading by file name. *)
From Verif Require Import Base Registry Convert Command CommandSpec CommandFacts Queue QueueSpec QueueFacts Base64 Execute Json JsonSpec JsonFacts
  Session SessionSpec SessionFacts JsonText JsonTextSpec JsonFile JsonFileSpec JsonFileFacts AnyFile AnyFileSpec AnyFileFacts SessionFile SessionFileSpec.
Open Scope string_scope.

(** ** Names *)
Lemma app_assoc_str (a b c : string) : (a ++ b) ++ c = a ++ b ++ c.
Proof. induction a as [|x a IH]; cbn [append]; [reflexivity|now rewrite IH]. Qed.
Lemma app_nil_str (a : string) : a ++ "" = a.
Proof. induction a as [|x a IH]; cbn [append]; [reflexivity|now rewrite IH]. Qed.
Lemma split_nonempty c s : split_on c s <> [].
Proof. destruct s as [|x s]; cbn [split_on]; [discriminate|]. destruct (Ascii.eqb x c); [discriminate|]. destruct (split_on c s); discriminate. Qed.
Lemma split_app c a b : split_on c (a ++ String c b) = (split_on c a ++ split_on c b)%list.
Proof.
  induction a as [|x a IH]; cbn [append split_on].
  - now rewrite Ascii.eqb_refl.
  - rewrite IH. destruct (Ascii.eqb x c); [reflexivity|]. pose proof (split_nonempty c a). destruct (split_on c a) as [|h t]; [congruence|reflexivity].
Qed.
Fixpoint slashed (l : list string) : string := match l with [] => "" | x :: r => "/" ++ x ++ slashed r end.
Lemma split_join s : exists x l, split_on "/" s = x :: l /\ s = x ++ slashed l /\ Forall (fun y => contains "/" y = false) (x :: l).
Proof.
  induction s as [|a s (x & l & E & J & F)]; cbn [split_on].
  - exists "", []. repeat split. constructor; [reflexivity|constructor].
  - destruct (Ascii.eqb_spec a "/"%char) as [->|N].
    + exists "", (x :: l). rewrite E. split; [reflexivity|]. split; [cbn [slashed append]; now rewrite <- J|]. constructor; [reflexivity|exact F].
    + rewrite E. exists (String a x), l. split; [reflexivity|]. split; [cbn [append]; now rewrite <- J|].
      apply Forall_cons_iff in F as (F1 & F2). constructor; [|exact F2]. cbn [contains]. rewrite F1.
      destruct (Ascii.eqb_spec "/" a); [congruence|reflexivity].
Qed.
Lemma slashed_app l r : slashed (l ++ r) = slashed l ++ slashed r.
Proof. induction l as [|x l IH]; [reflexivity|]. cbn [app slashed]. rewrite IH, !app_assoc_str. reflexivity. Qed.
Lemma not_component x : component x = false -> x = "" \/ x = ".".
Proof. unfold component. destruct (String.eqb_spec x ""), (String.eqb_spec x "."); try discriminate; auto. Qed.
Lemma a_component x : component x = true <-> x <> "" /\ x <> ".".
Proof. unfold component. destruct (String.eqb_spec x ""), (String.eqb_spec x "."); cbn; intuition discriminate. Qed.
Lemma slashed_trailing l : filter component l = [] -> trailing (slashed l).
Proof.
  induction l as [|x l IH]; cbn [filter slashed]; [constructor|]. destruct (component x) eqn:C; [discriminate|]. intros E. specialize (IH E).
  apply not_component in C as [->| ->]; cbn [append]; [now apply trailing_slash | now apply trailing_dot].
Qed.
Lemma trailing_split r : trailing r -> forall c, contains "/" c = false -> exists l, split_on "/" (c ++ r) = c :: l /\ filter component l = [].
Proof.
  induction 1 as [|r T IH|r T IH]; intros c C.
  - exists []. rewrite app_nil_str. split; [now apply split_none|reflexivity].
  - destruct (IH "" eq_refl) as (l & E & F). exists ("" :: l). change ("/" ++ r) with (String "/" r). rewrite split_app, (split_none _ _ C).
    cbn [append] in E. rewrite E. split; [reflexivity|exact F].
  - destruct (IH "." eq_refl) as (l & E & F). exists ("." :: l). change ("/." ++ r) with (String "/" ("." ++ r)). rewrite split_app, (split_none _ _ C), E.
    split; [reflexivity|exact F].
Qed.
Lemma last_filter {A} (f : A -> bool) l d x : last (filter f l) d = x -> x <> d -> exists l1 l2, l = (l1 ++ x :: l2)%list /\ f x = true /\ filter f l2 = [].
Proof.
  induction l as [|y l IH]; cbn [filter]; [intros <- N; now destruct N|]. destruct (f y) eqn:E.
  - destruct (filter f l) as [|z r] eqn:F.
    + intros <- N. exists [], l. repeat split; auto.
    + cbn [last]. intros H N. destruct (IH H N) as (l1 & l2 & -> & P & Q). exists (y :: l1), l2. auto.
  - intros H N. destruct (IH H N) as (l1 & l2 & -> & P & Q). exists (y :: l1), l2. auto.
Qed.
Lemma name_iff p c : c <> "" -> (path_name p = c <-> names_file p c).
Proof.
  intros N. unfold path_name, names_file. split.
  - intros H. destruct (last_filter _ _ _ _ H N) as (l1 & l2 & E & C & F). destruct (split_join p) as (x & l & E' & J & A).
    apply a_component in C as (_ & C). rewrite <- E', E in A. apply Forall_app in A as (_ & A). apply Forall_cons_iff in A as (A & _).
    split; [exact N|]. split; [exact C|]. split; [exact A|]. rewrite E' in E.
    destruct l1 as [|y l1]; cbn [app] in E; injection E as -> ->.
    + exists "", (slashed l2). split; [exact J|]. split; [now left|]. now apply slashed_trailing.
    + exists (y ++ slashed l1 ++ "/"), (slashed l2). split; [rewrite J, slashed_app; cbn [slashed]; now rewrite !app_assoc_str|].
      split; [right; exists (y ++ slashed l1); now rewrite app_assoc_str|now apply slashed_trailing].
  - intros (_ & D & S & pre & post & -> & P & T). destruct (trailing_split post T c S) as (l & E & F).
    assert (G : forall L, last (filter component (L ++ c :: l)) "" = c).
    { intros L. rewrite filter_app. cbn [filter]. rewrite (proj2 (a_component c) (conj N D)), F. apply last_last. }
    destruct P as [->|(d & ->)].
    + cbn [append]. rewrite E. exact (G []).
    + rewrite app_assoc_str. change ("/" ++ c ++ post) with (String "/" (c ++ post)). rewrite split_app, E. apply G.
Qed.
Lemma last_dot_spec s : match last_dot s with
  | Some (a, b) => s = a ++ "." ++ b /\ contains "." b = false
  | None => contains "." s = false
  end.
Proof.
  induction s as [|x s IH]; cbn [last_dot]; [reflexivity|]. destruct (last_dot s) as [[a b]|].
  - destruct IH as (-> & C). split; [reflexivity|exact C].
  - destruct (Ascii.eqb_spec x "."%char) as [->|N]; [split; [reflexivity|exact IH]|]. cbn [contains]. rewrite IH.
    destruct (Ascii.eqb_spec "." x); [congruence|reflexivity].
Qed.
Lemma contains_app c a b : contains c (a ++ b) = (contains c a || contains c b)%bool.
Proof. induction a as [|x a IH]; cbn [append contains]; [reflexivity|]. now rewrite IH, Bool.orb_assoc. Qed.
Lemma last_dot_app a b : contains "." b = false -> last_dot (a ++ "." ++ b) = Some (a, b).
Proof.
  intros C. induction a as [|x a IH].
  - cbn [append last_dot]. pose proof (last_dot_spec b) as S. destruct (last_dot b) as [[u v]|]; [|reflexivity].
    destruct S as (-> & _). rewrite contains_app in C. cbn in C. rewrite Bool.orb_true_r in C. discriminate.
  - cbn [append last_dot] in *. now rewrite IH.
Qed.
Lemma suffix_iff p f : f <> "" -> (suffix p = f <-> exists c, names_file p c /\ with_suffix c f).
Proof.
  intros N. unfold suffix. split.
  - intros H. pose proof (last_dot_spec (path_name p)) as S. destruct (last_dot (path_name p)) as [[a b]|]; [|congruence].
    destruct (String.eqb_spec a "") as [_|A]; [congruence|]. subst b. destruct S as (E & C). exists (path_name p). split.
    + apply name_iff; [rewrite E; destruct a; [congruence|discriminate]|reflexivity].
    + exists a. auto.
  - intros (c & M & stem & A & E & C). assert (c <> "") by (rewrite E; destruct stem; [congruence|discriminate]).
    apply name_iff in M; [|assumption]. rewrite M, E, (last_dot_app _ _ C). destruct (String.eqb_spec stem ""); [congruence|reflexivity].
Qed.
Lemma json_iff format name : format_of format name = "json" <-> json_file format name.
Proof.
  unfold format_of, json_file. pose proof (suffix_iff name "json" ltac:(discriminate)) as S. destruct format as [f|].
  - destruct (String.eqb_spec f "") as [->|N].
    + rewrite S. split; [intros H; right; auto|]. intros [H|(_ & H)]; [discriminate|exact H].
    + split; [intros ->; now left|]. intros [[= ->]|([H|[= H]] & _)]; [reflexivity|discriminate|congruence].
  - rewrite S. split; [intros H; right; auto|]. intros [H|(_ & H)]; [discriminate|exact H].
Qed.

(** ** Cut files *)
Lemma value_of_err fval v e : value_of fval v = Err e -> e = NotImplementedError.
Proof.
  revert v e. fix IH 1. intros v e. destruct v as [| b | z | k | s | l | d |]; cbn [value_of]; try discriminate; try (now intros [= <-]).
  intros H. match type of H with (let* l' := ?g l in _) = _ => assert (A : forall e, g l = Err e -> e = NotImplementedError) end.
  { clear H e. induction l as [|x l IHl]; intros e E; [discriminate|]. cbn in E.
    destruct (value_of fval x) as [x'|e'] eqn:Ex; cbn [bind] in E; [|injection E as <-; exact (IH x e' Ex)].
    match type of E with (let* r' := ?g l in _) = _ => destruct (g l) as [r'|e'] eqn:Er; [discriminate|] end. injection E as <-. exact (IHl _ eq_refl). }
  match type of H with (let* l' := ?g l in _) = _ => destruct (g l) as [l'|e'] eqn:El; [discriminate|] end. injection H as <-. exact (A _ eq_refl).
Qed.
Lemma subscript_err v k e : subscript v k = Err e -> e = KeyError \/ e = TypeError.
Proof.
  destruct v as [| | | | | |d|]; cbn [subscript]; try (intros [= <-]; now right).
  destruct (item_cases d (of_string k)) as [(w & ->)|E]; [discriminate|]. rewrite E. intros [= <-]. now left.
Qed.
Lemma read_entry_err fval v e : read_entry fval v = Err e -> e <> ValueError.
Proof.
  unfold read_entry. destruct (subscript v "method") as [m|e1] eqn:E1; cbn [bind]; [|intros [= <-]; apply subscript_err in E1 as [->| ->]; discriminate].
  destruct (subscript v "id") as [i|e1] eqn:E2; cbn [bind]; [|intros [= <-]; apply subscript_err in E2 as [->| ->]; discriminate].
  destruct (subscript v "parameters") as [p|e1] eqn:E3; cbn [bind]; [|intros [= <-]; apply subscript_err in E3 as [->| ->]; discriminate].
  destruct m as [| | | |m| | |]; try (intros [= <-]; discriminate). destruct i as [| |i| | | | |]; try (intros [= <-]; discriminate).
  destruct p as [| | | | | |d|]; try (intros [= <-]; discriminate).
  match goal with |- (let* p' := ?g in _) = _ -> _ => assert (A : forall e, g = Err e -> e = NotImplementedError) end.
  { clear. induction d as [|[k w] d IH]; intros e; cbn [each fst snd]; [discriminate|].
    destruct (value_of fval w) as [j|e1] eqn:V; cbn [bind]; [|intros [= <-]; exact (value_of_err _ _ _ V)].
    match goal with |- (let* r' := ?g in _) = _ -> _ => destruct g as [r'|e1] eqn:R; [discriminate|] end. intros [= <-]. exact (IH _ eq_refl). }
  match goal with |- (let* p' := ?g in _) = _ -> _ => destruct g as [p'|e1] eqn:P; [discriminate|] end. intros [= <-]. rewrite (A _ eq_refl). discriminate.
Qed.
Lemma unreadable fval x : read_text fval x = Err ValueError -> forall v, loads x <> Ok v.
Proof.
  unfold read_text. intros H v E. rewrite E in H. cbn [bind] in H.
  destruct (subscript v "commands") as [c|e] eqn:S; cbn [bind] in H; [|injection H as ->; apply subscript_err in S as [S|S]; discriminate].
  destruct c as [| | | | |l| |]; try discriminate H. induction l as [|x1 l IH]; [discriminate|]. cbn [each] in H.
  destruct (read_entry fval x1) as [en|e] eqn:R; cbn [bind] in H; [|injection H as ->; now apply (read_entry_err _ _ _ R)].
  destruct (each (read_entry fval) l) as [r|e] eqn:Er; [discriminate|]. injection H as ->.
  clear - Er. revert Er. induction l as [|x2 l IH]; [discriminate|]. cbn [each].
  destruct (read_entry fval x2) as [en|e] eqn:R; cbn [bind]; [|intros [= ->]; now apply (read_entry_err _ _ _ R)].
  destruct (each (read_entry fval) l) as [r|e]; [discriminate|]. intros [= ->]. now apply IH.
Qed.

(** ** Whole sessions *)
Section Sessions.
Context (ftok : Z -> text) (fval : text -> Z) (stamp : nat -> text) (code : list (pystr * jt) -> Z).
Lemma play_agrees B ap calls rs s fs format name x es : json_file format name -> dget fs name = Some x -> read_text fval x = Ok es ->
  play_file fval code B ap calls rs s fs format name = playback B ap calls rs s es.
Proof.
  intros J D R. unfold play_file, gsp_load_file, playback, gsp_load. destruct (get_queue s None) as [s1 q].
  rewrite (proj2 (json_iff _ _) J), String.eqb_refl, D, (text_agrees fval code (empty s1 q) None x es R). destruct (load_queue (empty s1 q) None (Ok es)) as [s3 o]. reflexivity.
Qed.
Definition reset (rs : rstate) : rstate := mkR (counter rs) (recording rs) [] (heap rs).
Lemma play_refused B ap calls rs s fs format name o :
  (if String.eqb (format_of format name) "json" then match dget fs name with None => o = os_error | Some x => o = ValueError /\ forall v, loads x <> Ok v end else o = ValueError) ->
  play_file fval code B ap calls rs s fs format name =
  (empty (fst (get_queue s None)) (snd (get_queue s None)), (reset rs, (fun _ => ""), []), Err o).
Proof.
  intros H. unfold play_file, gsp_load_file, reset. destruct (get_queue s None) as [s1 q]. cbn [fst snd]. destruct (String.eqb (format_of format name) "json").
  - destruct (dget fs name) as [x|].
    + destruct H as (-> & N). now rewrite (not_json fval code (empty s1 q) None x N).
    + now subst o.
  - now subst o.
Qed.
Lemma cleared h : let s1 := fst (get_queue (history h) None) in let q := snd (get_queue (history h) None) in
  chosen (history h) None s1 q /\ commands (empty s1 q) q = [] /\ only_queue q s1 (empty s1 q) /\ cids (empty s1 q) = cids (history h).
Proof.
  destruct (get_active_spec (history h) (wf_history h)) as (X & _ & _ & L & _). cbv zeta in *. destruct (get_queue (history h) None) as [s1 q] eqn:G. cbn [fst snd] in *.
  destruct (emptied s1 q L) as (A & B & _ & C). split; [right; split; [now left|exact G]|]. split; [exact A|]. split; [exact B|].
  rewrite C. apply X.
Qed.

Context (FT : float_texts ftok fval stamp).
Lemma sessions_redone E d txt pure c l sS rsS B ap apS calls fuel can_open fs format name :
  starting c -> fine_session txt pure E d c l -> l <> [] -> ready sS -> recording rsS = true ->
  offers B c l E d -> in_step B c (acts E d c l) rsS l ->
  (forall f v, apS f v = ([], pure f v)) -> (length l <= fuel)%nat -> can_open name = true -> json_file format name ->
  let c' := acts E d c l in
  exists x, gsp_save ftok stamp txt apS (oid_in (cl_reg c')) fuel can_open fs (cl_sys c') format name = (dset fs name x, cl_sys c', Ok tt) /\
  forall p, beginning p x -> forall s' rs' cls outs o, play_file fval code B ap calls rsS sS (dset fs name p) format name = (s', (rs', cls, outs), o) ->
    (p = x ->
      (o = Ok tt ->
        Forall2 (done txt pure (oid_in (cl_reg c')) E d (cl_made c') (built outs)) l outs /\
        NoDup (built outs) /\ length (built outs) = length (cl_made c') /\
        forall r path R, stands_for (cl_made c') (built outs) r path R ->
          lookup rs' (oid_in (cl_reg c') r) = Some R /\ id_of rs' R = Some (oid_in (cl_reg c') r)) /\
      (forall e, o = Err e -> exists l1 a l2, l = (l1 ++ a :: l2)%list /\
        Forall2 (done txt pure (oid_in (cl_reg c')) E d (cl_made (acts E d c l1)) (built outs)) l1 outs /\
        NoDup (built outs) /\ length (built outs) = length (cl_made (acts E d c l1)) /\
        (forall r path R, stands_for (cl_made (acts E d c l1)) (built outs) r path R ->
          lookup rs' (oid_in (cl_reg (acts E d c l1)) r) = Some R /\ id_of rs' R = Some (oid_in (cl_reg (acts E d c l1)) r)) /\
        SessionSpec.refused txt pure (oid_in (cl_reg c')) E d (cl_made (acts E d c l1)) (built outs) B a e)) /\
    (p <> x -> o = Err ValueError /\ outs = [] /\ exists s1 q1, chosen sS None s1 q1 /\ commands s' q1 = [] /\ only_queue q1 s1 s').
Proof.
  intros Hst Hf Hl Hr Hrec Hof Hin Hap Hfu Hop Hj c'.
  destruct (session E d txt pure c l sS rsS B ap apS calls fuel sS rinit (fun _ => "") [] (Ok tt) Hst Hf Hl Hr Hrec Hof Hin Hap Hfu) as (file & Hs & _).
  fold c' in Hs.
  destruct (save_file ftok stamp txt apS (oid_in (cl_reg c')) fuel can_open fs (cl_sys c') None name) as [[fs' s2] o2] eqn:W.
  pose proof (save_succeeds ftok fval stamp FT txt apS (oid_in (cl_reg c')) fuel can_open fs (cl_sys c') None name) as S. rewrite W, Hs, Hop in S. cbn [snd is_ok] in S.
  assert (o2 = Ok tt) as ->. { destruct o2 as [[]|e]; [reflexivity|]. destruct S as (_ & S). now specialize (S (conj eq_refl eq_refl)). }
  destruct (save_reads_back ftok fval stamp FT txt apS (oid_in (cl_reg c')) fuel can_open fs (cl_sys c') None name fs' s2 _ _ Hop W Hs) as (-> & R & _ & x & Dx & K).
  assert (F : fs' = dset fs name x).
  { unfold save_file in W. destruct (queue_or_active (cl_sys c') None) as [s0 q0]. destruct (queue_or_active s0 (Some q0)) as [s1 q1].
    destruct (dump_loop apS (oid_in (cl_reg c')) fuel s1 q1 0) as [s3 [es|e]]; [|discriminate]. rewrite Hop in W.
    destruct (write Compact 0 (payload ftok txt (oid_in (cl_reg c')) stamp es)) as [y ok]. injection W as <- _ _. rewrite dget_dset_same in Dx. now injection Dx as ->. }
  subst fs'. exists x. split.
  { unfold gsp_save. now rewrite (proj2 (json_iff _ _) Hj), String.eqb_refl, W. }
  unfold read_file in R. rewrite dget_dset_same in R.
  intros p Hb s' rs' cls outs o Hp. split.
  - intros ->. rewrite (play_agrees B ap calls rsS sS (dset fs name x) format name x file Hj (dget_dset_same _ _ _) R) in Hp.
    destruct (session E d txt pure c l sS rsS B ap apS calls fuel s' rs' cls outs o Hst Hf Hl Hr Hrec Hof Hin Hap Hfu) as (file' & Hs' & G).
    fold c' in Hs'. rewrite Hs in Hs'. injection Hs' as <-. exact (G Hp).
  - intros N. assert (C : cut_short p x).
    { destruct Hb as (r & Hb). exists r. split; [|exact Hb]. intros ->. apply N. rewrite Hb. now rewrite app_nil_r. }
    assert (U := unreadable fval p (K p C)).
    destruct Hr as ((hS & ->) & _). rewrite (play_refused B ap calls rsS (history hS) (dset fs name p) format name ValueError) in Hp.
    2: { rewrite (proj2 (json_iff _ _) Hj), String.eqb_refl, dget_dset_same. auto. }
    injection Hp as <- <- <- <- <-. split; [reflexivity|]. split; [reflexivity|]. destruct (cleared hS) as (A & A2 & A3 & _). eauto.
Qed.
End Sessions.
Lemma not_saved ftok stamp txt ap oidf fuel can_open fs s format name : ~ json_file format name ->
  gsp_save ftok stamp txt ap oidf fuel can_open fs s format name = (fs, s, Err ValueError).
Proof. intros N. unfold gsp_save. destruct (String.eqb_spec (format_of format name) "json") as [E|_]; [apply json_iff in E; contradiction|reflexivity]. Qed.
Lemma saved_as ftok stamp txt ap oidf fuel can_open fs s format name : json_file format name ->
  gsp_save ftok stamp txt ap oidf fuel can_open fs s format name = save_file ftok stamp txt ap oidf fuel can_open fs s None name.
Proof. intros J. unfold gsp_save. now rewrite (proj2 (json_iff _ _) J), String.eqb_refl. Qed.
Lemma not_played fval code B ap calls rs h fs format name s' rs' cls outs o :
  ~ json_file format name \/ dget fs name = None -> play_file fval code B ap calls rs (history h) fs format name = (s', (rs', cls, outs), o) ->
  (exists e, o = Err e /\ (e = ValueError \/ e = os_error)) /\ outs = [] /\ objects rs' = [] /\ counter rs' = counter rs /\ heap rs' = heap rs /\
  exists s1 q1, chosen (history h) None s1 q1 /\ commands s' q1 = [] /\ only_queue q1 s1 s'.
Proof.
  intros H P. destruct (cleared h) as (A & A2 & A3 & _).
  assert (G : exists e, (e = ValueError \/ e = os_error) /\ play_file fval code B ap calls rs (history h) fs format name =
    (empty (fst (get_queue (history h) None)) (snd (get_queue (history h) None)), (reset rs, (fun _ => ""), []), Err e)).
  { destruct (String.eqb_spec (format_of format name) "json") as [E|E].
    - destruct H as [H|H]; [apply json_iff in E; contradiction|]. exists os_error. split; [now right|]. apply play_refused. now rewrite E, String.eqb_refl, H.
    - exists ValueError. split; [now left|]. apply play_refused. apply String.eqb_neq in E. now rewrite E. }
  destruct G as (e & He & G). rewrite G in P. injection P as <- <- <- <- <-. split; [eauto|]. repeat split. eauto.
Qed.
Lemma ends_in_json : ~ forall name stem, name = stem ++ ".json" -> json_file None name.
Proof. intros H. specialize (H ".json" "" eq_refl). apply json_iff in H. vm_compute in H. discriminate. Qed.
