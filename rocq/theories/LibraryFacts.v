(** Proofs about sessions with the classes of the library. *)
From Verif Require Import Base Registry RegistrySpec Convert Command CommandSpec Queue QueueSpec Base64 Execute Json JsonSpec
  Session SessionSpec SessionFacts Protocol ProtocolSpec ProtocolFacts LibrarySpec.
Open Scope string_scope.
Open Scope nat_scope.

Lemma dget_some_in {V} (d : dict string V) n v : dget d n = Some v -> In n (dkeys d).
Proof. induction d as [|[k x] d IH]; cbn; [discriminate|]. destruct (String.eqb_spec n k) as [->|]; auto. Qed.
Lemma bind_params_keys ps args kw b : bind_params ps args kw = Ok b -> dkeys b = map p_name ps.
Proof.
  revert args b. induction ps as [|p ps IH]; intros args b; cbn [bind_params].
  - destruct args; intros E; [injection E as <-; reflexivity|discriminate].
  - destruct args as [|a args].
    + destruct (dget kw (p_name p)) as [v|].
      * destruct (bind_params ps [] kw) as [b'|] eqn:F; cbn [bind]; [|discriminate]. intros E. injection E as <-. cbn. f_equal. eauto.
      * destruct (p_default p); [|discriminate]. destruct (bind_params ps [] kw) as [b'|] eqn:F; cbn [bind]; [|discriminate].
        intros E. injection E as <-. cbn. f_equal. eauto.
    + destruct (dmem kw (p_name p)); [discriminate|]. destruct (bind_params ps args kw) as [b'|] eqn:F; cbn [bind]; [|discriminate].
      intros E. injection E as <-. cbn. f_equal. eauto.
Qed.

Section Library.
Variable body : string -> dict string value -> res (nat * nat).
Variable meth : string -> string -> bool.
Variable call : string -> string -> ref -> dict string value -> res value.
Notation B := (backend_of matplotlib body meth call).

Lemma library_class cl path pre post sg args kw : library_step (New cl path pre post sg args kw) ->
  exists k', find matplotlib path = Some k' /\ p_names (k_sig k') = p_names sg.
Proof.
  intros (k & K & P & T & D & N). subst path. pose proof (offered k K) as O. rewrite (recorded_names k K) in O.
  destruct (find matplotlib (k_path k)) as [k'|]; [|destruct O; congruence]. exists k'. split; [reflexivity|]. rewrite N. apply O.
Qed.
Lemma library_nodup path k : find matplotlib path = Some k -> NoDup (p_names (k_sig k)).
Proof.
  intros F. apply find_in in F. destruct F as [F _]. cbn in F.
  repeat (destruct F as [<-|F]; [vm_compute; repeat (constructor; [cbn; intuition discriminate|]); constructor|]). contradiction.
Qed.
(** What arrives binds to the backend's parameters of the same names. *)
Lemma library_bound txt pure oidf E d made bs cl path pre post sg args kw kws :
  library_step (New cl path pre post sg args kw) -> received txt pure oidf E d made bs sg args kw kws ->
  exists b, b_new B path kws = body path b /\ forall n, dget b n = dget kws n.
Proof.
  intros L (bound & Hb & Hr). destruct (library_class _ _ _ _ _ _ _ L) as (k' & F & N).
  assert (KB : dkeys bound = p_names sg).
  { unfold bind_args in Hb. destruct (forallb _ _); [|discriminate]. exact (bind_params_keys _ _ _ _ Hb). }
  assert (A : forall n, In n (dkeys kws) <-> In n (p_names (k_sig k'))).
  { intros n. rewrite N, <- KB. specialize (Hr n). split; intros I.
    - destruct (dget bound n) as [v|] eqn:D; [exact (dget_some_in _ _ _ D)|]. destruct (dget_in kws n I) as (w & W). congruence.
    - destruct (dget_in bound n I) as (w & W). rewrite W in Hr. destruct Hr as (w' & W' & _). exact (dget_some_in _ _ _ W'). }
  assert (E0 : exists b, bind_args (k_sig k') [] kws = Ok b /\ dkeys b = p_names (k_sig k') /\
     (NoDup (p_names (k_sig k')) -> forall n, In n (p_names (k_sig k')) -> dget b n = dget kws n)).
  { unfold bind_args. replace (forallb _ _) with true.
    - apply bind_all. intros n I. now apply A.
    - symmetry. apply forallb_forall. intros n I. apply existsb_exists. exists n. split; [now apply A|apply String.eqb_refl]. }
  destruct E0 as (b & E0 & KB' & G). specialize (G (library_nodup _ _ F)). exists b. split.
  - cbn [backend_of b_new]. rewrite F, E0. reflexivity.
  - intros n. destruct (in_dec string_dec n (p_names (k_sig k'))) as [J|J]; [auto|].
    destruct (dget b n) as [v|] eqn:D1; [apply dget_some_in in D1; rewrite KB' in D1; contradiction|].
    destruct (dget kws n) as [v|] eqn:D2; [apply dget_some_in in D2; apply A in D2; contradiction|reflexivity].
Qed.
Lemma received_same txt pure oidf E d made bs sg args kw kws b :
  received txt pure oidf E d made bs sg args kw kws -> (forall n, dget b n = dget kws n) -> received txt pure oidf E d made bs sg args kw b.
Proof. intros (bound & H1 & H2) G. exists bound. split; [exact H1|]. intros k. specialize (H2 k). now rewrite G. Qed.

Theorem library_session_thm E d txt pure c l sS rsS ap apS calls fuel s' rs' cls outs o :
  starting c -> fine_session txt pure E d c l -> l <> [] -> Forall library_step l ->
  ready sS -> recording rsS = true ->
  (forall r cl m sg args kw path, In (Call r cl m sg args kw) l -> In (r, path) (cl_made (acts E d c l)) -> meth path m = true) ->
  body_in_step body c (acts E d c l) rsS l ->
  (forall f v, apS f v = ([], pure f v)) -> length l <= fuel ->
  let c' := acts E d c l in
  exists file, save_queue txt apS (oid_in (cl_reg c')) fuel (cl_sys c') None = (cl_sys c', Ok file) /\
    (playback B ap calls rsS sS file = (s', (rs', cls, outs), o) ->
     (o = Ok tt ->
        Forall2 (done txt pure (oid_in (cl_reg c')) E d (cl_made c') (built outs)) l outs /\
        NoDup (built outs) /\ length (built outs) = length (cl_made c') /\
        forall r path R, stands_for (cl_made c') (built outs) r path R ->
          lookup rs' (oid_in (cl_reg c') r) = Some R /\ id_of rs' R = Some (oid_in (cl_reg c') r)) /\
     (forall e, o = Err e -> exists l1 a l2, l = (l1 ++ a :: l2)%list /\
        Forall2 (done txt pure (oid_in (cl_reg c')) E d (cl_made (acts E d c l1)) (built outs)) l1 outs /\
        NoDup (built outs) /\ length (built outs) = length (cl_made (acts E d c l1)) /\
        (forall r path R, stands_for (cl_made (acts E d c l1)) (built outs) r path R ->
          lookup rs' (oid_in (cl_reg (acts E d c l1)) r) = Some R /\ id_of rs' R = Some (oid_in (cl_reg (acts E d c l1)) r)) /\
        body_refused txt pure (oid_in (cl_reg c')) E d (cl_made (acts E d c l1)) (built outs) body call a e)).
Proof.
  intros Hs Hf Hn HL Hr Hrec Hm Hst Hp Hfu c'. rewrite Forall_forall in HL.
  assert (HO : offers B c l E d).
  { split.
    - intros cl path pre post sg args kw I. destruct (library_class _ _ _ _ _ _ _ (HL _ I)) as (k' & F & _).
      cbn [backend_of b_class]. now rewrite F.
    - exact Hm. }
  assert (HI : in_step B c (acts E d c l) rsS l).
  { destruct Hst as [H|[H1 H2]]; [now left|right]. split; [exact H1|]. intros cl path pre post sg args kw kws pre' post' I.
    cbn [backend_of b_new]. destruct (find matplotlib path) as [k|]; [|discriminate].
    destruct (bind_args (k_sig k) [] kws) as [b|]; cbn [bind]; [|discriminate]. apply (H2 _ _ _ _ _ _ _ _ _ _ I). }
  destruct (session E d txt pure c l sS rsS B ap apS calls fuel s' rs' cls outs o Hs Hf Hn Hr Hrec HO HI Hp Hfu) as (file & S1 & S2).
  exists file. split; [exact S1|]. intros P. destruct (S2 P) as [S3 S4]. split; [exact S3|]. intros e Ee.
  destruct (S4 e Ee) as (l1 & a & l2 & -> & D & D1 & D2 & D3 & R). exists l1, a, l2. split; [reflexivity|]. split; [exact D|].
  split; [exact D1|]. split; [exact D2|]. split; [exact D3|].
  assert (La : library_step a) by (apply HL; apply in_or_app; right; now left).
  destruct a as [cl path pre post sg args kw|r cl m sg args kw]; cbn [refused body_refused] in *.
  - destruct R as (kws & R & N). destruct (library_bound _ _ _ _ _ _ _ _ _ _ _ _ _ _ _ La R) as (b & Eb & G).
    exists b. split; [exact (received_same _ _ _ _ _ _ _ _ _ _ _ _ R G)|]. congruence.
  - exact R.
Qed.
End Library.

Lemma full_viewport_fine c path : In (0%nat, path) (cl_made c) -> fine no_text as_text two_classes str_to_color c full_viewport.
Proof.
  intros Hin. cbn [fine full_viewport]. split; [reflexivity|]. split; [reflexivity|]. split; [reflexivity|].
  split; [valid_signature|]. split; [distinct|].
  split; [intros ? ? H; cbn in H; each_param H; discriminate|]. split.
  - eexists. split; [reflexivity|]. intros k v H. cbn in H. found H; try (left; reflexivity).
    right. exists "Canvas", 0%nat, path. auto.
  - all_sent.
Qed.
Lemma a_pixel_fine c : fine no_text as_text two_classes str_to_color c a_pixel.
Proof.
  cbn [fine a_pixel]. split; [reflexivity|]. split; [reflexivity|]. split; [reflexivity|].
  split; [split; [constructor|split; [intros ? []|intros ? ? []]]|]. split; [constructor|].
  split; [intros ? ? []|]. split.
  - eexists. split; [reflexivity|]. intros k v H. discriminate H.
  - all_sent.
Qed.
Lemma library_case :
  let c := new_process in let l := library_session in
  let B := backend_of matplotlib quiet_body (fun _ _ => true) quiet_call in
  starting c /\ fine_session no_text as_text two_classes str_to_color c l /\ Forall library_step l /\ ready sinit /\
  body_in_step quiet_body c (acts two_classes str_to_color c l) rinit l /\
  exists file s' w, save_queue no_text saving (oid_in (cl_reg (acts two_classes str_to_color c l))) 3 (cl_sys (acts two_classes str_to_color c l)) None
    = (cl_sys (acts two_classes str_to_color c l), Ok file) /\
  playback B as_text (fun _ => []) rinit sinit file = (s', w, Ok tt) /\
  snd w = [Built 0 "core.Canvas" [("width", VInt 512); ("height", VInt 256); ("dpi", VFloat 100)];
           Built 1 "core.Viewport" [("canvas", VObj "core.Canvas" 0); ("x", VInt 0); ("y", VInt 0); ("width", VInt 512); ("height", VInt 256);
                                    ("color", VSeq [VStr "red"; VFloat 3])];
           Called 0 "render" [("target", VStr "out.png")] VNone].
Proof.
  cbv zeta. split; [apply starting_process|]. split.
  { split; [apply a_canvas_fine|]. split; [eapply full_viewport_fine; left; reflexivity|].
    split; [eapply a_render_fine; left; reflexivity | exact I]. }
  split.
  { apply Forall_cons; [|apply Forall_cons; [|apply Forall_cons; [exact I|apply Forall_nil]]].
    - exists (mkCls "core.Canvas" "core.Canvas" canvas_sig). split; [cbn; tauto|]. split; [reflexivity|]. split; [reflexivity|]. split; [discriminate|reflexivity].
    - exists (mkCls "core.Viewport" "core.Viewport" viewport_sig). split; [cbn; tauto|]. split; [reflexivity|]. split; [reflexivity|]. split; [discriminate|reflexivity]. }
  split; [apply ready_init|]. split.
  { right. split; [cbn; lia|]. intros cl path pre post sg args kw b pre' post' H _.
    cbn in H. destruct H as [H|[H|[H|[]]]]; try discriminate H; injection H; intros; subst; lia. }
  do 3 eexists. split; [vm_compute; reflexivity|]. split; [vm_compute; reflexivity | reflexivity].
Qed.
Lemma pixel_lost :
  let c := new_process in let l := pixel_session in
  let B := backend_of matplotlib quiet_body (fun _ _ => true) quiet_call in
  starting c /\ fine_session no_text as_text two_classes str_to_color c l /\
  (exists k, In k protocol /\ k_path k = "transform.Pixel" /\ p_names (k_sig k) = []) /\
  exists file s' w, save_queue no_text saving (oid_in (cl_reg (acts two_classes str_to_color c l))) 3 (cl_sys (acts two_classes str_to_color c l)) None
    = (cl_sys (acts two_classes str_to_color c l), Ok file) /\
  playback B as_text (fun _ => []) rinit sinit file = (s', w, Err AttributeError) /\
  snd w = [Built 0 "core.Canvas" [("width", VInt 512); ("height", VInt 256); ("dpi", VFloat 100)]].
Proof.
  cbv zeta. split; [apply starting_process|]. split.
  { split; [apply a_canvas_fine|]. split; [apply a_pixel_fine|]. split; [eapply full_viewport_fine; left; reflexivity | exact I]. }
  split; [exists (mkCls "transform.Pixel" "transform.Pixel" (takes [])); split; [cbn; tauto|split; reflexivity]|].
  do 3 eexists. split; [vm_compute; reflexivity|]. split; [vm_compute; reflexivity | reflexivity].
Qed.
