(** Proofs about Gallery.v. *)
From Coq Require Import Reals Lra Permutation.
From Verif Require Import Base Registry Convert Command CommandSpec CommandFacts Queue QueueSpec Base64 Base64Facts Execute Json Session SessionSpec SessionFacts
  JsonText JsonTextSpec JsonFile JsonFileSpec AnyFile AnyFileSpec SessionFile SessionFileSpec SessionFileFacts
  Measure Viewport ViewportSpec ViewportFacts Panes PanesFacts Glm GlmSpec Vec VecSpec Render RenderSpec Picture PictureSpec PictureFacts Outline OutlineSpec OutlineFacts
  Remote RemoteSpec RemoteFacts Relay RelaySpec RelayFacts Gallery GallerySpec.
Open Scope string_scope.

Lemma parameters_visual path ks : parameters path = Some ks -> is_visual path.
Proof.
  unfold parameters, is_visual. intros H.
  repeat match type of H with (if String.eqb path ?s then _ else _) = _ => let X := fresh "X" in destruct (String.eqb path s) eqn:X; [apply String.eqb_eq in X; subst path; cbn; tauto|] end.
  discriminate.
Qed.
Section Same.
  Context {C Pic : Type} (num : Z -> Qc) (hue : Command.value -> C) (arrays : string -> Z -> option arr)
          (unpack : Command.value -> list N -> res (Vec.kind * list Vec.num)) (look : Command.value -> given)
          (paint : string -> Viewport.viewport -> dict string var -> res Pic).
  Context (txt : string -> Z -> option jval) (pure : func -> Command.value -> res Command.value) (oidf : ref -> Z) (E : cenv) (d : registry).
  Context (mades : list (ref * string)) (bs : list ref) (Dm : NoDup (map fst mades)) (Db : NoDup bs).
  Notation construct := (construct num hue arrays unpack look).
  Notation paired := (paired mades bs).
  Notation arrives := (arrives txt pure oidf E d mades bs).

  Definition alike (t t' : hall C Pic) : Prop := Forall2 (fun x y => snd x = snd y /\ paired (fst x) (fst y)) t t'.
  Definition both (x y : res (hall C Pic)) : Prop :=
    match x, y with Ok t, Ok t' => alike t t' | Err e, Err e' => e = e' | _, _ => False end.

  Lemma located_alike t t' k K : alike t t' -> paired k K -> forall n, located t k n = located t' K n.
  Proof.
    intros A P. induction A as [|[r a] [R b] t t' (X & Y) A IH]; intros n; [reflexivity|]. cbn [fst snd] in X, Y. subst b. cbn [located].
    rewrite (paired_eqb mades bs Dm Db r R k K Y P). now rewrite IH.
  Qed.
  Lemma replaced_alike t t' n x : alike t t' -> alike (replaced t n x) (replaced t' n x).
  Proof.
    intros A. revert n. induction A as [|[r b] [R b'] t t' (X & Y) A IH]; intros n; [constructor|]. cbn [fst snd] in X, Y. subst b'. cbn [replaced].
    destruct n; constructor; cbn; auto. apply IH.
  Qed.
  Lemma placed_alike t t' n : alike t t' -> placed_at t n = placed_at t' n.
  Proof.
    intros A. unfold placed_at. revert n. induction A as [|[r b] [R b'] t t' (X & Y) A IH]; intros [|n]; try reflexivity; cbn in *; [congruence|apply IH].
  Qed.
  Lemma add_alike t t' r R x : alike t t' -> paired r R -> alike (t ++ [(r, x)])%list (t' ++ [(R, x)])%list.
  Proof. intros A P. apply Forall2_app; [exact A|]. constructor; [|constructor]. now split. Qed.

  (** *** Values *)
  Lemma kept_arrives sg k v w : arrives (dget (annotations (s_params sg)) k) v w -> no_converter E d sg k v -> is_object v = false ->
    exists j, encode txt oidf v = Ok j /\ w = decode j.
  Proof.
    intros (x & X & J) N O.
    assert (x = v) as ->.
    { destruct X as [(X & _)|(_ & a & b & f & (l1 & l2 & T & _) & I & F & _)]; [exact X|].
      rewrite (N _ a b T) in F; [discriminate| |exact I]. apply in_or_app. right. now left. }
    destruct v; try discriminate O; exact J.
  Qed.
  Lemma meaning_arrives {X} (f : Command.value -> X) anns v w : arrives anns v w -> same_meaning txt pure f v ->
    f w = f v /\ exists j, w = decode j.
  Proof.
    intros (x & Y & J) (O & Q & H).
    assert (Ox : is_object x = false) by (destruct Y as [(-> & _)|(_ & a & b & g & _ & _ & _ & Y)]; [exact O|eauto]).
    assert (G : exists j, encode txt oidf x = Ok j /\ w = decode j) by (destruct x; try discriminate Ox; exact J).
    destruct G as (j & G & ->). split; [|eauto]. apply (H oidf x j); [|exact G].
    destruct Y as [(Y & _)|(_ & a & b & g & _ & _ & _ & Y)]; eauto.
  Qed.
  Lemma object_arrives anns cl r w : arrives anns (VObj cl r) w -> exists path R, w = VObj path R /\ paired r R.
  Proof.
    intros (x & X & J). destruct X as [(-> & _)|(F & _)]; [|discriminate]. destruct J as (path & R & S & ->). exists path, R. split; [reflexivity|]. now exists path.
  Qed.
  Lemma decoded j : (forall c z, decode j <> VAtom c z) /\ (forall c r, decode j <> VObj c r).
  Proof. destruct j; split; discriminate. Qed.

  (** The buffers made so far are on the stage. *)
  Definition stored (t : hall C Pic) (bufs : list (ref * dict string Command.value)) : Prop :=
    forall r b, In (r, b) bufs -> exists i count dtype data x, arg b "count" = Ok count /\ arg b "dtype" = Ok dtype /\ arg b "data" = Ok data /\
      new_memory (C := C) (P := Pic) unpack count dtype data = Ok x /\ located t r 0 = Some (i, x).

  Lemma mirrored_array t bufs V r b : stored t bufs -> In (r, b) bufs -> holds_memory unpack V b ->
    exists i, located t r 0 = Some (i, Memory (Ok (mkA (a_kind V) (Flat (elements (a_data V))))) (Z.of_nat (rows V))).
  Proof.
    intros S I (Cn & dt & data & bytes & Dt & Da & Db' & U). destruct (S r b I) as (i & c & dt' & da & x & A1 & A2 & A3 & N & F).
    exists i. rewrite F. f_equal. f_equal. unfold arg in A1, A2, A3. rewrite Cn in A1. rewrite Dt in A2. rewrite Da in A3.
    injection A1 as <-. injection A2 as <-. injection A3 as <-. unfold new_memory in N. cbn [bind] in N.
    destruct Db' as [-> |(s & -> & Ds)].
    - rewrite U in N. cbn [bind fst snd] in N. now injection N as <-.
    - rewrite Ds in N. cbn [bind] in N. rewrite U in N. cbn [bind fst snd] in N. now injection N as <-.
  Qed.

  Lemma array_cases t t' bufs sg path k v w : alike t t' -> stored t bufs ->
    fine_variable arrays unpack look txt pure E d bufs sg path k v -> arrives (dget (annotations (s_params sg)) k) v w ->
    (array_at arrays t v = None /\ array_at arrays t' w = None /\
       ((exists cl r cl' R, v = VObj cl r /\ w = VObj cl' R) \/ is_object v = false /\ is_object w = false /\ look w = look v)) \/
    (exists A n, array_at arrays t v = Some (A, n) /\ array_at arrays t' w = Some (A, n)) \/
    (exists V, array_at arrays t v = Some (Ok V, Z.of_nat (rows V)) /\
       array_at arrays t' w = Some (Ok (flat V), Z.of_nat (rows V)) /\ ((k = "positions" /\ path <> "visual.Pixels") \/ exists l, a_data V = Flat l)).
  Proof.
    intros A S F W.
    assert (M : same_meaning txt pure look v -> array_at arrays t v = None -> is_object v = false ->
      (array_at arrays t v = None /\ array_at arrays t' w = None /\
       ((exists cl r cl' R, v = VObj cl r /\ w = VObj cl' R) \/ is_object v = false /\ is_object w = false /\ look w = look v))).
    { intros Sm N O. destruct (meaning_arrives look _ v w W Sm) as (L & j & ->). split; [exact N|]. destruct (decoded j) as [D1 D2].
      split; [|right; split; [exact O|]; split; [|exact L]].
      - destruct (decode j); try reflexivity; [now destruct (D1 _ _ eq_refl)|now destruct (D2 _ _ eq_refl)].
      - destruct (decode j); try reflexivity; now destruct (D2 _ _ eq_refl). }
    destruct v as [| | | | | |c z|cl r| |]; cbn [fine_variable] in F; try (left; apply M; [exact F|reflexivity|reflexivity]).
    - destruct (arrays c z) as [V|] eqn:EV.
      + right. right. exists V. destruct F as (U & Cv & Fl). destruct W as (x & X & J).
        destruct X as [(-> & [X|X])|(_ & a & b & f & T & I & Cf & P)]; [discriminate X|contradiction|].
        destruct (Cv a b f x T I Cf P) as (cl & r & ar & -> & Ib & H). destruct J as (path0 & R & Sf & ->).
        destruct (mirrored_array t bufs V r ar S Ib H) as (i & Fi).
        cbn [array_at]. rewrite EV, <- (located_alike t t' r R A ltac:(now exists path0) 0%nat), Fi. auto.
      + left. apply M; [exact F|cbn [array_at]; now rewrite EV|reflexivity].
    - destruct (object_arrives _ cl r w W) as (path0 & R & -> & P). cbn [array_at]. rewrite <- (located_alike t t' r R A P 0%nat).
      destruct (located t r 0) as [[i [ | |As n| |]]|]; [left|left|right; left; eauto|left|left|left]; (split; [reflexivity|split; [reflexivity|left; eauto 6]]).
  Qed.
  Lemma reshaped_spec path k : reshaped path k = true <-> k = "positions" /\ path <> "visual.Pixels".
  Proof.
    unfold reshaped. rewrite andb_true_iff, negb_true_iff, String.eqb_eq, String.eqb_neq. reflexivity.
  Qed.
  Lemma var_same t t' bufs sg path k v w : alike t t' -> stored t bufs ->
    fine_variable arrays unpack look txt pure E d bufs sg path k v -> arrives (dget (annotations (s_params sg)) k) v w ->
    var_at arrays look t path k v = var_at arrays look t' path k w.
  Proof.
    intros A S F W. unfold var_at.
    destruct (array_cases t t' bufs sg path k v w A S F W) as [(-> & -> & [(cl & r & cl' & R & -> & ->)|(O & O' & L)])|[(B & n & -> & ->)|(V & -> & -> & Fl)]]; [reflexivity| |reflexivity|].
    - destruct v; try discriminate O; destruct w; try discriminate O'; f_equal; symmetry; exact L.
    - cbn [bind]. destruct (reshaped path k) eqn:Rs; [reflexivity|].
      destruct Fl as [Fl|(l & El)]; [apply reshaped_spec in Fl; congruence|]. destruct V as [kd dt]. cbn [a_data a_kind] in El. subst dt. reflexivity.
  Qed.

  (** *** One constructor *)
  Definition comes (sg : sig) (bound kws : dict string Command.value) : Prop :=
    forall k, match dget bound k with
              | Some v => exists w, dget kws k = Some w /\ arrives (dget (annotations (s_params sg)) k) v w
              | None => dget kws k = None end.
  Lemma comes_arg sg bound kws k : comes sg bound kws ->
    (exists e, arg bound k = Err e /\ arg kws k = Err e) \/
    exists v w, dget bound k = Some v /\ arg bound k = Ok v /\ arg kws k = Ok w /\ arrives (dget (annotations (s_params sg)) k) v w.
  Proof.
    intros K. specialize (K k). unfold arg. destruct (dget bound k) as [v|]; [|rewrite K; left; eauto].
    destruct K as (w & -> & W). right. exists v, w. auto.
  Qed.

  Lemma buffer_same t t' r R cl pre post sg args kw bound kws : alike t t' -> paired r R ->
    plain_buffer unpack txt pure E d (Session.New cl "core.Buffer" pre post sg args kw) -> bind_args sg args kw = Ok bound -> comes sg bound kws ->
    both (construct t r "core.Buffer" bound) (construct t' R "core.Buffer" kws).
  Proof.
    intros A P PB B K. destruct (PB bound eq_refl B) as (Bc & Bd & Bt). unfold Gallery.construct. cbn [String.eqb Ascii.eqb Bool.eqb].
    destruct (comes_arg sg bound kws "count" K) as [(e & -> & ->)|(c & c' & Dc & -> & -> & Wc)]; cbn [bind]; [reflexivity|].
    destruct (comes_arg sg bound kws "dtype" K) as [(e & -> & ->)|(t0 & t0' & Dt & -> & -> & Wt)]; cbn [bind]; [reflexivity|].
    destruct (comes_arg sg bound kws "data" K) as [(e & -> & ->)|(x & x' & Dx & -> & -> & Wx)]; cbn [bind]; [reflexivity|].
    destruct (Bc c Dc) as ((z & ->) & Nc). destruct (kept_arrives sg _ _ _ Wc Nc eq_refl) as (j & J & ->). cbn [encode] in J. injection J as <-.
    cbn [decode]. destruct (Bd x Dx) as (Kx & Nx).
    assert (U : forall b, unpack t0' b = unpack t0 b) by (intros b; exact (proj1 (meaning_arrives (fun v => unpack v b) _ _ _ Wt (Bt t0 b Dt)))).
    assert (G : new_memory (C := C) (P := Pic) unpack (VInt z) t0 x = new_memory unpack (VInt z) t0' x').
    { destruct Kx as [-> |[(s & ->)|(b & -> & Hb)]]; destruct (kept_arrives sg _ _ _ Wx Nx eq_refl) as (j & J & ->); cbn [encode] in J; injection J as <-;
        cbn [decode new_memory bind].
      - reflexivity.
      - destruct (b64decode s) as [b|]; cbn [bind]; [|reflexivity]. now rewrite U.
      - rewrite (b64_roundtrip b Hb). cbn [bind]. now rewrite U. }
    rewrite <- G. destruct (new_memory unpack (VInt z) t0 x) as [y|e]; cbn [bind both]; [|reflexivity]. now apply add_alike.
  Qed.
  Lemma variables_same t t' bufs path sg bound kws ks : alike t t' -> stored t bufs ->
    (forall k v, dget bound k = Some v -> fine_variable arrays unpack look txt pure E d bufs sg path k v) -> comes sg bound kws ->
    variables arrays look t path bound ks = variables arrays look t' path kws ks.
  Proof.
    intros A S F K. induction ks as [|k ks IH]; cbn [variables]; [reflexivity|].
    destruct (comes_arg sg bound kws k K) as [(e & -> & ->)|(v & w & D & -> & -> & W)]; cbn [bind]; [reflexivity|].
    rewrite <- IH, <- (var_same t t' bufs sg path k v w A S (F k v D) W). reflexivity.
  Qed.
  Lemma variables_at (t : hall C Pic) path kws : forall ks vars k, variables arrays look t path kws ks = Ok vars -> In k ks ->
    exists v, dget kws k = Some v /\ dget vars k = Some (var_at arrays look t path k v).
  Proof.
    induction ks as [|k0 ks IH]; intros vars k; cbn [variables]; [intros _ []|].
    destruct (arg kws k0) as [v|] eqn:Ev; cbn [bind]; [|discriminate].
    destruct (variables arrays look t path kws ks) as [l|] eqn:El; cbn [bind]; [|discriminate]. intros [= <-] I. cbn [dget].
    destruct (Base.eqb k k0) eqn:Ek; [|destruct I as [-> |I]; [|now apply IH]].
    - apply String.eqb_eq in Ek. subst k0. unfold arg in Ev. destruct (dget kws k) as [v0|]; [|discriminate]. injection Ev as ->. eauto.
    - exfalso. change (String.eqb k k = false) in Ek. now rewrite String.eqb_refl in Ek.
  Qed.
  Lemma aligned_same t t' bufs path sg bound kws ks vars : alike t t' -> stored t bufs -> look VNone = Absent -> parameters path = Some ks ->
    (forall k v, dget bound k = Some v -> fine_variable arrays unpack look txt pure E d bufs sg path k v) -> comes sg bound kws ->
    (path = "visual.Markers" -> forall a p, dget bound "axis" = Some a -> dget bound "positions" = Some p -> a = VNone \/ is_object p = true) ->
    variables arrays look t path bound ks = Ok vars ->
    aligned path bound vars = aligned path kws vars.
  Proof.
    intros A S N Pk F K Q Ev. unfold aligned. destruct (String.eqb path "visual.Markers") eqn:Em; [|reflexivity]. apply String.eqb_eq in Em.
    subst path. injection Pk as <-.
    destruct (variables_at t _ bound _ vars "positions" Ev) as (p & Dp & Vp); [cbn; auto|].
    destruct (variables_at t _ bound _ vars "axis" Ev) as (a & Da & Va); [cbn; auto 6|].
    rewrite Dp, Vp, Va. destruct (Q eq_refl a p Da Dp) as [-> |O].
    - replace (var_at arrays look t "visual.Markers" "axis" VNone) with (Plain Absent) by (unfold var_at; cbn [array_at]; now rewrite N). reflexivity.
    - destruct p as [| | | | | | |cl r| |]; try discriminate O. pose proof (K "positions") as Kp. rewrite Dp in Kp. destruct Kp as (w & Ew & W).
      destruct (object_arrives _ cl r w W) as (path' & R & -> & _). rewrite Ew. reflexivity.
  Qed.
  Lemma figure_same t t' bufs r R path sg bound kws ks : alike t t' -> paired r R -> stored t bufs -> look VNone = Absent -> parameters path = Some ks ->
    (forall k v, dget bound k = Some v -> fine_variable arrays unpack look txt pure E d bufs sg path k v) -> comes sg bound kws ->
    (path = "visual.Markers" -> forall a p, dget bound "axis" = Some a -> dget bound "positions" = Some p -> a = VNone \/ is_object p = true) ->
    both (let* x := new_figure arrays look t path ks bound in Ok (t ++ [(r, x)])%list) (let* x := new_figure arrays look t' path ks kws in Ok (t' ++ [(R, x)])%list).
  Proof.
    intros A P S N Pk F K Q. unfold new_figure. rewrite <- (variables_same t t' bufs path sg bound kws ks A S F K).
    destruct (variables arrays look t path bound ks) as [vars|] eqn:Ev; cbn [bind]; [|reflexivity].
    destruct (sized path vars); cbn [bind]; [|reflexivity].
    rewrite <- (aligned_same t t' bufs path sg bound kws ks vars A S N Pk F K Q Ev).
    destruct (aligned path bound vars); cbn [bind]; [|reflexivity]. cbn [both]. now apply add_alike.
  Qed.

  Lemma construct_same t t' bufs r R cl path pre post sg args kw bound kws : alike t t' -> paired r R -> stored t bufs ->
    plain_lengths E d (Session.New cl path pre post sg args kw) -> plain_colors txt pure hue (Session.New cl path pre post sg args kw) ->
    real_canvas (Session.New cl path pre post sg args kw) -> plain_buffer unpack txt pure E d (Session.New cl path pre post sg args kw) ->
    look VNone = Absent -> (is_visual path -> forall k v, dget bound k = Some v -> fine_variable arrays unpack look txt pure E d bufs sg path k v) ->
    (path = "visual.Markers" -> forall a p, dget bound "axis" = Some a -> dget bound "positions" = Some p -> a = VNone \/ is_object p = true) ->
    bind_args sg args kw = Ok bound -> comes sg bound kws ->
    both (construct t r path bound) (construct t' R path kws).
  Proof.
    intros A P S PL PC RC PB N0 PP PM B K.
    assert (L : forall k, In k (lengths path) -> arg bound k = arg kws k).
    { intros k I. unfold arg. specialize (K k). destruct (dget bound k) as [v|] eqn:D; [|now rewrite K].
      destruct K as (w & -> & W). destruct (PL bound k v B I D) as (N & Q). f_equal. symmetry.
      apply (length_arrives txt pure oidf E d mades bs _ _ _ W N). intros l a b. apply Q. }
    destruct (String.eqb path "core.Buffer") eqn:E3.
    { apply String.eqb_eq in E3. subst path. eapply buffer_same; eassumption. }
    unfold Gallery.construct, lengths in *. rewrite E3. destruct (String.eqb path "core.Canvas") eqn:E1.
    { rewrite <- !L by (cbn; auto). destruct (arg bound "width") as [w|]; cbn [bind]; [|reflexivity].
      destruct (as_coord num w) as [w'|]; cbn [bind]; [|reflexivity].
      destruct (arg bound "height") as [h|]; cbn [bind]; [|reflexivity].
      destruct (as_coord num h) as [h'|]; cbn [bind]; [|reflexivity].
      destruct (arg bound "dpi") as [dp|]; cbn [bind]; [|reflexivity].
      destruct (as_number num dp) as [dp'|]; cbn [bind]; [|reflexivity].
      destruct (new_canvas w' h' dp') as [f|]; cbn [bind]; [|reflexivity].
      cbn [both]. now apply add_alike. }
    destruct (String.eqb path "core.Viewport") eqn:Ev.
    2: { destruct (parameters path) as [ks|] eqn:Pk; [|cbn [both]; now apply add_alike].
         assert (Iv : is_visual path) by (eapply parameters_visual; eassumption). eapply figure_same; eauto. }
    assert (Ep : path = "core.Viewport") by now apply String.eqb_eq.
    assert (Cc : (exists e, arg bound "color" = Err e /\ arg kws "color" = Err e) \/
      exists v w, arg bound "color" = Ok v /\ arg kws "color" = Ok w /\ hue w = hue v).
    { destruct (comes_arg sg bound kws "color" K) as [?|(v & w & D & -> & -> & W)]; [now left|]. right. exists v, w. split; [reflexivity|]. split; [reflexivity|].
      destruct (PC bound v Ep B D) as (O & Q & H). exact (color_arrives hue txt pure oidf E d mades bs _ _ _ W O Q H). }
    rewrite <- (L "x"), <- (L "y"), <- (L "width"), <- (L "height") by (cbn; auto 6).
    destruct (comes_arg sg bound kws "canvas" K) as [(e & -> & ->)|(v & w & D & -> & -> & W)]; cbn [bind]; [reflexivity|].
    destruct (arg bound "x") as [x|]; cbn [bind]; [|reflexivity]. destruct (as_coord num x) as [x'|]; cbn [bind]; [|reflexivity].
    destruct (arg bound "y") as [y|]; cbn [bind]; [|reflexivity]. destruct (as_coord num y) as [y'|]; cbn [bind]; [|reflexivity].
    destruct (arg bound "width") as [a|]; cbn [bind]; [|reflexivity]. destruct (as_coord num a) as [a'|]; cbn [bind]; [|reflexivity].
    destruct (arg bound "height") as [h|]; cbn [bind]; [|reflexivity]. destruct (as_coord num h) as [h'|]; cbn [bind]; [|reflexivity].
    destruct Cc as [(e & -> & ->)|(c1 & c2 & -> & -> & Hc)]; cbn [bind]; [reflexivity|].
    pose proof (RC bound v Ep B D) as O. destruct v as [| | | | | | |cl1 k| |]; try discriminate O.
    destruct (object_arrives _ cl1 k w W) as (p & k2 & -> & V).
    rewrite <- (located_alike t t' k k2 A V 0%nat). destruct (located t k 0) as [[n [dk dr| | | |]]|]; try reflexivity. rewrite Hc.
    destruct (act_on dk _) as [d'|]; cbn [bind]; [|reflexivity]. cbn [both]. apply add_alike; [|exact P]. now apply replaced_alike.
  Qed.

  (** *** One call *)
  Lemma perform_same t t' r R cl m sg args kw bound kws : alike t t' -> paired r R ->
    plain_render E d (Call r cl m sg args kw) -> bind_args sg args kw = Ok bound -> comes sg bound kws ->
    both (perform paint t r m bound) (perform paint t' R m kws).
  Proof.
    intros A P PR B K. unfold perform. rewrite <- (located_alike t t' r R A P 0%nat).
    destruct (located t r 0) as [[i [ | | |pth vars|]]|]; try exact A.
    destruct (String.eqb m "render") eqn:Em; [|exact A]. apply String.eqb_eq in Em. destruct (PR bound Em B) as (Rv & Rm).
    assert (M : forall k, In k ["model"; "view"; "proj"] -> no_matrix bound k = Ok tt /\ no_matrix kws k = Ok tt).
    { intros k I. unfold no_matrix. pose proof (K k) as Kk. destruct (dget bound k) as [v|] eqn:D; [|now rewrite Kk].
      destruct Kk as (w' & -> & W). destruct (Rm k v I D) as (-> & N). destruct (kept_arrives sg k _ _ W N eq_refl) as (j & J & ->).
      cbn [encode] in J. injection J as <-. auto. }
    destruct (comes_arg sg bound kws "viewport" K) as [(x & -> & ->)|(v & w' & D & -> & -> & W)]; cbn [bind]; [reflexivity|].
    destruct (M "model") as [-> ->]; [cbn; auto|]. destruct (M "view") as [-> ->]; [cbn; auto|]. destruct (M "proj") as [-> ->]; [cbn; auto|]. cbn [bind].
    pose proof (Rv v D) as O. destruct v as [| | | | | | |cl1 k| |]; try discriminate O.
    destruct (object_arrives _ cl1 k w' W) as (p & k2 & -> & V).
    rewrite <- (located_alike t t' k k2 A V 0%nat). destruct (located t k 0) as [[j [ |c q| | |]]|]; try reflexivity.
    rewrite <- (placed_alike t t' c A). destruct (placed_at t c) as [[dk dr| | | |]|]; try reflexivity.
    destruct (nth_error (d_panes dk) q) as [a|]; [|reflexivity].
    destruct (paint pth (view (d_fig dk) a) vars) as [x|]; cbn [bind]; [|reflexivity]. cbn [both]. now apply replaced_alike.
  Qed.
End Same.

(** ** What stays *)
Section Stays.
  Context {C Pic : Type} (num : Z -> Qc) (hue : Command.value -> C) (arrays : string -> Z -> option arr)
          (unpack : Command.value -> list N -> res (Vec.kind * list Vec.num)) (look : Command.value -> given)
          (paint : string -> Viewport.viewport -> dict string var -> res Pic).
  Implicit Types t : hall C Pic.

  Lemma located_place t k : forall n i x, located t k n = Some (i, x) -> (n <= i)%nat /\ nth_error t (i - n) = Some (k, x).
  Proof.
    induction t as [|[r a] t IH]; intros n i x; cbn [located]; [discriminate|]. destruct (Nat.eqb_spec r k) as [-> |].
    - intros [= <- <-]. split; [lia|]. now rewrite Nat.sub_diag.
    - intros F. apply IH in F as [L F]. split; [lia|]. replace (i - n)%nat with (S (i - S n)) by lia. exact F.
  Qed.
  Lemma located_app t u k : forall n, located (t ++ u)%list k n = match located t k n with Some x => Some x | None => located u k (n + length t) end.
  Proof.
    induction t as [|[r a] t IH]; intros n; cbn [located app length]; [now rewrite Nat.add_0_r|]. destruct (Nat.eqb r k); [reflexivity|].
    rewrite IH. now replace (S n + length t)%nat with (n + S (length t))%nat by lia.
  Qed.
  Lemma located_none t k : ~ In k (map fst t) -> forall n, located t k n = None.
  Proof.
    induction t as [|[r a] t IH]; intros N n; cbn [located]; [reflexivity|]. cbn [map fst] in N. destruct (Nat.eqb_spec r k) as [-> |]; [exfalso; apply N; now left|].
    apply IH. intros I. apply N. now right.
  Qed.
  Lemma replaced_keys t n x : map fst (replaced t n x) = map fst t.
  Proof. revert n. induction t as [|[r a] t IH]; intros [|n]; cbn [replaced map fst]; [reflexivity..|]. now rewrite IH. Qed.
  Lemma replaced_length t n x : length (replaced t n x) = length t.
  Proof. rewrite <- (map_length fst), replaced_keys. apply map_length. Qed.
  Lemma located_replaced t k y : forall n m, located (replaced t m y) k n =
    match located t k n with Some (i, x) => Some (i, if Nat.eqb i (n + m) then y else x) | None => None end.
  Proof.
    induction t as [|[r a] t IH]; intros n m; [reflexivity|]. destruct m as [|m]; cbn [replaced located].
    - destruct (Nat.eqb r k); [now rewrite Nat.add_0_r, Nat.eqb_refl|]. destruct (located t k (S n)) as [[i x]|] eqn:F; [|reflexivity].
      apply located_place in F as [L _]. destruct (Nat.eqb_spec i (n + 0)); [lia|reflexivity].
    - destruct (Nat.eqb r k); [|rewrite IH; now replace (S n + m)%nat with (n + S m)%nat by lia].
      destruct (Nat.eqb_spec n (n + S m)); [lia|reflexivity].
  Qed.
  Lemma placed_replaced t m y i : placed_at (replaced t m y) i = if Nat.eqb i m then match placed_at t i with Some _ => Some y | None => None end else placed_at t i.
  Proof.
    unfold placed_at. revert m i. induction t as [|[r a] t IH]; intros m i; cbn [replaced].
    - destruct (Nat.eqb i m), i; reflexivity.
    - destruct m as [|m], i as [|i]; cbn [nth_error option_map snd Nat.eqb]; try reflexivity. apply IH.
  Qed.

  Definition lasting (x : entity C Pic) : Prop := match x with Wall _ _ => False | _ => True end.
  Definition keeps t t' : Prop := forall k i x, located t k 0 = Some (i, x) -> lasting x -> located t' k 0 = Some (i, x).
  Lemma keeps_replaced t n d dr y : placed_at t n = Some (Wall d dr) -> keeps t (replaced t n y).
  Proof.
    intros P k i x F L. rewrite located_replaced, F. destruct (Nat.eqb_spec i (0 + n)) as [-> |]; [|reflexivity].
    apply located_place in F as [_ F]. cbn in F. rewrite Nat.sub_0_r in F. unfold placed_at in P. rewrite F in P. cbn in P. injection P as ->. destruct L.
  Qed.
  Lemma keeps_app t u : keeps t (t ++ u)%list.
  Proof. intros k i x F _. now rewrite located_app, F. Qed.
  Lemma keeps_trans t t' t'' : keeps t t' -> keeps t' t'' -> keeps t t''.
  Proof. intros A B k i x F L. auto. Qed.
  Lemma new_memory_lasts c dt da x : new_memory (C := C) (P := Pic) unpack c dt da = Ok x -> lasting x.
  Proof.
    unfold new_memory. destruct c; cbn [bind]; try discriminate. destruct da; cbn [bind]; try discriminate; try (intros [= <-]; exact Logic.I).
    destruct (b64decode s); cbn [bind]; [intros [= <-]; exact Logic.I|discriminate].
  Qed.
  Lemma located_wall t k n d dr : located t k 0 = Some (n, Wall d dr) -> placed_at t n = Some (Wall d dr).
  Proof. intros F. apply located_place in F as [_ F]. rewrite Nat.sub_0_r in F. unfold placed_at. now rewrite F. Qed.

  Lemma construct_keeps t r path kws t' : Gallery.construct num hue arrays unpack look t r path kws = Ok t' ->
    map fst t' = (map fst t ++ [r])%list /\ keeps t t' /\
    (path = "core.Buffer" -> ~ In r (map fst t) -> exists count dtype data x, arg kws "count" = Ok count /\ arg kws "dtype" = Ok dtype /\ arg kws "data" = Ok data /\
      new_memory (C := C) (P := Pic) unpack count dtype data = Ok x /\ located t' r 0 = Some (length t, x)).
  Proof.
    assert (Q : forall x, map fst (t ++ [(r, x)])%list = (map fst t ++ [r])%list) by (intros; now rewrite map_app).
    unfold Gallery.construct. destruct (String.eqb path "core.Canvas") eqn:E1.
    { destruct (arg kws "width") as [w|]; cbn [bind]; [|discriminate]. destruct (as_coord num w); cbn [bind]; [|discriminate].
      destruct (arg kws "height") as [h|]; cbn [bind]; [|discriminate]. destruct (as_coord num h); cbn [bind]; [|discriminate].
      destruct (arg kws "dpi") as [p|]; cbn [bind]; [|discriminate]. destruct (as_number num p); cbn [bind]; [|discriminate].
      destruct (new_canvas _ _ _); cbn [bind]; [|discriminate]. intros [= <-]. split; [apply Q|]. split; [apply keeps_app|]. intros ->. discriminate E1. }
    destruct (String.eqb path "core.Viewport") eqn:E2.
    { destruct (arg kws "canvas") as [c|]; cbn [bind]; [|discriminate].
      destruct (arg kws "x") as [x|]; cbn [bind]; [|discriminate]. destruct (as_coord num x); cbn [bind]; [|discriminate].
      destruct (arg kws "y") as [y|]; cbn [bind]; [|discriminate]. destruct (as_coord num y); cbn [bind]; [|discriminate].
      destruct (arg kws "width") as [w|]; cbn [bind]; [|discriminate]. destruct (as_coord num w); cbn [bind]; [|discriminate].
      destruct (arg kws "height") as [h|]; cbn [bind]; [|discriminate]. destruct (as_coord num h); cbn [bind]; [|discriminate].
      destruct (arg kws "color") as [co|]; cbn [bind]; [|discriminate]. destruct c as [| | | | | | |cl k| |]; try discriminate.
      destruct (located t k 0) as [[n [dk dr| | | |]]|] eqn:F; try discriminate. destruct (act_on dk _) as [d'|]; cbn [bind]; [|discriminate].
      intros [= <-]. split; [now rewrite map_app, replaced_keys|]. split; [|intros ->; discriminate E2].
      eapply keeps_trans; [|apply keeps_app]. eapply keeps_replaced. exact (located_wall _ _ _ _ _ F). }
    destruct (String.eqb path "core.Buffer") eqn:E3.
    { destruct (arg kws "count") as [c|] eqn:A1; cbn [bind]; [|discriminate]. destruct (arg kws "dtype") as [dt|] eqn:A2; cbn [bind]; [|discriminate].
      destruct (arg kws "data") as [da|] eqn:A3; cbn [bind]; [|discriminate]. destruct (new_memory unpack c dt da) as [x|] eqn:N; cbn [bind]; [|discriminate].
      intros [= <-]. split; [apply Q|]. split; [apply keeps_app|]. intros _ Nr. exists c, dt, da, x. do 4 (split; [auto|]).
      rewrite located_app, (located_none t r Nr). cbn [located]. now rewrite Nat.eqb_refl. }
    assert (G : path = "core.Buffer" -> False) by (intros ->; discriminate E3).
    destruct (parameters path) as [ks|].
    { destruct (new_figure _ _ _ _ _ _) as [x|]; cbn [bind]; [|discriminate]. intros [= <-]. split; [apply Q|]. split; [apply keeps_app|]. intros Z. destruct (G Z). }
    intros [= <-]. split; [apply Q|]. split; [apply keeps_app|]. intros Z. destruct (G Z).
  Qed.
  Lemma perform_keeps t r m kws t' : perform paint t r m kws = Ok t' -> map fst t' = map fst t /\ keeps t t'.
  Proof.
    assert (Q : map fst t = map fst t /\ keeps t t) by (split; [reflexivity|intros k i x F _; exact F]).
    unfold perform. destruct (located t r 0) as [[i [ | | |pth vars|]]|]; try (intros [= <-]; exact Q).
    destruct (String.eqb m "render"); [|intros [= <-]; exact Q]. destruct (arg kws "viewport") as [v|]; cbn [bind]; [|discriminate].
    destruct (no_matrix kws "model"); cbn [bind]; [|discriminate]. destruct (no_matrix kws "view"); cbn [bind]; [|discriminate].
    destruct (no_matrix kws "proj"); cbn [bind]; [|discriminate]. destruct v as [| | | | | | |cl k| |]; try discriminate.
    destruct (located t k 0) as [[j [ |c p| | |]]|]; try discriminate. destruct (placed_at t c) as [[dk dr| | | |]|] eqn:P; try discriminate.
    destruct (nth_error (d_panes dk) p); [|discriminate]. destruct (paint _ _ _) as [x|]; cbn [bind]; [|discriminate].
    intros [= <-]. split; [apply replaced_keys|]. exact (keeps_replaced _ _ _ _ _ P).
  Qed.
  Lemma stored_keeps t t' bufs : stored unpack t bufs -> keeps t t' -> stored (C := C) unpack t' bufs.
  Proof.
    intros S K r b I. destruct (S r b I) as (i & c & dt & da & x & A1 & A2 & A3 & N & F). exists i, c, dt, da, x. do 4 (split; [assumption|]).
    apply K; [exact F|]. exact (new_memory_lasts _ _ _ _ N).
  Qed.

  Context (txt : string -> Z -> option jval) (pure : func -> Command.value -> res Command.value) (oidf : ref -> Z) (E : cenv) (d : registry).
  Context (mades : list (ref * string)) (bs : list ref) (Dm : NoDup (map fst mades)) (Db : NoDup bs).
  Lemma enacted_same l outs : Forall2 (done txt pure oidf E d mades bs) l outs ->
    Forall (plain_lengths E d) l -> Forall (plain_colors txt pure hue) l -> Forall real_canvas l ->
    Forall (plain_buffer unpack txt pure E d) l -> Forall (plain_render E d) l ->
    look VNone = Absent -> forall t t' refs bufs, alike mades bs t t' -> Forall2 (paired mades bs) refs (built outs) ->
    NoDup (map fst t ++ refs) -> stored unpack t bufs -> fine_visuals arrays unpack look txt pure E d bufs refs l ->
    both mades bs (enacted num hue arrays unpack look paint t refs l) (reenacted num hue arrays unpack look paint t' outs).
  Proof.
    induction 1 as [|a o l outs D _ IH]; intros PL PC RC PB PR N0 t t' refs bufs A P N S F; [exact A|].
    inversion PL as [|? ? PL1 PL2]; inversion PC as [|? ? PC1 PC2]; inversion RC as [|? ? RC1 RC2]; inversion PB as [|? ? PB1 PB2]; inversion PR as [|? ? PR1 PR2]; subst.
    destruct a as [cl path pre post sg args kw|r cl m sg args kw]; destruct o as [R path' kws|R m' kws v]; cbn [done] in D; try contradiction.
    - destruct D as (-> & bound & B & K). cbn [enacted reenacted built flat_map app] in *.
      inversion P as [|r ? refs' ? Pr P' X1 X2]; subst. cbn [fine_visuals] in F. destruct (F bound B) as (F1 & F1' & F2). rewrite B. cbn [bind].
      pose proof (construct_same num hue arrays unpack look txt pure oidf E d mades bs Dm Db t t' bufs r R cl path pre post sg args kw bound kws A Pr S PL1 PC1 RC1 PB1 N0 F1 F1' B K) as G.
      destruct (Gallery.construct num hue arrays unpack look t r path bound) as [t1|e] eqn:Bt; destruct (Gallery.construct num hue arrays unpack look t' R path kws) as [t2|e']; cbn [both bind] in *; try contradiction; [|exact G].
      destruct (construct_keeps t r path bound t1 Bt) as (Ky & Kp & Kb).
      apply (IH PL2 PC2 RC2 PB2 PR2 N0 t1 t2 refs' (if String.eqb path "core.Buffer" then bufs ++ [(r, bound)] else bufs)%list G P').
      + rewrite Ky, <- app_assoc. exact N.
      + pose proof (stored_keeps _ _ _ S Kp) as S'. destruct (String.eqb path "core.Buffer") eqn:Eb; [|exact S'].
        apply String.eqb_eq in Eb. intros q b I. apply in_app_or in I as [I|[I|[]]]; [exact (S' q b I)|]. injection I as <- <-.
        assert (Nr : ~ In r (map fst t)). { intros I. apply NoDup_remove_2 in N. apply N. apply in_or_app. now left. }
        destruct (Kb Eb Nr) as (c & dt & da & x & A1 & A2 & A3 & A4 & A5). eauto 12.
      + exact F2.
    - destruct D as (-> & (path & Sf) & bound & B & K). cbn [enacted reenacted fine_visuals] in *. rewrite B. cbn [bind].
      pose proof (perform_same paint txt pure oidf E d mades bs Dm Db t t' r R cl m sg args kw bound kws A (ex_intro _ path Sf) PR1 B K) as G.
      destruct (perform paint t r m bound) as [t1|e] eqn:It; destruct (perform paint t' R m kws) as [t2|e']; cbn [both bind] in *; try contradiction; [|exact G].
      destruct (perform_keeps t r m bound t1 It) as (Ky & Kp).
      apply (IH PL2 PC2 RC2 PB2 PR2 N0 t1 t2 refs bufs G P); [now rewrite Ky|exact (stored_keeps _ _ _ S Kp)|exact F].
  Qed.
  Lemma both_walls x y : both (C := C) (Pic := Pic) mades bs x y -> exhibit y = exhibit x.
  Proof.
    destruct x as [t|e], y as [t'|e']; cbn [both]; try contradiction.
    - intros A. cbn [exhibit bind]. f_equal. unfold walls. induction A as [|u v ? ? (X & _) _ IH]; cbn [flat_map]; [reflexivity|]. now rewrite X, IH.
    - intros ->. reflexivity.
  Qed.
End Stays.


Section Elsewhere.
  Context {C Pic : Type} (num : Z -> Qc) (hue : Command.value -> C) (arrays : string -> Z -> option arr)
          (unpack : Command.value -> list N -> res (Vec.kind * list Vec.num)) (look : Command.value -> given)
          (paint : string -> Viewport.viewport -> dict string var -> res Pic) (E : cenv) (d : registry).
  Lemma fine_prefix txt pure l1 : forall l2 refs more bufs, length refs = news l1 ->
    fine_visuals arrays unpack look txt pure E d bufs (refs ++ more) (l1 ++ l2) -> fine_visuals arrays unpack look txt pure E d bufs refs l1.
  Proof.
    induction l1 as [|[cl path pre post sg args kw|r0 cl m sg args kw] l1 IH]; intros l2 refs more bufs L F; [exact Logic.I| |].
    - destruct refs as [|r refs]; [exact Logic.I|]. cbn [fine_visuals app] in *. intros bound B. destruct (F bound B) as (F1 & F1' & F2). split; [exact F1|]. split; [exact F1'|].
      eapply IH; [|exact F2]. unfold news in L. cbn [filter length] in L. now injection L.
    - cbn [fine_visuals app] in *. exact (IH l2 refs more bufs L F).
  Qed.
  Context (N0 : look VNone = Absent).
  Lemma exhibited_again txt pure oidf mades outs l : NoDup (map fst mades) -> NoDup (built outs) -> length (built outs) = length mades ->
    Forall2 (done txt pure oidf E d mades (built outs)) l outs -> Forall (plain_lengths E d) l -> Forall (plain_colors txt pure hue) l -> Forall real_canvas l ->
    Forall (plain_buffer unpack txt pure E d) l -> Forall (plain_render E d) l -> fine_visuals arrays unpack look txt pure E d [] (map fst mades) l ->
    exhibit (reenacted num hue arrays unpack look paint [] outs) = exhibit (enacted num hue arrays unpack look paint [] (map fst mades) l).
  Proof.
    intros Dm Db L D PL PC RC PB PR F. apply (both_walls mades (built outs)).
    apply (enacted_same num hue arrays unpack look paint txt pure oidf E d mades (built outs) Dm Db l outs D PL PC RC PB PR N0 [] [] (map fst mades) []);
      [constructor|now apply all_paired|exact Dm|intros ? ? []|exact F].
  Qed.

  Lemma exhibited_elsewhere ftok fval stamp ccode (FT : float_texts ftok fval stamp) txt pure c l sS rsS B ap apS calls fuel can_open fs format name :
    starting c -> fine_session txt pure E d c l -> l <> [] -> SessionSpec.ready sS -> recording rsS = true ->
    offers B c l E d -> in_step B c (Session.acts E d c l) rsS l ->
    (forall f v, apS f v = ([], pure f v)) -> (length l <= fuel)%nat -> can_open name = true -> json_file format name ->
    Forall (plain_lengths E d) l -> Forall (plain_colors txt pure hue) l -> Forall real_canvas l ->
    Forall (plain_buffer unpack txt pure E d) l -> Forall (plain_render E d) l ->
    let c' := Session.acts E d c l in
    fine_visuals arrays unpack look txt pure E d [] (map fst (cl_made c')) l ->
    exists x, gsp_save ftok stamp txt apS (oid_in (cl_reg c')) fuel can_open fs (cl_sys c') format name = (dset fs name x, cl_sys c', Ok tt) /\
    forall s' rs' cls outs o, play_file fval ccode B ap calls rsS sS (dset fs name x) format name = (s', (rs', cls, outs), o) ->
      (o = Ok tt -> exhibit (reenacted num hue arrays unpack look paint [] outs) =
                    exhibit (enacted num hue arrays unpack look paint [] (map fst (cl_made c')) l)) /\
      (forall e, o = Err e -> exists l1 a l2, l = (l1 ++ a :: l2)%list /\
         exhibit (reenacted num hue arrays unpack look paint [] outs) =
         exhibit (enacted num hue arrays unpack look paint [] (map fst (cl_made (Session.acts E d c l1))) l1)).
  Proof.
    intros Hst Hf Hl Hr Hrec Hof Hin Hap Hfu Hop Hj PL PC RC PB PR c' FP.
    destruct (sessions_redone ftok fval stamp ccode FT E d txt pure c l sS rsS B ap apS calls fuel can_open fs format name Hst Hf Hl Hr Hrec Hof Hin Hap Hfu Hop Hj) as (x & Hs & G).
    exists x. split; [exact Hs|]. intros s' rs' cls outs o Hp.
    assert (Hb : beginning x x) by (exists []; now rewrite app_nil_r).
    destruct (G x Hb s' rs' cls outs o Hp) as [G1 _]. destruct (G1 eq_refl) as [G2 G3]. split.
    - intros Ho. destruct (G2 Ho) as (D & N & L & _).
      exact (exhibited_again txt pure _ _ outs l (refs_nodup E d c l Hst) N L D PL PC RC PB PR FP).
    - intros e He. destruct (G3 e He) as (l1 & a & l2 & -> & D & N & L & _ & _). exists l1, a, l2. split; [reflexivity|].
      apply Forall_app in PL as [PL _]. apply Forall_app in PC as [PC _]. apply Forall_app in RC as [RC _]. apply Forall_app in PB as [PB _]. apply Forall_app in PR as [PR _].
      apply (exhibited_again txt pure _ _ outs l1 (refs_nodup E d c l1 Hst) N L D PL PC RC PB PR).
      unfold c' in FP.
      assert (Ha : Session.acts E d c (l1 ++ a :: l2) = Session.acts E d (Session.acts E d c l1) (a :: l2)) by (unfold Session.acts; apply fold_left_app).
      destruct (made_acts E d (a :: l2) (Session.acts E d c l1)) as (more & Em). rewrite Ha, Em, map_app in FP.
      eapply fine_prefix; [|exact FP]. rewrite map_length, made_news. destruct Hst as (-> & _). reflexivity.
  Qed.
End Elsewhere.


(** ** What a program can be drawing in *)
Section Sound.
  Context {C Pic : Type} (num : Z -> Qc) (hue : Command.value -> C) (arrays : string -> Z -> option arr)
          (unpack : Command.value -> list N -> res (Vec.kind * list Vec.num)) (look : Command.value -> given)
          (paint : string -> Viewport.viewport -> dict string var -> res Pic).
  Implicit Types t : hall C Pic.
  Definition sound t : Prop :=
    (forall i d dr a, placed_at t i = Some (Wall d dr) -> In a (d_panes d) -> usable (Panes.view (d_fig d) a)) /\
    (forall i c p, placed_at t i = Some (Window c p) -> exists d dr a, placed_at t c = Some (Wall d dr) /\ nth_error (d_panes d) p = Some a).
  Lemma placed_app t r (x : entity C Pic) i : placed_at (t ++ [(r, x)])%list i = if Nat.eqb i (length t) then Some x else placed_at t i.
  Proof.
    unfold placed_at. destruct (Nat.eqb_spec i (length t)) as [-> |N].
    - rewrite nth_error_app2, Nat.sub_diag by lia. reflexivity.
    - destruct (Nat.lt_ge_cases i (length t)); [now rewrite nth_error_app1|]. rewrite nth_error_app2 by lia.
      destruct (i - length t)%nat as [|m] eqn:Em; [lia|]. cbn [nth_error]. destruct m; cbn [nth_error]; symmetry; rewrite (proj2 (nth_error_None t i)) by lia; reflexivity.
  Qed.
  Lemma placed_bound t i x : placed_at t i = Some x -> (i < length t)%nat.
  Proof. unfold placed_at. destruct (nth_error t i) eqn:X; [|discriminate]. intros _. apply nth_error_Some. congruence. Qed.
  Lemma sound_add t r x : sound t -> (match x with Wall d _ => d_panes d = [] | Window c p => exists d dr a, placed_at t c = Some (Wall d dr) /\ nth_error (d_panes d) p = Some a | _ => True end) ->
    sound (t ++ [(r, x)])%list.
  Proof.
    intros [U F] X. split.
    - intros i d dr a P I. rewrite placed_app in P. destruct (Nat.eqb i (length t)); [|eauto]. injection P as ->. rewrite X in I. destruct I.
    - intros i c p P. rewrite placed_app in P. 
      assert (G : exists d dr a, placed_at t c = Some (Wall d dr) /\ nth_error (d_panes d) p = Some a).
      { destruct (Nat.eqb i (length t)); [injection P as ->; exact X|eauto]. }
      destruct G as (d & dr & a & P1 & P2). exists d, dr, a. split; [|exact P2]. rewrite placed_app.
      apply placed_bound in P1 as L. destruct (Nat.eqb_spec c (length t)); [lia|exact P1].
  Qed.
  Lemma sound_change t n d dr d' dr' : sound t -> placed_at t n = Some (Wall d dr) -> d_fig d' = d_fig d ->
    (exists l, d_panes d' = (d_panes d ++ l)%list /\ forall a, In a l -> usable (Panes.view (d_fig d) a)) -> sound (replaced t n (Wall d' dr')).
  Proof.
    intros [U F] P Ef (l & El & Ul). split.
    - intros i d0 dr0 a P0 I. rewrite placed_replaced in P0. destruct (Nat.eqb_spec i n) as [-> |]; [|eauto]. rewrite P in P0. injection P0 as <- <-.
      rewrite Ef. rewrite El in I. apply in_app_or in I as [I|I]; [eauto|auto].
    - intros i c p P0. rewrite placed_replaced in P0.
      assert (P1 : placed_at t i = Some (Window c p)) by (destruct (Nat.eqb i n); [destruct (placed_at t i); discriminate P0|exact P0]).
      destruct (F i c p P1) as (d0 & dr0 & a & P2 & P3). rewrite placed_replaced. destruct (Nat.eqb_spec c n) as [-> |].
      + rewrite P. rewrite P in P2. injection P2 as <- <-. exists d', dr', a. split; [reflexivity|]. rewrite El, nth_error_app1; [exact P3|]. apply nth_error_Some. congruence.
      + eauto.
  Qed.
  Lemma new_usable f x y w h v : new_viewport f x y w h = Ok v -> usable v.
  Proof. intros N. exact (always_usable f x y w h v 1%Qc [] (new_scene v 1%Qc) N eq_refl). Qed.

  Lemma construct_sound t r path kws t' : sound t -> Gallery.construct num hue arrays unpack look t r path kws = Ok t' -> sound t'.
  Proof.
    intros S. unfold Gallery.construct. destruct (String.eqb path "core.Canvas").
    { destruct (arg kws "width") as [w|]; cbn [bind]; [|discriminate]. destruct (as_coord num w); cbn [bind]; [|discriminate].
      destruct (arg kws "height") as [h|]; cbn [bind]; [|discriminate]. destruct (as_coord num h); cbn [bind]; [|discriminate].
      destruct (arg kws "dpi") as [p|]; cbn [bind]; [|discriminate]. destruct (as_number num p); cbn [bind]; [|discriminate].
      destruct (new_canvas _ _ _); cbn [bind]; [|discriminate]. intros [= <-]. apply sound_add; [exact S|reflexivity]. }
    destruct (String.eqb path "core.Viewport").
    { destruct (arg kws "canvas") as [c|]; cbn [bind]; [|discriminate].
      destruct (arg kws "x") as [x|]; cbn [bind]; [|discriminate]. destruct (as_coord num x); cbn [bind]; [|discriminate].
      destruct (arg kws "y") as [y|]; cbn [bind]; [|discriminate]. destruct (as_coord num y); cbn [bind]; [|discriminate].
      destruct (arg kws "width") as [w|]; cbn [bind]; [|discriminate]. destruct (as_coord num w); cbn [bind]; [|discriminate].
      destruct (arg kws "height") as [h|]; cbn [bind]; [|discriminate]. destruct (as_coord num h); cbn [bind]; [|discriminate].
      destruct (arg kws "color") as [co|]; cbn [bind]; [|discriminate]. destruct c as [| | | | | | |cl k| |]; try discriminate.
      destruct (located t k 0) as [[n [dk dr| | | |]]|] eqn:F; try discriminate. cbn [act_on].
      destruct (new_viewport _ _ _ _ _) as [v|] eqn:Nv; cbn [bind]; [|discriminate]. intros [= <-]. apply located_wall in F.
      apply new_ok in Nv as Nf. destruct Nf as (Nf & _). apply sound_add.
      - eapply sound_change; [exact S|exact F|reflexivity|]. eexists. split; [reflexivity|]. intros q [<-|[]]. rewrite (view_pane _ _ _ Nf). exact (new_usable _ _ _ _ _ _ Nv).
      - eexists. eexists. eexists. split; [rewrite placed_replaced, Nat.eqb_refl, F; reflexivity|]. cbn [d_panes]. rewrite nth_error_app2, Nat.sub_diag by lia. reflexivity. }
    destruct (String.eqb path "core.Buffer").
    { destruct (arg kws "count") as [c|]; cbn [bind]; [|discriminate]. destruct (arg kws "dtype") as [dt|]; cbn [bind]; [|discriminate].
      destruct (arg kws "data") as [da|]; cbn [bind]; [|discriminate]. destruct (new_memory unpack c dt da) as [x|] eqn:N; cbn [bind]; [|discriminate].
      intros [= <-]. apply sound_add; [exact S|]. unfold new_memory in N. destruct c; cbn [bind] in N; try discriminate N. destruct da; try discriminate N; try (injection N as <-; exact Logic.I).
      destruct (b64decode s); cbn [bind] in N; [injection N as <-; exact Logic.I|discriminate]. }
    destruct (parameters path) as [ks|].
    { destruct (new_figure arrays look t path ks kws) as [x|] eqn:N; cbn [bind]; [|discriminate]. intros [= <-]. apply sound_add; [exact S|].
      unfold new_figure in N. destruct (variables arrays look t path kws ks); cbn [bind] in N; [|discriminate]. destruct (sized path _); cbn [bind] in N; [|discriminate].
      destruct (aligned path kws _); cbn [bind] in N; [|discriminate]. injection N as <-. exact Logic.I. }
    intros [= <-]. apply sound_add; [exact S|exact Logic.I].
  Qed.
  Lemma perform_sound t r m kws t' : sound t -> perform paint t r m kws = Ok t' -> sound t'.
  Proof.
    intros S. unfold perform. destruct (located t r 0) as [[i [ | | |pth vars|]]|]; try (intros [= <-]; exact S).
    destruct (String.eqb m "render"); [|intros [= <-]; exact S]. destruct (arg kws "viewport") as [v|]; cbn [bind]; [|discriminate].
    destruct (no_matrix kws "model"); cbn [bind]; [|discriminate]. destruct (no_matrix kws "view"); cbn [bind]; [|discriminate].
    destruct (no_matrix kws "proj"); cbn [bind]; [|discriminate]. destruct v as [| | | | | | |cl k| |]; try discriminate.
    destruct (located t k 0) as [[j [ |c p| | |]]|]; try discriminate. destruct (placed_at t c) as [[dk dr| | | |]|] eqn:P; try discriminate.
    destruct (nth_error (d_panes dk) p); [|discriminate]. destruct (paint _ _ _) as [x|]; cbn [bind]; [|discriminate].
    intros [= <-]. eapply sound_change; [exact S|exact P|reflexivity|]. exists []. split; [now rewrite app_nil_r|intros ? []].
  Qed.
  Lemma enacted_sound l : forall t refs t', sound t -> enacted num hue arrays unpack look paint t refs l = Ok t' -> sound t'.
  Proof.
    induction l as [|[cl path pre post sg args kw|r cl m sg args kw] l IH]; intros t refs t' S; cbn [enacted].
    - intros [= <-]. exact S.
    - destruct refs as [|r refs]; [discriminate|]. destruct (bind_args sg args kw) as [b|]; cbn [bind]; [|discriminate].
      destruct (Gallery.construct num hue arrays unpack look t r path b) as [t1|] eqn:B; cbn [bind]; [|discriminate]. apply IH. exact (construct_sound _ _ _ _ _ S B).
    - destruct (bind_args sg args kw) as [b|]; cbn [bind]; [|discriminate].
      destruct (perform paint t r m b) as [t1|] eqn:B; cbn [bind]; [|discriminate]. apply IH. exact (perform_sound _ _ _ _ _ S B).
  Qed.
  Lemma nothing_sound : sound [].
  Proof. split; [intros [|i] ? ? ? P _|intros [|i] ? ? P]; discriminate P. Qed.
  Lemma located_at t k i x : located t k 0 = Some (i, x) -> placed_at t i = Some x.
  Proof. intros F. apply located_place in F as [_ F]. rewrite Nat.sub_0_r in F. unfold placed_at. now rewrite F. Qed.

  (** A render in a program. *)
  Lemma hung_last (l : list ((nat * nat) * Pic)) k x k' : last_hung (hung l k x) k' = if (Nat.eqb (fst k) (fst k') && Nat.eqb (snd k) (snd k'))%bool then Some x else last_hung l k'.
  Proof.
    induction l as [|[k0 x0] l IH]; cbn [hung last_hung]; [reflexivity|].
    destruct ((fst k0 =? fst k) && (snd k0 =? snd k))%nat eqn:B; cbn [last_hung].
    - apply andb_prop in B as [B1 B2]. apply Nat.eqb_eq in B1, B2. rewrite B1, B2. now destruct ((fst k =? fst k') && (snd k =? snd k'))%nat.
    - rewrite IH. destruct ((fst k0 =? fst k') && (snd k0 =? snd k'))%nat eqn:B'; [|reflexivity].
      destruct ((fst k =? fst k') && (snd k =? snd k'))%nat eqn:B''; [|reflexivity].
      apply andb_prop in B' as [X1 X2]. apply andb_prop in B'' as [Y1 Y2]. apply Nat.eqb_eq in X1, X2, Y1, Y2.
      rewrite X1, X2, Y1, Y2, !Nat.eqb_refl in B. discriminate.
  Qed.
  Lemma render_hangs t r i path vars cl k j c p kws : sound t -> located t r 0 = Some (i, Figure path vars) ->
    dget kws "viewport" = Some (VObj cl k) -> (forall m, In m ["model"; "view"; "proj"] -> dget kws m = None \/ dget kws m = Some VNone) ->
    located t k 0 = Some (j, Window c p) ->
    exists d drawn a, placed_at t c = Some (Wall d drawn) /\ nth_error (d_panes d) p = Some a /\ usable (Panes.view (d_fig d) a) /\
      match paint path (Panes.view (d_fig d) a) vars with
      | Err e => perform paint t r "render" kws = Err e
      | Ok x => exists t' drawn', perform paint t r "render" kws = Ok t' /\ placed_at t' c = Some (Wall d drawn') /\ last_hung drawn' (i, p) = Some x /\
          (forall q, q <> (i, p) -> last_hung drawn' q = last_hung drawn q) /\ (forall m, m <> c -> placed_at t' m = placed_at t m) /\ map fst t' = map fst t
      end.
  Proof.
    intros [U W] F Kv Km Fk. destruct (W j c p (located_at _ _ _ _ Fk)) as (d & drawn & a & Pc & Pn).
    exists d, drawn, a. split; [exact Pc|]. split; [exact Pn|]. split; [exact (U c d drawn a Pc (nth_error_In _ _ Pn))|].
    assert (Nm : forall m, In m ["model"; "view"; "proj"] -> no_matrix kws m = Ok tt) by (intros m I; unfold no_matrix; now destruct (Km m I) as [-> | ->]).
    assert (Ep : perform paint t r "render" kws = let* x := paint path (Panes.view (d_fig d) a) vars in Ok (replaced t c (Wall d (hung drawn (i, p) x)))).
    { unfold perform. rewrite F. unfold arg. cbn [String.eqb Ascii.eqb Bool.eqb]. rewrite Kv, !Nm by (cbn; auto). cbn [bind]. now rewrite Fk, Pc, Pn. }
    rewrite Ep. destruct (paint path _ vars) as [x|e]; cbn [bind]; [|reflexivity].
    eexists. eexists. split; [reflexivity|]. split; [rewrite placed_replaced, Nat.eqb_refl, Pc; reflexivity|].
    split; [rewrite hung_last; cbn [fst snd]; now rewrite !Nat.eqb_refl|]. split; [|split; [|apply replaced_keys]].
    - intros [q1 q2] Nq. rewrite hung_last. cbn [fst snd]. destruct (Nat.eqb_spec i q1) as [-> |]; [|reflexivity]. destruct (Nat.eqb_spec p q2) as [-> |]; [|reflexivity]. congruence.
    - intros m Nm'. rewrite placed_replaced. destruct (Nat.eqb_spec m c); [contradiction|reflexivity].
  Qed.
End Sound.

Lemma reenacted_sound {C Pic} num (hue : Command.value -> C) arrays unpack look (paint : string -> Viewport.viewport -> dict string var -> res Pic) outs : forall t t', sound t ->
  reenacted num hue arrays unpack look paint t outs = Ok t' -> sound t'.
Proof.
  induction outs as [|[r path kws|r m kws v] outs IH]; intros t t' S; cbn [reenacted].
  - intros [= <-]. exact S.
  - destruct (Gallery.construct num hue arrays unpack look t r path kws) as [t1|] eqn:B; cbn [bind]; [|discriminate]. apply IH. exact (construct_sound num hue arrays unpack look _ _ _ _ _ S B).
  - destruct (perform paint t r m kws) as [t1|] eqn:B; cbn [bind]; [|discriminate]. apply IH. exact (perform_sound paint _ _ _ _ _ S B).
Qed.
Lemma enacted_app {C Pic} num (hue : Command.value -> C) arrays unpack look (paint : string -> Viewport.viewport -> dict string var -> res Pic) l1 : forall t refs more l2, length refs = news l1 ->
  enacted num hue arrays unpack look paint t (refs ++ more) (l1 ++ l2) =
  let* t1 := enacted num hue arrays unpack look paint t refs l1 in enacted num hue arrays unpack look paint t1 more l2.
Proof.
  induction l1 as [|[cl path pre post sg args kw|r0 cl m sg args kw] l1 IH]; intros t refs more l2 L.
  - destruct refs; [reflexivity|discriminate L].
  - destruct refs as [|r refs]; [discriminate L|]. cbn [enacted app]. destruct (bind_args sg args kw) as [b|]; cbn [bind]; [|reflexivity].
    destruct (Gallery.construct num hue arrays unpack look t r path b) as [t1|]; cbn [bind]; [|reflexivity]. apply IH. now injection L.
  - cbn [enacted app]. destruct (bind_args sg args kw) as [b|]; cbn [bind]; [|reflexivity].
    destruct (perform paint t r0 m b) as [t1|]; cbn [bind]; [|reflexivity]. apply IH. exact L.
Qed.
Lemma reenacted_app {C Pic} num (hue : Command.value -> C) arrays unpack look (paint : string -> Viewport.viewport -> dict string var -> res Pic) o1 : forall t o2,
  reenacted num hue arrays unpack look paint t (o1 ++ o2) =
  let* t1 := reenacted num hue arrays unpack look paint t o1 in reenacted num hue arrays unpack look paint t1 o2.
Proof.
  induction o1 as [|[r path kws|r m kws v] o1 IH]; intros t o2; cbn [reenacted app]; [reflexivity| |].
  - destruct (Gallery.construct num hue arrays unpack look t r path kws) as [t1|]; cbn [bind]; [apply IH|reflexivity].
  - destruct (perform paint t r m kws) as [t1|]; cbn [bind]; [apply IH|reflexivity].
Qed.

(** ** What the visuals draw *)
Section Paints.
  Context (code whole : Vec.num -> Z) (argsort : list Vec.num -> list nat).
  Lemma held_length V ps : holds V ps -> length (elements (a_data V)) = (length ps * 3)%nat.
  Proof.
    intros (l & -> & T & _). rewrite map_length. clear - T. induction T as [|r p l ps X T IH]; [reflexivity|]. red in X. subst r. cbn. rewrite IH. reflexivity.
  Qed.
  Lemma held_kept V ps : holds V ps -> kept (Z.of_nat (length ps)) V = Ok tt.
  Proof. intros H. unfold kept. rewrite (held_length V ps H), Nat.div_mul by lia. now rewrite Z.eqb_refl. Qed.
  Lemma eyes_only : transform_of Relay.eye Relay.eye Relay.eye = Relay.eye.
  Proof. unfold transform_of, Relay.eye, matmul. cbn. f_equal; f_equal; ring. Qed.

  Lemma depth_eye p : depth (clip Relay.eye Relay.eye Relay.eye p) = Some (z3 p).
  Proof. rewrite clip_eye. destruct p as [px py pz]. unfold depth, point. cbn. destruct (Req_EM_T 1 0); [lra|]. f_equal. field. Qed.
  Lemma mean_ext z z' g : (forall p, z p = z' p) -> mean_depth z g = mean_depth z' g.
  Proof. intros X. unfold mean_depth. replace (depths z' g) with (depths z g); [reflexivity|]. induction g as [|p g IH]; cbn [depths]; [reflexivity|]. now rewrite X, IH. Qed.
  Lemma mean_eye gs p : mean_in (fun p => depth (clip Relay.eye Relay.eye Relay.eye p)) gs p = mean_in (fun p => Some (z3 p)) gs p.
  Proof. unfold mean_in. destruct (nth_error gs p); [|reflexivity]. apply mean_ext. apply depth_eye. Qed.

  (** *** Pixels *)
  Lemma pixels_rows v V ps n c a : lists V ps -> n = Z.of_nat (length ps) -> colors code c = Ok a ->
    exists x, paint_pixels code argsort v [("positions", Array (Ok V) n); ("colors", c)] = Ok (Spots x) /\
      pixels argsort v V Relay.eye Relay.eye Relay.eye a = Ok x.
  Proof.
    intros (k & l & -> & T & S) -> Ec. destruct (placed_rows k l (transform_of Relay.eye Relay.eye Relay.eye) ps T S) as (A & E & D).
    unfold paint_pixels, positions, variable. cbn [dget]. cbn [Base.eqb EqB_string String.eqb Ascii.eqb Bool.eqb bind fst snd].
    rewrite E. cbn [bind]. unfold rows_of at 1. rewrite D. cbn [bind]. rewrite map_length, Z.eqb_refl. cbn [orb bind]. rewrite Ec. cbn [bind].
    unfold pixels. rewrite E. cbn [bind]. unfold rows_of. rewrite D. cbn [bind]. eexists. split; reflexivity.
  Qed.
  Lemma pixels_flat v V ps c : holds V ps -> (1 <= length ps)%nat ->
    paint_pixels code argsort v [("positions", Array (Ok (flat V)) (Z.of_nat (length ps))); ("colors", c)] = Err (if (length ps mod 4 =? 0)%nat then ValueError else TypeError).
  Proof.
    intros H L. pose proof (held_length V ps H) as E3. set (n := length ps) in *.
    unfold paint_pixels, positions, variable. cbn [dget]. cbn [Base.eqb EqB_string String.eqb Ascii.eqb Bool.eqb bind fst snd].
    unfold placed, to_vec4, flat. cbn [a_data chosen a_kind]. unfold from_flat. rewrite E3.
    destruct (Nat.eqb_spec (n mod 4) 0) as [M|M].
    - assert (M3 : ((n * 3) mod 4 = 0)%nat) by (rewrite <- Nat.mul_mod_idemp_l, M by lia; reflexivity). rewrite M3. cbn [Nat.eqb bind].
      unfold matmul_T. cbn [a_data Nat.eqb bind]. unfold to_vec3. cbn [a_data Nat.eqb bind chosen a_kind]. unfold rows_of. cbn [a_data bind].
      unfold Vec.stored. rewrite !map_length. unfold chunks. rewrite map_length, seq_length, E3.
      apply Nat.div_exact in M; [|lia]. set (q := (n / 4)%nat) in *. rewrite M. replace (4 * q * 3)%nat with ((3 * q) * 4)%nat by lia. rewrite Nat.div_mul by lia.
      destruct (Z.eqb_spec (Z.of_nat (3 * q)) (Z.of_nat (4 * q))); [lia|]. destruct (Nat.eqb_spec (3 * q) 1); [lia|]. reflexivity.
    - destruct (Nat.eqb_spec ((n * 3) mod 4) 0) as [M3|]; [|reflexivity]. exfalso. apply M.
      apply Nat.mod_divide in M3; [|lia]. apply Nat.mod_divide; [lia|]. rewrite Nat.mul_comm in M3. apply Nat.gauss with (m := 3%nat); [exact M3|reflexivity].
  Qed.

  Lemma pixels_no_buffer v V ps c : holds V ps -> (1 <= length ps)%nat ->
    exists e, paint_pixels code argsort v [("positions", Array (Ok (flat V)) (Z.of_nat (length ps))); ("colors", c)] = Err e /\ (e = ValueError \/ e = TypeError).
  Proof. intros H L. rewrite (pixels_flat v V ps c H L). destruct (length ps mod 4 =? 0)%nat; eauto. Qed.

  (** *** Paths and polygons *)
  Lemma sizes_counted x i n gs (ps : list vec3) : says_sizes whole x i -> group ps i = Ok gs -> n = length ps ->
    indices_of whole x = Ok i /\ (gs <> [] -> paths_of (Z.of_nat n) (Some x) = Ok (Z.of_nat (length gs))).
  Proof.
    intros [(z & -> & ->)|(k & l & -> & ->)] G ->; (split; [reflexivity|]); intros Ng.
    - cbn [group] in G. unfold group_uniform in G. cbn [paths_of]. destruct (z =? 0)%Z; [discriminate|]. injection G as <-. rewrite map_length, seq_length.
      destruct (Z.ltb_spec (Z.of_nat (length ps) / z) 0); [|now rewrite Z2Nat.id by lia].
      exfalso. apply Ng. replace (Z.to_nat (Z.of_nat (length ps) / z)) with 0%nat by lia. reflexivity.
    - cbn [group] in G. injection G as <-. cbn [paths_of length_of]. destruct (Z.ltb_spec (Z.of_nat (length l)) 0); [lia|]. do 2 f_equal.
      rewrite <- (map_length whole l). generalize 0%Z, (map whole l). clear. intros z m. revert z. induction m as [|y m IH]; intros z; cbn [group_sizes length]; [reflexivity|]. now rewrite <- IH.
  Qed.
  Lemma all_ok (l : list attr) : (fix all l := match l with [] => Ok [] | a :: l' => let* a := a in let* l' := all l' in Ok (a :: l') end) (map Ok l) = Ok l.
  Proof. induction l as [|a l IH]; [reflexivity|]. cbn [map bind]. rewrite IH. reflexivity. Qed.
  Lemma lines_where v V ps vars x i gs attrs : sorts_numbers argsort -> usable v -> holds V ps ->
    dget vars "positions" = Some (Array (Ok V) (Z.of_nat (length ps))) -> dget vars "indices" = Some x -> says_sizes whole x i -> group ps i = Ok gs -> gs <> [] ->
    let n := length gs in
    Forall (fun a => fits n a /\ clear_path n (length ps) a) attrs ->
    exists order out, paint_lines whole argsort v vars (map Ok attrs) = Ok (Lines out) /\ visits n order /\
      covers (mean_in (fun p => Some (z3 p)) gs) order /\
      map Some out = map (fun j => option_map (fun g => (map (fun p => spot v (point p)) g, map (fun a => own a j) attrs)) (nth_error gs j)) order.
  Proof.
    intros SORT U H Dp Di Sx G Ng n F.
    destruct (outlines_where argsort SORT Relay.eye Relay.eye Relay.eye v V ps i gs attrs U H G F) as (order & out & O & Vi & Cv & M).
    destruct (sizes_counted x i (length ps) gs ps Sx G eq_refl) as [Ei Ep].
    exists order, out. split; [|split; [exact Vi|split]].
    - unfold paint_lines, positions, variable. rewrite Dp, Di. cbn [bind fst snd].
      destruct (placed_points_rows V (transform_of Relay.eye Relay.eye Relay.eye) ps H) as (A & E & D). rewrite E. cbn [bind]. unfold rows_of. rewrite D. cbn [bind].
      rewrite Ei. cbn [bind]. rewrite group_map, G. cbn [bind]. rewrite (held_kept V ps H). cbn [bind]. rewrite (Ep Ng). cbn [bind].
      unfold filled. rewrite map_length, Z.eqb_refl. destruct (Nat.eqb_spec (length gs) 0) as [Z0|_]; [destruct gs; [contradiction|discriminate Z0]|]. cbn [negb andb orb bind].
      rewrite all_ok. cbn [bind]. rewrite O. reflexivity.
    - intros a b p q y z L A B X Y. apply (Cv a b p q y z L A B).
      + now rewrite mean_eye.
      + now rewrite mean_eye.
    - etransitivity; [exact M|]. apply map_ext. intros j. destruct (nth_error gs j) as [g|]; [|reflexivity]. cbn [option_map]. do 2 f_equal. apply map_ext. intros p. now rewrite clip_eye.
  Qed.
  (** With no path, paths and polygons cannot be drawn. *)
  Lemma lines_none v V ps vars x i attrs : holds V ps ->
    dget vars "positions" = Some (Array (Ok V) (Z.of_nat (length ps))) -> dget vars "indices" = Some x -> says_sizes whole x i -> group ps i = Ok [] ->
    paint_lines whole argsort v vars attrs = Err ValueError.
  Proof.
    intros H Dp Di Sx G. destruct (sizes_counted x i (length ps) [] ps Sx G eq_refl) as [Ei _].
    unfold paint_lines, positions, variable. rewrite Dp, Di. cbn [bind fst snd].
    destruct (placed_points_rows V (transform_of Relay.eye Relay.eye Relay.eye) ps H) as (A & E & D). rewrite E. cbn [bind]. unfold rows_of. rewrite D. cbn [bind].
    rewrite Ei. cbn [bind]. rewrite group_map, G. cbn [bind map]. rewrite (held_kept V ps H). cbn [bind].
    assert (P : paths_of (Z.of_nat (length ps)) (Some x) = Err ValueError \/ exists m, paths_of (Z.of_nat (length ps)) (Some x) = Ok m).
    { destruct Sx as [(z & -> & ->)|(k & l & -> & ->)]; cbn [paths_of length_of].
      - cbn [group] in G. unfold group_uniform in G. destruct (z =? 0)%Z; [discriminate|]. destruct (Z.of_nat (length ps) / z <? 0)%Z; eauto.
      - destruct (Z.of_nat (length l) <? 0)%Z; eauto. }
    destruct P as [-> |(m & ->)]; reflexivity.
  Qed.

  (** *** Markers *)
  Lemma shapes_each types angles axis (ty an : nat -> Z) rs : forall i, (forall j, (i <= j < i + length rs)%nat -> each code types j = Ok (ty j) /\ each code angles j = Ok (an j)) ->
    exists l, shapes code types angles axis i rs = Ok l /\ length l = length rs /\
      forall j r, nth_error rs j = Some r -> nth_error l j = Some (ty (i + j)%nat, an (i + j)%nat, match axis with Plain Absent => None | _ => Some r end).
  Proof.
    induction rs as [|r rs IH]; intros i H; cbn [shapes].
    - exists []. split; [reflexivity|]. split; [reflexivity|]. intros [|j] r; discriminate.
    - cbn [length] in H. destruct (H i ltac:(lia)) as [-> ->]. cbn [bind]. destruct (IH (S i)) as (l & -> & L & N); [intros j Hj; apply H; lia|]. cbn [bind].
      eexists. split; [reflexivity|]. split; [cbn; now rewrite L|]. intros [|j] r0 E; cbn [nth_error] in *.
      + injection E as ->. now rewrite Nat.add_0_r.
      + rewrite (N j r0 E). now replace (S i + j)%nat with (i + S j)%nat by lia.
  Qed.
  Lemma marks_where v V ps vars types angles axis f e w s face edge width size (ty an : nat -> Z) : sorts_numbers argsort -> usable v -> holds V ps ->
    let n := length ps in
    dget vars "positions" = Some (Array (Ok V) (Z.of_nat n)) ->
    dget vars "types" = Some types -> dget vars "angles" = Some angles -> dget vars "axis" = Some axis ->
    (forall j, (j < n)%nat -> each code types j = Ok (ty j) /\ each code angles j = Ok (an j)) ->
    dget vars "fill_colors" = Some f -> colors code f = Ok face -> dget vars "line_colors" = Some e -> colors code e = Ok edge ->
    dget vars "line_widths" = Some w -> numbers code w = Ok width -> dget vars "sizes" = Some s -> numbers code s = Ok size ->
    fits n face -> clear n face -> fits n edge -> clear n edge -> fits n width -> clear n width -> fits_size n size ->
    exists order out, paint_markers code argsort v vars = Ok (Marks out) /\ visits n order /\
      covers (depth_in (fun p => Some (z3 p)) ps) order /\
      map Some out = map (fun j => option_map (fun p => (((ty j, an j, match axis with Plain Absent => None | _ => Some [Num (x3 p); Num (y3 p); Num (z3 p)] end), spot v (point p)),
                                                 [own face j; own edge j; own width j; own size j])) (nth_error ps j)) order.
  Proof.
    intros SORT U H n Dp Dt Da Dx Ea Df Ef De Ee Dw Ew Ds Es F1 C1 F2 C2 F3 C3 F4.
    destruct (placed_points_rows V Relay.eye ps H) as (A & E & D).
    destruct (shapes_each types angles axis ty an (map (fun p => projected (apply4 Relay.eye (point p))) ps) 0%nat) as (l & El & Ll & Nl).
    { intros j Hj. rewrite map_length in Hj. apply Ea. unfold n. lia. }
    rewrite map_length in Ll.
    destruct (markers_where argsort SORT Relay.eye Relay.eye Relay.eye v V l ps face edge width size U H Ll F1 C1 F2 C2 F3 C3 F4) as (order & out & O & Vi & Cv & M).
    exists order, out. split; [|split; [exact Vi|split]].
    - unfold paint_markers, positions, variable. rewrite Dp, Dt, Da, Dx, Df, De, Dw, Ds. cbn [bind fst snd]. rewrite E. cbn [bind]. unfold rows_of. rewrite D. cbn [bind].
      rewrite El. cbn [bind]. pose proof (held_kept V ps H) as Hk. fold n in Hk. rewrite Hk. cbn [bind]. rewrite Ef, Ee, Ew, Es. cbn [bind]. rewrite O. reflexivity.
    - intros a b p q y z L A' B X Y. apply (Cv a b p q y z L A' B); unfold depth_in in *.
      + destruct (nth_error ps p); [|discriminate]. now rewrite depth_eye.
      + destruct (nth_error ps q); [|discriminate]. now rewrite depth_eye.
    - etransitivity; [exact M|]. apply map_ext. intros j. destruct (nth_error ps j) as [p|] eqn:Ep; [|now destruct (nth_error l j)]. cbn [option_map].
      rewrite (Nl j (projected (apply4 Relay.eye (point p)))) by (rewrite nth_error_map, Ep; reflexivity). rewrite clip_eye. cbn [Nat.add].
      assert (Ey : projected (apply4 Relay.eye (point p)) = [Num (x3 p); Num (y3 p); Num (z3 p)]).
      { destruct p as [px py pz]. unfold projected, apply4, Relay.eye, dot4, point. cbn. unfold quot.
        repeat match goal with |- context [Req_EM_T ?a ?b] => destruct (Req_EM_T a b); [exfalso; lra|] end. repeat f_equal; field; lra. }
      now rewrite Ey.
  Qed.
End Paints.

(** ** The examples *)
Ltac a_visual := cbn [fine paths_of_two pixels_of markers_of]; split; [reflexivity|]; split; [reflexivity|]; split; [reflexivity|];
  split; [valid_signature|]; split; [distinct|]; split; [intros ? ? K; cbn in K; each_param K; discriminate|].
Ltac sent_or J J' := eexists; (split; [reflexivity|]); let k := fresh in let v := fresh in let K := fresh in
  intros k v K; cbn in K; repeat destruct K as [K|K]; try contradiction; injection K as <- <-;
    first [left; reflexivity | right; cbn; first [eexists; split; [reflexivity|]; first [exact J|exact J'|intros; eexists; reflexivity] | intros; eexists; reflexivity]].
Lemma buffer_fine c n b : (forall x, In x b -> (x < 256)%N) -> fine dtype_or_int to_buffer_or_color two_classes arrays_and_colors c (buffer_of n b).
Proof.
  intros Hb. fine_step.
  split; [eexists; split; [reflexivity|]; intros k v K; cbn in K; found K; left; reflexivity|all_sent].
Qed.
Lemma canvas_fine c w h : fine dtype_or_int to_buffer_or_color two_classes arrays_and_colors c (canvas_of w h).
Proof.
  fine_step. split; [eexists; split; [reflexivity|]; intros k v K; cbn in K; found K; left; reflexivity|all_sent].
Qed.
Lemma viewport_fine c r path color : In (r, path) (cl_made c) ->
  fine dtype_or_int to_buffer_or_color two_classes arrays_and_colors c (viewport_of r (VInt 0) (VInt 0) (VFloat 1) (VFloat 1) color).
Proof.
  intros Hin. fine_step.
  split; [eexists; split; [reflexivity|]; intros k v K; cbn in K; found K; try (left; reflexivity); right; exists "Canvas", r, path; auto|all_sent].
Qed.
Lemma text_named s oidf x j : (x = VStr s \/ exists f, to_buffer_or_color f (VStr s) = Ok x) -> encode dtype_or_int oidf x = Ok j -> named (decode j) = named (VStr s) /\ as_shown (decode j) = as_shown (VStr s).
Proof. intros [-> |(f & [= <-])] [= <-]; split; reflexivity. Qed.
Ltac gallery_colors := each_action;
    intros bound v P B D; try discriminate P; cbn in B; injection B as <-; cbn in D; injection D as <-;
    (split; [reflexivity|split; [intros f x [= <-]; reflexivity|intros oidf x j X Y; exact (proj1 (text_named _ _ _ _ X Y))]]).
Ltac gallery_rest := split; [apply ready_init|]; split; [apply offers_willing|]; split; [relay_step|];
  split; [relay_lengths|]; split; [gallery_colors|]; split; [relay_real|]; split; [relay_buffers|relay_renders].
Lemma paths_fine c : (exists p, In (2%nat, p) (cl_made c)) -> (exists p, In (3%nat, p) (cl_made c)) ->
  fine dtype_or_int to_buffer_or_color two_classes arrays_and_colors c paths_of_two.
Proof. intros J J'. a_visual. split; [eexists; split; [reflexivity|]; intros k v K; cbn in K; found K; left; reflexivity|]. sent_or J J'. Qed.
Lemma pixels_fine c : (exists p, In (2%nat, p) (cl_made c)) -> fine dtype_or_int to_buffer_or_color two_classes arrays_and_colors c pixels_of.
Proof. intros J. a_visual. split; [eexists; split; [reflexivity|]; intros k v K; cbn in K; found K; left; reflexivity|]. sent_or J J. Qed.
Lemma markers_fine c a : In a [VNone; VAtom "tracked" 1] -> (exists p, In (2%nat, p) (cl_made c)) -> fine dtype_or_int to_buffer_or_color two_classes arrays_and_colors c (markers_of a).
Proof.
  intros [<-|[<-|[]]] J; a_visual; (split; [eexists; split; [reflexivity|]; intros k v K; cbn in K; found K; left; reflexivity|]); sent_or J J.
Qed.
Lemma render_of_fine c cl r v path pathv : contains "/" cl = false -> In (r, path) (cl_made c) -> In (v, pathv) (cl_made c) ->
  fine dtype_or_int to_buffer_or_color two_classes arrays_and_colors c (render_of cl r v).
Proof.
  intros Hc Hr Hv. cbn [fine render_of]. split; [now exists path|]. split; [discriminate|]. split; [discriminate|]. split; [reflexivity|]. split; [reflexivity|]. split; [exact Hc|].
  split; [split; [distinct|split; [intros ? H; cbn in H; each_param H; (split; [discriminate|reflexivity])
            |intros ? ? K K'; cbn in K; each_param K; cbn in K'; first [discriminate K'|injection K' as <-; reflexivity]]]|].
  split; [distinct|]. split; [intros ? ? K K'; cbn in K; each_param K; cbn in K'; first [discriminate K'|injection K' as <-; reflexivity]|].
  split; [eexists; split; [reflexivity|]; intros k w K; cbn in K; found K; try (left; reflexivity); right; subst k; exists "Viewport", v, pathv; auto|all_sent].
Qed.
Ltac ready_gallery F := unfold gallery_ready; cbv zeta; split; [apply starting_process|]; split;
  [unfold session_of, before_visual; cbn [app]; split; [apply canvas_fine|]; split; [apply viewport_fine with (path := "core.Canvas"); in_made 0%nat|];
    do 2 (split; [apply buffer_fine, small_bytes; reflexivity|]); split; [F|];
    split; [eapply render_of_fine; [reflexivity|in_made 4%nat|in_made 1%nat]|exact Logic.I]|];
  cbn [session_of before_visual app paths_of_two pixels_of markers_of render_of]; gallery_rest.
Lemma paths_ready : gallery_ready (session_of "Paths" paths_of_two).
Proof. ready_gallery ltac:(apply paths_fine; [exists "core.Buffer"; in_made 2%nat|exists "core.Buffer"; in_made 3%nat]). Qed.
Lemma pixels_ready : gallery_ready (session_of "Pixels" pixels_of).
Proof. ready_gallery ltac:(apply pixels_fine; exists "core.Buffer"; in_made 2%nat). Qed.
Lemma markers_ready a : In a [VNone; VAtom "tracked" 1] -> gallery_ready (session_of "Markers" (markers_of a)).
Proof. intros [<-|[<-|[]]]; ready_gallery ltac:(apply markers_fine; [cbn; auto|exists "core.Buffer"; in_made 2%nat]). Qed.

Lemma word_meaning s : same_meaning dtype_or_int to_buffer_or_color as_shown (VStr s).
Proof. split; [reflexivity|]. split; [intros f x [= <-]; reflexivity|]. intros oidf x j X Y. exact (proj2 (text_named _ _ _ _ X Y)). Qed.
Lemma plain_meaning v : (exists z, v = VInt z \/ v = VFloat z) \/ v = VNone -> same_meaning dtype_or_int to_buffer_or_color as_shown v.
Proof.
  intros [(z & [-> | ->])| ->]; (split; [reflexivity|]); (split; [discriminate|]); intros oidf x j [-> |(f & X)] Y; try discriminate X; now injection Y as <-.
Qed.
Lemma member_meaning c z : In c ["LineStyle"; "LineJoin"; "LineCap"; "Marker"] -> same_meaning dtype_or_int to_buffer_or_color as_shown (VAtom c z).
Proof.
  intros I. split; [reflexivity|]. cbn in I. repeat destruct I as [<-|I]; try contradiction; (split; [discriminate|]); intros oidf x j [-> |(f & X)] Y; try discriminate X; now injection Y as <-.
Qed.
Lemma tracked_variable bufs sg path k z V args : some_array "tracked" z = Some V -> ~ CommandSpec.untouched two_classes arrays_and_colors (dget (annotations (s_params sg)) k) (VAtom "tracked" z) ->
  In ((Z.to_nat z + 1)%nat, args) bufs -> holds_memory a_byte_each V args -> ((k = "positions" /\ path <> "visual.Pixels") \/ exists l, a_data V = Flat l) ->
  fine_variable some_array a_byte_each as_shown dtype_or_int to_buffer_or_color two_classes arrays_and_colors bufs sg path k (VAtom "tracked" z).
Proof.
  intros A U I H F. cbn [fine_variable]. rewrite A. split; [exact U|]. split; [|exact F].
  intros a b f x _ _ _ X. cbn in X. injection X as <-. eauto 8.
Qed.
Lemma paths_visuals : fine_visuals some_array a_byte_each as_shown dtype_or_int to_buffer_or_color two_classes arrays_and_colors []
  (map fst (cl_made (Session.acts two_classes arrays_and_colors new_process (session_of "Paths" paths_of_two)))) (session_of "Paths" paths_of_two).
Proof.
  set (refs := map fst _). vm_compute in refs. subst refs. unfold session_of, before_visual. cbn [app fine_visuals canvas_of viewport_of buffer_of paths_of_two render_of].
  assert (NV : forall path, In path ["core.Canvas"; "core.Viewport"; "core.Buffer"] -> ~ is_visual path) by (intros path I J; unfold is_visual in J; cbn in I, J; intuition congruence).
  intros b0 B0. split; [intros J; exfalso; revert J; apply NV; cbn; auto|split; [discriminate|]].
  intros b1 B1. split; [intros J; exfalso; revert J; apply NV; cbn; auto|split; [discriminate|]].
  intros b2 B2. split; [intros J; exfalso; revert J; apply NV; cbn; auto|split; [discriminate|]]. cbn in B2. injection B2 as <-.
  intros b3 B3. split; [intros J; exfalso; revert J; apply NV; cbn; auto|split; [discriminate|]]. cbn in B3. injection B3 as <-.
  cbn [String.eqb Ascii.eqb Bool.eqb app].
  intros b4 B4. cbn in B4. injection B4 as <-. split; [intros _|split; [discriminate|exact Logic.I]].
  assert (U : forall k z, In k ["positions"; "line_widths"] -> 
    ~ CommandSpec.untouched two_classes arrays_and_colors (dget (annotations (s_params (match paths_of_two with Session.New _ _ _ _ sg _ _ => sg | _ => mkS [] [] end))) k) (VAtom "tracked" z)).
  { intros k z I [X|X]; [discriminate X|]. specialize (X "Buffer" "tracked").
    assert (T : tried two_classes (dget (annotations (s_params (match paths_of_two with Session.New _ _ _ _ sg _ _ => sg | _ => mkS [] [] end))) k) (VAtom "tracked" z) "Buffer").
    { destruct I as [<-|[<-|[]]]; exists ["Transform"]; eexists; (split; [reflexivity|]); intros a' [<-|[<-|[]]] Bl; repeat destruct Bl as [Bl|Bl]; try discriminate Bl; try contradiction. }
    specialize (X T (or_introl eq_refl)). discriminate X. }
  intros k v D. cbn in D. found D; repeat match goal with X : k = ?s |- _ => first [subst k | clear X] end.
  - eapply tracked_variable; [reflexivity|apply (U "positions"); cbn; auto|left; reflexivity| |left; split; [reflexivity|discriminate]].
    split; [reflexivity|]. eexists. eexists. eexists. split; [reflexivity|]. split; [reflexivity|]. split; [left; reflexivity|]. reflexivity.
  - apply plain_meaning. eauto.
  - apply word_meaning.
  - eapply tracked_variable; [reflexivity|apply (U "line_widths"); cbn; auto|right; left; reflexivity| |right; eexists; reflexivity].
    split; [reflexivity|]. eexists. eexists. eexists. split; [reflexivity|]. split; [reflexivity|]. split; [left; reflexivity|]. reflexivity.
  - apply member_meaning. cbn; auto.
  - apply member_meaning. cbn; auto.
  - apply member_meaning. cbn; auto.
Qed.

(** What the program and the server have then. *)
Notation example_enacted code whole := (enacted zq named some_array a_byte_each as_shown (paint_all code whole sort_nums) []).
Notation example_reenacted code whole := (reenacted zq named some_array a_byte_each as_shown (paint_all code whole sort_nums) []).
Definition six_points : arr := table KFloat 3 [[0; 0; 1]; [1; 0; 1]; [1; 1; 1]; [0; 0; 2]; [1; 1; 2]; [0; 1; 2]]%R.
Definition six : list vec3 := [V3 0 0 1; V3 1 0 1; V3 1 1 1; V3 0 0 2; V3 1 1 2; V3 0 1 2].
Lemma six_held : holds (flat six_points) six.
Proof. exists [[0; 0; 1]; [1; 0; 1]; [1; 1; 1]; [0; 0; 2]; [1; 1; 2]; [0; 1; 2]]%R. split; [reflexivity|]. split; [repeat constructor|]. intros X. discriminate X. Qed.
Lemma six_listed : lists six_points six.
Proof. exists KFloat, [[0; 0; 1]; [1; 0; 1]; [1; 1; 1]; [0; 0; 2]; [1; 1; 2]; [0; 1; 2]]%R. split; [reflexivity|]. split; [repeat constructor|]. discriminate. Qed.
Definition red : given := Else (Row [3; 0; 0; 1]%Z).
Definition black : given := Else (Row [5; 0; 0; 1]%Z).
Definition path_vars : dict string var :=
  [("positions", Array (Ok (flat six_points)) 6); ("indices", Plain (Int 3)); ("line_colors", Plain red);
   ("line_widths", Array (Ok (mkA KFloat (Flat [Num 1; Num 4]))) 2); ("line_styles", Plain (Int 1)); ("line_joins", Plain (Int 1)); ("line_caps", Plain (Int 2))].
Definition no_matrices (cl : string) : dict string Command.value := [("viewport", VObj cl 1%nat); ("model", VNone); ("view", VNone); ("proj", VNone)].
Lemma none_given cl m : In m ["model"; "view"; "proj"] -> dget (no_matrices cl) m = None \/ dget (no_matrices cl) m = Some VNone.
Proof. intros I. cbn in I. repeat destruct I as [<-|I]; try destruct I; right; reflexivity. Qed.
Lemma paths_before code whole : exists t, example_enacted code whole [0; 1; 2; 3; 4]%nat (before_visual ++ [paths_of_two]) = Ok t /\
  located t 4%nat 0 = Some (4%nat, Figure "visual.Paths" path_vars) /\ located t 1%nat 0 = Some (1%nat, Window 0 0).
Proof. eexists. split; [reflexivity|]. split; reflexivity. Qed.
Lemma last_render code whole visual cl t x : example_enacted code whole [0; 1; 2; 3; 4]%nat (before_visual ++ [visual]) = Ok t ->
  news [visual] = 1%nat -> perform (paint_all code whole sort_nums) t 4%nat "render" (no_matrices "Viewport") = x ->
  example_enacted code whole [0; 1; 2; 3; 4]%nat (session_of cl visual) = x.
Proof.
  intros P N <-. unfold session_of. change [visual; render_of cl 4%nat 1%nat] with ([visual] ++ [render_of cl 4%nat 1%nat])%list. rewrite app_assoc. 
  change [0; 1; 2; 3; 4]%nat with ([0; 1; 2; 3; 4] ++ [])%nat%list at 1.
  rewrite enacted_app by (unfold news in *; rewrite filter_app, app_length, N; reflexivity). rewrite P. cbn [bind enacted render_of].
  match goal with |- context [bind_args ?s ?b ?c] => replace (bind_args s b c) with (Ok (no_matrices "Viewport")) by reflexivity end.
  cbn [bind]. now destruct (perform _ t _ _ _).
Qed.
Lemma two_means order : visits 2 order -> covers (mean_in (fun p => Some (z3 p)) [[V3 0 0 1; V3 1 0 1; V3 1 1 1]; [V3 0 0 2; V3 1 1 2; V3 0 1 2]]) order -> order = [1; 0]%nat.
Proof.
  intros V Cv. apply Permutation_sym, Permutation_length_2_inv in V as [-> | ->]; [|reflexivity].
  assert (M : forall a b c, mean_depth (fun p => Some (z3 p)) [a; b; c] = Some ((z3 a + (z3 b + z3 c)) / 3)%R).
  { intros a b c. unfold mean_depth. cbn. f_equal. field. }
  specialize (Cv 0%nat 1%nat 0%nat 1%nat _ _ ltac:(lia) eq_refl eq_refl (M _ _ _) (M _ _ _)). cbn in Cv. lra.
Qed.
Lemma paths_shown code whole : exists t d drawn a,
  example_enacted code whole [0; 1; 2; 3; 4]%nat (session_of "Paths" paths_of_two) = Ok t /\ placed_at t 0 = Some (Wall d drawn) /\ nth_error (d_panes d) 0 = Some a /\
  last_hung drawn (4, 0)%nat = Some (Lines [(map (fun p => spot (Panes.view (d_fig d) a) (point p)) [V3 0 0 2; V3 1 1 2; V3 0 1 2], [Some [3; 0; 0; 1]%Z; Some [code (Num 4)]]);
                                        (map (fun p => spot (Panes.view (d_fig d) a) (point p)) [V3 0 0 1; V3 1 0 1; V3 1 1 1], [Some [3; 0; 0; 1]%Z; Some [code (Num 1)]])]).
Proof.
  destruct (paths_before code whole) as (t & P & F4 & F1).
  pose proof (enacted_sound zq named some_array a_byte_each as_shown (paint_all code whole sort_nums) _ _ _ _ nothing_sound P) as So.
  destruct (render_hangs (paint_all code whole sort_nums) t 4%nat 4%nat _ _ "Viewport" 1%nat 1%nat 0%nat 0%nat (no_matrices "Viewport") So F4 eq_refl (none_given "Viewport") F1) as
    (d & drawn & a & Pc & Pn & Us & R).
  destruct (lines_where whole sort_nums (Panes.view (d_fig d) a) (flat six_points) six path_vars (Plain (Int 3)) (Uniform 3) [[V3 0 0 1; V3 1 0 1; V3 1 1 1]; [V3 0 0 2; V3 1 1 2; V3 0 1 2]]
     [Row [3; 0; 0; 1]%Z; Rows [[code (Num 1)]; [code (Num 4)]]] sort_nums_sorts Us six_held eq_refl eq_refl) as (order & out & O & Vi & Cv & M).
  - left. eauto.
  - reflexivity.
  - discriminate.
  - constructor; [|constructor; [|constructor]]; (split; [cbn; auto|]); [split; discriminate|left; reflexivity].
  - assert (Ep : paint_all code whole sort_nums "visual.Paths" (Panes.view (d_fig d) a) path_vars = Ok (Lines out)) by exact O.
    rewrite Ep in R. destruct R as (t' & drawn' & Pf & Pw & L & _).
    exists t', d, drawn', a. split; [exact (last_render code whole paths_of_two "Paths" t _ P eq_refl Pf)|]. split; [exact Pw|]. split; [exact Pn|].
    rewrite L. do 2 f_equal. rewrite (two_means order Vi Cv) in M. cbn [map nth_error option_map own] in M.
    destruct out as [|o1 [|o2 [|]]]; try discriminate M. cbn [map] in M. injection M as -> ->. reflexivity.
Qed.

(** Pixels. *)
Definition pixel_vars : dict string var := [("positions", Array (Ok six_points) 6); ("colors", Plain red)].
Lemma pixels_before code whole : exists t, example_enacted code whole [0; 1; 2; 3; 4]%nat (before_visual ++ [pixels_of]) = Ok t /\
  located t 4%nat 0 = Some (4%nat, Figure "visual.Pixels" pixel_vars) /\ located t 1%nat 0 = Some (1%nat, Window 0 0).
Proof. eexists. split; [reflexivity|]. split; reflexivity. Qed.
Lemma pixels_shown code whole : exists t, example_enacted code whole [0; 1; 2; 3; 4]%nat (session_of "Pixels" pixels_of) = Ok t.
Proof.
  destruct (pixels_before code whole) as (t & P & F4 & F1).
  pose proof (enacted_sound zq named some_array a_byte_each as_shown (paint_all code whole sort_nums) _ _ _ _ nothing_sound P) as So.
  destruct (render_hangs (paint_all code whole sort_nums) t 4%nat 4%nat _ _ "Viewport" 1%nat 1%nat 0%nat 0%nat (no_matrices "Viewport") So F4 eq_refl (none_given "Viewport") F1) as
    (d & drawn & a & Pc & Pn & Us & R).
  destruct (pixels_rows code sort_nums (Panes.view (d_fig d) a) six_points six 6 (Plain red) (Row [3; 0; 0; 1]%Z) six_listed eq_refl eq_refl) as (x & O & _).
  assert (Ep : paint_all code whole sort_nums "visual.Pixels" (Panes.view (d_fig d) a) pixel_vars = Ok (Spots x)) by exact O.
  rewrite Ep in R. destruct R as (t' & drawn' & Pf & _). exists t'. exact (last_render code whole pixels_of "Pixels" t _ P eq_refl Pf).
Qed.
Definition visual_made (visual : Execute.outcome) : list Execute.outcome :=
  [Built 0%nat "core.Canvas" [("width", VInt 512); ("height", VInt 512); ("dpi", VFloat 100)];
   Built 1%nat "core.Viewport" [("canvas", VObj "core.Canvas" 0%nat); ("x", VInt 0); ("y", VInt 0); ("width", VFloat 1); ("height", VFloat 1); ("color", VSeq [VStr "white"; VFloat 3])];
   Built 2%nat "core.Buffer" [("count", VInt 6); ("dtype", VStr "float32"); ("data", VStr "AAABAQABAQEBAAACAQECAAEC")];
   Built 3%nat "core.Buffer" [("count", VInt 2); ("dtype", VStr "float32"); ("data", VStr "AQQ=")];
   visual].
Definition visual_render : list Execute.outcome := [Called 4%nat "render" (no_matrices "core.Viewport") VNone].
Definition pixels_sent : Execute.outcome := Built 4%nat "visual.Pixels" [("positions", VObj "core.Buffer" 2%nat); ("colors", VSeq [VStr "red"; VFloat 3])].
Lemma pixels_outs : gallery_outs (session_of "Pixels" pixels_of) = (visual_made pixels_sent ++ visual_render)%list.
Proof. vm_compute. reflexivity. Qed.
Lemma pixels_made_there code whole : exists t, example_reenacted code whole (visual_made pixels_sent) = Ok t /\
  located t 4%nat 0 = Some (4%nat, Figure "visual.Pixels" [("positions", Array (Ok (mkA KFloat (Flat (map (fun x => Num (IZR (Z.of_N x))) [0; 0; 1; 1; 0; 1; 1; 1; 1; 0; 0; 2; 1; 1; 2; 0; 1; 2]%N)))) 6); ("colors", Plain red)]) /\
  located t 1%nat 0 = Some (1%nat, Window 0 0).
Proof. eexists. split; [reflexivity|]. split; reflexivity. Qed.
Lemma pixels_refused code whole : example_reenacted code whole (gallery_outs (session_of "Pixels" pixels_of)) = Err TypeError.
Proof.
  rewrite pixels_outs, reenacted_app. destruct (pixels_made_there code whole) as (t & P & F4 & F1). rewrite P. cbn [bind].
  pose proof (reenacted_sound zq named some_array a_byte_each as_shown (paint_all code whole sort_nums) _ _ _ nothing_sound P) as So.
  destruct (render_hangs (paint_all code whole sort_nums) t 4%nat 4%nat _ _ "core.Viewport" 1%nat 1%nat 0%nat 0%nat (no_matrices "core.Viewport") So F4 eq_refl (none_given "core.Viewport") F1) as
    (d & drawn & a & Pc & Pn & Us & R).
  assert (Ep : paint_all code whole sort_nums "visual.Pixels" (Panes.view (d_fig d) a) [("positions", Array (Ok (mkA KFloat (Flat (map (fun x => Num (IZR (Z.of_N x))) [0; 0; 1; 1; 0; 1; 1; 1; 1; 0; 0; 2; 1; 1; 2; 0; 1; 2]%N)))) 6); ("colors", Plain red)] = Err TypeError)
    by exact (pixels_flat code sort_nums (Panes.view (d_fig d) a) (flat six_points) six (Plain red) six_held ltac:(cbn; lia)).
  rewrite Ep in R. unfold visual_render. cbn [reenacted]. rewrite R. reflexivity.
Qed.

(** Markers with an axis. *)
Definition marker_vars : dict string var :=
  [("positions", Array (Ok (flat six_points)) 6); ("types", Plain (Int 3)); ("sizes", Plain (Else (Whole 9))); ("axis", Array (Ok six_points) 6); ("angles", Plain (Else (Whole 0)));
   ("fill_colors", Plain red); ("line_colors", Plain black); ("line_widths", Plain (Else (Whole 1)))].
Lemma markers_before code whole : exists t, example_enacted code whole [0; 1; 2; 3; 4]%nat (before_visual ++ [markers_of (VAtom "tracked" 1)]) = Ok t /\
  located t 4%nat 0 = Some (4%nat, Figure "visual.Markers" marker_vars) /\ located t 1%nat 0 = Some (1%nat, Window 0 0).
Proof. eexists. split; [reflexivity|]. split; reflexivity. Qed.
Lemma markers_shown code whole : exists t, example_enacted code whole [0; 1; 2; 3; 4]%nat (session_of "Markers" (markers_of (VAtom "tracked" 1))) = Ok t.
Proof.
  destruct (markers_before code whole) as (t & P & F4 & F1).
  pose proof (enacted_sound zq named some_array a_byte_each as_shown (paint_all code whole sort_nums) _ _ _ _ nothing_sound P) as So.
  destruct (render_hangs (paint_all code whole sort_nums) t 4%nat 4%nat _ _ "Viewport" 1%nat 1%nat 0%nat 0%nat (no_matrices "Viewport") So F4 eq_refl (none_given "Viewport") F1) as
    (d & drawn & a & Pc & Pn & Us & R).
  destruct (marks_where code sort_nums (Panes.view (d_fig d) a) (flat six_points) six marker_vars _ _ _ (Plain red) (Plain black) (Plain (Else (Whole 1))) (Plain (Else (Whole 9))) (Row [3; 0; 0; 1]%Z) (Row [5; 0; 0; 1]%Z) (Whole 1) (Whole 9) (fun _ => 3%Z) (fun _ => 0%Z)
     sort_nums_sorts Us six_held eq_refl eq_refl eq_refl eq_refl) as (order & out & O & _); try reflexivity; try exact Logic.I; try discriminate.
  - intros; split; reflexivity.
  - assert (Ep : paint_all code whole sort_nums "visual.Markers" (Panes.view (d_fig d) a) marker_vars = Ok (Marks out)) by exact O.
    rewrite Ep in R. destruct R as (t' & drawn' & Pf & _). exists t'. exact (last_render code whole (markers_of (VAtom "tracked" 1)) "Markers" t _ P eq_refl Pf).
Qed.
Lemma markers_refused code whole : example_reenacted code whole (gallery_outs (session_of "Markers" (markers_of (VAtom "tracked" 1)))) = Err TypeError.
Proof.
  assert (Eo : exists v o, gallery_outs (session_of "Markers" (markers_of (VAtom "tracked" 1))) = (visual_made (Built 4%nat "visual.Markers" v) ++ o)%list /\
    v = [("positions", VObj "core.Buffer" 2%nat); ("types", VInt 3); ("sizes", VFloat 9); ("axis", VObj "core.Buffer" 2%nat); ("angles", VFloat 0);
         ("fill_colors", VSeq [VStr "red"; VFloat 3]); ("line_colors", VSeq [VStr "black"; VFloat 3]); ("line_widths", VFloat 1)])
    by (do 2 eexists; split; [vm_compute; reflexivity|reflexivity]).
  destruct Eo as (v & o & -> & ->). rewrite reenacted_app. reflexivity.
Qed.
