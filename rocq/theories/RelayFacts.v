(** Proofs about Relay.v. *)
From Coq Require Import Reals Lra Permutation.
From Verif Require Import Base Registry Convert Command CommandSpec CommandFacts Queue QueueSpec Base64 Base64Facts Execute Json Session SessionSpec SessionFacts
  JsonText JsonTextSpec JsonFile JsonFileSpec AnyFile AnyFileSpec SessionFile SessionFileSpec SessionFileFacts
  Measure Viewport ViewportSpec ViewportFacts Panes PanesFacts Glm GlmSpec Vec VecSpec Render RenderSpec Picture PictureSpec PictureFacts Remote RemoteSpec RemoteFacts Relay RelaySpec.
Open Scope string_scope.

Section Same.
  Context {C : Type} (num : Z -> Qc) (hue : Command.value -> C) (arrays : string -> Z -> option arr)
          (unpack : Command.value -> list N -> res (Vec.kind * list Vec.num)) (code : Vec.num -> Z) (look : Command.value -> attr)
          (argsort : list Vec.num -> list nat).
  Context (txt : string -> Z -> option jval) (pure : func -> Command.value -> res Command.value) (oidf : ref -> Z) (E : cenv) (d : registry).
  Context (mades : list (ref * string)) (bs : list ref) (Dm : NoDup (map fst mades)) (Db : NoDup bs).
  Notation build := (build num hue arrays unpack code look).
  Notation paired := (paired mades bs).
  Notation arrives := (arrives txt pure oidf E d mades bs).

  Definition alike (t t' : stage C) : Prop := Forall2 (fun x y => snd x = snd y /\ paired (fst x) (fst y)) t t'.
  Definition both (x y : res (stage C)) : Prop :=
    match x, y with Ok t, Ok t' => alike t t' | Err e, Err e' => e = e' | _, _ => False end.

  Lemma found_alike t t' k K : alike t t' -> paired k K -> forall n, found t k n = found t' K n.
  Proof.
    intros A P. induction A as [|[r a] [R b] t t' (X & Y) A IH]; intros n; [reflexivity|]. cbn [fst snd] in X, Y. subst b. cbn [found].
    rewrite (paired_eqb mades bs Dm Db r R k K Y P). now rewrite IH.
  Qed.
  Lemma changed_alike t t' n x : alike t t' -> alike (changed t n x) (changed t' n x).
  Proof.
    intros A. revert n. induction A as [|[r b] [R b'] t t' (X & Y) A IH]; intros n; [constructor|]. cbn [fst snd] in X, Y. subst b'. cbn [changed].
    destruct n; constructor; cbn; auto. apply IH.
  Qed.
  Lemma place_alike t t' n : alike t t' -> place t n = place t' n.
  Proof.
    intros A. unfold place. revert n. induction A as [|[r b] [R b'] t t' (X & Y) A IH]; intros [|n]; try reflexivity; cbn in *; [congruence|apply IH].
  Qed.
  Lemma add_alike t t' r R x : alike t t' -> paired r R -> alike (t ++ [(r, x)])%list (t' ++ [(R, x)])%list.
  Proof. intros A P. apply Forall2_app; [exact A|]. constructor; [|constructor]. now split. Qed.

  (** *** Values *)
  Lemma kept_arrives sg k v w : arrives (dget (annotations (s_params sg)) k) v w -> no_converter E d sg k v -> is_object v = false ->
    exists j, encode txt oidf v = Ok j /\ w = decode j.
  Proof.
    intros (x & X & J) N O.
    assert (x = v) as ->.
    { destruct X as [(X & _)|(_ & a & b & f & (l1 & l2 & T & _) & I & F & _)]; [exact X|].
      rewrite (N _ a b T) in F; [discriminate| |exact I]. apply in_or_app. right. now left. }
    destruct v; try discriminate O; exact J.
  Qed.
  Lemma meaning_arrives {X} (f : Command.value -> X) anns v w : arrives anns v w -> same_meaning txt pure f v ->
    f w = f v /\ exists j, w = decode j.
  Proof.
    intros (x & Y & J) (O & Q & H).
    assert (Ox : is_object x = false) by (destruct Y as [(-> & _)|(_ & a & b & g & _ & _ & _ & Y)]; [exact O|eauto]).
    assert (G : exists j, encode txt oidf x = Ok j /\ w = decode j) by (destruct x; try discriminate Ox; exact J).
    destruct G as (j & G & ->). split; [|eauto]. apply (H oidf x j); [|exact G].
    destruct Y as [(Y & _)|(_ & a & b & g & _ & _ & _ & Y)]; eauto.
  Qed.
  Lemma object_arrives anns cl r w : arrives anns (VObj cl r) w -> exists path R, w = VObj path R /\ paired r R.
  Proof.
    intros (x & X & J). destruct X as [(-> & _)|(F & _)]; [|discriminate]. destruct J as (path & R & S & ->). exists path, R. split; [reflexivity|]. now exists path.
  Qed.
  Lemma decoded j : (forall c z, decode j <> VAtom c z) /\ (forall c r, decode j <> VObj c r).
  Proof. destruct j; split; discriminate. Qed.

  (** The buffers made so far are on the stage. *)
  Definition stored (t : stage C) (bufs : list (ref * dict string Command.value)) : Prop :=
    forall r b, In (r, b) bufs -> exists i count dtype data x, arg b "count" = Ok count /\ arg b "dtype" = Ok dtype /\ arg b "data" = Ok data /\
      new_buffer (C := C) unpack count dtype data = Ok x /\ found t r 0 = Some (i, x).

  Lemma mirrored_array t bufs V r b : stored t bufs -> In (r, b) bufs -> holds_memory unpack V b ->
    exists i, found t r 0 = Some (i, Store (Ok (mkA (a_kind V) (Flat (elements (a_data V))))) (Z.of_nat (rows V))).
  Proof.
    intros S I (Cn & dt & data & bytes & Dt & Da & Db' & U). destruct (S r b I) as (i & c & dt' & da & x & A1 & A2 & A3 & N & F).
    exists i. rewrite F. f_equal. f_equal. unfold arg in A1, A2, A3. rewrite Cn in A1. rewrite Dt in A2. rewrite Da in A3.
    injection A1 as <-. injection A2 as <-. injection A3 as <-. unfold new_buffer in N. cbn [bind] in N.
    destruct Db' as [-> |(s & -> & Ds)].
    - rewrite U in N. cbn [bind fst snd] in N. now injection N as <-.
    - rewrite Ds in N. cbn [bind] in N. rewrite U in N. cbn [bind fst snd] in N. now injection N as <-.
  Qed.

  Lemma array_cases t t' bufs sg k v w : alike t t' -> stored t bufs ->
    fine_attribute arrays unpack look txt pure E d bufs sg k v -> arrives (dget (annotations (s_params sg)) k) v w ->
    (array_of arrays t v = None /\ array_of arrays t' w = None /\
       ((exists cl r cl' R, v = VObj cl r /\ w = VObj cl' R) \/ is_object v = false /\ is_object w = false /\ look w = look v)) \/
    (exists A n, array_of arrays t v = Some (A, n) /\ array_of arrays t' w = Some (A, n)) \/
    (exists V, array_of arrays t v = Some (Ok V, Z.of_nat (rows V)) /\
       array_of arrays t' w = Some (Ok (flat V), Z.of_nat (rows V)) /\ (k <> "positions" -> exists l, a_data V = Flat l)).
  Proof.
    intros A S F W.
    assert (M : same_meaning txt pure look v -> array_of arrays t v = None -> is_object v = false ->
      (array_of arrays t v = None /\ array_of arrays t' w = None /\
       ((exists cl r cl' R, v = VObj cl r /\ w = VObj cl' R) \/ is_object v = false /\ is_object w = false /\ look w = look v))).
    { intros Sm N O. destruct (meaning_arrives look _ v w W Sm) as (L & j & ->). split; [exact N|]. destruct (decoded j) as [D1 D2].
      split; [|right; split; [exact O|]; split; [|exact L]].
      - destruct (decode j); try reflexivity; [now destruct (D1 _ _ eq_refl)|now destruct (D2 _ _ eq_refl)].
      - destruct (decode j); try reflexivity; now destruct (D2 _ _ eq_refl). }
    destruct v as [| | | | | |c z|cl r| |]; cbn [fine_attribute] in F; try (left; apply M; [exact F|reflexivity|reflexivity]).
    - destruct (arrays c z) as [V|] eqn:EV.
      + right. right. exists V. destruct F as (U & Cv & Fl). destruct W as (x & X & J).
        destruct X as [(-> & [X|X])|(_ & a & b & f & T & I & Cf & P)]; [discriminate X|contradiction|].
        destruct (Cv a b f x T I Cf P) as (cl & r & ar & -> & Ib & H). destruct J as (path & R & Sf & ->).
        destruct (mirrored_array t bufs V r ar S Ib H) as (i & Fi).
        cbn [array_of]. rewrite EV, <- (found_alike t t' r R A ltac:(now exists path) 0%nat), Fi. auto.
      + left. apply M; [exact F|cbn [array_of]; now rewrite EV|reflexivity].
    - destruct (object_arrives _ cl r w W) as (path & R & -> & P). cbn [array_of]. rewrite <- (found_alike t t' r R A P 0%nat).
      destruct (found t r 0) as [[i [ | |As n| |]]|]; [left|left|right; left; eauto|left|left|left]; (split; [reflexivity|split; [reflexivity|left; eauto 6]]).
  Qed.
  Lemma positions_same t t' bufs sg v w : alike t t' -> stored t bufs ->
    fine_attribute arrays unpack look txt pure E d bufs sg "positions" v -> arrives (dget (annotations (s_params sg)) "positions") v w ->
    positions_of arrays t v = positions_of arrays t' w.
  Proof.
    intros A S F W. unfold positions_of.
    destruct (array_cases t t' bufs sg _ v w A S F W) as [(-> & -> & _)|[(B & n & -> & ->)|(V & -> & -> & _)]]; [reflexivity..|].
    cbn [bind]. destruct (Z.of_nat (rows V) <? 0)%Z; reflexivity.
  Qed.
  Lemma attr_same t t' bufs sg k f v w : alike t t' -> stored t bufs -> k <> "positions" ->
    fine_attribute arrays unpack look txt pure E d bufs sg k v -> arrives (dget (annotations (s_params sg)) k) v w ->
    attr_of arrays look t f v = attr_of arrays look t' f w.
  Proof.
    intros A S Nk F W. unfold attr_of.
    destruct (array_cases t t' bufs sg k v w A S F W) as [(-> & -> & [(cl & r & cl' & R & -> & ->)|(O & O' & L)])|[(B & n & -> & ->)|(V & -> & -> & Fl)]]; [reflexivity| |reflexivity|].
    - destruct v; try discriminate O; destruct w; try discriminate O'; f_equal; symmetry; exact L.
    - cbn [bind]. destruct (Fl Nk) as (l & El). f_equal. destruct V as [kd dt]. cbn [a_data a_kind] in El. subst dt. reflexivity.
  Qed.

  (** *** One constructor *)
  Definition comes (sg : sig) (bound kws : dict string Command.value) : Prop :=
    forall k, match dget bound k with
              | Some v => exists w, dget kws k = Some w /\ arrives (dget (annotations (s_params sg)) k) v w
              | None => dget kws k = None end.
  Lemma comes_arg sg bound kws k : comes sg bound kws ->
    (exists e, arg bound k = Err e /\ arg kws k = Err e) \/
    exists v w, dget bound k = Some v /\ arg bound k = Ok v /\ arg kws k = Ok w /\ arrives (dget (annotations (s_params sg)) k) v w.
  Proof.
    intros K. specialize (K k). unfold arg. destruct (dget bound k) as [v|]; [|rewrite K; left; eauto].
    destruct K as (w & -> & W). right. exists v, w. auto.
  Qed.

  Lemma buffer_same t t' r R cl pre post sg args kw bound kws : alike t t' -> paired r R ->
    plain_buffer unpack txt pure E d (Session.New cl "core.Buffer" pre post sg args kw) -> bind_args sg args kw = Ok bound -> comes sg bound kws ->
    both (build t r "core.Buffer" bound) (build t' R "core.Buffer" kws).
  Proof.
    intros A P PB B K. destruct (PB bound eq_refl B) as (Bc & Bd & Bt). unfold Relay.build. cbn [String.eqb Ascii.eqb Bool.eqb].
    destruct (comes_arg sg bound kws "count" K) as [(e & -> & ->)|(c & c' & Dc & -> & -> & Wc)]; cbn [bind]; [reflexivity|].
    destruct (comes_arg sg bound kws "dtype" K) as [(e & -> & ->)|(t0 & t0' & Dt & -> & -> & Wt)]; cbn [bind]; [reflexivity|].
    destruct (comes_arg sg bound kws "data" K) as [(e & -> & ->)|(x & x' & Dx & -> & -> & Wx)]; cbn [bind]; [reflexivity|].
    destruct (Bc c Dc) as ((z & ->) & Nc). destruct (kept_arrives sg _ _ _ Wc Nc eq_refl) as (j & J & ->). cbn [encode] in J. injection J as <-.
    cbn [decode]. destruct (Bd x Dx) as (Kx & Nx).
    assert (U : forall b, unpack t0' b = unpack t0 b) by (intros b; exact (proj1 (meaning_arrives (fun v => unpack v b) _ _ _ Wt (Bt t0 b Dt)))).
    assert (G : new_buffer (C := C) unpack (VInt z) t0 x = new_buffer unpack (VInt z) t0' x').
    { destruct Kx as [-> |[(s & ->)|(b & -> & Hb)]]; destruct (kept_arrives sg _ _ _ Wx Nx eq_refl) as (j & J & ->); cbn [encode] in J; injection J as <-;
        cbn [decode new_buffer bind].
      - reflexivity.
      - destruct (b64decode s) as [b|]; cbn [bind]; [|reflexivity]. now rewrite U.
      - rewrite (b64_roundtrip b Hb). cbn [bind]. now rewrite U. }
    rewrite <- G. destruct (new_buffer unpack (VInt z) t0 x) as [y|e]; cbn [bind both]; [|reflexivity]. now apply add_alike.
  Qed.
  Lemma points_same t t' bufs r R sg bound kws : alike t t' -> paired r R -> stored t bufs ->
    (forall k v, In k ["positions"; "sizes"; "fill_colors"; "line_colors"; "line_widths"] ->
       dget bound k = Some v -> fine_attribute arrays unpack look txt pure E d bufs sg k v) -> comes sg bound kws ->
    both (build t r "visual.Points" bound) (build t' R "visual.Points" kws).
  Proof.
    intros A P S F K. unfold Relay.build, new_points. cbn [String.eqb Ascii.eqb Bool.eqb].
    destruct (comes_arg sg bound kws "positions" K) as [(e & -> & ->)|(v & w & D & -> & -> & W)]; cbn [bind]; [reflexivity|].
    rewrite <- (positions_same t t' bufs sg v w A S (F "positions" v ltac:(cbn; auto) D) W).
    destruct (positions_of arrays t v) as [p|]; cbn [bind]; [|reflexivity].
    destruct (comes_arg sg bound kws "sizes" K) as [(e & -> & ->)|(v1 & w1 & D1 & -> & -> & W1)]; cbn [bind]; [reflexivity|].
    destruct (comes_arg sg bound kws "fill_colors" K) as [(e & -> & ->)|(v2 & w2 & D2 & -> & -> & W2)]; cbn [bind]; [reflexivity|].
    destruct (comes_arg sg bound kws "line_colors" K) as [(e & -> & ->)|(v3 & w3 & D3 & -> & -> & W3)]; cbn [bind]; [reflexivity|].
    destruct (comes_arg sg bound kws "line_widths" K) as [(e & -> & ->)|(v4 & w4 & D4 & -> & -> & W4)]; cbn [bind]; [reflexivity|].
    rewrite <- (attr_same t t' bufs sg "sizes" (numbers_of code) v1 w1 A S ltac:(discriminate) (F "sizes" v1 ltac:(cbn; auto) D1) W1).
    rewrite <- (attr_same t t' bufs sg "fill_colors" (colors_of code) v2 w2 A S ltac:(discriminate) (F "fill_colors" v2 ltac:(cbn; auto) D2) W2).
    rewrite <- (attr_same t t' bufs sg "line_colors" (colors_of code) v3 w3 A S ltac:(discriminate) (F "line_colors" v3 ltac:(cbn; auto 7) D3) W3).
    rewrite <- (attr_same t t' bufs sg "line_widths" (numbers_of code) v4 w4 A S ltac:(discriminate) (F "line_widths" v4 ltac:(cbn; auto 7) D4) W4).
    cbn [both]. now apply add_alike.
  Qed.
  Lemma build_same t t' bufs r R cl path pre post sg args kw bound kws : alike t t' -> paired r R -> stored t bufs ->
    plain_lengths E d (Session.New cl path pre post sg args kw) -> plain_colors txt pure hue (Session.New cl path pre post sg args kw) ->
    real_canvas (Session.New cl path pre post sg args kw) -> plain_buffer unpack txt pure E d (Session.New cl path pre post sg args kw) ->
    (path = "visual.Points" -> forall k v, In k ["positions"; "sizes"; "fill_colors"; "line_colors"; "line_widths"] ->
       dget bound k = Some v -> fine_attribute arrays unpack look txt pure E d bufs sg k v) ->
    bind_args sg args kw = Ok bound -> comes sg bound kws ->
    both (build t r path bound) (build t' R path kws).
  Proof.
    intros A P S PL PC RC PB PP B K.
    assert (L : forall k, In k (lengths path) -> arg bound k = arg kws k).
    { intros k I. unfold arg. specialize (K k). destruct (dget bound k) as [v|] eqn:D; [|now rewrite K].
      destruct K as (w & -> & W). destruct (PL bound k v B I D) as (N & Q). f_equal. symmetry.
      apply (length_arrives txt pure oidf E d mades bs _ _ _ W N). intros l a b. apply Q. }
    destruct (String.eqb path "core.Buffer") eqn:E3.
    { apply String.eqb_eq in E3. subst path. eapply buffer_same; eassumption. }
    destruct (String.eqb path "visual.Points") eqn:E4.
    { apply String.eqb_eq in E4. subst path. eapply points_same; eauto. }
    unfold Relay.build, lengths in *. rewrite E3, E4. destruct (String.eqb path "core.Canvas").
    { rewrite <- !L by (cbn; auto). destruct (arg bound "width") as [w|]; cbn [bind]; [|reflexivity].
      destruct (as_coord num w) as [w'|]; cbn [bind]; [|reflexivity].
      destruct (arg bound "height") as [h|]; cbn [bind]; [|reflexivity].
      destruct (as_coord num h) as [h'|]; cbn [bind]; [|reflexivity].
      destruct (arg bound "dpi") as [dp|]; cbn [bind]; [|reflexivity].
      destruct (as_number num dp) as [dp'|]; cbn [bind]; [|reflexivity].
      destruct (new_canvas w' h' dp') as [f|]; cbn [bind]; [|reflexivity].
      cbn [both]. now apply add_alike. }
    destruct (String.eqb path "core.Viewport") eqn:Ev; [|cbn [both]; now apply add_alike].
    assert (Ep : path = "core.Viewport") by now apply String.eqb_eq.
    assert (Cc : (exists e, arg bound "color" = Err e /\ arg kws "color" = Err e) \/
      exists v w, arg bound "color" = Ok v /\ arg kws "color" = Ok w /\ hue w = hue v).
    { destruct (comes_arg sg bound kws "color" K) as [?|(v & w & D & -> & -> & W)]; [now left|]. right. exists v, w. split; [reflexivity|]. split; [reflexivity|].
      destruct (PC bound v Ep B D) as (O & Q & H). exact (color_arrives hue txt pure oidf E d mades bs _ _ _ W O Q H). }
    rewrite <- (L "x"), <- (L "y"), <- (L "width"), <- (L "height") by (cbn; auto 6).
    destruct (comes_arg sg bound kws "canvas" K) as [(e & -> & ->)|(v & w & D & -> & -> & W)]; cbn [bind]; [reflexivity|].
    destruct (arg bound "x") as [x|]; cbn [bind]; [|reflexivity]. destruct (as_coord num x) as [x'|]; cbn [bind]; [|reflexivity].
    destruct (arg bound "y") as [y|]; cbn [bind]; [|reflexivity]. destruct (as_coord num y) as [y'|]; cbn [bind]; [|reflexivity].
    destruct (arg bound "width") as [a|]; cbn [bind]; [|reflexivity]. destruct (as_coord num a) as [a'|]; cbn [bind]; [|reflexivity].
    destruct (arg bound "height") as [h|]; cbn [bind]; [|reflexivity]. destruct (as_coord num h) as [h'|]; cbn [bind]; [|reflexivity].
    destruct Cc as [(e & -> & ->)|(c1 & c2 & -> & -> & Hc)]; cbn [bind]; [reflexivity|].
    pose proof (RC bound v Ep B D) as O. destruct v as [| | | | | | |cl1 k| |]; try discriminate O.
    destruct (object_arrives _ cl1 k w W) as (p & k2 & -> & V).
    rewrite <- (found_alike t t' k k2 A V 0%nat). destruct (found t k 0) as [[n [dk dr| | | |]]|]; try reflexivity. rewrite Hc.
    destruct (act_on dk _) as [d'|]; cbn [bind]; [|reflexivity]. cbn [both]. apply add_alike; [|exact P]. now apply changed_alike.
  Qed.

  (** *** One call *)
  Lemma invoke_same t t' r R cl m sg args kw bound kws : alike t t' -> paired r R ->
    plain_render E d (Call r cl m sg args kw) -> bind_args sg args kw = Ok bound -> comes sg bound kws ->
    both (invoke argsort t r m bound) (invoke argsort t' R m kws).
  Proof.
    intros A P PR B K. unfold invoke. rewrite <- (found_alike t t' r R A P 0%nat).
    destruct (found t r 0) as [[i [ | | |Po n s f e w|]]|]; try exact A.
    destruct (String.eqb m "render") eqn:Em; [|exact A]. apply String.eqb_eq in Em. destruct (PR bound Em B) as (Rv & Rm).
    assert (M : forall k, In k ["model"; "view"; "proj"] -> no_matrix bound k = Ok tt /\ no_matrix kws k = Ok tt).
    { intros k I. unfold no_matrix. pose proof (K k) as Kk. destruct (dget bound k) as [v|] eqn:D; [|now rewrite Kk].
      destruct Kk as (w' & -> & W). destruct (Rm k v I D) as (-> & N). destruct (kept_arrives sg k _ _ W N eq_refl) as (j & J & ->).
      cbn [encode] in J. injection J as <-. auto. }
    destruct (comes_arg sg bound kws "viewport" K) as [(x & -> & ->)|(v & w' & D & -> & -> & W)]; cbn [bind]; [reflexivity|].
    destruct (M "model") as [-> ->]; [cbn; auto|]. destruct (M "view") as [-> ->]; [cbn; auto|]. destruct (M "proj") as [-> ->]; [cbn; auto|]. cbn [bind].
    pose proof (Rv v D) as O. destruct v as [| | | | | | |cl1 k| |]; try discriminate O.
    destruct (object_arrives _ cl1 k w' W) as (p & k2 & -> & V).
    rewrite <- (found_alike t t' k k2 A V 0%nat). destruct (found t k 0) as [[j [ |c q| | |]]|]; try reflexivity.
    rewrite <- (place_alike t t' c A). destruct (place t c) as [[dk dr| | | |]|]; try reflexivity.
    destruct (nth_error (d_panes dk) q) as [a|]; [|reflexivity].
    destruct (dots argsort (view (d_fig dk) a) Po n s f e w) as [x|]; cbn [bind]; [|reflexivity]. cbn [both]. now apply changed_alike.
  Qed.
End Same.

(** ** What stays *)
Section Stays.
  Context {C : Type} (num : Z -> Qc) (hue : Command.value -> C) (arrays : string -> Z -> option arr)
          (unpack : Command.value -> list N -> res (Vec.kind * list Vec.num)) (code : Vec.num -> Z) (look : Command.value -> attr)
          (argsort : list Vec.num -> list nat).
  Implicit Types t : stage C.

  Lemma found_place t k : forall n i x, found t k n = Some (i, x) -> (n <= i)%nat /\ nth_error t (i - n) = Some (k, x).
  Proof.
    induction t as [|[r a] t IH]; intros n i x; cbn [found]; [discriminate|]. destruct (Nat.eqb_spec r k) as [-> |].
    - intros [= <- <-]. split; [lia|]. now rewrite Nat.sub_diag.
    - intros F. apply IH in F as [L F]. split; [lia|]. replace (i - n)%nat with (S (i - S n)) by lia. exact F.
  Qed.
  Lemma found_app t u k : forall n, found (t ++ u)%list k n = match found t k n with Some x => Some x | None => found u k (n + length t) end.
  Proof.
    induction t as [|[r a] t IH]; intros n; cbn [found app length]; [now rewrite Nat.add_0_r|]. destruct (Nat.eqb r k); [reflexivity|].
    rewrite IH. now replace (S n + length t)%nat with (n + S (length t))%nat by lia.
  Qed.
  Lemma found_none t k : ~ In k (map fst t) -> forall n, found t k n = None.
  Proof.
    induction t as [|[r a] t IH]; intros N n; cbn [found]; [reflexivity|]. cbn [map fst] in N. destruct (Nat.eqb_spec r k) as [-> |]; [exfalso; apply N; now left|].
    apply IH. intros I. apply N. now right.
  Qed.
  Lemma changed_keys t n x : map fst (changed t n x) = map fst t.
  Proof. revert n. induction t as [|[r a] t IH]; intros [|n]; cbn [changed map fst]; [reflexivity..|]. now rewrite IH. Qed.
  Lemma changed_length t n x : length (changed t n x) = length t.
  Proof. rewrite <- (map_length fst), changed_keys. apply map_length. Qed.
  Lemma found_changed t k y : forall n m, found (changed t m y) k n =
    match found t k n with Some (i, x) => Some (i, if Nat.eqb i (n + m) then y else x) | None => None end.
  Proof.
    induction t as [|[r a] t IH]; intros n m; [reflexivity|]. destruct m as [|m]; cbn [changed found].
    - destruct (Nat.eqb r k); [now rewrite Nat.add_0_r, Nat.eqb_refl|]. destruct (found t k (S n)) as [[i x]|] eqn:F; [|reflexivity].
      apply found_place in F as [L _]. destruct (Nat.eqb_spec i (n + 0)); [lia|reflexivity].
    - destruct (Nat.eqb r k); [|rewrite IH; now replace (S n + m)%nat with (n + S m)%nat by lia].
      destruct (Nat.eqb_spec n (n + S m)); [lia|reflexivity].
  Qed.
  Lemma place_changed t m y i : place (changed t m y) i = if Nat.eqb i m then match place t i with Some _ => Some y | None => None end else place t i.
  Proof.
    unfold place. revert m i. induction t as [|[r a] t IH]; intros m i; cbn [changed].
    - destruct (Nat.eqb i m), i; reflexivity.
    - destruct m as [|m], i as [|i]; cbn [nth_error option_map snd Nat.eqb]; try reflexivity. apply IH.
  Qed.

  Definition lasting (x : thing C) : Prop := match x with Sheet _ _ => False | _ => True end.
  Definition keeps t t' : Prop := forall k i x, found t k 0 = Some (i, x) -> lasting x -> found t' k 0 = Some (i, x).
  Lemma keeps_changed t n d dr y : place t n = Some (Sheet d dr) -> keeps t (changed t n y).
  Proof.
    intros P k i x F L. rewrite found_changed, F. destruct (Nat.eqb_spec i (0 + n)) as [-> |]; [|reflexivity].
    apply found_place in F as [_ F]. cbn in F. rewrite Nat.sub_0_r in F. unfold place in P. rewrite F in P. cbn in P. injection P as ->. destruct L.
  Qed.
  Lemma keeps_app t u : keeps t (t ++ u)%list.
  Proof. intros k i x F _. now rewrite found_app, F. Qed.
  Lemma keeps_trans t t' t'' : keeps t t' -> keeps t' t'' -> keeps t t''.
  Proof. intros A B k i x F L. auto. Qed.
  Lemma new_buffer_lasts c dt da x : new_buffer (C := C) unpack c dt da = Ok x -> lasting x.
  Proof.
    unfold new_buffer. destruct c; cbn [bind]; try discriminate. destruct da; cbn [bind]; try discriminate; try (intros [= <-]; exact Logic.I).
    destruct (b64decode s); cbn [bind]; [intros [= <-]; exact Logic.I|discriminate].
  Qed.
  Lemma found_sheet t k n d dr : found t k 0 = Some (n, Sheet d dr) -> place t n = Some (Sheet d dr).
  Proof. intros F. apply found_place in F as [_ F]. rewrite Nat.sub_0_r in F. unfold place. now rewrite F. Qed.

  Lemma build_keeps t r path kws t' : Relay.build num hue arrays unpack code look t r path kws = Ok t' ->
    map fst t' = (map fst t ++ [r])%list /\ keeps t t' /\
    (path = "core.Buffer" -> ~ In r (map fst t) -> exists count dtype data x, arg kws "count" = Ok count /\ arg kws "dtype" = Ok dtype /\ arg kws "data" = Ok data /\
      new_buffer (C := C) unpack count dtype data = Ok x /\ found t' r 0 = Some (length t, x)).
  Proof.
    assert (Q : forall x, map fst (t ++ [(r, x)])%list = (map fst t ++ [r])%list) by (intros; now rewrite map_app).
    unfold Relay.build. destruct (String.eqb path "core.Canvas") eqn:E1.
    { destruct (arg kws "width") as [w|]; cbn [bind]; [|discriminate]. destruct (as_coord num w); cbn [bind]; [|discriminate].
      destruct (arg kws "height") as [h|]; cbn [bind]; [|discriminate]. destruct (as_coord num h); cbn [bind]; [|discriminate].
      destruct (arg kws "dpi") as [p|]; cbn [bind]; [|discriminate]. destruct (as_number num p); cbn [bind]; [|discriminate].
      destruct (new_canvas _ _ _); cbn [bind]; [|discriminate]. intros [= <-]. split; [apply Q|]. split; [apply keeps_app|]. intros ->. discriminate E1. }
    destruct (String.eqb path "core.Viewport") eqn:E2.
    { destruct (arg kws "canvas") as [c|]; cbn [bind]; [|discriminate].
      destruct (arg kws "x") as [x|]; cbn [bind]; [|discriminate]. destruct (as_coord num x); cbn [bind]; [|discriminate].
      destruct (arg kws "y") as [y|]; cbn [bind]; [|discriminate]. destruct (as_coord num y); cbn [bind]; [|discriminate].
      destruct (arg kws "width") as [w|]; cbn [bind]; [|discriminate]. destruct (as_coord num w); cbn [bind]; [|discriminate].
      destruct (arg kws "height") as [h|]; cbn [bind]; [|discriminate]. destruct (as_coord num h); cbn [bind]; [|discriminate].
      destruct (arg kws "color") as [co|]; cbn [bind]; [|discriminate]. destruct c as [| | | | | | |cl k| |]; try discriminate.
      destruct (found t k 0) as [[n [dk dr| | | |]]|] eqn:F; try discriminate. destruct (act_on dk _) as [d'|]; cbn [bind]; [|discriminate].
      intros [= <-]. split; [now rewrite map_app, changed_keys|]. split; [|intros ->; discriminate E2].
      eapply keeps_trans; [|apply keeps_app]. eapply keeps_changed. exact (found_sheet _ _ _ _ _ F). }
    destruct (String.eqb path "core.Buffer") eqn:E3.
    { destruct (arg kws "count") as [c|] eqn:A1; cbn [bind]; [|discriminate]. destruct (arg kws "dtype") as [dt|] eqn:A2; cbn [bind]; [|discriminate].
      destruct (arg kws "data") as [da|] eqn:A3; cbn [bind]; [|discriminate]. destruct (new_buffer unpack c dt da) as [x|] eqn:N; cbn [bind]; [|discriminate].
      intros [= <-]. split; [apply Q|]. split; [apply keeps_app|]. intros _ Nr. exists c, dt, da, x. do 4 (split; [auto|]).
      rewrite found_app, (found_none t r Nr). cbn [found]. now rewrite Nat.eqb_refl. }
    assert (G : path = "core.Buffer" -> False) by (intros ->; discriminate E3).
    destruct (String.eqb path "visual.Points").
    { destruct (new_points _ _ _ _ _) as [x|]; cbn [bind]; [|discriminate]. intros [= <-]. split; [apply Q|]. split; [apply keeps_app|]. intros Z. destruct (G Z). }
    intros [= <-]. split; [apply Q|]. split; [apply keeps_app|]. intros Z. destruct (G Z).
  Qed.
  Lemma invoke_keeps t r m kws t' : invoke argsort t r m kws = Ok t' -> map fst t' = map fst t /\ keeps t t'.
  Proof.
    assert (Q : map fst t = map fst t /\ keeps t t) by (split; [reflexivity|intros k i x F _; exact F]).
    unfold invoke. destruct (found t r 0) as [[i [ | | |Po n s f e w|]]|]; try (intros [= <-]; exact Q).
    destruct (String.eqb m "render"); [|intros [= <-]; exact Q]. destruct (arg kws "viewport") as [v|]; cbn [bind]; [|discriminate].
    destruct (no_matrix kws "model"); cbn [bind]; [|discriminate]. destruct (no_matrix kws "view"); cbn [bind]; [|discriminate].
    destruct (no_matrix kws "proj"); cbn [bind]; [|discriminate]. destruct v as [| | | | | | |cl k| |]; try discriminate.
    destruct (found t k 0) as [[j [ |c p| | |]]|]; try discriminate. destruct (place t c) as [[dk dr| | | |]|] eqn:P; try discriminate.
    destruct (nth_error (d_panes dk) p); [|discriminate]. destruct (dots _ _ _ _ _ _ _ _) as [x|]; cbn [bind]; [|discriminate].
    intros [= <-]. split; [apply changed_keys|]. exact (keeps_changed _ _ _ _ _ P).
  Qed.
  Lemma stored_keeps t t' bufs : stored unpack t bufs -> keeps t t' -> stored (C := C) unpack t' bufs.
  Proof.
    intros S K r b I. destruct (S r b I) as (i & c & dt & da & x & A1 & A2 & A3 & N & F). exists i, c, dt, da, x. do 4 (split; [assumption|]).
    apply K; [exact F|]. exact (new_buffer_lasts _ _ _ _ N).
  Qed.

  Context (txt : string -> Z -> option jval) (pure : func -> Command.value -> res Command.value) (oidf : ref -> Z) (E : cenv) (d : registry).
  Context (mades : list (ref * string)) (bs : list ref) (Dm : NoDup (map fst mades)) (Db : NoDup bs).
  Lemma played_same l outs : Forall2 (done txt pure oidf E d mades bs) l outs ->
    Forall (plain_lengths E d) l -> Forall (plain_colors txt pure hue) l -> Forall real_canvas l ->
    Forall (plain_buffer unpack txt pure E d) l -> Forall (plain_render E d) l ->
    forall t t' refs bufs, alike mades bs t t' -> Forall2 (paired mades bs) refs (built outs) ->
    NoDup (map fst t ++ refs) -> stored unpack t bufs -> fine_points arrays unpack look txt pure E d bufs refs l ->
    both mades bs (played num hue arrays unpack code look argsort t refs l) (replayed num hue arrays unpack code look argsort t' outs).
  Proof.
    induction 1 as [|a o l outs D _ IH]; intros PL PC RC PB PR t t' refs bufs A P N S F; [exact A|].
    inversion PL as [|? ? PL1 PL2]; inversion PC as [|? ? PC1 PC2]; inversion RC as [|? ? RC1 RC2]; inversion PB as [|? ? PB1 PB2]; inversion PR as [|? ? PR1 PR2]; subst.
    destruct a as [cl path pre post sg args kw|r cl m sg args kw]; destruct o as [R path' kws|R m' kws v]; cbn [done] in D; try contradiction.
    - destruct D as (-> & bound & B & K). cbn [played replayed built flat_map app] in *.
      inversion P as [|r ? refs' ? Pr P' X1 X2]; subst. cbn [fine_points] in F. destruct (F bound B) as [F1 F2]. rewrite B. cbn [bind].
      pose proof (build_same num hue arrays unpack code look txt pure oidf E d mades bs Dm Db t t' bufs r R cl path pre post sg args kw bound kws A Pr S PL1 PC1 RC1 PB1 F1 B K) as G.
      destruct (Relay.build num hue arrays unpack code look t r path bound) as [t1|e] eqn:Bt; destruct (Relay.build num hue arrays unpack code look t' R path kws) as [t2|e']; cbn [both bind] in *; try contradiction; [|exact G].
      destruct (build_keeps t r path bound t1 Bt) as (Ky & Kp & Kb).
      apply (IH PL2 PC2 RC2 PB2 PR2 t1 t2 refs' (if String.eqb path "core.Buffer" then bufs ++ [(r, bound)] else bufs)%list G P').
      + rewrite Ky, <- app_assoc. exact N.
      + pose proof (stored_keeps _ _ _ S Kp) as S'. destruct (String.eqb path "core.Buffer") eqn:Eb; [|exact S'].
        apply String.eqb_eq in Eb. intros q b I. apply in_app_or in I as [I|[I|[]]]; [exact (S' q b I)|]. injection I as <- <-.
        assert (Nr : ~ In r (map fst t)). { intros I. apply NoDup_remove_2 in N. apply N. apply in_or_app. now left. }
        destruct (Kb Eb Nr) as (c & dt & da & x & A1 & A2 & A3 & A4 & A5). eauto 12.
      + exact F2.
    - destruct D as (-> & (path & Sf) & bound & B & K). cbn [played replayed fine_points] in *. rewrite B. cbn [bind].
      pose proof (invoke_same argsort txt pure oidf E d mades bs Dm Db t t' r R cl m sg args kw bound kws A (ex_intro _ path Sf) PR1 B K) as G.
      destruct (invoke argsort t r m bound) as [t1|e] eqn:It; destruct (invoke argsort t' R m kws) as [t2|e']; cbn [both bind] in *; try contradiction; [|exact G].
      destruct (invoke_keeps t r m bound t1 It) as (Ky & Kp).
      apply (IH PL2 PC2 RC2 PB2 PR2 t1 t2 refs bufs G P); [now rewrite Ky|exact (stored_keeps _ _ _ S Kp)|exact F].
  Qed.
  Lemma both_screens x y : both (C := C) mades bs x y -> screens y = screens x.
  Proof.
    destruct x as [t|e], y as [t'|e']; cbn [both]; try contradiction.
    - intros A. cbn [screens bind]. f_equal. unfold sheets. induction A as [|u v ? ? (X & _) _ IH]; cbn [flat_map]; [reflexivity|]. now rewrite X, IH.
    - intros ->. reflexivity.
  Qed.
End Stays.

(** ** What is drawn *)
Section Drawn.
  Context {C : Type} (argsort : list Vec.num -> list nat).
  Lemma drawn_last l k x k' : last_drawn (drawn_in l k x) k' = if (Nat.eqb (fst k) (fst k') && Nat.eqb (snd k) (snd k'))%bool then Some x else last_drawn l k'.
  Proof.
    induction l as [|[k0 x0] l IH]; cbn [drawn_in last_drawn]; [reflexivity|].
    destruct ((fst k0 =? fst k) && (snd k0 =? snd k))%nat eqn:B; cbn [last_drawn].
    - apply andb_prop in B as [B1 B2]. apply Nat.eqb_eq in B1, B2. rewrite B1, B2. now destruct ((fst k =? fst k') && (snd k =? snd k'))%nat.
    - rewrite IH. destruct ((fst k0 =? fst k') && (snd k0 =? snd k'))%nat eqn:B'; [|reflexivity].
      destruct ((fst k =? fst k') && (snd k =? snd k'))%nat eqn:B''; [|reflexivity].
      apply andb_prop in B' as [X1 X2]. apply andb_prop in B'' as [Y1 Y2]. apply Nat.eqb_eq in X1, X2, Y1, Y2.
      rewrite X1, X2, Y1, Y2, !Nat.eqb_refl in B. discriminate.
  Qed.
  Lemma clip_eye p : clip Relay.eye Relay.eye Relay.eye p = point p.
  Proof. unfold clip, PictureSpec.eye. destruct p as [x y z]. unfold point, apply4, dot4, Relay.eye. cbn. f_equal; ring. Qed.
  Lemma flat_holds V ps : holds (flat V) ps <-> holds V ps.
  Proof. reflexivity. Qed.

  (** Where points are drawn without matrices. *)
  Lemma dots_where v V (ps : list vec3) size face edge width : sorts_numbers argsort -> usable v -> holds V ps ->
    let n := length ps in
    fits n face -> clear n face -> fits n edge -> clear n edge -> fits n width -> clear n width -> fits_size n size ->
    exists order out, dots argsort v (Ok V) (Z.of_nat n) (Ok size) (Ok face) (Ok edge) (Ok width) = Ok out /\ visits n order /\
      covers (depth_in (fun p => Some (z3 p)) ps) order /\
      map Some out = map (fun j => option_map (fun p => (spot v (point p), [own face j; own edge j; own width j; own size j])) (nth_error ps j)) order.
  Proof.
    intros S U H n F1 C1 F2 C2 F3 C3 F4.
    destruct (points_where argsort S v V Relay.eye Relay.eye Relay.eye ps face edge width size U H F1 C1 F2 C2 F3 C3 F4) as (order & out & O & Vi & Cv & M).
    exists order, out. split; [|split; [exact Vi|split]].
    - destruct H as (l & El & T & _).
      assert (L3 : length (elements (a_data V)) = (n * 3)%nat).
      { rewrite El, map_length. unfold n. clear - T. induction T as [|r p l ps X T IH]; [reflexivity|]. red in X. subst r. cbn. rewrite IH. reflexivity. }
      unfold dots. cbn [bind]. unfold as_vec. rewrite L3, Nat.mod_mul by lia. cbn [Nat.eqb bind]. unfold kept. rewrite L3, Nat.div_mul by lia.
      rewrite Z.eqb_refl. cbn [orb bind]. exact O.
    - intros i j a b x y L A B X Y. apply (Cv i j a b x y L A B); unfold depth_in in *.
      + destruct (nth_error ps a) as [p|]; [|discriminate]. rewrite clip_eye. destruct p as [px py pz]. unfold depth, point. cbn in *.
        destruct (Req_EM_T 1 0); [lra|]. injection X as <-. f_equal. field.
      + destruct (nth_error ps b) as [p|]; [|discriminate]. rewrite clip_eye. destruct p as [px py pz]. unfold depth, point. cbn in *.
        destruct (Req_EM_T 1 0); [lra|]. injection Y as <-. f_equal. field.
    - etransitivity; [exact M|]. apply map_ext. intros j. destruct (nth_error ps j) as [p|]; [|reflexivity]. cbn [option_map]. now rewrite clip_eye.
  Qed.

  (** A render on the stage. *)
  Lemma render_draws (t : stage C) r i V (ps : list vec3) size face edge width cl k j c p d drawn a kws : sorts_numbers argsort -> holds V ps ->
    let n := length ps in
    found t r 0 = Some (i, Dots (Ok V) (Z.of_nat n) (Ok size) (Ok face) (Ok edge) (Ok width)) ->
    dget kws "viewport" = Some (VObj cl k) -> (forall m, In m ["model"; "view"; "proj"] -> dget kws m = None \/ dget kws m = Some VNone) ->
    found t k 0 = Some (j, Frame c p) -> place t c = Some (Sheet d drawn) -> nth_error (d_panes d) p = Some a -> usable (Panes.view (d_fig d) a) ->
    fits n face -> clear n face -> fits n edge -> clear n edge -> fits n width -> clear n width -> fits_size n size ->
    exists order out t' drawn', invoke argsort t r "render" kws = Ok t' /\ visits n order /\
      covers (depth_in (fun p => Some (z3 p)) ps) order /\
      map Some out = map (fun j => option_map (fun p => (spot (Panes.view (d_fig d) a) (point p), [own face j; own edge j; own width j; own size j])) (nth_error ps j)) order /\
      place t' c = Some (Sheet d drawn') /\ last_drawn drawn' (i, p) = Some out /\
      (forall q, q <> (i, p) -> last_drawn drawn' q = last_drawn drawn q) /\ (forall m, m <> c -> place t' m = place t m) /\ map fst t' = map fst t.
  Proof.
    intros S H n F Kv Km Fk Pc Pn U F1 C1 F2 C2 F3 C3 F4.
    destruct (dots_where (Panes.view (d_fig d) a) V ps size face edge width S U H F1 C1 F2 C2 F3 C3 F4) as (order & out & O & Vi & Cv & M). fold n in O, Vi.
    exists order, out, (changed t c (Sheet d (drawn_in drawn (i, p) out))), (drawn_in drawn (i, p) out).
    split; [|do 3 (split; [assumption|])].
    - assert (Nm : forall m, In m ["model"; "view"; "proj"] -> no_matrix kws m = Ok tt) by (intros m I; unfold no_matrix; now destruct (Km m I) as [-> | ->]).
      unfold invoke. rewrite F. unfold arg. cbn [String.eqb Ascii.eqb Bool.eqb]. rewrite Kv, !Nm by (cbn; auto). cbn [bind]. rewrite Fk, Pc, Pn, O. reflexivity.
    - split; [rewrite place_changed, Nat.eqb_refl, Pc; reflexivity|]. split; [rewrite drawn_last; cbn [fst snd]; now rewrite !Nat.eqb_refl|].
      split; [|split; [|apply changed_keys]].
      + intros [q1 q2] Nq. rewrite drawn_last. cbn [fst snd]. destruct (Nat.eqb_spec i q1) as [-> |]; [|reflexivity]. destruct (Nat.eqb_spec p q2) as [-> |]; [|reflexivity]. congruence.
      + intros m Nm. rewrite place_changed. destruct (Nat.eqb_spec m c); [contradiction|reflexivity].
  Qed.
End Drawn.

(** ** What a program can be drawing in *)
Section Sound.
  Context {C : Type} (num : Z -> Qc) (hue : Command.value -> C) (arrays : string -> Z -> option arr)
          (unpack : Command.value -> list N -> res (Vec.kind * list Vec.num)) (code : Vec.num -> Z) (look : Command.value -> attr)
          (argsort : list Vec.num -> list nat).
  Implicit Types t : stage C.
  Definition sound t : Prop :=
    (forall i d dr a, Relay.place t i = Some (Sheet d dr) -> In a (d_panes d) -> usable (Panes.view (d_fig d) a)) /\
    (forall i c p, Relay.place t i = Some (Frame c p) -> exists d dr a, Relay.place t c = Some (Sheet d dr) /\ nth_error (d_panes d) p = Some a).
  Lemma place_app t r (x : thing C) i : Relay.place (t ++ [(r, x)])%list i = if Nat.eqb i (length t) then Some x else Relay.place t i.
  Proof.
    unfold Relay.place. destruct (Nat.eqb_spec i (length t)) as [-> |N].
    - rewrite nth_error_app2, Nat.sub_diag by lia. reflexivity.
    - destruct (Nat.lt_ge_cases i (length t)); [now rewrite nth_error_app1|]. rewrite nth_error_app2 by lia.
      destruct (i - length t)%nat as [|m] eqn:Em; [lia|]. cbn [nth_error]. destruct m; cbn [nth_error]; symmetry; rewrite (proj2 (nth_error_None t i)) by lia; reflexivity.
  Qed.
  Lemma place_bound t i x : Relay.place t i = Some x -> (i < length t)%nat.
  Proof. unfold Relay.place. destruct (nth_error t i) eqn:X; [|discriminate]. intros _. apply nth_error_Some. congruence. Qed.
  Lemma sound_add t r x : sound t -> (match x with Sheet d _ => d_panes d = [] | Frame c p => exists d dr a, Relay.place t c = Some (Sheet d dr) /\ nth_error (d_panes d) p = Some a | _ => True end) ->
    sound (t ++ [(r, x)])%list.
  Proof.
    intros [U F] X. split.
    - intros i d dr a P I. rewrite place_app in P. destruct (Nat.eqb i (length t)); [|eauto]. injection P as ->. rewrite X in I. destruct I.
    - intros i c p P. rewrite place_app in P. 
      assert (G : exists d dr a, Relay.place t c = Some (Sheet d dr) /\ nth_error (d_panes d) p = Some a).
      { destruct (Nat.eqb i (length t)); [injection P as ->; exact X|eauto]. }
      destruct G as (d & dr & a & P1 & P2). exists d, dr, a. split; [|exact P2]. rewrite place_app.
      apply place_bound in P1 as L. destruct (Nat.eqb_spec c (length t)); [lia|exact P1].
  Qed.
  Lemma sound_change t n d dr d' dr' : sound t -> Relay.place t n = Some (Sheet d dr) -> d_fig d' = d_fig d ->
    (exists l, d_panes d' = (d_panes d ++ l)%list /\ forall a, In a l -> usable (Panes.view (d_fig d) a)) -> sound (changed t n (Sheet d' dr')).
  Proof.
    intros [U F] P Ef (l & El & Ul). split.
    - intros i d0 dr0 a P0 I. rewrite place_changed in P0. destruct (Nat.eqb_spec i n) as [-> |]; [|eauto]. rewrite P in P0. injection P0 as <- <-.
      rewrite Ef. rewrite El in I. apply in_app_or in I as [I|I]; [eauto|auto].
    - intros i c p P0. rewrite place_changed in P0.
      assert (P1 : Relay.place t i = Some (Frame c p)) by (destruct (Nat.eqb i n); [destruct (Relay.place t i); discriminate P0|exact P0]).
      destruct (F i c p P1) as (d0 & dr0 & a & P2 & P3). rewrite place_changed. destruct (Nat.eqb_spec c n) as [-> |].
      + rewrite P. rewrite P in P2. injection P2 as <- <-. exists d', dr', a. split; [reflexivity|]. rewrite El, nth_error_app1; [exact P3|]. apply nth_error_Some. congruence.
      + eauto.
  Qed.
  Lemma new_usable f x y w h v : new_viewport f x y w h = Ok v -> usable v.
  Proof. intros N. exact (always_usable f x y w h v 1%Qc [] (new_scene v 1%Qc) N eq_refl). Qed.

  Lemma build_sound t r path kws t' : sound t -> Relay.build num hue arrays unpack code look t r path kws = Ok t' -> sound t'.
  Proof.
    intros S. unfold Relay.build. destruct (String.eqb path "core.Canvas").
    { destruct (arg kws "width") as [w|]; cbn [bind]; [|discriminate]. destruct (as_coord num w); cbn [bind]; [|discriminate].
      destruct (arg kws "height") as [h|]; cbn [bind]; [|discriminate]. destruct (as_coord num h); cbn [bind]; [|discriminate].
      destruct (arg kws "dpi") as [p|]; cbn [bind]; [|discriminate]. destruct (as_number num p); cbn [bind]; [|discriminate].
      destruct (new_canvas _ _ _); cbn [bind]; [|discriminate]. intros [= <-]. apply sound_add; [exact S|reflexivity]. }
    destruct (String.eqb path "core.Viewport").
    { destruct (arg kws "canvas") as [c|]; cbn [bind]; [|discriminate].
      destruct (arg kws "x") as [x|]; cbn [bind]; [|discriminate]. destruct (as_coord num x); cbn [bind]; [|discriminate].
      destruct (arg kws "y") as [y|]; cbn [bind]; [|discriminate]. destruct (as_coord num y); cbn [bind]; [|discriminate].
      destruct (arg kws "width") as [w|]; cbn [bind]; [|discriminate]. destruct (as_coord num w); cbn [bind]; [|discriminate].
      destruct (arg kws "height") as [h|]; cbn [bind]; [|discriminate]. destruct (as_coord num h); cbn [bind]; [|discriminate].
      destruct (arg kws "color") as [co|]; cbn [bind]; [|discriminate]. destruct c as [| | | | | | |cl k| |]; try discriminate.
      destruct (found t k 0) as [[n [dk dr| | | |]]|] eqn:F; try discriminate. cbn [act_on].
      destruct (new_viewport _ _ _ _ _) as [v|] eqn:Nv; cbn [bind]; [|discriminate]. intros [= <-]. apply found_sheet in F.
      apply new_ok in Nv as Nf. destruct Nf as (Nf & _). apply sound_add.
      - eapply sound_change; [exact S|exact F|reflexivity|]. eexists. split; [reflexivity|]. intros q [<-|[]]. rewrite (view_pane _ _ _ Nf). exact (new_usable _ _ _ _ _ _ Nv).
      - eexists. eexists. eexists. split; [rewrite place_changed, Nat.eqb_refl, F; reflexivity|]. cbn [d_panes]. rewrite nth_error_app2, Nat.sub_diag by lia. reflexivity. }
    destruct (String.eqb path "core.Buffer").
    { destruct (arg kws "count") as [c|]; cbn [bind]; [|discriminate]. destruct (arg kws "dtype") as [dt|]; cbn [bind]; [|discriminate].
      destruct (arg kws "data") as [da|]; cbn [bind]; [|discriminate]. destruct (new_buffer unpack c dt da) as [x|] eqn:N; cbn [bind]; [|discriminate].
      intros [= <-]. apply sound_add; [exact S|]. unfold new_buffer in N. destruct c; cbn [bind] in N; try discriminate N. destruct da; try discriminate N; try (injection N as <-; exact Logic.I).
      destruct (b64decode s); cbn [bind] in N; [injection N as <-; exact Logic.I|discriminate]. }
    destruct (String.eqb path "visual.Points").
    { destruct (new_points arrays code look t kws) as [x|] eqn:N; cbn [bind]; [|discriminate]. intros [= <-]. apply sound_add; [exact S|].
      unfold new_points in N. destruct (arg kws "positions") as [po|]; cbn [bind] in N; [|discriminate]. destruct (positions_of arrays t po); cbn [bind] in N; [|discriminate].
      destruct (arg kws "sizes"); cbn [bind] in N; [|discriminate]. destruct (arg kws "fill_colors"); cbn [bind] in N; [|discriminate].
      destruct (arg kws "line_colors"); cbn [bind] in N; [|discriminate]. destruct (arg kws "line_widths"); cbn [bind] in N; [|discriminate]. injection N as <-. exact Logic.I. }
    intros [= <-]. apply sound_add; [exact S|exact Logic.I].
  Qed.
  Lemma invoke_sound t r m kws t' : sound t -> invoke argsort t r m kws = Ok t' -> sound t'.
  Proof.
    intros S. unfold invoke. destruct (found t r 0) as [[i [ | | |Po n s f e w|]]|]; try (intros [= <-]; exact S).
    destruct (String.eqb m "render"); [|intros [= <-]; exact S]. destruct (arg kws "viewport") as [v|]; cbn [bind]; [|discriminate].
    destruct (no_matrix kws "model"); cbn [bind]; [|discriminate]. destruct (no_matrix kws "view"); cbn [bind]; [|discriminate].
    destruct (no_matrix kws "proj"); cbn [bind]; [|discriminate]. destruct v as [| | | | | | |cl k| |]; try discriminate.
    destruct (found t k 0) as [[j [ |c p| | |]]|]; try discriminate. destruct (Relay.place t c) as [[dk dr| | | |]|] eqn:P; try discriminate.
    destruct (nth_error (d_panes dk) p); [|discriminate]. destruct (dots _ _ _ _ _ _ _ _) as [x|]; cbn [bind]; [|discriminate].
    intros [= <-]. eapply sound_change; [exact S|exact P|reflexivity|]. exists []. split; [now rewrite app_nil_r|intros ? []].
  Qed.
  Lemma played_sound l : forall t refs t', sound t -> played num hue arrays unpack code look argsort t refs l = Ok t' -> sound t'.
  Proof.
    induction l as [|[cl path pre post sg args kw|r cl m sg args kw] l IH]; intros t refs t' S; cbn [played].
    - intros [= <-]. exact S.
    - destruct refs as [|r refs]; [discriminate|]. destruct (bind_args sg args kw) as [b|]; cbn [bind]; [|discriminate].
      destruct (Relay.build num hue arrays unpack code look t r path b) as [t1|] eqn:B; cbn [bind]; [|discriminate]. apply IH. exact (build_sound _ _ _ _ _ S B).
    - destruct (bind_args sg args kw) as [b|]; cbn [bind]; [|discriminate].
      destruct (invoke argsort t r m b) as [t1|] eqn:B; cbn [bind]; [|discriminate]. apply IH. exact (invoke_sound _ _ _ _ _ S B).
  Qed.
  Lemma nothing_sound : sound [].
  Proof. split; [intros [|i] ? ? ? P _|intros [|i] ? ? P]; discriminate P. Qed.
  Lemma found_at t k i x : found t k 0 = Some (i, x) -> Relay.place t i = Some x.
  Proof. intros F. apply found_place in F as [_ F]. rewrite Nat.sub_0_r in F. unfold Relay.place. now rewrite F. Qed.

  (** A render in a program. *)
  Lemma played_draws l refs t r i V (ps : list vec3) size face edge width cl k j c p kws : played num hue arrays unpack code look argsort [] refs l = Ok t ->
    sorts_numbers argsort -> holds V ps ->
    let n := length ps in
    found t r 0 = Some (i, Dots (Ok V) (Z.of_nat n) (Ok size) (Ok face) (Ok edge) (Ok width)) ->
    dget kws "viewport" = Some (VObj cl k) -> (forall m, In m ["model"; "view"; "proj"] -> dget kws m = None \/ dget kws m = Some VNone) ->
    found t k 0 = Some (j, Frame c p) ->
    fits n face -> clear n face -> fits n edge -> clear n edge -> fits n width -> clear n width -> fits_size n size ->
    exists d drawn a order out t' drawn', Relay.place t c = Some (Sheet d drawn) /\ nth_error (d_panes d) p = Some a /\
      invoke argsort t r "render" kws = Ok t' /\ visits n order /\
      covers (depth_in (fun p => Some (z3 p)) ps) order /\
      map Some out = map (fun j => option_map (fun p => (spot (Panes.view (d_fig d) a) (point p), [own face j; own edge j; own width j; own size j])) (nth_error ps j)) order /\
      Relay.place t' c = Some (Sheet d drawn') /\ last_drawn drawn' (i, p) = Some out /\
      (forall q, q <> (i, p) -> last_drawn drawn' q = last_drawn drawn q) /\ (forall m, m <> c -> Relay.place t' m = Relay.place t m) /\ map fst t' = map fst t.
  Proof.
    intros P S H n F Kv Km Fk F1 C1 F2 C2 F3 C3 F4. destruct (played_sound l [] refs t nothing_sound P) as [U W].
    destruct (W j c p (found_at _ _ _ _ Fk)) as (d & drawn & a & Pc & Pn).
    destruct (render_draws argsort t r i V ps size face edge width cl k j c p d drawn a kws S H F Kv Km Fk Pc Pn (U c d drawn a Pc (nth_error_In _ _ Pn)) F1 C1 F2 C2 F3 C3 F4) as (order & out & t' & drawn' & G).
    exists d, drawn, a, order, out, t', drawn'. auto.
  Qed.
End Sound.

(** Points made of an array of positions and plain attributes. *)
Lemma points_made {C} num hue arrays unpack code look (t : stage C) r kws c z V (ps : list vec3) size face edge width :
  dget kws "positions" = Some (VAtom c z) -> arrays c z = Some V -> lists V ps ->
  dget kws "sizes" = Some size -> dget kws "fill_colors" = Some face -> dget kws "line_colors" = Some edge -> dget kws "line_widths" = Some width ->
  Relay.build num hue arrays unpack code look t r "visual.Points" kws =
    Ok (t ++ [(r, Dots (Ok (flat V)) (Z.of_nat (length ps)) (attr_of arrays look t (numbers_of code) size) (attr_of arrays look t (colors_of code) face)
                    (attr_of arrays look t (colors_of code) edge) (attr_of arrays look t (numbers_of code) width))])%list /\
  holds (flat V) ps.
Proof.
  intros P A (k & l & -> & T & Su) S F G W. unfold Relay.build, new_points, arg, positions_of, array_of. cbn [String.eqb Ascii.eqb Bool.eqb].
  rewrite P. cbn [bind]. rewrite A. unfold rows. cbn [a_data table]. rewrite map_length.
  replace (Z.of_nat (length l) <? 0)%Z with false by (symmetry; apply Z.ltb_ge; lia). cbn [bind]. rewrite S, F, G, W. cbn [bind fst snd].
  assert (L : length l = length ps) by (clear - T; induction T; cbn; congruence). rewrite L. split; [reflexivity|].
  exists l. split; [|split; [exact T|exact Su]]. cbn. clear. induction l as [|a l IH]; [reflexivity|]. cbn. now rewrite map_app, IH.
Qed.
(** Colours of the vertices in rows: understood by the program, not by the server, which
    gets them in one row. *)
Lemma rows_of_colors code k (l : list (list Vec.num)) : Forall (fun x => length x = 4%nat) l -> (2 <= length l)%nat ->
  colors_of code (mkA k (Vec.Rows 4 l)) = Ok (Rows (map (map code) l)) /\ colors_of code (flat (mkA k (Vec.Rows 4 l))) = Err ValueError.
Proof.
  intros F L. split; [reflexivity|]. unfold colors_of, flat. cbn [a_data elements].
  assert (Q : length (concat l) = (4 * length l)%nat).
  { clear - F. induction F as [|x l X F IH]; [reflexivity|]. cbn [concat]. rewrite app_length, X, IH. cbn [length]. lia. }
  rewrite Q. destruct (Nat.eqb_spec (4 * length l) 3); [lia|]. destruct (Nat.eqb_spec (4 * length l) 4); [lia|]. reflexivity.
Qed.

(** ** Elsewhere *)
Definition news (l : list action) : nat := length (filter (fun a => match a with Session.New _ _ _ _ _ _ _ => true | Call _ _ _ _ _ _ => false end) l).
Lemma made_news E d l : forall c, length (cl_made (Session.acts E d c l)) = (length (cl_made c) + news l)%nat.
Proof.
  induction l as [|a l IH]; intros c; [cbn; lia|]. change (Session.acts E d c (a :: l)) with (Session.acts E d (Session.act E d c a) l). rewrite IH.
  destruct a as [cl path pre post sg args kw|r cl m sg args kw]; unfold news; cbn [filter length].
  - unfold Session.act. destruct (create _) as [s2 [r id]]. cbn [cl_made]. rewrite app_length. cbn. lia.
  - cbn [Session.act cl_made]. lia.
Qed.
Section Elsewhere.
  Context {C : Type} (num : Z -> Qc) (hue : Command.value -> C) (arrays : string -> Z -> option arr)
          (unpack : Command.value -> list N -> res (Vec.kind * list Vec.num)) (code : Vec.num -> Z) (look : Command.value -> attr)
          (argsort : list Vec.num -> list nat) (E : cenv) (d : registry).
  Lemma fine_prefix txt pure l1 : forall l2 refs more bufs, length refs = news l1 ->
    fine_points arrays unpack look txt pure E d bufs (refs ++ more) (l1 ++ l2) -> fine_points arrays unpack look txt pure E d bufs refs l1.
  Proof.
    induction l1 as [|[cl path pre post sg args kw|r0 cl m sg args kw] l1 IH]; intros l2 refs more bufs L F; [exact Logic.I| |].
    - destruct refs as [|r refs]; [exact Logic.I|]. cbn [fine_points app] in *. intros bound B. destruct (F bound B) as [F1 F2]. split; [exact F1|].
      eapply IH; [|exact F2]. unfold news in L. cbn [filter length] in L. now injection L.
    - cbn [fine_points app] in *. exact (IH l2 refs more bufs L F).
  Qed.
  Lemma relayed_again txt pure oidf mades outs l : NoDup (map fst mades) -> NoDup (built outs) -> length (built outs) = length mades ->
    Forall2 (done txt pure oidf E d mades (built outs)) l outs -> Forall (plain_lengths E d) l -> Forall (plain_colors txt pure hue) l -> Forall real_canvas l ->
    Forall (plain_buffer unpack txt pure E d) l -> Forall (plain_render E d) l -> fine_points arrays unpack look txt pure E d [] (map fst mades) l ->
    screens (replayed num hue arrays unpack code look argsort [] outs) = screens (played num hue arrays unpack code look argsort [] (map fst mades) l).
  Proof.
    intros Dm Db L D PL PC RC PB PR F. apply (both_screens mades (built outs)).
    apply (played_same num hue arrays unpack code look argsort txt pure oidf E d mades (built outs) Dm Db l outs D PL PC RC PB PR [] [] (map fst mades) []);
      [constructor|now apply all_paired|exact Dm|intros ? ? []|exact F].
  Qed.

  Lemma relayed_elsewhere ftok fval stamp ccode (FT : float_texts ftok fval stamp) txt pure c l sS rsS B ap apS calls fuel can_open fs format name :
    starting c -> fine_session txt pure E d c l -> l <> [] -> SessionSpec.ready sS -> recording rsS = true ->
    offers B c l E d -> in_step B c (Session.acts E d c l) rsS l ->
    (forall f v, apS f v = ([], pure f v)) -> (length l <= fuel)%nat -> can_open name = true -> json_file format name ->
    Forall (plain_lengths E d) l -> Forall (plain_colors txt pure hue) l -> Forall real_canvas l ->
    Forall (plain_buffer unpack txt pure E d) l -> Forall (plain_render E d) l ->
    let c' := Session.acts E d c l in
    fine_points arrays unpack look txt pure E d [] (map fst (cl_made c')) l ->
    exists x, gsp_save ftok stamp txt apS (oid_in (cl_reg c')) fuel can_open fs (cl_sys c') format name = (dset fs name x, cl_sys c', Ok tt) /\
    forall s' rs' cls outs o, play_file fval ccode B ap calls rsS sS (dset fs name x) format name = (s', (rs', cls, outs), o) ->
      (o = Ok tt -> screens (replayed num hue arrays unpack code look argsort [] outs) =
                    screens (played num hue arrays unpack code look argsort [] (map fst (cl_made c')) l)) /\
      (forall e, o = Err e -> exists l1 a l2, l = (l1 ++ a :: l2)%list /\
         screens (replayed num hue arrays unpack code look argsort [] outs) =
         screens (played num hue arrays unpack code look argsort [] (map fst (cl_made (Session.acts E d c l1))) l1)).
  Proof.
    intros Hst Hf Hl Hr Hrec Hof Hin Hap Hfu Hop Hj PL PC RC PB PR c' FP.
    destruct (sessions_redone ftok fval stamp ccode FT E d txt pure c l sS rsS B ap apS calls fuel can_open fs format name Hst Hf Hl Hr Hrec Hof Hin Hap Hfu Hop Hj) as (x & Hs & G).
    exists x. split; [exact Hs|]. intros s' rs' cls outs o Hp.
    assert (Hb : beginning x x) by (exists []; now rewrite app_nil_r).
    destruct (G x Hb s' rs' cls outs o Hp) as [G1 _]. destruct (G1 eq_refl) as [G2 G3]. split.
    - intros Ho. destruct (G2 Ho) as (D & N & L & _).
      exact (relayed_again txt pure _ _ outs l (refs_nodup E d c l Hst) N L D PL PC RC PB PR FP).
    - intros e He. destruct (G3 e He) as (l1 & a & l2 & -> & D & N & L & _ & _). exists l1, a, l2. split; [reflexivity|].
      apply Forall_app in PL as [PL _]. apply Forall_app in PC as [PC _]. apply Forall_app in RC as [RC _]. apply Forall_app in PB as [PB _]. apply Forall_app in PR as [PR _].
      apply (relayed_again txt pure _ _ outs l1 (refs_nodup E d c l1 Hst) N L D PL PC RC PB PR).
      unfold c' in FP.
      assert (Ha : Session.acts E d c (l1 ++ a :: l2) = Session.acts E d (Session.acts E d c l1) (a :: l2)) by (unfold Session.acts; apply fold_left_app).
      destruct (made_acts E d (a :: l2) (Session.acts E d c l1)) as (more & Em). rewrite Ha, Em, map_app in FP.
      eapply fine_prefix; [|exact FP]. rewrite map_length, made_news. destruct Hst as (-> & _). reflexivity.
  Qed.
End Elsewhere.

(** ** The examples *)
Ltac fine_step := cbn [fine buffer_of canvas_of viewport_of points_of]; split; [reflexivity|]; split; [reflexivity|]; split; [reflexivity|];
  split; [valid_signature|]; split; [distinct|]; split; [intros ? ? K; cbn in K; each_param K; discriminate|].
Lemma buffer_of_fine c n b : (forall x, In x b -> (x < 256)%N) -> fine dtype_text to_buffer_or_color two_classes arrays_and_colors c (buffer_of n b).
Proof.
  intros Hb. fine_step.
  split; [eexists; split; [reflexivity|]; intros k v K; cbn in K; found K; left; reflexivity|all_sent].
Qed.
Lemma canvas_of_fine' c w h : fine dtype_text to_buffer_or_color two_classes arrays_and_colors c (canvas_of w h).
Proof.
  fine_step. split; [eexists; split; [reflexivity|]; intros k v K; cbn in K; found K; left; reflexivity|all_sent].
Qed.
Lemma viewport_of_fine' c r path color : In (r, path) (cl_made c) ->
  fine dtype_text to_buffer_or_color two_classes arrays_and_colors c (viewport_of r (VInt 0) (VInt 0) (VFloat 1) (VFloat 1) color).
Proof.
  intros Hin. fine_step.
  split; [eexists; split; [reflexivity|]; intros k v K; cbn in K; found K; try (left; reflexivity); right; exists "Canvas", r, path; auto|all_sent].
Qed.
Lemma points_of_fine c size face : (exists p, In (2%nat, p) (cl_made c)) -> (exists z, size = VFloat z) \/ (exists z, size = VAtom "tracked" z /\ exists p, In ((Z.to_nat z + 1)%nat, p) (cl_made c)) ->
  (exists s, face = VStr s) \/ (exists z, face = VAtom "tracked" z /\ exists p, In ((Z.to_nat z + 1)%nat, p) (cl_made c)) ->
  fine dtype_text to_buffer_or_color two_classes arrays_and_colors c (points_of size face).
Proof.
  intros Hp [(zs & ->)|(zs & -> & Hs)] [(zf & ->)|(zf & -> & Hf)]; fine_step;
  (split; [eexists; split; [reflexivity|]; intros k v K; cbn in K; found K; left; reflexivity|]);
  eexists; (split; [reflexivity|]); intros k v K; cbn in K; repeat destruct K as [K|K]; try contradiction; injection K as <- <-;
    first [left; reflexivity | right; cbn; first [eexists; split; [reflexivity|]; first [exact Hp|exact Hs|exact Hf|intros; eexists; reflexivity] | intros; eexists; reflexivity]].
Qed.
Lemma render_in_fine c r v path pathv : In (r, path) (cl_made c) -> In (v, pathv) (cl_made c) ->
  fine dtype_text to_buffer_or_color two_classes arrays_and_colors c (render_in r v).
Proof.
  intros Hr Hv. cbn [fine render_in]. split; [now exists path|]. split; [discriminate|]. split; [discriminate|]. split; [reflexivity|]. split; [reflexivity|]. split; [reflexivity|].
  split; [split; [distinct|split; [intros ? H; cbn in H; each_param H; (split; [discriminate|reflexivity])
            |intros ? ? K K'; cbn in K; each_param K; cbn in K'; first [discriminate K'|injection K' as <-; reflexivity]]]|].
  split; [distinct|]. split; [intros ? ? K K'; cbn in K; each_param K; cbn in K'; first [discriminate K'|injection K' as <-; reflexivity]|].
  split; [eexists; split; [reflexivity|]; intros k w K; cbn in K; found K; try (left; reflexivity); right; subst k; exists "Viewport", v, pathv; auto|all_sent].
Qed.

Lemma small_bytes b : forallb (fun x => x <? 256)%N b = true -> forall x, In x b -> (x < 256)%N.
Proof. intros F x I. rewrite forallb_forall in F. apply N.ltb_lt. auto. Qed.
Lemma as_text_named s oidf x j : (x = VStr s \/ exists f, to_buffer_or_color f (VStr s) = Ok x) -> encode dtype_text oidf x = Ok j -> named (decode j) = named (VStr s) /\ as_given (decode j) = as_given (VStr s).
Proof. intros [-> |(f & [= <-])] [= <-]; split; reflexivity. Qed.
Ltac each_action := repeat apply Forall_cons; try apply Forall_nil; cbn [plain_lengths plain_colors real_canvas plain_buffer plain_render canvas_of viewport_of buffer_of points_of render_in]; try exact Logic.I.
Ltac no_conv := let A := fresh in let Ia := fresh in let Ib := fresh in
  intros anns a b A Ia Ib; cbn in A; injection A as <-; cbn in Ia, Ib;
      repeat destruct Ia as [<-|Ia]; try destruct Ia; repeat destruct Ib as [<-|Ib]; try destruct Ib; reflexivity.
Ltac relay_lengths := each_action;
    intros bound k v B I D; cbn in B; injection B as <-; cbn in I;
    repeat (destruct I as [<-|I]; [cbn in D; injection D as <-; split; [eexists; eauto|no_conv]|]); destruct I.
Ltac relay_colors := each_action;
    intros bound v P B D; try discriminate P; cbn in B; injection B as <-; cbn in D; injection D as <-;
    (split; [reflexivity|split; [intros f x [= <-]; reflexivity|intros oidf x j X Y; exact (proj1 (as_text_named _ _ _ _ X Y))]]).
Ltac relay_real := each_action; intros bound v P B D; try discriminate P; cbn in B; injection B as <-; cbn in D; injection D as <-; reflexivity.
Ltac relay_buffers := each_action; intros bound P B; try discriminate P; cbn in B; injection B as <-;
  (split; [intros v D; cbn in D; injection D as <-; split; [eauto|no_conv]|]);
  (split; [intros v D; cbn in D; injection D as <-; split; [right; right; eexists; split; [reflexivity|apply small_bytes; reflexivity]|no_conv]|]);
  intros v b D; cbn in D; injection D as <-; (split; [reflexivity|]); (split; [intros g x X; discriminate X|intros oidf x j [-> |(g & X)] Y; [reflexivity|discriminate X]]).
Ltac relay_renders := each_action; intros bound P B; cbn in B; injection B as <-;
  (split; [intros v D; cbn in D; injection D as <-; reflexivity|]); intros k v I D; cbn in I; repeat (destruct I as [<-|I]; [cbn in D; injection D as <-; split; [reflexivity|no_conv]|]); destruct I.
Ltac relay_step := right; (split; [cbn; lia|]); intros cl path pre post sg args kw kws pre' post' H _;
  cbn in H; repeat (destruct H as [H|H]; [try discriminate H; injection H; intros; subst; lia|]); destruct H.
Ltac relay_rest := split; [apply ready_init|]; split; [apply offers_willing|]; split; [relay_step|];
  split; [relay_lengths|]; split; [relay_colors|]; split; [relay_real|]; split; [relay_buffers|relay_renders].
Ltac in_made m := apply (fun l x => @nth_error_In _ l m x); vm_compute; reflexivity.
Lemma sized_ready : relay_ready sized_points.
Proof.
  unfold relay_ready. cbv zeta. split; [apply starting_process|]. split.
  { unfold sized_points. split; [apply canvas_of_fine'|]. split; [apply viewport_of_fine' with (path := "core.Canvas"); in_made 0%nat|].
    do 2 (split; [apply buffer_of_fine, small_bytes; reflexivity|]).
    split; [apply points_of_fine; [exists "core.Buffer"; in_made 2%nat|right; exists 2%Z; split; [reflexivity|exists "core.Buffer"; in_made 3%nat]|left; eauto]|].
    split; [apply render_in_fine with (path := "visual.Points") (pathv := "core.Viewport"); [in_made 4%nat|in_made 1%nat]|exact Logic.I]. }
  relay_rest.
Qed.
Lemma colored_ready : relay_ready colored_points.
Proof.
  unfold relay_ready. cbv zeta. split; [apply starting_process|]. split.
  { unfold colored_points. split; [apply canvas_of_fine'|]. split; [apply viewport_of_fine' with (path := "core.Canvas"); in_made 0%nat|].
    do 3 (split; [apply buffer_of_fine, small_bytes; reflexivity|]).
    split; [apply points_of_fine; [exists "core.Buffer"; in_made 2%nat|right; exists 2%Z; split; [reflexivity|exists "core.Buffer"; in_made 3%nat]|
      right; exists 3%Z; split; [reflexivity|exists "core.Buffer"; in_made 4%nat]]|].
    split; [apply render_in_fine with (path := "visual.Points") (pathv := "core.Viewport"); [in_made 5%nat|in_made 1%nat]|exact Logic.I]. }
  relay_rest.
Qed.
Lemma part_ready : relay_ready part_of_points.
Proof.
  unfold relay_ready. cbv zeta. split; [apply starting_process|]. split.
  { unfold part_of_points. split; [apply canvas_of_fine'|]. split; [apply viewport_of_fine' with (path := "core.Canvas"); in_made 0%nat|].
    split; [apply buffer_of_fine, small_bytes; reflexivity|].
    split; [apply points_of_fine; [exists "core.Buffer"; in_made 2%nat|left; eauto|left; eauto]|].
    split; [apply render_in_fine with (path := "visual.Points") (pathv := "core.Viewport"); [in_made 3%nat|in_made 1%nat]|exact Logic.I]. }
  relay_rest.
Qed.
Lemma color_meaning s : same_meaning dtype_text to_buffer_or_color as_given (VStr s).
Proof. split; [reflexivity|]. split; [intros f x [= <-]; reflexivity|]. intros oidf x j X Y. exact (proj2 (as_text_named _ _ _ _ X Y)). Qed.
Lemma float_meaning z : same_meaning dtype_text to_buffer_or_color as_given (VFloat z).
Proof. split; [reflexivity|]. split; [discriminate|]. intros oidf x j [-> |(f & X)] Y; [now injection Y as <-|discriminate X]. Qed.
Lemma tracked_attribute bufs sg k z V args : an_array "tracked" z = Some V -> ~ CommandSpec.untouched two_classes arrays_and_colors (dget (annotations (s_params sg)) k) (VAtom "tracked" z) ->
  In ((Z.to_nat z + 1)%nat, args) bufs -> holds_memory a_byte_each V args -> (k <> "positions" -> exists l, a_data V = Flat l) ->
  fine_attribute an_array a_byte_each as_given dtype_text to_buffer_or_color two_classes arrays_and_colors bufs sg k (VAtom "tracked" z).
Proof.
  intros A U I H F. cbn [fine_attribute]. rewrite A. split; [exact U|]. split; [|exact F].
  intros a b f x _ _ _ X. cbn in X. injection X as <-. eauto 8.
Qed.
Lemma sized_fine : fine_points an_array a_byte_each as_given dtype_text to_buffer_or_color two_classes arrays_and_colors []
  (map fst (cl_made (Session.acts two_classes arrays_and_colors new_process sized_points))) sized_points.
Proof.
  set (refs := map fst _). vm_compute in refs. subst refs. unfold sized_points. cbn [fine_points canvas_of viewport_of buffer_of points_of render_in].
  intros b0 B0. split; [discriminate|]. intros b1 B1. split; [discriminate|].
  intros b2 B2. split; [discriminate|]. cbn in B2. injection B2 as <-. intros b3 B3. split; [discriminate|]. cbn in B3. injection B3 as <-.
  cbn [String.eqb Ascii.eqb Bool.eqb app].
  intros b4 B4. cbn in B4. injection B4 as <-. split; [intros _|exact Logic.I].
  assert (U : forall k z, In k ["positions"; "sizes"] -> 
    ~ CommandSpec.untouched two_classes arrays_and_colors (dget (annotations (s_params (match points_of (VFloat 0) (VFloat 0) with Session.New _ _ _ _ sg _ _ => sg | _ => mkS [] [] end))) k) (VAtom "tracked" z)).
  { intros k z I [X|X]; [discriminate X|]. specialize (X "Buffer" "tracked").
    assert (T : tried two_classes (dget (annotations (s_params (match points_of (VFloat 0) (VFloat 0) with Session.New _ _ _ _ sg _ _ => sg | _ => mkS [] [] end))) k) (VAtom "tracked" z) "Buffer").
    { destruct I as [<-|[<-|[]]]; exists ["Transform"]; eexists; (split; [reflexivity|]); intros a' [<-|[<-|[]]] Bl; repeat destruct Bl as [Bl|Bl]; try discriminate Bl; try contradiction. }
    specialize (X T (or_introl eq_refl)). discriminate X. }
  intros k v I D. cbn in I. repeat destruct I as [<-|I]; try destruct I; cbn in D; injection D as <-.
  - eapply tracked_attribute; [reflexivity|apply (U "positions"); cbn; auto|left; reflexivity| |congruence].
    split; [reflexivity|]. eexists. eexists. eexists. split; [reflexivity|]. split; [reflexivity|]. split; [left; reflexivity|]. reflexivity.
  - eapply tracked_attribute; [reflexivity|apply (U "sizes"); cbn; auto|right; left; reflexivity| |intros _; eexists; reflexivity].
    split; [reflexivity|]. eexists. eexists. eexists. split; [reflexivity|]. split; [reflexivity|]. split; [left; reflexivity|]. reflexivity.
  - apply color_meaning.
  - apply color_meaning.
  - apply float_meaning.
Qed.
Lemma played_app {C} num (hue : Command.value -> C) arrays unpack code look argsort l1 : forall t refs more l2, length refs = news l1 ->
  played num hue arrays unpack code look argsort t (refs ++ more) (l1 ++ l2) =
  let* t1 := played num hue arrays unpack code look argsort t refs l1 in played num hue arrays unpack code look argsort t1 more l2.
Proof.
  induction l1 as [|[cl path pre post sg args kw|r0 cl m sg args kw] l1 IH]; intros t refs more l2 L.
  - destruct refs; [reflexivity|discriminate L].
  - destruct refs as [|r refs]; [discriminate L|]. cbn [played app]. destruct (bind_args sg args kw) as [b|]; cbn [bind]; [|reflexivity].
    destruct (Relay.build num hue arrays unpack code look t r path b) as [t1|]; cbn [bind]; [|reflexivity]. apply IH. now injection L.
  - cbn [played app]. destruct (bind_args sg args kw) as [b|]; cbn [bind]; [|reflexivity].
    destruct (invoke argsort t r0 m b) as [t1|]; cbn [bind]; [|reflexivity]. apply IH. exact L.
Qed.
(** What the program and the server have then. *)
Notation example_played code := (played zq named an_array a_byte_each code as_given sort_nums []).
Notation example_replayed code := (replayed zq named an_array a_byte_each code as_given sort_nums []).
Lemma two_points_held : holds (flat (table KFloat 3 [[0; 0; 1]; [1; 0; 2]]%R)) [V3 0 0 1; V3 1 0 2].
Proof.
  exists [[0; 0; 1]; [1; 0; 2]]%R. split; [reflexivity|]. split; [repeat constructor|]. intros X. discriminate X.
Qed.
Lemma sized_before code : exists t, example_played code [0; 1; 2; 3; 4]%nat (firstn 5 sized_points) = Ok t /\
  found t 4%nat 0%nat = Some (4%nat, Dots (Ok (flat (table KFloat 3 [[0; 0; 1]; [1; 0; 2]]%R))) 2 (Ok (Rows [[code (Num 9)]; [code (Num 16)]])) (Ok (as_given (VStr "red"))) (Ok (as_given (VStr "black"))) (Ok (Whole 1))) /\
  found t 1%nat 0%nat = Some (1%nat, Frame 0%nat 0%nat).
Proof. eexists. split; [reflexivity|]. split; reflexivity. Qed.
Lemma replayed_app {C} num (hue : Command.value -> C) arrays unpack code look argsort o1 : forall t o2,
  replayed num hue arrays unpack code look argsort t (o1 ++ o2) =
  let* t1 := replayed num hue arrays unpack code look argsort t o1 in replayed num hue arrays unpack code look argsort t1 o2.
Proof.
  induction o1 as [|[r path kws|r m kws v] o1 IH]; intros t o2; cbn [replayed app]; [reflexivity| |].
  - destruct (Relay.build num hue arrays unpack code look t r path kws) as [t1|]; cbn [bind]; [apply IH|reflexivity].
  - destruct (invoke argsort t r m kws) as [t1|]; cbn [bind]; [apply IH|reflexivity].
Qed.
Lemma replayed_sound {C} num (hue : Command.value -> C) arrays unpack code look argsort outs : forall t t', sound t ->
  replayed num hue arrays unpack code look argsort t outs = Ok t' -> sound t'.
Proof.
  induction outs as [|[r path kws|r m kws v] outs IH]; intros t t' S; cbn [replayed].
  - intros [= <-]. exact S.
  - destruct (Relay.build num hue arrays unpack code look t r path kws) as [t1|] eqn:B; cbn [bind]; [|discriminate]. apply IH. exact (build_sound num hue arrays unpack code look _ _ _ _ _ S B).
  - destruct (invoke argsort t r m kws) as [t1|] eqn:B; cbn [bind]; [|discriminate]. apply IH. exact (invoke_sound argsort _ _ _ _ _ S B).
Qed.
Lemma two_orders order : visits 2 order -> covers (depth_in (fun p => Some (z3 p)) [V3 0 0 1; V3 1 0 2]) order -> order = [1; 0]%nat.
Proof.
  intros V Cv. apply Permutation_sym, Permutation_length_2_inv in V as [-> | ->]; [|reflexivity].
  specialize (Cv 0%nat 1%nat 0%nat 1%nat 1%R 2%R ltac:(lia) eq_refl eq_refl eq_refl eq_refl). lra.
Qed.
Lemma sized_shown code : exists t d drawn a,
  example_played code [0; 1; 2; 3; 4]%nat sized_points = Ok t /\ Relay.place t 0 = Some (Sheet d drawn) /\ nth_error (d_panes d) 0 = Some a /\
  last_drawn drawn (4, 0)%nat = Some [(spot (Panes.view (d_fig d) a) (point (V3 1 0 2)), [Some [3; 0; 0; 1]%Z; Some [5; 0; 0; 1]%Z; Some [1%Z]; Some [code (Num 16)]]);
                                 (spot (Panes.view (d_fig d) a) (point (V3 0 0 1)), [Some [3; 0; 0; 1]%Z; Some [5; 0; 0; 1]%Z; Some [1%Z]; Some [code (Num 9)]])].
Proof.
  destruct (sized_before code) as (t & P & F4 & F1).
  destruct (played_draws zq named an_array a_byte_each code as_given sort_nums _ _ t 4%nat 4%nat _ [V3 0 0 1; V3 1 0 2] _ _ _ _ "Viewport" 1%nat 1%nat 0%nat 0%nat
    [("viewport", VObj "Viewport" 1%nat); ("model", VNone); ("view", VNone); ("proj", VNone)] P sort_nums_sorts two_points_held F4 eq_refl) as
    (d & drawn & a & order & out & t' & drawn' & P0 & Pn & Iv & Vi & Cv & M & P' & L & _).
  - intros m I. cbn in I. repeat destruct I as [<-|I]; try destruct I; right; reflexivity.
  - exact F1.
  - exact Logic.I.
  - discriminate.
  - exact Logic.I.
  - discriminate.
  - exact Logic.I.
  - exact Logic.I.
  - reflexivity.
  - exists t', d, drawn', a. split; [|split; [exact P'|split; [exact Pn|]]].
    + change sized_points with (firstn 5 sized_points ++ [render_in 4%nat 1%nat])%list. change [0; 1; 2; 3; 4]%nat with ([0; 1; 2; 3; 4] ++ [])%nat%list.
      rewrite played_app by reflexivity. rewrite P. cbn [bind played render_in]. 
      match goal with |- context [bind_args ?s ?b ?c] => replace (bind_args s b c) with (Ok [("viewport", VObj "Viewport" 1%nat); ("model", VNone); ("view", VNone); ("proj", VNone)]) by reflexivity end.
      cbn [bind]. rewrite Iv. reflexivity.
    + rewrite L. f_equal. rewrite (two_orders order Vi Cv) in M. cbn [map nth_error option_map own] in M.
      destruct out as [|o1 [|o2 [|]]]; try discriminate M. cbn [map] in M. injection M as -> ->. reflexivity.
Qed.

(** With a colour for each point. *)
Lemma colored_before code : exists t, example_played code [0; 1; 2; 3; 4; 5]%nat (firstn 6 colored_points) = Ok t /\
  found t 5%nat 0%nat = Some (5%nat, Dots (Ok (flat (table KFloat 3 [[0; 0; 1]; [1; 0; 2]]%R))) 2 (Ok (Rows [[code (Num 9)]; [code (Num 16)]]))
    (Ok (Rows (map (map code) [[Num 1; Num 0; Num 0; Num 1]; [Num 0; Num 1; Num 0; Num 1]]))) (Ok (as_given (VStr "black"))) (Ok (Whole 1))) /\
  found t 1%nat 0%nat = Some (1%nat, Frame 0%nat 0%nat).
Proof. eexists. split; [reflexivity|]. split; reflexivity. Qed.
Lemma colored_shown code : exists t, example_played code [0; 1; 2; 3; 4; 5]%nat colored_points = Ok t.
Proof.
  destruct (colored_before code) as (t & P & F4 & F1).
  destruct (played_draws zq named an_array a_byte_each code as_given sort_nums _ _ t 5%nat 5%nat _ [V3 0 0 1; V3 1 0 2] _ _ _ _ "Viewport" 1%nat 1%nat 0%nat 0%nat
    [("viewport", VObj "Viewport" 1%nat); ("model", VNone); ("view", VNone); ("proj", VNone)] P sort_nums_sorts two_points_held F4 eq_refl) as
    (d & drawn & a & order & out & t' & drawn' & P0 & Pn & Iv & _).
  - intros m I. cbn in I. repeat destruct I as [<-|I]; try destruct I; right; reflexivity.
  - exact F1.
  - left. reflexivity.
  - exact Logic.I.
  - exact Logic.I.
  - discriminate.
  - exact Logic.I.
  - exact Logic.I.
  - reflexivity.
  - exists t'.
    change colored_points with (firstn 6 colored_points ++ [render_in 5%nat 1%nat])%list. change [0; 1; 2; 3; 4; 5]%nat with ([0; 1; 2; 3; 4; 5] ++ [])%nat%list.
    rewrite played_app by reflexivity. rewrite P. cbn [bind played render_in].
    match goal with |- context [bind_args ?s ?b ?c] => replace (bind_args s b c) with (Ok [("viewport", VObj "Viewport" 1%nat); ("model", VNone); ("view", VNone); ("proj", VNone)]) by reflexivity end.
    cbn [bind]. rewrite Iv. reflexivity.
Qed.
Lemma colored_refused code : example_replayed code (relayed_outs colored_points) = Err ValueError.
Proof. set (outs := relayed_outs colored_points). vm_compute in outs. subst outs. reflexivity. Qed.

(** With the buffer of a longer array. *)
Lemma drawn_length {A} (out : list A) (f : nat -> option A) n order : visits n order -> map Some out = map f order -> length out = n.
Proof. intros V M. apply (f_equal (@length _)) in M. rewrite !map_length in M. rewrite M. apply Permutation_length in V. now rewrite V, seq_length. Qed.
Lemma part_before code : exists t, example_played code [0; 1; 2; 3]%nat (firstn 4 part_of_points) = Ok t /\
  found t 3%nat 0%nat = Some (3%nat, Dots (Ok (flat (table KFloat 3 [[0; 0; 1]; [1; 0; 2]]%R))) 2 (Ok (Whole 9)) (Ok (as_given (VStr "red"))) (Ok (as_given (VStr "black"))) (Ok (Whole 1))) /\
  found t 1%nat 0%nat = Some (1%nat, Frame 0%nat 0%nat).
Proof. eexists. split; [reflexivity|]. split; reflexivity. Qed.
Lemma part_shown code : exists t d drawn x, example_played code [0; 1; 2; 3]%nat part_of_points = Ok t /\ Relay.place t 0 = Some (Sheet d drawn) /\
  last_drawn drawn (3, 0)%nat = Some x /\ length x = 2%nat.
Proof.
  destruct (part_before code) as (t & P & F4 & F1).
  destruct (played_draws zq named an_array a_byte_each code as_given sort_nums _ _ t 3%nat 3%nat _ [V3 0 0 1; V3 1 0 2] _ _ _ _ "Viewport" 1%nat 1%nat 0%nat 0%nat
    [("viewport", VObj "Viewport" 1%nat); ("model", VNone); ("view", VNone); ("proj", VNone)] P sort_nums_sorts two_points_held F4 eq_refl) as
    (d & drawn & a & order & out & t' & drawn' & P0 & Pn & Iv & Vi & _ & M & P' & L & _).
  - intros m I. cbn in I. repeat destruct I as [<-|I]; try destruct I; right; reflexivity.
  - exact F1.
  - exact Logic.I.
  - discriminate.
  - exact Logic.I.
  - discriminate.
  - exact Logic.I.
  - exact Logic.I.
  - exact Logic.I.
  - exists t', d, drawn', out. split; [|split; [exact P'|split; [exact L|exact (drawn_length _ _ _ _ Vi M)]]].
    change part_of_points with (firstn 4 part_of_points ++ [render_in 3%nat 1%nat])%list. change [0; 1; 2; 3]%nat with ([0; 1; 2; 3] ++ [])%nat%list.
    rewrite played_app by reflexivity. rewrite P. cbn [bind played render_in].
    match goal with |- context [bind_args ?s ?b ?c] => replace (bind_args s b c) with (Ok [("viewport", VObj "Viewport" 1%nat); ("model", VNone); ("view", VNone); ("proj", VNone)]) by reflexivity end.
    cbn [bind]. rewrite Iv. reflexivity.
Qed.
Lemma three_points_held : holds (mkA KFloat (Flat (map (fun x => Num (IZR (Z.of_N x))) [0; 0; 1; 1; 0; 2; 2; 0; 3]%N))) [V3 0 0 1; V3 1 0 2; V3 2 0 3].
Proof.
  exists [[0; 0; 1]; [1; 0; 2]; [2; 0; 3]]%R. split; [reflexivity|]. split; [repeat constructor|]. intros X. discriminate X.
Qed.
Definition part_made : list Execute.outcome :=
  [Built 0%nat "core.Canvas" [("width", VInt 512); ("height", VInt 512); ("dpi", VFloat 100)];
   Built 1%nat "core.Viewport" [("canvas", VObj "core.Canvas" 0%nat); ("x", VInt 0); ("y", VInt 0); ("width", VFloat 1); ("height", VFloat 1); ("color", VSeq [VStr "white"; VFloat 3])];
   Built 2%nat "core.Buffer" [("count", VInt 3); ("dtype", VStr "float32"); ("data", VStr "AAABAQACAgAD")];
   Built 3%nat "visual.Points" [("positions", VObj "core.Buffer" 2%nat); ("sizes", VFloat 9); ("fill_colors", VSeq [VStr "red"; VFloat 3]);
     ("line_colors", VSeq [VStr "black"; VFloat 3]); ("line_widths", VFloat 1)]].
Definition part_render : list Execute.outcome :=
  [Called 3%nat "render" [("viewport", VObj "core.Viewport" 1%nat); ("model", VNone); ("view", VNone); ("proj", VNone)] VNone].
Lemma part_outs : relayed_outs part_of_points = (part_made ++ part_render)%list.
Proof. vm_compute. reflexivity. Qed.
Lemma part_made_there code : exists t, example_replayed code part_made = Ok t /\
    found t 3%nat 0%nat = Some (3%nat, Dots (Ok (mkA KFloat (Flat (map (fun x => Num (IZR (Z.of_N x))) [0; 0; 1; 1; 0; 2; 2; 0; 3]%N)))) 3 (Ok (Whole 9)) (Ok (as_given (VStr "red"))) (Ok (as_given (VStr "black"))) (Ok (Whole 1))) /\
    found t 1%nat 0%nat = Some (1%nat, Frame 0%nat 0%nat).
Proof. eexists. split; [reflexivity|]. split; reflexivity. Qed.
Lemma part_sent code : exists t d drawn x, example_replayed code (relayed_outs part_of_points) = Ok t /\ Relay.place t 0 = Some (Sheet d drawn) /\
  last_drawn drawn (3, 0)%nat = Some x /\ length x = 3%nat.
Proof.
  rewrite part_outs, replayed_app. destruct (part_made_there code) as (t & P & F4 & F1). rewrite P. cbn [bind].
  destruct (replayed_sound zq named an_array a_byte_each code as_given sort_nums part_made [] t nothing_sound P) as [U W].
  destruct (W 1%nat 0%nat 0%nat (found_at _ _ _ _ F1)) as (d & drawn & a & Pc & Pn).
  destruct (render_draws sort_nums t 3%nat 3%nat _ [V3 0 0 1; V3 1 0 2; V3 2 0 3] _ _ _ _ "core.Viewport" 1%nat 1%nat 0%nat 0%nat d drawn a
    [("viewport", VObj "core.Viewport" 1%nat); ("model", VNone); ("view", VNone); ("proj", VNone)] sort_nums_sorts three_points_held F4 eq_refl) as
    (order & out & t' & drawn' & Iv & Vi & _ & M & P' & L & _).
  - intros m I. cbn in I. repeat destruct I as [<-|I]; try destruct I; right; reflexivity.
  - exact F1.
  - exact Pc.
  - exact Pn.
  - exact (U 0%nat d drawn a Pc (nth_error_In _ _ Pn)).
  - exact Logic.I.
  - discriminate.
  - exact Logic.I.
  - discriminate.
  - exact Logic.I.
  - exact Logic.I.
  - exact Logic.I.
  - exists t', d, drawn', out. split; [|split; [exact P'|split; [exact L|exact (drawn_length _ _ _ _ Vi M)]]].
    unfold part_render. cbn [replayed]. rewrite Iv. reflexivity.
Qed.
