(** Proofs about Callbacks.v. *)
From Verif Require Import Base Camera CameraSpec CameraFacts Callbacks CallbacksSpec.
Local Open Scope list_scope.

Section Facts.
  Context {F M T : Type} `{EqB F} (drag_to : T -> Qc -> Qc -> Qc -> Qc -> T) (model : T -> M) (figure : nat -> nat).
  Notation camera := (@camera F M T).
  Notation action := (@action F M).
  Variable body : F -> list action -> list (act F).
  Notation updating := (updating figure body).
  Notation acting := (acting (T := T) figure).
  Notation outcome := (@outcome F M T).

  (** What functions leave of the camera: the trackball and the matrices; lists only grow. *)
  Definition grows (c : camera) (s : list action) (c' : camera) (s' : list action) : Prop :=
    c_ball c' = c_ball c /\ c_model c' = c_model c /\ c_view c' = c_view c /\ c_proj c' = c_proj c /\
    (forall k, starts_with (c_updates c k) (c_updates c' k)) /\ (c_viewport c <> None -> c_viewport c' <> None) /\
    exists out, s' = s ++ out /\ Forall (given (c_model c) (c_view c) (c_proj c)) out.
  Lemma starts_refl {A} (l : list A) : starts_with l l.
  Proof. exists []. now rewrite app_nil_r. Qed.
  Lemma starts_trans {A} (l m n : list A) : starts_with l m -> starts_with m n -> starts_with l n.
  Proof. intros [r ->] [r' ->]. exists (r ++ r'). now rewrite app_assoc. Qed.
  Lemma grows_refl c s : grows c s c s.
  Proof. unfold grows. do 4 (split; [reflexivity|]). split; [intros; apply starts_refl|]. split; [auto|]. exists []. now rewrite app_nil_r. Qed.
  Lemma grows_trans c s c1 s1 c2 s2 : grows c s c1 s1 -> grows c1 s1 c2 s2 -> grows c s c2 s2.
  Proof.
    intros (B & Mo & V & P & U & W & out & -> & G) (B' & Mo' & V' & P' & U' & W' & out' & -> & G'). unfold grows.
    do 4 (split; [congruence|]). split; [intros k; exact (starts_trans _ _ _ (U k) (U' k))|]. split; [auto|].
    exists (out ++ out'). split; [symmetry; apply app_assoc|]. apply Forall_app. split; [exact G|]. rewrite Mo, V, P in G'. exact G'.
  Qed.
  (** States: each function once in each list, within the rosters, and connected. *)
  Definition sane (roster : kind -> list F) (c : camera) : Prop :=
    (forall k, NoDup (c_updates c k)) /\ (forall k, incl (c_updates c k) (roster k)) /\
    ((exists k f, In f (c_updates c k)) -> c_viewport c <> None /\ c_cids c <> None) /\
    (c_figures c <> [] -> c_viewport c <> None).

  Lemma connect_grows c s v name g c' out r : connect figure c v name g = (c', (out, r)) -> grows c s c' (s ++ out).
  Proof.
    unfold connect. destruct (kind_of name) as [k|]; intros [= <- <- <-].
    - unfold grows. cbn. do 4 (split; [reflexivity|]). split; [|split; [discriminate|]; exists [Draw (figure v)]; split; [reflexivity|]; constructor; [exact Logic.I|constructor]].
      intros k'. destruct (kind_eqb k' k) eqn:E; [|apply starts_refl].
      assert (k' = k) as -> by (destruct k', k; try discriminate E; reflexivity). destruct (existsb _ _); [apply starts_refl|]. now exists [g].
    - rewrite app_nil_r. unfold grows. cbn. do 4 (split; [reflexivity|]). split; [intros; apply starts_refl|]. split; [discriminate|]. exists []. split; [now rewrite app_nil_r|constructor].
  Qed.
  Lemma disconnect_grows c s c' out r : disconnect figure c = (c', (out, r)) -> grows c s c' (s ++ out).
  Proof.
    unfold disconnect. destruct (c_viewport c), (c_cids c); intros [= <- <- <-]; rewrite app_nil_r; try exact (grows_refl c s).
    destruct (_ =? _)%nat; [|exact (grows_refl c s)]. unfold grows. cbn. do 4 (split; [reflexivity|]). split; [intros; apply starts_refl|]. split; [discriminate|].
    exists []. split; [now rewrite app_nil_r|constructor].
  Qed.
  Lemma connect_sane roster c v name g c' out r : sane roster c -> (forall k, kind_of name = Some k -> In g (roster k)) ->
    connect figure c v name g = (c', (out, r)) -> sane roster c'.
  Proof.
    intros (N & I & V & W) G. unfold connect. destruct (kind_of name) as [k|] eqn:Ek; intros [= <- <- <-].
    - unfold sane. cbn. split; [|split; [|split]].
      + intros k'. destruct (kind_eqb k' k); [|apply N]. destruct (existsb (Base.eqb g) (c_updates c k)) eqn:E; [apply N|].
        pose proof (N k) as Nk. clear - Nk E H. induction (c_updates c k) as [|a l IH]; cbn; [repeat constructor; auto|].
        cbn in E. apply orb_false_iff in E as [E1 E2]. apply NoDup_cons_iff in Nk as [Na Nl]. constructor; [|now apply IH].
        intros Q. apply in_app_iff in Q as [Q|[<-|[]]]; [contradiction|]. destruct (Base.eqb_spec g g); [discriminate|contradiction].
      + intros k'. destruct (kind_eqb k' k) eqn:E; [|apply I]. assert (k' = k) as -> by (destruct k', k; try discriminate E; reflexivity).
        destruct (existsb _ _); [apply I|]. intros f Q. apply in_app_iff in Q as [Q|[<-|[]]]; [exact (I k f Q)|]. now apply G.
      + intros _. split; discriminate.
      + discriminate.
    - split; [exact N|]. split; [exact I|]. cbn. split; [|discriminate]. intros Q. split; [discriminate|]. apply V, Q.
  Qed.
  Lemma disconnect_sane roster c c' out r : sane roster c -> disconnect figure c = (c', (out, r)) -> sane roster c'.
  Proof.
    intros S. unfold disconnect. destruct (c_viewport c) eqn:Ev, (c_cids c) eqn:Ec; intros [= <- <- <-]; try exact S.
    destruct (_ =? _)%nat; [|exact S]. destruct S as (N & I & V & W). unfold sane. cbn. split; [exact N|]. split; [exact I|]. split; [intros _; split; discriminate|discriminate].
  Qed.

  (** ** Every method *)
  Lemma acting_grows run l : (forall c s c' s' r, run c s = Some (c', s', r) -> grows c s c' s') ->
    forall c s c' s' r, acting run c s l = Some (c', s', r) -> grows c s c' s'.
  Proof.
    intros R. induction l as [|a l IH]; intros c s c' s' r E; cbn [Callbacks.acting] in E; [injection E as <- <- <-; apply grows_refl|].
    destruct a as [v name g| | |e].
    - destruct (connect figure c v name g) as [c1 [out [u|e]]] eqn:C; pose proof (connect_grows c s _ _ _ _ _ _ C) as G.
      + exact (grows_trans _ _ _ _ _ _ G (IH _ _ _ _ _ E)).
      + injection E as <- <- <-. exact G.
    - destruct (disconnect figure c) as [c1 [out [u|e]]] eqn:C; pose proof (disconnect_grows c s _ _ _ C) as G.
      + exact (grows_trans _ _ _ _ _ _ G (IH _ _ _ _ _ E)).
      + injection E as <- <- <-. exact G.
    - destruct (run c s) as [[[c1 s1] [u|e]]|] eqn:C; [|injection E as <- <- <-; exact (R _ _ _ _ _ C)|discriminate E].
      exact (grows_trans _ _ _ _ _ _ (R _ _ _ _ _ C) (IH _ _ _ _ _ E)).
    - injection E as <- <- <-. apply grows_refl.
  Qed.
  Lemma call_grows c s f v : grows c s c (s ++ [Call f v (c_model c) (c_view c) (c_proj c)]).
  Proof.
    unfold grows. do 4 (split; [reflexivity|]). split; [intros; apply starts_refl|]. split; [auto|]. eexists. split; [reflexivity|]. constructor; [|constructor]. cbn. auto.
  Qed.
  Lemma updating_grows fuel : forall k i c s c' s' r, updating fuel k i c s = Some (c', s', r) -> grows c s c' s'.
  Proof.
    induction fuel as [|fuel IH]; intros k i c s c' s' r E; cbn [Callbacks.updating] in E; [discriminate E|].
    destruct (nth_error (c_updates c k) i) as [f|]; [|injection E as <- <- <-; apply grows_refl].
    destruct (c_viewport c) as [v|]; [|injection E as <- <- <-; apply grows_refl]. cbv zeta in E.
    set (s0 := s ++ [Call f v (c_model c) (c_view c) (c_proj c)]) in *. pose proof (call_grows c s f v : grows c s c s0) as G0.
    destruct (acting (updating fuel Motion 0%nat) c s0 (body f s0)) as [[[c1 s1] [u|e]]|] eqn:A; [| |discriminate E];
      pose proof (acting_grows _ _ (IH Motion 0%nat) _ _ _ _ _ A) as G1; pose proof (grows_trans _ _ _ _ _ _ G0 G1) as G.
    - exact (grows_trans _ _ _ _ _ _ G (IH _ _ _ _ _ _ _ E)).
    - injection E as <- <- <-. exact G.
  Qed.

  Section Roster.
    Variable roster : kind -> list F.
    Hypothesis K : keeps_to roster body.
    Definition within (l : list (act F)) : Prop := forall v name g k, In (AConnect v name g) l -> kind_of name = Some k -> In g (roster k).
    Lemma acting_sane run l : (forall c s c' s' r, sane roster c -> run c s = Some (c', s', r) -> sane roster c') -> within l ->
      forall c s c' s' r, sane roster c -> acting run c s l = Some (c', s', r) -> sane roster c'.
    Proof.
      intros R W. induction l as [|a l IH]; intros c s c' s' r S E; cbn [Callbacks.acting] in E; [injection E as <- <- <-; exact S|].
      assert (W' : within l) by (intros v name g k I; apply (W v name g k); now right). specialize (IH W'). destruct a as [v name g| | |e].
      - destruct (connect figure c v name g) as [c1 [out [u|e]]] eqn:C;
          (assert (S1 : sane roster c1) by (apply (connect_sane roster c v name g c1 _ _ S) in C; [exact C|]; intros k; apply (W v name g k); now left)).
        + exact (IH _ _ _ _ _ S1 E).
        + injection E as <- <- <-. exact S1.
      - destruct (disconnect figure c) as [c1 [out [u|e]]] eqn:C; pose proof (disconnect_sane _ _ _ _ _ S C) as S1.
        + exact (IH _ _ _ _ _ S1 E).
        + injection E as <- <- <-. exact S1.
      - destruct (run c s) as [[[c1 s1] [u|e]]|] eqn:C; [exact (IH _ _ _ _ _ (R _ _ _ _ _ S C) E)|injection E as <- <- <-; exact (R _ _ _ _ _ S C)|discriminate E].
      - injection E as <- <- <-. exact S.
    Qed.
    Lemma body_within c k i f s : sane roster c -> nth_error (c_updates c k) i = Some f -> within (body f s).
    Proof. intros (_ & I & _) E v name g k' J Q. apply (K k f s v name g k'); auto. apply I. exact (nth_error_In _ _ E). Qed.
    Lemma updating_sane fuel : forall k i c s c' s' r, sane roster c -> updating fuel k i c s = Some (c', s', r) -> sane roster c'.
    Proof.
      induction fuel as [|fuel IH]; intros k i c s c' s' r S E; cbn [Callbacks.updating] in E; [discriminate E|].
      destruct (nth_error (c_updates c k) i) as [f|] eqn:N; [|injection E as <- <- <-; exact S].
      destruct (c_viewport c) as [v|]; [|injection E as <- <- <-; exact S]. cbv zeta in E.
      set (s0 := s ++ [Call f v (c_model c) (c_view c) (c_proj c)]) in *.
      destruct (acting (updating fuel Motion 0%nat) c s0 (body f s0)) as [[[c1 s1] [u|e]]|] eqn:A; [| |discriminate E];
        pose proof (acting_sane _ _ (IH Motion 0%nat) (body_within c k i f s0 S N) _ _ _ _ _ S A) as S1.
      - exact (IH _ _ _ _ _ _ _ S1 E).
      - injection E as <- <- <-. exact S1.
    Qed.

    (** ** The calls *)
    Lemma called_app (l m : list action) : called (l ++ m) = called l ++ called m.
    Proof. unfold called. now rewrite flat_map_app. Qed.
    (** Functions that do not run the camera call nothing; and why they raise. *)
    Definition tied (c : camera) : Prop := c_viewport c <> None /\ c_cids c <> None.
    Lemma acting_calls run l : ~ In ARun l -> forall c s c' s' r, tied c -> acting run c s l = Some (c', s', r) ->
      exists out, s' = s ++ out /\ called out = [] /\
        match r with Ok _ => True | Err e => In (ARaise e) l \/ e = KeyError /\ exists v name g, In (AConnect v name g) l /\ ~ valid name end.
    Proof.
      intros NR. induction l as [|a l IH]; intros c s c' s' r Ti E; cbn [Callbacks.acting] in E.
      - injection E as <- <- <-. exists []. rewrite app_nil_r. auto.
      - assert (NR' : ~ In ARun l) by (intros Q; apply NR; now right). specialize (IH NR').
        assert (Goes : forall c1 s1, tied c1 -> (exists out, s1 = s ++ out /\ called out = []) -> acting run c1 s1 l = Some (c', s', r) ->
          exists out, s' = s ++ out /\ called out = [] /\
            match r with Ok _ => True | Err e => In (ARaise e) (a :: l) \/ e = KeyError /\ exists v name g, In (AConnect v name g) (a :: l) /\ ~ valid name end).
        { intros c1 s1 T1 (o1 & -> & C1) E1. destruct (IH _ _ _ _ _ T1 E1) as (o2 & -> & C2 & Q). exists (o1 ++ o2). split; [symmetry; apply app_assoc|].
          split; [now rewrite called_app, C1, C2|]. destruct r as [u|e]; [exact Logic.I|]. destruct Q as [Q|(Q & v & name & g & Q1 & Q2)]; [left; now right|].
          right. split; [exact Q|]. exists v, name, g. split; [now right|exact Q2]. }
        destruct a as [v name g| | |e].
        + destruct (connect figure c v name g) as [c1 [out [u|e]]] eqn:C.
          * apply (Goes c1 (s ++ out)) in E; [exact E| |]; unfold connect in C; destruct (kind_of name) as [k|]; try discriminate C; injection C as <- <- <-; [split; discriminate|].
            eexists. split; reflexivity.
          * injection E as <- <- <-. exists out. split; [reflexivity|]. unfold connect in C. destruct (kind_of name) as [k|] eqn:Ek; [discriminate C|]. injection C as <- <- <-.
            split; [reflexivity|]. right. split; [reflexivity|]. exists v, name, g. split; [now left|]. intros V. apply valid_kind in V as [k V]. congruence.
        + destruct Ti as [T1 T2]. unfold disconnect in E. destruct (c_viewport c) as [v|] eqn:Ev; [|contradiction]. destruct (c_cids c) as [d|] eqn:Ec; [|contradiction].
          apply (Goes _ _) in E; [exact E| |exists []; split; reflexivity].
          destruct (Nat.eqb _ _); split; cbn; rewrite ?Ev, ?Ec; discriminate.
        + exfalso. apply NR. now left.
        + injection E as <- <- <-. exists []. rewrite app_nil_r. split; [reflexivity|]. split; [reflexivity|]. left. now left.
    Qed.
    Lemma sane_tied c k i f : sane roster c -> nth_error (c_updates c k) i = Some f -> tied c.
    Proof. intros (_ & _ & V & _) N. apply V. exists k, f. exact (nth_error_In _ _ N). Qed.
    Lemma starts_nth {A} (l m : list A) i x : starts_with l m -> nth_error l i = Some x -> nth_error m i = Some x.
    Proof. intros [r ->] E. rewrite nth_error_app1; [exact E|]. apply nth_error_Some. congruence. Qed.
    Lemma skipn_nth {A} (l : list A) : forall i x, nth_error l i = Some x -> skipn i l = x :: skipn (S i) l.
    Proof. induction l as [|a l IH]; intros [|i] x E; try discriminate E; cbn in E; [injection E as ->; reflexivity|]. exact (IH i x E). Qed.
    Lemma updating_calls fuel k : (forall f, In f (roster k) -> never_runs body f) -> forall i c s c' s' r, sane roster c -> updating fuel k i c s = Some (c', s', r) ->
      exists out, s' = s ++ out /\
        match r with
        | Ok _ => called out = skipn i (c_updates c' k)
        | Err e => starts_with (called out) (skipn i (c_updates c' k)) /\ exists before f, called out = before ++ [f] /\ blames body f e
        end.
    Proof.
      intros NR. induction fuel as [|fuel IH]; intros i c s c' s' r S E; cbn [Callbacks.updating] in E; [discriminate E|].
      destruct (nth_error (c_updates c k) i) as [f|] eqn:N.
      2: { injection E as <- <- <-. exists []. split; [now rewrite app_nil_r|]. apply nth_error_None in N. cbn. symmetry. now apply skipn_all2. }
      pose proof (sane_tied _ _ _ _ S N) as Ti. destruct (c_viewport c) as [v|] eqn:Ev; [|destruct Ti as [Ti _]; contradiction].
      cbv zeta in E. set (s0 := s ++ [Call f v (c_model c) (c_view c) (c_proj c)]) in *.
      assert (Nr : ~ In ARun (body f s0)) by (apply NR; destruct S as (_ & I & _); apply (I k), (nth_error_In _ _ N)).
      destruct (acting (updating fuel Motion 0%nat) c s0 (body f s0)) as [[[c1 s1] [u|e]]|] eqn:A; [| |discriminate E];
        destruct (acting_calls _ _ Nr _ _ _ _ _ Ti A) as (o1 & -> & C1 & Q);
        pose proof (acting_grows _ _ (updating_grows fuel Motion 0%nat) _ _ _ _ _ A) as (_ & _ & _ & _ & G1 & _ & _).
      - pose proof (acting_sane _ _ (updating_sane fuel Motion 0%nat) (body_within c k i f s0 S N) _ _ _ _ _ S A) as S1.
        pose proof (updating_grows _ _ _ _ _ _ _ _ E) as (_ & _ & _ & _ & G2 & _ & _).
        assert (N' : nth_error (c_updates c' k) i = Some f) by (apply (starts_nth _ _ _ _ (starts_trans _ _ _ (G1 k) (G2 k)) N)).
        destruct (IH _ _ _ _ _ _ S1 E) as (o2 & -> & R). exists (([Call f v (c_model c) (c_view c) (c_proj c)] ++ o1) ++ o2).
        split; [unfold s0; now rewrite !app_assoc|]. rewrite !called_app, C1. cbn [called flat_map app]. rewrite (skipn_nth _ _ _ N').
        destruct r as [u'|e]; [now rewrite R|]. destruct R as [[r' R1] (before & g & R2 & R3)]. split; [exists r'; rewrite R1; reflexivity|]. exists (f :: before), g. split; [cbn; now rewrite R2|exact R3].
      - injection E as <- <- <-. exists ([Call f v (c_model c) (c_view c) (c_proj c)] ++ o1). split; [unfold s0; now rewrite !app_assoc|].
        rewrite called_app, C1. cbn [called flat_map app]. split.
        + rewrite (skipn_nth _ _ _ (starts_nth _ _ _ _ (G1 k) N)). eexists. reflexivity.
        + exists [], f. split; [reflexivity|]. exists s0. exact Q.
    Qed.

    (** ** It ends *)
    Lemma acting_ends run l : (In ARun l -> forall c s, sane roster c -> run c s <> None) ->
      (forall c s c' s' r, sane roster c -> run c s = Some (c', s', r) -> sane roster c') -> within l ->
      forall c s, sane roster c -> acting run c s l <> None.
    Proof.
      intros R P W. induction l as [|a l IH]; intros c s S; cbn [Callbacks.acting]; [discriminate|].
      assert (W' : within l) by (intros v name g k I; apply (W v name g k); now right).
      assert (R' : In ARun l -> forall c s, sane roster c -> run c s <> None) by (intros I; apply R; now right). specialize (IH R' W'). destruct a as [v name g| | |e].
      - destruct (connect figure c v name g) as [c1 [out [u|e]]] eqn:C; [|discriminate]. apply IH.
        apply (connect_sane roster c v name g c1 _ _ S) in C; [exact C|]. intros k. apply (W v name g k). now left.
      - destruct (disconnect figure c) as [c1 [out [u|e]]] eqn:C; [|discriminate]. apply IH. exact (disconnect_sane _ _ _ _ _ S C).
      - destruct (run c s) as [[[c1 s1] [u|e]]|] eqn:C; [|discriminate|exfalso; exact (R (or_introl eq_refl) c s S C)]. apply IH. exact (P _ _ _ _ _ S C).
      - discriminate.
    Qed.
    Lemma sane_room c k i f : sane roster c -> nth_error (c_updates c k) i = Some f -> (i < length (roster k))%nat.
    Proof.
      intros (N & I & _) E. assert (i < length (c_updates c k))%nat by (apply nth_error_Some; congruence). pose proof (NoDup_incl_length (N k) (I k)). lia.
    Qed.
    Hypothesis NM : forall f, In f (roster Motion) -> never_runs body f.
    Lemma motion_ends fuel : forall i c s, sane roster c -> (i <= length (roster Motion) < fuel + i)%nat -> updating fuel Motion i c s <> None.
    Proof.
      induction fuel as [|fuel IH]; intros i c s S Q; cbn [Callbacks.updating]; [lia|].
      destruct (nth_error (c_updates c Motion) i) as [f|] eqn:N; [|discriminate]. destruct (c_viewport c) as [v|]; [|discriminate]. cbv zeta.
      set (s0 := s ++ [Call f v (c_model c) (c_view c) (c_proj c)]).
      assert (Nr : ~ In ARun (body f s0)) by (apply NM; destruct S as (_ & I & _); apply (I Motion), (nth_error_In _ _ N)).
      pose proof (acting_ends (updating fuel Motion 0%nat) (body f s0) (fun I => False_ind _ (Nr I)) (updating_sane fuel Motion 0%nat) (body_within c Motion i f s0 S N) c s0 S) as A.
      destruct (acting (updating fuel Motion 0%nat) c s0 (body f s0)) as [[[c1 s1] [u|e]]|] eqn:E; [|discriminate|contradiction].
      apply IH.
      - exact (acting_sane _ _ (updating_sane fuel Motion 0%nat) (body_within c Motion i f s0 S N) _ _ _ _ _ S E).
      - pose proof (sane_room _ _ _ _ S N). lia.
    Qed.
    Lemma updating_ends k fuel : forall i c s, sane roster c -> (i <= length (roster k))%nat -> (length (roster k) + length (roster Motion) + 1 < fuel + i)%nat -> updating fuel k i c s <> None.
    Proof.
      induction fuel as [|fuel IH]; intros i c s S Q Q'; cbn [Callbacks.updating]; [lia|].
      destruct (nth_error (c_updates c k) i) as [f|] eqn:N; [|discriminate]. destruct (c_viewport c) as [v|]; [|discriminate]. cbv zeta.
      set (s0 := s ++ [Call f v (c_model c) (c_view c) (c_proj c)]). pose proof (sane_room _ _ _ _ S N).
      assert (A : acting (updating fuel Motion 0%nat) c s0 (body f s0) <> None).
      { apply (acting_ends (updating fuel Motion 0%nat) (body f s0)); [|exact (updating_sane fuel Motion 0%nat)|exact (body_within c k i f s0 S N)|exact S].
        intros _ c1 s1 S1. apply motion_ends; [exact S1|]. lia. }
      destruct (acting (updating fuel Motion 0%nat) c s0 (body f s0)) as [[[c1 s1] [u|e]]|] eqn:E; [|discriminate|contradiction].
      apply IH; [|lia|lia]. exact (acting_sane _ _ (updating_sane fuel Motion 0%nat) (body_within c k i f s0 S N) _ _ _ _ _ S E).
    Qed.
  End Roster.

  (** ** Events and histories *)
  Notation live_step := (live_step drag_to model figure body).
  Notation live_steps := (live_steps drag_to model figure body).
  Lemma over_true (c : camera) e v : c_viewport c = Some v -> m_inaxes e = Some v -> over c e = true.
  Proof. intros A B. unfold over. rewrite A, B. apply Nat.eqb_refl. Qed.
  (** What an event does before functions are called. *)
  Definition before (c : camera) (e : mouse) : camera := fst (Camera.on_event drag_to model figure c e).
  Lemma before_same c e : c_updates (before c e) = c_updates c /\ c_viewport (before c e) = c_viewport c /\ c_view (before c e) = c_view c /\ c_proj (before c e) = c_proj c /\
    c_cids (before c e) = c_cids c /\ c_figures (before c e) = c_figures c.
  Proof.
    unfold before, Camera.on_event. destruct (m_kind e).
    - destruct (c_mouse c) as [[x y]|]; [|auto 8]. destruct (over c e); [|auto 8]. destruct (c_ball c); auto 8.
    - destruct (over c e); auto 8.
    - destruct (over c e); auto 8.
    - auto 8.
  Qed.
  Lemma answered fuel (c : camera) s e : answers c e -> live_step fuel c s (Mouse e) = updating_draw figure body fuel (m_kind e) (before c e) s.
  Proof.
    intros [R A]. unfold Callbacks.live_step. apply mem_nat_in in R. rewrite R. unfold on_event, before, Camera.on_event. destruct (m_kind e).
    - destruct A as ((v & V & W) & Mo & B). rewrite (over_true c e v V W). destruct (c_mouse c) as [[x y]|]; [|contradiction]. destruct (c_ball c); [reflexivity|contradiction].
    - destruct A as (v & V & W). now rewrite (over_true c e v V W).
    - destruct A as (v & V & W). now rewrite (over_true c e v V W).
    - reflexivity.
  Qed.
  Lemma sane_same roster c c' : c_updates c' = c_updates c -> c_viewport c' = c_viewport c -> c_cids c' = c_cids c -> c_figures c' = c_figures c -> sane roster c -> sane roster c'.
  Proof. intros U V W X (N & I & Q). unfold sane. rewrite U, V, W, X. auto. Qed.
  Lemma before_sane roster c e : sane roster c -> sane roster (before c e).
  Proof. destruct (before_same c e) as (U & V & _ & _ & W & X). now apply sane_same. Qed.
  Lemma unanswered fuel (c : camera) s e : ~ answers c e -> live_step fuel c s (Mouse e) = Some (c, s, Ok tt).
  Proof.
    intros A. unfold Callbacks.live_step. destruct (mem_nat _ _) eqn:R; [|reflexivity]. apply mem_nat_in in R. unfold answers in A. unfold on_event.
    assert (Ov : over c e = true -> exists v, c_viewport c = Some v /\ m_inaxes e = Some v).
    { unfold over. destruct (m_inaxes e) as [a|]; [|discriminate]. destruct (c_viewport c) as [v|]; [|discriminate]. intros Q. apply Nat.eqb_eq in Q. subst. eauto. }
    destruct (m_kind e).
    - destruct (c_mouse c) as [[x y]|] eqn:Mo; [|reflexivity]. destruct (over c e); [|reflexivity]. destruct (c_ball c) eqn:B; [|reflexivity].
      exfalso. apply A. split; [exact R|]. split; [now apply Ov|]. split; discriminate.
    - destruct (over c e); [|reflexivity]. exfalso. apply A. split; [exact R|now apply Ov].
    - destruct (over c e); [|reflexivity]. exfalso. apply A. split; [exact R|now apply Ov].
    - exfalso. apply A. auto.
  Qed.
  Lemma draw_sane roster fuel k c s c' s' r : keeps_to roster body -> sane roster c -> updating_draw figure body fuel k c s = Some (c', s', r) -> sane roster c'.
  Proof.
    intros K S E. unfold updating_draw in E. destruct (updating fuel k 0%nat c s) as [[[c1 s1] [u|e]]|] eqn:U; [| |discriminate E]; pose proof (updating_sane roster K _ _ _ _ _ _ _ _ S U) as S1.
    - destruct (c_viewport c1); injection E as <- <- <-; exact S1.
    - injection E as <- <- <-. exact S1.
  Qed.
  Lemma answers_dec (c : camera) e : answers c e \/ ~ answers c e.
  Proof.
    unfold answers. destruct (in_dec Nat.eq_dec (m_figure e) (c_figures c)) as [I|I]; [|right; tauto].
    assert (D : (exists v, c_viewport c = Some v /\ m_inaxes e = Some v) \/ ~ (exists v, c_viewport c = Some v /\ m_inaxes e = Some v)).
    { destruct (c_viewport c) as [v|], (m_inaxes e) as [a|]; try (right; intros (w & A & B); discriminate).
      destruct (Nat.eq_dec v a) as [->|Nq]; [left; eauto|right; intros (w & [= ->] & [= ->]); contradiction]. }
    destruct (m_kind e); try (destruct D; [left; tauto|right; tauto]); [|left; tauto].
    destruct D as [D|D]; [|right; tauto]. destruct (c_mouse c); [|right; tauto]. destruct (c_ball c); [|right; tauto]. left. split; [exact I|]. split; [exact D|]. split; discriminate.
  Qed.
  Lemma step_sane roster fuel c s o c' s' r : keeps_to roster body -> program_keeps roster [o] -> sane roster c -> live_step fuel c s o = Some (c', s', r) -> sane roster c'.
  Proof.
    intros K P S E. destruct o as [v name f|e| |].
    - unfold Callbacks.live_step in E. destruct (connect figure c v name f) as [c1 [out q]] eqn:C. injection E as <- <- <-.
      refine (connect_sane roster c v name f c1 _ _ S _ C). intros k. apply (P v name f k). now left.
    - destruct (answers_dec c e) as [A|A].
      + rewrite (answered fuel c s e A) in E. exact (draw_sane roster _ _ _ _ _ _ _ K (before_sane roster c e S) E).
      + rewrite (unanswered fuel c s e A) in E. injection E as <- <- <-. exact S.
    - exact (updating_sane roster K _ _ _ _ _ _ _ _ S E).
    - unfold Callbacks.live_step in E. destruct (disconnect figure c) as [c1 [out q]] eqn:C. injection E as <- <- <-. exact (disconnect_sane _ _ _ _ _ S C).
  Qed.
  Lemma new_sane roster ball (eye view proj : M) : sane roster (new_camera model ball eye view proj).
  Proof. unfold sane. cbn. split; [intros; constructor|]. split; [intros k f []|]. split; [intros (k & f & [])|]. intros Q. exfalso. now apply Q. Qed.
  Lemma keeps_cons roster o (h : list (@op F)) : program_keeps roster (o :: h) -> program_keeps roster [o] /\ program_keeps roster h.
  Proof.
    intros P. split; intros v name g k I; apply (P v name g k); [|now right]. destruct I as [I|[]]. now left.
  Qed.
  Lemma steps_sane roster fuel h : keeps_to roster body -> program_keeps roster h -> forall c s c' s', sane roster c -> live_steps fuel c s h = Some (c', s') -> sane roster c'.
  Proof.
    intros K. induction h as [|o h IH]; intros P c s c' s' S E; cbn [Callbacks.live_steps] in E; [injection E as <- <-; exact S|].
    apply keeps_cons in P as [P1 P2]. destruct (live_step fuel c s o) as [[[c1 s1] r]|] eqn:O; [|discriminate E].
    exact (IH P2 _ _ _ _ (step_sane roster _ _ _ _ _ _ _ K P1 S O) E).
  Qed.
  (** The view and the projection never change. *)
  Lemma step_fixed fuel c s o c' s' r : live_step fuel c s o = Some (c', s', r) -> c_view c' = c_view c /\ c_proj c' = c_proj c.
  Proof.
    intros E. destruct o as [v name f|e| |].
    - unfold Callbacks.live_step in E. destruct (connect figure c v name f) as [c1 [out q]] eqn:C. injection E as <- <- <-. destruct (connect_grows c s _ _ _ _ _ _ C) as (_ & _ & A & B & _). auto.
    - destruct (answers_dec c e) as [A|A].
      + rewrite (answered fuel c s e A) in E. unfold updating_draw in E. destruct (before_same c e) as (_ & _ & V & P & _).
        destruct (updating fuel (m_kind e) 0%nat (before c e) s) as [[[c1 s1] [u|x]]|] eqn:U; [| |discriminate E]; destruct (updating_grows _ _ _ _ _ _ _ _ U) as (_ & _ & V1 & P1 & _).
        * destruct (c_viewport c1); injection E as <- <- <-; split; congruence.
        * injection E as <- <- <-. split; congruence.
      + rewrite (unanswered fuel c s e A) in E. injection E as <- <- <-. auto.
    - destruct (updating_grows _ _ _ _ _ _ _ _ E) as (_ & _ & V1 & P1 & _). auto.
    - unfold Callbacks.live_step in E. destruct (disconnect figure c) as [c1 [out q]] eqn:C. injection E as <- <- <-. destruct (disconnect_grows c s _ _ _ C) as (_ & _ & A & B & _). auto.
  Qed.
  Lemma steps_fixed fuel h : forall c s c' s', live_steps fuel c s h = Some (c', s') -> c_view c' = c_view c /\ c_proj c' = c_proj c.
  Proof.
    induction h as [|o h IH]; intros c s c' s' E; cbn [Callbacks.live_steps] in E; [injection E as <- <-; auto|].
    destruct (live_step fuel c s o) as [[[c1 s1] r]|] eqn:O; [|discriminate E]. apply step_fixed in O as [A B]. apply IH in E as [A' B']. split; congruence.
  Qed.
  (** What an answered event does. *)
  Lemma event_calls roster fuel ball (eye view proj : M) h c s e c' s' r :
    keeps_to roster body -> program_keeps roster h -> (forall f, In f (roster (m_kind e)) -> never_runs body f) ->
    live_steps fuel (new_camera model ball eye view proj) [] h = Some (c, s) -> answers c e -> live_step fuel c s (Mouse e) = Some (c', s', r) ->
    let turned := fst (Camera.step drag_to model figure c (Mouse e)) in
    c_ball c' = c_ball turned /\ c_model c' = c_model turned /\ c_view c' = view /\ c_proj c' = proj /\
    (forall k, starts_with (c_updates c k) (c_updates c' k) /\ NoDup (c_updates c' k)) /\
    exists out, Forall (given (c_model c') view proj) out /\
      match r with
      | Ok _ => called out = c_updates c' (m_kind e) /\ exists v, c_viewport c' = Some v /\ s' = s ++ out ++ [Draw (figure v)]
      | Err x => s' = s ++ out /\ starts_with (called out) (c_updates c' (m_kind e)) /\ exists before f, called out = before ++ [f] /\ blames body f x
      end.
  Proof.
    intros K P NR R A E turned. pose proof (steps_sane roster fuel h K P _ _ _ _ (new_sane roster ball eye view proj) R) as S.
    pose proof (steps_fixed _ _ _ _ _ _ R) as [Vi Pr]. cbn in Vi, Pr.
    assert (Tu : turned = before c e). { unfold turned, Camera.step. destruct A as [A _]. apply mem_nat_in in A. now rewrite A. }
    rewrite Tu. clear turned Tu. rewrite (answered fuel c s e A) in E. pose proof (before_sane roster c e S) as Sb. destruct (before_same c e) as (U & V & Vb & Pb & _ & _).
    assert (Vn : c_viewport c <> None). { destruct S as (_ & _ & _ & W). apply W. destruct A as [A _]. intros Q. rewrite Q in A. exact A. }
    unfold updating_draw in E. destruct (updating fuel (m_kind e) 0%nat (before c e) s) as [[[c1 s1] q]|] eqn:D; [|discriminate E].
    pose proof (updating_grows _ _ _ _ _ _ _ _ D) as (G1 & G2 & G3 & G4 & G5 & G6 & out' & Eo & G7).
    destruct (updating_calls roster K fuel (m_kind e) NR _ _ _ _ _ _ Sb D) as (out & Eo' & Q).
    assert (out' = out) as -> by (apply (app_inv_head s); congruence). clear Eo.
    pose proof (updating_sane roster K _ _ _ _ _ _ _ _ Sb D) as [N1 _].
    assert (c1 = c') as Ec. { destruct q as [u|x]; [destruct (c_viewport c1)|]; congruence. }
    subst c1. split; [exact G1|]. split; [exact G2|]. split; [congruence|]. split; [congruence|]. split.
    { intros k. rewrite <- U. split; [apply G5|apply N1]. }
    exists out. split; [rewrite G2, <- Vi, <- Vb, <- Pr, <- Pb; exact G7|]. cbn [skipn] in Q. destruct q as [u|x].
    - destruct (c_viewport c') as [v|] eqn:Ev; [|exfalso; apply G6; [rewrite V; exact Vn|reflexivity]]. injection E as <- <-. split; [exact Q|]. exists v. split; [reflexivity|]. rewrite Eo'. symmetry. apply app_assoc.
    - injection E as <- <-. split; [exact Eo'|exact Q].
  Qed.
  (** Everything ends. *)
  Lemma steps_end roster fuel h : keeps_to roster body -> program_keeps roster h -> (forall f, In f (roster Motion) -> never_runs body f) ->
    (forall k, (length (roster k) + length (roster Motion) + 1 < fuel)%nat) -> forall c s, sane roster c -> live_steps fuel c s h <> None.
  Proof.
    intros K P NM Q. induction h as [|o h IH]; intros c s S; cbn [Callbacks.live_steps]; [discriminate|]. apply keeps_cons in P as [P1 P2]. specialize (IH P2).
    assert (X : live_step fuel c s o <> None).
    { destruct o as [v name f|e| |].
      - unfold Callbacks.live_step. destruct (connect figure c v name f) as [c1 [out q]]. discriminate.
      - destruct (answers_dec c e) as [A|A]; [|rewrite (unanswered fuel c s e A); discriminate]. rewrite (answered fuel c s e A). unfold updating_draw.
        pose proof (updating_ends roster K NM (m_kind e) fuel 0%nat (before c e) s (before_sane roster c e S)) as D. specialize (Q (m_kind e)).
        destruct (updating fuel (m_kind e) 0%nat (before c e) s) as [[[c1 s1] [u|x]]|]; [destruct (c_viewport c1); discriminate|discriminate|]. exfalso. apply D; [lia|lia|reflexivity].
      - apply (updating_ends roster K NM); [exact S|lia|]. specialize (Q Motion). lia.
      - unfold Callbacks.live_step. destruct (disconnect figure c) as [c1 [out q]]. discriminate. }
    destruct (live_step fuel c s o) as [[[c1 s1] r]|] eqn:O; [|contradiction]. apply IH. exact (step_sane roster _ _ _ _ _ _ _ K P1 S O).
  Qed.
  Theorem histories_end roster ball (eye view proj : M) h : keeps_to roster body -> program_keeps roster h -> (forall f, In f (roster Motion) -> never_runs body f) ->
    exists fuel0, forall fuel, (fuel0 <= fuel)%nat -> exists c s, live_steps fuel (new_camera model ball eye view proj) [] h = Some (c, s).
  Proof.
    intros K P NM. exists (length (roster Scroll) + length (roster Press) + length (roster Release) + 2 * length (roster Motion) + 2)%nat. intros fuel Q.
    pose proof (steps_end roster fuel h K P NM) as E. destruct (live_steps fuel (new_camera model ball eye view proj) [] h) as [[c s]|] eqn:R; [eauto|].
    exfalso. refine (E _ _ [] (new_sane roster ball eye view proj) R). intros []; lia.
  Qed.
  (** Functions that do nothing with the camera: as in Camera.v. *)
  Lemma idle_update k l : idle body -> forall fuel i (c : camera) s v, c_viewport c = Some v -> skipn i (c_updates c k) = l -> (length l < fuel)%nat ->
    updating fuel k i c s = Some (c, s ++ map (fun f => Call f v (c_model c) (c_view c) (c_proj c)) l, Ok tt).
  Proof.
    intros I. induction l as [|f l IH]; intros fuel i c s v V Sk Q; (destruct fuel as [|fuel]; [cbn in Q; lia|]); cbn [Callbacks.updating].
    - destruct (nth_error (c_updates c k) i) as [g|] eqn:N; [|cbn; now rewrite app_nil_r]. rewrite (skipn_nth _ _ _ N) in Sk. discriminate Sk.
    - destruct (nth_error (c_updates c k) i) as [g|] eqn:N.
      + rewrite (skipn_nth _ _ _ N) in Sk. injection Sk as -> Sk. rewrite V. cbv zeta. rewrite I. cbn [Callbacks.acting].
        rewrite (IH fuel (S i) c _ v V Sk); [|cbn in Q; lia]. cbn [map]. now rewrite <- app_assoc.
      + apply nth_error_None in N. rewrite (skipn_all2 _ N) in Sk. discriminate Sk.
  Qed.
  Lemma idle_agrees k : idle body -> forall fuel (c : camera) s, (length (c_updates c k) < fuel)%nat ->
    updating fuel k 0%nat c s = Some (c, s ++ fst (update c k), snd (update c k)).
  Proof.
    intros I fuel c s Q. unfold update. destruct (c_viewport c) as [v|] eqn:V.
    - rewrite (idle_update k (c_updates c k) I fuel 0%nat c s v V eq_refl Q). destruct (c_updates c k) as [|f l]; reflexivity.
    - destruct fuel as [|fuel]; [lia|]. cbn [Callbacks.updating]. destruct (c_updates c k) as [|f l]; cbn [nth_error]; rewrite ?V; cbn; now rewrite app_nil_r.
  Qed.
  Lemma idle_draw k : idle body -> forall fuel (c : camera) s, (length (c_updates c k) < fuel)%nat ->
    updating_draw figure body fuel k c s = Some (c, s ++ fst (update_draw figure c k), snd (update_draw figure c k)).
  Proof.
    intros I fuel c s Q. unfold updating_draw, update_draw. rewrite (idle_agrees k I fuel c s Q). destruct (update c k) as [l [u|e]]; cbn; [|reflexivity].
    destruct (c_viewport c); cbn; now rewrite ?app_assoc.
  Qed.
  Theorem idle_step fuel (c : camera) s o : idle body -> (forall k, (length (c_updates c k) < fuel)%nat) ->
    live_step fuel c s o = (let '(c', (out, r)) := Camera.step drag_to model figure c o in Some (c', s ++ out, r)).
  Proof.
    intros I Q. destruct o as [v name f|e| |]; cbn [Callbacks.live_step Camera.step].
    - reflexivity.
    - destruct (mem_nat _ _); [|now rewrite app_nil_r]. unfold on_event, Camera.on_event. destruct (m_kind e).
      + destruct (c_mouse c) as [[x y]|]; [|now rewrite app_nil_r]. destruct (over c e); [|now rewrite app_nil_r]. destruct (c_ball c) as [t|]; [|now rewrite app_nil_r].
        cbv zeta. rewrite (idle_draw Motion I); [|apply Q]. destruct (update_draw figure _ Motion); reflexivity.
      + destruct (over c e); [|now rewrite app_nil_r]. rewrite (idle_draw Scroll I); [|apply Q]. destruct (update_draw figure _ Scroll); reflexivity.
      + destruct (over c e); [|now rewrite app_nil_r]. cbv zeta. rewrite (idle_draw Press I); [|apply Q]. destruct (update_draw figure _ Press); reflexivity.
      + cbv zeta. rewrite (idle_draw Release I); [|apply Q]. destruct (update_draw figure _ Release); reflexivity.
    - rewrite (idle_agrees Motion I); [|apply Q]. destruct (update c Motion); reflexivity.
    - reflexivity.
  Qed.

  (** More fuel changes nothing. *)
  Lemma acting_more (run run' : camera -> list action -> option outcome) l : (forall c s x, run c s = Some x -> run' c s = Some x) -> forall c s x, acting run c s l = Some x -> acting run' c s l = Some x.
  Proof.
    intros R. induction l as [|a l IH]; intros c s x E; cbn [Callbacks.acting] in *; [exact E|]. destruct a as [v name g| | |e].
    - destruct (connect figure c v name g) as [c1 [out [u|e]]]; [now apply IH|exact E].
    - destruct (disconnect figure c) as [c1 [out [u|e]]]; [now apply IH|exact E].
    - destruct (run c s) as [[[c1 s1] [u|e]]|] eqn:C; [| |discriminate E]; rewrite (R _ _ _ C); [now apply IH|exact E].
    - exact E.
  Qed.
  Lemma updating_more fuel : forall k i (c : camera) s x, updating fuel k i c s = Some x -> updating (S fuel) k i c s = Some x.
  Proof.
    induction fuel as [|fuel IH]; intros k i c s x E; [discriminate E|]. cbn [Callbacks.updating] in E. remember (S fuel) as n eqn:En. cbn [Callbacks.updating].
    destruct (nth_error (c_updates c k) i) as [f|]; [|exact E]. destruct (c_viewport c) as [v|]; [|exact E]. cbv zeta in *.
    destruct (acting (updating fuel Motion 0%nat) c _ _) as [y|] eqn:A; [|discriminate E]. subst n.
    rewrite (acting_more _ _ _ (IH Motion 0%nat) _ _ _ A). destruct y as [[c1 s1] [u|e]]; [|exact E]. now apply IH.
  Qed.
  Lemma step_more1 fuel (c : camera) s o x : live_step fuel c s o = Some x -> live_step (S fuel) c s o = Some x.
  Proof.
    intros E. destruct o as [v name f|e| |]; try exact E; [|now apply updating_more].
    destruct (answers_dec c e) as [A|A].
    - rewrite (answered fuel c s e A) in E. rewrite (answered (S fuel) c s e A). unfold updating_draw in *. destruct (updating fuel (m_kind e) 0%nat (before c e) s) as [y|] eqn:U; [|discriminate E].
      now rewrite (updating_more _ _ _ _ _ _ U).
    - rewrite (unanswered fuel c s e A) in E. rewrite (unanswered (S fuel) c s e A). exact E.
  Qed.
  Theorem step_more fuel fuel' (c : camera) s o x : (fuel <= fuel')%nat -> live_step fuel c s o = Some x -> live_step fuel' c s o = Some x.
  Proof. intros Q E. induction Q; [exact E|]. now apply step_more1. Qed.
  Theorem steps_more fuel fuel' h : (fuel <= fuel')%nat -> forall (c : camera) s x, live_steps fuel c s h = Some x -> live_steps fuel' c s h = Some x.
  Proof.
    intros Q. induction h as [|o h IH]; intros c s x E; cbn [Callbacks.live_steps] in *; [exact E|].
    destruct (live_step fuel c s o) as [[[c1 s1] r]|] eqn:O; [|discriminate E]. rewrite (step_more _ _ _ _ _ _ Q O). now apply IH.
  Qed.

  (** Functions that connect nothing. *)
  Definition kept (c c' : camera) : Prop := c_updates c' = c_updates c /\ c_viewport c' = c_viewport c /\ c_mouse c' = c_mouse c /\ incl (c_figures c') (c_figures c).
  Lemma kept_refl c : kept c c.
  Proof. unfold kept. do 3 (split; [reflexivity|]). intros x Q. exact Q. Qed.
  Lemma kept_trans c c1 c2 : kept c c1 -> kept c1 c2 -> kept c c2.
  Proof. intros (A & B & C & D) (A' & B' & C' & D'). unfold kept. do 3 (split; [congruence|]). intros x Q. apply D, D', Q. Qed.
  Lemma disconnect_kept (c c' : camera) out r : disconnect figure c = (c', (out, r)) -> kept c c'.
  Proof.
    unfold disconnect. destruct (c_viewport c) eqn:Ev, (c_cids c) eqn:Ec; intros [= <- <- <-]; try apply kept_refl.
    destruct (_ =? _)%nat; [|apply kept_refl]. unfold kept. cbn. rewrite Ev. do 3 (split; [reflexivity|]). intros x Q. apply filter_In in Q. tauto.
  Qed.
  Lemma acting_kept run l : ~ In ARun l -> (forall v name g, ~ In (AConnect v name g) l) -> forall c s c' s' r, acting run c s l = Some (c', s', r) -> kept c c'.
  Proof.
    intros NR NC. induction l as [|a l IH]; intros c s c' s' r E; cbn [Callbacks.acting] in E; [injection E as <- <- <-; apply kept_refl|].
    assert (NR' : ~ In ARun l) by (intros Q; apply NR; now right).
    assert (NC' : forall v name g, ~ In (AConnect v name g) l) by (intros v name g Q; apply (NC v name g); now right). specialize (IH NR' NC'). destruct a as [v name g| | |e].
    - exfalso. apply (NC v name g). now left.
    - destruct (disconnect figure c) as [c1 [out [u|e]]] eqn:C; pose proof (disconnect_kept _ _ _ _ C) as G.
      + exact (kept_trans _ _ _ G (IH _ _ _ _ _ E)).
      + injection E as <- <- <-. exact G.
    - exfalso. apply NR. now left.
    - injection E as <- <- <-. apply kept_refl.
  Qed.
  Lemma updating_kept fuel k : forall i (c : camera) s c' s' r, (forall f, In f (c_updates c k) -> never_runs body f /\ never_connects body f) ->
    updating fuel k i c s = Some (c', s', r) -> kept c c'.
  Proof.
    induction fuel as [|fuel IH]; intros i c s c' s' r NR E; cbn [Callbacks.updating] in E; [discriminate E|].
    destruct (nth_error (c_updates c k) i) as [f|] eqn:N; [|injection E as <- <- <-; apply kept_refl].
    destruct (c_viewport c) as [v|]; [|injection E as <- <- <-; apply kept_refl]. cbv zeta in E. destruct (NR f (nth_error_In _ _ N)) as [Nr Nc].
    set (s0 := s ++ [Call f v (c_model c) (c_view c) (c_proj c)]) in *.
    destruct (acting (updating fuel Motion 0%nat) c s0 (body f s0)) as [[[c1 s1] [u|e]]|] eqn:A; [| |discriminate E]; pose proof (acting_kept _ _ (Nr s0) (Nc s0) _ _ _ _ _ A) as G.
    - refine (kept_trans _ _ _ G (IH _ _ _ _ _ _ _ E)). destruct G as (G & _). now rewrite G.
    - injection E as <- <- <-. exact G.
  Qed.
  Theorem event_keeps fuel (c : camera) s e c' s' r : (forall f, In f (c_updates c (m_kind e)) -> never_runs body f /\ never_connects body f) -> live_step fuel c s (Mouse e) = Some (c', s', r) ->
    let turned := fst (Camera.step drag_to model figure c (Mouse e)) in
    c_updates c' = c_updates c /\ c_viewport c' = c_viewport c /\ c_mouse c' = c_mouse turned /\ incl (c_figures c') (c_figures c).
  Proof.
    intros NR E turned. destruct (answers_dec c e) as [A|A].
    - assert (Tu : turned = before c e). { unfold turned, Camera.step. destruct A as [A _]. apply mem_nat_in in A. now rewrite A. }
      rewrite Tu. rewrite (answered fuel c s e A) in E. destruct (before_same c e) as (U & V & _ & _ & _ & X). unfold updating_draw in E.
      destruct (updating fuel (m_kind e) 0%nat (before c e) s) as [[[c1 s1] q]|] eqn:D; [|discriminate E].
      assert (c1 = c') as -> by (destruct q as [u|x]; [destruct (c_viewport c1)|]; congruence).
      apply updating_kept in D; [|now rewrite U]. destruct D as (D1 & D2 & D3 & D4). rewrite U in D1. rewrite V in D2. rewrite X in D4. auto.
    - rewrite (unanswered fuel c s e A) in E. injection E as <- <- <-. do 2 (split; [reflexivity|]). split; [|intros x Q; exact Q].
      unfold turned. cbn [Camera.step]. destruct (mem_nat _ _) eqn:Me; [|reflexivity]. apply mem_nat_in in Me.
      assert (Ov : over c e = true -> exists v, c_viewport c = Some v /\ m_inaxes e = Some v).
      { unfold over. destruct (m_inaxes e) as [a|]; [|discriminate]. destruct (c_viewport c) as [v|]; [|discriminate]. intros Q. apply Nat.eqb_eq in Q. subst. eauto. }
      unfold Camera.on_event. destruct (m_kind e) eqn:Ek.
      + destruct (c_mouse c) as [[x y]|] eqn:Mo; [|cbn; now rewrite Mo]. destruct (over c e); [|cbn; now rewrite Mo]. destruct (c_ball c) eqn:B; [|cbn; now rewrite Mo].
        exfalso. apply A. split; [exact Me|]. rewrite Ek, Mo, B. split; [now apply Ov|]. split; discriminate.
      + destruct (over c e); reflexivity.
      + destruct (over c e); [|reflexivity]. exfalso. apply A. split; [exact Me|]. rewrite Ek. now apply Ov.
      + exfalso. apply A. split; [exact Me|]. now rewrite Ek.
  Qed.

  (** A motion function that runs the camera. *)
  Theorem runs_endless fuel : forall (c : camera) s f l v, c_updates c Motion = f :: l -> c_viewport c = Some v -> (forall s, exists r, body f s = ARun :: r) ->
    live_step fuel c s Run = None.
  Proof.
    cbn [Callbacks.live_step]. induction fuel as [|fuel IH]; intros c s f l v U V B; [reflexivity|]. cbn [Callbacks.updating]. rewrite U. cbn [nth_error]. rewrite V. cbv zeta.
    destruct (B (s ++ [Call f v (c_model c) (c_view c) (c_proj c)])) as [r ->]. cbn [Callbacks.acting]. now rewrite (IH c _ f l v U V B).
  Qed.
End Facts.

(** Functions that each connect a new one. *)
Local Open Scope string_scope.
Lemma breeding_endless fuel : forall i (c : @camera nat nat nat) s v, c_updates c Motion = seq 0 (S i) -> c_viewport c = Some v -> updating figure_ex breeding fuel Motion i c s = None.
Proof.
  induction fuel as [|fuel IH]; intros i c s v U V; [reflexivity|]. cbn [Callbacks.updating].
  assert (N : nth_error (c_updates c Motion) i = Some i).
  { rewrite U. rewrite seq_S. rewrite nth_error_app2; rewrite seq_length; [|lia]. now rewrite Nat.sub_diag. }
  rewrite N, V. cbv zeta. unfold breeding at 2. cbn [Callbacks.acting].
  assert (C : exists c', connect figure_ex c 0 "motion" (S i) = (c', ([Draw (figure_ex 0)], Ok tt)) /\ c_updates c' Motion = seq 0 (S (S i)) /\ c_viewport c' = Some 0%nat).
  { unfold connect. cbn [kind_of String.eqb Ascii.eqb Bool.eqb]. eexists. split; [reflexivity|]. cbn [c_updates c_viewport kind_eqb]. split; [|reflexivity].
    rewrite (seq_S (S i)), <- U. destruct (existsb (Base.eqb (S i)) (c_updates c Motion)) eqn:E; [|reflexivity]. exfalso.
    apply existsb_exists in E as (x & I & E). rewrite U in I. apply in_seq in I. destruct (Base.eqb_spec (S i) x); [lia|discriminate]. }
  destruct C as (c' & -> & U' & V'). apply (IH (S i) c' _ 0%nat U' V').
Qed.
Lemma breeding_history fuel : exists c s, live_steps drag_ex model_ex figure_ex breeding fuel breeder [] [Connect 0 "motion" 0%nat] = Some (c, s) /\
  live_step drag_ex model_ex figure_ex breeding fuel c s Run = None.
Proof.
  eexists. eexists. split; [reflexivity|]. cbn [Callbacks.live_step]. apply (breeding_endless fuel 0 _ _ 0%nat); reflexivity.
Qed.
Lemma roster_kept : keeps_to roster_ex body_ex.
Proof.
  intros k f l v name g k' I. unfold body_ex. destruct k; cbn in I; repeat (destruct I as [<-|I]; [cbn|]); try contradiction;
    intros J; repeat (destruct J as [J|J]; [try discriminate J; injection J as <- <- <-; intros [= <-]; cbn; tauto|]); try contradiction J.
Qed.
Lemma roster_calm f : In f (roster_ex Motion) -> never_runs body_ex f.
Proof. intros I l. unfold body_ex. cbn in I. repeat (destruct I as [<-|I]; [cbn; intros Q; repeat (destruct Q as [Q|Q]; [discriminate Q|]); exact Q|]). contradiction. Qed.
