(** Proofs about rendering. *)
From Coq Require Import QArith Permutation Lqa.
From Verif Require Import Base Slice SliceFacts Render RenderSpec.
Local Open Scope nat_scope.

(** ** Lists *)
Lemma list_ext {A} : forall (l m : list A), (forall i, nth_error l i = nth_error m i) -> l = m.
Proof.
  induction l as [|x l IH]; intros [|y m] H; auto.
  - specialize (H 0). discriminate.
  - specialize (H 0). discriminate.
  - pose proof (H 0) as H0. injection H0 as ->. f_equal. apply IH. intros i. exact (H (S i)).
Qed.
Lemma visits_in n order j : visits n order -> In j order -> j < n.
Proof. intros V H. apply (Permutation_in j V) in H. apply in_seq in H. lia. Qed.
Lemma visits_length n order : visits n order -> length order = n.
Proof. intros V. apply Permutation_length in V. now rewrite seq_length in V. Qed.
Lemma pick_some {A} (l : list A) : forall idx, (forall j, In j idx -> j < length l) ->
  map Some (pick l idx) = map (nth_error l) idx.
Proof.
  induction idx as [|j idx IH]; intros H; [reflexivity|]. cbn [pick flat_map map].
  change (flat_map _ idx) with (pick l idx).
  destruct (nth_error l j) as [x|] eqn:E.
  - cbn. rewrite IH; [reflexivity|]. intros k Hk. apply H. now right.
  - exfalso. apply nth_error_None in E. pose proof (H j (or_introl eq_refl)). lia.
Qed.
Lemma nth_error_map_some {A} (l : list A) i : nth_error (map Some l) i = option_map Some (nth_error l i).
Proof. now rewrite nth_error_map. Qed.
Lemma pick_nth {A} (l : list A) idx i : (forall j, In j idx -> j < length l) ->
  nth_error (pick l idx) i = match nth_error idx i with Some j => nth_error l j | None => None end.
Proof.
  intros H. pose proof (nth_error_map_some (pick l idx) i) as E. rewrite (pick_some l idx H), nth_error_map in E.
  destruct (nth_error idx i) as [j|]; cbn in E.
  - destruct (nth_error (pick l idx) i); cbn in E; congruence.
  - now destruct (nth_error (pick l idx) i).
Qed.
Lemma pick_length {A} (l : list A) idx : (forall j, In j idx -> j < length l) -> length (pick l idx) = length idx.
Proof. intros H. rewrite <- (map_length Some), (pick_some l idx H). apply map_length. Qed.

Lemma collection_nth {I} (items : list I) attrs i :
  nth_error (collection items attrs) i = option_map (fun x => (x, map (shown i) attrs)) (nth_error items i).
Proof.
  unfold collection.
  assert (G : forall l b i, nth_error (combine l (map (fun i => map (shown i) attrs) (seq b (length l)))) i =
    option_map (fun x : I => (x, map (shown (b + i)) attrs)) (nth_error l i)).
  { induction l as [|x l IH]; intros b [|k]; cbn [length seq map combine nth_error option_map]; auto.
    - now rewrite Nat.add_0_r.
    - rewrite IH. now replace (S b + k) with (b + S k) by lia. }
  apply G.
Qed.

(** ** Attributes stay attached *)
Lemma shown_rows n idx l i j : visits n idx -> nth_error idx i = Some j -> length l = n ->
  shown i (Rows (pick l idx)) = own (Rows l) j.
Proof.
  intros V Hi Hl. assert (B : forall k, In k idx -> k < length l) by (intros k Hk; rewrite Hl; now apply (visits_in n idx)).
  assert (Li : i < n) by (rewrite <- (visits_length n idx V); apply nth_error_Some; congruence).
  cbn [shown]. rewrite (pick_length l idx B), (visits_length n idx V), Nat.mod_small by exact Li.
  rewrite (pick_nth l idx i B), Hi.
  destruct l as [|x [|y r]]; try reflexivity.
  pose proof (B j (nth_error_In idx i Hi)) as Hj. cbn in Hj. assert (j = 0) by lia. now subst.
Qed.
Lemma shown_attach n idx a i j : visits n idx -> nth_error idx i = Some j -> fits n a -> clear n a ->
  shown i (attach n idx a) = own a j.
Proof.
  intros V Hi F C. destruct a as [l|l|z]; cbn [attach].
  - destruct (Nat.eqb_spec (length l) n) as [E|E]; [now apply (shown_rows n)|].
    destruct F as [F|F]; [contradiction|]. destruct l as [|x [|y r]]; cbn in *; try lia. reflexivity.
  - destruct (Nat.eqb_spec (length l) n) as [E|E]; [contradiction|reflexivity].
  - reflexivity.
Qed.
Lemma shown_size n idx a : visits n idx -> fits_size n a ->
  exists b, attach_size n idx a = Ok b /\ forall i j, nth_error idx i = Some j -> shown i b = own a j.
Proof.
  intros V F. destruct a as [l|l|z]; cbn [attach_size].
  - cbn in F. apply Nat.eqb_eq in F as F'. rewrite F'. eexists. split; [reflexivity|]. intros i j Hi. now apply (shown_rows n).
  - contradiction.
  - eexists. split; [reflexivity|]. intros i j Hi. cbn [shown own]. rewrite repeat_length.
    assert (Li : i < n) by (rewrite <- (visits_length n idx V); apply nth_error_Some; congruence).
    rewrite Nat.mod_small by exact Li. now apply nth_error_repeat.
Qed.
Lemma shown_path n m idx a : visits n idx -> fits n a -> clear_path n m a ->
  exists b, attach_path n m idx a = Ok b /\ forall i j, nth_error idx i = Some j -> shown i b = own a j.
Proof.
  intros V F C. destruct a as [l|l|z]; cbn [attach_path].
  - destruct (Nat.eqb_spec (length l) n) as [E|E].
    + eexists. split; [reflexivity|]. intros i j Hi. now apply (shown_rows n).
    + destruct F as [F|F]; [contradiction|]. destruct C as [C|C]; [contradiction|].
      apply Nat.eqb_neq in C as ->. eexists. split; [reflexivity|]. intros i j Hi.
      destruct l as [|x [|y r]]; cbn in *; try lia. reflexivity.
  - destruct C as [C1 C2]. apply Nat.eqb_neq in C1 as ->. apply Nat.eqb_neq in C2 as ->. now eexists.
  - now eexists.
Qed.

(** What is drawn when items are visited in the order [idx]. *)
Lemma drawn {I} (items : list I) idx (bs as_ : list attr) : visits (length items) idx ->
  (forall i j, nth_error idx i = Some j -> map (shown i) bs = map (fun a => own a j) as_) ->
  map Some (collection (pick items idx) bs) =
  map (fun j => option_map (fun x => (x, map (fun a => own a j) as_)) (nth_error items j)) idx.
Proof.
  intros V H. apply list_ext. intros i. rewrite nth_error_map_some, collection_nth, nth_error_map.
  rewrite pick_nth by (intros j Hj; exact (visits_in _ _ j V Hj)). destruct (nth_error idx i) as [j|] eqn:E; [|reflexivity].
  cbn [option_map]. destruct (nth_error items j) as [x|] eqn:Ex; cbn [option_map].
  - now rewrite (H i j E).
  - exfalso. apply nth_error_None in Ex. pose proof (visits_in _ _ j V (nth_error_In idx i E)). lia.
Qed.

Section Orders.
Context {XY : Type}.
Variable argsort : list (option Q) -> list nat.
Hypothesis SORT : sorts argsort.

Lemma sort_visits l n : length l = n -> visits n (argsort l).
Proof. intros <-. exact (proj1 (SORT l)). Qed.

Lemma points_drawn (ps : list (XY * Q)) face edge width size :
  let n := length ps in
  fits n face -> clear n face -> fits n edge -> clear n edge -> fits n width -> clear n width -> fits_size n size ->
  exists order out, points argsort ps face edge width size = Ok out /\ visits n order /\
    far_first (fun j => option_map snd (nth_error ps j)) order /\
    map Some out = map (fun j => option_map (fun p => (fst p, [own face j; own edge j; own width j; own size j]))
                                            (nth_error ps j)) order.
Proof.
  intros n F1 C1 F2 C2 F3 C3 F4. unfold points, vertex. cbv zeta. fold n.
  set (key := map Some _). assert (L : length key = n) by (unfold key; now rewrite !map_length).
  pose proof (sort_visits key n L) as V. set (idx := argsort key) in *.
  destruct (shown_size n idx size V F4) as (b & Eb & Hb). rewrite Eb. cbn [bind].
  exists idx. eexists. split; [reflexivity|]. split; [exact V|]. split.
  - intros i j a c x y Hij Hi Hj Hx Hy.
    destruct (nth_error ps a) as [pa|] eqn:Ea; [|discriminate]. destruct (nth_error ps c) as [pc|] eqn:Ec; [|discriminate].
    injection Hx as <-. injection Hy as <-.
    assert (K : deeper (Some (1 - snd pa)%Q) (Some (1 - snd pc)%Q)).
    { apply (proj2 (SORT key) i j a c _ _ Hij Hi Hj); unfold key; rewrite !nth_error_map; [now rewrite Ea|now rewrite Ec]. }
    cbn in K. lra.
  - rewrite drawn with (as_ := [face; edge; width; size]).
    + apply map_ext. intros j. rewrite nth_error_map. now destruct (nth_error ps j).
    + now rewrite map_length.
    + intros i j Hi. cbn [map]. rewrite !(shown_attach n idx) with (j := j) by assumption. now rewrite (Hb i j Hi).
Qed.
Lemma combine_pick {A B} (l : list A) (m : list B) : length l = length m -> forall idx,
  (forall j, In j idx -> j < length l) -> combine (pick l idx) (pick m idx) = pick (combine l m) idx.
Proof.
  intros E idx H. apply list_ext. intros i.
  assert (N : forall (x : list A) (y : list B) i, nth_error (combine x y) i =
    match nth_error x i, nth_error y i with Some a, Some b => Some (a, b) | _, _ => None end).
  { induction x as [|a x IH]; intros [|b y] [|k]; cbn; auto. now destruct (nth_error x k). }
  assert (Lc : length (combine l m) = length l) by (rewrite combine_length; lia).
  rewrite N, !pick_nth; try (intros j Hj; rewrite ?Lc, <- ?E; auto).
  destruct (nth_error idx i) as [j|]; [now rewrite N|reflexivity].
Qed.
Lemma markers_drawn {S} (ps : list (XY * Q)) (shapes : list S) face edge width size :
  let n := length ps in length shapes = n ->
  fits n face -> clear n face -> fits n edge -> clear n edge -> fits n width -> clear n width -> fits_size n size ->
  exists order out, markers argsort ps shapes face edge width size = Ok out /\ visits n order /\
    far_first (fun j => option_map snd (nth_error ps j)) order /\
    map Some out = map (fun j => match nth_error shapes j, nth_error ps j with
                                 | Some s, Some p => Some ((s, fst p), [own face j; own edge j; own width j; own size j])
                                 | _, _ => None end) order.
Proof.
  intros n LS F1 C1 F2 C2 F3 C3 F4. unfold markers, vertex. cbv zeta. fold n.
  set (key := map Some _). assert (L : length key = n) by (unfold key; now rewrite !map_length).
  pose proof (sort_visits key n L) as V. set (idx := argsort key) in *.
  destruct (shown_size n idx size V F4) as (b & Eb & Hb). rewrite Eb. cbn [bind].
  exists idx. eexists. split; [reflexivity|]. split; [exact V|]. split.
  - intros i j a c x y Hij Hi Hj Hx Hy.
    destruct (nth_error ps a) as [pa|] eqn:Ea; [|discriminate]. destruct (nth_error ps c) as [pc|] eqn:Ec; [|discriminate].
    injection Hx as <-. injection Hy as <-.
    assert (K : deeper (Some (1 - snd pa)%Q) (Some (1 - snd pc)%Q)).
    { apply (proj2 (SORT key) i j a c _ _ Hij Hi Hj); unfold key; rewrite !nth_error_map; [now rewrite Ea|now rewrite Ec]. }
    cbn in K. lra.
  - rewrite combine_pick; [|now rewrite map_length|intros j Hj; rewrite LS; now apply (visits_in n idx)].
    rewrite drawn with (as_ := [face; edge; width; size]).
    + apply map_ext. intros j.
      assert (N : forall (x : list S) (y : list XY) i, nth_error (combine x y) i =
        match nth_error x i, nth_error y i with Some a, Some b => Some (a, b) | _, _ => None end).
      { induction x as [|a x IH]; intros [|c y] [|k]; cbn; auto. now destruct (nth_error x k). }
      rewrite N, nth_error_map. destruct (nth_error shapes j); [|reflexivity]. now destruct (nth_error ps j).
    + rewrite combine_length, map_length. replace (Nat.min (length shapes) (length ps)) with n by (unfold n in *; lia). exact V.
    + intros i j Hi. cbn [map]. rewrite !(shown_attach n idx) with (j := j) by assumption. now rewrite (Hb i j Hi).
Qed.
Lemma pixels_drawn (ps : list (XY * Q)) color :
  let n := length ps in fits n color -> clear n color ->
  exists order, visits n order /\
    near_first (fun j => option_map snd (nth_error ps j)) order /\
    map Some (pixels argsort ps (Some color)) =
      map (fun j => option_map (fun p => (fst p, [own color j])) (nth_error ps j)) order.
Proof.
  intros n F C. unfold pixels, vertex. cbv zeta. fold n.
  set (key := map (fun p : XY * Q => Some (snd p)) ps). assert (L : length key = n) by (unfold key; now rewrite !map_length).
  pose proof (sort_visits key n L) as V. set (idx := argsort key) in *.
  exists idx. split; [exact V|]. split.
  - intros i j a c x y Hij Hi Hj Hx Hy.
    destruct (nth_error ps a) as [pa|] eqn:Ea; [|discriminate]. destruct (nth_error ps c) as [pc|] eqn:Ec; [|discriminate].
    injection Hx as <-. injection Hy as <-.
    apply (proj2 (SORT key) i j a c (Some (snd pa)) (Some (snd pc)) Hij Hi Hj); unfold key; rewrite nth_error_map; [now rewrite Ea|now rewrite Ec].
  - rewrite drawn with (as_ := [color]).
    + apply map_ext. intros j. rewrite nth_error_map. now destruct (nth_error ps j).
    + now rewrite map_length.
    + intros i j Hi. cbn [map]. now rewrite (shown_attach n idx) with (j := j).
Qed.
Lemma segments_drawn (ps : list ((XY * Q) * (XY * Q))) edge width :
  let n := length ps in fits n edge -> clear n edge -> fits n width -> clear n width ->
  exists order, visits n order /\
    far_first (fun j => option_map (fun s => (snd (fst s) + snd (snd s)) / inject_Z 2)%Q (nth_error ps j)) order /\
    map Some (segments argsort ps edge width) =
      map (fun j => option_map (fun s => ((fst (fst s), fst (snd s)), [own edge j; own width j])) (nth_error ps j)) order.
Proof.
  intros n F1 C1 F2 C2. unfold segments, vertex. cbv zeta. fold n.
  set (key := map Some (map (fun s : (XY * Q) * (XY * Q) => - ((snd (fst s) + snd (snd s)) / inject_Z 2))%Q ps)). assert (L : length key = n) by (unfold key; now rewrite !map_length).
  pose proof (sort_visits key n L) as V. set (idx := argsort key) in *.
  exists idx. split; [exact V|]. split.
  - intros i j a c x y Hij Hi Hj Hx Hy.
    destruct (nth_error ps a) as [pa|] eqn:Ea; [|discriminate]. destruct (nth_error ps c) as [pc|] eqn:Ec; [|discriminate].
    cbn [option_map] in Hx, Hy. injection Hx as <-. injection Hy as <-.
    set (za := ((snd (fst pa) + snd (snd pa)) / inject_Z 2)%Q). set (zc := ((snd (fst pc) + snd (snd pc)) / inject_Z 2)%Q).
    assert (K : deeper (Some (- za)%Q) (Some (- zc)%Q)).
    { apply (proj2 (SORT key) i j a c _ _ Hij Hi Hj); unfold key; rewrite !nth_error_map; [now rewrite Ea|now rewrite Ec]. }
    cbn in K. lra.
  - rewrite drawn with (as_ := [edge; width]).
    + apply map_ext. intros j. rewrite nth_error_map. now destruct (nth_error ps j).
    + now rewrite map_length.
    + intros i j Hi. cbn [map]. now rewrite !(shown_attach n idx) with (j := j).
Qed.
Lemma attach_all_shown n m idx : visits n idx -> forall attrs,
  Forall (fun a => fits n a /\ clear_path n m a) attrs ->
  exists bs, attach_all n m idx attrs = Ok bs /\
    forall i j, nth_error idx i = Some j -> map (shown i) bs = map (fun a => own a j) attrs.
Proof.
  intros V attrs H. induction H as [|a r [F C] _ (bs & E & Hbs)]; [now exists []|].
  destruct (shown_path n m idx a V F C) as (b & Eb & Hb). cbn [attach_all]. rewrite Eb, E. cbn [bind].
  eexists. split; [reflexivity|]. intros i j Hi. cbn [map]. now rewrite (Hb i j Hi), (Hbs i j Hi).
Qed.
Lemma mean_average l : average l (mean l).
Proof.
  destruct l as [|x l]; [reflexivity|]. split; [discriminate|]. unfold mean.
  set (n := inject_Z (Z.of_nat (length (x :: l)))). field. unfold n, inject_Z, Qeq. cbn [Qnum Qden length]. lia.
Qed.
Lemma groups_drawn (ps : list (XY * Q)) i paths attrs : group ps i = Ok paths ->
  let n := length paths in
  Forall (fun a => fits n a /\ clear_path n (length ps) a) attrs ->
  exists order out, draw_groups argsort ps i attrs = Ok out /\ visits n order /\
    (exists depth, (forall j p, nth_error paths j = Some p -> average (map snd p) (depth j)) /\ far_first depth order) /\
    map Some out = map (fun j => option_map (fun p => (map fst p, map (fun a => own a j) attrs)) (nth_error paths j)) order.
Proof.
  intros G n F. unfold draw_groups, vertex. rewrite G. cbn [bind]. cbv zeta. unfold vertex in *. fold n.
  set (key := @map (list (XY * Q)) (option Q) path_depth paths). assert (L : length key = n) by (unfold key; now rewrite !map_length).
  pose proof (sort_visits key n L) as V. set (idx := argsort key) in *.
  destruct (attach_all_shown n (length ps) idx V attrs F) as (bs & E & Hbs). rewrite E. cbn [bind].
  exists idx. eexists. split; [reflexivity|]. split; [exact V|]. split.
  - exists (fun j => match nth_error paths j with Some p => mean (map snd p) | None => None end). split.
    { intros j p Hp. rewrite Hp. apply mean_average. }
    intros k j a c x y Hij Hi Hj Hx Hy.
    destruct (nth_error paths a) as [pa|] eqn:Ea; [|discriminate]. destruct (nth_error paths c) as [pc|] eqn:Ec; [|discriminate].
    assert (K : deeper (path_depth pa) (path_depth pc)).
    { apply (proj2 (SORT key) k j a c _ _ Hij Hi Hj); unfold key; rewrite nth_error_map; [now rewrite Ea|now rewrite Ec]. }
    unfold path_depth in K. rewrite Hx, Hy in K. cbn in K. lra.
  - rewrite drawn with (as_ := attrs).
    + apply map_ext. intros j. rewrite nth_error_map. now destruct (nth_error paths j).
    + now rewrite map_length.
    + exact Hbs.
Qed.
End Orders.

(** ** A sort *)
Definition key_leb (a b : option Q) : bool :=
  match a, b with _, None => true | None, Some _ => false | Some x, Some y => Qle_bool x y end.
Lemma key_leb_true a b : key_leb a b = true -> deeper a b.
Proof. destruct a, b; cbn; auto; try discriminate. now rewrite Qle_bool_iff. Qed.
Lemma key_leb_false a b : key_leb a b = false -> deeper b a.
Proof.
  destruct a as [x|], b as [y|]; cbn; auto; try discriminate. intros H.
  destruct (Qlt_le_dec x y) as [L|L]; [|exact L]. exfalso.
  assert (Qle_bool x y = true) by (apply Qle_bool_iff; lra). congruence.
Qed.
Lemma deeper_trans a b c : deeper a b -> deeper b c -> deeper a c.
Proof. destruct a, b, c; cbn; auto; try contradiction. intros. lra. Qed.
Fixpoint insert (k : nat -> option Q) (i : nat) (l : list nat) : list nat :=
  match l with [] => [i] | j :: r => if key_leb (k i) (k j) then i :: l else j :: insert k i r end.
Definition lookup (l : list (option Q)) (i : nat) : option Q := nth i l None.
Definition ex_argsort (l : list (option Q)) : list nat := fold_right (insert (lookup l)) [] (seq 0 (length l)).
Lemma insert_perm k i l : Permutation (insert k i l) (i :: l).
Proof.
  induction l as [|j r IH]; [reflexivity|]. cbn. destruct (key_leb (k i) (k j)); [reflexivity|].
  rewrite IH. apply perm_swap.
Qed.
Fixpoint ordered (k : nat -> option Q) (l : list nat) : Prop :=
  match l with [] => True | i :: r => Forall (fun j => deeper (k i) (k j)) r /\ ordered k r end.
Lemma insert_ordered k i l : ordered k l -> ordered k (insert k i l).
Proof.
  induction l as [|j r IH]; intros H; [cbn; auto|]. cbn. destruct (key_leb (k i) (k j)) eqn:E.
  - cbn. destruct H as [H1 H2]. split; [|now split]. apply key_leb_true in E. constructor; [exact E|].
    eapply Forall_impl; [|exact H1]. intros x Hx. now apply (deeper_trans _ (k j)).
  - destruct H as [H1 H2]. cbn. split; [|now apply IH].
    apply (Permutation_Forall (Permutation_sym (insert_perm k i r))). constructor; [now apply key_leb_false|exact H1].
Qed.
Lemma ordered_nth k : forall l i j a b, ordered k l -> i < j -> nth_error l i = Some a -> nth_error l j = Some b ->
  deeper (k a) (k b).
Proof.
  induction l as [|x l IH]; intros [|i] [|j] a b H L Ha Hb; try lia; try discriminate; destruct H as [H1 H2]; cbn in *.
  - injection Ha as <-. rewrite Forall_forall in H1. apply H1. eapply nth_error_In; eauto.
  - apply (IH i j a b H2); auto. lia.
Qed.
Lemma ex_argsort_sorts : sorts ex_argsort.
Proof.
  intros l. unfold ex_argsort.
  assert (P : forall s, Permutation (fold_right (insert (lookup l)) [] s) s).
  { induction s as [|i s IH]; cbn; [reflexivity|]. now rewrite insert_perm, IH. }
  assert (O : forall s, ordered (lookup l) (fold_right (insert (lookup l)) [] s)).
  { induction s as [|i s IH]; cbn; [exact Logic.I|]. now apply insert_ordered. }
  split; [apply P|]. intros i j a b x y L Ha Hb Hx Hy.
  pose proof (ordered_nth _ _ i j a b (O _) L Ha Hb) as D. unfold lookup in D.
  now rewrite (nth_error_nth l a None Hx), (nth_error_nth l b None Hy) in D.
Qed.

(** ** Grouping *)
Section Group.
Context {A : Type}.
Implicit Types ps : list A.
Lemma range_any ps a b : a <= b -> range ps (Z.of_nat a) (Z.of_nat b) = firstn (b - a) (skipn a ps).
Proof.
  intros H. unfold range, clamp, shift.
  destruct (Z.ltb_spec (Z.of_nat a) 0); [lia|]. destruct (Z.ltb_spec (Z.of_nat b) 0); [lia|].
  destruct (Nat.le_gt_cases a (length ps)) as [La|La].
  - destruct (Nat.le_gt_cases b (length ps)) as [Lb|Lb].
    + f_equal; [lia|f_equal; lia].
    + rewrite (firstn_all2 (n := b - a)); [|rewrite skipn_length; lia].
      rewrite firstn_all2; [f_equal; lia|]. rewrite skipn_length. lia.
  - rewrite (skipn_all2 (n := a)) by lia. rewrite firstn_nil.
    rewrite skipn_all2 by lia. apply firstn_nil.
Qed.
Lemma skipn_skipn ps a b : skipn b (skipn a ps) = skipn (a + b) ps.
Proof. revert a. induction ps as [|x ps IH]; intros [|a]; cbn; auto using skipn_nil. Qed.
Lemma sizes_cut wrap ps sizes : forall start,
  (forall k, k <= start + total sizes -> wrap (Z.of_nat k) = Z.of_nat k) ->
  group_sizes wrap ps (Z.of_nat start) (map Z.of_nat sizes) = cut (skipn start ps) sizes.
Proof.
  induction sizes as [|s r IH]; intros start H; [reflexivity|]. cbn [map group_sizes cut].
  assert (E : wrap (Z.of_nat start + Z.of_nat s)%Z = Z.of_nat (start + s)).
  { rewrite <- Nat2Z.inj_add. apply H. cbn. lia. }
  rewrite E, range_any by lia. rewrite IH.
  - rewrite skipn_skipn. f_equal. f_equal. lia.
  - intros k Hk. apply H. change (total (s :: r)) with (s + total r). lia.
Qed.
Lemma sizes_group wrap ps sizes :
  (forall k, k <= total sizes -> wrap (Z.of_nat k) = Z.of_nat k) ->
  group ps (Sizes wrap (map Z.of_nat sizes)) = Ok (cut ps sizes).
Proof. intros H. cbn [group]. f_equal. exact (sizes_cut wrap ps sizes 0 H). Qed.
Lemma cut_repeat ps k : forall c start,
  map (fun i => range ps (Z.of_nat i * Z.of_nat k) ((Z.of_nat i + 1) * Z.of_nat k)) (seq start c) =
  cut (skipn (start * k) ps) (repeat k c).
Proof.
  induction c as [|c IH]; intros start; [reflexivity|]. cbn [seq map repeat cut].
  rewrite IH, skipn_skipn. f_equal.
  - replace (Z.of_nat start * Z.of_nat k)%Z with (Z.of_nat (start * k)) by lia.
    replace ((Z.of_nat start + 1) * Z.of_nat k)%Z with (Z.of_nat (start * k + k)) by lia.
    rewrite range_any by lia. f_equal. lia.
  - f_equal. f_equal. lia.
Qed.
Lemma uniform_group ps k : 0 < k -> group ps (Uniform (Z.of_nat k)) = Ok (cut ps (repeat k (length ps / k))).
Proof.
  intros H. cbn [group]. unfold group_uniform. destruct (Z.eqb_spec (Z.of_nat k) 0); [lia|].
  rewrite <- Nat2Z.inj_div, Nat2Z.id, cut_repeat. reflexivity.
Qed.
Lemma uniform_zero ps : group ps (Uniform 0) = Err ZeroDivisionError. Proof. reflexivity. Qed.
Lemma uniform_negative ps k : (k < 0)%Z -> group ps (Uniform k) = Ok [].
Proof.
  intros H. cbn [group]. unfold group_uniform. destruct (Z.eqb_spec k 0); [lia|].
  assert (D : (Z.of_nat (length ps) / k <= 0)%Z).
  { rewrite <- (Z.div_opp_opp _ k) by lia. apply Z.div_le_upper_bound; lia. }
  replace (Z.to_nat (Z.of_nat (length ps) / k)) with 0 by lia. reflexivity.
Qed.

Lemma at_seq ps : forall s start, start + s <= length ps ->
  at_indices ps (map Z.of_nat (seq start s)) = Ok (firstn s (skipn start ps)).
Proof.
  induction s as [|s IH]; intros start H; [reflexivity|]. cbn [seq map at_indices].
  rewrite norm_index_range by lia. rewrite Nat2Z.id.
  destruct (nth_error ps start) as [p|] eqn:E; [|apply nth_error_None in E; lia].
  rewrite IH by lia. cbn [bind]. f_equal.
  replace (S start) with (start + 1) by lia. rewrite <- skipn_skipn.
  assert (K : skipn start ps = p :: skipn 1 (skipn start ps)).
  { clear IH. revert start H E. induction ps as [|x l IHl]; intros [|start] H E; cbn in *; try discriminate; try lia.
    - now injection E as ->.
    - apply IHl; [lia|exact E]. }
  rewrite K at 2. reflexivity.
Qed.
Lemma at_out ps : forall s start, start + s > length ps -> s > 0 ->
  at_indices ps (map Z.of_nat (seq start s)) = Err IndexError.
Proof.
  induction s as [|s IH]; intros start H Hs; [lia|]. cbn [seq map at_indices].
  destruct (Nat.le_gt_cases (length ps) start) as [L|L].
  - rewrite (proj2 (norm_index_none _ _)); [reflexivity|]. lia.
  - rewrite norm_index_range by lia. rewrite Nat2Z.id.
    destruct (nth_error ps start) as [p|] eqn:E; [|reflexivity].
    rewrite IH by lia. reflexivity.
Qed.
Lemma indices_cut ps sizes : forall start, start + total sizes <= length ps ->
  group_indices ps (index_groups start sizes) = Ok (cut (skipn start ps) sizes).
Proof.
  induction sizes as [|s r IH]; intros start H; [reflexivity|]. cbn [index_groups group_indices cut total fold_right] in *.
  fold (total r) in H. rewrite at_seq by lia. cbn [bind]. rewrite IH by lia. cbn [bind]. now rewrite skipn_skipn.
Qed.
Lemma indices_out ps sizes : forall start, start <= length ps -> start + total sizes > length ps ->
  group_indices ps (index_groups start sizes) = Err IndexError.
Proof.
  induction sizes as [|s r IH]; intros start L H; cbn [index_groups group_indices total fold_right] in *; [lia|].
  fold (total r) in H.
  destruct (Nat.le_gt_cases (start + s) (length ps)) as [B|B].
  - rewrite at_seq by lia. cbn [bind]. rewrite IH by lia. reflexivity.
  - rewrite at_out by lia. reflexivity.
Qed.
Lemma indices_group ps sizes : total sizes <= length ps ->
  group ps (Indices (index_groups 0 sizes)) = Ok (cut ps sizes).
Proof. intros H. exact (indices_cut ps sizes 0 H). Qed.
Lemma indices_too_many ps sizes : total sizes > length ps ->
  group ps (Indices (index_groups 0 sizes)) = Err IndexError.
Proof. intros H. apply (indices_out ps sizes 0); lia. Qed.

Lemma cut_concat ps sizes : concat (cut ps sizes) = firstn (total sizes) ps.
Proof.
  revert ps. induction sizes as [|s r IH]; intros ps; [reflexivity|]. cbn [cut concat total fold_right]. fold (total r).
  rewrite IH. revert s. induction ps as [|x ps IHp]; intros [|s]; cbn; auto.
  - now rewrite !firstn_nil.
  - f_equal. apply IHp.
Qed.
Lemma cut_covers ps sizes : total sizes = length ps -> concat (cut ps sizes) = ps.
Proof. intros H. rewrite cut_concat, H. apply firstn_all. Qed.
Lemma cut_sizes ps sizes : total sizes <= length ps -> map (@length A) (cut ps sizes) = sizes.
Proof.
  revert ps. induction sizes as [|s r IH]; intros ps H; [reflexivity|]. cbn [cut map total fold_right] in *. fold (total r) in H.
  rewrite firstn_length, IH; [f_equal; lia|]. rewrite skipn_length. lia.
Qed.
Lemma total_repeat k c : total (repeat k c) = c * k.
Proof. induction c; cbn; [reflexivity|]. unfold total in IHc. lia. Qed.
Lemma uniform_sizes ps k : 0 < k -> total (repeat k (length ps / k)) <= length ps.
Proof. intros H. rewrite total_repeat, Nat.mul_comm. apply Nat.mul_div_le. lia. Qed.
Lemma forms_agree ps k : 0 < k ->
  let sizes := repeat k (length ps / k) in
  group ps (Uniform (Z.of_nat k)) = group ps (Sizes (fun z => z) (map Z.of_nat sizes)) /\
  group ps (Uniform (Z.of_nat k)) = group ps (Indices (index_groups 0 sizes)).
Proof.
  intros H sizes. rewrite (uniform_group ps k H). split.
  - symmetry. now apply sizes_group.
  - symmetry. apply indices_group. now apply uniform_sizes.
Qed.
Lemma uniform_covers ps k paths : 0 < k -> group ps (Uniform (Z.of_nat k)) = Ok paths ->
  concat paths = firstn (length ps / k * k) ps /\ Forall (fun p => length p = k) paths /\
  (Nat.modulo (length ps) k = 0 -> concat paths = ps).
Proof.
  intros H. rewrite (uniform_group ps k H). intros E. injection E as <-.
  rewrite cut_concat, total_repeat. split; [reflexivity|]. split.
  - pose proof (cut_sizes ps (repeat k (length ps / k)) (uniform_sizes ps k H)) as S.
    apply Forall_forall. intros p Hp. apply (in_map (@length A)) in Hp. rewrite S in Hp. now apply repeat_spec in Hp.
  - intros D. pose proof (Nat.div_mod_eq (length ps) k) as DM. rewrite D in DM. rewrite <- (firstn_all ps) at 3. f_equal. lia.
Qed.
Lemma count_agrees ps i paths : (forall k, i = Uniform k -> (0 < k)%Z) -> group ps i = Ok paths ->
  path_count (length ps) i = Ok (Z.of_nat (length paths)).
Proof.
  intros P. destruct i as [k|wrap l|l]; cbn [group path_count].
  - specialize (P k eq_refl). unfold group_uniform. destruct (Z.eqb_spec k 0); [lia|]. intros E. injection E as <-.
    rewrite map_length, seq_length. f_equal. rewrite Z2Nat.id; [reflexivity|]. apply Z.div_pos; lia.
  - clear P. intros E. injection E as <-. f_equal. f_equal. generalize 0%Z. induction l as [|s r IH]; intros z; cbn; auto.
  - clear P. revert paths. induction l as [|x r IH]; intros paths E; cbn [group_indices] in E; [injection E as <-; reflexivity|].
    destruct (at_indices ps x); [|discriminate]. cbn [bind] in E.
    destruct (group_indices ps r) as [g|]; [|discriminate]. cbn [bind] in E. injection E as <-.
    specialize (IH g eq_refl). injection IH as IH. cbn [length]. f_equal. lia.
Qed.
End Group.

(** ** Tracking *)
Lemma flag_kept {T} (flag : option T) s : ~ fails_inside s -> fst (render_flag flag s) = flag.
Proof.
  unfold fails_inside, render_flag. destruct s as [b c t r]. cbn.
  destruct b, c, t, r; cbn; intros H; try reflexivity; exfalso; apply H; auto.
Qed.
Lemma flag_lost {T} (flag : option T) s : fails_inside s ->
  fst (render_flag flag s) = None /\ is_ok (snd (render_flag flag s)) = false.
Proof.
  unfold fails_inside, render_flag. destruct s as [b c t r]. cbn. intros [B [C|[C D]]].
  - destruct b; [|discriminate]. destruct c; [discriminate|]. now split.
  - destruct b; [|discriminate]. destruct c; [|now split]. rewrite C. destruct r; [discriminate|]. now split.
Qed.
Lemma flag_returns {T} (flag : option T) s : is_ok (snd (render_flag flag s)) = true -> fst (render_flag flag s) = flag.
Proof. unfold render_flag. destruct s as [b c t r]. cbn. destruct b, c, t, r; cbn; congruence. Qed.
Lemma fails_dec s : {fails_inside s} + {~ fails_inside s}.
Proof.
  unfold fails_inside. destruct s as [b c t r]. cbn.
  destruct b, c, t, r; cbn; (left; split; [reflexivity|]; solve [left; reflexivity|right; split; reflexivity]) ||
    (right; intuition congruence).
Qed.
Lemma flag_history {T} h : forall flag : option T,
  (Forall (fun s => ~ fails_inside s) h -> renders flag h = flag) /\
  (Exists fails_inside h -> renders flag h = None).
Proof.
  assert (N : forall h, @renders T None h = None).
  { induction h0 as [|s r IH]; [reflexivity|]. cbn [renders].
    destruct (fails_dec s) as [F|F]; [rewrite (proj1 (flag_lost None s F))|rewrite (flag_kept None s F)]; exact IH. }
  induction h as [|s r IH]; intros flag; (split; intros H; inversion H; subst).
  - reflexivity.
  - cbn [renders]. rewrite flag_kept by assumption. now apply IH.
  - cbn [renders]. rewrite (proj1 (flag_lost flag s H1)). apply N.
  - cbn [renders]. now apply IH.
Qed.

(** ** Witnesses *)
(** Four points, numbered, and a single red colour. *)
Definition ex_ps : list (nat * Q) := [(0, 1#2); (1, 1#4); (2, 3#4); (3, 1#8)].
Definition red : attr := Row [1; 0; 0; 1]%Z.
Lemma colour_witness : exists (ps : list (nat * Q)) face out, own face 0 = Some [1; 0; 0; 1]%Z /\
  (forall j, own face j = own face 0) /\
  points ex_argsort ps face (Whole 0) (Whole 0) (Whole 1) = Ok out /\
  Forall (fun d => nth 0 (snd d) None <> own face 0) out /\ out <> [].
Proof.
  exists ex_ps, red. eexists. split; [reflexivity|]. split; [reflexivity|]. split; [vm_compute; reflexivity|].
  split; [|discriminate]. repeat constructor; vm_compute; discriminate.
Qed.
Lemma square_witness : exists (ps : list (nat * Q)) color paths, group ps (Uniform 4) = Ok paths /\ length paths = 1 /\
  own color 0 = Some [1; 0; 0; 1]%Z /\ draw_groups ex_argsort ps (Uniform 4) [color] = Err NotImplementedError.
Proof. exists ex_ps, red. eexists. repeat split. Qed.
Lemma pixels_witness : exists (ps : list (nat * Q)) a b, pixels ex_argsort ps None = [(a, []); (b, [])] /\
  exists za zb, In (a, za) ps /\ In (b, zb) ps /\ (za < zb)%Q.
Proof.
  exists [(0, 1#2); (1, 1#4)], 1, 0. split; [vm_compute; reflexivity|]. exists (1#4)%Q, (1#2)%Q.
  split; [right; now left|]. split; [now left|]. reflexivity.
Qed.
Lemma remainder_witness : exists (ps : list nat) paths, group ps (Uniform 2) = Ok paths /\ concat paths <> ps.
Proof. exists [1; 2; 3], [[1; 2]]. split; [reflexivity|discriminate]. Qed.
Definition uint8 (z : Z) : Z := (z mod 256)%Z.
Lemma overflow_witness : exists (ps : list nat) sizes paths, total sizes = length ps /\ Forall (fun s => s < 256) sizes /\
  group ps (Sizes uint8 (map Z.of_nat sizes)) = Ok paths /\ concat paths <> ps.
Proof.
  exists (seq 0 300), [200; 100]. eexists. split; [reflexivity|]. split; [repeat constructor; lia|].
  split; [vm_compute; reflexivity|]. vm_compute. discriminate.
Qed.

(** No positions: nothing is drawn, whatever the attributes. *)
Lemma nothing_drawn {XY S} argsort (shapes : list S) face edge width size : (forall k, length (argsort k) = length k) ->
  points (XY := XY) argsort [] face edge width size = Ok [] /\
  markers (XY := XY) argsort [] shapes face edge width size = Ok [].
Proof.
  intros L. assert (E : argsort [] = []) by (specialize (L []); now destruct (argsort [])).
  unfold points, markers. cbn [map length]. rewrite E.
  destruct size as [l|l|z]; cbn [attach_size length]; try (destruct l; cbn); split; reflexivity.
Qed.
(** Sizes that are an array of another length are refused. *)
Lemma sizes_refused {XY S} argsort (ps : list (XY * Q)) (shapes : list S) face edge width size n : ps <> [] ->
  (exists l, size = Rows l /\ length l = n) \/ (exists l, size = Row l /\ length l = n) -> n <> length ps ->
  points argsort ps face edge width size = Err ValueError /\ markers argsort ps shapes face edge width size = Err ValueError.
Proof.
  intros P H N. unfold points, markers.
  assert (Z : Nat.eqb (length ps) 0 = false) by (destruct ps; [congruence|reflexivity]).
  apply Nat.eqb_neq in N.
  destruct H as [[l [-> <-]]|[l [-> <-]]]; unfold attach_size, vertex in *; cbv zeta; rewrite N, Z; split; reflexivity.
Qed.
