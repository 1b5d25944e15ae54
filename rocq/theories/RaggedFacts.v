(** Proofs about ragged arrays. *)
From Verif Require Import Base Slice SliceFacts Ragged RaggedSpec.
Local Open Scope Z_scope.

Lemma nth_error_ext_len {X} (l l' : list X) : length l = length l' ->
  (forall i x, nth_error l i = Some x -> nth_error l' i = Some x) -> l = l'.
Proof.
  revert l'. induction l as [|x l IH]; intros [|y l'] Hl H; cbn in Hl; try discriminate; auto.
  f_equal; [specialize (H O x eq_refl); cbn in H; congruence|]. apply IH; [lia|]. intros i z Hz. exact (H (S i) z Hz).
Qed.

Lemma map_repeat' {X Y} (f : X -> Y) x n : map f (repeat x n) = repeat (f x) n.
Proof. induction n as [|n IH]; cbn; congruence. Qed.
Lemma skipn_cons {X} (l : list X) i x : nth_error l i = Some x -> skipn i l = x :: skipn (S i) l.
Proof.
  revert i. induction l as [|y l IH]; intros [|i] E; cbn in E; try discriminate.
  - injection E as ->. reflexivity.
  - cbn [skipn]. apply IH in E. rewrite E. reflexivity.
Qed.
Lemma upd_split {X} (l : list X) i x y : nth_error l i = Some y ->
  upd l i x = (firstn i l ++ x :: skipn (S i) l)%list.
Proof.
  revert i. induction l as [|z l IH]; intros [|i] E; cbn in E; try discriminate; [reflexivity|].
  cbn [upd firstn app]. rewrite (IH _ E). reflexivity.
Qed.

Section Facts.
  Context {A : Type}.
  Implicit Types (items : list (list A)) (r : ragged A) (d : list A).

  Definition lens items : list Z := map (fun x => Z.of_nat (length x)) items.
  Definition off items (i : nat) : nat := length (concat (firstn i items)).

  (** ** Offsets *)
  Lemma cumsum_nth l : forall acc i x, nth_error l i = Some x ->
    nth_error (cumsum acc l) i = Some (acc + zsum (firstn (S i) l)).
  Proof.
    induction l as [|y l IH]; intros acc [|i] x H; cbn in H; try discriminate.
    - injection H as ->. cbn. f_equal. lia.
    - change (nth_error (cumsum (acc + y) l) i = Some (acc + zsum (firstn (S (S i)) (y :: l)))).
      rewrite (IH _ _ _ H). change (firstn (S (S i)) (y :: l)) with (y :: firstn (S i) l).
      change (zsum (y :: firstn (S i) l)) with (y + zsum (firstn (S i) l)). f_equal. lia.
  Qed.
  Lemma cumsum_length l : forall acc, length (cumsum acc l) = length l.
  Proof. induction l as [|x l IH]; intros acc; cbn; auto. Qed.
  Lemma zsum_lens items : zsum (lens items) = Z.of_nat (length (concat items)).
  Proof.
    induction items as [|x l IH]; [reflexivity|]. cbn [lens map concat]. fold (lens l).
    change (zsum (Z.of_nat (length x) :: lens l)) with (Z.of_nat (length x) + zsum (lens l)).
    rewrite IH, app_length. lia.
  Qed.
  Lemma firstn_lens i items : firstn i (lens items) = lens (firstn i items).
  Proof. apply firstn_map. Qed.

  Lemma combine_nth_error {X Y} (l : list X) (l' : list Y) i x y :
    nth_error l i = Some x -> nth_error l' i = Some y -> nth_error (combine l l') i = Some (x, y).
  Proof.
    revert l' i. induction l as [|a l IH]; intros [|b l'] [|i] H H'; cbn in *; try discriminate; auto; congruence.
  Qed.

  Lemma items_nth items i x : nth_error items i = Some x ->
    nth_error (items_of (lens items)) i = Some (Z.of_nat (off items i), Z.of_nat (off items (S i))).
  Proof.
    intros H. unfold items_of. cbn zeta.
    assert (Hl : (i < length items)%nat) by (apply nth_error_Some; congruence).
    assert (Hc : forall j, (j < length items)%nat -> nth_error (cumsum 0 (lens items)) j = Some (Z.of_nat (off items (S j)))).
    { intros j Hj. destruct (nth_error (lens items) j) as [z|] eqn:E.
      - rewrite (cumsum_nth _ _ _ _ E), firstn_lens, zsum_lens. unfold off. f_equal.
      - apply nth_error_None in E. unfold lens in E. rewrite map_length in E. lia. }
    apply combine_nth_error; [|apply Hc, Hl].
    destruct i as [|i]; [reflexivity|]. cbn [nth_error]. apply Hc. lia.
  Qed.
  Lemma items_of_length sizes : length (items_of sizes) = length sizes.
  Proof.
    unfold items_of. cbn zeta. rewrite combine_length. cbn [length]. rewrite cumsum_length. lia.
  Qed.

  Lemma off_S items i x : nth_error items i = Some x -> off items (S i) = (off items i + length x)%nat.
  Proof.
    unfold off. revert i. induction items as [|y l IH]; intros [|i] H; cbn [nth_error] in H; try discriminate.
    - injection H as ->. cbn. rewrite app_length. cbn. lia.
    - change (firstn (S (S i)) (y :: l)) with (y :: firstn (S i) l). change (firstn (S i) (y :: l)) with (y :: firstn i l).
      cbn [concat]. rewrite !app_length, (IH _ H). lia.
  Qed.
  Lemma off_mono items i j : (i <= j)%nat -> (off items i <= off items j)%nat.
  Proof.
    intros H. unfold off. rewrite <- (firstn_skipn i (firstn j items)), firstn_firstn, Nat.min_l by assumption.
    rewrite concat_app, app_length. lia.
  Qed.
  Lemma off_le items i : (off items i <= length (concat items))%nat.
  Proof.
    unfold off. rewrite <- (firstn_skipn i items) at 2. rewrite concat_app, app_length. lia.
  Qed.
  (** The data between two offsets. *)
  Lemma between items i j : (i <= j)%nat ->
    firstn (off items j - off items i) (skipn (off items i) (concat items)) = concat (firstn (j - i) (skipn i items)).
  Proof.
    intros H.
    assert (E : concat items = (concat (firstn i items) ++ concat (firstn (j - i) (skipn i items)) ++ concat (skipn (j - i) (skipn i items)))%list).
    { rewrite <- concat_app, firstn_skipn, <- concat_app, firstn_skipn. reflexivity. }
    assert (Ho : off items j = (off items i + length (concat (firstn (j - i) (skipn i items))))%nat).
    { unfold off. rewrite <- app_length, <- concat_app. do 3 f_equal.
      rewrite <- (firstn_skipn i (firstn j items)), firstn_firstn, Nat.min_l by assumption. f_equal.
      rewrite firstn_skipn_comm. replace (i + (j - i))%nat with j by lia. reflexivity. }
    rewrite Ho, E.
    replace (off items i + length (concat (firstn (j - i) (skipn i items))) - off items i)%nat
      with (length (concat (firstn (j - i) (skipn i items)))) by lia.
    unfold off at 1. rewrite skipn_app, skipn_all, Nat.sub_diag. cbn [app skipn].
    rewrite firstn_app, firstn_all, Nat.sub_diag. cbn [firstn]. apply app_nil_r.
  Qed.

  (** ** Representation *)
  Definition repr r items : Prop := ritems r = items_of (lens items) /\ rdata r = concat items.

  Lemma row_repr r items i x : repr r items -> nth_error items i = Some x ->
    row r (Z.of_nat i) = Ok (Z.of_nat (off items i), Z.of_nat (off items (S i))) /\
    row r (Z.of_nat i - Z.of_nat (length items)) = Ok (Z.of_nat (off items i), Z.of_nat (off items (S i))).
  Proof.
    intros [H1 H2] Hx. assert (Hl : (i < length items)%nat) by (apply nth_error_Some; congruence).
    assert (Hn : rlen r = Z.of_nat (length items)).
    { unfold rlen. rewrite H1, items_of_length. unfold lens. now rewrite map_length. }
    unfold row. rewrite Hn. rewrite norm_index_range by lia. rewrite norm_index_neg by lia.
    replace (Z.to_nat (Z.of_nat i)) with i by lia.
    replace (Z.to_nat (Z.of_nat i - Z.of_nat (length items) + Z.of_nat (length items))) with i by lia.
    rewrite H1, (items_nth _ _ _ Hx). auto.
  Qed.
  Lemma bounds_one a b : a <= b -> bounds [(a, b)] = Ok (a, b).
  Proof. intros H. cbn. f_equal. f_equal; lia. Qed.

  Lemma get_int r items p i x : repr r items -> nth_error items i = Some x ->
    row r p = Ok (Z.of_nat (off items i), Z.of_nat (off items (S i))) -> get r (KInt p) = Ok x.
  Proof.
    intros [H1 H2] Hx Hr. unfold get, key_bounds. rewrite Hr. cbn [bind].
    rewrite bounds_one by (pose proof (off_mono items i (S i)); lia). cbn [bind fst snd].
    pose proof (off_le items (S i)). rewrite H2, range_eq by (pose proof (off_mono items i (S i)); lia).
    rewrite between by lia. replace (S i - i)%nat with 1%nat by lia.
    assert (Hs : skipn i items = x :: skipn (S i) items).
    { clear - Hx. revert i Hx. induction items as [|y l IH]; intros [|i] E; cbn in E; try discriminate.
      - injection E as ->. reflexivity.
      - cbn [skipn]. apply IH in E. rewrite E. reflexivity. }
    rewrite Hs. cbn. now rewrite app_nil_r.
  Qed.

  Lemma repr_shows r items : repr r items -> shows r items.
  Proof.
    intros Hr. assert (H := Hr). destruct H as [H1 H2].
    assert (Hn : rlen r = Z.of_nat (length items)).
    { unfold rlen. rewrite H1, items_of_length. unfold lens. now rewrite map_length. }
    split; [exact Hn|]. split.
    { unfold itemsizes. rewrite H1. apply nth_ext with (d := 0) (d' := 0).
      - rewrite !map_length, items_of_length. unfold lens. now rewrite map_length.
      - intros i Hi. rewrite map_length, items_of_length in Hi. unfold lens in Hi. rewrite map_length in Hi.
        destruct (nth_error items i) as [x|] eqn:E; [|apply nth_error_None in E; lia].
        rewrite (nth_error_nth (map _ _) i 0 (x := Z.of_nat (off items (S i)) - Z.of_nat (off items i))).
        + erewrite (nth_error_nth (map _ items) i 0 (x := Z.of_nat (length x))).
          * rewrite (off_S _ _ _ E). lia.
          * rewrite nth_error_map, E. reflexivity.
        + rewrite nth_error_map, (items_nth _ _ _ E). reflexivity. }
    split; [exact H2|]. split.
    - intros i x Hx. destruct (row_repr r items i x Hr Hx) as [R1 R2]. split; eapply get_int; eauto.
    - intros i Hi. unfold get, key_bounds, row. rewrite Hn.
      assert (norm_index (Z.of_nat (length items)) i = None) as -> by (now apply norm_index_none). reflexivity.
  Qed.

  (** ** Building *)
  Fixpoint chunks (ns : list nat) (l : list A) : list (list A) :=
    match ns with [] => [] | n :: r => firstn n l :: chunks r (skipn n l) end.
  Lemma chunks_spec ns : forall l, list_sum ns = length l ->
    concat (chunks ns l) = l /\ map (@length A) (chunks ns l) = ns.
  Proof.
    induction ns as [|n ns IH]; intros l H; cbn [chunks concat map].
    - cbn in H. destruct l; [split; reflexivity | discriminate].
    - change (list_sum (n :: ns)) with (n + list_sum ns)%nat in H.
      destruct (IH (skipn n l)) as [E1 E2]; [rewrite skipn_length; lia|].
      rewrite E1, firstn_skipn, E2. split; auto. f_equal. rewrite firstn_length. lia.
  Qed.
  Lemma lens_of_length items ns : map (@length A) items = ns -> lens items = map Z.of_nat ns.
  Proof. intros <-. unfold lens. now rewrite map_map. Qed.

  Lemma zsum_nonneg_nat l : (forall z, In z l -> 0 <= z) ->
    exists ns, l = map Z.of_nat ns /\ zsum l = Z.of_nat (list_sum ns).
  Proof.
    induction l as [|z l IH]; intros H; [exists []; split; reflexivity|].
    destruct IH as (ns & -> & E); [intros; apply H; now right|].
    exists (Z.to_nat z :: ns). assert (0 <= z) by (apply H; now left). split.
    - cbn [map]. f_equal. lia.
    - change (zsum (z :: map Z.of_nat ns)) with (z + zsum (map Z.of_nat ns)). rewrite E.
      change (list_sum (Z.to_nat z :: ns)) with (Z.to_nat z + list_sum ns)%nat. lia.
  Qed.

  Lemma repr_sizes d ns : list_sum ns = length d ->
    repr (mkRag d (items_of (map Z.of_nat ns))) (chunks ns d).
  Proof.
    intros H. destruct (chunks_spec ns d H) as [E1 E2]. split; cbn; [|auto]. now rewrite (lens_of_length _ _ E2).
  Qed.

  (** Accepted exactly when the sizes add up. *)
  Lemma init_sizes_ok d b sizes : (forall z, In z sizes -> 0 <= z) -> (sizes <> [] \/ b = true) ->
    zsum sizes = Z.of_nat (length d) ->
    exists r items, init_sizes d b sizes = Ok r /\ repr r items /\ lens items = sizes /\ concat items = d.
  Proof.
    intros Hz Hb Hs. destruct (zsum_nonneg_nat sizes Hz) as (ns & -> & E).
    assert (Hns : list_sum ns = length d) by lia.
    exists (mkRag d (items_of (map Z.of_nat ns))), (chunks ns d).
    split; [|split; [now apply repr_sizes|]].
    - unfold init_sizes. rewrite Hs, Z.eqb_refl. cbn [negb]. destruct ns as [|n ns]; [|reflexivity].
      destruct Hb as [Hb| ->]; [now contradiction Hb | reflexivity].
    - destruct (chunks_spec ns d Hns) as [E1 E2]. split; auto. now apply lens_of_length.
  Qed.
  Lemma init_sizes_bad d b sizes : zsum sizes <> Z.of_nat (length d) -> init_sizes d b sizes = Err ValueError.
  Proof. intros H. unfold init_sizes. apply Z.eqb_neq in H. now rewrite H. Qed.

  Lemma zsum_repeat n k : zsum (repeat n k) = Z.of_nat k * n.
  Proof.
    induction k as [|k IH]; [reflexivity|]. cbn [repeat].
    change (zsum (n :: repeat n k)) with (n + zsum (repeat n k)). lia.
  Qed.
  Lemma init_int_ok d n : 0 < n -> (0 < length d)%nat -> (n | Z.of_nat (length d)) ->
    exists r items, init_int d n = Ok r /\ repr r items /\ concat items = d /\
      lens items = repeat n (Z.to_nat (Z.of_nat (length d) / n)).
  Proof.
    intros Hn Hd [c Hc]. assert (0 < c) by nia.
    assert (Hdiv : Z.of_nat (length d) / n = c) by (rewrite Hc; apply Z.div_mul; lia).
    assert (Hq : Z.of_nat (length d) / c = n) by (rewrite Hc, Z.mul_comm; apply Z.div_mul; lia).
    destruct (init_sizes_ok d true (repeat n (Z.to_nat c))) as (r & items & Hr & Hrep & Hl & Hcat).
    { intros z Hz. apply repeat_spec in Hz. lia. }
    { now right. }
    { rewrite zsum_repeat, Z2Nat.id by lia. lia. }
    exists r, items. rewrite Hdiv. split; [|split; [exact Hrep|split; [exact Hcat|exact Hl]]].
    unfold init_int. assert ((n =? 0) = false) as -> by (apply Z.eqb_neq; lia).
    rewrite Hc, Z.mod_mul by lia. cbn [Z.eqb negb]. rewrite <- Hc, Hdiv, Hq.
    assert ((c <? 0) = false) as -> by (apply Z.ltb_ge; lia). assert ((c =? 0) = false) as -> by (apply Z.eqb_neq; lia).
    unfold init_sizes in Hr. rewrite zsum_repeat, Z2Nat.id in Hr by lia.
    replace (c * n) with (Z.of_nat (length d)) in Hr by lia. rewrite Z.eqb_refl in Hr. cbn [negb] in Hr.
    destruct (repeat n (Z.to_nat c)) eqn:E.
    - exfalso. apply (f_equal (@length Z)) in E. rewrite repeat_length in E. cbn in E. lia.
    - exact Hr.
  Qed.
  Lemma init_int_bad d n : n <> 0 -> ~ (n | Z.of_nat (length d)) -> init_int d n = Err ValueError.
  Proof.
    intros Hn Hd. unfold init_int. apply Z.eqb_neq in Hn as Hn'. rewrite Hn'.
    destruct (Z.eqb_spec (Z.of_nat (length d) mod n) 0) as [E|E]; [|reflexivity].
    exfalso. apply Hd. now apply Z.mod_divide.
  Qed.
  Lemma init_nested l : l <> [] -> exists r s, init (Nested l) s = Ok r /\ repr r l.
  Proof.
    intros Hl. assert (H : init_sizes (concat l) true (lens l) = Ok (mkRag (concat l) (items_of (lens l)))).
    { unfold init_sizes. rewrite zsum_lens, Z.eqb_refl. cbn [negb]. destruct l; [congruence | reflexivity]. }
    exists (mkRag (concat l) (items_of (lens l))), INone. split; [|split; reflexivity].
    destruct l; [congruence|]. exact H.
  Qed.
  Lemma init_nested_any l s : l <> [] -> exists r, init (Nested l) s = Ok r /\ repr r l.
  Proof.
    intros Hl. destruct (init_nested l Hl) as (r & s' & H & Hr). exists r. split; [|exact Hr].
    destruct l; [congruence | exact H].
  Qed.

  (** Everything built with non-negative sizes is a list of lists. *)
  Lemma init_sizes_repr d b l r : (forall z, In z l -> 0 <= z) -> init_sizes d b l = Ok r -> exists items, repr r items.
  Proof.
    intros Hz. unfold init_sizes. destruct (Z.eqb_spec (zsum l) (Z.of_nat (length d))) as [E|]; [|discriminate].
    cbn [negb]. destruct (zsum_nonneg_nat l Hz) as (ns & Hl & Es). intros H.
    assert (r = mkRag d (items_of l)) as ->.
    { destruct l; [destruct b; [|discriminate]|]; injection H as <-; reflexivity. }
    exists (chunks ns d). rewrite Hl. apply repr_sizes. lia.
  Qed.
  Lemma init_repr (d : idata A) s r : good_sizes s -> init d s = Ok r -> exists items, repr r items.
  Proof.
    intros Hs H.
    assert (Hint : forall d n, init_int d n = Ok r -> exists items, repr r items).
    { clear. intros d n H. unfold init_int in H.
      destruct (Z.eqb_spec n 0); [discriminate|]. destruct (Z.eqb_spec (Z.of_nat (length d) mod n) 0) as [E|]; [|discriminate].
      cbn [negb] in H. destruct (Z.ltb_spec (Z.of_nat (length d) / n) 0); [discriminate|].
      destruct (Z.eqb_spec (Z.of_nat (length d) / n) 0); [discriminate|]. injection H as <-.
      set (c := Z.of_nat (length d) / n) in *. assert (Hc : Z.of_nat (length d) = n * c).
      { unfold c. now apply Z_div_exact_full_2. }
      assert (Hq : Z.of_nat (length d) / c = n) by (rewrite Hc; apply Z.div_mul; lia). rewrite Hq.
      exists (chunks (repeat (Z.to_nat n) (Z.to_nat c)) d).
      replace (repeat n (Z.to_nat c)) with (map Z.of_nat (repeat (Z.to_nat n) (Z.to_nat c))).
      - apply repr_sizes. assert (0 <= n) by nia.
        assert (G : forall k m, list_sum (repeat m k) = (k * m)%nat).
        { induction k as [|k IH]; intros m; [reflexivity|]. cbn [repeat].
          change (list_sum (m :: repeat m k)) with (m + list_sum (repeat m k))%nat. rewrite IH. lia. }
        rewrite G. nia.
      - assert (0 <= n) by nia. rewrite map_repeat'. f_equal. lia. }
    destruct d as [d|[|x l]]; cbn [init] in H.
    - destruct s; eauto. eapply init_sizes_repr; eauto.
    - discriminate.
    - eapply init_sizes_repr; [|exact H]. intros z Hz. change (In z (lens (x :: l))) in Hz.
      unfold lens in Hz. apply in_map_iff in Hz as (y & <- & _). lia.
  Qed.

  (** ** Writing *)
  Lemma broadcast_length n (v : aval A) w : broadcast n v = Ok w -> length w = n.
  Proof.
    destruct v as [x|l]; cbn [broadcast]; [intros H; injection H as <-; apply repeat_length|].
    destruct (Nat.eqb_spec (length l) n) as [E|]; [intros H; injection H as <-; exact E|].
    destruct l as [|x [|y l]]; try discriminate. intros H; injection H as <-. apply repeat_length.
  Qed.
  Lemma broadcast_spread n (v : aval A) w : broadcast n v = Ok w <-> spread n v w.
  Proof.
    split.
    - destruct v as [x|l]; cbn [broadcast]; [intros H; injection H as <-; constructor|].
      destruct (Nat.eqb_spec (length l) n) as [E|]; [intros H; injection H as <-; now constructor|].
      destruct l as [|x [|y l]]; try discriminate. intros H; injection H as <-. constructor.
    - intros H. destruct H as [x|l Hl|x]; cbn [broadcast].
      + reflexivity.
      + apply Nat.eqb_eq in Hl. now rewrite Hl.
      + destruct (Nat.eqb_spec (length [x]) n) as [<-|]; reflexivity.
  Qed.
  Lemma upd_len {X} (l : list X) i x : length (upd l i x) = length l.
  Proof. apply upd_length. Qed.
  Lemma set_all_length l : forall (d d' : list A), set_all d l = Ok d' -> length d' = length d.
  Proof.
    induction l as [|[i x] l IH]; intros d d' H; cbn [set_all] in H; [congruence|].
    destruct (norm_index _ i); [|discriminate]. apply IH in H. now rewrite H, upd_len.
  Qed.
  Lemma set_range_length (d : list A) a b v d' : set_range d a b v = Ok d' -> length d' = length d.
  Proof.
    unfold set_range. set (n := Z.of_nat (length d)). set (a' := clamp 0 n (shift n a)). set (b' := clamp 0 n (shift n b)).
    destruct (broadcast (Z.to_nat (b' - a')) v) as [w|] eqn:E; [|discriminate]. cbn [bind]. intros H. injection H as <-.
    apply broadcast_length in E. rewrite !app_length, firstn_length, skipn_length, E.
    assert (0 <= a' <= n) by (unfold a', clamp; lia). assert (0 <= b' <= n) by (unfold b', clamp; lia). lia.
  Qed.
  Lemma set_frame r k v r' : set r k v = Ok r' -> ritems r' = ritems r /\ length (rdata r') = length (rdata r).
  Proof.
    unfold set. destruct k as [i|l|a b c].
    - destruct (key_bounds r (KInt i)) as [p|]; [|discriminate]. cbn [bind].
      destruct (set_range _ _ _ v) as [d|] eqn:E; [|discriminate]. intros H. injection H as <-. cbn.
      split; auto. now apply set_range_length in E.
    - destruct (indices r l) as [idx|]; [|discriminate]. cbn [bind].
      destruct (broadcast _ v) as [w|]; [|discriminate]. cbn [bind].
      destruct (set_all _ _) as [d|] eqn:E; [|discriminate]. intros H. injection H as <-. cbn.
      split; auto. now apply set_all_length in E.
    - destruct (key_bounds r (KSlice a b c)) as [p|]; [|discriminate]. cbn [bind].
      destruct (set_range _ _ _ v) as [d|] eqn:E; [|discriminate]. intros H. injection H as <-. cbn.
      split; auto. now apply set_range_length in E.
  Qed.
  Lemma list_sum_lens items : list_sum (map (@length A) items) = length (concat items).
  Proof. induction items as [|x l IH]; [reflexivity|]. cbn [map concat]. rewrite app_length, <- IH. reflexivity. Qed.
  Lemma repr_resize r items r' : repr r items -> ritems r' = ritems r -> length (rdata r') = length (rdata r) ->
    exists items', repr r' items' /\ map (@length A) items' = map (@length A) items.
  Proof.
    intros [H1 H2] Hi Hl.
    assert (Hs : list_sum (map (@length A) items) = length (rdata r')) by (rewrite list_sum_lens, Hl, H2; reflexivity).
    exists (chunks (map (@length A) items) (rdata r')). destruct (chunks_spec _ _ Hs) as [E1 E2].
    split; auto. split; [|auto]. rewrite Hi, H1, (lens_of_length _ _ E2). unfold lens. now rewrite map_map.
  Qed.
  Lemma reachable_repr r : reachable r -> exists items, repr r items.
  Proof.
    induction 1 as [d s r Hs H|r k v r' _ [items IH] H]; [eapply init_repr; eauto|].
    apply set_frame in H as [H1 H2]. destruct (repr_resize r items r' IH H1 H2) as (items' & H' & _). eauto.
  Qed.
  Lemma shows_unique r items items' : shows r items -> shows r items' -> items = items'.
  Proof.
    intros (H1 & _ & _ & H2 & _) (H1' & _ & _ & H2' & _). assert (Hl : length items = length items') by lia.
    apply nth_error_ext_len; auto. intros i x Hx.
    destruct (nth_error items' i) as [y|] eqn:E.
    - apply H2 in Hx as [Hx _]. apply H2' in E as [E _]. congruence.
    - apply nth_error_None in E. assert (i < length items)%nat by (apply nth_error_Some; congruence). lia.
  Qed.

  (** Writing between two offsets. *)
  Lemma set_between items i j (v : aval A) w : (i <= j <= length items)%nat ->
    broadcast (off items j - off items i) v = Ok w ->
    set_range (concat items) (Z.of_nat (off items i)) (Z.of_nat (off items j)) v =
      Ok (concat (firstn i items) ++ w ++ concat (skipn j items))%list.
  Proof.
    intros Hij Hw. pose proof (off_mono items i j ltac:(lia)). pose proof (off_le items j).
    unfold set_range. set (n := Z.of_nat (length (concat items))).
    assert (clamp 0 n (shift n (Z.of_nat (off items i))) = Z.of_nat (off items i)) as ->.
    { unfold clamp, shift. destruct (Z.ltb_spec (Z.of_nat (off items i)) 0); lia. }
    assert (clamp 0 n (shift n (Z.of_nat (off items j))) = Z.of_nat (off items j)) as ->.
    { unfold clamp, shift. destruct (Z.ltb_spec (Z.of_nat (off items j)) 0); lia. }
    replace (Z.to_nat (Z.of_nat (off items j) - Z.of_nat (off items i))) with (off items j - off items i)%nat by lia.
    rewrite Hw. cbn [bind]. rewrite Nat2Z.id. f_equal.
    assert (E1 : firstn (off items i) (concat items) = concat (firstn i items)).
    { unfold off. rewrite <- (firstn_skipn i items) at 2. rewrite concat_app, firstn_app, firstn_all, Nat.sub_diag.
      cbn. apply app_nil_r. }
    assert (E2 : skipn (off items j) (concat items) = concat (skipn j items)).
    { unfold off. rewrite <- (firstn_skipn j items) at 2. rewrite concat_app, skipn_app, skipn_all, Nat.sub_diag.
      reflexivity. }
    replace (off items i + (off items j - off items i))%nat with (off items j) by lia. congruence.
  Qed.
  Lemma set_between_err items i j (v : aval A) e : (i <= j <= length items)%nat ->
    broadcast (off items j - off items i) v = Err e ->
    set_range (concat items) (Z.of_nat (off items i)) (Z.of_nat (off items j)) v = Err e.
  Proof.
    intros Hij Hw. pose proof (off_mono items i j ltac:(lia)). pose proof (off_le items j).
    unfold set_range. set (n := Z.of_nat (length (concat items))).
    assert (clamp 0 n (shift n (Z.of_nat (off items i))) = Z.of_nat (off items i)) as ->.
    { unfold clamp, shift. destruct (Z.ltb_spec (Z.of_nat (off items i)) 0); lia. }
    assert (clamp 0 n (shift n (Z.of_nat (off items j))) = Z.of_nat (off items j)) as ->.
    { unfold clamp, shift. destruct (Z.ltb_spec (Z.of_nat (off items j)) 0); lia. }
    replace (Z.to_nat (Z.of_nat (off items j) - Z.of_nat (off items i))) with (off items j - off items i)%nat by lia.
    now rewrite Hw.
  Qed.

  Lemma broadcast_cases n (v : aval A) :
    (exists w, broadcast n v = Ok w) \/ (broadcast n v = Err ValueError /\ forall w, ~ spread n v w).
  Proof.
    destruct (broadcast n v) as [w|e] eqn:E; [eauto|]. right. split.
    - destruct v as [x|l]; cbn [broadcast] in E; [discriminate|].
      destruct (Nat.eqb (length l) n); [discriminate|]. destruct l as [|x [|y l]]; congruence.
    - intros w Hw. apply broadcast_spread in Hw. congruence.
  Qed.

  Lemma set_int r items p i x (v : aval A) : repr r items -> nth_error items i = Some x -> names items p i ->
    (forall w, spread (length x) v w -> exists r', set r (KInt p) v = Ok r' /\ repr r' (upd items i w)) /\
    ((forall w, ~ spread (length x) v w) -> set r (KInt p) v = Err ValueError).
  Proof.
    intros Hr Hx Hp. destruct (row_repr r items i x Hr Hx) as [R1 R2].
    assert (Hrow : row r p = Ok (Z.of_nat (off items i), Z.of_nat (off items (S i)))) by (destruct Hp as [-> | ->]; auto).
    assert (Hl : (i < length items)%nat) by (apply nth_error_Some; congruence).
    assert (Ho : (off items (S i) - off items i = length x)%nat) by (rewrite (off_S _ _ _ Hx); lia).
    assert (Hb : key_bounds r (KInt p) = Ok (Z.of_nat (off items i), Z.of_nat (off items (S i)))).
    { unfold key_bounds. rewrite Hrow. cbn [bind]. apply bounds_one. pose proof (off_mono items i (S i)). lia. }
    destruct Hr as [H1 H2]. split.
    - intros w Hw. apply broadcast_spread in Hw as Hw'. rewrite <- Ho in Hw'.
      unfold set. rewrite Hb. cbn [bind fst snd]. rewrite H2, (set_between items i (S i) v w) by (auto; lia).
      cbn [bind]. eexists. split; [reflexivity|]. apply broadcast_length in Hw'. split; cbn [ritems rdata].
      + rewrite H1. f_equal. unfold lens. rewrite (upd_split items i w x Hx).
        rewrite <- (firstn_skipn i items) at 1. rewrite (skipn_cons _ _ _ Hx), !map_app. cbn [map]. do 3 f_equal. lia.
      + rewrite (upd_split items i w x Hx), concat_app. reflexivity.
    - intros Hno. destruct (broadcast_cases (off items (S i) - off items i) v) as [[w Hw]|[He _]].
      + exfalso. rewrite Ho in Hw. apply broadcast_spread in Hw. exact (Hno w Hw).
      + unfold set. rewrite Hb. cbn [bind fst snd]. rewrite H2, (set_between_err items i (S i) v ValueError) by (auto; lia). reflexivity.
  Qed.
  Lemma set_int_out r items p (v : aval A) : repr r items ->
    (p < - Z.of_nat (length items) \/ Z.of_nat (length items) <= p) -> set r (KInt p) v = Err IndexError.
  Proof.
    intros Hr Hp. assert (Hn : rlen r = Z.of_nat (length items)) by apply (repr_shows r items Hr).
    unfold set, key_bounds, row. rewrite Hn.
    assert (norm_index (Z.of_nat (length items)) p = None) as -> by (now apply norm_index_none). reflexivity.
  Qed.

  (** ** Slices *)
  Lemma pick_map {X Y} (f : X -> Y) (l : list X) idx : pick (map f l) idx = map f (pick l idx).
  Proof.
    unfold pick. induction idx as [|i idx IH]; cbn [flat_map]; auto.
    rewrite nth_error_map, IH, map_app. destruct (nth_error l i); reflexivity.
  Qed.
  Definition extent items (i : nat) : Z * Z := (Z.of_nat (off items i), Z.of_nat (off items (S i))).
  Lemma pick_rows items idx : (forall i, In i idx -> (i < length items)%nat) ->
    pick (items_of (lens items)) idx = map (extent items) idx.
  Proof.
    induction idx as [|i idx IH]; intros H; [reflexivity|].
    change (i :: idx) with ([i] ++ idx)%list. rewrite pick_app, IH by (intros; apply H; now right).
    destruct (nth_error items i) as [x|] eqn:E.
    - cbn [pick flat_map]. rewrite (items_nth _ _ _ E). reflexivity.
    - apply nth_error_None in E. specialize (H i (or_introl eq_refl)). lia.
  Qed.

  (** Indices selected by a slice are valid. *)
  Lemma slice_valid n a b c i : 0 <= n -> c <> 0 -> In i (slice_indices n a b c) -> Z.of_nat i < n.
  Proof.
    intros Hn Hc. unfold slice_indices. rewrite in_map_iff. intros (k & <- & Hk). apply in_seq in Hk.
    revert Hk. unfold slice_count.
    destruct (Z.ltb_spec c 0) as [Hneg|Hpos].
    - assert (Hs : slice_start n c a <= n - 1 /\ -1 <= slice_stop n c b).
      { split.
        - destruct a; cbn; destruct (Z.ltb_spec c 0); unfold clamp; lia.
        - destruct b; cbn; destruct (Z.ltb_spec c 0); unfold clamp; lia. }
      destruct (Z.ltb_spec (slice_stop n c b) (slice_start n c a)); [|cbn; lia].
      intros Hk. assert (Hk' : Z.of_nat k <= (slice_start n c a - slice_stop n c b - 1) / - c) by lia.
      assert (- c * Z.of_nat k <= slice_start n c a - slice_stop n c b - 1).
      { etransitivity; [apply Z.mul_le_mono_nonneg_l; [lia | exact Hk'] | apply Z.mul_div_le; lia]. }
      nia.
    - assert (Hs : 0 <= slice_start n c a /\ slice_stop n c b <= n).
      { split.
        - destruct a; cbn; destruct (Z.ltb_spec c 0); unfold clamp; lia.
        - destruct b; cbn; destruct (Z.ltb_spec c 0); unfold clamp; lia. }
      destruct (Z.ltb_spec (slice_start n c a) (slice_stop n c b)); [|cbn; lia].
      intros Hk. assert (Hk' : Z.of_nat k <= (slice_stop n c b - slice_start n c a - 1) / c) by lia.
      assert (c * Z.of_nat k <= slice_stop n c b - slice_start n c a - 1).
      { etransitivity; [apply Z.mul_le_mono_nonneg_l; [lia | exact Hk'] | apply Z.mul_div_le; lia]. }
      nia.
  Qed.

  Lemma fold_min_spec l : forall x, let m := fold_left Z.min l x in
    (m = x \/ In m l) /\ m <= x /\ forall y, In y l -> m <= y.
  Proof.
    induction l as [|y l IH]; intros x; cbn [fold_left]; [cbn; intuition lia|].
    destruct (IH (Z.min x y)) as (H1 & H2 & H3). cbn zeta in *. set (m := fold_left Z.min l (Z.min x y)) in *. split; [|split].
    - destruct H1 as [H1|H1]; [|now right; right]. destruct (Z.min_spec x y) as [[_ E]|[_ E]]; rewrite E in H1; auto. right. now left.
    - lia.
    - intros z [<-|Hz]; [lia | auto].
  Qed.
  Lemma fold_max_spec l : forall x, let m := fold_left Z.max l x in
    (m = x \/ In m l) /\ x <= m /\ forall y, In y l -> y <= m.
  Proof.
    induction l as [|y l IH]; intros x; cbn [fold_left]; [cbn; intuition lia|].
    destruct (IH (Z.max x y)) as (H1 & H2 & H3). cbn zeta in *. set (m := fold_left Z.max l (Z.max x y)) in *. split; [|split].
    - destruct H1 as [H1|H1]; [|now right; right]. destruct (Z.max_spec x y) as [[_ E]|[_ E]]; rewrite E in H1; auto. right. now left.
    - lia.
    - intros z [<-|Hz]; [lia | auto].
  Qed.

  Lemma bounds_idx items idx lo hi : idx <> [] -> In lo idx -> In hi idx ->
    (forall i, In i idx -> (lo <= i <= hi)%nat) ->
    bounds (map (extent items) idx) = Ok (Z.of_nat (off items lo), Z.of_nat (off items (S hi))).
  Proof.
    intros Hne Hlo Hhi Hall. unfold bounds.
    assert (Hin : forall z, In z (flat_map (fun p : Z * Z => [fst p; snd p]) (map (extent items) idx)) <->
              exists i, In i idx /\ (z = Z.of_nat (off items i) \/ z = Z.of_nat (off items (S i)))).
    { intros z. rewrite in_flat_map. split.
      - intros (p & Hp & Hz). apply in_map_iff in Hp as (i & <- & Hi). exists i. cbn in Hz. intuition.
      - intros (i & Hi & Hz). exists (extent items i). split; [now apply in_map|]. cbn. intuition. }
    destruct (flat_map _ _) as [|x l] eqn:E.
    - exfalso. destruct idx as [|i idx]; [congruence | discriminate].
    - destruct (fold_min_spec l x) as (M1 & M2 & M3). destruct (fold_max_spec l x) as (N1 & N2 & N3). cbn zeta in *.
      f_equal. f_equal; apply Z.le_antisymm.
      + assert (H : In (Z.of_nat (off items lo)) (x :: l)) by (apply Hin; eauto). destruct H as [H|H]; [lia | auto].
      + assert (H : In (fold_left Z.min l x) (x :: l)) by (destruct M1 as [M1|M1]; [left; auto | now right]).
        apply Hin in H as (i & Hi & Hz). specialize (Hall i Hi).
        pose proof (off_mono items lo i ltac:(lia)). pose proof (off_mono items lo (S i) ltac:(lia)). lia.
      + assert (H : In (fold_left Z.max l x) (x :: l)) by (destruct N1 as [N1|N1]; [left; auto | now right]).
        apply Hin in H as (i & Hi & Hz). specialize (Hall i Hi).
        pose proof (off_mono items i (S hi) ltac:(lia)). pose proof (off_mono items (S i) (S hi) ltac:(lia)). lia.
      + assert (H : In (Z.of_nat (off items (S hi))) (x :: l)) by (apply Hin; eauto). destruct H as [H|H]; [lia | auto].
  Qed.

  Lemma slice_rows r items a b c : repr r items -> c <> 0 ->
    get_slice (ritems r) a b c = Ok (map (extent items) (slice_indices (Z.of_nat (length items)) a b c)).
  Proof.
    intros [H1 _] Hc. unfold get_slice. apply Z.eqb_neq in Hc as Hc'. rewrite Hc'. f_equal.
    rewrite H1, items_of_length. unfold lens at 2. rewrite map_length. apply pick_rows.
    intros i Hi. apply slice_valid in Hi; lia.
  Qed.

  (** Any slice gives the contiguous data from its lowest to its highest item. *)
  Lemma get_slice_exact r items a b c lo hi : repr r items -> c <> 0 ->
    let idx := slice_indices (Z.of_nat (length items)) a b c in
    In lo idx -> In hi idx -> (forall i, In i idx -> (lo <= i <= hi)%nat) ->
    get r (KSlice a b c) = Ok (concat (firstn (S hi - lo) (skipn lo items))).
  Proof.
    intros Hr Hc idx Hlo Hhi Hall. unfold get, key_bounds. rewrite (slice_rows r items a b c Hr Hc). cbn [bind].
    fold idx. rewrite (bounds_idx items idx lo hi) by (auto; intros E; rewrite E in Hlo; exact Hlo).
    cbn [bind fst snd]. destruct Hr as [_ H2]. rewrite H2. f_equal.
    assert ((lo <= hi)%nat) by (apply Hall; auto).
    pose proof (off_mono items lo (S hi) ltac:(lia)). pose proof (off_le items (S hi)).
    rewrite range_eq by lia. apply between. lia.
  Qed.
  Lemma get_slice_empty r items a b c : repr r items -> c <> 0 ->
    slice_indices (Z.of_nat (length items)) a b c = [] -> get r (KSlice a b c) = Err ValueError.
  Proof.
    intros Hr Hc E. unfold get, key_bounds. rewrite (slice_rows r items a b c Hr Hc), E. reflexivity.
  Qed.

  (** Unit steps follow list semantics unless empty. *)
  Lemma get_slice_unit r items a b sel : repr r items ->
    get_slice items a b 1 = Ok sel -> sel <> [] -> get r (KSlice a b 1) = Ok (concat sel).
  Proof.
    intros Hr Hs Hne. pose proof (get_slice_1 items a b) as G. cbn zeta in G. rewrite G in Hs. injection Hs as <-.
    set (s := slice_start (Z.of_nat (length items)) 1 a) in *.
    set (t := slice_stop (Z.of_nat (length items)) 1 b) in *.
    pose proof (slice_start_1 (Z.of_nat (length items)) a ltac:(lia)) as Hs. fold s in Hs.
    pose proof (slice_stop_1 (Z.of_nat (length items)) b ltac:(lia)) as Ht. fold t in Ht.
    assert (Hst : s < t).
    { destruct (Z.lt_ge_cases s t); auto. exfalso. apply Hne. replace (Z.to_nat (t - s)) with O by lia. reflexivity. }
    assert (Hi : forall i, In i (slice_indices (Z.of_nat (length items)) a b 1) <-> (Z.to_nat s <= i < Z.to_nat t)%nat).
    { intros i. rewrite slice_indices_1 by lia. fold s t. rewrite in_seq. lia. }
    rewrite (get_slice_exact r items a b 1 (Z.to_nat s) (Z.to_nat t - 1) Hr ltac:(lia)).
    - do 3 f_equal. lia.
    - apply Hi. lia.
    - apply Hi. lia.
    - intros i H. apply Hi in H. lia.
  Qed.

  (** ** Lists of items *)
  Lemma pick_all_app (d : list A) l1 l2 x1 x2 : pick_all d l1 = Ok x1 -> pick_all d l2 = Ok x2 ->
    pick_all d (l1 ++ l2) = Ok (x1 ++ x2)%list.
  Proof.
    revert x1. induction l1 as [|i l1 IH]; intros x1 H1 H2; cbn [pick_all app] in *; [injection H1 as <-; exact H2|].
    destruct (norm_index _ i); [|discriminate]. destruct (nth_error d _); [|discriminate].
    destruct (pick_all d l1) as [y|]; [|discriminate]. cbn [bind] in *. injection H1 as <-.
    rewrite (IH y eq_refl H2). reflexivity.
  Qed.
  Lemma pick_all_range (d : list A) a n : (a + n <= length d)%nat ->
    pick_all d (map (fun k => Z.of_nat a + Z.of_nat k) (seq 0 n)) = Ok (firstn n (skipn a d)).
  Proof.
    revert a. induction n as [|n IH]; intros a H; [reflexivity|].
    cbn [seq map pick_all]. rewrite norm_index_range by lia.
    replace (Z.to_nat (Z.of_nat a + Z.of_nat 0)) with a by lia.
    destruct (nth_error d a) as [x|] eqn:E; [|apply nth_error_None in E; lia].
    rewrite (skipn_cons _ _ _ E). cbn [firstn].
    rewrite <- seq_shift, map_map.
    rewrite (map_ext _ (fun k => Z.of_nat (S a) + Z.of_nat k)) by (intros k; lia).
    rewrite IH by lia. reflexivity.
  Qed.
  Lemma get_list r items ks is : repr r items -> Forall2 (names items) ks is ->
    (forall i, In i is -> (i < length items)%nat) ->
    get r (KList ks) = Ok (concat (pick items is)).
  Proof.
    intros Hr Hk Hv. unfold get.
    assert (G : exists idx, indices r ks = Ok idx /\ pick_all (rdata r) idx = Ok (concat (pick items is))).
    { revert Hv. induction Hk as [|k i ks is Hki Hk IH]; intros Hv; [exists []; split; reflexivity|].
      destruct IH as (idx & E1 & E2); [intros; apply Hv; now right|].
      destruct (nth_error items i) as [x|] eqn:E; [|apply nth_error_None in E; specialize (Hv i (or_introl eq_refl)); lia].
      destruct (row_repr r items i x Hr E) as [R1 R2].
      assert (Hrow : row r k = Ok (Z.of_nat (off items i), Z.of_nat (off items (S i)))) by (destruct Hki as [-> | ->]; auto).
      cbn [indices]. rewrite Hrow, E1. cbn [bind fst snd]. eexists. split; [reflexivity|].
      change (i :: is) with ([i] ++ is)%list. rewrite pick_app, concat_app. apply pick_all_app; auto.
      cbn [pick flat_map]. rewrite E. cbn [app concat]. rewrite app_nil_r.
      unfold zrange. replace (Z.to_nat (Z.of_nat (off items (S i)) - Z.of_nat (off items i))) with (length x) by (rewrite (off_S _ _ _ E); lia).
      destruct Hr as [_ H2]. rewrite H2. pose proof (off_le items (S i)) as Ho. rewrite (off_S _ _ _ E) in Ho.
      rewrite pick_all_range by lia. f_equal.
      replace (length x) with (off items (S i) - off items i)%nat by (rewrite (off_S _ _ _ E); lia).
      rewrite between by lia. replace (S i - i)%nat with 1%nat by lia. rewrite (skipn_cons _ _ _ E). cbn.
      now rewrite app_nil_r. }
    destruct G as (idx & E1 & E2). rewrite E1. exact E2.
  Qed.

  (** ** Statements over what the user sees *)
  Lemma reachable_shows r : reachable r -> exists items, shows r items.
  Proof. intros H. apply reachable_repr in H as [items H]. exists items. now apply repr_shows. Qed.
  Lemma reachable_repr_shows r items : reachable r -> shows r items -> repr r items.
  Proof.
    intros H Hs. apply reachable_repr in H as [items' H]. rewrite (shows_unique r items items'); auto. now apply repr_shows.
  Qed.

  Lemma write_item r items i x p (v : aval A) : reachable r -> shows r items -> nth_error items i = Some x ->
    names items p i ->
    (forall w, spread (length x) v w -> exists r', set r (KInt p) v = Ok r' /\ shows r' (upd items i w)) /\
    ((forall w, ~ spread (length x) v w) -> set r (KInt p) v = Err ValueError).
  Proof.
    intros Hr Hs Hx Hp. pose proof (reachable_repr_shows r items Hr Hs) as Hrep.
    destruct (set_int r items p i x v Hrep Hx Hp) as [H1 H2]. split; auto.
    intros w Hw. destruct (H1 w Hw) as (r' & E & H'). exists r'. split; auto. now apply repr_shows.
  Qed.
  Lemma write_keeps_sizes r items k (v : aval A) r' : reachable r -> shows r items -> set r k v = Ok r' ->
    exists items', shows r' items' /\ map (@length A) items' = map (@length A) items.
  Proof.
    intros Hr Hs H. pose proof (reachable_repr_shows r items Hr Hs) as Hrep. apply set_frame in H as [H1 H2].
    destruct (repr_resize r items r' Hrep H1 H2) as (items' & H' & Hl). exists items'. split; auto. now apply repr_shows.
  Qed.
  Lemma write_outside r items p (v : aval A) : reachable r -> shows r items ->
    (p < - Z.of_nat (length items) \/ Z.of_nat (length items) <= p) -> set r (KInt p) v = Err IndexError.
  Proof. intros Hr Hs. apply set_int_out. now apply reachable_repr_shows. Qed.

  Lemma slice_unit r items a b sel : reachable r -> shows r items ->
    get_slice items a b 1 = Ok sel -> sel <> [] -> get r (KSlice a b 1) = Ok (concat sel).
  Proof. intros Hr Hs. apply get_slice_unit. now apply reachable_repr_shows. Qed.
  Lemma slice_any r items a b c lo hi : reachable r -> shows r items -> c <> 0 ->
    let idx := slice_indices (Z.of_nat (length items)) a b c in
    In lo idx -> In hi idx -> (forall i, In i idx -> (lo <= i <= hi)%nat) ->
    get r (KSlice a b c) = Ok (concat (firstn (S hi - lo) (skipn lo items))).
  Proof. intros Hr Hs. apply get_slice_exact. now apply reachable_repr_shows. Qed.
  Lemma slice_empty r items a b c : reachable r -> shows r items -> c <> 0 ->
    get_slice items a b c = Ok [] -> get r (KSlice a b c) = Err ValueError.
  Proof.
    intros Hr Hs Hc H. apply (get_slice_empty r items); auto; [now apply reachable_repr_shows|].
    unfold get_slice in H. apply Z.eqb_neq in Hc as Hc'. rewrite Hc' in H. injection H as H.
    destruct (slice_indices (Z.of_nat (length items)) a b c) as [|i idx] eqn:E; auto. exfalso.
    assert (Hi : Z.of_nat i < Z.of_nat (length items)) by (eapply slice_valid; [lia | exact Hc | rewrite E; now left]).
    change (i :: idx) with ([i] ++ idx)%list in H. rewrite pick_app in H. cbn [pick flat_map] in H.
    destruct (nth_error items i) eqn:En; [discriminate|]. apply nth_error_None in En. lia.
  Qed.
  Lemma list_of_items r items ks is : reachable r -> shows r items -> Forall2 (names items) ks is ->
    (forall i, In i is -> (i < length items)%nat) ->
    get r (KList ks) = Ok (concat (pick items is)).
  Proof. intros Hr Hs. apply get_list. now apply reachable_repr_shows. Qed.

  Lemma build_sizes d b sizes : (forall z, In z sizes -> 0 <= z) -> (sizes <> [] \/ b = true) ->
    (zsum sizes = Z.of_nat (length d) ->
       exists r items, init (Flat d) (ISeq b sizes) = Ok r /\ shows r items /\ lens items = sizes /\ concat items = d) /\
    (zsum sizes <> Z.of_nat (length d) -> init (Flat d) (ISeq b sizes) = Err ValueError).
  Proof.
    intros Hz Hb. split.
    - intros Hs. destruct (init_sizes_ok d b sizes Hz Hb Hs) as (r & items & H1 & H2 & H3 & H4).
      exists r, items. split; auto. split; [now apply repr_shows | now split].
    - apply init_sizes_bad.
  Qed.
  Lemma build_uniform d n : 0 < n -> (0 < length d)%nat ->
    ((n | Z.of_nat (length d)) ->
       exists r items, init (Flat d) (IInt n) = Ok r /\ shows r items /\ concat items = d /\
         (forall x, In x items -> Z.of_nat (length x) = n) /\ Z.of_nat (length items) * n = Z.of_nat (length d)) /\
    (~ (n | Z.of_nat (length d)) -> init (Flat d) (IInt n) = Err ValueError).
  Proof.
    intros Hn Hd. split.
    - intros Hdiv. destruct (init_int_ok d n Hn Hd Hdiv) as (r & items & H1 & H2 & H3 & H4).
      exists r, items. split; [exact H1|]. split; [now apply repr_shows|]. split; [exact H3|]. split.
      + intros x Hx. assert (H : In (Z.of_nat (length x)) (lens items)) by (unfold lens; now apply (in_map (fun y : list A => Z.of_nat (length y)))).
        rewrite H4 in H. now apply repeat_spec in H.
      + assert (E : length items = Z.to_nat (Z.of_nat (length d) / n)).
        { assert (H : length (lens items) = length items) by (unfold lens; apply map_length). rewrite <- H, H4. apply repeat_length. }
        rewrite E. destruct Hdiv as [c Hc]. rewrite Hc, Z.div_mul by lia. rewrite Z2Nat.id by nia. lia.
    - apply init_int_bad. lia.
  Qed.
  Lemma build_nested l s : l <> [] -> exists r, init (Nested l) s = Ok r /\ shows r l.
  Proof.
    intros Hl. destruct (init_nested_any l s Hl) as (r & H & Hr). exists r. split; auto. now apply repr_shows.
  Qed.
  Lemma build_degenerate d n : n = 0 \/ (0 < n /\ d = []) -> init (Flat d) (IInt n) = Err ZeroDivisionError.
  Proof.
    intros [-> | [Hn ->]]; [reflexivity|]. cbn [init]. unfold init_int.
    assert ((n =? 0) = false) as -> by (apply Z.eqb_neq; lia). reflexivity.
  Qed.
End Facts.

(** ** Refutation witnesses *)
Lemma negative_sizes_witness :
  exists (d : list nat) sizes r, init (Flat d) (ISeq false sizes) = Ok r /\
    zsum sizes = Z.of_nat (length d) /\
    get r (KInt 0) = Ok [] /\ get r (KInt 1) = Ok [8%nat] /\ rlen r = 2.
Proof. exists [7; 8]%nat, [-1; 3]. eexists. split; [reflexivity|]. repeat split; reflexivity. Qed.
Lemma strided_slice_witness :
  exists (r : ragged nat) items sel, shows r items /\ get_slice items None None 2 = Ok sel /\
    get r (KSlice None None 2) <> Ok (concat sel).
Proof.
  exists (mkRag [1; 2; 3; 4]%nat (items_of [1; 2; 1])), [[1]; [2; 3]; [4]]%nat, [[1]; [4]]%nat.
  split; [|split; [reflexivity | discriminate]].
  apply repr_shows. split; reflexivity.
Qed.
Lemma reversed_slice_witness :
  exists (r : ragged nat) items sel, shows r items /\ get_slice items None None (-1) = Ok sel /\
    get r (KSlice None None (-1)) <> Ok (concat sel).
Proof.
  exists (mkRag [1; 2; 3; 4]%nat (items_of [1; 2; 1])), [[1]; [2; 3]; [4]]%nat, [[4]; [2; 3]; [1]]%nat.
  split; [|split; [reflexivity | discriminate]].
  apply repr_shows. split; reflexivity.
Qed.
