(** Proofs about tracked arrays. *)
From Verif Require Import Base Slice SliceFacts Tracked TrackedSpec.
Local Open Scope Z_scope.

(** * Geometry of views *)
Lemma in_addresses_cons off n s r a :
  In a (addresses off ((n, s) :: r)) <->
  exists k, 0 <= k < n /\ In a (addresses (off + k * s) r).
Proof.
  cbn [addresses]. rewrite in_flat_map. split.
  - intros [k [Hk Ha]]. apply in_seq in Hk. exists (Z.of_nat k). split; [lia|exact Ha].
  - intros [k [Hk Ha]]. exists (Z.to_nat k). split; [apply in_seq; lia|].
    rewrite Z2Nat.id by lia. exact Ha.
Qed.

Definition reach (dims : list (Z * Z)) : Z :=
  fold_right Z.add 0 (map (fun d => (fst d - 1) * snd d) dims).

Lemma addresses_bounds dims : Forall (fun d => 0 <= snd d) dims ->
  forall off a, In a (addresses off dims) -> off <= a <= off + reach dims.
Proof.
  induction 1 as [|[n s] r Hs _ IH]; intros off a Ha.
  - cbn in Ha. destruct Ha as [<-|[]]. cbn. lia.
  - apply in_addresses_cons in Ha. destruct Ha as [k [Hk Ha]]. apply IH in Ha.
    cbn [snd] in Hs. unfold reach in *. cbn [map fold_right fst snd]. nia.
Qed.
Lemma addresses_first dims : Forall (fun d => 0 < fst d) dims ->
  forall off, In off (addresses off dims).
Proof.
  induction 1 as [|[n s] r Hn _ IH]; intros off; [now left|].
  apply in_addresses_cons. exists 0. cbn [fst] in Hn. split; [lia|].
  rewrite Z.mul_0_l, Z.add_0_r. apply IH.
Qed.
Lemma addresses_last dims : Forall (fun d => 0 < fst d) dims ->
  forall off, In (off + reach dims) (addresses off dims).
Proof.
  induction 1 as [|[n s] r Hn _ IH]; intros off.
  - cbn. left. lia.
  - apply in_addresses_cons. exists (n - 1). cbn [fst] in Hn. split; [lia|].
    replace (off + reach ((n, s) :: r)) with (off + (n - 1) * s + reach r); [apply IH|].
    unfold reach. cbn [map fold_right fst snd]. lia.
Qed.

Lemma touches_spec w v x : touches w v x = true <-> byte_of w v x.
Proof.
  unfold touches, byte_of. rewrite existsb_exists.
  split; intros [a [Ha H]]; exists a; (split; [exact Ha|]).
  - apply andb_true_iff in H. lia.
  - apply andb_true_iff. lia.
Qed.

Lemma extents_cover w v x : forward_view v -> byte_of w v x ->
  fst (extents w v) <= x < snd (extents w v).
Proof.
  intros Hf [a [Ha Hx]]. apply (addresses_bounds _ Hf) in Ha. unfold extents, reach in *. cbn [fst snd]. lia.
Qed.

Lemma extents_tight w v : 0 < w -> Forall (fun d => 0 < fst d) (v_dims v) ->
  byte_of w v (fst (extents w v)) /\ byte_of w v (snd (extents w v) - 1).
Proof.
  intros Hw Hn. split.
  - exists (v_off v). split; [now apply addresses_first|]. cbn [extents fst]. lia.
  - exists (v_off v + reach (v_dims v)). split; [now apply addresses_last|].
    unfold extents, reach. cbn [snd]. lia.
Qed.

(** Slices stay within their axis. *)
Lemma slice_elem n c a b k : 0 <= n -> c <> 0 ->
  0 <= k < slice_count (slice_start n c a) (slice_stop n c b) c ->
  0 <= slice_start n c a + k * c < n.
Proof.
  intros Hn Hc. unfold slice_count.
  assert (Hs : if c <? 0 then -1 <= slice_start n c a <= n - 1 else 0 <= slice_start n c a <= n).
  { unfold slice_start, clamp. destruct a, (c <? 0); lia. }
  assert (Ht : if c <? 0 then -1 <= slice_stop n c b <= n - 1 else 0 <= slice_stop n c b <= n).
  { unfold slice_stop, clamp. destruct b, (c <? 0); lia. }
  set (s := slice_start n c a) in *. set (t := slice_stop n c b) in *. clearbody s t.
  destruct (Z.ltb_spec c 0) as [Hneg|Hpos].
  - destruct (Z.ltb_spec t s); [|lia]. intros Hk.
    pose proof (Z.mul_div_le (s - t - 1) (- c) ltac:(lia)). nia.
  - destruct (Z.ltb_spec s t); [|lia]. intros Hk.
    pose proof (Z.mul_div_le (t - s - 1) c ltac:(lia)). nia.
Qed.

Lemma sub_dims_shift key : forall dr off o' r', sub_dims off dr key = Ok (o', r') ->
  forall d, sub_dims (off + d) dr key = Ok (o' + d, r').
Proof.
  induction key as [|k key IH]; intros dr off o' r' H d; cbn [sub_dims] in *.
  - injection H as <- <-. reflexivity.
  - destruct dr as [|[n s] dr]; [destruct k; discriminate|]. destruct k as [i|a b c].
    + destruct (norm_index n i) as [j|]; [|discriminate].
      apply IH with (d := d) in H. rewrite <- H. f_equal. lia.
    + destruct (c =? 0); [discriminate|]. cbv zeta in *.
      set (st := slice_start n c a) in *. destruct (_ =? 0).
      * destruct (sub_dims off dr key) as [[o2 r2]|] eqn:E; [|discriminate].
        cbn [bind fst snd] in H. injection H as <- <-. apply IH with (d := d) in E. rewrite E. reflexivity.
      * destruct (sub_dims (off + st * s) dr key) as [[o2 r2]|] eqn:E; [|discriminate].
        cbn [bind fst snd] in H. injection H as <- <-. apply IH with (d := d) in E.
        replace (off + d + st * s) with (off + st * s + d) by lia. rewrite E. reflexivity.
Qed.

(** A slice entry, unfolded. *)
Lemma sub_dims_slice off n s dr a b c key off' dims' :
  sub_dims off ((n, s) :: dr) (XSlice a b c :: key) = Ok (off', dims') ->
  let st := slice_start n c a in let cnt := slice_count st (slice_stop n c b) c in
  c <> 0 /\ exists start cnt' c' o r, sub_dims (off + start * s) dr key = Ok (o, r) /\
    off' = o /\ dims' = (cnt', s * c') :: r /\
    (cnt = 0 /\ cnt' = 0 /\ start = 0 /\ c' = 1 \/ cnt <> 0 /\ cnt' = cnt /\ start = st /\ c' = c).
Proof.
  cbn [sub_dims]. destruct (Z.eqb_spec c 0) as [|Hc]; [discriminate|]. cbv zeta. intros H.
  split; [exact Hc|]. destruct (Z.eqb_spec (slice_count (slice_start n c a) (slice_stop n c b) c) 0) as [E0|E0].
  - destruct (sub_dims off dr key) as [[o r]|] eqn:E; [|discriminate]. cbn [bind fst snd] in H.
    injection H as <- <-. exists 0, 0, 1, o, r. rewrite Z.mul_0_l, Z.add_0_r, Z.mul_1_r. auto 10.
  - destruct (sub_dims (off + _ * s) dr key) as [[o r]|] eqn:E; [|discriminate]. cbn [bind fst snd] in H.
    injection H as <- <-. eexists _, _, _, o, r. split; [exact E|]. auto 10.
Qed.

Lemma sub_dims_incl key : forall dims off off' dims',
  Forall (fun d => 0 <= fst d) dims -> sub_dims off dims key = Ok (off', dims') ->
  incl (addresses off' dims') (addresses off dims).
Proof.
  induction key as [|k key IH]; intros dims off off' dims' Hn H.
  - cbn [sub_dims] in H. injection H as <- <-. apply incl_refl.
  - destruct dims as [|[n s] dr]; [destruct k; discriminate|].
    inversion Hn as [|? ? Hn0 Hn1]; subst. cbn [fst] in Hn0. destruct k as [i|a b c].
    + cbn [sub_dims] in H. destruct (norm_index n i) as [j|] eqn:E; [|discriminate]. apply norm_index_bounds in E.
      intros x Hx. apply (IH _ _ _ _ Hn1 H) in Hx. apply in_addresses_cons. exists j. split; [lia|exact Hx].
    + apply sub_dims_slice in H. destruct H as [Hc [st [cnt [c' [o [r [E [-> [-> Hcase]]]]]]]]].
      intros x Hx. apply in_addresses_cons in Hx. destruct Hx as [k [Hk Hx]].
      destruct Hcase as [[_ [-> _]]|[_ [-> [-> ->]]]]; [lia|]. set (st := slice_start n c a) in *.
      apply in_addresses_cons. exists (st + k * c). split; [now apply (slice_elem n c a b k)|].
      apply sub_dims_shift with (d := k * (s * c)) in E.
      apply (IH _ _ _ _ Hn1 E) in Hx. replace (off + (st + k * c) * s) with (off + st * s + k * (s * c)) by lia.
      exact Hx.
Qed.

Lemma slice_count_nonneg s t c : 0 <= slice_count s t c.
Proof.
  unfold slice_count. destruct (Z.ltb_spec c 0).
  - destruct (Z.ltb_spec t s); [|lia]. pose proof (Z.div_pos (s - t - 1) (- c)). lia.
  - destruct (Z.ltb_spec s t); [|lia]. destruct (Z.eq_dec c 0) as [->|]; [rewrite Zdiv_0_r; lia|].
    pose proof (Z.div_pos (t - s - 1) c). lia.
Qed.

Lemma sub_dims_lengths key : forall dims off off' dims',
  Forall (fun d => 0 <= fst d) dims -> sub_dims off dims key = Ok (off', dims') ->
  Forall (fun d => 0 <= fst d) dims'.
Proof.
  induction key as [|k key IH]; intros dims off off' dims' Hn H.
  - cbn [sub_dims] in H. injection H as <- <-. exact Hn.
  - destruct dims as [|[n s] dr]; [destruct k; discriminate|].
    inversion Hn as [|? ? Hn0 Hn1]; subst. destruct k as [i|a b c].
    + cbn [sub_dims] in H. destruct (norm_index n i); [|discriminate]. eauto.
    + apply sub_dims_slice in H. destruct H as [Hc [st [cnt [c' [o [r [E [-> [-> Hcase]]]]]]]]].
      constructor; [|eauto]. cbn [fst].
      pose proof (slice_count_nonneg (slice_start n c a) (slice_stop n c b) c). lia.
Qed.

Lemma sub_dims_forward key : forward_key key -> forall dims off off' dims',
  Forall (fun d => 0 <= snd d) dims -> sub_dims off dims key = Ok (off', dims') ->
  Forall (fun d => 0 <= snd d) dims'.
Proof.
  induction 1 as [|k key Hk _ IH]; intros dims off off' dims' Hn H.
  - cbn [sub_dims] in H. injection H as <- <-. exact Hn.
  - destruct dims as [|[n s] dr]; [destruct k; discriminate|].
    inversion Hn as [|? ? Hn0 Hn1]; subst. destruct k as [i|a b c].
    + cbn [sub_dims] in H. destruct (norm_index n i); [|discriminate]. eauto.
    + apply sub_dims_slice in H. destruct H as [Hc [st [cnt [c' [o [r [E [-> [-> Hcase]]]]]]]]].
      constructor; [|eauto]. cbn [snd] in *.
      destruct Hcase as [[_ [_ [_ ->]]]|[_ [_ [_ ->]]]]; nia.
Qed.

(** Slicing a forward view never moves its start back. *)
Lemma sub_dims_off key : forall dims off off' dims',
  Forall (fun d => 0 <= fst d) dims -> Forall (fun d => 0 <= snd d) dims ->
  sub_dims off dims key = Ok (off', dims') -> off <= off'.
Proof.
  induction key as [|k key IH]; intros dims off off' dims' Hl Hn H.
  - cbn [sub_dims] in H. injection H as <- <-. lia.
  - destruct dims as [|[n s] dr]; [destruct k; discriminate|].
    inversion Hn as [|? ? Hn0 Hn1]; subst. inversion Hl as [|? ? Hl0 Hl1]; subst. cbn [fst snd] in *.
    destruct k as [i|a b c].
    + cbn [sub_dims] in H. destruct (norm_index n i) as [j|] eqn:E; [|discriminate].
      apply norm_index_bounds in E. apply IH in H; auto. nia.
    + apply sub_dims_slice in H. destruct H as [Hc [st [cnt [c' [o [r [E [-> [-> Hcase]]]]]]]]].
      apply IH in E; auto. destruct Hcase as [[_ [_ [-> _]]]|[Hcnt [_ [-> _]]]]; [lia|].
      pose proof (slice_count_nonneg (slice_start n c a) (slice_stop n c b) c).
      pose proof (slice_elem n c a b 0 Hl0 Hc ltac:(lia)). nia.
Qed.

Lemma sub_inv v key z : sub v key = Ok z ->
  sub_dims (v_off v) (v_dims v) key = Ok (v_off z, v_dims z).
Proof.
  unfold sub. destruct (sub_dims _ _ key) as [[o d]|]; [|discriminate]. cbn. now injection 1 as <-.
Qed.

Definition shaped (v : view) : Prop := Forall (fun d => 0 <= fst d) (v_dims v).
Lemma sub_shaped v key z : shaped v -> sub v key = Ok z -> shaped z.
Proof. intros Hs H. apply sub_inv in H. exact (sub_dims_lengths _ _ _ _ _ Hs H). Qed.
Lemma sub_forward v key z : forward_key key -> forward_view v -> sub v key = Ok z -> forward_view z.
Proof. intros Hk Hf H. apply sub_inv in H. exact (sub_dims_forward _ Hk _ _ _ _ Hf H). Qed.
Lemma sub_bytes w v key z x : shaped v -> sub v key = Ok z -> byte_of w z x -> byte_of w v x.
Proof.
  intros Hs H [a [Ha Hx]]. exists a. split; [|exact Hx]. apply sub_inv in H.
  exact (sub_dims_incl _ _ _ _ _ Hs H a Ha).
Qed.

(** The base array. *)
Lemma zprod_nonneg l : Forall (Z.le 0) l -> 0 <= zprod l.
Proof. induction 1; cbn; [lia|]. fold (zprod l). nia. Qed.
Lemma contiguous_shape w shape : map fst (contiguous w shape) = shape.
Proof. induction shape; cbn; congruence. Qed.
Lemma contiguous_shaped w shape : Forall (Z.le 0) shape -> Forall (fun d => 0 <= fst d) (contiguous w shape).
Proof. induction 1; cbn; constructor; auto. Qed.
Lemma contiguous_forward w shape : 0 < w -> Forall (Z.le 0) shape ->
  Forall (fun d => 0 <= snd d) (contiguous w shape).
Proof.
  intros Hw. induction 1 as [|n r Hn Hr IH]; cbn; constructor; auto. cbn. apply zprod_nonneg in Hr. nia.
Qed.
(** Elements of a contiguous block lie inside it. *)
Lemma contiguous_bounds w shape : 0 < w -> Forall (Z.le 0) shape -> forall off a,
  In a (addresses off (contiguous w shape)) -> off <= a /\ a + w <= off + w * zprod shape.
Proof.
  intros Hw. induction 1 as [|n r Hn Hr IH]; intros off a Ha.
  - cbn in *. destruct Ha as [<-|[]]. lia.
  - cbn [contiguous] in Ha. apply in_addresses_cons in Ha. destruct Ha as [k [Hk Ha]].
    apply IH in Ha. cbn [zprod fold_right]. fold (zprod r). apply zprod_nonneg in Hr.
    replace (w * (n * zprod r)) with (n * (w * zprod r)) by lia.
    assert (HP : 0 <= w * zprod r) by nia. set (P := w * zprod r) in *. clearbody P. nia.
Qed.

(** An element selected through the base array is where ravel says. *)
Lemma mod_norm n i j : norm_index n i = Some j -> i mod n = j.
Proof.
  intros H. apply norm_index_bounds in H. destruct H as [H [->| ->]].
  - apply Z.mod_small. lia.
  - symmetry. replace (i + n) with (i mod n) ; [reflexivity|].
    rewrite <- (Z.mod_small (i + n) n) by lia. rewrite <- (Z_mod_plus_full i 1 n). f_equal. lia.
Qed.
Lemma ravel_base w key : forall shape acc off off',
  off = acc * (w * zprod shape) ->
  sub_dims off (contiguous w shape) key = Ok (off', []) ->
  off' = ravel acc shape key * w.
Proof.
  induction key as [|k key IH]; intros shape acc off off' Ho H.
  - cbn [sub_dims] in H. injection H as <- Hc. destruct shape; [|discriminate]. cbn in *. lia.
  - destruct shape as [|n r]; [destruct k; discriminate|]. cbn [contiguous] in H.
    destruct k as [i|a b c].
    + cbn [sub_dims] in H. destruct (norm_index n i) as [j|] eqn:E; [|discriminate]. cbn [ravel].
      apply (IH r (acc * n + i mod n) (off + j * (w * zprod r))); [|exact H].
      rewrite (mod_norm _ _ _ E), Ho. cbn [zprod fold_right]. fold (zprod r). lia.
    + apply sub_dims_slice in H. destruct H as [_ [? [? [? [? [? [_ [_ [C _]]]]]]]]]. discriminate.
Qed.

(** * Histories *)
Definition wf (t : tstate) : Prop := 0 < t_w t /\ Forall (Z.le 0) (t_shape t).
Lemma wf_view t : wf t -> shaped (view_of t HBase) /\ forward_view (view_of t HBase).
Proof. intros [Hw Hs]. split; [now apply contiguous_shaped|now apply contiguous_forward]. Qed.
Lemma base_bytes t x : wf t -> byte_of (t_w t) (view_of t HBase) x -> 0 <= x < nbytes t.
Proof.
  intros [Hw Hs] [a [Ha Hx]]. apply contiguous_bounds in Ha; auto. cbn [view_of v_off] in Ha. unfold nbytes. lia.
Qed.

(** What never changes. *)
Definition same_base (t t' : tstate) : Prop :=
  t_w t' = t_w t /\ t_shape t' = t_shape t /\ t_tracker t' = t_tracker t.
Lemma same_refl t : same_base t t.
Proof. repeat split. Qed.

Lemma setitem_cases t h key val t' : setitem t h key val = Ok t' ->
  exists z s e, sub (view_of t h) key = Ok z /\
    (s, e) = match v_dims z with
             | [] => let o := ravel 0 (map fst (v_dims (view_of t h))) key * t_w t in (o, o + t_w t)
             | _ => extents (t_w t) z end /\
    let t2 := write (set_dirty t (update (t_dirty t) s e)) z val in
    t' = if t_tracker t then
           match h with
           | HBase => match update (t_dirty t) s e with Some (a, b) => set_dirty (send t2 a b) None | None => t2 end
           | HView _ _ (a, b) => set_dirty (send t2 a b) None
           end
         else t2.
Proof.
  unfold setitem. destruct (sub (view_of t h) key) as [z|]; [|discriminate]. cbn [bind].
  set (p := match v_dims z with [] => _ | _ => _ end). destruct p as [s e] eqn:Ep. subst p.
  intros H. exists z, s, e. split; [reflexivity|]. split; [now rewrite Ep|]. cbn zeta.
  cbn [write set_dirty t_tracker t_dirty] in H. destruct (t_tracker t).
  - destruct h as [|v ex [a b]].
    + destruct (update (t_dirty t) s e) as [[a b]|]; [now injection H as <-|discriminate].
    + now injection H as <-.
  - now injection H as <-.
Qed.
Lemma setitem_total t h key val : (forall z, sub (view_of t h) key = Ok z -> exists t', setitem t h key val = Ok t').
Proof.
  intros z Hz. unfold setitem. rewrite Hz. cbn [bind].
  set (p := match v_dims z with [] => _ | _ => _ end). destruct p as [s e].
  cbn [write set_dirty t_tracker t_dirty]. destruct (t_tracker t); [|eauto].
  destruct h as [|v ex [a b]]; [|eauto].
  unfold update. destruct (t_dirty t) as [[? ?]|]; eauto.
Qed.

Lemma step_same t o : same_base t (step t o).
Proof.
  destruct o as [h key|h key val|h val|h val|]; cbn [step];
    [| | | |repeat split];
    (destruct (nth_error (t_handles t) h) as [x|] eqn:E; [|apply same_refl]).
  - destruct (getitem t x key) as [[|z e d]|]; try apply same_refl.
    destruct (v_dims z); repeat split.
  - destruct (setitem t x key val) as [t'|] eqn:S; [|apply same_refl].
    apply setitem_cases in S. destruct S as [z [s [e [_ [_ ->]]]]]. destruct (t_tracker t) eqn:Ht.
    + destruct x as [|v ex [a b]]; [destruct (update _ s e) as [[a b]|]|];
        repeat split; cbn; auto.
    + repeat split; cbn; auto.
  - unfold inplace. destruct (ext_attr t x). repeat split.
  - repeat split.
Qed.
Lemma step_wf t o : wf t -> wf (step t o).
Proof. destruct (step_same t o) as [H1 [H2 _]]. unfold wf. now rewrite H1, H2. Qed.
Lemma step_nbytes t o : nbytes (step t o) = nbytes t.
Proof. destruct (step_same t o) as [H1 [H2 _]]. unfold nbytes. now rewrite H1, H2. Qed.
Lemma view_of_step t o h : view_of (step t o) h = view_of t h.
Proof. destruct (step_same t o) as [H1 [H2 _]]. destruct h; cbn; now rewrite ?H1, ?H2. Qed.

Lemma step_handles t o :
  t_handles (step t o) = t_handles t \/
  exists h key x z, o = OGet h key /\ nth_error (t_handles t) h = Some x /\
    sub (view_of t x) key = Ok z /\
    t_handles (step t o) = (t_handles t ++ [HView z (extents (t_w t) z) (obj_extents t x)])%list.
Proof.
  destruct o as [h key|h key val|h val|h val|]; cbn [step];
    [| | | |now left];
    (destruct (nth_error (t_handles t) h) as [x|] eqn:E; [|now left]).
  - unfold getitem. destruct (sub (view_of t x) key) as [z|] eqn:Z; [|now left]. cbn [bind].
    destruct (v_dims z) eqn:D; [now left|]. right. exists h, key, x, z. auto.
  - destruct (setitem t x key val) as [t'|] eqn:S; [|now left].
    apply setitem_cases in S. destruct S as [z [s [e [_ [_ ->]]]]]. left. destruct (t_tracker t).
    + destruct x as [|v ex [a b]]; [destruct (update _ s e) as [[a b]|]|]; reflexivity.
    + reflexivity.
  - left. unfold inplace. destruct (ext_attr t x). reflexivity.
  - now left.
Qed.

(** Handle invariant: parametrised by what is known of views. *)
Definition handle_ok (P : view -> Z * Z -> Prop) (t : tstate) (h : handle) : Prop :=
  match h with
  | HBase => True
  | HView v e d => shaped v /\ (forall x, byte_of (t_w t) v x -> 0 <= x < nbytes t) /\
                   e = extents (t_w t) v /\ P v d
  end.
Definition handles_ok P t := nth_error (t_handles t) 0 = Some HBase /\ Forall (handle_ok P t) (t_handles t)
  /\ forall i, nth_error (t_handles t) (S i) <> Some HBase.

Lemma handle_view P t h : wf t -> handle_ok P t h ->
  shaped (view_of t h) /\ forall x, byte_of (t_w t) (view_of t h) x -> 0 <= x < nbytes t.
Proof.
  intros Hwf H. destruct h as [|v e d].
  - split; [now apply wf_view|]. intros x. now apply base_bytes.
  - destruct H as [H1 [H2 _]]. now split.
Qed.

Lemma step_handles_ok (P : view -> Z * Z -> Prop) t o : wf t -> handles_ok P t ->
  (forall h key x z, o = OGet h key -> nth_error (t_handles t) h = Some x -> handle_ok P t x ->
     sub (view_of t x) key = Ok z -> P z (obj_extents t x)) ->
  handles_ok P (step t o).
Proof.
  intros Hwf [H0 [Hall Hne]] HP.
  assert (Hinv : forall h, handle_ok P (step t o) h <-> handle_ok P t h).
  { destruct (step_same t o) as [E1 _]. intros [|v e d]; cbn; [tauto|]. rewrite E1, step_nbytes. tauto. }
  destruct (step_handles t o) as [E|[h [key [x [z [Eo [En [Ez E]]]]]]]].
  - unfold handles_ok. rewrite E. split; [exact H0|]. split; [|exact Hne].
    eapply Forall_impl; [|exact Hall]. intros a. apply Hinv.
  - assert (Hx : handle_ok P t x).
    { eapply Forall_forall in Hall; [exact Hall|]. now apply nth_error_In in En. }
    destruct (handle_view P t x Hwf Hx) as [Hs Hb].
    unfold handles_ok. rewrite E. split; [|split].
    + destruct (t_handles t); [discriminate|]. exact H0.
    + apply Forall_app. split.
      * eapply Forall_impl; [|exact Hall]. intros a. apply Hinv.
      * constructor; [|constructor]. apply Hinv. cbn. split; [now apply (sub_shaped _ _ _ Hs Ez)|].
        split; [|split; [reflexivity|now apply (HP h key x z)]].
        intros b Hbz. apply Hb. now apply (sub_bytes _ _ _ _ _ Hs Ez).
    + intros i Hi. destruct (Nat.lt_ge_cases (S i) (length (t_handles t))) as [L|L].
      * rewrite nth_error_app1 in Hi by lia. now apply (Hne i).
      * rewrite nth_error_app2 in Hi by lia.
        destruct (S i - length (t_handles t))%nat as [|[|?]]; discriminate.
Qed.

Lemma handle_0 P t h x : handles_ok P t -> nth_error (t_handles t) h = Some x ->
  (h = 0%nat <-> x = HBase).
Proof.
  intros [H0 [_ Hne]] E. split.
  - intros ->. congruence.
  - intros ->. destruct h; [reflexivity|]. now destruct (Hne h).
Qed.

(** The extent a set reports covers the bytes it writes. *)
Lemma update_reported d s e x : s <= x < e -> exists a b, update d s e = Some (a, b) /\ a <= x < b.
Proof.
  intros H. destruct d as [[a b]|]; cbn; eexists _, _; (split; [reflexivity|]); lia.
Qed.
Lemma update_keeps d s e x : (exists a b, d = Some (a, b) /\ a <= x < b) ->
  exists a b, update d s e = Some (a, b) /\ a <= x < b.
Proof.
  intros [a [b [-> H]]]. cbn. eexists _, _. split; [reflexivity|]. lia.
Qed.

Lemma set_extent_cover t h key z s e x : wf t ->
  forward_view (view_of t h) -> forward_key key ->
  sub (view_of t h) key = Ok z -> (h = HBase \/ v_dims z <> []) ->
  (s, e) = match v_dims z with
           | [] => let o := ravel 0 (map fst (v_dims (view_of t h))) key * t_w t in (o, o + t_w t)
           | _ => extents (t_w t) z end ->
  byte_of (t_w t) z x -> s <= x < e.
Proof.
  intros Hwf Hf Hk Hz Hh Hse Hx. destruct (v_dims z) as [|d r] eqn:D.
  - destruct Hh as [->|C]; [|congruence]. cbn zeta in Hse. injection Hse as -> ->.
    destruct Hx as [a [Ha Hx]]. unfold elements in Ha. rewrite D in Ha. cbn in Ha. destruct Ha as [<-|[]].
    apply sub_inv in Hz. rewrite D in Hz. cbn [view_of v_off v_dims] in *.
    rewrite contiguous_shape. rewrite (ravel_base (t_w t) key (t_shape t) 0 0 _ eq_refl Hz) in Hx. exact Hx.
  - pose proof (extents_cover (t_w t) z x (sub_forward _ _ _ Hk Hf Hz) Hx) as H.
    rewrite <- Hse in H. exact H.
Qed.

(** ** C27 *)
Definition fwd_handles (v : view) (_ : Z * Z) : Prop := forward_view v.
Definition tracked_inv (ref : Z -> Z) (t : tstate) : Prop :=
  wf t /\ t_tracker t = false /\ handles_ok fwd_handles t /\
  forall x, t_mem t x <> ref x -> reported t x.

Lemma handle_forward t h x : wf t -> handles_ok fwd_handles t -> nth_error (t_handles t) h = Some x ->
  forward_view (view_of t x).
Proof.
  intros Hwf [_ [Hall _]] E. apply nth_error_In in E. eapply Forall_forall in Hall; [|exact E].
  destruct x as [|v e d]; [now apply wf_view|]. now destruct Hall as [_ [_ [_ H]]].
Qed.

Lemma tracked_step_handles t o : wf t -> handles_ok fwd_handles t -> trackable t o ->
  handles_ok fwd_handles (step t o).
Proof.
  intros Hwf Hh Ho. apply step_handles_ok; auto.
  intros h key x z -> E Hx Hz. cbn in Ho.
  exact (sub_forward _ _ _ Ho (handle_forward _ _ _ Hwf Hh E) Hz).
Qed.

Lemma tracked_step ref t o : tracked_inv ref t -> trackable t o -> not_clear o -> tracked_inv ref (step t o).
Proof.
  intros [Hwf [Ht [Hh Hm]]] Ho Hc.
  split; [now apply step_wf|]. split; [destruct (step_same t o) as [_ [_ ->]]; exact Ht|].
  split; [now apply tracked_step_handles|].
  destruct o as [h key|h key val|h val|h val|]; cbn [step] in *.
  - destruct (nth_error (t_handles t) h) as [x|]; [|exact Hm].
    destruct (getitem t x key) as [[|z e d]|]; try exact Hm. destruct (v_dims z); exact Hm.
  - destruct (nth_error (t_handles t) h) as [y|] eqn:E; [|exact Hm].
    destruct (setitem t y key val) as [t'|] eqn:S; [|exact Hm].
    apply setitem_cases in S. destruct S as [z [s [e [Hz [Hse ->]]]]]. rewrite Ht.
    intros x Hx. unfold reported. cbn [write set_dirty t_mem t_dirty] in *.
    destruct Ho as [Hk Hsc].
    destruct (touches (t_w (set_dirty t (update (t_dirty t) s e))) z x) eqn:Tx.
    + apply update_reported. apply touches_spec in Tx.
      refine (set_extent_cover t y key z s e x Hwf (handle_forward _ _ _ Hwf Hh E) Hk Hz _ Hse Tx).
      destruct Hsc as [->|Hsc]; [left; now apply (handle_0 _ _ _ _ Hh E)|].
      right. intros D. apply Hsc. now exists y, z.
    + apply update_keeps. now apply Hm.
  - destruct (nth_error (t_handles t) h) as [y|] eqn:E; [|exact Hm].
    intros x Hx. unfold inplace in *. destruct (ext_attr t y) as [s e] eqn:Ee.
    unfold reported. cbn [write set_dirty t_mem t_dirty] in *.
    destruct (touches _ (view_of t y) x) eqn:Tx.
    + apply update_reported. apply touches_spec in Tx. cbn [set_dirty t_w] in Tx.
      destruct y as [|v ex d]; cbn [ext_attr] in Ee.
      * injection Ee as <- <-. now apply base_bytes.
      * destruct Hh as [_ [Hall _]]. pose proof (nth_error_In _ _ E) as Hin.
        eapply Forall_forall in Hall; [|exact Hin]. destruct Hall as [_ [_ [Hex Hf]]].
        pose proof (extents_cover _ _ _ Hf Tx) as H. rewrite <- Hex, Ee in H. exact H.
    + apply update_keeps. now apply Hm.
  - destruct Ho.
  - now destruct Hc.
Qed.

Lemma tracked_run ref l : forall t, tracked_inv ref t -> each trackable t l -> Forall not_clear l ->
  tracked_inv ref (run t l).
Proof.
  induction l as [|o l IH]; intros t Hi He Hc; [exact Hi|].
  destruct He as [Ho He]. inversion Hc; subst. cbn [run fold_left]. apply IH; auto.
  now apply tracked_step.
Qed.

(** Invariant without the contents, for the history before the clear. *)
Definition shape_inv (t : tstate) := wf t /\ t_tracker t = false /\ handles_ok fwd_handles t.
Lemma shape_step t o : shape_inv t -> trackable t o -> shape_inv (step t o).
Proof.
  intros [Hwf [Ht Hh]] Ho. split; [now apply step_wf|].
  split; [destruct (step_same t o) as [_ [_ ->]]; exact Ht|]. now apply tracked_step_handles.
Qed.
Lemma shape_run l : forall t, shape_inv t -> each trackable t l -> shape_inv (run t l).
Proof.
  induction l as [|o l IH]; intros t Hi He; [exact Hi|]. destruct He as [Ho He].
  cbn [run fold_left]. apply IH; auto. now apply shape_step.
Qed.
Lemma each_app P l1 l2 : forall t, each P t (l1 ++ l2) <-> each P t l1 /\ each P (run t l1) l2.
Proof.
  induction l1 as [|o l IH]; intros t; cbn; [tauto|]. rewrite IH. tauto.
Qed.
Lemma run_app l1 l2 t : run t (l1 ++ l2) = run (run t l1) l2.
Proof. apply fold_left_app. Qed.

Lemma create_handles P w shape mem tr : handles_ok P (create w shape mem tr).
Proof.
  split; [reflexivity|]. split; [repeat constructor|]. intros [|i]; discriminate.
Qed.

(** Changes since the last clear are reported. *)
Lemma reported_since_clear w shape mem l1 l2 : 0 < w -> Forall (Z.le 0) shape ->
  each trackable (create w shape mem false) (l1 ++ OClear :: l2) -> Forall not_clear l2 ->
  let t1 := run (create w shape mem false) (l1 ++ [OClear]) in
  let t2 := run t1 l2 in
  t_dirty t1 = None /\ forall x, t_mem t2 x <> t_mem t1 x -> reported t2 x.
Proof.
  intros Hw Hs He Hc t1 t2.
  assert (H1 : shape_inv (run (create w shape mem false) l1)).
  { apply shape_run; [|now apply each_app in He]. split; [now split|]. split; [reflexivity|apply create_handles]. }
  apply each_app in He. destruct He as [_ [_ He]].
  assert (E1 : t1 = step (run (create w shape mem false) l1) OClear) by (unfold t1; now rewrite run_app).
  split; [rewrite E1; reflexivity|].
  assert (H2 : tracked_inv (t_mem t1) t1).
  { rewrite E1. destruct (shape_step _ OClear H1 I) as [A [B C]].
    split; [exact A|split; [exact B|split; [exact C|]]]. intros x Hx. now destruct Hx. }
  rewrite <- E1 in He. exact (proj2 (proj2 (proj2 (tracked_run _ _ _ H2 He Hc)))).
Qed.
(** Changes since creation are reported too. *)
Lemma reported_since_creation w shape mem l : 0 < w -> Forall (Z.le 0) shape ->
  each trackable (create w shape mem false) l -> Forall not_clear l ->
  let t := run (create w shape mem false) l in
  forall x, t_mem t x <> mem x -> reported t x.
Proof.
  intros Hw Hs He Hc t.
  assert (H2 : tracked_inv mem (create w shape mem false)).
  { split; [now split|]. split; [reflexivity|]. split; [apply create_handles|]. intros x Hx. now destruct Hx. }
  exact (proj2 (proj2 (proj2 (tracked_run _ _ _ H2 He Hc)))).
Qed.

(** The reported extent is the smallest block that contains the write. *)
Lemma set_extent_exact t h key val x z : wf t -> t_tracker t = false -> t_dirty t = None ->
  nth_error (t_handles t) h = Some x -> sub (view_of t x) key = Ok z -> forward_view z ->
  v_dims z <> [] -> Forall (fun d => 0 < fst d) (v_dims z) ->
  let t' := step t (OSet h key val) in
  (forall b, reported t' b -> exists b1 b2, byte_of (t_w t) z b1 /\ byte_of (t_w t) z b2 /\ b1 <= b <= b2) /\
  (forall b, byte_of (t_w t) z b -> reported t' b /\ t_mem t' b = val b) /\
  (forall b, ~ byte_of (t_w t) z b -> t_mem t' b = t_mem t b).
Proof.
  intros Hwf Ht Hd E Hz Hf Hne Hn t'.
  destruct (setitem_total t x key val z Hz) as [t1 E1].
  assert (Et : t' = t1) by (unfold t'; cbn [step]; now rewrite E, E1). rewrite Et. clear t' Et.
  apply setitem_cases in E1. destruct E1 as [z' [s [e [Hz' [Hse ->]]]]].
  assert (z' = z) by congruence. subst z'. rewrite Ht, Hd. cbn [update write set_dirty t_mem t_w].
  destruct (v_dims z) as [|d r] eqn:D; [congruence|]. clear Hne.
  assert (Hcov : forall b, byte_of (t_w t) z b -> s <= b < e).
  { intros b Hb. pose proof (extents_cover _ _ _ Hf Hb) as H. rewrite <- Hse in H. exact H. }
  rewrite <- D in Hn. destruct (extents_tight (t_w t) z (proj1 Hwf) Hn) as [T1 T2].
  rewrite <- Hse in T1, T2. cbn [fst snd] in T1, T2.
  split; [|split].
  - intros b [s' [e' [E' Hb]]]. cbn in E'. injection E' as <- <-. exists s, (e - 1). repeat split; auto; lia.
  - intros b Hb. split; [exists s, e; split; [reflexivity|auto]|].
    apply touches_spec in Hb. now rewrite Hb.
  - intros b Hb. destruct (touches (t_w t) z b) eqn:T; [|reflexivity]. now apply touches_spec in T.
Qed.

(** ** C28 *)
Lemma send_copy t a b x : 0 <= a -> 0 <= x < nbytes t ->
  t_copy (send t a b) x = t_mem t x \/ t_copy (send t a b) x = t_copy t x.
Proof. intros. unfold send. cbn [t_copy]. destruct (_ && _); auto. Qed.
Lemma send_inside t a b x : 0 <= a -> 0 <= x < nbytes t -> a <= x < b ->
  t_copy (send t a b) x = t_mem t x.
Proof.
  intros Ha Hx Hab. unfold send. cbn [t_copy].
  replace (_ && _) with true; [reflexivity|]. symmetry. apply andb_true_iff. unfold clamp, shift.
  destruct (Z.ltb_spec a 0); [lia|]. destruct (Z.ltb_spec b 0); [lia|]. lia.
Qed.

Definition start_ok (t : tstate) : Prop := forall s e, t_dirty t = Some (s, e) -> 0 <= s.
Lemma update_start d s e a b : (forall s e, d = Some (s, e) -> 0 <= s) -> 0 <= s ->
  update d s e = Some (a, b) -> 0 <= a.
Proof.
  intros Hd Hs H. destruct d as [[s0 e0]|]; cbn in H; injection H as <- <-; [|exact Hs].
  specialize (Hd _ _ eq_refl). lia.
Qed.

(** The extent of an assignment through the base array. *)
Lemma base_extent_start t key z s e : wf t -> sub (view_of t HBase) key = Ok z ->
  (s, e) = match v_dims z with
           | [] => let o := ravel 0 (map fst (v_dims (view_of t HBase))) key * t_w t in (o, o + t_w t)
           | _ => extents (t_w t) z end -> 0 <= s.
Proof.
  intros Hwf Hz Hse. destruct (wf_view t Hwf) as [Hs Hf]. apply sub_inv in Hz.
  pose proof (sub_dims_off _ _ _ _ _ Hs Hf Hz) as Ho. cbn [view_of v_off] in Ho.
  destruct (v_dims z) as [|d r] eqn:D.
  - cbn zeta in Hse. injection Hse as -> _. cbn [view_of v_dims v_off] in Hz |- *. rewrite contiguous_shape.
    rewrite (ravel_base _ _ _ 0 0 _ eq_refl Hz) in Ho. exact Ho.
  - unfold extents in Hse. injection Hse as -> _. exact Ho.
Qed.

(** An assignment through the base array with a forward key brings the copy up
    to date with everything that was pending. *)
Lemma set_base_sync t key val t' : wf t -> t_tracker t = true -> start_ok t ->
  (forall x, 0 <= x < nbytes t -> t_copy t x <> t_mem t x -> reported t x) ->
  forward_key key -> setitem t HBase key val = Ok t' -> in_sync t' /\ t_dirty t' = None.
Proof.
  intros Hwf Ht Hst Hp Hk S. apply setitem_cases in S. destruct S as [z [s [e [Hz [Hse ->]]]]]. rewrite Ht.
  pose proof (base_extent_start _ _ _ _ _ Hwf Hz Hse) as Hs0.
  destruct (update (t_dirty t) s e) as [[a b]|] eqn:U;
    [|destruct (t_dirty t) as [[? ?]|]; discriminate].
  split; [|reflexivity].
  pose proof (update_start _ _ _ _ _ Hst Hs0 U) as Ha.
  set (t2 := write _ z val). intros x Hx. cbn [set_dirty t_copy t_mem] in *.
  assert (Hin : a <= x < b -> t_copy (send t2 a b) x = t_mem (send t2 a b) x).
  { intros Hab. rewrite send_inside; auto. }
  destruct (touches (t_w t) z x) eqn:T.
  - apply Hin. destruct (update_reported (t_dirty t) s e x) as [a' [b' [U' R]]].
    + apply touches_spec in T.
      exact (set_extent_cover t HBase key z s e x Hwf (proj2 (wf_view t Hwf)) Hk Hz (or_introl eq_refl) Hse T).
    + rewrite U in U'. injection U' as <- <-. exact R.
  - destruct (Z.eq_dec (t_copy t x) (t_mem t x)) as [Eq|Ne].
    + assert (Em : t_mem t2 x = t_mem t x) by (unfold t2; cbn [write set_dirty t_mem t_w]; now rewrite T).
      destruct (send_copy t2 a b x Ha Hx) as [H|H]; rewrite H; [reflexivity|].
      change (t_mem (send t2 a b) x) with (t_mem t2 x). rewrite Em. exact Eq.
    + apply Hin. apply Hp in Ne; [|exact Hx]. destruct (update_keeps _ s e x Ne) as [a' [b' [U' R]]].
      rewrite U in U'. injection U' as <- <-. exact R.
Qed.

(** Views taken from the base array send the whole array. *)
Definition whole (n : Z) (v : view) (d : Z * Z) : Prop := d = (0, n) /\ 0 <= v_off v.
Definition direct_inv (t : tstate) : Prop :=
  wf t /\ t_tracker t = true /\ handles_ok (whole (nbytes t)) t /\ start_ok t /\
  forall x, 0 <= x < nbytes t -> t_copy t x <> t_mem t x -> reported t x.

Lemma handle_P P t h x : handles_ok P t -> nth_error (t_handles t) h = Some x -> handle_ok P t x.
Proof.
  intros [_ [Hall _]] E. apply nth_error_In in E. eapply Forall_forall in Hall; [exact Hall|exact E].
Qed.

Lemma set_view_sync t v ex key val t' : wf t -> t_tracker t = true ->
  setitem t (HView v ex (0, nbytes t)) key val = Ok t' -> in_sync t' /\ t_dirty t' = None.
Proof.
  intros Hwf Ht S. apply setitem_cases in S. destruct S as [z [s [e [Hz [Hse ->]]]]]. rewrite Ht.
  split; [|reflexivity]. intros x Hx. cbn [set_dirty t_copy]. rewrite send_inside; auto; lia.
Qed.

Lemma direct_step t o : direct_inv t -> mirrored_direct t o ->
  direct_inv (step t o) /\
  (forall h key val, o = OSet h key val -> set_succeeds t h key -> in_sync (step t o)).
Proof.
  intros [Hwf [Ht [Hh [Hst Hp]]]] Ho.
  assert (Hw' := step_wf t o Hwf).
  assert (Ht' : t_tracker (step t o) = true) by (destruct (step_same t o) as [_ [_ ->]]; exact Ht).
  assert (Hh' : handles_ok (whole (nbytes (step t o))) (step t o)).
  { rewrite step_nbytes. apply step_handles_ok; auto. intros h key x z -> E Hx Hz. cbn in Ho. subst h.
    assert (x = HBase) by (now apply (handle_0 _ _ _ _ Hh E)). subst x. split; [reflexivity|].
    destruct (wf_view t Hwf) as [Hs Hf]. apply sub_inv in Hz. exact (sub_dims_off _ _ _ _ _ Hs Hf Hz). }
  assert (Hkeep : t_dirty (step t o) = t_dirty t -> (forall x, t_copy (step t o) x = t_copy t x) ->
                  (forall x, t_mem (step t o) x = t_mem t x) -> direct_inv (step t o)).
  { intros D C M. split; [exact Hw'|split; [exact Ht'|split; [exact Hh'|]]]. rewrite step_nbytes.
    unfold start_ok, reported. rewrite D. split; [exact Hst|]. intros x Hx. rewrite C, M. now apply Hp. }
  assert (Hsync : in_sync (step t o) -> t_dirty (step t o) = None -> direct_inv (step t o)).
  { intros S D. split; [exact Hw'|split; [exact Ht'|split; [exact Hh'|]]].
    split; [intros s e; rewrite D; discriminate|]. intros x Hx Hne. now apply S in Hx. }
  destruct o as [h key|h key val|h val|h val|]; cbn [step] in *.
  - split; [|discriminate].
    apply Hkeep; destruct (nth_error (t_handles t) h) as [x|]; auto;
      destruct (getitem t x key) as [[|z e d]|]; auto; destruct (v_dims z); auto.
  - destruct (nth_error (t_handles t) h) as [y|] eqn:E.
    + destruct (setitem t y key val) as [t'|] eqn:S.
      * assert (in_sync t' /\ t_dirty t' = None) as [S1 S2].
        { destruct y as [|v ex d].
          - apply (set_base_sync t key val t'); auto. apply Ho. now apply (handle_0 _ _ _ _ Hh E).
          - destruct (handle_P _ _ _ _ Hh E) as [_ [_ [_ [-> _]]]]. exact (set_view_sync t v ex key val t' Hwf Ht S). }
        split; [now apply Hsync|]. intros; exact S1.
      * split; [now apply Hkeep|]. intros h' key' val' Eo [y' [z [E' Hz]]]. injection Eo as <- <- <-.
        rewrite E in E'. injection E' as <-. destruct (setitem_total t y key val z Hz). congruence.
    + split; [now apply Hkeep|]. intros h' key' val' Eo [y' [z [E' Hz]]]. injection Eo as <- <- <-. congruence.
  - split; [|discriminate].
    destruct (nth_error (t_handles t) h) as [y|] eqn:E; [|now apply Hkeep].
    split; [exact Hw'|split; [exact Ht'|split; [exact Hh'|]]].
    specialize (Ho y E). unfold inplace in *. destruct (ext_attr t y) as [s e] eqn:Ee.
    assert (Hcov : 0 <= s /\ forall x, byte_of (t_w t) (view_of t y) x -> s <= x < e).
    { destruct y as [|v ex d]; cbn [ext_attr] in Ee.
      - injection Ee as <- <-. split; [lia|]. intros x. now apply base_bytes.
      - destruct (handle_P _ _ _ _ Hh E) as [_ [_ [Hex [_ Ho']]]]. split.
        + rewrite Ee in Hex. unfold extents in Hex. injection Hex as -> _. exact Ho'.
        + intros x Hx. pose proof (extents_cover _ _ _ Ho Hx) as H. cbn [view_of] in H. rewrite <- Hex, Ee in H.
          exact H. }
    destruct Hcov as [Hs Hcov]. unfold start_ok, reported. cbn [write set_dirty t_dirty t_copy t_mem t_w].
    split; [intros a b U; exact (update_start _ _ _ _ _ Hst Hs U)|].
    change (nbytes (write _ _ _)) with (nbytes t). intros x Hx.
    destruct (touches (t_w t) (view_of t y) x) eqn:T; intros Hne.
    + apply update_reported, Hcov. now apply touches_spec.
    + apply update_keeps. now apply Hp.
  - destruct Ho.
  - destruct Ho.
Qed.

Lemma direct_run l : forall t, direct_inv t -> each mirrored_direct t l -> direct_inv (run t l).
Proof.
  induction l as [|o l IH]; intros t Hi He; [exact Hi|]. destruct He as [Ho He].
  cbn [run fold_left]. apply IH; auto. now apply direct_step.
Qed.
Lemma create_direct w shape mem : 0 < w -> Forall (Z.le 0) shape -> direct_inv (create w shape mem true).
Proof.
  intros Hw Hs. split; [now split|]. split; [reflexivity|]. split; [apply create_handles|].
  split; [intros s e H; injection H as <- <-; lia|]. intros x _ C. now destruct C.
Qed.

Lemma pending_reported w shape mem l : 0 < w -> Forall (Z.le 0) shape ->
  let t0 := create w shape mem true in
  each mirrored_direct t0 l ->
  forall x, 0 <= x < nbytes (run t0 l) -> t_copy (run t0 l) x <> t_mem (run t0 l) x -> reported (run t0 l) x.
Proof.
  intros Hw Hs t0 He. exact (proj2 (proj2 (proj2 (proj2 (direct_run _ _ (create_direct _ _ _ Hw Hs) He))))).
Qed.
Lemma sync_after_set w shape mem l h key val : 0 < w -> Forall (Z.le 0) shape ->
  let t0 := create w shape mem true in
  each mirrored_direct t0 (l ++ [OSet h key val]) -> set_succeeds (run t0 l) h key ->
  in_sync (run t0 (l ++ [OSet h key val])).
Proof.
  intros Hw Hs t0 He Hok. apply each_app in He. destruct He as [H1 [H2 _]].
  rewrite run_app. cbn [run fold_left].
  apply (proj2 (direct_step _ _ (direct_run _ _ (create_direct _ _ _ Hw Hs) H1) H2) h key val eq_refl Hok).
Qed.

(** Assignments only, views of any depth. *)
Definition covered (w n : Z) (v : view) (d : Z * Z) : Prop :=
  forward_view v /\ 0 <= v_off v /\ 0 <= fst d /\ forall x, byte_of w v x -> fst d <= x < snd d.
Definition sets_inv (t : tstate) : Prop :=
  wf t /\ t_tracker t = true /\ handles_ok (covered (t_w t) (nbytes t)) t /\ start_ok t /\ in_sync t.

Lemma set_deep_sync t v ex d key val t' : wf t -> t_tracker t = true ->
  handle_ok (covered (t_w t) (nbytes t)) t (HView v ex d) -> in_sync t ->
  setitem t (HView v ex d) key val = Ok t' -> in_sync t' /\ t_dirty t' = None.
Proof.
  intros Hwf Ht [Hs [_ [_ [Hf [_ [Hd0 Hd]]]]]] Hsync S.
  apply setitem_cases in S. destruct S as [z [s [e [Hz [Hse ->]]]]]. rewrite Ht. destruct d as [a b].
  split; [|reflexivity]. cbn [fst snd] in *. set (t2 := write _ z val). intros x Hx.
  cbn [set_dirty t_copy t_mem] in *. change (t_mem (send t2 a b) x) with (t_mem t2 x).
  destruct (touches (t_w t) z x) eqn:T.
  - apply send_inside; auto. apply Hd. apply touches_spec in T. exact (sub_bytes _ _ _ _ _ Hs Hz T).
  - destruct (send_copy t2 a b x Hd0 Hx) as [H|H]; [exact H|]. rewrite H.
    unfold t2 at 2. cbn [write set_dirty t_mem t_w]. rewrite T. now apply Hsync.
Qed.

Lemma sets_step t o : sets_inv t -> mirrored_sets t o -> sets_inv (step t o).
Proof.
  intros [Hwf [Ht [Hh [Hst Hp]]]] Ho.
  assert (Hw' := step_wf t o Hwf).
  assert (Ht' : t_tracker (step t o) = true) by (destruct (step_same t o) as [_ [_ ->]]; exact Ht).
  assert (Hh' : handles_ok (covered (t_w (step t o)) (nbytes (step t o))) (step t o)).
  { rewrite step_nbytes. destruct (step_same t o) as [-> _]. apply step_handles_ok; auto.
    intros h key x z -> E Hx Hz. cbn in Ho.
    assert (Hv : shaped (view_of t x) /\ forward_view (view_of t x) /\ 0 <= v_off (view_of t x)).
    { destruct x as [|v ex d]; [split; [|split]; [now apply wf_view|now apply wf_view|cbn; lia]|].
      destruct Hx as [A [_ [_ [B [C _]]]]]. now split. }
    destruct Hv as [V1 [V2 V3]]. split; [exact (sub_forward _ _ _ Ho V2 Hz)|].
    pose proof (sub_inv _ _ _ Hz) as Hz'. pose proof (sub_dims_off _ _ _ _ _ V1 V2 Hz') as Hoff.
    split; [lia|]. split; [destruct x as [|v ex d]; cbn in *; lia|].
    intros b Hb. pose proof (sub_bytes _ _ _ _ _ V1 Hz Hb) as Hb'.
    destruct x as [|v ex d]; cbn [obj_extents fst snd]; [now apply base_bytes|].
    apply (extents_cover _ v b V2 Hb'). }
  assert (Hkeep : (t_dirty (step t o) = t_dirty t \/ t_dirty (step t o) = None) ->
                  (forall x, t_copy (step t o) x = t_copy t x) ->
                  (forall x, t_mem (step t o) x = t_mem t x) -> sets_inv (step t o)).
  { intros D C M. split; [exact Hw'|split; [exact Ht'|split; [exact Hh'|]]].
    split; [intros s e H; destruct D as [D|D]; rewrite D in H; [now apply Hst in H|discriminate]|].
    intros x. rewrite step_nbytes, C, M. apply Hp. }
  destruct o as [h key|h key val|h val|h val|]; cbn [step] in *.
  - apply Hkeep; destruct (nth_error (t_handles t) h) as [x|]; auto;
      destruct (getitem t x key) as [[|z e d]|]; auto; destruct (v_dims z); auto.
  - destruct (nth_error (t_handles t) h) as [y|] eqn:E; [|now apply Hkeep; auto].
    destruct (setitem t y key val) as [t'|] eqn:S; [|now apply Hkeep; auto].
    assert (in_sync t' /\ t_dirty t' = None) as [S1 S2].
    { destruct y as [|v ex d].
      - apply (set_base_sync t key val t'); auto.
        + intros x Hx C. now apply Hp in Hx.
        + apply Ho. now apply (handle_0 _ _ _ _ Hh E).
      - exact (set_deep_sync t v ex d key val t' Hwf Ht (handle_P _ _ _ _ Hh E) Hp S). }
    split; [exact Hw'|split; [exact Ht'|split; [exact Hh'|]]].
    split; [intros s e; rewrite S2; discriminate|exact S1].
  - destruct Ho.
  - destruct Ho.
  - apply Hkeep; auto.
Qed.
Lemma sets_run l : forall t, sets_inv t -> each mirrored_sets t l -> sets_inv (run t l).
Proof.
  induction l as [|o l IH]; intros t Hi He; [exact Hi|]. destruct He as [Ho He].
  cbn [run fold_left]. apply IH; auto. now apply sets_step.
Qed.
Lemma sync_sets w shape mem l : 0 < w -> Forall (Z.le 0) shape ->
  let t0 := create w shape mem true in each mirrored_sets t0 l -> in_sync (run t0 l).
Proof.
  intros Hw Hs t0 He. refine (proj2 (proj2 (proj2 (proj2 (sets_run _ t0 _ He))))).
  split; [now split|]. split; [reflexivity|]. split; [apply create_handles|].
  split; [intros s e H; injection H as <- <-; lia|]. intros x _. reflexivity.
Qed.

(** * Counterexamples *)
(** A reversed slice. *)
Lemma reversed_unreported :
  let t1 := run (create 1 [4] (fun _ => 0) false) [OClear] in
  let t2 := step t1 (OSet 0 [XSlice None None (-1)] (fun _ => 7)) in
  t_mem t2 0 <> t_mem t1 0 /\ t_dirty t2 = Some (3, 1) /\ ~ reported t2 0.
Proof.
  split; [discriminate|]. split; [reflexivity|].
  intros [s [e [E H]]]. cbn in E. injection E as <- <-. lia.
Qed.
(** One element of a view: V = A[2:]; V[0] = 7. *)
Lemma scalar_view_unreported :
  let t1 := run (create 1 [4] (fun _ => 0) false) [OGet 0 [XSlice (Some 2) None 1]; OClear] in
  let t2 := step t1 (OSet 1 [XInt 0] (fun _ => 7)) in
  t_mem t2 2 <> t_mem t1 2 /\ t_dirty t2 = Some (0, 1) /\ ~ reported t2 2.
Proof.
  split; [discriminate|]. split; [reflexivity|].
  intros [s [e [E H]]]. cbn in E. injection E as <- <-. lia.
Qed.
(** A /= 2. *)
Lemma division_unreported :
  let t1 := run (create 1 [4] (fun _ => 8) false) [OClear] in
  let t2 := step t1 (OOther 0 (fun _ => 4)) in
  t_mem t2 0 <> t_mem t1 0 /\ t_dirty t2 = None.
Proof. split; [discriminate|reflexivity]. Qed.
(** A += 1 never reaches the tracker. *)
Lemma inplace_unsent :
  let t := run (create 1 [4] (fun _ => 0) true) [OInplace 0 (fun _ => 1)] in ~ in_sync t.
Proof. intros t H. specialize (H 0 ltac:(cbn; lia)). discriminate. Qed.
(** A[0] = 0, then A[::-1] = 7. *)
Lemma reversed_unsent :
  let t := run (create 1 [4] (fun _ => 0) true)
               [OSet 0 [XInt 0] (fun _ => 0); OSet 0 [XSlice None None (-1)] (fun _ => 7)] in
  ~ in_sync t /\ t_dirty t = None.
Proof. split; [|reflexivity]. intros H. specialize (H 0 ltac:(cbn; lia)). discriminate. Qed.
(** V = A[2:4]; W = V[0:1]; A += 1; W[:] = 7: the tracker never hears of A[0], and
    the pending extent is dropped. *)
Lemma nested_view_unsent :
  let t := run (create 1 [4] (fun _ => 0) true)
               [OGet 0 [XSlice (Some 2) (Some 4) 1]; OGet 1 [XSlice (Some 0) (Some 1) 1];
                OInplace 0 (fun _ => 1); OSet 2 [XSlice None None 1] (fun _ => 7)] in
  ~ in_sync t /\ t_dirty t = None.
Proof. split; [|reflexivity]. intros H. specialize (H 0 ltac:(cbn; lia)). discriminate. Qed.

(** More indices than axes. *)
Lemma too_many v key : (length (v_dims v) < length key)%nat -> (forall a b c, In (XSlice a b c) key -> c <> 0) -> sub v key = Err IndexError.
Proof.
  unfold sub. intros L S.
  assert (G : forall key dims off, (length dims < length key)%nat -> (forall a b c, In (XSlice a b c) key -> c <> 0) -> sub_dims off dims key = Err IndexError).
  { clear. induction key as [|k key IH]; intros dims off L S; [cbn in L; lia|].
    destruct dims as [|[n s] dims]; [destruct k; reflexivity|]. cbn [length] in L.
    assert (S' : forall a b c, In (XSlice a b c) key -> c <> 0) by (intros a b c H; apply (S a b c); now right).
    destruct k as [i|a b c]; cbn [sub_dims].
    - destruct (norm_index n i); [apply IH; [lia|exact S']|reflexivity].
    - destruct (Z.eqb_spec c 0) as [E|_]; [exfalso; apply (S a b c); [now left|exact E]|].
      destruct (_ =? 0); rewrite IH by (try lia; exact S'); reflexivity. }
  rewrite G by assumption. reflexivity.
Qed.
