(** Facts about Python slices. *)
From Verif Require Import Base Slice.
Local Open Scope Z_scope.

Lemma pick_app {A} (l : list A) i j : pick l (i ++ j) = (pick l i ++ pick l j)%list.
Proof. apply flat_map_app. Qed.
Lemma pick_seq {A} (l : list A) a n : (a + n <= length l)%nat ->
  pick l (seq a n) = firstn n (skipn a l).
Proof.
  revert a. induction n as [|n IH]; intros a H; [now rewrite firstn_O|].
  cbn [seq]. change (a :: seq (S a) n) with ([a] ++ seq (S a) n)%list. rewrite pick_app, IH by lia.
  cbn [pick flat_map]. destruct (nth_error l a) as [x|] eqn:E; [|apply nth_error_None in E; lia].
  assert (Hs : skipn a l = x :: skipn (S a) l).
  { clear - E. revert a E. induction l as [|y l IH]; intros [|a] E; cbn in E; try discriminate.
    - injection E as ->. reflexivity.
    - cbn [skipn]. apply IH in E. rewrite E. reflexivity. }
  rewrite Hs. reflexivity.
Qed.

Lemma norm_index_range n i : 0 <= i < n -> norm_index n i = Some i.
Proof.
  intros H. unfold norm_index. destruct (Z.ltb_spec i 0); [lia|].
  destruct (Z.leb_spec 0 i), (Z.ltb_spec i n); cbn; auto; lia.
Qed.
Lemma norm_index_neg n i : - n <= i < 0 -> norm_index n i = Some (i + n).
Proof.
  intros H. unfold norm_index. destruct (Z.ltb_spec i 0); [|lia].
  destruct (Z.leb_spec 0 (i + n)), (Z.ltb_spec (i + n) n); cbn; auto; lia.
Qed.
Lemma norm_index_bounds n i j : norm_index n i = Some j -> 0 <= j < n /\ (j = i \/ j = i + n).
Proof.
  unfold norm_index. destruct (Z.ltb_spec i 0).
  - destruct (Z.leb_spec 0 (i + n)), (Z.ltb_spec (i + n) n); cbn; intros E; inversion E; subst; lia.
  - destruct (Z.leb_spec 0 i), (Z.ltb_spec i n); cbn; intros E; inversion E; subst; lia.
Qed.
Lemma norm_index_none n i : norm_index n i = None <-> (i < - n \/ n <= i).
Proof.
  unfold norm_index. destruct (Z.ltb_spec i 0).
  - destruct (Z.leb_spec 0 (i + n)), (Z.ltb_spec (i + n) n); cbn; split; intros E; (discriminate || lia || reflexivity).
  - destruct (Z.leb_spec 0 i), (Z.ltb_spec i n); cbn; split; intros E; (discriminate || lia || reflexivity).
Qed.

Lemma range_eq {A} (l : list A) a b : (a <= b <= length l)%nat ->
  range l (Z.of_nat a) (Z.of_nat b) = firstn (b - a) (skipn a l).
Proof.
  intros H. unfold range, clamp, shift.
  destruct (Z.ltb_spec (Z.of_nat a) 0); [lia|]. destruct (Z.ltb_spec (Z.of_nat b) 0); [lia|].
  rewrite !Z.min_r, !Z.max_r by lia. f_equal; [|f_equal]; lia.
Qed.

(** Unit-step slices are contiguous. *)
Lemma slice_indices_1 n a b : 0 <= n ->
  slice_indices n a b 1 =
  seq (Z.to_nat (slice_start n 1 a)) (Z.to_nat (slice_stop n 1 b - slice_start n 1 a)).
Proof.
  intros Hn. unfold slice_indices, slice_count. cbn [Z.ltb Z.compare].
  assert (H0 : 0 <= slice_start n 1 a) by (destruct a; cbn; unfold clamp; lia).
  set (s := slice_start n 1 a) in *. set (t := slice_stop n 1 b).
  assert (Hc : Z.to_nat (if s <? t then (t - s - 1) / 1 + 1 else 0) = Z.to_nat (t - s)).
  { destruct (Z.ltb_spec s t); rewrite ?Z.div_1_r; lia. }
  rewrite Hc. generalize (Z.to_nat (t - s)) as k. intros k.
  assert (G : forall k i, map (fun k0 => Z.to_nat (s + Z.of_nat k0 * 1)) (seq i k) = seq (Z.to_nat s + i) k).
  { clear k. induction k as [|k IH]; intros i; cbn [seq map]; auto. rewrite IH. f_equal; [lia|]. f_equal. lia. }
  rewrite G. f_equal. lia.
Qed.
Lemma slice_start_1 n a : 0 <= n -> 0 <= slice_start n 1 a <= n.
Proof. intros. destruct a; cbn; unfold clamp; lia. Qed.
Lemma slice_stop_1 n b : 0 <= n -> 0 <= slice_stop n 1 b <= n.
Proof. intros. destruct b; cbn; unfold clamp; lia. Qed.

Lemma get_slice_1 {A} (l : list A) a b :
  let s := slice_start (Z.of_nat (length l)) 1 a in
  let t := slice_stop (Z.of_nat (length l)) 1 b in
  get_slice l a b 1 = Ok (firstn (Z.to_nat (t - s)) (skipn (Z.to_nat s) l)).
Proof.
  intros s t. unfold get_slice. cbn [Z.eqb]. rewrite slice_indices_1 by lia. f_equal. fold s t.
  pose proof (slice_start_1 (Z.of_nat (length l)) a ltac:(lia)) as Hs.
  pose proof (slice_stop_1 (Z.of_nat (length l)) b ltac:(lia)) as Ht. fold s in Hs. fold t in Ht.
  destruct (Z.le_gt_cases s t).
  - apply pick_seq. lia.
  - replace (Z.to_nat (t - s)) with O by lia. reflexivity.
Qed.
