(** Proofs about the ready-made shapes. *)
From Coq Require Import Reals Lra Psatz Nsatz.
From Verif Require Import Base Glm Shapes ShapesSpec.
Local Open Scope R_scope.

(** ** The faces of a sphere. *)
Definition tri1 (s i j : nat) : list nat := [corner s i j; corner s i (j + 1); corner s (i + 1) (j + 1)].
Definition tri2 (s i j : nat) : list nat := [corner s (i + 1) (j + 1); corner s (i + 1) j; corner s i j].
Definition cell_faces (s i j : nat) : list (list nat) := [tri1 s i j; tri2 s i j].

Lemma by3_app (g : nat -> list nat) (h : nat -> list (list nat)) l r :
  (forall j r, by3 (g j ++ r) = (h j ++ by3 r)%list) ->
  by3 (flat_map g l ++ r) = (flat_map h l ++ by3 r)%list.
Proof.
  intro H. induction l as [|j l IH]; cbn; [reflexivity|]. now rewrite <- !app_assoc, H, IH.
Qed.
Lemma sphere_faces_eq s t :
  sphere_faces s t = flat_map (fun i => flat_map (cell_faces s i) (seq 0 s)) (seq 0 t).
Proof.
  unfold sphere_faces, sphere_indices. rewrite !Nat.add_sub.
  rewrite <- (app_nil_r (flat_map _ (seq 0 t))) at 1.
  rewrite (by3_app _ (fun i => flat_map (cell_faces s i) (seq 0 s))); [apply app_nil_r|].
  intros i r. apply by3_app. intros j r'. cbn. unfold cell_faces, tri1, tri2, corner. cbn.
  repeat match goal with |- _ :: _ = _ :: _ => apply f_equal2 end; try lia; reflexivity.
Qed.
Lemma sphere_face_in s t f :
  In f (sphere_faces s t) <-> exists i j, (i < t)%nat /\ (j < s)%nat /\ (f = tri1 s i j \/ f = tri2 s i j).
Proof.
  rewrite sphere_faces_eq, in_flat_map. split.
  - intros (i & Hi & H). apply in_flat_map in H. destruct H as (j & Hj & H).
    apply in_seq in Hi, Hj. exists i, j. cbn in H. intuition (auto; lia).
  - intros (i & j & Hi & Hj & H). exists i. split; [apply in_seq; lia|].
    apply in_flat_map. exists j. split; [apply in_seq; lia|]. cbn. intuition.
Qed.
Lemma flat_map_const {A B} (g : A -> list B) n l : (forall x, length (g x) = n) -> length (flat_map g l) = (length l * n)%nat.
Proof. intro H. induction l; cbn; [reflexivity|]. now rewrite app_length, H, IHl. Qed.
Lemma sphere_face_count s t : length (sphere_faces s t) = (2 * (s * t))%nat.
Proof.
  rewrite sphere_faces_eq. rewrite (flat_map_const _ (s * 2)), seq_length; [lia|].
  intro i. rewrite (flat_map_const _ 2), seq_length; reflexivity.
Qed.

(** ** Its vertices. *)
Lemma linspace_length a b n : length (linspace a b n) = n.
Proof. destruct n as [|[|n]]; [reflexivity|reflexivity|]. unfold linspace. now rewrite map_length, seq_length. Qed.
Lemma nth_seq_all n i : (i < n)%nat -> nth_error (seq 0 n) i = Some i.
Proof.
  intro H. rewrite (nth_error_nth' (seq 0 n) 0%nat) by (now rewrite seq_length). now rewrite seq_nth.
Qed.
Lemma linspace_nth b n i : (0 < n)%nat -> (i <= n)%nat ->
  nth_error (linspace 0 b (n + 1)) i = Some (INR i * (b / INR n)).
Proof.
  intros N H. rewrite Nat.add_1_r. destruct n as [|n]; [lia|]. cbn [linspace].
  rewrite nth_error_map, nth_seq_all by lia. cbn [option_map]. f_equal. now rewrite Rplus_0_l, Rminus_0_r.
Qed.
Lemma repeat_each_nth l n i j : (j < n)%nat -> nth_error (repeat_each l n) (i * n + j) = nth_error l i.
Proof.
  intro H. unfold repeat_each. revert i. induction l as [|x l IH]; intro i; cbn [flat_map].
  - now destruct (i * n + j)%nat, i.
  - destruct i as [|i]; cbn [nth_error].
    + rewrite nth_error_app1 by (rewrite repeat_length; lia). apply nth_error_repeat. lia.
    + rewrite nth_error_app2 by (rewrite repeat_length; nia). rewrite repeat_length.
      rewrite <- IH. f_equal. nia.
Qed.
Lemma repeat_each_length l n : length (repeat_each l n) = (length l * n)%nat.
Proof. apply flat_map_const. intro x. apply repeat_length. Qed.
Lemma tile_nth l n i j : (i < n)%nat -> (j < length l)%nat -> nth_error (tile l n) (i * length l + j) = nth_error l j.
Proof.
  intros Hi Hj. unfold tile. revert i Hi. induction n as [|n IH]; intros i Hi; [lia|]. cbn [repeat concat].
  destruct i as [|i].
  - now rewrite nth_error_app1 by lia.
  - rewrite nth_error_app2 by nia. rewrite <- (IH i) by lia. f_equal. nia.
Qed.
Lemma tile_length l n : length (tile l n) = (n * length l)%nat.
Proof. unfold tile. induction n; cbn; [reflexivity|]. now rewrite app_length, IHn. Qed.
Lemma nth_combine {A B} (l : list A) (m : list B) i x y :
  nth_error l i = Some x -> nth_error m i = Some y -> nth_error (combine l m) i = Some (x, y).
Proof. revert l m. induction i as [|i IH]; intros [|a l] [|b m]; cbn; intros H K; try discriminate; [congruence|auto]. Qed.

Lemma sphere_vertex_count r s t : length (sphere_vertices r s t) = ((s + 1) * (t + 1))%nat.
Proof.
  unfold sphere_vertices. rewrite map_length, combine_length, repeat_each_length, tile_length, !linspace_length. lia.
Qed.
Definition on_sphere (r a b : R) : vec3 := V3 (sin a * sin b * r) (sin a * cos b * r) (cos a * r).
Lemma sphere_vertex_nth r s t i j : (0 < s)%nat -> (0 < t)%nat -> (i <= t)%nat -> (j <= s)%nat ->
  nth_error (sphere_vertices r s t) (corner s i j) =
  Some (on_sphere r (INR i * (PI / INR t)) (INR j * (2 * PI / INR s))).
Proof.
  intros S T Hi Hj. unfold sphere_vertices, corner. rewrite nth_error_map.
  rewrite (nth_combine _ _ _ (INR i * (PI / INR t)) (INR j * (2 * PI / INR s))); [reflexivity| |].
  - rewrite repeat_each_nth by lia. now apply linspace_nth.
  - rewrite <- (linspace_length 0 (2 * PI) (s + 1)) at 2. rewrite tile_nth by (rewrite ?linspace_length; lia).
    now apply linspace_nth.
Qed.
Lemma sphere_vertex r s t i j : (0 < s)%nat -> (0 < t)%nat -> (i <= t)%nat -> (j <= s)%nat ->
  vertex (sphere_vertices r s t) (corner s i j) =
  on_sphere r (INR i * (PI / INR t)) (INR j * (2 * PI / INR s)).
Proof. intros S T Hi Hj. unfold vertex. erewrite nth_error_nth; [reflexivity|]. now apply sphere_vertex_nth. Qed.

Lemma sphere_round r s t v : In v (sphere_vertices r s t) -> x3 v ^ 2 + y3 v ^ 2 + z3 v ^ 2 = r ^ 2.
Proof.
  unfold sphere_vertices. rewrite in_map_iff. intros ([a b] & <- & _). cbn [x3 y3 z3 fst snd].
  pose proof (sin2_cos2 a) as A. pose proof (sin2_cos2 b) as B. unfold Rsqr in *.
  transitivity (r ^ 2 * (sin a * sin a * (sin b * sin b + cos b * cos b) + cos a * cos a)); [ring|].
  rewrite B, Rmult_1_r, A. ring.
Qed.

Lemma corner_lt s t i j : (i <= t)%nat -> (j <= s)%nat -> (corner s i j < (s + 1) * (t + 1))%nat.
Proof. unfold corner. nia. Qed.
Lemma sphere_valid r s t : valid_mesh (sphere_vertices r s t) (sphere_faces s t).
Proof.
  unfold valid_mesh. apply Forall_forall. intros f H. apply sphere_face_in in H.
  rewrite sphere_vertex_count.
  destruct H as (i & j & Hi & Hj & [-> | ->]); unfold tri1, tri2; (split; [reflexivity|]); split;
    try (repeat constructor; apply corner_lt; lia); unfold corner.
  all: repeat constructor; cbn; intuition nia.
Qed.

(** ** Cells. *)
Lemma corner_inj s i j i' j' : (j <= s)%nat -> (j' <= s)%nat -> corner s i j = corner s i' j' -> i = i' /\ j = j'.
Proof. unfold corner. intros. assert (i = i') by nia. subst. split; lia. Qed.

Lemma filter_none {A} (p : A -> bool) l : (forall x, In x l -> p x = false) -> filter p l = [].
Proof. induction l as [|a l IH]; cbn; intro H; [reflexivity|]. rewrite (H a) by auto. apply IH. auto. Qed.
Lemma filter_flat_map {A B} (p : B -> bool) (g : A -> list B) l :
  filter p (flat_map g l) = flat_map (fun x => filter p (g x)) l.
Proof. induction l; cbn; [reflexivity|]. rewrite filter_app. now rewrite IHl. Qed.
Lemma flat_map_single {B} (g : nat -> list B) n k : (k < n)%nat -> (forall x, x <> k -> (x < n)%nat -> g x = []) ->
  flat_map g (seq 0 n) = g k.
Proof.
  intros K H. assert (G : forall m a, (a + m <= n)%nat -> flat_map g (seq a m) = if ((a <=? k) && (k <? a + m))%nat then g k else []).
  { induction m as [|m IH]; intros a L; cbn [seq flat_map].
    - destruct ((a <=? k) && (k <? a + 0))%nat eqn:E; [|reflexivity].
      apply andb_true_iff in E. destruct E as [E1 E2]. apply Nat.leb_le in E1. apply Nat.ltb_lt in E2. lia.
    - rewrite IH by lia. destruct (Nat.eq_dec a k) as [->|N].
      + replace ((S k <=? k) && _)%nat%bool with false; [|symmetry; apply andb_false_iff; left; apply Nat.leb_gt; lia].
        rewrite app_nil_r. replace ((k <=? k) && _)%nat%bool with true; [reflexivity|].
        symmetry. apply andb_true_iff. split; [apply Nat.leb_le|apply Nat.ltb_lt]; lia.
      + rewrite (H a N) by lia. cbn [app].
        replace ((a <=? k) && (k <? a + S m))%nat with ((S a <=? k) && (k <? S a + m))%nat; [reflexivity|].
        apply eq_true_iff_eq. rewrite !andb_true_iff, !Nat.leb_le, !Nat.ltb_lt. lia. }
  rewrite G by lia. replace ((0 <=? k) && (k <? 0 + n))%nat with true; [reflexivity|].
  symmetry. apply andb_true_iff. split; [apply Nat.leb_le|apply Nat.ltb_lt]; lia.
Qed.

Lemma inside_spec s i j f : inside_cell s i j f = true <-> forall v, In v f -> In v (cell s i j).
Proof.
  unfold inside_cell. rewrite forallb_forall. split; intros H v Hv; specialize (H v Hv).
  - apply existsb_exists in H. destruct H as (w & Hw & E). apply Nat.eqb_eq in E. now subst.
  - apply existsb_exists. exists v. split; [exact H|apply Nat.eqb_refl].
Qed.
Lemma not_inside s i j i' j' f : (j < s)%nat -> (j' < s)%nat -> (i <> i' \/ j <> j') -> In f (cell_faces s i' j') ->
  inside_cell s i j f = false.
Proof.
  intros J J' N H. destruct (inside_cell s i j f) eqn:E; [|reflexivity]. exfalso.
  rewrite inside_spec in E.
  assert (A : In (corner s i' j') (cell s i j)) by (apply E; destruct H as [<-|[<-|[]]]; cbn; auto).
  assert (B : In (corner s (i' + 1) (j' + 1)) (cell s i j)) by (apply E; destruct H as [<-|[<-|[]]]; cbn; auto).
  destruct A as [A|[A|[A|[A|[]]]]]; apply corner_inj in A; try lia;
    destruct B as [B|[B|[B|[B|[]]]]]; apply corner_inj in B; lia.
Qed.
Lemma inside_own s i j f : In f (cell_faces s i j) -> inside_cell s i j f = true.
Proof.
  intro H. apply inside_spec. intros v Hv.
  destruct H as [<-|[<-|[]]]; unfold tri1, tri2, cell in *; cbn [In] in *; intuition.
Qed.
Lemma cell_two s t i j : (i < t)%nat -> (j < s)%nat ->
  filter (inside_cell s i j) (sphere_faces s t) = [tri1 s i j; tri2 s i j].
Proof.
  intros Hi Hj. rewrite sphere_faces_eq, filter_flat_map.
  rewrite (flat_map_single _ t i Hi).
  - rewrite filter_flat_map. rewrite (flat_map_single _ s j Hj).
    + cbn [cell_faces filter]. rewrite !inside_own by (cbn; auto). reflexivity.
    + intros j' N J'. apply filter_none. intros f Hf. apply (not_inside s i j i j' f); auto.
  - intros i' N _. apply filter_none. intros f Hf. apply in_flat_map in Hf. destruct Hf as (j' & J' & Hf).
    apply in_seq in J'. apply (not_inside s i j i' j' f); auto; lia.
Qed.

(** ** Edges. *)
Definition cell_edges (s i j : nat) : list (nat * nat) :=
  [(corner s i j, corner s i (j + 1)); (corner s i (j + 1), corner s (i + 1) (j + 1)); (corner s (i + 1) (j + 1), corner s i j);
   (corner s (i + 1) (j + 1), corner s (i + 1) j); (corner s (i + 1) j, corner s i j); (corner s i j, corner s (i + 1) (j + 1))].
Lemma flat_map_flat_map {A B C} (f : B -> list C) (g : A -> list B) l :
  flat_map f (flat_map g l) = flat_map (fun x => flat_map f (g x)) l.
Proof. induction l; cbn; [reflexivity|]. rewrite flat_map_app. now rewrite IHl. Qed.
Lemma flat_map_ext' {A B} (f g : A -> list B) l : (forall x, f x = g x) -> flat_map f l = flat_map g l.
Proof. intro H. induction l; cbn; [reflexivity|]. now rewrite H, IHl. Qed.
Lemma sphere_edges_eq s t : edges (sphere_faces s t) = flat_map (fun i => flat_map (cell_edges s i) (seq 0 s)) (seq 0 t).
Proof.
  unfold edges. rewrite sphere_faces_eq, flat_map_flat_map. apply flat_map_ext'. intro i.
  rewrite flat_map_flat_map. apply flat_map_ext'. reflexivity.
Qed.
Lemma sphere_edge_in s t e :
  In e (edges (sphere_faces s t)) <-> exists i j, (i < t)%nat /\ (j < s)%nat /\ In e (cell_edges s i j).
Proof.
  rewrite sphere_edges_eq, in_flat_map. split.
  - intros (i & Hi & H). apply in_flat_map in H. destruct H as (j & Hj & H). apply in_seq in Hi, Hj.
    exists i, j. split; [lia|split; [lia|exact H]].
  - intros (i & j & Hi & Hj & H). exists i. split; [apply in_seq; lia|].
    apply in_flat_map. exists j. split; [apply in_seq; lia|exact H].
Qed.
Lemma cell_edges_inj s i j i' j' e : (j < s)%nat -> (j' < s)%nat ->
  In e (cell_edges s i j) -> In e (cell_edges s i' j') -> i = i' /\ j = j'.
Proof.
  intros J J' H H'. unfold cell_edges in *. cbn [In] in H, H'.
  repeat match goal with K : _ \/ _ |- _ => destruct K | K : False |- _ => destruct K end; subst e;
  match goal with K : _ = _ |- _ => injection K as A B; apply corner_inj in A; try lia; apply corner_inj in B; lia end.
Qed.
Lemma cell_edges_nodup s i j : (j < s)%nat -> NoDup (cell_edges s i j).
Proof.
  intro J. unfold cell_edges. repeat constructor; cbn [In];
  try (intro H; repeat match goal with K : _ \/ _ |- _ => destruct K | K : False |- _ => destruct K end;
  match goal with K : _ = _ |- _ =>
    pose proof (f_equal fst K) as A; pose proof (f_equal snd K) as B; cbn [fst snd] in A, B; clear K;
    apply corner_inj in A; try lia; apply corner_inj in B; lia end).
Qed.
Lemma nodup_flat_map {B} (g : nat -> list B) l : NoDup l -> (forall x, In x l -> NoDup (g x)) ->
  (forall x y e, In x l -> In y l -> In e (g x) -> In e (g y) -> x = y) -> NoDup (flat_map g l).
Proof.
  intros N. induction N as [|x l X N IH]; cbn; intros H D; [constructor|].
  assert (A : NoDup (flat_map g l)) by (apply IH; auto; intros; eapply D; eauto).
  assert (P : NoDup (g x)) by auto.
  assert (E : forall e, In e (g x) -> ~ In e (flat_map g l)).
  { intros e He Hf. apply in_flat_map in Hf. destruct Hf as (y & Hy & Hf). apply X. now rewrite (D x y e); auto. }
  clear - A P E. induction P as [|b m Hb P IH]; cbn; [exact A|].
  constructor; [|apply IH; intros e He; apply E; cbn; auto].
  intro K. apply in_app_or in K. destruct K as [K|K]; [auto|]. apply (E b); cbn; auto.
Qed.
Lemma sphere_edges_nodup s t : NoDup (edges (sphere_faces s t)).
Proof.
  rewrite sphere_edges_eq. apply nodup_flat_map; [apply seq_NoDup| |].
  - intros i _. apply nodup_flat_map; [apply seq_NoDup| |].
    + intros j J. apply in_seq in J. apply cell_edges_nodup. lia.
    + intros j j' e J J' H H'. apply in_seq in J, J'.
      destruct (cell_edges_inj s i j i j' e ltac:(lia) ltac:(lia) H H'). lia.
  - intros i i' e _ _ H H'. apply in_flat_map in H, H'. destruct H as (j & J & H), H' as (j' & J' & H').
    apply in_seq in J, J'. destruct (cell_edges_inj s i j i' j' e ltac:(lia) ltac:(lia) H H'). lia.
Qed.

(** ** Places. *)
Lemma inr_pos n : (0 < n)%nat -> 0 < INR n.
Proof. intro H. now apply lt_0_INR. Qed.
Lemma sphere_seam r s t i : (0 < s)%nat -> (0 < t)%nat -> (i <= t)%nat ->
  vertex (sphere_vertices r s t) (corner s i s) = vertex (sphere_vertices r s t) (corner s i 0).
Proof.
  intros S T I. rewrite !sphere_vertex by lia. pose proof (inr_pos s S) as P.
  replace (INR s * (2 * PI / INR s)) with (2 * PI) by (field; lra).
  cbn [INR]. rewrite Rmult_0_l. unfold on_sphere. now rewrite sin_2PI, cos_2PI, sin_0, cos_0.
Qed.
Lemma sphere_north r s t j : (0 < s)%nat -> (0 < t)%nat -> (j <= s)%nat ->
  vertex (sphere_vertices r s t) (corner s 0 j) = V3 0 0 r.
Proof.
  intros S T J. rewrite sphere_vertex by lia. cbn [INR]. rewrite Rmult_0_l. unfold on_sphere.
  rewrite sin_0, cos_0. f_equal; ring.
Qed.
Lemma sphere_south r s t j : (0 < s)%nat -> (0 < t)%nat -> (j <= s)%nat ->
  vertex (sphere_vertices r s t) (corner s t j) = V3 0 0 (- r).
Proof.
  intros S T J. rewrite sphere_vertex by lia. pose proof (inr_pos t T) as P.
  replace (INR t * (PI / INR t)) with PI by (field; lra). unfold on_sphere.
  rewrite sin_PI, cos_PI. f_equal; ring.
Qed.

(** Every edge is met by an edge at the same place in the opposite direction,
    or has no length. *)
Lemma sphere_watertight r s t u v : let at_ := vertex (sphere_vertices r s t) in
  In (u, v) (edges (sphere_faces s t)) ->
  at_ u = at_ v \/ exists u' v', In (u', v') (edges (sphere_faces s t)) /\ at_ u' = at_ v /\ at_ v' = at_ u.
Proof.
  intros at_ H. apply sphere_edge_in in H. destruct H as (i & j & I & J & H).
  assert (E : forall i' j' e, (i' < t)%nat -> (j' < s)%nat -> In e (cell_edges s i' j') -> In e (edges (sphere_faces s t))).
  { intros i' j' e ? ? ?. apply sphere_edge_in. exists i', j'. auto. }
  unfold cell_edges in H. cbn [In] in H. destruct H as [H|[H|[H|[H|[H|[H|[]]]]]]]; injection H as <- <-.
  - destruct i as [|i].
    + left. unfold at_. now rewrite !sphere_north by lia.
    + right. exists (corner s (i + 1) (j + 1)), (corner s (i + 1) j). split.
      * apply (E i j); [lia|lia|]. cbn [cell_edges In]. auto.
      * rewrite Nat.add_1_r with (n := i). auto.
  - right. destruct (Nat.eq_dec (j + 1) s) as [Q|Q].
    + exists (corner s (i + 1) 0), (corner s i 0). split.
      * apply (E i 0%nat); [lia|lia|]. cbn [cell_edges In]. auto 7.
      * rewrite Q. unfold at_. now rewrite !sphere_seam by lia.
    + exists (corner s (i + 1) (j + 1)), (corner s i (j + 1)). split; [|auto].
      apply (E i (j + 1)%nat); [lia|lia|]. cbn [cell_edges In]. auto 7.
  - right. exists (corner s i j), (corner s (i + 1) (j + 1)). split; [|auto].
    apply (E i j); [lia|lia|]. cbn [cell_edges In]. auto 8.
  - destruct (Nat.eq_dec (i + 1) t) as [Q|Q].
    + left. rewrite Q. unfold at_. now rewrite !sphere_south by lia.
    + right. exists (corner s (i + 1) j), (corner s (i + 1) (j + 1)). split; [|auto].
      apply (E (i + 1)%nat j); [lia|lia|]. cbn [cell_edges In]. auto.
  - right. destruct j as [|j].
    + exists (corner s i s), (corner s (i + 1) s). split; [|unfold at_; now rewrite !sphere_seam by lia].
      apply (E i (s - 1)%nat); [lia|lia|]. cbn [cell_edges In]. replace (s - 1 + 1)%nat with s by lia. auto.
    + exists (corner s i (j + 1)), (corner s (i + 1) (j + 1)). rewrite Nat.add_1_r with (n := j). split; [|auto].
      apply (E i j); [lia|lia|]. cbn [cell_edges In]. rewrite Nat.add_1_r with (n := j). auto.
  - right. exists (corner s (i + 1) (j + 1)), (corner s i j). split; [|auto].
    apply (E i j); [lia|lia|]. cbn [cell_edges In]. auto.
Qed.

(** ** Which way the triangles go round. *)
Lemma product1 r a b a' b' :
  triple_product (on_sphere r a b) (on_sphere r a b') (on_sphere r a' b') = r ^ 3 * (sin a * sin (b' - b) * sin (a' - a)).
Proof.
  unfold triple_product, on_sphere. cbn [x3 y3 z3]. rewrite !sin_minus.
  ring.
Qed.
Lemma product2 r a b a' b' :
  triple_product (on_sphere r a' b') (on_sphere r a' b) (on_sphere r a b) = r ^ 3 * (sin a' * sin (b' - b) * sin (a' - a)).
Proof. unfold triple_product, on_sphere. cbn [x3 y3 z3]. rewrite !sin_minus. ring. Qed.

Lemma sphere_outward r s t f : 0 < r -> (3 <= s)%nat -> (2 <= t)%nat -> In f (sphere_faces s t) ->
  let at_ := vertex (sphere_vertices r s t) in
  anticlockwise (sphere_vertices r s t) f \/
  exists u v, In u f /\ In v f /\ u <> v /\ at_ u = at_ v /\ (at_ u = V3 0 0 r \/ at_ u = V3 0 0 (- r)).
Proof.
  intros Hr S T H at_. apply sphere_face_in in H. destruct H as (i & j & I & J & H).
  pose proof (inr_pos s ltac:(lia)) as PS. pose proof (inr_pos t ltac:(lia)) as PT. pose proof PI_RGT_0 as PP.
  assert (S3 : 3 <= INR s) by (apply (le_INR 3) in S; cbn in S; lra).
  assert (T2 : 2 <= INR t) by (apply (le_INR 2) in T; cbn in T; lra).
  assert (D : forall k, INR (k + 1) = INR k + 1) by (intro k; now rewrite plus_INR).
  assert (QS : 0 < PI / INR s) by (now apply Rdiv_lt_0_compat).
  assert (QT : 0 < PI / INR t) by (now apply Rdiv_lt_0_compat).
  assert (MS : PI / INR s * INR s = PI) by (field; lra).
  assert (MT : PI / INR t * INR t = PI) by (field; lra).
  assert (B : 0 < sin (INR (j + 1) * (2 * PI / INR s) - INR j * (2 * PI / INR s))).
  { rewrite D. replace (_ - _) with (2 * (PI / INR s)) by (field; lra). apply sin_gt_0; nra. }
  assert (A : 0 < sin (INR (i + 1) * (PI / INR t) - INR i * (PI / INR t))).
  { rewrite D. replace (_ - _) with (PI / INR t) by (field; lra). apply sin_gt_0; nra. }
  assert (R3 : 0 < r ^ 3) by (now apply pow_lt).
  assert (P : forall k, (0 < k < t)%nat -> 0 < sin (INR k * (PI / INR t))).
  { intros k [K1 K2]. apply lt_INR in K1, K2. cbn in K1. apply sin_gt_0; nra. }
  unfold anticlockwise. destruct H as [-> | ->]; unfold tri1, tri2; cbn [nth].
  - rewrite !sphere_vertex by lia. destruct i as [|i].
    + right. exists (corner s 0 j), (corner s 0 (j + 1)). cbn [In]. unfold at_. rewrite !sphere_north by lia.
      repeat split; auto. unfold corner. lia.
    + left. rewrite product1. specialize (P (Datatypes.S i) ltac:(lia)).
      apply Rmult_lt_0_compat; [exact R3|]. apply Rmult_lt_0_compat; [|exact A]. now apply Rmult_lt_0_compat.
  - rewrite !sphere_vertex by lia. destruct (Nat.eq_dec (i + 1) t) as [Q|Q].
    + right. exists (corner s (i + 1) (j + 1)), (corner s (i + 1) j). cbn [In]. unfold at_. rewrite Q, !sphere_south by lia.
      repeat split; auto. unfold corner. lia.
    + left. rewrite product2. specialize (P (i + 1)%nat ltac:(lia)).
      apply Rmult_lt_0_compat; [exact R3|]. apply Rmult_lt_0_compat; [|exact A]. now apply Rmult_lt_0_compat.
Qed.

(** ** Polyhedra: what can be read off the tables. *)
Fixpoint distinct (l : list nat) : bool :=
  match l with [] => true | x :: r => negb (existsb (Nat.eqb x) r) && distinct r end.
Lemma distinct_ok l : distinct l = true -> NoDup l.
Proof.
  induction l as [|x l IH]; cbn; intro H; [constructor|]. apply andb_true_iff in H. destruct H as [H1 H2].
  constructor; [|auto]. intro K. apply negb_true_iff in H1. assert (T : existsb (Nat.eqb x) l = true); [|congruence].
  apply existsb_exists. exists x. split; [exact K|apply Nat.eqb_refl].
Qed.
Definition face_ok (n : nat) (f : list nat) : bool := (3 <=? length f)%nat && distinct f && forallb (fun i => i <? n)%nat f.
Lemma valid_by V F n : length V = n -> forallb (face_ok n) F = true -> valid_mesh V F.
Proof.
  intros L H. unfold valid_mesh. rewrite L. apply Forall_forall. intros f Hf. rewrite forallb_forall in H. specialize (H f Hf).
  unfold face_ok in H. apply andb_true_iff in H. destruct H as [H H3]. apply andb_true_iff in H. destruct H as [H1 H2].
  split; [now apply Nat.leb_le|]. split; [now apply distinct_ok|].
  apply Forall_forall. intros i Hi. rewrite forallb_forall in H3. now apply Nat.ltb_lt, H3.
Qed.
Lemma cube_valid : valid_mesh cube_vertices cube_faces.
Proof. now apply (valid_by _ _ 8). Qed.
Lemma tetra_valid : valid_mesh tetra_vertices tetra_faces.
Proof. now apply (valid_by _ _ 4). Qed.
Lemma octa_valid : valid_mesh octa_vertices octa_faces.
Proof. now apply (valid_by _ _ 6). Qed.
Lemma dodeca_valid : valid_mesh dodeca_vertices dodeca_faces.
Proof. now apply (valid_by _ _ 20). Qed.

Lemma closed_by F : forallb (fun e => times_in e (edges F) + times_in (flip e) (edges F) =? 2)%nat (edges F) = true -> closed F.
Proof.
  intro H. unfold closed. apply Forall_forall. intros e He. rewrite forallb_forall in H. now apply Nat.eqb_eq, H.
Qed.
Lemma oriented_by F : forallb (fun e => (times_in e (edges F) =? 1) && (times_in (flip e) (edges F) =? 1))%nat (edges F) = true -> oriented F.
Proof.
  intro H. unfold oriented. apply Forall_forall. intros e He. rewrite forallb_forall in H. specialize (H e He).
  apply andb_true_iff in H. destruct H as [A B]. split; now apply Nat.eqb_eq.
Qed.
Lemma cube_closed : closed cube_faces. Proof. now apply closed_by. Qed.
Lemma tetra_closed : closed tetra_faces. Proof. now apply closed_by. Qed.
Lemma octa_closed : closed octa_faces. Proof. now apply closed_by. Qed.
Lemma dodeca_closed : closed dodeca_faces. Proof. apply closed_by. vm_compute. reflexivity. Qed.
Lemma octa_oriented : oriented octa_faces. Proof. now apply oriented_by. Qed.
Lemma dodeca_oriented : oriented dodeca_faces. Proof. apply oriented_by. vm_compute. reflexivity. Qed.
(** An edge that two faces follow in the same direction. *)
Lemma twice_not_oriented F e : In e (edges F) -> times_in e (edges F) = 2%nat -> ~ oriented F.
Proof. intros I E O. unfold oriented in O. rewrite Forall_forall in O. destruct (O e I) as [A _]. congruence. Qed.
Lemma cube_not_oriented : ~ oriented cube_faces.
Proof. apply (twice_not_oriented _ (0, 1)%nat); [cbn; auto|reflexivity]. Qed.
Lemma tetra_not_oriented : ~ oriented tetra_faces.
Proof. apply (twice_not_oriented _ (1, 2)%nat); [cbn; auto|reflexivity]. Qed.
Lemma counts :
  (length cube_vertices = 8 /\ length cube_faces = 6 /\ edge_count cube_faces = 12 /\
   length tetra_vertices = 4 /\ length tetra_faces = 4 /\ edge_count tetra_faces = 6 /\
   length octa_vertices = 6 /\ length octa_faces = 8 /\ edge_count octa_faces = 12 /\
   length dodeca_vertices = 20)%nat.
Proof. repeat split. Qed.

(** ** Polyhedra: places. *)
Definition blow (k : R) (v : vec3) : vec3 := V3 (k * x3 v) (k * y3 v) (k * z3 v).
Lemma product_blow k a b c : triple_product (blow k a) (blow k b) (blow k c) = k ^ 3 * triple_product a b c.
Proof. unfold triple_product, blow. cbn [x3 y3 z3]. ring. Qed.
Lemma dist2_blow k a b : dist2 (blow k a) (blow k b) = k ^ 2 * dist2 a b.
Proof. unfold dist2, blow. cbn [x3 y3 z3]. ring. Qed.
Lemma vertex_blow k V i : vertex (map (blow k) V) i = blow k (vertex V i).
Proof.
  unfold vertex. revert i. induction V as [|v V IH]; intros [|i]; cbn [map nth]; auto; unfold blow; cbn [x3 y3 z3]; f_equal; ring.
Qed.
Lemma sqrt2 : 0 < sqrt 2 /\ sqrt 2 * sqrt 2 = 2.
Proof. split; [apply sqrt_lt_R0; lra|apply sqrt_sqrt; lra]. Qed.
Lemma sqrt3 : 0 < sqrt 3 /\ sqrt 3 * sqrt 3 = 3.
Proof. split; [apply sqrt_lt_R0; lra|apply sqrt_sqrt; lra]. Qed.

Definition raw_cube : list vec3 :=
  let h := 1 / 2 in
  [ V3 (-h) (-h) (-h); V3 h (-h) (-h); V3 h (-h) h; V3 (-h) (-h) h; V3 (-h) h (-h); V3 h h (-h); V3 h h h; V3 (-h) h h ].
Lemma cube_raw : cube_vertices = map (blow (/ sqrt 2)) raw_cube.
Proof.
  destruct sqrt2 as [P _]. unfold cube_vertices, raw_cube, blow. cbn [map x3 y3 z3].
  repeat match goal with |- _ :: _ = _ :: _ => apply f_equal2 | |- V3 _ _ _ = V3 _ _ _ => f_equal end; try reflexivity; field; lra.
Qed.
Definition raw_octa : list vec3 :=
  let r := / sqrt 2 in
  [ V3 0 1 0; V3 0 (-1) 0; V3 (- r) 0 (- r); V3 r 0 (- r); V3 r 0 r; V3 (- r) 0 r ].
Lemma octa_raw : octa_vertices = map (blow (1 / 2)) raw_octa.
Proof.
  destruct sqrt2 as [P _]. unfold octa_vertices, raw_octa, blow. cbn [map x3 y3 z3].
  repeat match goal with |- _ :: _ = _ :: _ => apply f_equal2 | |- V3 _ _ _ = V3 _ _ _ => f_equal end; try reflexivity; field; lra.
Qed.
Definition golden : R := (1 + sqrt 5) / 2.
Lemma golden_eq : 1 < golden /\ golden * golden = golden + 1.
Proof.
  assert (Q : sqrt 5 * sqrt 5 = 5) by (apply sqrt_sqrt; lra). assert (P : 0 < sqrt 5) by (apply sqrt_lt_R0; lra).
  unfold golden. split; nra.
Qed.
Definition raw_dodeca (r : R) : list vec3 :=
  let q := r - 1 in
  [ V3 (-1) (-1) 1; V3 r q 0; V3 r (- q) 0; V3 (- r) q 0; V3 (- r) (- q) 0; V3 0 r q; V3 0 r (- q); V3 q 0 (- r);
    V3 (- q) 0 (- r); V3 0 (- r) (- q); V3 0 (- r) q; V3 q 0 r; V3 (- q) 0 r; V3 1 1 (-1); V3 1 1 1; V3 (-1) 1 (-1);
    V3 (-1) 1 1; V3 1 (-1) (-1); V3 1 (-1) 1; V3 (-1) (-1) (-1) ].
Lemma dodeca_raw : dodeca_vertices = map (blow (/ (2 * sqrt 3))) (raw_dodeca golden).
Proof.
  destruct golden_eq as [L E]. destruct sqrt3 as [P _].
  assert (Q : 1 / golden = golden - 1) by (apply (Rmult_eq_reg_l golden); [field_simplify; lra|lra]).
  assert (Q' : -1 / golden = - (golden - 1)) by (rewrite <- Q; field; lra).
  unfold dodeca_vertices. fold golden. cbv zeta. rewrite Q, Q'. unfold raw_dodeca, blow. cbn [map x3 y3 z3].
  repeat match goal with |- _ :: _ = _ :: _ => apply f_equal2 | |- V3 _ _ _ = V3 _ _ _ => f_equal end; try reflexivity; field; lra.
Qed.

Lemma norms_blow k V m : Forall (fun v => x3 v ^ 2 + y3 v ^ 2 + z3 v ^ 2 = m) V ->
  Forall (fun v => x3 v ^ 2 + y3 v ^ 2 + z3 v ^ 2 = k ^ 2 * m) (map (blow k) V).
Proof.
  intro H. rewrite Forall_map. revert H. apply Forall_impl. intros v <-. unfold blow. cbn [x3 y3 z3]. ring.
Qed.
Lemma octa_norms : Forall (fun v => x3 v ^ 2 + y3 v ^ 2 + z3 v ^ 2 = (1 / 2) ^ 2) octa_vertices.
Proof.
  rewrite octa_raw. destruct sqrt2 as [P Q].
  assert (H : / sqrt 2 * / sqrt 2 = 1 / 2) by (rewrite <- Rinv_mult; rewrite Q; lra).
  replace ((1 / 2) ^ 2) with ((1 / 2) ^ 2 * 1) by ring. apply norms_blow. unfold raw_octa.
  set (r := / sqrt 2) in *. clearbody r. cbv zeta. repeat constructor; cbn [x3 y3 z3]; lra.
Qed.
Lemma octa_clockwise : Forall (clockwise octa_vertices) octa_faces.
Proof.
  rewrite octa_raw. destruct sqrt2 as [P Q].
  assert (H : / sqrt 2 * / sqrt 2 = 1 / 2) by (rewrite <- Rinv_mult; rewrite Q; lra).
  unfold octa_faces. unfold clockwise.
  repeat constructor; cbn [nth]; rewrite !vertex_blow, product_blow; unfold raw_octa, vertex; cbn [nth];
    set (r := / sqrt 2) in *; clearbody r; unfold triple_product; cbn [x3 y3 z3]; lra.
Qed.
Lemma octa_edges : Forall (fun e => dist2 (vertex octa_vertices (fst e)) (vertex octa_vertices (snd e)) = 1 / 2) (edges octa_faces).
Proof.
  rewrite octa_raw. destruct sqrt2 as [P Q].
  assert (H : / sqrt 2 * / sqrt 2 = 1 / 2) by (rewrite <- Rinv_mult; rewrite Q; lra).
  unfold octa_faces, edges. cbn [flat_map edges_of combine tl hd app].
  repeat constructor; cbn [fst snd]; rewrite !vertex_blow, dist2_blow; unfold raw_octa, vertex; cbn [nth];
    set (r := / sqrt 2) in *; clearbody r; unfold dist2; cbn [x3 y3 z3]; lra.
Qed.
Lemma cube_edges : Forall (fun e => dist2 (vertex cube_vertices (fst e)) (vertex cube_vertices (snd e)) = 1 / 2) (edges cube_faces).
Proof.
  rewrite cube_raw. destruct sqrt2 as [P Q].
  assert (H : / sqrt 2 * / sqrt 2 = 1 / 2) by (rewrite <- Rinv_mult; rewrite Q; lra).
  unfold cube_faces, edges. cbn [flat_map edges_of combine tl hd app].
  repeat constructor; cbn [fst snd]; rewrite !vertex_blow, dist2_blow; unfold raw_cube, vertex; cbn [nth];
    set (r := / sqrt 2) in *; clearbody r; unfold dist2; cbn [x3 y3 z3]; lra.
Qed.
Lemma tetra_angles : let a := 2 * PI / 3 in
  cos (0 * a) = 1 /\ sin (0 * a) = 0 /\ cos (1 * a) = -1 / 2 /\ sin (1 * a) = sqrt 3 / 2 /\
  cos (2 * a) = -1 / 2 /\ sin (2 * a) = - (sqrt 3 / 2).
Proof.
  intro a. rewrite Rmult_0_l, Rmult_1_l, cos_0, sin_0. destruct sqrt3 as [P Q].
  assert (C : cos a = -1 / 2) by (replace a with (2 * (PI / 3)) by (unfold a; field); apply cos_2PI3).
  assert (S : sin a = sqrt 3 / 2) by (replace a with (2 * (PI / 3)) by (unfold a; field); apply sin_2PI3).
  rewrite cos_2a, sin_2a, C, S. repeat split; nra.
Qed.
Lemma tetra_not_regular :
  dist2 (vertex tetra_vertices 0) (vertex tetra_vertices 1) = 13 / 16 /\
  dist2 (vertex tetra_vertices 1) (vertex tetra_vertices 2) = 3 / 4.
Proof.
  destruct tetra_angles as (C0 & S0 & C1 & S1 & C2 & S2). destruct sqrt3 as [P Q].
  unfold vertex, tetra_vertices, dist2. cbn [nth x3 y3 z3]. rewrite C0, S0, C1, S1. split; [lra|]. nra.
Qed.
Lemma tetra_windings :
  anticlockwise tetra_vertices [1; 2; 3]%nat /\ clockwise tetra_vertices [1; 2; 0]%nat.
Proof.
  destruct tetra_angles as (C0 & S0 & C1 & S1 & C2 & S2). destruct sqrt3 as [P Q].
  unfold anticlockwise, clockwise, triple_product, vertex, tetra_vertices. cbn [nth x3 y3 z3].
  rewrite C0, S0, C1, S1, C2, S2. split; lra.
Qed.
Lemma cube_windings :
  anticlockwise cube_vertices [0; 1; 2; 3]%nat /\ clockwise cube_vertices [4; 5; 6; 7]%nat.
Proof.
  unfold anticlockwise, clockwise. cbn [nth]. rewrite cube_raw, !vertex_blow, !product_blow.
  assert (K : 0 < (/ sqrt 2) ^ 3) by (apply pow_lt, Rinv_0_lt_compat; apply sqrt2).
  set (k := (/ sqrt 2) ^ 3) in *. clearbody k.
  unfold vertex, raw_cube, triple_product. cbn [nth x3 y3 z3]. split; lra.
Qed.

Definition pentagons : list (list nat) :=
  map (map (fun i => i - 1)%nat)
   [ [2;15;12;19;3]; [2;3;18;8;14]; [4;16;9;20;5]; [4;5;1;13;17]; [4;17;6;7;16]; [2;14;7;6;15]; [3;19;11;10;18]; [5;20;10;11;1]; [8;18;10;20;9]; [7;14;8;9;16]; [6;17;13;12;15]; [11;19;12;13;1] ]%nat.
Lemma pentagons_cut : dodeca_faces = flat_map fan pentagons.
Proof. reflexivity. Qed.
Lemma pentagons_oriented : oriented pentagons.
Proof. apply oriented_by. vm_compute. reflexivity. Qed.
Lemma golden_powers : let r := golden in r * r = r + 1 /\ r * r * r = 2 * r + 1.
Proof. destruct golden_eq as [L E]. intro r. unfold r. split; [exact E|]. rewrite E. nra. Qed.
Lemma dodeca_norms : Forall (fun v => x3 v ^ 2 + y3 v ^ 2 + z3 v ^ 2 = (1 / 2) ^ 2) dodeca_vertices.
Proof.
  rewrite dodeca_raw. destruct golden_powers as [E2 E3]. destruct sqrt3 as [P Q].
  replace ((1 / 2) ^ 2) with ((/ (2 * sqrt 3)) ^ 2 * 3).
  - apply norms_blow. unfold raw_dodeca. set (r := golden) in *. clearbody r. cbv zeta.
    repeat constructor; cbn [x3 y3 z3]; lra.
  - replace ((/ (2 * sqrt 3)) ^ 2) with (/ (4 * (sqrt 3 * sqrt 3))) by (field; lra). rewrite Q. field.
Qed.
Lemma dodeca_anticlockwise : Forall (anticlockwise dodeca_vertices) dodeca_faces.
Proof.
  rewrite dodeca_raw. destruct golden_powers as [E2 E3]. destruct golden_eq as [L _]. destruct sqrt3 as [P Q].
  assert (K : 0 < (/ (2 * sqrt 3)) ^ 3) by (apply pow_lt, Rinv_0_lt_compat; lra).
  unfold dodeca_faces. cbn [map Nat.sub]. unfold anticlockwise.
  repeat constructor; cbn [nth]; rewrite !vertex_blow, product_blow; apply Rmult_lt_0_compat; try exact K;
    unfold raw_dodeca, vertex; cbv zeta; cbn [nth];
    set (r := golden) in *; clearbody r; unfold triple_product; cbn [x3 y3 z3]; lra.
Qed.
Lemma coplanar_blow k a b c d : coplanar a b c d -> coplanar (blow k a) (blow k b) (blow k c) (blow k d).
Proof.
  unfold coplanar. intro H. transitivity (k ^ 3 * triple_product (sub3 b a) (sub3 c a) (sub3 d a)).
  - unfold triple_product, blow, sub3. cbn [x3 y3 z3]. ring.
  - rewrite H. ring.
Qed.
Lemma regular_blow k V s t p : regular_pentagon V s t p -> regular_pentagon (map (blow k) V) (k ^ 2 * s) (k ^ 2 * t) p.
Proof.
  intros (a & b & c & d & e & -> & C1 & C2 & S & T). exists a, b, c, d, e. cbv zeta. split; [reflexivity|].
  rewrite !vertex_blow. split; [now apply coplanar_blow|]. split; [now apply coplanar_blow|].
  split; [revert S|revert T]; apply Forall_impl; intros q E; now rewrite !vertex_blow, dist2_blow, E.
Qed.
Lemma dodeca_pentagons : Forall (regular_pentagon dodeca_vertices ((2 - golden) / 3) (1 / 3)) pentagons.
Proof.
  rewrite dodeca_raw. destruct golden_powers as [E2 E3]. destruct sqrt3 as [P Q].
  assert (K : (/ (2 * sqrt 3)) ^ 2 = / 12).
  { replace ((/ (2 * sqrt 3)) ^ 2) with (/ (4 * (sqrt 3 * sqrt 3))) by (field; lra). rewrite Q. field. }
  replace ((2 - golden) / 3) with ((/ (2 * sqrt 3)) ^ 2 * (4 * (2 - golden))) by (rewrite K; field).
  replace (1 / 3) with ((/ (2 * sqrt 3)) ^ 2 * 4) by (rewrite K; field).
  clear K. assert (G : Forall (regular_pentagon (raw_dodeca golden) (4 * (2 - golden)) 4) pentagons).
  { set (r := golden) in *. clearbody r. unfold pentagons. cbn [map Nat.sub].
    repeat (apply Forall_cons; [do 5 eexists; split; [reflexivity|]; cbv zeta; unfold vertex, raw_dodeca; cbv zeta;
      cbn [nth]; unfold coplanar, triple_product, sub3, dist2; cbn [x3 y3 z3 fst snd nth];
      split; [lra|]; split; [lra|]; split; repeat (apply Forall_cons; [cbn [x3 y3 z3 fst snd nth]; lra|]); apply Forall_nil|]).
    apply Forall_nil. }
  revert G. apply Forall_impl. intros p. apply regular_blow.
Qed.
Lemma dodeca_regular :
  exists pent s t, (length pent = 12)%nat /\ dodeca_faces = flat_map fan pent /\ oriented pent /\
    edge_count pent = 30%nat /\ length dodeca_vertices = 20%nat /\
    0 < s < t /\ Forall (regular_pentagon dodeca_vertices s t) pent.
Proof.
  exists pentagons, ((2 - golden) / 3), (1 / 3). split; [reflexivity|]. split; [exact pentagons_cut|].
  split; [exact pentagons_oriented|]. split; [vm_compute; reflexivity|]. split; [reflexivity|].
  split; [|exact dodeca_pentagons]. destruct golden_eq as [L E]. split; [nra|lra].
Qed.

(** ** In terms of what the functions return. *)
Lemma sphere_round_ok r s t V F v : sphere r s t = Ok (V, F) -> In v V -> x3 v ^ 2 + y3 v ^ 2 + z3 v ^ 2 = r ^ 2.
Proof. intro E. injection E as <- <-. apply sphere_round. Qed.
Lemma cell_two_ok r s t V F i j : sphere r s t = Ok (V, F) -> (i < t)%nat -> (j < s)%nat ->
  filter (inside_cell s i j) F = [tri1 s i j; tri2 s i j].
Proof. intro E. injection E as <- <-. apply cell_two. Qed.
Lemma sphere_closed_ok r s t V F : sphere r s t = Ok (V, F) ->
  NoDup (edges F) /\
  forall u v, In (u, v) (edges F) ->
    vertex V u = vertex V v \/
    exists u' v', In (u', v') (edges F) /\ vertex V u' = vertex V v /\ vertex V v' = vertex V u.
Proof.
  intro E. injection E as <- <-. split; [apply sphere_edges_nodup|]. intros u v. exact (sphere_watertight r s t u v).
Qed.
Lemma sphere_outward_ok r s t V F f : 0 < r -> (3 <= s)%nat -> (2 <= t)%nat -> sphere r s t = Ok (V, F) -> In f F ->
  anticlockwise V f \/
  exists u v, In u f /\ In v f /\ u <> v /\ vertex V u = vertex V v /\ (vertex V u = V3 0 0 r \/ vertex V u = V3 0 0 (- r)).
Proof. intros R S T E. injection E as <- <-. exact (sphere_outward r s t f R S T). Qed.
Lemma polyhedra_valid :
  (exists V F, cube = Ok (V, F) /\ valid_mesh V F /\ closed F) /\
  (exists V F, tetrahedron = Ok (V, F) /\ valid_mesh V F /\ closed F) /\
  (exists V F, octahedron = Ok (V, F) /\ valid_mesh V F /\ closed F) /\
  (exists V F, dodecahedron = Ok (V, F) /\ valid_mesh V F /\ closed F).
Proof.
  split; [|split; [|split]]; do 2 eexists; (split; [reflexivity|]); split;
  auto using cube_valid, cube_closed, tetra_valid, tetra_closed, octa_valid, octa_closed, dodeca_valid, dodeca_closed.
Qed.
Lemma polyhedra_counts :
  (exists V F, cube = Ok (V, F) /\ length V = 8%nat /\ length F = 6%nat /\ edge_count F = 12%nat) /\
  (exists V F, tetrahedron = Ok (V, F) /\ length V = 4%nat /\ length F = 4%nat /\ edge_count F = 6%nat) /\
  (exists V F, octahedron = Ok (V, F) /\ length V = 6%nat /\ length F = 8%nat /\ edge_count F = 12%nat).
Proof. split; [|split]; do 2 eexists; repeat split. Qed.
Lemma dodecahedron_regular :
  exists V F pent s t, dodecahedron = Ok (V, F) /\
    (length pent = 12)%nat /\ F = flat_map fan pent /\ oriented pent /\ edge_count pent = 30%nat /\ length V = 20%nat /\
    0 < s < t /\ Forall (regular_pentagon V s t) pent /\
    Forall (fun v => x3 v ^ 2 + y3 v ^ 2 + z3 v ^ 2 = (1 / 2) ^ 2) V.
Proof.
  destruct dodeca_regular as (p & s & t & A & B & C & D & E & G & H).
  exists dodeca_vertices, dodeca_faces, p, s, t. pose proof dodeca_norms. auto 10.
Qed.
Lemma tetrahedron_irregular :
  exists V F, tetrahedron = Ok (V, F) /\ In (0, 1)%nat (edges F) /\ In (1, 2)%nat (edges F) /\
    dist2 (vertex V 0) (vertex V 1) = 13 / 16 /\ dist2 (vertex V 1) (vertex V 2) = 3 / 4.
Proof.
  exists tetra_vertices, tetra_faces. split; [reflexivity|]. split; [cbn; auto 20|]. split; [cbn; auto 20|].
  exact tetra_not_regular.
Qed.
Lemma cube_windings_ok :
  exists V F f g, cube = Ok (V, F) /\ ~ oriented F /\ In f F /\ anticlockwise V f /\ In g F /\ clockwise V g.
Proof.
  exists cube_vertices, cube_faces, [0; 1; 2; 3]%nat, [4; 5; 6; 7]%nat. destruct cube_windings as [A B].
  split; [reflexivity|]. split; [exact cube_not_oriented|]. split; [cbn; auto|]. split; [exact A|]. split; [cbn; auto|exact B].
Qed.
Lemma tetra_windings_ok :
  exists V F f g, tetrahedron = Ok (V, F) /\ ~ oriented F /\ In f F /\ anticlockwise V f /\ In g F /\ clockwise V g.
Proof.
  exists tetra_vertices, tetra_faces, [1; 2; 3]%nat, [1; 2; 0]%nat. destruct tetra_windings as [A B].
  split; [reflexivity|]. split; [exact tetra_not_oriented|]. split; [cbn; auto|]. split; [exact A|]. split; [cbn; auto|exact B].
Qed.
