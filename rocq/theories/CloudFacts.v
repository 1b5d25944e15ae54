(** Proofs about clouds of points. *)
From Coq Require Import QArith Qcanon.
From Verif Require Import Base Cloud CloudSpec.
Local Open Scope nat_scope.

Lemma ltb_spec a b : reflect (a < b)%Qc (ltb a b).
Proof. unfold ltb. destruct (Qclt_le_dec a b) as [L|L]; constructor; [exact L|]. intros H. apply (Qcle_not_lt _ _ L H). Qed.
Lemma not_lt a b : ~ (a < b)%Qc <-> (b <= a)%Qc.
Proof. split; [apply Qcnot_lt_le|intros H; now apply Qcle_not_lt]. Qed.
Lemma least_spec l : forall x, (In (least x l) (x :: l)) /\ Forall (fun y => least x l <= y)%Qc (x :: l).
Proof.
  induction l as [|y l IH]; intros x.
  - split; [now left|]. constructor; [apply Qcle_refl|constructor].
  - cbn [least]. destruct (ltb_spec y x) as [L|L].
    + destruct (IH y) as [I F]. split; [destruct I; cbn; auto|]. inversion F as [|? ? F1 F2]; subst. constructor; [|constructor; assumption].
      eapply Qcle_trans; [exact F1|]. now apply Qclt_le_weak.
    + destruct (IH x) as [I F]. split; [destruct I; cbn; auto|]. inversion F as [|? ? F1 F2]; subst. constructor; [assumption|constructor; [|assumption]].
      eapply Qcle_trans; [exact F1|]. now apply not_lt.
Qed.
Lemma greatest_spec l : forall x, (In (greatest x l) (x :: l)) /\ Forall (fun y => y <= greatest x l)%Qc (x :: l).
Proof.
  induction l as [|y l IH]; intros x.
  - split; [now left|]. constructor; [apply Qcle_refl|constructor].
  - cbn [greatest]. destruct (ltb_spec x y) as [L|L].
    + destruct (IH y) as [I F]. split; [destruct I; cbn; auto|]. inversion F as [|? ? F1 F2]; subst. constructor; [|constructor; assumption].
      eapply Qcle_trans; [|exact F1]. now apply Qclt_le_weak.
    + destruct (IH x) as [I F]. split; [destruct I; cbn; auto|]. inversion F as [|? ? F1 F2]; subst. constructor; [assumption|constructor; [|assumption]].
      eapply Qcle_trans; [|exact F1]. now apply not_lt.
Qed.
Lemma col_min_spec a ps q : col_min a ps = Ok q -> forall p, (q < coord a p)%Qc <-> exists p', In p' ps /\ (coord a p' < coord a p)%Qc.
Proof.
  unfold col_min. destruct (map (coord a) ps) as [|x r] eqn:E; [discriminate|]. intros [= <-] p. destruct (least_spec r x) as [I F]. rewrite <- E in I, F.
  rewrite Forall_forall in F. apply in_map_iff in I. destruct I as (p0 & I1 & I2). split.
  - intros L. exists p0. split; [exact I2|]. now rewrite I1.
  - intros (p' & I & L). eapply Qcle_lt_trans; [|exact L]. apply F. now apply in_map.
Qed.
Lemma col_max_spec a ps q : col_max a ps = Ok q -> forall p, (coord a p < q)%Qc <-> exists p', In p' ps /\ (coord a p < coord a p')%Qc.
Proof.
  unfold col_max. destruct (map (coord a) ps) as [|x r] eqn:E; [discriminate|]. intros [= <-] p. destruct (greatest_spec r x) as [I F]. rewrite <- E in I, F.
  rewrite Forall_forall in F. apply in_map_iff in I. destruct I as (p0 & I1 & I2). split.
  - intros L. exists p0. split; [exact I2|]. now rewrite I1.
  - intros (p' & I & L). eapply Qclt_le_trans; [exact L|]. apply F. now apply in_map.
Qed.
Section Colors.
Context {C : Type}.
Lemma take_kept (f : pt -> bool) (P : pt -> Prop) (ps : list pt) : (forall p, f p = true <-> P p) -> forall (cs : list C) ps' cs',
  take (map f ps) ps = Ok ps' -> take (map f ps) cs = Ok cs' ->
  length cs = length ps /\ length cs' = length ps' /\ kept (fun pc => P (fst pc)) (combine ps cs) (combine ps' cs').
Proof.
  intros H. induction ps as [|p ps IH]; intros [|c cs] ps' cs' E1 E2; cbn in *; try discriminate.
  - injection E1 as <-. injection E2 as <-. repeat split. constructor.
  - destruct (take (map f ps) ps) as [r1|]; [|discriminate]. destruct (take (map f ps) cs) as [r2|] eqn:T; [|discriminate]. cbn in *. injection E1 as <-. injection E2 as <-.
    destruct (IH cs r1 r2 eq_refl T) as (L1 & L2 & K). split; [cbn; congruence|]. destruct (f p) eqn:F.
    + split; [cbn; congruence|]. cbn. constructor; [now apply H|exact K].
    + split; [exact L2|]. constructor; [|exact K]. cbn. intros G. apply H in G. congruence.
Qed.
Lemma take_same {A} (m : list bool) : forall l : list A, length l = length m -> exists r, take m l = Ok r.
Proof. induction m as [|b m IH]; intros [|x l] L; try discriminate; cbn; [eauto|]. destruct (IH l) as (r & ->); [cbn in L; lia|]. cbn. eauto. Qed.

(** A bound, given or not. *)
Lemma lo_spec b a ps q : bound_or (lo b a) (col_min a ps) = Ok q -> forall p, (q < coord a p)%Qc <->
  (forall r, lo b a = Some r -> (r < coord a p)%Qc) /\ (lo b a = None -> exists p', In p' ps /\ (coord a p' < coord a p)%Qc).
Proof.
  destruct (lo b a) as [r|]; cbn; intros E p.
  - injection E as ->. split; [intros L; split; [intros ? [= <-]; exact L|discriminate]|]. intros [H _]. now apply H.
  - rewrite (col_min_spec _ _ _ E). split; [intros H; split; [discriminate|auto]|]. intros [_ H]. now apply H.
Qed.
Lemma hi_spec b a ps q : bound_or (hi b a) (col_max a ps) = Ok q -> forall p, (coord a p < q)%Qc <->
  (forall r, hi b a = Some r -> (coord a p < r)%Qc) /\ (hi b a = None -> exists p', In p' ps /\ (coord a p < coord a p')%Qc).
Proof.
  destruct (hi b a) as [r|]; cbn; intros E p.
  - injection E as ->. split; [intros L; split; [intros ? [= <-]; exact L|discriminate]|]. intros [H _]. now apply H.
  - rewrite (col_max_spec _ _ _ E). split; [intros H; split; [discriminate|auto]|]. intros [_ H]. now apply H.
Qed.
Theorem crop_kept ps (cs : list C) b ps' cs' : crop ps cs b = Ok (ps', cs') ->
  length cs = length ps /\ length cs' = length ps' /\ kept (fun pc => within b (fst pc) /\ inner b ps (fst pc)) (combine ps cs) (combine ps' cs').
Proof.
  unfold crop. intros E.
  destruct (bound_or (lo b X) (col_min X ps)) as [x0|] eqn:X0; [|discriminate]. destruct (bound_or (hi b X) (col_max X ps)) as [x1|] eqn:X1; [|discriminate].
  destruct (bound_or (lo b Y) (col_min Y ps)) as [y0|] eqn:Y0; [|discriminate]. destruct (bound_or (hi b Y) (col_max Y ps)) as [y1|] eqn:Y1; [|discriminate].
  destruct (bound_or (lo b Z) (col_min Z ps)) as [z0|] eqn:Z0; [|discriminate]. destruct (bound_or (hi b Z) (col_max Z ps)) as [z1|] eqn:Z1; [|discriminate]. cbn [bind] in E.
  match type of E with context [map ?f ps] => set (f0 := f) in * end.
  destruct (take (map f0 ps) ps) as [r1|] eqn:T1; [|discriminate]. destruct (take (map f0 ps) cs) as [r2|] eqn:T2; [|discriminate]. cbn in E. injection E as <- <-.
  apply (take_kept f0 (fun p => within b p /\ inner b ps p)); [|assumption..].
  intros p. unfold f0. rewrite !andb_true_iff. 
  assert (B : forall u v, ltb u v = true <-> (u < v)%Qc) by (intros u v; destruct (ltb_spec u v); split; congruence).
  rewrite !B, (lo_spec _ _ _ _ X0), (hi_spec _ _ _ _ X1), (lo_spec _ _ _ _ Y0), (hi_spec _ _ _ _ Y1), (lo_spec _ _ _ _ Z0), (hi_spec _ _ _ _ Z1). unfold within, inner. split.
  - intros (((((H1 & H2) & H3) & H4) & H5) & H6). split; intros [| |]; tauto.
  - intros [W I]. pose proof (W X). pose proof (W Y). pose proof (W Z). pose proof (I X). pose proof (I Y). pose proof (I Z). tauto.
Qed.
Theorem crop_succeeds ps (cs : list C) b : length cs = length ps -> ps <> [] \/ all_given b -> exists r, crop ps cs b = Ok r.
Proof.
  intros L H. unfold crop.
  assert (M : forall a, exists q, bound_or (lo b a) (col_min a ps) = Ok q).
  { intros a. destruct (lo b a) as [q|] eqn:E; cbn; [eauto|]. destruct H as [H|H]; [|destruct (H a); congruence]. unfold col_min. destruct ps; [congruence|]. cbn. eauto. }
  assert (N : forall a, exists q, bound_or (hi b a) (col_max a ps) = Ok q).
  { intros a. destruct (hi b a) as [q|] eqn:E; cbn; [eauto|]. destruct H as [H|H]; [|destruct (H a); congruence]. unfold col_max. destruct ps; [congruence|]. cbn. eauto. }
  destruct (M X) as (? & ->), (M Y) as (? & ->), (M Z) as (? & ->), (N X) as (? & ->), (N Y) as (? & ->), (N Z) as (? & ->). cbn [bind].
  match goal with |- context [map ?f ps] => set (f0 := f) end.
  destruct (take_same (map f0 ps) ps) as (r1 & ->); [now rewrite map_length|]. destruct (take_same (map f0 ps) cs) as (r2 & ->); [now rewrite map_length|]. cbn. eauto.
Qed.
Theorem crop_empty (cs : list C) b a : lo b a = None \/ hi b a = None -> crop [] cs b = Err ValueError.
Proof.
  intros H. unfold crop. cbn. destruct (lo b X) eqn:A1, (hi b X) eqn:A2, (lo b Y) eqn:A3, (hi b Y) eqn:A4, (lo b Z) eqn:A5, (hi b Z) eqn:A6; cbn; try reflexivity.
  destruct a, H; congruence.
Qed.
(** With a bound left out some point is lost: those farthest on that side. *)
Lemma kept_in {A} (P : A -> Prop) l r : kept P l r -> forall x, In x r -> In x l /\ P x.
Proof. induction 1 as [|x l r Px K IH|x l r Px K IH]; intros y I; [contradiction| |]; [destruct I as [<-|I]; [cbn; auto|]|]; destruct (IH y I); cbn; auto. Qed.
Theorem extreme_lost ps (cs : list C) b ps' cs' a p c : crop ps cs b = Ok (ps', cs') -> 
  (lo b a = None /\ Forall (fun p' => coord a p <= coord a p')%Qc ps) \/ (hi b a = None /\ Forall (fun p' => coord a p' <= coord a p)%Qc ps) -> ~ In (p, c) (combine ps' cs').
Proof.
  intros E H I. destruct (crop_kept _ _ _ _ _ E) as (_ & _ & K). destruct (kept_in _ _ _ K _ I) as (_ & _ & N). cbn in N. destruct (N a) as [N1 N2].
  destruct H as [[G F]|[G F]]; rewrite Forall_forall in F.
  - destruct (N1 G) as (p' & J & L). apply (Qclt_not_le _ _ L). auto.
  - destruct (N2 G) as (p' & J & L). apply (Qclt_not_le _ _ L). auto.
Qed.
Theorem some_lost ps (cs : list C) b ps' cs' a : crop ps cs b = Ok (ps', cs') -> ps <> [] -> lo b a = None \/ hi b a = None -> length ps' < length ps.
Proof.
  intros E N H. destruct (crop_kept _ _ _ _ _ E) as (L1 & L2 & K).
  assert (X0 : exists p, In p ps /\ ((lo b a = None /\ Forall (fun p' => coord a p <= coord a p')%Qc ps) \/ (hi b a = None /\ Forall (fun p' => coord a p' <= coord a p)%Qc ps))).
  { destruct ps as [|p0 ps]; [congruence|]. destruct H as [H|H].
    - destruct (least_spec (map (coord a) ps) (coord a p0)) as [I F]. change (coord a p0 :: map (coord a) ps) with (map (coord a) (p0 :: ps)) in I, F. apply in_map_iff in I. destruct I as (p & I1 & I2).
      exists p. split; [exact I2|]. left. split; [exact H|]. rewrite Forall_map in F. rewrite I1. exact F.
    - destruct (greatest_spec (map (coord a) ps) (coord a p0)) as [I F]. change (coord a p0 :: map (coord a) ps) with (map (coord a) (p0 :: ps)) in I, F. apply in_map_iff in I. destruct I as (p & I1 & I2).
      exists p. split; [exact I2|]. right. split; [exact H|]. rewrite Forall_map in F. rewrite I1. exact F. }
  destruct X0 as (p & I & X0).
  assert (Y0 : exists c, In (p, c) (combine ps cs)).
  { clear - I L1. revert cs L1. induction ps as [|q ps IH]; intros [|c cs] L; try discriminate; [contradiction|]. destruct I as [<-|I]; [exists c; now left|]. destruct (IH I cs) as (c' & J); [cbn in L; lia|]. exists c'. now right. }
  destruct Y0 as (c & Y0). pose proof (extreme_lost _ _ _ _ _ a p c E X0) as Z0.
  assert (G : forall (P : pt * C -> Prop) l r, kept P l r -> forall x, In x l -> ~ In x r -> length r < length l).
  { clear. intros P l r. induction 1 as [|x l r Px K IH|x l r Px K IH]; intros y J M; [contradiction| |].
    - destruct J as [<-|J]; [exfalso; apply M; now left|]. cbn. apply -> Nat.succ_lt_mono. apply (IH y J). intros J'. apply M. now right.
    - cbn. assert (length r <= length l) by (clear - K; induction K; cbn; lia). lia. }
  specialize (G _ _ _ K _ Y0 Z0). rewrite !combine_length in G. lia.
Qed.
(** Thinning. *)
Lemma pick_spec {A} (l : list A) idx : Forall (fun i => i < length l) idx -> exists r, pick l idx = Ok r /\ Forall2 (fun i x => nth_error l i = Some x) idx r.
Proof.
  induction 1 as [|i idx I F (r & E & R)]; [exists []; cbn; auto|]. cbn. destruct (nth_error l i) as [x|] eqn:G; [|apply nth_error_None in G; lia]. rewrite E. cbn. exists (x :: r). auto.
Qed.
Theorem thinned choose ps (cs : list C) w : chooses choose -> length cs = length ps -> (0 <= w)%Z ->
  exists ps' cs' idx, downsample choose ps cs (Some w) = Ok (ps', cs') /\ BinInt.Z.of_nat (length ps') = BinInt.Z.min w (BinInt.Z.of_nat (length ps)) /\
  NoDup idx /\ Forall2 (fun i p => nth_error ps i = Some p) idx ps' /\ Forall2 (fun i c => nth_error cs i = Some c) idx cs'.
Proof.
  intros H L W. unfold downsample. destruct (Z.leb_spec (BinInt.Z.of_nat (length ps)) w) as [G|G].
  - exists ps, cs, (seq 0 (length ps)). split; [reflexivity|]. split; [lia|]. split; [apply seq_NoDup|].
    assert (S0 : forall A (l : list A) k, Forall2 (fun i x => nth_error l (i - k) = Some x) (seq k (length l)) l).
    { clear. induction l as [|x l IH]; intros k; cbn; constructor; [now rewrite Nat.sub_diag|]. specialize (IH (S k)).
      assert (I : forall i, In i (seq (S k) (length l)) -> k < i) by (intros i J; apply in_seq in J; lia). revert IH I. generalize (seq (S k) (length l)). intros s F. 
      assert (Q : forall s l', Forall2 (fun i y => nth_error l (i - S k) = Some y) s l' -> (forall i, In i s -> k < i) -> Forall2 (fun i y => nth_error (x :: l) (i - k) = Some y) s l').
      { induction 1 as [|i y s1 l1 E F1 IH1]; intros I; constructor; [|apply IH1; intros; apply I; now right]. replace (i - k) with (S (i - S k)) by (specialize (I i (or_introl eq_refl)); lia). exact E. }
      intros I. now apply Q. }
    assert (S1 : forall A (l l' : list A) s, Forall2 (fun i x => nth_error l (i - 0) = Some x) s l' -> Forall2 (fun i x => nth_error l i = Some x) s l').
    { clear. induction 1 as [|i x s l1 E F IH]; constructor; [now rewrite Nat.sub_0_r in E|exact IH]. }
    split; [apply S1, S0|]. rewrite <- L. apply S1, S0.
  - destruct (Z.ltb_spec w 0); [lia|]. destruct (H (length ps) (BinInt.Z.to_nat w)) as (H1 & H2 & H3); [lia|].
    destruct (pick_spec ps (choose (length ps) (BinInt.Z.to_nat w))) as (ps' & E1 & F1); [apply Forall_forall; auto|].
    destruct (pick_spec cs (choose (length ps) (BinInt.Z.to_nat w))) as (cs' & E2 & F2); [apply Forall_forall; rewrite L; auto|].
    rewrite E1, E2. cbn. exists ps', cs', (choose (length ps) (BinInt.Z.to_nat w)). split; [reflexivity|]. split; [|auto].
    assert (LF : length ps' = BinInt.Z.to_nat w) by (rewrite <- H1; clear - F1; induction F1; cbn; congruence). lia.
Qed.
End Colors.
