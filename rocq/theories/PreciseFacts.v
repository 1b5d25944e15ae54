(** Proofs about Precise.v. *)
From Verif Require Import Base Image ImageSpec ImageFacts Measure Precise PreciseSpec.
From Coq Require Import Lia ZArith Psatz QArith Qcanon Qcabs Lqa.
Local Open Scope Qc_scope.

Ltac inq := unfold Qcle, Qclt, Qcminus, Qcplus, Qcopp, Qcmult in *; cbn [this Q2Qc] in *; rewrite ?Qred_correct in *.

(** * Fractions *)
Definition frac (a b : Z) : Qc := Q2Qc (a # Z.to_pos b).
Lemma frac_eq a b c d : (0 < b)%Z -> (0 < d)%Z -> (a * d = c * b)%Z -> frac a b = frac c d.
Proof. intros Hb Hd H. apply Qc_is_canon. unfold frac. cbn [this Q2Qc]. rewrite !Qred_correct. unfold Qeq. cbn. now rewrite !Z2Pos.id by assumption. Qed.
Lemma frac_eq_inv a b c d : (0 < b)%Z -> (0 < d)%Z -> frac a b = frac c d -> (a * d = c * b)%Z.
Proof.
  intros Hb Hd H. assert (E : (this (frac a b) == this (frac c d))%Q) by now rewrite H.
  unfold frac in E. cbn [this Q2Qc] in E. rewrite !Qred_correct in E. unfold Qeq in E. cbn in E. now rewrite !Z2Pos.id in E by assumption.
Qed.
Lemma frac_mult a b c d : (0 < b)%Z -> (0 < d)%Z -> frac a b * frac c d = frac (a * c) (b * d).
Proof.
  intros Hb Hd. apply Qc_is_canon. unfold frac, Qcmult. cbn [this Q2Qc]. rewrite !Qred_correct. unfold Qeq. cbn.
  rewrite Pos2Z.inj_mul, !Z2Pos.id by nia. ring.
Qed.
Lemma frac_le a b c d : (0 < b)%Z -> (0 < d)%Z -> (frac a b <= frac c d <-> (a * d <= c * b)%Z).
Proof.
  intros Hb Hd. unfold frac, Qcle. cbn [this Q2Qc]. rewrite !Qred_correct. unfold Qle. cbn. now rewrite !Z2Pos.id by assumption.
Qed.
Lemma frac_opp a b : frac (- a) b = - frac a b.
Proof. apply Qc_is_canon. unfold frac, Qcopp. cbn [this Q2Qc]. rewrite !Qred_correct. reflexivity. Qed.
Lemma frac_minus a b c d : (0 < b)%Z -> (0 < d)%Z -> frac a b - frac c d = frac (a * d - c * b) (b * d).
Proof.
  intros Hb Hd. apply Qc_is_canon. unfold frac, Qcminus, Qcplus, Qcopp. cbn [this Q2Qc]. rewrite !Qred_correct. unfold Qeq. cbn.
  rewrite !Pos2Z.inj_mul, !Z2Pos.id by nia. ring.
Qed.
Lemma frac_abs a b : (0 < b)%Z -> Qcabs (frac a b) = frac (Z.abs a) b.
Proof.
  intros Hb. apply Qc_is_canon. unfold frac, Qcabs. cbn [this Q2Qc]. rewrite !Qred_correct. unfold Qeq. cbn. reflexivity.
Qed.
Lemma frac_this (x : Qc) : x = frac (Qnum x) (Zpos (Qden x)).
Proof. apply Qc_is_canon. unfold frac. cbn [this Q2Qc]. rewrite Qred_correct. cbn. destruct x as [[n d] C]. reflexivity. Qed.
Lemma frac_pos a b : (0 < b)%Z -> (0 < frac a b <-> (0 < a)%Z).
Proof.
  intros Hb. unfold frac, Qclt. cbn [this Q2Qc]. rewrite !Qred_correct. unfold Qlt. cbn. lia.
Qed.

(** * The rounding of a fraction does not depend on how it is written *)
Lemma near_scale k n d : (0 < k)%Z -> (0 < d)%Z -> near (k * n) (k * d) = near n d.
Proof.
  intros Hk Hd. unfold near. rewrite Z.div_mul_cancel_l, Z.mul_mod_distr_l by lia.
  set (r := (n mod d)%Z). set (c := (n / d)%Z). clearbody r c.
  destruct (Z.ltb_spec (2 * r) d), (Z.ltb_spec (2 * (k * r)) (k * d)); try (exfalso; nia); try reflexivity.
  destruct (Z.ltb_spec d (2 * r)), (Z.ltb_spec (k * d) (2 * (k * r))); try (exfalso; nia); reflexivity.
Qed.
Lemma up_mono s s' : (s < s' -> 2 * (up s * down s') <= up s' * down s)%Z.
Proof.
  intros H. unfold up, down. rewrite <- (Z.pow_1_r 2) at 1. rewrite <- !Z.pow_add_r by lia. apply Z.pow_le_mono_r; lia.
Qed.
Lemma places_unique n d s s' : (0 < n)%Z -> (0 < d)%Z ->
  (2 ^ 52 * (d * down s) <= n * up s < 2 ^ 53 * (d * down s))%Z ->
  (2 ^ 52 * (d * down s') <= n * up s' < 2 ^ 53 * (d * down s'))%Z -> s = s'.
Proof.
  intros Hn Hd.
  assert (G : forall s s', (2 ^ 52 * (d * down s) <= n * up s)%Z -> (n * up s' < 2 ^ 53 * (d * down s'))%Z -> ~ (s < s')%Z).
  { clear s s'. intros s s' H1 H2 H. pose proof (up_mono s s' H) as M.
    pose proof (up_pos s). pose proof (down_pos s). pose proof (up_pos s'). pose proof (down_pos s').
    change (2 ^ 53)%Z with (2 * 2 ^ 52)%Z in *. set (t := (2 ^ 52)%Z) in *. clearbody t.
    set (U := up s) in *. set (D := down s) in *. set (U1 := up s') in *. set (D1 := down s') in *. clearbody U D U1 D1.
    assert (E1 : (n * U1 * D < 2 * t * (d * D1) * D)%Z) by (apply Z.mul_lt_mono_pos_r; lia).
    assert (E2 : (t * (d * D) * D1 <= n * U * D1)%Z) by (apply Z.mul_le_mono_nonneg_r; lia).
    assert (E3 : (n * (2 * (U * D1)) <= n * (U1 * D))%Z) by (apply Z.mul_le_mono_nonneg_l; lia).
    lia. }
  intros [A B] [A' B']. pose proof (G s s' A B'). pose proof (G s' s A' B). lia.
Qed.
Lemma places_scale k n d : (0 < k)%Z -> (0 < n)%Z -> (0 < d)%Z -> places (k * n) (k * d) = places n d.
Proof.
  intros Hk Hn Hd. apply (places_unique n d); [assumption..| |now apply places_bounds].
  destruct (places_bounds (k * n) (k * d)) as [A B]; [nia..|]. set (s := places (k * n) (k * d)) in *. clearbody s. split; nia.
Qed.
Lemma fl_scale k n d : (0 < k)%Z -> (0 < n)%Z -> (0 < d)%Z -> fl (k * n) (k * d) = fl n d.
Proof.
  intros Hk Hn Hd. unfold fl. rewrite places_scale, <- !Z.mul_assoc by assumption.
  rewrite near_scale; [reflexivity|assumption|]. pose proof (down_pos (places n d)). nia.
Qed.
Lemma fl_same n d n' d' : (0 < n)%Z -> (0 < d)%Z -> (0 < n')%Z -> (0 < d')%Z -> (n * d' = n' * d)%Z -> fl n d = fl n' d'.
Proof.
  intros. rewrite <- (fl_scale d' n d), <- (fl_scale d n' d') by assumption. f_equal; lia.
Qed.
Lemma rd_frac n d : (0 < n)%Z -> (0 < d)%Z -> rd (frac n d) = frac (fst (fl n d)) (snd (fl n d)).
Proof.
  intros Hn Hd. unfold rd. pose proof (frac_this (frac n d)) as E. apply frac_eq_inv in E; [|assumption|lia].
  destruct (Qnum (frac n d)) as [|p|p]; [lia| |lia].
  rewrite (fl_same (Zpos p) (Zpos (Qden (frac n d))) n d) by lia. destruct (fl n d). reflexivity.
Qed.
Lemma rd_0 : rd 0 = 0. Proof. reflexivity. Qed.
Lemma rd_opp x : rd (- x) = - rd x.
Proof.
  assert (E : forall n d, (0 < n)%Z -> (0 < d)%Z -> rd (- frac n d) = - rd (frac n d)).
  { intros n d Hn Hd. rewrite rd_frac, <- frac_opp, <- frac_opp by assumption. unfold rd.
    pose proof (frac_this (frac (- n) d)) as E. apply frac_eq_inv in E; [|assumption|lia].
    destruct (Qnum (frac (- n) d)) as [|p|p]; [lia|lia|].
    rewrite (fl_same (Zpos p) (Zpos (Qden (frac (- n) d))) n d) by lia. destruct (fl n d). reflexivity. }
  rewrite (frac_this x). destruct (Z.lt_trichotomy (Qnum x) 0) as [H|[H|H]].
  - replace (Qnum x) with (- (- Qnum x))%Z by lia. rewrite frac_opp, E by lia. rewrite !Qcopp_involutive. reflexivity.
  - rewrite H. replace (frac 0 (Zpos (Qden x))) with 0 by (apply (frac_eq 0 1 0); lia). reflexivity.
  - apply E; lia.
Qed.

(** * Relative error *)
Definition ulp : Qc := q 1 (2 ^ 53).
Definition lo := 1 - ulp.
Definition hi := 1 + ulp.
Lemma fl_rel n d : (0 < n)%Z -> (0 < d)%Z -> exists t, frac (fst (fl n d)) (snd (fl n d)) = frac n d * t /\ lo <= t /\ t <= hi.
Proof.
  intros Hn Hd. unfold fl. pose proof (places_bounds n d Hn Hd) as B. set (s := places n d) in *. clearbody s. cbn [fst snd].
  pose proof (up_pos s) as HU. pose proof (down_pos s) as HD.
  assert (Hdd : (0 < d * down s)%Z) by nia.
  destruct (near_half (n * up s) (d * down s) Hdd) as [H _]. set (M := near (n * up s) (d * down s)) in *. clearbody M.
  assert (HN : (0 < n * up s)%Z) by nia.
  exists (frac (M * (d * down s)) (n * up s)). split; [|].
  - rewrite frac_mult by assumption. apply frac_eq; [assumption|nia|ring].
  - change lo with (frac (2 ^ 53 - 1) (2 ^ 53)). change hi with (frac (2 ^ 53 + 1) (2 ^ 53)).
    rewrite !frac_le by (assumption || reflexivity).
    change (2 ^ 53)%Z with (2 * 2 ^ 52)%Z in *. set (u := (2 ^ 52)%Z) in *. assert (0 < u)%Z by reflexivity. clearbody u.
    set (N := (n * up s)%Z) in *. set (D := (d * down s)%Z) in *. clearbody N D. clear -H B H0.
    assert (u * (2 * Z.abs (M * D - N)) <= N)%Z by nia. split; nia.
Qed.
Lemma rd_rel x : exists t, rd x = x * t /\ lo <= t /\ t <= hi.
Proof.
  destruct (Z.lt_trichotomy (Qnum x) 0) as [H|[H|H]].
  - destruct (fl_rel (- Qnum x) (Zpos (Qden x))) as (t & E & B); [lia..|]. exists t. split; [|assumption].
    rewrite <- rd_frac in E by lia. rewrite frac_opp, <- frac_this, rd_opp in E.
    replace (rd x) with (- - rd x) by apply Qcopp_involutive. rewrite E. ring.
  - exists 1. rewrite (frac_this x), H. replace (frac 0 (Zpos (Qden x))) with 0 by (apply (frac_eq 0 1 0); lia).
    split; [reflexivity|]. split; vm_compute; discriminate.
  - destruct (fl_rel (Qnum x) (Zpos (Qden x))) as (t & E & B); [lia..|]. exists t. split; [|assumption].
    rewrite <- rd_frac in E by lia. now rewrite <- frac_this in E.
Qed.

(** [x] is [y] up to the error of [k] roundings. *)
Definition off (k : nat) (x y : Qc) : Prop := exists t, x = y * t /\ lo ^ k <= t /\ t <= hi ^ k.
Lemma lo_pos : 0 < lo. Proof. reflexivity. Qed.
Lemma hi_pos : 0 < hi. Proof. reflexivity. Qed.
Lemma lo_1 : lo <= 1. Proof. vm_compute. discriminate. Qed.
Lemma hi_1 : 1 <= hi. Proof. vm_compute. discriminate. Qed.
Lemma mult_nonneg x y : 0 <= x -> 0 <= y -> 0 <= x * y.
Proof. intros. replace 0 with (0 * y) by ring. now apply Qcmult_le_compat_r. Qed.
Lemma mult_mono x y z t : 0 <= x -> x <= y -> 0 <= z -> z <= t -> x * z <= y * t.
Proof.
  intros Hx Hy Hz Ht. apply Qcle_trans with (y * z); [now apply Qcmult_le_compat_r|].
  rewrite !(Qcmult_comm y). apply Qcmult_le_compat_r; [assumption|]. now apply Qcle_trans with x.
Qed.
Lemma pow_nonneg x k : 0 <= x -> 0 <= x ^ k.
Proof. intros. induction k; cbn; [discriminate|now apply mult_nonneg]. Qed.
Lemma lo_nonneg k : 0 <= lo ^ k. Proof. apply pow_nonneg. discriminate. Qed.
Lemma hi_nonneg k : 0 <= hi ^ k. Proof. apply pow_nonneg. discriminate. Qed.
Lemma pow_add x j k : x ^ (j + k) = x ^ j * x ^ k.
Proof. induction j; cbn [plus Qcpower]; [ring|rewrite IHj; ring]. Qed.
Lemma off_refl x : off 0 x x.
Proof. exists 1. cbn. split; [ring|split; apply Qcle_refl]. Qed.
Lemma off_trans j k x y z : off j x y -> off k y z -> off (j + k) x z.
Proof.
  intros (t & -> & A & B) (s & -> & C & D). exists (s * t). split; [ring|]. rewrite !pow_add. rewrite (Qcmult_comm s).
  split; apply mult_mono; auto using lo_nonneg; eapply Qcle_trans; eauto using lo_nonneg.
Qed.
Lemma off_mult j k x y z w : off j x y -> off k z w -> off (j + k) (x * z) (y * w).
Proof.
  intros (t & -> & A & B) (s & -> & C & D). exists (t * s). split; [ring|]. rewrite !pow_add.
  split; apply mult_mono; auto using lo_nonneg; eapply Qcle_trans; eauto using lo_nonneg.
Qed.
Lemma off_more j k x y : (j <= k)%nat -> off j x y -> off k x y.
Proof.
  intros H (t & E & A & B). exists t. split; [assumption|]. replace k with ((k - j) + j)%nat by lia. rewrite !pow_add.
  assert (L : forall n, lo ^ n <= 1).
  { induction n; cbn; [apply Qcle_refl|]. replace 1 with (1 * 1) by ring. apply mult_mono; auto using lo_1, lo_nonneg; discriminate. }
  assert (U : forall n, 1 <= hi ^ n).
  { induction n; cbn; [apply Qcle_refl|]. replace 1 with (1 * 1) by ring. apply mult_mono; auto using hi_1; try discriminate. }
  split.
  - apply Qcle_trans with (1 * lo ^ j); [apply Qcmult_le_compat_r; auto using lo_nonneg|]. now rewrite Qcmult_1_l.
  - apply Qcle_trans with (1 * hi ^ j); [now rewrite Qcmult_1_l|]. apply Qcmult_le_compat_r; auto using hi_nonneg.
Qed.
Lemma off_rd k x y : off k x y -> off (S k) (rd x) y.
Proof.
  intros H. change (S k) with (1 + k)%nat. apply off_trans with x; [|assumption].
  destruct (rd_rel x) as (t & E & A & B). exists t. cbn [Qcpower]. rewrite !Qcmult_1_r. auto.
Qed.
Lemma off_within k x y : (k <= 9)%nat -> off k x y -> within 10 x y.
Proof.
  intros Hk H. apply (off_more k 9) in H; [|assumption]. destruct H as (t & -> & A & B). unfold within.
  replace (y * t - y) with ((t - 1) * y) by ring. rewrite Qcabs_Qcmult. apply Qcmult_le_compat_r; [|apply Qcabs_nonneg].
  apply Qcabs_Qcle_condition. split.
  - apply Qcle_trans with (lo ^ 9 - 1); [vm_compute; discriminate|]. apply Qcplus_le_compat; [assumption|apply Qcle_refl].
  - apply Qcle_trans with (hi ^ 9 - 1); [|vm_compute; discriminate]. apply Qcplus_le_compat; [assumption|apply Qcle_refl].
Qed.

(** * Accuracy *)
Definition offs (k : nat) (x y : mval) : Prop :=
  match x, y with
  | Num a, Num b => off k a b
  | Arr w r, Arr w' s => w = w' /\ Forall2 (Forall2 (off k)) r s
  | _, _ => False
  end.
Lemma F2_map {A B C : Type} (R : B -> C -> Prop) (f : A -> B) (g : A -> C) (l : list A) :
  (forall a, R (f a) (g a)) -> Forall2 R (map f l) (map g l).
Proof. intros H. induction l; constructor; auto. Qed.
Lemma off_fmulrow k s s' r : Forall2 (off k) s' s -> Forall2 (off (S k)) (fmulrow s' r) (mulrow s r).
Proof.
  intros H. revert r. induction H as [|a b s' s H0 H IH]; intros [|c r]; cbn [fmulrow mulrow]; constructor; auto.
  apply off_rd. rewrite <- (Nat.add_0_r k). apply off_mult; [assumption|apply off_refl].
Qed.
Lemma off_scaled k sx sx' sy sy' x : off k sx' sx -> off k sy' sy ->
  match scaled sx sy x, fscaled sx' sy' x with Ok y, Ok z => offs (S k) z y | Err e, Err e' => e = e' | _, _ => False end.
Proof.
  intros Hx Hy. assert (M : forall a, off (S k) (rd (sx' * a)) (sx * a)).
  { intros a. apply off_rd. rewrite <- (Nat.add_0_r k). apply off_mult; [assumption|apply off_refl]. }
  assert (Z : off k 0 0) by (apply (off_more 0); [lia|apply off_refl]).
  destruct x as [a|w rows]; cbn [scaled fscaled offs]; [apply M|].
  destruct w as [|[|[|[|w]]]]; cbn [scaled fscaled offs]; try reflexivity; split; try reflexivity; apply F2_map; intros r.
  - now apply F2_map.
  - apply off_fmulrow. auto.
  - apply off_fmulrow. auto.
Qed.
Lemma off_frame v :
  match frame v, fframe v with
  | Ok (s, (rx, ry)), Ok (s', (rx', ry')) => s' = s /\ off 1 rx' rx /\ off 1 ry' ry
  | Err e, Err e' => e = e'
  | _, _ => False
  end.
Proof.
  assert (O : off 1 1 1) by (apply (off_more 0); [lia|apply off_refl]).
  unfold frame, fframe. destruct (v_dpi v), (v_view v), (v_canvas v); cbn [bind fst snd]; auto using off_rd, off_refl.
Qed.
Lemma off_pixels v x :
  match Measure.pixels v x, fpixels v x with Ok y, Ok z => offs 4 z y | Err e, Err e' => e = e' | _, _ => False end.
Proof.
  unfold Measure.pixels, fpixels. pose proof (off_frame v) as F.
  destruct (frame v) as [[[w h] [rx ry]]|e], (fframe v) as [[[w' h'] [rx' ry']]|e']; try contradiction; cbn [bind]; [|assumption].
  destruct F as (E & Fx & Fy). injection E as -> ->.
  destruct (Qc_eq_bool w 0); [reflexivity|]. destruct (Qc_eq_bool h 0); [reflexivity|].
  apply off_scaled; apply (off_rd 2); apply (off_mult 1 1); auto; apply off_rd; apply off_refl.
Qed.
Lemma off_div254 k x y : off k x y -> off (S (S k)) (rd (x / lit254)) (y / q 254 100).
Proof.
  intros H. apply off_rd. rewrite <- (Nat.add_1_r k). apply off_mult; [assumption|].
  exists (/ lit254 * q 254 100). split; [|split; vm_compute; discriminate].
  rewrite Qcmult_comm, <- Qcmult_assoc, Qcmult_inv_r; [ring|]. vm_compute. discriminate.
Qed.
Lemma off_lit01 : off 1 lit01 (q 1 10).
Proof. apply off_rd. apply off_refl. Qed.
Lemma off_factor u d : off 4 (ffactor u d) (factor u d).
Proof.
  destruct u; cbn [ffactor factor].
  - apply (off_more 0); [lia|apply off_refl].
  - apply (off_more 0); [lia|apply off_refl].
  - apply (off_more 1); [lia|]. apply off_rd, off_refl.
  - apply (off_more 2); [lia|]. apply off_div254, off_refl.
  - apply (off_div254 2). apply (off_rd 1). rewrite <- (Nat.add_0_r 1). apply off_mult; [apply off_lit01|apply off_refl].
  - apply (off_more 3); [lia|]. apply (off_div254 1). apply off_rd, off_refl.
  - apply (off_more 3); [lia|]. apply (off_div254 1). apply off_rd, off_refl.
Qed.
Lemma F2_maps {A B : Type} (R : A -> B -> Prop) (S : A -> B -> Prop) (f : A -> A) (g : B -> B) l l' :
  (forall a b, R a b -> S (f a) (g b)) -> Forall2 R l l' -> Forall2 S (map f l) (map g l').
Proof. intros H. induction 1; constructor; auto. Qed.
Lemma off_mmap k j f g x y : (forall a b, off k a b -> off j (f a) (g b)) -> offs k x y -> offs j (mmap f x) (mmap g y).
Proof.
  intros H. destruct x, y; cbn [offs mmap]; try contradiction; [apply H|]. intros [-> F]. split; [reflexivity|].
  induction F as [|a b r r' F0 F IH]; cbn; constructor; [|assumption]. now apply (F2_maps (off k)).
Qed.
Lemma F2_imp {A B : Type} (R S : A -> B -> Prop) l l' : (forall a b, R a b -> S a b) -> Forall2 R l l' -> Forall2 S l l'.
Proof. intros H. induction 1; constructor; auto. Qed.
Lemma offs_near k x y : (k <= 9)%nat -> offs k x y -> near_values 10 x y.
Proof.
  intros K. destruct x, y; cbn [offs near_values]; auto; [now apply off_within|]. intros [-> F]. split; [reflexivity|].
  apply (F2_imp (Forall2 (off k))); [|assumption]. intros a b. apply F2_imp. intros. now apply (off_within k).
Qed.
Lemma accurate u v x : match evaluate u v x with
  | Ok y => exists z, fevaluate u v x = Ok z /\ near_values 10 z y
  | Err e => fevaluate u v x = Err e
  end.
Proof.
  unfold evaluate, fevaluate. pose proof (off_pixels v x) as P.
  destruct (Measure.pixels v x) as [y|e], (fpixels v x) as [z|e']; try contradiction; cbn [bind]; [|now rewrite P].
  assert (M : forall d, near_values 10 (mmap (fun a => rd (ffactor u d * a)) z) (mmap (Qcmult (factor u d)) y)).
  { intros d. apply (offs_near 9); [lia|]. apply (off_mmap 4); [|assumption].
    intros a b H. apply (off_rd 8). apply (off_mult 4 4); [apply off_factor|assumption]. }
  destruct u; cbn [bind].
  1: exists z; split; [reflexivity|]; now apply (offs_near 4); [lia|].
  all: destruct (dpi v) as [d|]; cbn [bind]; [eexists; split; [reflexivity|apply M]|reflexivity].
Qed.
Lemma errors u v x e : fevaluate u v x = Err e <-> evaluate u v x = Err e.
Proof.
  pose proof (accurate u v x) as A. destruct (evaluate u v x) as [y|e'].
  - destruct A as (z & -> & _). split; discriminate.
  - rewrite A. reflexivity.
Qed.
Lemma agree u v x u' v' x' y : evaluate u v x = Ok (Num y) -> evaluate u' v' x' = Ok (Num y) ->
  exists a b, fevaluate u v x = Ok (Num a) /\ fevaluate u' v' x' = Ok (Num b) /\ Qcabs (a - b) <= q 20 (2 ^ 53) * Qcabs y.
Proof.
  intros E E'. pose proof (accurate u v x) as A. pose proof (accurate u' v' x') as B. rewrite E in A. rewrite E' in B.
  destruct A as ([a|] & FA & A); [|contradiction]. destruct B as ([b|] & FB & B); [|contradiction].
  exists a, b. split; [assumption|]. split; [assumption|]. cbn [near_values] in A, B. unfold within in A, B.
  replace (a - b) with ((a - y) + - (b - y)) by ring. eapply Qcle_trans; [apply Qcabs_triangle|]. rewrite Qcabs_opp.
  replace (q 20 (2 ^ 53) * Qcabs y) with (q 10 (2 ^ 53) * Qcabs y + q 10 (2 ^ 53) * Qcabs y).
  - now apply Qcplus_le_compat.
  - replace (q 20 (2 ^ 53)) with (q 10 (2 ^ 53) + q 10 (2 ^ 53)) by (apply Qc_is_canon; reflexivity). ring.
Qed.

(** * Rounding is to the nearest *)
Lemma double_frac n d : (0 <= n)%Z -> (0 < d)%Z -> double n d -> is_double (frac n d).
Proof.
  intros Hn Hd (m & f & g & Hm & Hf & Hg & E). unfold is_double. pose proof (frac_this (frac n d)) as F.
  apply frac_eq_inv in F; [|assumption|lia]. set (a := Qnum (frac n d)) in *. set (b := Zpos (Qden (frac n d))) in *.
  assert (Hb : (0 < b)%Z) by (unfold b; lia). clearbody a b. exists m, f, g. repeat split; try lia.
  rewrite Z.abs_eq by nia. pose proof (Z.pow_pos_nonneg 2 g ltac:(lia) Hg).
  assert (H1 : (d * (a * 2 ^ g) = d * (b * (m * 2 ^ f)))%Z).
  { replace (d * (a * 2 ^ g))%Z with (a * d * 2 ^ g)%Z by ring. rewrite <- F.
    replace (n * b * 2 ^ g)%Z with (b * (n * 2 ^ g))%Z by ring. rewrite E. ring. }
  nia.
Qed.
Lemma opp_num (x : Qc) : Qnum (- x)%Qc = (- Qnum x)%Z /\ Qden (- x)%Qc = Qden x.
Proof.
  destruct x as [[n d] C]. assert (E : this (- Qcmake (n # d) C) = (- n # d)%Q).
  { unfold Qcopp. cbn [this Q2Qc]. rewrite Qred_opp, C. reflexivity. }
  rewrite E. cbn. auto.
Qed.

Lemma double_opp x : is_double x -> is_double (- x).
Proof. unfold is_double. destruct (opp_num x) as [-> ->]. now rewrite Z.abs_opp. Qed.
Lemma double_rd x : is_double (rd x).
Proof.
  assert (P : forall n d, (0 < n)%Z -> (0 < d)%Z -> is_double (rd (frac n d))).
  { intros n d Hn Hd. rewrite rd_frac by assumption. pose proof (fl_double n d Hn Hd) as D. destruct (fl n d) as [a b]. cbn [fst snd].
    destruct D as [Hb D]. apply double_frac; [|assumption..]. destruct D as (m & f & g & Hm & Hf & Hg & E).
    pose proof (Z.pow_pos_nonneg 2 f ltac:(lia) Hf). pose proof (Z.pow_pos_nonneg 2 g ltac:(lia) Hg).
    assert (0 <= a * 2 ^ g)%Z by (rewrite E; nia). nia. }
  destruct (Z.lt_trichotomy (Qnum x) 0) as [H|[H|H]].
  - replace (rd x) with (- rd (- x)) by (rewrite rd_opp; ring). apply double_opp. rewrite (frac_this x), <- frac_opp. apply P; lia.
  - rewrite (frac_this x), H. replace (frac 0 (Zpos (Qden x))) with 0 by (apply (frac_eq 0 1 0); lia).
    exists 0%Z, 0%Z, 0%Z. repeat split; lia.
  - rewrite (frac_this x). apply P; lia.
Qed.
Lemma rd_nonneg x : 0 <= x -> 0 <= rd x.
Proof.
  intros H. destruct (rd_rel x) as (t & -> & A & _). apply mult_nonneg; [assumption|]. apply Qcle_trans with lo; [discriminate|assumption].
Qed.
Lemma closest_pos n d c : (0 < n)%Z -> (0 < d)%Z -> is_double c -> Qcabs (rd (frac n d) - frac n d) <= Qcabs (c - frac n d).
Proof.
  intros Hn Hd Hc.
  assert (P : forall a b, (0 <= a)%Z -> (0 < b)%Z -> double a b -> Qcabs (rd (frac n d) - frac n d) <= Qcabs (frac a b - frac n d)).
  { intros a b Ha Hb D. pose proof (fl_closest n d a b Hn Hd Hb D) as C. rewrite rd_frac by assumption.
    pose proof (fl_double n d Hn Hd) as FD. destruct (fl n d) as [a' b']. cbn [fst snd] in *. destruct FD as [Hb' _].
    rewrite !frac_minus, !frac_abs, frac_le by nia. unfold as_close in C. nia. }
  destruct (Z.le_gt_cases 0 (Qnum c)) as [H|H].
  - unfold is_double in Hc. rewrite Z.abs_eq in Hc by assumption. rewrite (frac_this c). apply P; [assumption|lia|assumption].
  - eapply Qcle_trans; [apply (P 0%Z 1%Z); try lia|].
    { exists 0%Z, 0%Z, 0%Z. repeat split; lia. }
    rewrite (frac_this c), !frac_minus, !frac_abs, frac_le by nia.
    set (a := Qnum c) in *. set (b := Zpos (Qden c)) in *. assert (0 < b)%Z by (unfold b; lia). clearbody a b.
    replace (Z.abs (0 * d - n * 1)) with n by lia. replace (Z.abs (a * d - n * b)) with (n * b - a * d)%Z by nia. nia.
Qed.
Lemma closest x c : is_double c -> Qcabs (rd x - x) <= Qcabs (c - x).
Proof.
  intros Hc. destruct (Z.lt_trichotomy (Qnum x) 0) as [H|[H|H]].
  - pose proof (closest_pos (- Qnum x) (Zpos (Qden x)) (- c) ltac:(lia) ltac:(lia) (double_opp c Hc)) as C.
    rewrite frac_opp, <- frac_this, rd_opp in C.
    replace (- rd x - - x) with (- (rd x - x)) in C by ring. replace (- c - - x) with (- (c - x)) in C by ring. now rewrite !Qcabs_opp in C.
  - replace x with 0; [|rewrite (frac_this x), H; apply (frac_eq 0 1 0); lia].
    rewrite rd_0. replace (0 - 0) with 0 by ring. apply Qcabs_nonneg.
  - rewrite (frac_this x). apply closest_pos; [lia..|assumption].
Qed.
Lemma abs_0 x : Qcabs x <= 0 -> x = 0.
Proof.
  intros H. apply Qcabs_Qcle_condition in H. destruct H as [A B]. apply Qcle_antisym; [assumption|].
  replace 0 with (- 0) by ring. assumption.
Qed.
Lemma rd_exact x : is_double x -> rd x = x.
Proof.
  intros H. pose proof (closest x x H) as C. replace (x - x) with 0 in C by ring. rewrite (Qcabs_pos 0) in C by discriminate.
  apply abs_0 in C. replace (rd x) with ((rd x - x) + x) by ring. rewrite C. ring.
Qed.
Lemma abs_cases x : (0 <= x /\ Qcabs x = x) \/ (x <= 0 /\ Qcabs x = - x).
Proof.
  destruct (Qclt_le_dec x 0) as [H|H].
  - right. split; [now apply Qclt_le_weak|]. apply Qcabs_neg. now apply Qclt_le_weak.
  - left. split; [assumption|]. now apply Qcabs_pos.
Qed.
Lemma rd_mono x y : x <= y -> rd x <= rd y.
Proof.
  intros H. destruct (Qc_eq_dec x y) as [->|Hne]; [apply Qcle_refl|].
  destruct (Qclt_le_dec (rd y) (rd x)) as [L|L]; [exfalso|assumption].
  pose proof (closest x (rd y) (double_rd y)) as A. pose proof (closest y (rd x) (double_rd x)) as B.
  set (a := rd x) in *. set (b := rd y) in *. clearbody a b.
  apply Hne. apply Qcle_antisym; [assumption|]. clear Hne.
  destruct (abs_cases (a - x)) as [[? E1]|[? E1]], (abs_cases (b - x)) as [[? E2]|[? E2]]; rewrite E1, E2 in A;
  destruct (abs_cases (b - y)) as [[? E3]|[? E3]], (abs_cases (a - y)) as [[? E4]|[? E4]]; rewrite E3, E4 in B;
  clear E1 E2 E3 E4; inq; lra.
Qed.

(** * Longer is not shorter *)
Lemma inv_nonneg x : 0 < x -> 0 <= 1 / x.
Proof.
  intros H. unfold Qcdiv. rewrite Qcmult_1_l. destruct (Qclt_le_dec (/ x) 0) as [L|L]; [exfalso|assumption].
  assert (E : x * / x = 1) by (apply Qcmult_inv_r; intros ->; discriminate).
  assert (C : / x * x <= 0 * x) by (apply Qcmult_le_compat_r; now apply Qclt_le_weak).
  rewrite Qcmult_comm, E in C. replace (0 * x) with 0 in C by ring. now apply C.
Qed.
Lemma div_nonneg x y : 0 <= x -> 0 < y -> 0 <= x / y.
Proof. intros Hx Hy. replace (x / y) with (x * (1 / y)) by (unfold Qcdiv; ring). auto using mult_nonneg, inv_nonneg. Qed.
Lemma scale_mono s a b : 0 <= s -> a <= b -> rd (s * a) <= rd (s * b).
Proof. intros. apply rd_mono. rewrite !(Qcmult_comm s). now apply Qcmult_le_compat_r. Qed.
Lemma factor_nonneg u d : 0 <= d -> 0 <= ffactor u d.
Proof.
  intros H. destruct u; cbn [ffactor]; try assumption; try discriminate;
  apply rd_nonneg, div_nonneg; try reflexivity; try assumption; apply rd_nonneg, mult_nonneg; try assumption; discriminate.
Qed.
Lemma dpi_nonneg v d : upright v -> dpi v = Ok d -> 0 <= d.
Proof.
  intros (A & B & C & _). unfold dpi. destruct (v_dpi v) as [x|] eqn:E1; [|destruct (v_canvas v) as [c|] eqn:E2; [|destruct (v_view v) as [w|] eqn:E3]];
  intros H; try discriminate; injection H as <-; [now apply A|now apply (C c)|now apply (B w)].
Qed.
Lemma fmulrow_mono s r r' : Forall (Qcle 0) s -> Forall2 Qcle r r' -> Forall2 Qcle (fmulrow s r) (fmulrow s r').
Proof.
  intros H. revert r r'. induction H as [|a s Ha H IH]; intros r r' F; [constructor|]. destruct F; cbn [fmulrow]; constructor; auto using scale_mono.
Qed.
Lemma scaled_mono sx sy x x' y y' : 0 <= sx -> 0 <= sy -> below x x' -> fscaled sx sy x = Ok y -> fscaled sx sy x' = Ok y' -> below y y'.
Proof.
  intros Hx Hy. destruct x as [a|w r], x' as [a'|w' r']; cbn [below]; try contradiction.
  - intros L E E'. injection E as <-. injection E' as <-. cbn [below]. now apply scale_mono.
  - intros [-> F]. destruct w' as [|[|[|[|w']]]]; cbn [fscaled]; intros E E'; try discriminate;
    injection E as <-; injection E' as <-; cbn [below]; split; try reflexivity; induction F; cbn [map]; constructor; auto.
    + apply (F2_maps Qcle); [|assumption]. intros. now apply scale_mono.
    + apply (fmulrow_mono [sx; sy]); auto.
    + apply (fmulrow_mono [sx; sy; 0]); auto. repeat (apply Forall_cons; [assumption || discriminate|]). constructor.
Qed.
Lemma frame_nonneg v s rx ry : upright v -> fframe v = Ok (s, (rx, ry)) -> 0 <= rx /\ 0 <= ry /\ positive_size s.
Proof.
  intros (A & B & C & D) H. unfold fframe in H.
  assert (M : forall l, in_order l -> 0 <= rd (snd l - fst l)).
  { intros l L. apply rd_nonneg. unfold in_order in L. inq. lra. }
  assert (P : positive_size (1, 1)) by (split; reflexivity).
  destruct (v_dpi v) as [x|]; [|destruct (v_view v) as [w|]; [|destruct (v_canvas v) as [c|]]]; cbn [bind fst snd] in H; try discriminate.
  - injection H as <- <- <-. split; [discriminate|]. split; [discriminate|]. destruct (v_size v); auto.
  - injection H as <- <- <-. destruct (B w eq_refl) as (S1 & L1 & L2 & _). split; [auto|]. split; [auto|]. destruct (v_size v); auto.
  - injection H as <- <- <-. destruct (C c eq_refl) as (S1 & _). split; [discriminate|]. split; [discriminate|]. destruct (v_size v); auto.
Qed.
Lemma pixels_mono v x x' y y' : upright v -> below x x' -> fpixels v (Some x) = Ok y -> fpixels v (Some x') = Ok y' -> below y y'.
Proof.
  intros U L. unfold fpixels. destruct (fframe v) as [[[w h] [rx ry]]|e] eqn:F; cbn [bind]; [|discriminate].
  destruct (frame_nonneg v _ _ _ U F) as (Rx & Ry & Sx & Sy). cbn [fst snd] in Sx, Sy.
  destruct (Qc_eq_bool w 0); [discriminate|]. destruct (Qc_eq_bool h 0); [discriminate|].
  apply scaled_mono; [apply rd_nonneg, mult_nonneg; [assumption|]; now apply rd_nonneg, inv_nonneg..|assumption].
Qed.
Lemma monotone u v x x' y y' : upright v -> below x x' -> fevaluate u v (Some x) = Ok y -> fevaluate u v (Some x') = Ok y' -> below y y'.
Proof.
  intros U L E E'. unfold fevaluate in E, E'.
  destruct (fpixels v (Some x)) as [m|] eqn:P; [|discriminate]. destruct (fpixels v (Some x')) as [m'|] eqn:P'; [|discriminate].
  pose proof (pixels_mono v x x' m m' U L P P') as B. cbn [bind] in E, E'.
  assert (M : forall d, dpi v = Ok d -> below (mmap (fun a => rd (ffactor u d * a)) m) (mmap (fun a => rd (ffactor u d * a)) m')).
  { intros d D. pose proof (factor_nonneg u d (dpi_nonneg v d U D)) as N. destruct m, m'; cbn [below mmap] in *; try contradiction.
    - now apply scale_mono.
    - destruct B as [-> B]. split; [reflexivity|]. clear P P'. apply (F2_maps (Forall2 Qcle)); [|assumption]. intros r r'. apply F2_maps. intros. now apply scale_mono. }
  destruct u; [injection E as <-; now injection E' as <-|..]; destruct (dpi v) as [d|]; cbn [bind] in E, E'; try discriminate; injection E as <-; injection E' as <-; exact (M d eq_refl).
Qed.

(** * Exact cases *)
Lemma at_pixels d x : is_double x -> fpixels (at_dpi d) (Some (Num x)) = Ok (Num x).
Proof.
  intros H. unfold fpixels, at_dpi. cbn [fframe bind v_dpi v_view v_canvas v_size fst snd].
  change (Qc_eq_bool 1 0) with false. cbn [fscaled]. replace (rd (1 * rd (1 / 1))) with 1 by (apply Qc_is_canon; reflexivity). do 2 f_equal. rewrite Qcmult_1_l. now apply rd_exact.
Qed.
Lemma pixels_exact d x : is_double x -> fevaluate Pixel (at_dpi d) (Some (Num x)) = Ok (Num x).
Proof. intros H. unfold fevaluate. now rewrite at_pixels. Qed.
Lemma inch_nearest d x : is_double x -> exists y, fevaluate Inch (at_dpi d) (Some (Num x)) = Ok (Num y) /\ nearest y (d * x).
Proof.
  intros H. unfold fevaluate. rewrite at_pixels by assumption. cbn. eexists. split; [reflexivity|].
  split; [apply double_rd|]. intros. now apply closest.
Qed.
Lemma inch_exact d x : is_double x -> is_double (d * x) -> fevaluate Inch (at_dpi d) (Some (Num x)) = Ok (Num (d * x)).
Proof. intros H H'. unfold fevaluate. rewrite at_pixels by assumption. cbn. now rewrite rd_exact. Qed.
Lemma points n : (0 < n < 2 ^ 52)%Z -> fevaluate Point (at_dpi (whole n)) (Some (Num (whole 72))) = Ok (Num (whole n)).
Proof.
  intros Hn. unfold fevaluate. rewrite at_pixels by (exists 72%Z, 0%Z, 0%Z; repeat split; cbn; lia). cbn [bind dpi at_dpi v_dpi mmap ffactor]. do 2 f_equal.
  destruct (size_safe n 72 Hn) as (b & Hb & E).
  { right. exists 6%Z, 3%Z. split; [lia|reflexivity]. }
  unfold size, inches in E. pose proof (fl_double n 72 ltac:(lia) ltac:(lia)) as D.
  assert (F : whole n / q 72 1 = frac n 72).
  { change (whole n) with (frac n 1). unfold Qcdiv. replace (/ q 72 1) with (frac 1 72) by (apply Qc_is_canon; reflexivity). rewrite frac_mult by lia. now rewrite Z.mul_1_r. }
  rewrite F, rd_frac by lia. destruct (fl_rel n 72 ltac:(lia) ltac:(lia)) as (t & Et & A & _).
  destruct (fl n 72) as [c e]. cbn [fst snd] in *. destruct D as [He _].
  assert (Hc : (0 < c)%Z).
  { apply (frac_pos c e He). rewrite Et. replace 0 with (0 * t) by ring. apply Qcmult_lt_compat_r; [|apply frac_pos; lia].
    apply Qclt_le_trans with lo; [apply lo_pos|assumption]. }
  change (whole 72) with (frac 72 1). rewrite frac_mult, Z.mul_1_r, rd_frac by lia. rewrite E. cbn [fst snd].
  change (whole n) with (frac n 1). apply frac_eq; lia.
Qed.
Lemma at_unit u d x : u <> Pixel -> is_double x -> fevaluate u (at_dpi d) (Some (Num x)) = Ok (Num (rd (ffactor u d * x))).
Proof. intros N H. unfold fevaluate. rewrite at_pixels by assumption. destruct u; [contradiction|reflexivity..]. Qed.
Lemma centimetres : fevaluate Inch (at_dpi (whole 64)) (Some (Num 1)) = Ok (Num (whole 64)) /\
  exists x, fevaluate Centimeter (at_dpi (whole 64)) (Some (Num (rd (q 254 100)))) = Ok (Num x) /\ x < whole 64.
Proof.
  split.
  - rewrite inch_exact; [f_equal; f_equal; ring|exists 1%Z, 0%Z, 0%Z; repeat split; cbn; lia|exists 1%Z, 6%Z, 0%Z; repeat split; cbn; lia].
  - eexists. split; [apply at_unit; [discriminate|apply double_rd]|]. vm_compute. reflexivity.
Qed.
Lemma millimetres : exists x, fevaluate Millimeter (at_dpi (whole 72)) (Some (Num (rd (q 254 10)))) = Ok (Num x) /\ x <> whole 72.
Proof.
  eexists. split; [apply at_unit; [discriminate|apply double_rd]|]. intros H.
  apply (f_equal this) in H. vm_compute in H. discriminate.
Qed.
