(** Proofs about elliptical arcs. *)
From Coq Require Import Reals Lra Psatz.
From Verif Require Import Base Arc ArcSpec.
Local Open Scope R_scope.

(** Angles. *)
Lemma mod360_range x : 0 <= mod360 x < 360.
Proof. unfold mod360. pose proof (base_Int_part (x / 360)) as (A & B). lra. Qed.
Lemma cos_sin_nat x n : cos (x + 2 * PI * INR n) = cos x /\ sin (x + 2 * PI * INR n) = sin x.
Proof.
  replace (x + 2 * PI * INR n) with (x + 2 * INR n * PI) by ring. split; [apply cos_period|apply sin_period].
Qed.
Lemma cos_sin_Z x k : cos (x + 2 * PI * IZR k) = cos x /\ sin (x + 2 * PI * IZR k) = sin x.
Proof.
  destruct (Z_le_gt_dec 0 k) as [P|P].
  - rewrite <- (Z2Nat.id k P), <- INR_IZR_INZ. apply cos_sin_nat.
  - pose proof (cos_sin_nat (x + 2 * PI * IZR k) (Z.to_nat (- k))) as (A & B). rewrite INR_IZR_INZ, Z2Nat.id, opp_IZR in A, B by lia.
    replace (x + 2 * PI * IZR k + 2 * PI * - IZR k) with x in A, B by ring. auto.
Qed.
Lemma mod360_same x : cos (radians (mod360 x)) = cos (radians x) /\ sin (radians (mod360 x)) = sin (radians x).
Proof.
  unfold mod360, radians. replace ((x - 360 * IZR (Int_part (x / 360))) * PI / 180) with (x * PI / 180 + 2 * PI * IZR (- Int_part (x / 360))).
  - apply cos_sin_Z.
  - rewrite opp_IZR. field.
Qed.
Lemma radians_degrees x : radians (degrees x) = x.
Proof. unfold radians, degrees. field. apply PI_neq0. Qed.
Lemma radians_opp x : radians (- x) = - radians x.
Proof. unfold radians. field. Qed.
Lemma radians_plus x y : radians (x + y) = radians x + radians y.
Proof. unfold radians. field. Qed.
Lemma sin_acos_abs x y : x * x + y * y = 1 -> sin (acos x) = Rabs y.
Proof.
  intros E. assert (B : -1 <= x <= 1) by nra. rewrite sin_acos by exact B.
  replace (1 - x²) with (y²) by (unfold Rsqr; lra). apply sqrt_Rsqr_abs.
Qed.
(** The angle whose cosine and sine are given. *)
Lemma signed_acos x y : x * x + y * y = 1 ->
  cos (radians (mod360 (if Rlt_dec y 0 then - degrees (acos x) else degrees (acos x)))) = x /\
  sin (radians (mod360 (if Rlt_dec y 0 then - degrees (acos x) else degrees (acos x)))) = y.
Proof.
  intros E. assert (B : -1 <= x <= 1) by nra.
  destruct (mod360_same (if Rlt_dec y 0 then - degrees (acos x) else degrees (acos x))) as (-> & ->).
  destruct (Rlt_dec y 0) as [N|N].
  - rewrite radians_opp, radians_degrees, cos_neg, sin_neg, cos_acos, (sin_acos_abs _ _ E) by exact B. rewrite Rabs_left by exact N. split; lra.
  - rewrite radians_degrees, cos_acos, (sin_acos_abs _ _ E) by exact B. rewrite Rabs_right by lra. auto.
Qed.
Lemma angle_of_ok ux uy : ux * ux + uy * uy = 1 -> cos (radians (angle_of ux uy)) = ux /\ sin (radians (angle_of ux uy)) = uy.
Proof. intros E. unfold angle_of. rewrite E, sqrt_1. replace (ux / 1) with ux by field. now apply signed_acos. Qed.
Lemma clip_id d : -1 <= d <= 1 -> clip d = d.
Proof. intros B. unfold clip. rewrite Rmax_left, Rmin_left by lra. reflexivity. Qed.
(** The turn from [u] to [v]. *)
Section Turn.
  Variables ux uy vx vy : R.
  Hypothesis U : ux * ux + uy * uy = 1.
  Hypothesis V : vx * vx + vy * vy = 1.
  Let d := ux * vx + uy * vy.
  Let x := ux * vy - uy * vx.
  Lemma dot_cross : d * d + x * x = 1.
  Proof. unfold d, x. replace 1 with ((ux * ux + uy * uy) * (vx * vx + vy * vy)) by (rewrite U, V; ring). ring. Qed.
  Let raw := mod360 (if Rlt_dec x 0 then - degrees (acos d) else degrees (acos d)).
  Lemma turn_raw sweep : turn ux uy vx vy sweep = if Req_EM_T sweep 0 then (if Rlt_dec 0 raw then raw - 360 else raw) else raw.
  Proof.
    unfold turn. rewrite U, V, Rmult_1_l, sqrt_1. fold d x. replace (d / 1) with d by field.
    assert (B : -1 <= d <= 1) by (pose proof dot_cross; nra). rewrite (clip_id _ B). reflexivity.
  Qed.
  Lemma raw_ok : cos (radians raw) = d /\ sin (radians raw) = x.
  Proof. apply signed_acos, dot_cross. Qed.
  Lemma turn_ok sweep : cos (radians (turn ux uy vx vy sweep)) = d /\ sin (radians (turn ux uy vx vy sweep)) = x.
  Proof.
    rewrite turn_raw. destruct (Req_EM_T sweep 0); [|exact raw_ok]. destruct (Rlt_dec 0 raw); [|exact raw_ok].
    destruct raw_ok as (A & B). destruct (cos_sin_Z (radians raw) (-1)) as (C & D).
    replace (radians (raw - 360)) with (radians raw + 2 * PI * IZR (-1)) by (unfold radians; field). rewrite C, D. auto.
  Qed.
  Lemma turn_range sweep : (sweep <> 0 -> 0 <= turn ux uy vx vy sweep < 360) /\ (sweep = 0 -> -360 < turn ux uy vx vy sweep <= 0).
  Proof.
    rewrite turn_raw. pose proof (mod360_range (if Rlt_dec x 0 then - degrees (acos d) else degrees (acos d))) as B. fold raw in B.
    destruct (Req_EM_T sweep 0) as [E|E]; split; intros H; try contradiction; [|exact B].
    destruct (Rlt_dec 0 raw); lra.
  Qed.
End Turn.
Lemma after_turn ux uy vx vy t : ux * ux + uy * uy = 1 -> cos t = ux * vx + uy * vy -> sin t = ux * vy - uy * vx ->
  ux * cos t - uy * sin t = vx /\ uy * cos t + ux * sin t = vy.
Proof.
  intros U -> ->. split.
  - replace vx with ((ux * ux + uy * uy) * vx) at 3 by (rewrite U; ring). ring.
  - replace vy with ((ux * ux + uy * uy) * vy) at 3 by (rewrite U; ring). ring.
Qed.
(** From sine and cosine to half turns. *)
Lemma sin_pos_deg t : 0 <= t < 360 -> (0 < sin (radians t) -> 0 < t < 180) /\ (sin (radians t) < 0 -> 180 < t < 360).
Proof.
  intros B. pose proof PI_RGT_0 as P. split; intros S.
  - split.
    + destruct (Req_dec t 0) as [->|]; [|lra]. unfold radians in S. replace (0 * PI / 180) with 0 in S by field. rewrite sin_0 in S. lra.
    + destruct (Rlt_dec t 180) as [L|L]; [exact L|]. exfalso. assert (sin (radians t) <= 0); [|lra].
      apply sin_le_0; unfold radians; nra.
  - split; [|lra]. destruct (Rlt_dec 180 t) as [L|L]; [exact L|]. exfalso. assert (0 <= sin (radians t)); [|lra].
    apply sin_ge_0; unfold radians; nra.
Qed.
Lemma half_turn_deg t : 0 <= t < 360 -> cos (radians t) = -1 -> t = 180.
Proof.
  intros B C. pose proof PI_RGT_0 as P.
  assert (S : sin (radians t) = 0). { pose proof (sin2_cos2 (radians t)) as E. rewrite C in E. unfold Rsqr in E. nra. }
  destruct (sin_eq_O_2PI_0 (radians t)) as [E|[E|E]]; try (unfold radians; nra); [exact S| | |].
  - rewrite E, cos_0 in C. lra.
  - unfold radians in E. apply (Rmult_eq_reg_r (PI / 180)); [|nra]. lra.
  - rewrite E, cos_2PI in C. lra.
Qed.
(** The two unit vectors from the center to the ends, in radii. *)
Section Core.
  Variables p q c : R.
  Let s := p * p + q * q.
  Hypothesis S : 0 < s <= 1.
  Hypothesis C : c * c = (1 - s) / s.
  Lemma s_c : s * (1 + c * c) = 1.
  Proof. rewrite C. field. lra. Qed.
  Lemma unit_u : (p - c * q) * (p - c * q) + (q + c * p) * (q + c * p) = 1.
  Proof. rewrite <- s_c. unfold s. ring. Qed.
  Lemma unit_v : (- p - c * q) * (- p - c * q) + (- q + c * p) * (- q + c * p) = 1.
  Proof. rewrite <- s_c. unfold s. ring. Qed.
  Lemma dot_uv : (p - c * q) * (- p - c * q) + (q + c * p) * (- q + c * p) = 1 - 2 * s.
  Proof. assert (E : s * (c * c) = 1 - s) by (rewrite C; field; lra). unfold s in *. lra. Qed.
  Lemma cross_uv : (p - c * q) * (- q + c * p) - (q + c * p) * (- p - c * q) = 2 * c * s.
  Proof. unfold s. ring. Qed.
End Core.
(** The radii. *)
Lemma spread_scale rx ry rot x1 y1 x2 y2 : rx <> 0 -> ry <> 0 ->
  scale_of (half_x rot x1 y1 x2 y2) (half_y rot x1 y1 x2 y2) (Rabs rx) (Rabs ry) = spread rx ry rot x1 y1 x2 y2.
Proof.
  intros X Y. unfold scale_of, spread, half_x, half_y, radians, Rsqr.
  replace (Rabs rx * Rabs rx) with (rx * rx) by (rewrite <- Rabs_mult; symmetry; apply Rabs_pos_eq; nra).
  replace (Rabs ry * Rabs ry) with (ry * ry) by (rewrite <- Rabs_mult; symmetry; apply Rabs_pos_eq; nra).
  field. auto.
Qed.
Lemma halves rot x1 y1 x2 y2 : half_x rot x1 y1 x2 y2 = 0 -> half_y rot x1 y1 x2 y2 = 0 -> x1 = x2 /\ y1 = y2.
Proof.
  unfold half_x, half_y. intros A B. pose proof (sin2_cos2 (radians rot)) as E. unfold Rsqr in E.
  set (cr := cos (radians rot)) in *. set (sr := sin (radians rot)) in *. set (dx := (x1 - x2) / 2) in *. set (dy := (y1 - y2) / 2) in *.
  assert (X : dx = 0). { replace dx with ((sr * sr + cr * cr) * dx) by (rewrite E; ring). replace ((sr * sr + cr * cr) * dx) with (cr * (cr * dx + sr * dy) - sr * (- sr * dx + cr * dy)) by ring. rewrite A, B. ring. }
  assert (Y : dy = 0). { replace dy with ((sr * sr + cr * cr) * dy) by (rewrite E; ring). replace ((sr * sr + cr * cr) * dy) with (sr * (cr * dx + sr * dy) + cr * (- sr * dx + cr * dy)) by ring. rewrite A, B. ring. }
  unfold dx, dy in *. lra.
Qed.
Lemma spread_pos rx ry rot x1 y1 x2 y2 : rx <> 0 -> ry <> 0 -> (x1, y1) <> (x2, y2) -> 0 < spread rx ry rot x1 y1 x2 y2.
Proof.
  intros X Y D. rewrite <- spread_scale by assumption. unfold scale_of.
  set (a := half_x rot x1 y1 x2 y2). set (b := half_y rot x1 y1 x2 y2).
  assert (XX : 0 < Rabs rx * Rabs rx) by (pose proof (Rabs_pos_lt _ X); nra).
  assert (YY : 0 < Rabs ry * Rabs ry) by (pose proof (Rabs_pos_lt _ Y); nra).
  assert (A0 : 0 <= a * a / (Rabs rx * Rabs rx)) by (apply Rmult_le_pos; [nra|left; now apply Rinv_0_lt_compat]).
  assert (B0 : 0 <= b * b / (Rabs ry * Rabs ry)) by (apply Rmult_le_pos; [nra|left; now apply Rinv_0_lt_compat]).
  destruct (Req_dec a 0) as [A|A]; [destruct (Req_dec b 0) as [B|B]|].
  - destruct (halves _ _ _ _ _ A B) as (-> & ->). contradiction.
  - assert (0 < b * b / (Rabs ry * Rabs ry)); [|lra]. apply Rmult_lt_0_compat; [nra|now apply Rinv_0_lt_compat].
  - assert (0 < a * a / (Rabs rx * Rabs rx)); [|lra]. apply Rmult_lt_0_compat; [nra|now apply Rinv_0_lt_compat].
Qed.
(** The radii after the correction. *)
Lemma corrected_ok a b rx ry : rx <> 0 -> ry <> 0 -> 0 < scale_of a b (Rabs rx) (Rabs ry) ->
  let (rx', ry') := corrected a b rx ry in let s := scale_of a b (Rabs rx) (Rabs ry) in
  0 < rx' /\ 0 < ry' /\ (a / rx') * (a / rx') + (b / ry') * (b / ry') = Rmin s 1 /\
  rx' = Rabs rx * sqrt (Rmax s 1) /\ ry' = Rabs ry * sqrt (Rmax s 1).
Proof.
  intros X Y S. unfold corrected. apply Rabs_pos_lt in X, Y. unfold scale_of in *.
  set (u := Rabs rx) in *. set (v := Rabs ry) in *. set (s := a * a / (u * u) + b * b / (v * v)) in *.
  destruct (Rlt_dec 1 s) as [L|L]; cbn zeta.
  - assert (Q : 0 < sqrt s) by (apply sqrt_lt_R0; lra). assert (QQ : sqrt s * sqrt s = s) by (apply sqrt_sqrt; lra).
    rewrite Rmin_right, Rmax_left by lra. split; [nra|]. split; [nra|]. split; [|auto].
    enough (E : forall r, 0 < r -> a / (u * r) * (a / (u * r)) + b / (v * r) * (b / (v * r)) = s / (r * r)) by (rewrite (E _ Q), QQ; field; lra).
    intros r H. unfold s. field. lra.
  - rewrite Rmin_left, Rmax_right, sqrt_1, 2 Rmult_1_r by lra. split; [exact X|]. split; [exact Y|]. split; [|auto].
    unfold s. field. lra.
Qed.
Lemma factor_ok a b rx ry large sweep : 0 < rx -> 0 < ry ->
  let s := (a / rx) * (a / rx) + (b / ry) * (b / ry) in 0 < s <= 1 ->
  let c := factor a b rx ry large sweep in
  c * c = (1 - s) / s /\ (large = sweep -> c <= 0) /\ (large <> sweep -> 0 <= c).
Proof.
  intros X Y s S c. unfold c, factor.
  assert (T : rx * rx * (b * b) + ry * ry * (a * a) = rx * rx * (ry * ry) * s) by (unfold s; field; lra).
  replace (rx * rx * (ry * ry) - rx * rx * (b * b) - ry * ry * (a * a)) with (rx * rx * (ry * ry) * (1 - s)) by lra.
  rewrite T. replace (rx * rx * (ry * ry) * (1 - s) / (rx * rx * (ry * ry) * s)) with ((1 - s) / s) by (field; lra).
  assert (P : 0 <= (1 - s) / s) by (apply Rmult_le_pos; [lra|left; apply Rinv_0_lt_compat; lra]).
  rewrite (Rabs_pos_eq _ P). pose proof (sqrt_sqrt _ P) as Q. pose proof (sqrt_pos ((1 - s) / s)) as Q0. destruct (Req_EM_T large sweep) as [E|E].
  - split; [nra|]. split; [lra|congruence].
  - split; [nra|]. split; [congruence|lra].
Qed.
(** What the parameterization is made of. *)
Lemma solved x1 y1 rx ry rot large sweep x2 y2 : rx <> 0 -> ry <> 0 -> (x1, y1) <> (x2, y2) ->
  exists k p q f, endpoint_to_center x1 y1 rx ry rot large sweep x2 y2 = Ok k /\
    p * p + q * q = Rmin (spread rx ry rot x1 y1 x2 y2) 1 /\
    f * f = (1 - (p * p + q * q)) / (p * p + q * q) /\ (large = sweep -> f <= 0) /\ (large <> sweep -> 0 <= f) /\
    0 < c_rx k /\ 0 < c_ry k /\
    c_rx k = Rabs rx * sqrt (Rmax (spread rx ry rot x1 y1 x2 y2) 1) /\ c_ry k = Rabs ry * sqrt (Rmax (spread rx ry rot x1 y1 x2 y2) 1) /\
    half_x rot x1 y1 x2 y2 = c_rx k * p /\ half_y rot x1 y1 x2 y2 = c_ry k * q /\
    c_x k = cos (radians rot) * (c_rx k * (f * q)) + sin (radians rot) * (c_ry k * (f * p)) + (x1 + x2) / 2 /\
    c_y k = sin (radians rot) * (c_rx k * (f * q)) - cos (radians rot) * (c_ry k * (f * p)) + (y1 + y2) / 2 /\
    c_from k = angle_of (p - f * q) (q + f * p) /\
    c_to k = c_from k + turn (p - f * q) (q + f * p) (- p - f * q) (- q + f * p) sweep.
Proof.
  intros X Y D. pose proof (spread_pos _ _ rot _ _ _ _ X Y D) as S. pose proof (spread_scale _ _ rot x1 y1 x2 y2 X Y) as SS.
  unfold endpoint_to_center.
  destruct (Req_EM_T (Rabs rx * Rabs rx) 0) as [N|_]; [pose proof (Rabs_pos_lt _ X); nra|].
  destruct (Req_EM_T (Rabs ry * Rabs ry) 0) as [N|_]; [pose proof (Rabs_pos_lt _ Y); nra|].
  set (a := half_x rot x1 y1 x2 y2) in *. set (b := half_y rot x1 y1 x2 y2) in *. cbv zeta. rewrite <- SS in S.
  pose proof (corrected_ok a b rx ry X Y S) as C. destruct (corrected a b rx ry) as (rx', ry'). cbv zeta in C. rewrite SS in S, C.
  set (sp := spread rx ry rot x1 y1 x2 y2) in *. destruct C as (X' & Y' & C & RX & RY).
  assert (S1 : 0 < Rmin sp 1 <= 1) by (unfold Rmin; destruct (Rle_dec sp 1); lra).
  pose proof (factor_ok a b rx' ry' large sweep X' Y') as F. cbv zeta in F. rewrite C in F. specialize (F S1).
  destruct (Req_EM_T (rx' * rx' * (b * b) + ry' * ry' * (a * a)) 0) as [N|_].
  { exfalso. assert (T : rx' * rx' * (b * b) + ry' * ry' * (a * a) = rx' * rx' * (ry' * ry') * Rmin sp 1) by (rewrite <- C; field; lra).
    assert (0 < rx' * rx' * (ry' * ry') * Rmin sp 1); [|lra]. repeat apply Rmult_lt_0_compat; lra. }
  set (f := factor a b rx' ry' large sweep) in *. destruct F as (F1 & F2 & F3).
  exists (mkCenter rx' ry'
    (cos (radians rot) * (f * rx' * b / ry') - sin (radians rot) * (- f * ry' * a / rx') + (x1 + x2) / 2)
    (sin (radians rot) * (f * rx' * b / ry') + cos (radians rot) * (- f * ry' * a / rx') + (y1 + y2) / 2)
    (angle_of (a / rx' - f * (b / ry')) (b / ry' + f * (a / rx')))
    (angle_of (a / rx' - f * (b / ry')) (b / ry' + f * (a / rx')) +
     turn (a / rx' - f * (b / ry')) (b / ry' + f * (a / rx')) (- (a / rx') - f * (b / ry')) (- (b / ry') + f * (a / rx')) sweep)), (a / rx'), (b / ry'), f.
  cbn [c_rx c_ry c_x c_y c_from c_to]. split.
  - replace ((a - f * rx' * b / ry') / rx') with (a / rx' - f * (b / ry')) by (field; lra).
    replace ((b - - f * ry' * a / rx') / ry') with (b / ry' + f * (a / rx')) by (field; lra).
    replace ((- a - f * rx' * b / ry') / rx') with (- (a / rx') - f * (b / ry')) by (field; lra).
    replace ((- b - - f * ry' * a / rx') / ry') with (- (b / ry') + f * (a / rx')) by (field; lra). reflexivity.
  - rewrite C. split; [reflexivity|]. split; [exact F1|]. split; [exact F2|]. split; [exact F3|]. split; [exact X'|]. split; [exact Y'|].
    split; [exact RX|]. split; [exact RY|]. split; [field; lra|]. split; [field; lra|]. split; [field; lra|]. split; [field; lra|]. auto.
Qed.
(** Turning back: the ends from the half difference. *)
Lemma unturn rot x1 y1 x2 y2 : let a := half_x rot x1 y1 x2 y2 in let b := half_y rot x1 y1 x2 y2 in
  cos (radians rot) * a - sin (radians rot) * b = (x1 - x2) / 2 /\ sin (radians rot) * a + cos (radians rot) * b = (y1 - y2) / 2.
Proof.
  cbv zeta. unfold half_x, half_y. pose proof (sin2_cos2 (radians rot)) as E. unfold Rsqr in E.
  set (cr := cos (radians rot)) in *. set (sr := sin (radians rot)) in *. set (dx := (x1 - x2) / 2) in *. set (dy := (y1 - y2) / 2) in *.
  split.
  - replace (cr * (cr * dx + sr * dy) - sr * (- sr * dx + cr * dy)) with ((sr * sr + cr * cr) * dx) by ring. rewrite E. ring.
  - replace (sr * (cr * dx + sr * dy) + cr * (- sr * dx + cr * dy)) with ((sr * sr + cr * cr) * dy) by ring. rewrite E. ring.
Qed.
Lemma min_pos s : 0 < s -> 0 < Rmin s 1 <= 1.
Proof. intros H. unfold Rmin. destruct (Rle_dec s 1); lra. Qed.
Theorem ends x1 y1 rx ry rot large sweep x2 y2 : rx <> 0 -> ry <> 0 -> (x1, y1) <> (x2, y2) ->
  exists k, endpoint_to_center x1 y1 rx ry rot large sweep x2 y2 = Ok k /\ 0 <= c_from k < 360 /\
    on_ellipse rot k (c_from k) = (x1, y1) /\ on_ellipse rot k (c_to k) = (x2, y2).
Proof.
  intros X Y D. pose proof (spread_pos _ _ rot _ _ _ _ X Y D) as S.
  destruct (solved x1 y1 rx ry rot large sweep x2 y2 X Y D) as (k & p & q & f & E & Q & F & _ & _ & _ & _ & _ & _ & A & B & CX & CY & T0 & T1).
  exists k. split; [exact E|]. pose proof (min_pos _ S) as M. rewrite <- Q in M.
  pose proof (unit_u p q f M F) as U. pose proof (unit_v p q f M F) as V.
  split; [rewrite T0; apply mod360_range|].
  destruct (angle_of_ok _ _ U) as (C0 & S0). rewrite <- T0 in C0, S0.
  destruct (turn_ok _ _ _ _ U V sweep) as (C1 & S1). destruct (after_turn _ _ _ _ _ U C1 S1) as (G & H).
  destruct (unturn rot x1 y1 x2 y2) as (I & J). cbv zeta in I, J. rewrite A, B in I, J.
  assert (C2 : cos (radians (c_to k)) = - p - f * q) by (rewrite T1, radians_plus, cos_plus, C0, S0; exact G).
  assert (S2 : sin (radians (c_to k)) = - q + f * p) by (rewrite T1, radians_plus, sin_plus, C0, S0; exact H).
  unfold on_ellipse. fold (radians (c_from k)) (radians (c_to k)) (radians rot). rewrite C0, S0, C2, S2, CX, CY.
  split; f_equal; lra.
Qed.
Theorem radii x1 y1 rx ry rot large sweep x2 y2 k : rx <> 0 -> ry <> 0 -> (x1, y1) <> (x2, y2) ->
  endpoint_to_center x1 y1 rx ry rot large sweep x2 y2 = Ok k -> let s := spread rx ry rot x1 y1 x2 y2 in
  (s <= 1 -> c_rx k = Rabs rx /\ c_ry k = Rabs ry) /\
  (1 <= s -> c_rx k = Rabs rx * sqrt s /\ c_ry k = Rabs ry * sqrt s /\ c_x k = (x1 + x2) / 2 /\ c_y k = (y1 + y2) / 2).
Proof.
  intros X Y D H s. pose proof (spread_pos _ _ rot _ _ _ _ X Y D) as S.
  destruct (solved x1 y1 rx ry rot large sweep x2 y2 X Y D) as (k' & p & q & f & E & Q & F & _ & _ & _ & _ & RX & RY & _ & _ & CX & CY & _).
  rewrite H in E. injection E as <-. fold s in Q, RX, RY, S. split; intros L.
  - rewrite RX, RY, Rmax_right, sqrt_1 by lra. lra.
  - rewrite Rmax_left in RX, RY by lra. rewrite Rmin_right in Q by lra. split; [exact RX|]. split; [exact RY|].
    rewrite Q in F. assert (f = 0) as -> by nra. rewrite CX, CY. split; ring.
Qed.
Theorem direction x1 y1 rx ry rot large sweep x2 y2 k : rx <> 0 -> ry <> 0 -> (x1, y1) <> (x2, y2) -> flag large -> flag sweep ->
  endpoint_to_center x1 y1 rx ry rot large sweep x2 y2 = Ok k -> let s := spread rx ry rot x1 y1 x2 y2 in
  (sweep = 1 -> 0 < c_to k - c_from k < 360) /\ (sweep = 0 -> -360 < c_to k - c_from k < 0) /\
  (1 <= s -> Rabs (c_to k - c_from k) = 180) /\
  (s < 1 -> large = 1 -> 180 < Rabs (c_to k - c_from k)) /\ (s < 1 -> large = 0 -> Rabs (c_to k - c_from k) < 180).
Proof.
  intros X Y D FL FS H s. pose proof (spread_pos _ _ rot _ _ _ _ X Y D) as S.
  destruct (solved x1 y1 rx ry rot large sweep x2 y2 X Y D) as (k' & p & q & f & E & Q & F & F0 & F1 & _ & _ & _ & _ & _ & _ & _ & _ & _ & T1).
  rewrite H in E. injection E as <-. fold s in Q, S. pose proof (min_pos _ S) as M. rewrite <- Q in M.
  pose proof (unit_u p q f M F) as U. pose proof (unit_v p q f M F) as V.
  set (t := turn (p - f * q) (q + f * p) (- p - f * q) (- q + f * p) sweep) in *.
  destruct (turn_ok _ _ _ _ U V sweep) as (C1 & S1). fold t in C1, S1. rewrite (dot_uv p q f M F) in C1. rewrite (cross_uv p q f) in S1.
  replace (c_to k - c_from k) with t by lra. destruct (turn_range _ _ _ _ U V sweep) as (R1 & R0). fold t in R0, R1.
  set (m := p * p + q * q) in *.
  assert (NZ : t <> 0). { intros Z. rewrite Z in C1. unfold radians in C1. replace (0 * PI / 180) with 0 in C1 by field. rewrite cos_0 in C1. lra. }
  split; [intros Z; assert (sweep <> 0) by lra; specialize (R1 H0); lra|]. split; [intros Z; specialize (R0 Z); lra|].
  assert (CN : cos (radians (- t)) = cos (radians t)) by (rewrite radians_opp; apply cos_neg).
  assert (SN : sin (radians (- t)) = - sin (radians t)) by (rewrite radians_opp; apply sin_neg).
  split; [|].
  - intros L. rewrite Rmin_right in Q by lra. rewrite Q in C1. destruct FS as [Z|Z].
    + specialize (R0 Z). rewrite Rabs_left by lra. apply half_turn_deg; [lra|]. rewrite CN, C1. lra.
    + assert (sweep <> 0) by lra. specialize (R1 H0). rewrite Rabs_right by lra. apply half_turn_deg; [lra|]. rewrite C1. lra.
  - assert (FP : s < 1 -> f * f > 0). { intros L. rewrite Rmin_left in Q by lra. rewrite F. apply Rmult_lt_0_compat; [lra|apply Rinv_0_lt_compat; lra]. }
    destruct FS as [Z|Z].
    + specialize (R0 Z). rewrite Rabs_left by lra. split; intros L G; specialize (FP L).
      * assert (0 < f) by (assert (0 <= f) by (apply F1; lra); nra). apply (sin_pos_deg (- t)); [lra|]. rewrite SN, S1. nra.
      * assert (f < 0) by (assert (f <= 0) by (apply F0; lra); nra). apply (sin_pos_deg (- t)); [lra|]. rewrite SN, S1. nra.
    + assert (sweep <> 0) by lra. specialize (R1 H0). rewrite Rabs_right by lra. split; intros L G; specialize (FP L).
      * assert (f < 0) by (assert (f <= 0) by (apply F0; lra); nra). apply (sin_pos_deg t); [lra|]. rewrite S1. nra.
      * assert (0 < f) by (assert (0 <= f) by (apply F1; lra); nra). apply (sin_pos_deg t); [lra|]. rewrite S1. nra.
Qed.
Theorem arc_errors x1 y1 rx ry rot large sweep x2 y2 : rx = 0 \/ ry = 0 \/ (x1, y1) = (x2, y2) ->
  endpoint_to_center x1 y1 rx ry rot large sweep x2 y2 = Err ZeroDivisionError.
Proof.
  intros H. unfold endpoint_to_center. destruct (Req_EM_T (Rabs rx * Rabs rx) 0) as [N|N]; [reflexivity|].
  destruct (Req_EM_T (Rabs ry * Rabs ry) 0) as [N'|N']; [reflexivity|].
  destruct H as [->|[->|E]]; [rewrite Rabs_R0 in N; lra|rewrite Rabs_R0 in N'; lra|]. injection E as <- <-.
  assert (A : half_x rot x1 y1 x1 y1 = 0) by (unfold half_x; field). assert (B : half_y rot x1 y1 x1 y1 = 0) by (unfold half_y; field).
  cbv zeta. destruct (corrected _ _ _ _) as (rx', ry'). rewrite A, B.
  destruct (Req_EM_T _ 0) as [_|N'']; [reflexivity|]. exfalso. apply N''. ring.
Qed.
(** The path. *)
Lemma place_on rot k t : place rot k (cos (t * PI / 180), sin (t * PI / 180)) = on_ellipse rot k t.
Proof. unfold place, on_ellipse, radians. cbn [fst snd]. f_equal; ring. Qed.
Lemma last_rev {A} (l : list A) x d : last (rev (x :: l)) d = x.
Proof. cbn [rev]. apply last_last. Qed.
Lemma hd_rev {A} (l : list A) d : hd d (rev l) = last l d.
Proof.
  destruct (rev l) as [|x m] eqn:E.
  - assert (l = []) as -> by (rewrite <- (rev_involutive l), E; reflexivity). reflexivity.
  - assert (l = rev (x :: m)) as -> by (rewrite <- E; symmetry; apply rev_involutive). cbn [hd]. symmetry. apply last_rev.
Qed.
Lemma last_map {A B} (f : A -> B) l d e : l <> [] -> last (map f l) e = f (last l d).
Proof. induction l as [|a [|b l] IH]; intros H; [contradiction|reflexivity|]. cbn [map last] in *. apply IH. discriminate. Qed.
Theorem path x1 y1 rx ry rot large sweep x2 y2 arc : rx <> 0 -> ry <> 0 -> (x1, y1) <> (x2, y2) -> flag large -> flag sweep ->
  (forall t1 t2, t1 < t2 < t1 + 360 -> arc t1 t2 <> [] /\ hd (0, 0) (arc t1 t2) = (cos (t1 * PI / 180), sin (t1 * PI / 180)) /\
                                       last (arc t1 t2) (0, 0) = (cos (t2 * PI / 180), sin (t2 * PI / 180))) ->
  exists vs, arc_path arc x1 y1 rx ry rot large sweep x2 y2 = Ok vs /\ hd (0, 0) vs = (x1, y1) /\ last vs (0, 0) = (x2, y2).
Proof.
  intros X Y D FL FS A. destruct (ends x1 y1 rx ry rot large sweep x2 y2 X Y D) as (k & E & _ & P1 & P2).
  destruct (direction _ _ _ _ _ _ _ _ _ _ X Y D FL FS E) as (D1 & D0 & _). unfold arc_path. rewrite E. cbn [bind].
  destruct (Rlt_dec (c_from k) (c_to k)) as [L|L].
  - assert (W : c_from k < c_to k < c_from k + 360) by (destruct FS as [Z|Z]; [specialize (D0 Z)|specialize (D1 Z)]; lra).
    destruct (A _ _ W) as (N & H & T). exists (map (place rot k) (arc (c_from k) (c_to k))). split; [reflexivity|]. split.
    + destruct (arc (c_from k) (c_to k)) as [|v vs]; [contradiction|]. cbn [map hd] in *. now rewrite H, place_on.
    + now rewrite (last_map _ _ (0, 0)), T, place_on.
  - assert (W : c_to k < c_from k < c_to k + 360) by (destruct FS as [Z|Z]; [specialize (D0 Z)|specialize (D1 Z)]; lra).
    destruct (A _ _ W) as (N & H & T). exists (rev (map (place rot k) (arc (c_to k) (c_from k)))). split; [reflexivity|]. split.
    + rewrite hd_rev. now rewrite (last_map _ _ (0, 0)), T, place_on.
    + destruct (arc (c_to k) (c_from k)) as [|v vs]; [contradiction|]. cbn [map hd] in *. rewrite last_rev. now rewrite H, place_on.
Qed.
(** A case. *)
Lemma spread_quarter : spread 1 1 0 1 0 0 1 = / 2.
Proof. unfold spread, Rsqr. replace (0 * PI / 180) with 0 by field. rewrite cos_0, sin_0. field. Qed.
