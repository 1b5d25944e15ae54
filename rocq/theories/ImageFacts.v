(** Proofs about Image.v. *)
From Verif Require Import Base Image ImageSpec.
From Coq Require Import Lia ZArith Psatz.
Local Open Scope Z_scope.

Lemma near_half n d : 0 < d ->
  2 * Z.abs (near n d * d - n) <= d /\ (2 * Z.abs (near n d * d - n) = d -> Z.even (near n d) = true).
Proof.
  intros Hd. unfold near. pose proof (Z.div_mod n d ltac:(lia)) as E. pose proof (Z.mod_pos_bound n d Hd) as B.
  set (k := n / d) in *. set (r := n mod d) in *. clearbody k r. subst n.
  destruct (Z.ltb_spec (2 * r) d); [|destruct (Z.ltb_spec d (2 * r)); [|destruct (Z.even k) eqn:Ek]].
  - replace (k * d - (d * k + r)) with (- r) by ring. split; [lia|]. intros; lia.
  - replace ((k + 1) * d - (d * k + r)) with (d - r) by ring. split; lia.
  - replace (k * d - (d * k + r)) with (- r) by ring. split; [lia|auto].
  - replace ((k + 1) * d - (d * k + r)) with (d - r) by ring. split; [lia|]. intros _.
    rewrite Z.even_add, Ek. reflexivity.
Qed.
Lemma near_least n d y : 0 < d -> Z.abs (near n d * d - n) <= Z.abs (y * d - n).
Proof.
  intros Hd. destruct (near_half n d Hd) as [H _]. set (k := near n d) in *. clearbody k.
  destruct (Z.eq_dec y k) as [->|Hne]; [lia|].
  assert (d <= Z.abs (y * d - k * d)).
  { rewrite <- Z.mul_sub_distr_r, Z.abs_mul, (Z.abs_eq d) by lia. nia. }
  lia.
Qed.
Lemma near_exact n d k : 0 < d -> 2 * Z.abs (k * d - n) < d \/ (2 * Z.abs (k * d - n) <= d /\ Z.even k = true) -> near n d = k.
Proof.
  intros Hd Hk. destruct (near_half n d Hd) as [H He]. set (m := near n d) in *. clearbody m.
  destruct (Z.eq_dec m k) as [|Hne]; [assumption|exfalso].
  assert (Hdist : d * Z.abs (m - k) <= Z.abs (m * d - n) + Z.abs (k * d - n)).
  { rewrite <- (Z.abs_eq d) at 1 by lia. rewrite <- Z.abs_mul. replace (d * (m - k)) with ((m * d - n) - (k * d - n)) by ring. lia. }
  assert (1 <= Z.abs (m - k)) by lia.
  assert (d <= d * Z.abs (m - k)) by nia.
  destruct Hk as [Hk|[Hk Hek]]; [lia|].
  assert (d * Z.abs (m - k) = d) by lia. assert (Z.abs (m - k) = 1) by nia.
  assert (Hm : Z.even m = true) by (apply He; lia).
  assert (E : m = k + 1 \/ m = k + -1) by lia.
  destruct E; subst m; rewrite Z.even_add, Hek in Hm; discriminate.
Qed.

Lemma up_pos s : 0 < up s. Proof. apply Z.pow_pos_nonneg; lia. Qed.
Lemma down_pos s : 0 < down s. Proof. apply Z.pow_pos_nonneg; lia. Qed.
Lemma up_down s a b : 0 <= a -> 0 <= b -> s = a - b -> up s * 2 ^ b = down s * 2 ^ a.
Proof.
  intros Ha Hb ->. unfold up, down. rewrite <- !Z.pow_add_r by lia. f_equal. lia.
Qed.
Lemma up_next s : up (s + 1) * down s = 2 * (up s * down (s + 1)).
Proof.
  unfold up, down. rewrite <- (Z.pow_1_r 2) at 3. rewrite <- !Z.pow_add_r by lia. f_equal. lia.
Qed.

Lemma places_bounds n d : 0 < n -> 0 < d ->
  2 ^ 52 * (d * down (places n d)) <= n * up (places n d) < 2 ^ 53 * (d * down (places n d)).
Proof.
  intros Hn Hd. unfold places. set (s := 52 + Z.log2 d - Z.log2 n).
  pose proof (Z.log2_spec n Hn) as Ln. pose proof (Z.log2_spec d Hd) as Ld.
  pose proof (Z.log2_nonneg n) as Pn. pose proof (Z.log2_nonneg d) as Pd.
  rewrite Z.pow_succ_r in Ln, Ld by lia.
  pose proof (up_down s (52 + Z.log2 d) (Z.log2 n) ltac:(lia) ltac:(lia) ltac:(unfold s; lia)) as E.
  rewrite Z.pow_add_r in E by lia.
  pose proof (up_pos s). pose proof (down_pos s). pose proof (up_pos (s + 1)). pose proof (down_pos (s + 1)).
  pose proof (up_next s) as En.
  destruct (Z.ltb_spec (n * up s) (2 ^ 52 * (d * down s))) as [Hlt|Hge].
  all: set (a := 2 ^ Z.log2 n) in *; set (b := 2 ^ Z.log2 d) in *; clearbody a b s;
  set (U := up s) in *; set (D := down s) in *; set (U1 := up (s + 1)) in *; set (D1 := down (s + 1)) in *; clearbody U D U1 D1;
  change (2 ^ 53) with (2 * 2 ^ 52) in *; set (t := 2 ^ 52) in *; assert (Ht : 0 < t) by reflexivity; clearbody t.
  2: {
  assert (Hup : n * U < 2 * t * (d * D)).
  { assert (n * U * a < 2 * t * (d * D) * a); [|nia].
    replace (n * U * a) with (n * D * (t * b)) by (rewrite <- (Z.mul_assoc n D), <- E; ring).
    assert (n * (D * t * b) < 2 * a * (D * t * b)) by (apply Z.mul_lt_mono_pos_r; nia).
    assert (D * t * b * a <= D * t * d * a) by (apply Z.mul_le_mono_nonneg_r; [nia|]; apply Z.mul_le_mono_nonneg_l; nia).
    lia. }
    lia. }
  assert (Hlo : t * (d * D) < 2 * (n * U)).
  { assert (t * (d * D) * a < 2 * (n * U) * a); [|nia].
    replace (2 * (n * U) * a) with (2 * (n * D * (t * b))) by (rewrite <- (Z.mul_assoc n D), <- E; ring).
    assert (d * (t * D * a) < 2 * b * (t * D * a)) by (apply Z.mul_lt_mono_pos_r; nia).
    assert (t * D * b * a <= t * D * b * n) by (apply Z.mul_le_mono_nonneg_l; nia).
    lia. }
  assert (G1 : t * (d * D1) * (2 * U) <= n * U1 * (2 * U)).
  { replace (t * (d * D1) * (2 * U)) with (t * d * (2 * (U * D1))) by ring. rewrite <- En.
    assert (t * (d * D) * U1 <= 2 * (n * U) * U1) by (apply Z.mul_le_mono_nonneg_r; lia). lia. }
  assert (G2 : n * U1 * (2 * U) < 2 * t * (d * D1) * (2 * U)).
  { replace (2 * t * (d * D1) * (2 * U)) with (2 * t * d * (2 * (U * D1))) by ring. rewrite <- En.
    assert (n * U * U1 < t * (d * D) * U1) by (apply Z.mul_lt_mono_pos_r; lia). lia. }
  split; nia.
Qed.

Lemma fl_double n d : 0 < n -> 0 < d -> let '(a, b) := fl n d in 0 < b /\ double a b.
Proof.
  intros Hn Hd. unfold fl. pose proof (places_bounds n d Hn Hd) as B. set (s := places n d) in *. clearbody s.
  pose proof (up_pos s) as HU. pose proof (down_pos s) as HD. split; [assumption|].
  assert (Hdd : 0 < d * down s) by nia.
  destruct (near_half (n * up s) (d * down s) Hdd) as [H _]. set (M := near (n * up s) (d * down s)) in *. clearbody M.
  set (E := d * down s) in *. clearbody E. set (N := n * up s) in *. clearbody N.
  assert (M0 : 0 <= M).
  { assert (2 ^ 52 = 4503599627370496) by reflexivity. nia. }
  assert (M1 : M <= 2 ^ 53) by nia.
  destruct (Z.eq_dec M (2 ^ 53)) as [->|Hne].
  - exists (2 ^ 52), (1 + Z.max 0 (- s)), (Z.max 0 s). repeat split; try lia.
    unfold up, down. rewrite Z.pow_add_r by lia. change (2 ^ 53) with (2 ^ 52 * 2 ^ 1). ring.
  - exists M, (Z.max 0 (- s)), (Z.max 0 s). repeat split; try lia. unfold up, down. ring.
Qed.
Lemma fl_closest n d p q : 0 < n -> 0 < d -> 0 < q -> double p q ->
  as_close n d (fst (fl n d)) (snd (fl n d)) p q.
Proof.
  intros Hn Hd Hq (m & f & g & Hm & Hf & Hg & Hp). unfold as_close, fl. cbn [fst snd].
  pose proof (places_bounds n d Hn Hd) as B. set (s := places n d) in *. clearbody s.
  pose proof (up_pos s) as HU. pose proof (down_pos s) as HD.
  assert (Hdd : 0 < d * down s) by nia.
  pose proof (fun y => near_least (n * up s) (d * down s) y Hdd) as Hle. set (M := near (n * up s) (d * down s)) in *. clearbody M.
  replace (M * down s * d - n * up s) with (M * (d * down s) - n * up s) by ring.
  rewrite <- (Z.abs_eq (up s)) at 2 by lia. rewrite <- Z.abs_mul.
  replace ((p * d - n * q) * up s) with (p * up s * d - n * up s * q) by ring.
  assert (Hcase : (exists y, p * up s = y * down s * q) \/ p * up s < 2 ^ 52 * down s * q).
  { unfold up, down in *. set (a := Z.max 0 s) in *. set (b := Z.max 0 (- s)) in *.
    assert (0 <= a) by lia. assert (0 <= b) by lia. clearbody a b. clear -Hp Hm Hf Hg H H0 Hq.
    assert (P : forall x, 0 <= x -> 0 < 2 ^ x) by (intros; apply Z.pow_pos_nonneg; lia).
    destruct (Z.le_gt_cases (g + b) (f + a)) as [Hle|Hgt].
    - left. exists (m * 2 ^ (f + a - (g + b))).
      assert (p * 2 ^ a * 2 ^ g = m * 2 ^ (f + a - (g + b)) * 2 ^ b * q * 2 ^ g).
      { replace (p * 2 ^ a * 2 ^ g) with (p * 2 ^ g * 2 ^ a) by ring. rewrite Hp.
        replace (q * (m * 2 ^ f) * 2 ^ a) with (q * m * (2 ^ f * 2 ^ a)) by ring.
        replace (m * 2 ^ (f + a - (g + b)) * 2 ^ b * q * 2 ^ g) with (q * m * (2 ^ (f + a - (g + b)) * 2 ^ b * 2 ^ g)) by ring.
        rewrite <- !Z.pow_add_r by lia. do 2 f_equal. lia. }
      specialize (P g Hg). nia.
    - right. set (h := g + b - (f + a) - 1). assert (Hh : 0 <= h) by lia.
      assert (E : 2 ^ g * 2 ^ b = 2 ^ f * 2 ^ a * (2 * 2 ^ h)).
      { rewrite <- Z.pow_succ_r by lia. rewrite <- !Z.pow_add_r by lia. f_equal. lia. }
      pose proof (P g Hg). pose proof (P f Hf). pose proof (P a H). pose proof (P b H0). pose proof (P h Hh).
      assert (G : p * 2 ^ a * (2 ^ g * 2 ^ b) < 2 ^ 52 * 2 ^ b * q * (2 ^ g * 2 ^ b)); [|nia].
      replace (p * 2 ^ a * (2 ^ g * 2 ^ b)) with (p * 2 ^ g * (2 ^ a * 2 ^ b)) by ring. rewrite Hp.
      rewrite E at 1. change (2 ^ 53) with (2 ^ 52 * 2) in Hm. set (t := 2 ^ 52) in *. clearbody t.
      replace (q * (m * 2 ^ f) * (2 ^ a * 2 ^ b)) with (m * (q * 2 ^ f * 2 ^ a * 2 ^ b)) by ring.
      replace (t * 2 ^ b * q * (2 ^ f * 2 ^ a * (2 * 2 ^ h))) with (t * 2 * 2 ^ h * (q * 2 ^ f * 2 ^ a * 2 ^ b)) by ring.
      apply Z.mul_lt_mono_pos_r; [repeat apply Z.mul_pos_pos; lia|]. nia. }
  set (N := n * up s) in *. set (E := d * down s) in *.
  destruct Hcase as [(y & Hy)|Hlt].
  - rewrite Hy. replace (y * down s * q * d - N * q) with ((y * E - N) * q) by (unfold E; ring).
    rewrite Z.abs_mul, (Z.abs_eq q) by lia. apply Z.mul_le_mono_nonneg_r; [lia|]. apply Hle.
  - specialize (Hle (2 ^ 52)). assert (p * up s * d < 2 ^ 52 * E * q).
    { replace (2 ^ 52 * E * q) with (2 ^ 52 * down s * q * d) by (unfold E; ring). apply Z.mul_lt_mono_pos_r; lia. }
    assert (2 ^ 52 * E * q <= N * q) by (apply Z.mul_le_mono_nonneg_r; lia).
    assert (Z.abs (2 ^ 52 * E - N) * q = N * q - 2 ^ 52 * E * q).
    { rewrite Z.abs_neq by lia. ring. }
    assert (Z.abs (M * E - N) * q <= Z.abs (2 ^ 52 * E - N) * q) by (apply Z.mul_le_mono_nonneg_r; lia).
    lia.
Qed.

(** *** Pixels *)
Lemma places_pos n d : 0 < n -> 0 < d -> n < 2 ^ 52 * d -> 0 < places n d.
Proof.
  intros Hn Hd Hlt. pose proof (places_bounds n d Hn Hd) as B.
  destruct (Z.le_gt_cases (places n d) 0) as [Hle|]; [exfalso|assumption].
  assert (E : up (places n d) = 1) by (unfold up; rewrite Z.max_l by lia; reflexivity).
  rewrite E in B. pose proof (down_pos (places n d)). nia.
Qed.
Lemma up_of s : 0 < s -> up s = 2 ^ s. Proof. intros. unfold up. now rewrite Z.max_r by lia. Qed.
Lemma down_of s : 0 < s -> down s = 1. Proof. intros. unfold down. now rewrite Z.max_l by lia. Qed.
Lemma fl_small n d : 0 < n -> 0 < d -> n < 2 ^ 52 * d ->
  let s := places n d in
  fl n d = (near (n * 2 ^ s) d, 2 ^ s) /\ 0 < s /\ 2 ^ 52 * d <= n * 2 ^ s < 2 ^ 53 * d.
Proof.
  intros Hn Hd Hlt s. pose proof (places_pos n d Hn Hd Hlt) as Hs. pose proof (places_bounds n d Hn Hd) as B.
  unfold fl. fold s in Hs, B |- *. rewrite (up_of s Hs), (down_of s Hs), !Z.mul_1_r in *. auto.
Qed.

(** The product, and how far it can be from the width. *)
Lemma second w dpi : 0 < w < 2 ^ 52 -> 0 < dpi ->
  exists s M s', 0 < s /\ 0 < s' /\ M = near (w * 2 ^ s) dpi /\ 2 ^ 52 <= M /\
    2 ^ 52 * dpi <= w * 2 ^ s /\ 2 * Z.abs (M * dpi - w * 2 ^ s) <= dpi /\
    size w dpi = (near (M * dpi * 2 ^ s') (2 ^ s), 2 ^ s') /\ M * dpi * 2 ^ s' < 2 ^ 53 * 2 ^ s.
Proof.
  intros Hw Hd. destruct (fl_small w dpi ltac:(lia) Hd ltac:(nia)) as (E & Hs & B).
  set (s := places w dpi) in *. clearbody s. set (M := near (w * 2 ^ s) dpi) in *.
  destruct (near_half (w * 2 ^ s) dpi Hd) as [H _]. fold M in H.
  assert (Ps : 0 < 2 ^ s) by (apply Z.pow_pos_nonneg; lia).
  assert (HM : 2 ^ 52 <= M).
  { destruct (Z.le_gt_cases (2 ^ 52) M); [assumption|exfalso].
    assert ((M + 1) * dpi <= 2 ^ 52 * dpi) by (apply Z.mul_le_mono_nonneg_r; lia). lia. }
  assert (P52 : 0 < 2 ^ 52) by reflexivity.
  assert (Hdpi : dpi < 2 ^ s).
  { assert (2 ^ 52 * dpi < 2 ^ 52 * 2 ^ s); [|nia]. assert (w * 2 ^ s < 2 ^ 52 * 2 ^ s) by (apply Z.mul_lt_mono_pos_r; lia). lia. }
  assert (Hx : M * dpi < 2 ^ 52 * 2 ^ s).
  { assert ((w + 1) * 2 ^ s <= 2 ^ 52 * 2 ^ s) by (apply Z.mul_le_mono_nonneg_r; lia). lia. }
  destruct (fl_small (M * dpi) (2 ^ s) ltac:(nia) Ps Hx) as (E' & Hs' & B').
  exists s, M, (places (M * dpi) (2 ^ s)). repeat split; try assumption; try lia.
  unfold size, inches. rewrite E. exact E'.
Qed.

Lemma exact_size w dpi s M s' : 0 < s' -> 0 < s ->
  size w dpi = (near (M * dpi * 2 ^ s') (2 ^ s), 2 ^ s') -> 2 * Z.abs (M * dpi - w * 2 ^ s) * 2 ^ s' <= 2 ^ s ->
  size w dpi = (w * 2 ^ s', 2 ^ s').
Proof.
  intros Hs' Hs -> H. f_equal. assert (0 < 2 ^ s) by (apply Z.pow_pos_nonneg; lia).
  assert (0 < 2 ^ s') by (apply Z.pow_pos_nonneg; lia).
  apply near_exact; [assumption|]. right. split.
  - replace (w * 2 ^ s' * 2 ^ s - M * dpi * 2 ^ s') with (- (M * dpi - w * 2 ^ s) * 2 ^ s') by ring.
    rewrite Z.abs_mul, Z.abs_opp, (Z.abs_eq (2 ^ s')) by lia. lia.
  - rewrite Z.even_mul. replace s' with (Z.succ (s' - 1)) by lia. rewrite Z.pow_succ_r, Z.even_mul by lia.
    cbn [Z.even]. apply orb_true_r.
Qed.
Lemma size_divides w dpi : 0 < w < 2 ^ 52 -> 0 < dpi -> (forall s, 0 < s -> 2 ^ 52 * dpi <= w * 2 ^ s -> (dpi | w * 2 ^ s)) ->
  exists b, 0 < b /\ size w dpi = (w * b, b).
Proof.
  intros Hw Hd Hdiv. destruct (second w dpi Hw Hd) as (s & M & s' & Hs & Hs' & EM & HM & B & H & E & B').
  exists (2 ^ s'). assert (0 < 2 ^ s') by (apply Z.pow_pos_nonneg; lia). split; [assumption|].
  apply (exact_size w dpi s M s' Hs' Hs E).
  destruct (Hdiv s Hs B) as (k & Hk).
  assert (M = k). { rewrite EM. apply near_exact; [assumption|]. left. rewrite Hk. replace (k * dpi - k * dpi) with 0 by ring. cbn. lia. }
  subst k. rewrite Hk, Z.sub_diag. cbn. apply Z.pow_nonneg; lia.
Qed.
Lemma size_multiple w dpi : 0 < w < 2 ^ 52 -> 0 < dpi -> (dpi | w) -> exists b, 0 < b /\ size w dpi = (w * b, b).
Proof. intros Hw Hd Hk. apply size_divides; auto. intros. now apply Z.divide_mul_l. Qed.
Lemma pow_lt_inv a b : 0 <= b -> 2 ^ a < 2 ^ b -> a < b.
Proof. intros Hb H. apply (Z.pow_lt_mono_r_iff 2); lia. Qed.
Lemma size_safe w dpi : 0 < w < 2 ^ 52 -> safe_dpi dpi -> exists b, 0 < b /\ size w dpi = (w * b, b).
Proof.
  intros Hw [(i & Hi & ->)|(i & j & Hij & Ed)].
  - assert (0 < 2 ^ i) by (apply Z.pow_pos_nonneg; lia). apply size_divides; auto. intros s Hs B.
    assert (0 < 2 ^ s) by (apply Z.pow_pos_nonneg; lia). assert (P52 : 0 < 2 ^ 52) by reflexivity.
    assert (i < s).
    { apply pow_lt_inv; [lia|]. assert (w * 2 ^ s < 2 ^ 52 * 2 ^ s) by (apply Z.mul_lt_mono_pos_r; lia). nia. }
    apply Z.divide_mul_r. exists (2 ^ (s - i)). rewrite <- Z.pow_add_r by lia. f_equal. lia.
  - assert (Pi : 0 < 2 ^ i) by (apply Z.pow_pos_nonneg; lia). assert (Pj : 0 < 2 ^ j) by (apply Z.pow_pos_nonneg; lia).
    assert (Hd : 0 < dpi) by lia.
    destruct (second w dpi Hw Hd) as (s & M & s' & Hs & Hs' & EM & HM & B & H & E & B').
    assert (Ps : 0 < 2 ^ s) by (apply Z.pow_pos_nonneg; lia). assert (Ps' : 0 < 2 ^ s') by (apply Z.pow_pos_nonneg; lia).
    assert (P52 : 0 < 2 ^ 52) by reflexivity.
    exists (2 ^ s'). split; [assumption|]. apply (exact_size w dpi s M s' Hs' Hs E).
    assert (His : i < s).
    { apply pow_lt_inv; [lia|]. assert (w * 2 ^ s < 2 ^ 52 * 2 ^ s) by (apply Z.mul_lt_mono_pos_r; lia). nia. }
    assert (Hss : s' + i < s + 1).
    { apply pow_lt_inv; [lia|]. rewrite !Z.pow_add_r by lia. change (2 ^ 53) with (2 ^ 52 * 2) in B'.
      assert (2 ^ 52 * (2 ^ i * 2 ^ s') <= M * dpi * 2 ^ s').
      { rewrite Z.mul_assoc. apply Z.mul_le_mono_nonneg_r; [lia|]. apply Z.mul_le_mono_nonneg; lia. }
      assert (2 ^ 52 * (2 ^ s' * 2 ^ i) < 2 ^ 52 * (2 ^ s * 2 ^ 1)); [|nia]. change (2 ^ 1) with 2. lia. }
    assert (Hk : 2 * Z.abs (M * dpi - w * 2 ^ s) <= 2 ^ i).
    { assert (Ei : 2 ^ i = 2 * 2 ^ (i - j - 1) * 2 ^ j).
      { rewrite <- Z.pow_succ_r, <- Z.pow_add_r by lia. f_equal. lia. }
      assert (Es : 2 ^ s = 2 ^ (s - j) * 2 ^ j) by (rewrite <- Z.pow_add_r by lia; f_equal; lia).
      assert (Ek : M * dpi - w * 2 ^ s = (M * (2 * 2 ^ (i - j - 1) + 1) - w * 2 ^ (s - j)) * 2 ^ j).
      { rewrite Ed, Ei, Es. ring. }
      rewrite Ek in *. rewrite Z.abs_mul, (Z.abs_eq (2 ^ j)) in * by lia.
      set (k := Z.abs (M * (2 * 2 ^ (i - j - 1) + 1) - w * 2 ^ (s - j))) in *.
      rewrite Ed, Ei in H. rewrite Ei. set (a := 2 ^ (i - j - 1)) in *. clearbody k a. clear - H Pj.
      assert (2 * k <= 2 * a + 1) by nia. assert (2 * k <= 2 * a) by lia. nia. }
    assert (2 * Z.abs (M * dpi - w * 2 ^ s) * 2 ^ s' <= 2 ^ i * 2 ^ s') by (apply Z.mul_le_mono_nonneg_r; lia).
    assert (2 ^ i * 2 ^ s' <= 2 ^ s) by (rewrite <- Z.pow_add_r by lia; apply Z.pow_le_mono_r; lia). lia.
Qed.
Lemma size_pixels w dpi b : 0 < b -> size w dpi = (w * b, b) -> pixels w dpi = w.
Proof. intros Hb E. unfold pixels. rewrite E. apply Z.div_mul. lia. Qed.

Lemma pixels_near w dpi : 0 < w < 2 ^ 52 -> 0 < dpi -> pixels w dpi = w \/ pixels w dpi = w - 1.
Proof.
  intros Hw Hd. destruct (second w dpi Hw Hd) as (s & M & s' & Hs & Hs' & EM & HM & B & H & E & B').
  assert (Ps : 0 < 2 ^ s) by (apply Z.pow_pos_nonneg; lia). assert (Ps' : 0 < 2 ^ s') by (apply Z.pow_pos_nonneg; lia).
  assert (P52 : 0 < 2 ^ 52) by reflexivity.
  assert (Hdpi : dpi < 2 ^ s).
  { assert (w * 2 ^ s < 2 ^ 52 * 2 ^ s) by (apply Z.mul_lt_mono_pos_r; lia). nia. }
  unfold pixels. rewrite E. destruct (near_half (M * dpi * 2 ^ s') (2 ^ s) Ps) as [Hn _].
  set (R := near (M * dpi * 2 ^ s') (2 ^ s)) in *. clearbody R.
  assert (H2 : 2 <= 2 ^ s') by (change 2 with (2 ^ 1) at 1; apply Z.pow_le_mono_r; lia).
  set (x := M * dpi) in *. clearbody x. set (S := 2 ^ s) in *. set (T := 2 ^ s') in *. clearbody S T.
  assert (A : 2 * Z.abs (x * T - w * S * T) <= dpi * T).
  { rewrite <- Z.mul_sub_distr_r, Z.abs_mul, (Z.abs_eq T) by lia. rewrite Z.mul_assoc. apply Z.mul_le_mono_nonneg_r; lia. }
  assert (dpi * T < S * T) by (apply Z.mul_lt_mono_pos_r; lia).
  assert (S * 2 <= S * T) by (apply Z.mul_le_mono_nonneg_l; lia).
  assert (D : Z.abs (R * S - w * T * S) < T * S) by lia.
  assert (D' : Z.abs (R - w * T) < T).
  { rewrite <- Z.mul_sub_distr_r, Z.abs_mul, (Z.abs_eq S) in D by lia. nia. }
  assert (w - 1 <= R / T) by (apply Z.div_le_lower_bound; lia).
  assert (R / T < w + 1) by (apply Z.div_lt_upper_bound; lia). lia.
Qed.

Lemma raw_shape w h dpi : 0 < w < 2 ^ 52 -> 0 < h < 2 ^ 52 -> 0 < dpi ->
  (raw_image (Whole w) (Whole h) dpi = Ok (h, w, 4) <-> pixels w dpi = w /\ pixels h dpi = h).
Proof.
  intros Hw Hh Hd. unfold raw_image, figure_pixels.
  pose proof (pixels_near w dpi Hw Hd) as Pw. pose proof (pixels_near h dpi Hh Hd) as Ph.
  set (a := pixels w dpi) in *. set (b := pixels h dpi) in *. clearbody a b. split.
  - destruct (Z.eqb_spec ((4 * a * b) mod (h * w)) 0) as [Hm|]; [|discriminate]. intros E.
    assert (E' : 4 * a * b / (h * w) = 4) by congruence. clear E. rename E' into E.
    assert (Hp : 0 < h * w) by nia. pose proof (Z.div_mod (4 * a * b) (h * w) ltac:(lia)) as Hq. rewrite Hm, E in Hq.
    assert (a * b = h * w) by lia. nia.
  - intros [-> ->]. replace (4 * w * h) with (4 * (h * w)) by ring.
    rewrite Z.mod_mul, Z.div_mul by nia. reflexivity.
Qed.
Lemma raw_safe w h dpi : 0 < w < 2 ^ 52 -> 0 < h < 2 ^ 52 -> 0 < dpi -> safe_dpi dpi \/ ((dpi | w) /\ (dpi | h)) ->
  raw_image (Whole w) (Whole h) dpi = Ok (h, w, 4).
Proof.
  intros Hw Hh Hd H. apply raw_shape; try assumption. destruct H as [H|[H1 H2]].
  - destruct (size_safe w dpi Hw H) as (b & Hb & E). destruct (size_safe h dpi Hh H) as (b' & Hb' & E').
    split; eauto using size_pixels.
  - destruct (size_multiple w dpi Hw Hd H1) as (b & Hb & E). destruct (size_multiple h dpi Hh Hd H2) as (b' & Hb' & E').
    split; eauto using size_pixels.
Qed.
Lemma safe_pos dpi : safe_dpi dpi -> 0 < dpi.
Proof.
  intros [(i & Hi & ->)|(i & j & Hij & ->)].
  - apply Z.pow_pos_nonneg; lia.
  - assert (0 < 2 ^ i) by (apply Z.pow_pos_nonneg; lia). assert (0 < 2 ^ j) by (apply Z.pow_pos_nonneg; lia). lia.
Qed.
(** A width that comes out one short is refused unless it is 1, 2 or 4. *)
Lemma raw_short w h dpi : 4 < w < 2 ^ 52 -> 0 < h < 2 ^ 52 -> 0 < dpi -> pixels w dpi <> w -> pixels h dpi = h ->
  raw_image (Whole w) (Whole h) dpi = Err ValueError.
Proof.
  intros Hw Hh Hd Nw Eh. destruct (pixels_near w dpi ltac:(lia) Hd) as [E|E]; [contradiction|].
  unfold raw_image, figure_pixels. rewrite E, Eh.
  destruct (Z.eqb_spec ((4 * (w - 1) * h) mod (h * w)) 0) as [Hm|]; [|reflexivity]. exfalso.
  pose proof (Z.div_mod (4 * (w - 1) * h) (h * w) ltac:(nia)) as Hq. rewrite Hm in Hq.
  set (k := 4 * (w - 1) * h / (h * w)) in *. clearbody k. assert (4 * (w - 1) = w * k) by nia.
  assert (k <= 3 \/ 4 <= k) by lia. nia.
Qed.
Lemma raw_measured n d x dpi :
  raw_image (Measured n d) x dpi = Err TypeError /\ raw_image x (Measured n d) dpi = Err TypeError.
Proof. destruct x; split; reflexivity. Qed.

Lemma measured_whole n dpi : figure_pixels (Measured n 1) dpi = figure_pixels (Whole n) dpi.
Proof. unfold figure_pixels, pixels, size, inches. rewrite Z.mul_1_l. destruct (fl n dpi) as [a b]. reflexivity. Qed.
