(** Proofs about viewports and the camera's zoom. *)
From Verif Require Import Base Measure MeasureFacts Viewport ViewportSpec.
From Coq Require Import Lqa.
From Verif Require Image.
Local Open Scope Qc_scope.

(** ** Rationals *)
Lemma this_plus a b : (this (a + b) == this a + this b)%Q. Proof. apply Qred_correct. Qed.
Lemma this_mult a b : (this (a * b) == this a * this b)%Q. Proof. apply Qred_correct. Qed.
Lemma this_opp a : (this (- a) == - this a)%Q. Proof. apply Qred_correct. Qed.
Lemma this_inv a : (this (/ a) == / this a)%Q. Proof. apply Qred_correct. Qed.
Lemma this_q n d : (this (q n d) == n # d)%Q. Proof. apply Qred_correct. Qed.
Lemma this_eq a b : (this a == this b)%Q <-> a = b.
Proof. split; [apply Qc_is_canon|now intros ->]. Qed.
Ltac toQ :=
  unfold Qcle, Qclt, Qcdiv, Qcminus, zq in *;
  repeat match goal with
         | H : @eq Qc _ _ |- _ => apply this_eq in H
         | H : ~ @eq Qc _ _ |- _ => rewrite <- this_eq in H
         end;
  try match goal with |- @eq Qc _ _ => apply this_eq | |- ~ @eq Qc _ _ => rewrite <- this_eq end;
  repeat (rewrite ?this_plus, ?this_mult, ?this_opp, ?this_inv, ?this_q in *);
  change (this 0) with 0%Q in *; change (this 1) with 1%Q in *.
Lemma qle_spec a b : qle a b = true <-> a <= b.
Proof. unfold qle, Qcle. apply Qle_bool_iff. Qed.
Lemma qlt_spec a b : qlt a b = true <-> a < b.
Proof.
  unfold qlt. destruct (qle b a) eqn:E; cbn; split; intros H; try discriminate.
  - apply qle_spec in E. toQ. lra.
  - apply Qcnot_le_lt. intros K. apply qle_spec in K. congruence.
  - reflexivity.
Qed.
Lemma qlt_false a b : qlt a b = false <-> b <= a.
Proof.
  rewrite <- Bool.not_true_iff_false, qlt_spec. split; intros H.
  - now apply Qcnot_lt_le.
  - intros K. toQ. lra.
Qed.
Lemma eqb_true a : Qc_eq_bool a 0 = true <-> a = 0.
Proof. unfold Qc_eq_bool. destruct (Qc_eq_dec a 0); split; congruence. Qed.
Lemma eqb_false a : Qc_eq_bool a 0 = false <-> a <> 0.
Proof. unfold Qc_eq_bool. destruct (Qc_eq_dec a 0); split; congruence. Qed.
Lemma pos_nonzero a : 0 < a -> a <> 0.
Proof. intros H K. subst. toQ. lra. Qed.

(** ** Canvas *)
Lemma canvas_size width height dpi f w h :
  new_canvas width height dpi = Ok f ->
  (let* c := measured dpi width in number c) = Ok w -> (let* c := measured dpi height in number c) = Ok h ->
  size f = (w, h).
Proof.
  unfold new_canvas, size. intros A B C.
  destruct (measured dpi width) as [cw|]; cbn [bind] in *; [|discriminate].
  destruct (measured dpi height) as [ch|]; cbn [bind] in *; [|discriminate].
  rewrite B, C in A. cbn [bind] in A.
  destruct (Qc_eq_bool dpi 0) eqn:E; [discriminate|]. apply eqb_false in E.
  destruct (qlt (w / dpi) 0); [discriminate|]. destruct (qlt (h / dpi) 0); [discriminate|].
  injection A as <-. cbn. f_equal; now field.
Qed.

(** ** Placement *)
Lemma place_asks f s c r : s <> 0 -> place f s c = Ok r -> asks f s c (r * s).
Proof.
  intros S. destruct c as [n|x|g]; cbn.
  - destruct (Qc_eq_bool s 0) eqn:E; [discriminate|]. intros H. injection H as <-. now field.
  - intros H. injection H as <-. reflexivity.
  - intros H. exists r. auto.
Qed.
Lemma pixels_of_is v : pixels_of (p_fig v) (p_pos v) = (wide v * canvas_w v, high v * canvas_h v).
Proof.
  unfold pixels_of, wide, high, canvas_w, canvas_h, size. destruct (p_pos v) as [[[x y] w] h]. cbn. f_equal; ring.
Qed.

(** What an update leaves. *)
Definition placed (v : viewport) : Prop :=
  let '(x, y, w, h) := p_extent v in
  let f := p_fig v in
  place f (fst (size f)) x = Ok (left v) /\ place f (snd (size f)) y = Ok (bottom v) /\
  place f (fst (size f)) w = Ok (wide v) /\ place f (snd (size f)) h = Ok (high v).
Definition limits (v : viewport) : Prop :=
  let w := wide v * canvas_w v in
  let h := high v * canvas_h v in
  exists x y, p_xlim v = lim x /\ p_ylim v = lim y /\
    (if qlt h w then h <> 0 /\ x = p_zoom v * w / h /\ y = p_zoom v else w <> 0 /\ x = p_zoom v /\ y = p_zoom v * h / w).
Lemma update_ok v v' : update v = Ok v' ->
  p_fig v' = p_fig v /\ p_extent v' = p_extent v /\ p_zoom v' = p_zoom v /\ placed v' /\ limits v'.
Proof.
  unfold update. destruct (p_extent v) as [[[x y] w] h] eqn:E.
  destruct (place _ _ x) as [rx|] eqn:X; cbn [bind]; [|discriminate].
  destruct (place _ _ y) as [ry|] eqn:Y; cbn [bind]; [|discriminate].
  destruct (place _ _ w) as [rw|] eqn:W; cbn [bind]; [|discriminate].
  destruct (place _ _ h) as [rh|] eqn:H; cbn [bind]; [|discriminate].
  unfold pixels_of.
  replace (rw * fst (f_inches (p_fig v)) * f_dpi (p_fig v)) with (rw * fst (size (p_fig v))) by (cbn; ring).
  replace (rh * snd (f_inches (p_fig v)) * f_dpi (p_fig v)) with (rh * snd (size (p_fig v))) by (cbn; ring).
  intros K.
  assert (L : exists a b, v' = mkV (p_fig v) (x, y, w, h) (rx, ry, rw, rh) (p_zoom v) (lim a) (lim b) /\
    (if qlt (rh * snd (size (p_fig v))) (rw * fst (size (p_fig v)))
     then rh * snd (size (p_fig v)) <> 0 /\ a = p_zoom v * (rw * fst (size (p_fig v))) / (rh * snd (size (p_fig v))) /\ b = p_zoom v
     else rw * fst (size (p_fig v)) <> 0 /\ a = p_zoom v /\ b = p_zoom v * (rh * snd (size (p_fig v))) / (rw * fst (size (p_fig v))))).
  { destruct (qlt _ _); destruct (Qc_eq_bool _ 0) eqn:Z; cbn [bind] in K; try discriminate;
      injection K as <-; apply eqb_false in Z; do 2 eexists; (split; [reflexivity|]); auto. }
  clear K. destruct L as (a & b & -> & L). cbn [p_fig p_extent p_zoom].
  do 3 (split; [reflexivity|]). split.
  - unfold placed. cbn [p_extent p_fig left bottom wide high p_pos]. auto.
  - unfold limits. exists a, b. unfold canvas_w, canvas_h, wide, high. cbn [p_pos p_fig p_xlim p_ylim p_zoom]. auto.
Qed.

Lemma new_ok f x y w h v : new_viewport f x y w h = Ok v ->
  p_fig v = f /\ p_extent v = (x, y, either w (f_width f), either h (f_height f)) /\ p_zoom v = 1 /\
  placed v /\ p_xlim v = (- (1), 1) /\ p_ylim v = (- (1), 1).
Proof.
  unfold new_viewport. destruct (update _) as [u|] eqn:U; cbn [bind]; [|discriminate].
  apply update_ok in U. destruct U as (A & B & C & D & _). cbn [p_fig p_extent p_zoom] in *.
  intros K. injection K as <-. cbn [p_fig p_extent p_zoom p_xlim p_ylim].
  do 2 (split; [auto|]). split; [auto|]. split; [|auto].
  unfold placed in *. cbn [p_extent p_fig]. destruct (p_extent u) as [[[ex ey] ew] eh]. rewrite A in D. exact D.
Qed.

Lemma show_ok v z v' : show_zoom v z = Ok v' ->
  p_fig v' = p_fig v /\ p_extent v' = p_extent v /\ p_pos v' = p_pos v /\ p_zoom v' = z /\
  p_xlim v' = lim z /\ p_ylim v' = lim (z * (snd (p_ylim v) / snd (p_xlim v))) /\ snd (p_xlim v) <> 0.
Proof.
  unfold show_zoom. destruct (Qc_eq_bool _ 0) eqn:E; [discriminate|]. apply eqb_false in E.
  intros K. injection K as <-. cbn. auto 10.
Qed.

(** The figure, and what was asked, along a history. *)
Definition same_canvas (f f' : fig) : Prop := f_width f = f_width f' /\ f_height f = f_height f' /\ f_dpi f = f_dpi f'.
Lemma step_ok s e s' : step s e = Ok s' -> placed (s_view s) ->
  placed (s_view s') /\ p_extent (s_view s') = p_extent (s_view s) /\ same_canvas (p_fig (s_view s')) (p_fig (s_view s)) /\
  f_inches (p_fig (s_view s')) = match e with Resize i => i | _ => f_inches (p_fig (s_view s)) end.
Proof.
  assert (SHOW : forall v z v', show_zoom v z = Ok v' -> placed v ->
    placed v' /\ p_extent v' = p_extent v /\ same_canvas (p_fig v') (p_fig v) /\ f_inches (p_fig v') = f_inches (p_fig v)).
  { intros v z v' H P. apply show_ok in H. destruct H as (A & B & C & _). rewrite A, B. split; [|unfold same_canvas; auto].
    unfold placed, left, bottom, wide, high in *. now rewrite A, B, C. }
  destruct e as [i| |ins b]; cbn [step].
  - unfold resize. destruct (update _) as [u|] eqn:U; cbn [bind]; [|discriminate]. intros K _. injection K as <-. cbn [s_view].
    apply update_ok in U. destruct U as (A & B & C & D & _). rewrite A, B. cbn [f_inches f_width f_height f_dpi p_fig p_extent]. unfold same_canvas. cbn [f_inches f_width f_height f_dpi p_fig p_extent]. auto 10.
  - destruct (show_zoom _ _) as [u|] eqn:U; cbn [bind]; [|discriminate]. intros K P. injection K as <-. cbn [s_view]. eauto.
  - destruct (s_connected s); cbn [negb]; [|intros K P; injection K as <-; unfold same_canvas; auto 10].
    destruct ins; cbn [negb]; [|intros K P; injection K as <-; unfold same_canvas; auto 10].
    destruct (show_zoom _ _) as [u|] eqn:U; cbn [bind]; [|discriminate]. intros K P. injection K as <-. cbn [s_view]. eauto.
Qed.
Lemma run_ok l : forall s s', run s l = Ok s' -> placed (s_view s) ->
  placed (s_view s') /\ p_extent (s_view s') = p_extent (s_view s) /\ same_canvas (p_fig (s_view s')) (p_fig (s_view s)).
Proof.
  induction l as [|e l IH]; intros s s'; cbn [run].
  - intros K P. injection K as <-. unfold same_canvas. auto.
  - destruct (step s e) as [t|] eqn:T; cbn [bind]; [|discriminate]. intros K P.
    destruct (step_ok _ _ _ T P) as (A & B & C & _). destruct (IH _ _ K A) as (D & E & F).
    split; [auto|]. split; [congruence|]. unfold same_canvas in *. intuition congruence.
Qed.

Definition nonzero_or (c d : coord) : coord := either c d.
Lemma either_nonzero c d : ~ zero c -> either c d = c.
Proof.
  unfold zero. destruct c as [n|x|g]; cbn; auto.
  - destruct n; auto. intros H. now destruct H; left.
  - destruct (Qc_eq_bool x 0) eqn:E; auto. apply eqb_true in E. intros H. subst. now destruct H; right.
Qed.
Lemma either_zero c d : zero c -> either c d = d.
Proof. now intros [->| ->]. Qed.

Lemma placement f x y w h v z l s :
  new_viewport f x y w h = Ok v -> run (new_scene v z) l = Ok s ->
  let now := s_view s in
  canvas_w now <> 0 -> canvas_h now <> 0 ->
  asks (p_fig now) (canvas_w now) x (left now * canvas_w now) /\
  asks (p_fig now) (canvas_h now) y (bottom now * canvas_h now) /\
  (~ zero w -> asks (p_fig now) (canvas_w now) w (wide now * canvas_w now)) /\
  (~ zero h -> asks (p_fig now) (canvas_h now) h (high now * canvas_h now)).
Proof.
  intros N R now W H. apply new_ok in N. destruct N as (F & E & _ & P & _).
  destruct (run_ok _ _ _ R P) as (A & B & _). cbn [new_scene s_view] in B. fold now in A, B.
  unfold placed in A. rewrite B, E in A. destruct A as (A1 & A2 & A3 & A4).
  repeat apply conj.
  - now apply place_asks.
  - now apply place_asks.
  - intros Z. rewrite (either_nonzero _ _ Z) in A3. now apply place_asks.
  - intros Z. rewrite (either_nonzero _ _ Z) in A4. now apply place_asks.
Qed.

Lemma spot_place f s c c' d : s <> 0 -> same_spot s c c' -> place f s (either c d) = place f s (either c' d) /\ place f s c = place f s c'.
Proof.
  intros S [->|(n & -> & ->)]; [auto|].
  assert (P : place f s (CInt n) = place f s (CFloat (zq n / s))).
  { cbn. apply eqb_false in S. now rewrite S. }
  split; [|exact P]. destruct (Z.eq_dec n 0) as [->|N].
  - cbn [either]. replace (zq 0 / s) with 0 by (unfold zq; change (q 0 1) with 0; now field). reflexivity.
  - rewrite !either_nonzero; [exact P| |]; intros [K|K]; try discriminate.
    + apply (f_equal (fun c => match c with CFloat r => r | _ => 0 end)) in K. cbn beta iota in K.
      apply (q_nonzero n 1 N). change (zq n = 0). transitivity (zq n / s * s); [now field|]. rewrite K. ring.
    + injection K as K. auto.
Qed.
Lemma same_place f x y w h x' y' w' h' :
  fst (size f) <> 0 -> snd (size f) <> 0 ->
  same_spot (fst (size f)) x x' -> same_spot (snd (size f)) y y' ->
  same_spot (fst (size f)) w w' -> same_spot (snd (size f)) h h' ->
  outcome (new_viewport f x y w h) = outcome (new_viewport f x' y' w' h').
Proof.
  intros W H X Y A B. unfold new_viewport, update. cbn [p_extent p_fig p_zoom].
  rewrite (proj2 (spot_place f _ x x' (CInt 0) W X)), (proj2 (spot_place f _ y y' (CInt 0) H Y)).
  rewrite (proj1 (spot_place f _ w w' (f_width f) W A)), (proj1 (spot_place f _ h h' (f_height f) H B)).
  repeat match goal with |- context [place ?f ?s ?c] => destruct (place f s c); cbn [bind]; [|reflexivity] end.
  destruct (pixels_of _ _) as [pa pb]. destruct (if qlt pb pa then _ else _) as [[? ?]|]; reflexivity.
Qed.

Lemma asks_unique f s c p p' : asks f s c p -> asks f s c p' -> p = p'.
Proof.
  destruct c as [n|x|g]; cbn; [congruence|congruence|]. intros (r & A & ->) (r' & B & ->). congruence.
Qed.
Lemma fraction l s : 0 < s -> 0 <= l * s -> 0 <= l.
Proof. intros S L. destruct (Qclt_le_dec l 0) as [K|K]; [|exact K]. exfalso. toQ. nra. Qed.
Lemma fraction_1 l s : 0 < s -> l * s <= s -> l <= 1.
Proof. intros S L. destruct (Qclt_le_dec 1 l) as [K|K]; [|exact K]. exfalso. toQ. nra. Qed.
Lemma inside_canvas f x y w h v z l s px py pw ph :
  new_viewport f x y w h = Ok v -> run (new_scene v z) l = Ok s ->
  let now := s_view s in
  0 < canvas_w now -> 0 < canvas_h now -> ~ zero w -> ~ zero h ->
  asks (p_fig now) (canvas_w now) x px -> asks (p_fig now) (canvas_h now) y py ->
  asks (p_fig now) (canvas_w now) w pw -> asks (p_fig now) (canvas_h now) h ph ->
  0 <= px -> 0 <= pw -> px + pw <= canvas_w now -> 0 <= py -> 0 <= ph -> py + ph <= canvas_h now ->
  (0 <= left now /\ 0 <= wide now /\ left now + wide now <= 1) /\
  (0 <= bottom now /\ 0 <= high now /\ bottom now + high now <= 1).
Proof.
  intros N R now W H NW NH X Y PW PH A B C D E F.
  destruct (placement _ _ _ _ _ _ _ _ _ N R (pos_nonzero _ W) (pos_nonzero _ H)) as (P1 & P2 & P3 & P4).
  fold now in P1, P2, P3, P4.
  rewrite (asks_unique _ _ _ _ _ X P1) in *. rewrite (asks_unique _ _ _ _ _ Y P2) in *.
  rewrite (asks_unique _ _ _ _ _ PW (P3 NW)) in *. rewrite (asks_unique _ _ _ _ _ PH (P4 NH)) in *.
  repeat apply conj; try (eapply fraction; [|eassumption]; assumption).
  - apply (fraction_1 _ (canvas_w now) W). now rewrite Qcmult_plus_distr_l.
  - apply (fraction_1 _ (canvas_h now) H). now rewrite Qcmult_plus_distr_l.
Qed.

(** ** Measures *)
Lemma factor_pixels u d : u <> Meter -> factor u d = pixels_per u d.
Proof.
  intros N. destruct u; try reflexivity; try congruence; cbn [factor pixels_per]; unfold zq, Qcdiv.
  - replace (/ q 254 10) with (q 1 10 * / q 254 100) by (apply Qc_is_canon; vm_compute; reflexivity). ring.
  - replace (/ q 254 10000000) with (q 100000 1 * / q 254 100) by (apply Qc_is_canon; vm_compute; reflexivity). ring.
Qed.
Lemma eval_coord u f s n : s <> 0 ->
  evaluate u (mkVars None None (Some (mkCanvas (f_dpi f) (size f))) (Some (s, s))) (Some (Num n))
  = Ok (Num (factor u (f_dpi f) * (1 / s * n))).
Proof.
  intros S. unfold evaluate, pixels, frame. cbn [v_dpi v_view v_canvas v_size bind fst snd].
  apply eqb_false in S. rewrite S. cbn [scaled bind dpi v_dpi v_canvas c_dpi mmap].
  replace (1 * (1 / s) * n) with (1 / s * n) by ring.
  destruct u; try reflexivity. cbn [factor]. do 2 f_equal. ring.
Qed.
Lemma asks_measure u f s n px : s <> 0 -> u <> Meter ->
  (asks f s (measure u n) px <-> px = n * pixels_per u (f_dpi f)).
Proof.
  intros S N. cbn [asks measure]. rewrite (eval_coord u f s n S), (factor_pixels u _ N). split.
  - intros (r & A & ->). injection A as <-. now field.
  - intros ->. eexists. split; [reflexivity|]. now field.
Qed.
Lemma asks_plus a u f s n px : s <> 0 -> u <> Meter ->
  (asks f s (plus_measure a u n) px <-> px = a * s + n * pixels_per u (f_dpi f)).
Proof.
  intros S N. cbn [asks plus_measure]. rewrite (eval_coord u f s n S), (factor_pixels u _ N). split.
  - intros (r & A & ->). injection A as <-. now field.
  - intros ->. eexists. split; [reflexivity|]. now field.
Qed.
Lemma margins f u a b v z l s :
  u <> Meter ->
  new_viewport f (measure u a) (measure u a) (plus_measure 1 u (- (a + b))) (plus_measure 1 u (- (a + b))) = Ok v ->
  run (new_scene v z) l = Ok s ->
  let now := s_view s in
  let px n := n * pixels_per u (f_dpi f) in
  canvas_w now <> 0 -> canvas_h now <> 0 ->
  left now * canvas_w now = px a /\ canvas_w now - (left now + wide now) * canvas_w now = px b /\
  bottom now * canvas_h now = px a /\ canvas_h now - (bottom now + high now) * canvas_h now = px b.
Proof.
  intros U N R now px W H.
  destruct (placement _ _ _ _ _ _ _ _ _ N R W H) as (P1 & P2 & P3 & P4). fold now in P1, P2, P3, P4.
  assert (NZ : ~ zero (plus_measure 1 u (- (a + b)))) by (intros [K|K]; discriminate).
  specialize (P3 NZ). specialize (P4 NZ).
  apply asks_measure in P1; auto. apply asks_measure in P2; auto. apply asks_plus in P3; auto. apply asks_plus in P4; auto.
  assert (D : f_dpi (p_fig now) = f_dpi f).
  { apply new_ok in N. destruct N as (F & _ & _ & P & _). destruct (run_ok _ _ _ R P) as (_ & _ & _ & _ & D).
    cbn in D. unfold now. congruence. }
  rewrite D in *. fold (px a) in P1, P2.
  split; [exact P1|]. split; [rewrite Qcmult_plus_distr_l, P1, P3; unfold px; ring|].
  split; [exact P2|]. rewrite Qcmult_plus_distr_l, P2, P4. unfold px. ring.
Qed.

(** ** No errors *)
Lemma place_plain f s c : s <> 0 -> plain c -> exists r, place f s c = Ok r.
Proof.
  intros S. destruct c as [n|x|g]; cbn; intros P; try contradiction; [|eauto].
  apply eqb_false in S. rewrite S. eauto.
Qed.
Lemma place_some f s c : 0 < s -> some_length c -> exists r, place f s c = Ok r /\ 0 < r * s.
Proof.
  intros S P. destruct (place_plain f s c) as (r & R); [now apply pos_nonzero|destruct c; easy|].
  exists r. split; [exact R|]. apply place_asks in R; [|now apply pos_nonzero].
  destruct c as [n|x|g]; cbn in *; [|rewrite R|contradiction].
  - rewrite R. unfold zq. toQ. unfold Qlt. cbn. lia.
  - toQ. nra.
Qed.
Lemma update_total v x y w h : p_extent v = (x, y, w, h) ->
  0 < fst (size (p_fig v)) -> 0 < snd (size (p_fig v)) -> plain x -> plain y -> some_length w -> some_length h ->
  exists v', update v = Ok v' /\ positive v'.
Proof.
  intros E W H X Y A B. unfold update. rewrite E.
  destruct (place_plain (p_fig v) _ x (pos_nonzero _ W) X) as (rx & ->).
  destruct (place_plain (p_fig v) _ y (pos_nonzero _ H) Y) as (ry & ->).
  destruct (place_some (p_fig v) _ w W A) as (rw & -> & RW). destruct (place_some (p_fig v) _ h H B) as (rh & -> & RH).
  cbn [bind pixels_of].
  replace (rw * fst (f_inches (p_fig v)) * f_dpi (p_fig v)) with (rw * fst (size (p_fig v))) by (cbn; ring).
  replace (rh * snd (f_inches (p_fig v)) * f_dpi (p_fig v)) with (rh * snd (size (p_fig v))) by (cbn; ring).
  pose proof (proj2 (eqb_false _) (pos_nonzero _ RW)) as ->. pose proof (proj2 (eqb_false _) (pos_nonzero _ RH)) as ->.
  destruct (qlt _ _); cbn [bind]; (eexists; split; [reflexivity|]); split; assumption.
Qed.
Lemma lim_nonzero a : snd (lim a) <> 0.
Proof.
  unfold lim. destruct (Qc_eq_bool a 0) eqn:E; cbn [snd]; [|now apply eqb_false].
  apply q_nonzero. lia.
Qed.
Lemma lim_of a : a <> 0 -> lim a = (- a, a).
Proof. intros H. unfold lim. apply eqb_false in H. now rewrite H. Qed.
Definition lims (v : viewport) : Prop := exists a b, p_xlim v = lim a /\ p_ylim v = lim b.
Lemma step_lims s e s' : step s e = Ok s' -> lims (s_view s) -> lims (s_view s').
Proof.
  destruct e as [i| |ins b]; cbn [step].
  - unfold resize. destruct (update _) as [u|] eqn:U; cbn [bind]; [|discriminate]. intros K _. injection K as <-. cbn.
    apply update_ok in U. destruct U as (_ & _ & _ & _ & x & y & A & B & _). now exists x, y.
  - destruct (show_zoom _ _) as [u|] eqn:U; cbn [bind]; [|discriminate]. intros K P. injection K as <-. cbn.
    apply show_ok in U. destruct U as (_ & _ & _ & _ & A & B & _). eexists _, _. eauto.
  - destruct (s_connected s); cbn [negb]; [|intros K P; injection K as <-; auto].
    destruct ins; cbn [negb]; [|intros K P; injection K as <-; auto].
    destruct (show_zoom _ _) as [u|] eqn:U; cbn [bind]; [|discriminate]. intros K P. injection K as <-. cbn.
    apply show_ok in U. destruct U as (_ & _ & _ & _ & A & B & _). eexists _, _. eauto.
Qed.
Lemma new_lims f x y w h v : new_viewport f x y w h = Ok v -> lims v.
Proof.
  intros N. apply new_ok in N. destruct N as (_ & _ & _ & _ & A & B). exists 1, 1.
  rewrite A, B, lim_of by now apply pos_nonzero. auto.
Qed.
Lemma show_total v z : lims v -> exists v', show_zoom v z = Ok v'.
Proof.
  intros (a & b & A & B). unfold show_zoom. rewrite A.
  pose proof (proj2 (eqb_false _) (lim_nonzero a)) as ->. eauto.
Qed.
Lemma step_total s e x y w h : p_extent (s_view s) = (x, y, w, h) -> 0 < f_dpi (p_fig (s_view s)) ->
  plain x -> plain y -> some_length w -> some_length h -> placed (s_view s) -> lims (s_view s) -> proper e ->
  exists s', step s e = Ok s'.
Proof.
  intros E D X Y A B P L Q. destruct e as [[i j]| |ins b]; cbn [step].
  - unfold resize. edestruct (update_total (mkV (mkFig (f_width (p_fig (s_view s))) (f_height (p_fig (s_view s))) (f_dpi (p_fig (s_view s))) (i, j))
        (p_extent (s_view s)) (p_pos (s_view s)) (p_zoom (s_view s)) (p_xlim (s_view s)) (p_ylim (s_view s)))) as (v' & -> & _).
    + cbn. exact E.
    + cbn in *. destruct Q. toQ. nra.
    + cbn in *. destruct Q. toQ. nra.
    + assumption.
    + assumption.
    + assumption.
    + assumption.
    + cbn [bind]. eauto.
  - destruct (show_total (s_view s) (s_zoom s) L) as (v' & ->). cbn [bind]. eauto.
  - destruct (s_connected s); cbn [negb]; [|eauto]. destruct ins; cbn [negb]; [|eauto].
    destruct (show_total (s_view s) (zoomed (s_zoom s) b) L) as (v' & ->). cbn [bind]. eauto.
Qed.
Lemma run_total l : forall s x y w h, p_extent (s_view s) = (x, y, w, h) -> 0 < f_dpi (p_fig (s_view s)) ->
  plain x -> plain y -> some_length w -> some_length h -> placed (s_view s) -> lims (s_view s) -> Forall proper l ->
  exists s', run s l = Ok s'.
Proof.
  induction l as [|e l IH]; intros s x y w h E D X Y A B P L F; cbn [run]; [eauto|].
  inversion F as [|? ? Fe Fl]; subst.
  destruct (step_total s e x y w h) as (t & T); auto. rewrite T. cbn [bind].
  destruct (step_ok _ _ _ T P) as (P' & E' & (_ & _ & D') & _).
  apply (IH t x y w h); auto; [congruence|congruence|]. now apply (step_lims _ _ _ T).
Qed.
Lemma never_fails f x y w h z l : 0 < f_dpi f -> 0 < fst (size f) -> 0 < snd (size f) ->
  plain x -> plain y -> some_length w -> some_length h -> Forall proper l ->
  exists v s, new_viewport f x y w h = Ok v /\ run (new_scene v z) l = Ok s.
Proof.
  intros D W H X Y A B F.
  assert (EW : either w (f_width f) = w).
  { apply either_nonzero. intros [K|K]; subst; cbn in A; [lia|toQ; lra]. }
  assert (EH : either h (f_height f) = h).
  { apply either_nonzero. intros [K|K]; subst; cbn in B; [lia|toQ; lra]. }
  assert (N : exists v, new_viewport f x y w h = Ok v).
  { unfold new_viewport. rewrite EW, EH.
    destruct (update_total (mkV f (x, y, w, h) (0, 0, 1, 1) 1 (0, 1) (0, 1)) x y w h) as (u & -> & _); auto.
    cbn [bind]. eauto. }
  destruct N as (v & N). exists v. pose proof (new_lims _ _ _ _ _ _ N) as L. pose proof N as N'. apply new_ok in N'.
  destruct N' as (F' & E & _ & P & _). rewrite EW, EH in E.
  destruct (run_total l (new_scene v z) x y w h) as (s & S); auto; [now cbn; rewrite F'|]. eauto.
Qed.

(** ** Zoom *)
Lemma pymax_spec a b : (pymax a b = a /\ b <= a) \/ (pymax a b = b /\ a < b).
Proof. unfold pymax. destruct (qlt a b) eqn:E; [right; apply qlt_spec in E|left; apply qlt_false in E]; auto. Qed.
Lemma pymin_spec a b : (pymin a b = a /\ a <= b) \/ (pymin a b = b /\ b < a).
Proof. unfold pymin. destruct (qlt b a) eqn:E; [right; apply qlt_spec in E|left; apply qlt_false in E]; auto. Qed.
Ltac zooms := unfold within_limits, zoom_max, zoom_min, c_in, c_out, zq in *.
Ltac split_zoom b z :=
  destruct b; cbn [zoomed];
  [destruct (pymax_spec (c_in * z) zoom_min) as [[-> ?]|[-> ?]]
  |destruct (pymin_spec (c_out * z) zoom_max) as [[-> ?]|[-> ?]]
  |].
Lemma zoomed_within z b : within_limits z -> within_limits (zoomed z b).
Proof. intros H. split_zoom b z; zooms; toQ; try lra. Qed.
Lemma zoomed_positive z b : 0 < z -> 0 < zoomed z b.
Proof. intros H. split_zoom b z; zooms; toQ; try lra. Qed.
Lemma up_above z : zoom_min <= zoomed z Up.
Proof. cbn [zoomed]. destruct (pymax_spec (c_in * z) zoom_min) as [[-> ?]|[-> ?]]; [assumption|apply Qcle_refl]. Qed.
Lemma down_below z : zoomed z Down <= zoom_max.
Proof. cbn [zoomed]. destruct (pymin_spec (c_out * z) zoom_max) as [[-> ?]|[-> ?]]; [assumption|apply Qcle_refl]. Qed.
Lemma up_smaller z : zoom_min < z -> zoomed z Up < z.
Proof. intros H. cbn [zoomed]. destruct (pymax_spec (c_in * z) zoom_min) as [[-> ?]|[-> ?]]; zooms; toQ; lra. Qed.
Lemma down_larger z : 0 < z -> z < zoom_max -> z < zoomed z Down.
Proof. intros P H. cbn [zoomed]. destruct (pymin_spec (c_out * z) zoom_max) as [[-> ?]|[-> ?]]; zooms; toQ; lra. Qed.
Lemma step_zoom s e s' : step s e = Ok s' ->
  s_zoom s' = match e with
              | Scroll true b => if s_connected s then zoomed (s_zoom s) b else s_zoom s
              | _ => s_zoom s
              end /\
  s_connected s' = match e with Connect => true | _ => s_connected s end.
Proof.
  destruct e as [i| |ins b]; cbn [step].
  - destruct (resize _ _) as [u|]; cbn [bind]; [|discriminate]. intros K. injection K as <-. auto.
  - destruct (show_zoom _ _) as [u|]; cbn [bind]; [|discriminate]. intros K. injection K as <-. auto.
  - destruct (s_connected s) eqn:C; cbn [negb].
    + destruct ins; cbn [negb]; [|intros K; injection K as <-; auto].
      destruct (show_zoom _ _) as [u|]; cbn [bind]; [|discriminate]. intros K. injection K as <-. auto.
    + intros K. injection K as <-. destruct ins; auto.
Qed.
Lemma run_zoom (P : Qc -> Prop) : (forall z b, P z -> P (zoomed z b)) ->
  forall l s s', run s l = Ok s' -> P (s_zoom s) -> P (s_zoom s').
Proof.
  intros HP. induction l as [|e l IH]; intros s s'; cbn [run].
  - intros K. injection K as <-. auto.
  - destruct (step s e) as [t|] eqn:T; cbn [bind]; [|discriminate]. intros K H. apply (IH _ _ K).
    destruct (step_zoom _ _ _ T) as [-> _]. destruct e as [i| |[|] b]; auto. destruct (s_connected s); auto.
Qed.
Lemma zoom_within v z l s : within_limits z -> run (new_scene v z) l = Ok s -> within_limits (s_zoom s).
Proof. intros Z R. apply (run_zoom within_limits zoomed_within l _ _ R Z). Qed.

(** Turning the wheel long enough reaches the limits. *)
Fixpoint times_zoomed (n : nat) (z : Qc) (b : button) : Qc :=
  match n with O => z | S n' => times_zoomed n' (zoomed z b) b end.
Lemma times_up n : forall z c, z <= c -> zoom_min <= z ->
  times_zoomed n z Up <= times_zoomed n c Up /\ zoom_min <= times_zoomed n z Up.
Proof.
  induction n as [|n IH]; intros z c L M; cbn [times_zoomed]; [auto|].
  apply IH; [|apply up_above]. cbn [zoomed].
  destruct (pymax_spec (c_in * z) zoom_min) as [[-> ?]|[-> ?]]; destruct (pymax_spec (c_in * c) zoom_min) as [[-> ?]|[-> ?]];
    zooms; toQ; lra.
Qed.
Lemma times_down n : forall z c, c <= z -> 0 < c -> z <= zoom_max ->
  times_zoomed n c Down <= times_zoomed n z Down /\ times_zoomed n z Down <= zoom_max.
Proof.
  induction n as [|n IH]; intros z c L P M; cbn [times_zoomed]; [auto|].
  apply IH; [|now apply zoomed_positive|apply down_below]. cbn [zoomed].
  destruct (pymin_spec (c_out * z) zoom_max) as [[-> ?]|[-> ?]]; destruct (pymin_spec (c_out * c) zoom_max) as [[-> ?]|[-> ?]];
    zooms; toQ; lra.
Qed.
Lemma up_40 : qle (times_zoomed 40 zoom_max Up) zoom_min = true. Proof. vm_compute. reflexivity. Qed.
Lemma down_45 : qle zoom_max (times_zoomed 45 zoom_min Down) = true. Proof. vm_compute. reflexivity. Qed.
Lemma reach_up z : within_limits z -> times_zoomed 40 z Up = zoom_min.
Proof.
  intros [A B]. destruct (times_up 40 z zoom_max B A) as [C D]. apply Qcle_antisym; [|exact D].
  eapply Qcle_trans; [exact C|]. apply qle_spec, up_40.
Qed.
Lemma reach_down z : within_limits z -> times_zoomed 45 z Down = zoom_max.
Proof.
  intros [A B]. destruct (times_down 45 z zoom_min A) as [C D]; [vm_compute; reflexivity|exact B|].
  apply Qcle_antisym; [exact D|]. eapply Qcle_trans; [|exact C]. apply qle_spec, down_45.
Qed.
Lemma run_wheel n b : forall s s', s_connected s = true -> run s (repeat (Scroll true b) n) = Ok s' ->
  s_zoom s' = times_zoomed n (s_zoom s) b.
Proof.
  induction n as [|n IH]; intros s s' C; cbn [repeat run times_zoomed].
  - intros K. now injection K as <-.
  - destruct (step s (Scroll true b)) as [t|] eqn:T; cbn [bind]; [|discriminate]. intros K.
    destruct (step_zoom _ _ _ T) as [Z D]. rewrite C in Z. rewrite C in D. rewrite (IH _ _ D K). now rewrite Z.
Qed.
Lemma reaches s s' : s_connected s = true -> within_limits (s_zoom s) ->
  (run s (repeat (Scroll true Up) 40) = Ok s' -> s_zoom s' = zoom_min) /\
  (run s (repeat (Scroll true Down) 45) = Ok s' -> s_zoom s' = zoom_max).
Proof.
  intros C W. split; intros R; rewrite (run_wheel _ _ _ _ C R); [now apply reach_up|now apply reach_down].
Qed.

(** ** What is shown *)
Lemma lim_span a : snd (lim a) - fst (lim a) = (1 + 1) * snd (lim a).
Proof. unfold lim. destruct (Qc_eq_bool a 0); cbn [fst snd]; ring. Qed.
Lemma lims_span v : lims v -> span_x v = (1 + 1) * snd (p_xlim v) /\ span_y v = (1 + 1) * snd (p_ylim v) /\
  snd (p_xlim v) <> 0 /\ snd (p_ylim v) <> 0.
Proof.
  intros (a & b & A & B). unfold span_x, span_y. rewrite A, B, !lim_span. auto using lim_nonzero.
Qed.
Lemma lims_centred v : lims v -> centred v.
Proof. intros (a & b & A & B). unfold centred. rewrite A, B. unfold lim. split; destruct (Qc_eq_bool _ 0); reflexivity. Qed.
Lemma run_lims l : forall s s', run s l = Ok s' -> lims (s_view s) -> lims (s_view s').
Proof.
  induction l as [|e l IH]; intros s s'; cbn [run].
  - intros K. now injection K as <-.
  - destruct (step s e) as [t|] eqn:T; cbn [bind]; [|discriminate]. intros K L. apply (IH _ _ K). now apply (step_lims _ _ _ T).
Qed.
Lemma mult_nonzero (a b : Qc) : a <> 0 -> b <> 0 -> a * b <> 0.
Proof. intros A B C. apply Qcmult_integral in C. tauto. Qed.
Lemma div_nonzero (a b : Qc) : a <> 0 -> b <> 0 -> a / b <> 0.
Proof. intros A B C. apply A. transitivity (a / b * b); [now field|]. rewrite C. ring. Qed.
Lemma show_aspect v z v' : show_zoom v z = Ok v' -> lims v -> z <> 0 ->
  snd (p_xlim v') = z /\ snd (p_ylim v') = z * (snd (p_ylim v) / snd (p_xlim v)).
Proof.
  intros S L Z. apply show_ok in S. destruct S as (_ & _ & _ & _ & A & B & _).
  destruct (lims_span v L) as (_ & _ & X & Y). rewrite A, B, !lim_of; auto.
  apply mult_nonzero; auto. now apply div_nonzero.
Qed.
(** Events of the camera keep the position and the aspect. *)
Lemma camera_step s e s' : step s e = Ok s' -> is_resize e = false -> lims (s_view s) -> 0 < s_zoom s ->
  p_pos (s_view s') = p_pos (s_view s) /\ p_fig (s_view s') = p_fig (s_view s) /\
  span_x (s_view s') * span_y (s_view s) = span_x (s_view s) * span_y (s_view s') /\
  (s_view s' = s_view s \/ p_xlim (s_view s') = lim (p_zoom (s_view s')) /\ 0 < p_zoom (s_view s')).
Proof.
  intros T R L Z. pose proof (step_lims _ _ _ T L) as L'.
  assert (SHOW : forall z v', 0 < z -> show_zoom (s_view s) z = Ok v' -> lims v' ->
     p_pos v' = p_pos (s_view s) /\ p_fig v' = p_fig (s_view s) /\ span_x v' * span_y (s_view s) = span_x (s_view s) * span_y v' /\
     (v' = s_view s \/ p_xlim v' = lim (p_zoom v') /\ 0 < p_zoom v')).
  { intros z v' HZ S Lv. destruct (show_aspect _ _ _ S L (pos_nonzero _ HZ)) as [SX SY].
    destruct (lims_span _ Lv) as (-> & -> & _). destruct (lims_span _ L) as (-> & -> & X & Y). rewrite SX, SY.
    apply show_ok in S. destruct S as (A & _ & B & C & D & _). do 2 (split; [assumption|]). split; [now field|].
    right. rewrite C. auto. }
  destruct e as [i| |ins b]; cbn [step] in T; [discriminate R| |].
  - destruct (show_zoom _ _) as [u|] eqn:U; cbn [bind] in T; [|discriminate]. injection T as <-. cbn in *. eauto.
  - destruct (s_connected s); cbn [negb] in T; [|injection T as <-; auto 10].
    destruct ins; cbn [negb] in T; [|injection T as <-; auto 10].
    destruct (show_zoom _ _) as [u|] eqn:U; cbn [bind] in T; [|discriminate]. injection T as <-. cbn in *.
    apply (SHOW (zoomed (s_zoom s) b)); auto. now apply zoomed_positive.
Qed.
Lemma aspect_trans (a b c d e f : Qc) : c <> 0 -> d <> 0 -> a * d = c * b -> c * f = e * d -> a * f = e * b.
Proof.
  intros C D A B. transitivity (a * d * (c * f) / (c * d)); [now field|]. rewrite A, B. now field.
Qed.
Lemma aspect_kept l : forall s s', run s l = Ok s' -> forallb (fun e => negb (is_resize e)) l = true ->
  lims (s_view s) -> 0 < s_zoom s ->
  p_pos (s_view s') = p_pos (s_view s) /\ p_fig (s_view s') = p_fig (s_view s) /\
  span_x (s_view s') * span_y (s_view s) = span_x (s_view s) * span_y (s_view s').
Proof.
  induction l as [|e l IH]; intros s s'; cbn [run forallb].
  - intros K _ _ _. injection K as <-. auto.
  - destruct (step s e) as [t|] eqn:T; cbn [bind]; [|discriminate]. intros K F L Z.
    apply andb_prop in F. destruct F as [Fe Fl]. apply negb_true_iff in Fe.
    destruct (camera_step _ _ _ T Fe L Z) as (A & B & C & _).
    assert (Lt : lims (s_view t)) by now apply (step_lims _ _ _ T).
    assert (Zt : 0 < s_zoom t).
    { destruct (step_zoom _ _ _ T) as [-> _]. destruct e as [i| |[|] b]; auto. destruct (s_connected s); auto using zoomed_positive. }
    destruct (IH _ _ K Fl Lt Zt) as (D & E & G). split; [congruence|]. split; [congruence|].
    destruct (lims_span _ Lt) as (SX & SY & X & Y). revert G C. rewrite SX, SY. clear - X Y.
    generalize (snd (p_xlim (s_view t))) (snd (p_ylim (s_view t))) X Y. clear. intros x y X Y G C.
    apply (aspect_trans _ _ ((1 + 1) * x) ((1 + 1) * y)); auto; apply mult_nonzero; auto; now vm_compute.
Qed.
Lemma scroll_keeps_aspect f x y w h v z l0 s l s' : 0 < z ->
  new_viewport f x y w h = Ok v -> run (new_scene v z) l0 = Ok s ->
  run s l = Ok s' -> forallb (fun e => negb (is_resize e)) l = true ->
  p_pos (s_view s') = p_pos (s_view s) /\ p_fig (s_view s') = p_fig (s_view s) /\
  span_x (s_view s') * span_y (s_view s) = span_x (s_view s) * span_y (s_view s').
Proof.
  intros Z N R R' F. apply (aspect_kept l); auto.
  - apply (run_lims _ _ _ R). apply (new_lims _ _ _ _ _ _ N).
  - apply (run_zoom (fun z => 0 < z) (fun z b => zoomed_positive z b) l0 _ _ R Z).
Qed.
Lemma always_centred f x y w h v z l s : new_viewport f x y w h = Ok v -> run (new_scene v z) l = Ok s -> centred (s_view s).
Proof. intros N R. apply lims_centred, (run_lims _ _ _ R), (new_lims _ _ _ _ _ _ N). Qed.

(** Invariants along histories: zooms are positive; past a resize, units are
    square. *)
Definition fair (s : scene) : Prop :=
  lims (s_view s) /\ 0 < s_zoom s /\ 0 < p_zoom (s_view s) /\
  (positive (s_view s) -> ~ landscape (s_view s) -> p_xlim (s_view s) = lim (p_zoom (s_view s))).
Lemma update_square v v' : update v = Ok v' -> 0 < p_zoom v -> positive v' -> square_units v'.
Proof.
  intros U Z [PW PH]. apply update_ok in U. destruct U as (_ & _ & ZZ & _ & a & b & A & B & C).
  rewrite <- ZZ in Z. apply pos_nonzero in Z. apply pos_nonzero in PW. apply pos_nonzero in PH.
  unfold square_units, span_x, span_y. rewrite A, B, !lim_span. clear A B.
  set (W := wide v' * canvas_w v') in *. set (H := high v' * canvas_h v') in *. clearbody W H.
  destruct (qlt _ _); destruct C as (NZ & -> & ->); rewrite !lim_of; cbn [snd]; auto;
    try (now field); apply div_nonzero; auto; now apply mult_nonzero.
Qed.
Lemma update_narrow v v' : update v = Ok v' -> ~ landscape v' -> p_xlim v' = lim (p_zoom v').
Proof.
  intros U L. apply update_ok in U. destruct U as (_ & _ & _ & _ & a & b & A & _ & C).
  destruct (qlt _ _) eqn:E; [apply qlt_spec in E; contradiction|]. destruct C as (_ & -> & _). exact A.
Qed.
Lemma step_fair s e s' : step s e = Ok s' -> fair s -> fair s'.
Proof.
  intros T (L & Z & P & X). split; [now apply (step_lims _ _ _ T)|].
  split. { destruct (step_zoom _ _ _ T) as [-> _]. destruct e as [i| |[|] b]; auto. destruct (s_connected s); auto using zoomed_positive. }
  destruct (is_resize e) eqn:R.
  - destruct e as [i| |ins b]; try discriminate R. cbn [step] in T.
    destruct (resize _ _) as [u|] eqn:U; cbn [bind] in T; [|discriminate]. injection T as <-. cbn [s_view s_zoom].
    unfold resize in U. pose proof (update_ok _ _ U) as (_ & _ & ZZ & _). cbn in ZZ. rewrite ZZ. split; [assumption|].
    rewrite <- ZZ. intros _ NL. now apply (update_narrow _ _ U).
  - destruct (camera_step _ _ _ T R L Z) as (_ & _ & _ & [-> | [A B]]); auto.
Qed.
Lemma run_fair l : forall s s', run s l = Ok s' -> fair s -> fair s'.
Proof.
  induction l as [|e l IH]; intros s s'; cbn [run].
  - intros K. now injection K as <-.
  - destruct (step s e) as [t|] eqn:T; cbn [bind]; [|discriminate]. intros K F. apply (IH _ _ K), (step_fair _ _ _ T F).
Qed.
Lemma new_fair f x y w h v z : new_viewport f x y w h = Ok v -> 0 < z -> fair (new_scene v z).
Proof.
  intros N Z. split; [apply (new_lims _ _ _ _ _ _ N)|]. split; [exact Z|].
  apply new_ok in N. destruct N as (_ & _ & A & _ & B & _). cbn [s_view new_scene]. rewrite A, B. split; [now vm_compute|].
  intros _ _. now rewrite lim_of by now apply pos_nonzero.
Qed.
Lemma square_step s e s' : step s e = Ok s' -> fair s ->
  ((positive (s_view s) -> square_units (s_view s)) \/ is_resize e = true) -> positive (s_view s') -> square_units (s_view s').
Proof.
  intros T (L & Z & P & _) Q POS. destruct (is_resize e) eqn:R.
  - destruct e as [i| |ins b]; try discriminate R. cbn [step] in T.
    destruct (resize _ _) as [u|] eqn:U; cbn [bind] in T; [|discriminate]. injection T as <-. cbn [s_view] in *.
    unfold resize in U. now apply (update_square _ _ U).
  - destruct Q as [Q|Q]; [|discriminate]. destruct (camera_step _ _ _ T R L Z) as (A & B & C & _).
    unfold positive, square_units, wide, high, canvas_w, canvas_h in *. rewrite A, B in *. specialize (Q POS).
    pose proof (step_lims _ _ _ T L) as L'. destruct (lims_span _ L) as (SX & SY & X & Y). destruct (lims_span _ L') as (SX' & SY' & X' & Y').
    rewrite SX, SY, SX', SY' in *. clear - Q C X Y.
    set (x := snd (p_xlim (s_view s))) in *. set (y := snd (p_ylim (s_view s))) in *.
    set (x' := snd (p_xlim (s_view s'))) in *. set (y' := snd (p_ylim (s_view s'))) in *.
    clearbody x y x' y'.
    set (W := (let '(_, _, w, _) := p_pos (s_view s) in w) * _) in *. set (H := (let '(_, _, _, h) := p_pos (s_view s) in h) * _) in *.
    clearbody W H. assert (N2 : (1 + 1 : Qc) <> 0) by now vm_compute.
    transitivity ((1 + 1) * x' * ((1 + 1) * x * H) / ((1 + 1) * x)); [now field|]. rewrite Q.
    transitivity ((1 + 1) * x' * ((1 + 1) * y) * W / ((1 + 1) * x)); [now field|]. rewrite C. now field.
Qed.
Lemma square_run l : forall s s', run s l = Ok s' -> fair s ->
  ((positive (s_view s) -> square_units (s_view s)) \/ existsb is_resize l = true) -> positive (s_view s') -> square_units (s_view s').
Proof.
  induction l as [|e l IH]; intros s s'; cbn [run existsb].
  - intros K _ [Q|Q]; [|discriminate]. injection K as <-. exact Q.
  - destruct (step s e) as [t|] eqn:T; cbn [bind]; [|discriminate]. intros K F Q. apply (IH _ _ K (step_fair _ _ _ T F)).
    destruct Q as [Q|Q].
    + left. apply (square_step _ _ _ T F). auto.
    + apply orb_prop in Q. destruct Q as [Q|Q]; [left; apply (square_step _ _ _ T F); auto|auto].
Qed.
Lemma units_square f x y w h v z l s : 0 < z -> new_viewport f x y w h = Ok v -> run (new_scene v z) l = Ok s ->
  existsb is_resize l = true -> positive (s_view s) -> square_units (s_view s).
Proof. intros Z N R E. apply (square_run l _ _ R (new_fair _ _ _ _ _ _ _ N Z)). auto. Qed.
Lemma square_stays f x y w h v z l s : 0 < z -> new_viewport f x y w h = Ok v -> wide v * canvas_w v = high v * canvas_h v ->
  run (new_scene v z) l = Ok s -> positive (s_view s) -> square_units (s_view s).
Proof.
  intros Z N E R. apply (square_run l _ _ R (new_fair _ _ _ _ _ _ _ N Z)). left. intros _. cbn [s_view new_scene].
  unfold square_units, span_x, span_y. apply new_ok in N. destruct N as (_ & _ & _ & _ & -> & ->). now rewrite E.
Qed.
Lemma shorter_side v i v' : resize v i = Ok v' -> 0 < p_zoom v -> positive v' ->
  (landscape v' -> p_ylim v' = (- p_zoom v, p_zoom v)) /\ (~ landscape v' -> p_xlim v' = (- p_zoom v, p_zoom v)).
Proof.
  intros U Z [PW PH]. unfold resize in U. apply update_ok in U. cbn [p_zoom] in U.
  destruct U as (_ & _ & ZZ & _ & a & b & A & B & C). apply pos_nonzero in Z.
  unfold landscape. destruct (qlt _ _) eqn:E.
  - apply qlt_spec in E. destruct C as (_ & _ & ->). rewrite B, ZZ, lim_of by assumption. split; [auto|contradiction].
  - apply qlt_false in E. destruct C as (_ & -> & _). rewrite A, ZZ, lim_of by assumption. split; [|auto].
    intros K. exfalso. toQ. lra.
Qed.

(** ** Resizes that change nothing *)
Lemma update_again v v' i : update v = Ok v' -> f_inches (p_fig v) = i ->
  exists v'', resize v' i = Ok v'' /\ seen v'' = seen v' /\ p_zoom v'' = p_zoom v'.
Proof.
  intros U I. pose proof (update_ok _ _ U) as (A & B & C & _). unfold resize. rewrite A, B.
  replace (mkFig _ _ _ i) with (p_fig v) by (rewrite <- I; now destruct (p_fig v)).
  exists v'. split; [|auto]. revert U. unfold update. cbn [p_extent p_fig p_zoom]. rewrite C. auto.
Qed.
Lemma resize_twice s i s1 : step s (Resize i) = Ok s1 -> exists s2, step s1 (Resize i) = Ok s2 /\
  seen (s_view s2) = seen (s_view s1) /\ s_zoom s2 = s_zoom s1.
Proof.
  cbn [step]. destruct (resize _ i) as [u|] eqn:U; cbn [bind]; [|discriminate]. intros K. injection K as <-. cbn [s_view s_zoom].
  unfold resize in U. destruct (update_again _ _ i U eq_refl) as (v'' & -> & A & _). cbn [bind]. eexists. split; [reflexivity|]. auto.
Qed.
Lemma resize_same s : fair s -> placed (s_view s) -> positive (s_view s) -> ~ landscape (s_view s) -> square_units (s_view s) ->
  exists s', step s (Resize (f_inches (p_fig (s_view s)))) = Ok s' /\ seen (s_view s') = seen (s_view s).
Proof.
  intros (L & Z & P & X) PL POS NL SQ. specialize (X POS NL). cbn [step]. unfold resize.
  replace (mkFig _ _ _ _) with (p_fig (s_view s)) by now destruct (p_fig (s_view s)).
  pose proof (pixels_of_is (s_view s)) as PX.
  unfold update. cbn [p_extent p_fig p_zoom p_pos]. unfold placed in PL.
  destruct (p_extent (s_view s)) as [[[x y] w] h]. destruct PL as (-> & -> & -> & ->). cbn [bind].
  assert (E : (left (s_view s), bottom (s_view s), wide (s_view s), high (s_view s)) = p_pos (s_view s)).
  { unfold left, bottom, wide, high. now destruct (p_pos (s_view s)) as [[[? ?] ?] ?]. }
  rewrite E, PX. destruct (qlt _ _) eqn:Q; [apply qlt_spec in Q; contradiction|].
  destruct POS as [PW PH]. pose proof (proj2 (eqb_false _) (pos_nonzero _ PW)) as ->. cbn [bind fst snd].
  eexists. split; [reflexivity|]. cbn [s_view]. unfold seen. cbn [p_pos p_xlim p_ylim]. rewrite X. f_equal.
  destruct (lims_span _ L) as (SX & SY & _). unfold square_units in SQ. rewrite SX, SY in SQ.
  destruct L as (a & b & _ & B). apply pos_nonzero in PW. apply pos_nonzero in PH. apply pos_nonzero in P.
  rewrite X, lim_of in SQ by assumption. cbn [snd] in SQ.
  assert (Y : snd (p_ylim (s_view s)) = p_zoom (s_view s) * (high (s_view s) * canvas_h (s_view s)) / (wide (s_view s) * canvas_w (s_view s))).
  { clear - SQ PW. set (W := wide (s_view s) * canvas_w (s_view s)) in *. set (H := high (s_view s) * canvas_h (s_view s)) in *. clearbody W H.
    assert (N2 : (1 + 1 : Qc) <> 0) by now vm_compute.
    transitivity ((1 + 1) * snd (p_ylim (s_view s)) * W / ((1 + 1) * W)); [now field|]. rewrite <- SQ. now field. }
  rewrite <- Y. rewrite lim_of by (rewrite B; apply lim_nonzero). rewrite B. unfold lim.
  destruct (Qc_eq_bool b 0); reflexivity.
Qed.
Lemma nothing_changes f x y w h v z l s : 0 < z -> new_viewport f x y w h = Ok v -> run (new_scene v z) l = Ok s ->
  existsb is_resize l = true -> positive (s_view s) -> ~ landscape (s_view s) ->
  exists s', step s (Resize (f_inches (p_fig (s_view s)))) = Ok s' /\ seen (s_view s') = seen (s_view s).
Proof.
  intros Z N R E P NL. pose proof (new_fair _ _ _ _ _ _ _ N Z) as F. apply resize_same; auto.
  - apply (run_fair _ _ _ R F).
  - apply new_ok in N. destruct N as (_ & _ & _ & PL & _). now apply (run_ok _ _ _ R).
  - now apply (square_run l _ _ R F); auto.
Qed.

(** ** The width 0 *)
Lemma zero_width W H dpi f x y w h v z l s : (0 < W)%Z ->
  new_canvas (CInt W) H dpi = Ok f -> zero w -> new_viewport f x y w h = Ok v -> run (new_scene v z) l = Ok s ->
  canvas_w (s_view s) <> 0 -> wide (s_view s) * canvas_w (s_view s) = zq W.
Proof.
  intros P C Z N R NZ. unfold new_canvas in C. cbn [measured bind] in C.
  destruct (measured dpi H) as [ch|]; cbn [bind] in C; [|discriminate]. cbn [number bind] in C.
  destruct (number ch) as [hh|]; cbn [bind] in C; [|discriminate].
  destruct (Qc_eq_bool dpi 0); [discriminate|]. destruct (qlt _ 0); [discriminate|]. destruct (qlt _ 0); [discriminate|].
  injection C as <-. apply new_ok in N. destruct N as (_ & E & _ & PL & _). rewrite (either_zero _ _ Z) in E. cbn [f_width] in E.
  destruct (run_ok _ _ _ R PL) as (A & B & _). cbn [s_view new_scene] in B. unfold placed in A. rewrite B, E in A.
  destruct A as (_ & _ & A & _). apply place_asks in A; auto.
Qed.
Lemma zero_height W H dpi f x y w h v z l s : (0 < H)%Z ->
  new_canvas W (CInt H) dpi = Ok f -> zero h -> new_viewport f x y w h = Ok v -> run (new_scene v z) l = Ok s ->
  canvas_h (s_view s) <> 0 -> high (s_view s) * canvas_h (s_view s) = zq H.
Proof.
  intros P C Z N R NZ. unfold new_canvas in C.
  destruct (measured dpi W) as [ch|]; cbn [bind] in C; [|discriminate]. cbn [measured number bind] in C.
  destruct (number ch) as [hh|]; cbn [bind] in C; [|discriminate].
  destruct (Qc_eq_bool dpi 0); [discriminate|]. destruct (qlt _ 0); [discriminate|]. destruct (qlt _ 0); [discriminate|].
  injection C as <-. apply new_ok in N. destruct N as (_ & E & _ & PL & _). rewrite (either_zero _ _ Z) in E. cbn [f_height] in E.
  destruct (run_ok _ _ _ R PL) as (A & B & _). cbn [s_view new_scene] in B. unfold placed in A. rewrite B, E in A.
  destruct A as (_ & _ & _ & A). apply place_asks in A; auto.
Qed.

(** ** Witnesses *)
Definition trial (cw ch x y w h : coord) (z : Qc) (l : list event) : res scene :=
  let* f := new_canvas cw ch (zq 100) in let* v := new_viewport f x y w h in run (new_scene v z) l.
Lemma trial_ok cw ch x y w h z l s : trial cw ch x y w h z l = Ok s ->
  exists f v, new_canvas cw ch (zq 100) = Ok f /\ new_viewport f x y w h = Ok v /\ run (new_scene v z) l = Ok s.
Proof.
  unfold trial. destruct (new_canvas _ _ _) as [f|]; cbn [bind]; [|discriminate].
  destruct (new_viewport _ _ _ _ _) as [v|] eqn:V; cbn [bind]; [|discriminate]. intros R. eauto 10.
Qed.
Definition qeq (a b : Qc) : bool := Qc_eq_bool (a - b) 0.
Lemma qeq_spec a b : qeq a b = true -> a = b.
Proof. intros H. apply eqb_true in H. transitivity (a - b + b); [ring|]. rewrite H. ring. Qed.
Lemma qeq_false a b : qeq a b = false -> a <> b.
Proof. intros H K. apply eqb_false in H. apply H. rewrite K. ring. Qed.
(** A check of the outcome of a trial. *)
Definition test (r : res scene) (P : scene -> bool) : bool := match r with Ok s => P s | Err _ => false end.
Lemma test_ok r P : test r P = true -> exists s, r = Ok s /\ P s = true.
Proof. destruct r as [s|]; cbn; [eauto|discriminate]. Qed.
Lemma trial_test cw ch x y w h z l P : test (trial cw ch x y w h z l) P = true ->
  exists f v s, new_canvas cw ch (zq 100) = Ok f /\ new_viewport f x y w h = Ok v /\ run (new_scene v z) l = Ok s /\ P s = true.
Proof. intros H. apply test_ok in H. destruct H as (s & H & T). apply trial_ok in H. destruct H as (f & v & A & B & C). eauto 10. Qed.
Ltac trial_with cw ch x y w h z l P f v s C N R T :=
  destruct (trial_test cw ch x y w h z l P) as (f & v & s & C & N & R & T); [vm_compute; reflexivity|].
Lemma zero_refuted : exists f x y w h v, new_canvas (CInt 512) (CInt 256) (zq 100) = Ok f /\
  new_viewport f x y w h = Ok v /\ canvas_w v <> 0 /\ ~ asks f (canvas_w v) w (wide v * canvas_w v).
Proof.
  trial_with (CInt 512) (CInt 256) (CInt 0) (CInt 0) (CInt 0) (CInt 100) (1 : Qc) (@nil event)
    (fun s => qeq (wide (s_view s)) 1 && qeq (canvas_w (s_view s)) (zq 512)) f v s CC NN RR TT.
  cbn in RR. injection RR as <-. cbn [s_view new_scene] in *.
  apply andb_prop in TT. destruct TT as [A B]. apply qeq_spec in A. apply qeq_spec in B.
  exists f, (CInt 0), (CInt 0), (CInt 0), (CInt 100), v. do 2 (split; [assumption|]). rewrite A, B. cbn [asks].
  split; [apply (q_nonzero 512 1); lia|]. intros K. apply (f_equal this) in K. vm_compute in K. discriminate.
Qed.
Lemma zero_measured_refuted : exists f v, new_canvas (measure Inch (zq 5)) (measure Inch (zq 5)) (zq 100) = Ok f /\
  new_viewport f (CInt 0) (CInt 0) (CInt 0) (CInt 0) = Ok v /\ canvas_w v = zq 500 /\ wide v = zq 500.
Proof.
  trial_with (measure Inch (zq 5)) (measure Inch (zq 5)) (CInt 0) (CInt 0) (CInt 0) (CInt 0) (1 : Qc) (@nil event)
    (fun s => qeq (wide (s_view s)) (zq 500) && qeq (canvas_w (s_view s)) (zq 500)) f v s CC NN RR TT.
  cbn in RR. injection RR as <-. cbn [s_view new_scene] in *.
  apply andb_prop in TT. destruct TT as [A B]. apply qeq_spec in A. apply qeq_spec in B. eauto 10.
Qed.
Lemma zero_resized_refuted : exists f v s, new_canvas (CInt 512) (CInt 256) (zq 100) = Ok f /\
  new_viewport f (CInt 0) (CInt 0) (CInt 0) (CInt 0) = Ok v /\ wide v = 1 /\
  run (new_scene v 1) [Resize (q 1024 100, q 256 100)] = Ok s /\ wide (s_view s) = q 1 2.
Proof.
  trial_with (CInt 512) (CInt 256) (CInt 0) (CInt 0) (CInt 0) (CInt 0) (1 : Qc) (@nil event) (fun s => qeq (wide (s_view s)) 1) f v s CC NN RR TT.
  trial_with (CInt 512) (CInt 256) (CInt 0) (CInt 0) (CInt 0) (CInt 0) (1 : Qc) [Resize (q 1024 100, q 256 100)] (fun s => qeq (wide (s_view s)) (q 1 2)) f' v' s' CC' NN' RR' TT'.
  replace f' with f in * by congruence. replace v' with v in * by congruence.
  cbn in RR. injection RR as <-. apply qeq_spec in TT. apply qeq_spec in TT'. cbn [s_view new_scene] in *. exists f, v, s'. auto 10.
Qed.
Lemma zoom_refuted : exists f v s, new_canvas (CInt 512) (CInt 256) (zq 100) = Ok f /\
  new_viewport f (CInt 0) (CInt 0) (CInt 512) (CInt 256) = Ok v /\
  run (new_scene v (zq 10)) [Connect; Scroll true Up] = Ok s /\ zoom_max < s_zoom s.
Proof.
  trial_with (CInt 512) (CInt 256) (CInt 0) (CInt 0) (CInt 512) (CInt 256) (zq 10) [Connect; Scroll true Up] (fun s => qlt zoom_max (s_zoom s)) f v s CC NN RR TT.
  apply qlt_spec in TT. eauto 10.
Qed.
Lemma zoom_low_refuted : exists f v s, new_canvas (CInt 512) (CInt 256) (zq 100) = Ok f /\
  new_viewport f (CInt 0) (CInt 0) (CInt 512) (CInt 256) = Ok v /\
  run (new_scene v (q 1 100)) [Connect; Scroll true Down] = Ok s /\ s_zoom s < zoom_min.
Proof.
  trial_with (CInt 512) (CInt 256) (CInt 0) (CInt 0) (CInt 512) (CInt 256) (q 1 100) [Connect; Scroll true Down] (fun s => qlt (s_zoom s) zoom_min) f v s CC NN RR TT.
  apply qlt_spec in TT. eauto 10.
Qed.
Lemma fresh_refuted : exists f v, new_canvas (CInt 512) (CInt 256) (zq 100) = Ok f /\
  new_viewport f (CInt 0) (CInt 0) (CInt 512) (CInt 256) = Ok v /\ positive v /\ ~ square_units v.
Proof.
  trial_with (CInt 512) (CInt 256) (CInt 0) (CInt 0) (CInt 512) (CInt 256) (1 : Qc) (@nil event)
    (fun s => let v := s_view s in qlt 0 (wide v * canvas_w v) && qlt 0 (high v * canvas_h v)
      && negb (qeq (span_x v * (high v * canvas_h v)) (span_y v * (wide v * canvas_w v)))) f v s CC NN RR TT.
  cbn in RR. injection RR as <-. cbn [s_view new_scene] in *. cbn zeta in TT.
  apply andb_prop in TT. destruct TT as [A C]. apply andb_prop in A. destruct A as [A B].
  apply qlt_spec in A. apply qlt_spec in B. apply negb_true_iff, qeq_false in C. exists f, v. unfold positive, square_units. auto 10.
Qed.
Lemma same_size_refuted : exists f v s s', new_canvas (CInt 512) (CInt 256) (zq 100) = Ok f /\
  new_viewport f (CInt 0) (CInt 0) (CFloat 1) (CFloat 1) = Ok v /\
  run (new_scene v 1) [Resize (q 1024 100, q 256 100); Connect; Scroll true Up] = Ok s /\
  step s (Resize (q 1024 100, q 256 100)) = Ok s' /\ span_x (s_view s') = zq 4 * span_x (s_view s).
Proof.
  trial_with (CInt 512) (CInt 256) (CInt 0) (CInt 0) (CFloat 1) (CFloat 1) (1 : Qc) [Resize (q 1024 100, q 256 100); Connect; Scroll true Up]
    (fun s => test (step s (Resize (q 1024 100, q 256 100))) (fun s' => qeq (span_x (s_view s')) (zq 4 * span_x (s_view s)))) f v s CC NN RR TT.
  apply test_ok in TT. destruct TT as (s' & A & B). apply qeq_spec in B. exists f, v, s, s'. auto 10.
Qed.
Lemma fresh_resize_refuted : exists f v s, new_canvas (CInt 512) (CInt 256) (zq 100) = Ok f /\
  new_viewport f (CInt 0) (CInt 0) (CInt 512) (CInt 256) = Ok v /\
  step (new_scene v 1) (Resize (f_inches f)) = Ok s /\ span_x (s_view s) = zq 2 * span_x v.
Proof.
  trial_with (CInt 512) (CInt 256) (CInt 0) (CInt 0) (CInt 512) (CInt 256) (1 : Qc) (@nil event)
    (fun s => test (step s (Resize (f_inches (p_fig (s_view s))))) (fun s' => qeq (span_x (s_view s')) (zq 2 * span_x (s_view s)))) f v s CC NN RR TT.
  cbn in RR. injection RR as <-. cbn [s_view new_scene] in *. pose proof (new_ok _ _ _ _ _ _ NN) as (F & _). rewrite F in TT.
  apply test_ok in TT. destruct TT as (s' & A & B). apply qeq_spec in B. exists f, v, s'. auto 10.
Qed.

Lemma directions z : (zoom_min < z -> zoomed z Up < z) /\ (0 < z -> z < zoom_max -> z < zoomed z Down) /\
  zoomed z OtherButton = z /\
  (zoom_min <= c_in * z -> zoomed z Up = c_in * z) /\ (c_out * z <= zoom_max -> zoomed z Down = c_out * z) /\
  (tenth_off c_in (q 9 10) /\ tenth_off c_out (q 11 10)).
Proof.
  split; [apply up_smaller|]. split; [apply down_larger|]. split; [reflexivity|]. split; [|split].
  - intros H. cbn [zoomed]. destruct (pymax_spec (c_in * z) zoom_min) as [[E ?]|[E ?]]; rewrite E; [reflexivity|].
    apply Qcle_antisym; [exact H|]. now apply Qclt_le_weak.
  - intros H. cbn [zoomed]. destruct (pymin_spec (c_out * z) zoom_max) as [[E ?]|[E ?]]; rewrite E; [reflexivity|].
    apply Qcle_antisym; [|exact H]. now apply Qclt_le_weak.
  - repeat split; intros K; now vm_compute in K.
Qed.

(** The factors of the zoom are the floating-point numbers nearest to 0.9, 1.1 and 0.1. *)
Lemma zoom_factors : (let '(a, b) := Image.fl 9 10 in c_in = zq a / zq b) /\ (let '(a, b) := Image.fl 11 10 in c_out = zq a / zq b) /\
  (let '(a, b) := Image.fl 1 10 in zoom_min = zq a / zq b) /\ zoom_max = zq 5.
Proof. repeat split; vm_compute; apply Qc_is_canon; reflexivity. Qed.
Lemma canvas_refused width height dpi w h :
  (let* c := measured dpi width in number c) = Ok w -> (let* c := measured dpi height in number c) = Ok h ->
  (dpi = 0 -> new_canvas width height dpi = Err ZeroDivisionError) /\
  (0 < dpi -> w < 0 \/ h < 0 -> new_canvas width height dpi = Err ValueError).
Proof.
  intros A B. unfold new_canvas.
  destruct (measured dpi width) as [cw|]; cbn [bind] in *; [|discriminate].
  destruct (measured dpi height) as [ch|]; cbn [bind] in *; [|discriminate].
  rewrite A, B. cbn [bind]. split.
  - intros ->. reflexivity.
  - intros D N.
    assert (E : Qc_eq_bool dpi 0 = false).
    { destruct (Qc_eq_bool dpi 0) eqn:E; [|reflexivity]. apply Qc_eq_bool_correct in E. subst dpi. exfalso. now apply (Qclt_not_eq _ _ D). }
    rewrite E.
    assert (L : forall x, x < 0 -> qlt (x / dpi) 0 = true).
    { intros x X. apply qlt_spec. destruct (Qclt_le_dec (x / dpi) 0) as [K|K]; [exact K|exfalso].
      apply (Qclt_not_le _ _ X). replace x with (x / dpi * dpi) by (field; intros Z; subst dpi; discriminate).
      replace 0 with (0 * dpi) by ring. apply Qcmult_le_compat_r; [exact K|now apply Qclt_le_weak]. }
    destruct N as [N|N].
    + rewrite (L w N). reflexivity.
    + rewrite (L h N). destruct (qlt (w / dpi) 0); reflexivity.
Qed.
