(** Proofs about points whose sizes follow the zoom. *)
From Coq Require Import Reals Lra Psatz.
From Verif Require Import Base Slice Measure Viewport ViewportSpec ViewportFacts Camera Glm GlmSpec Vec VecSpec Render RenderSpec Trackball Picture PictureSpec PictureFacts Outline OutlineSpec Drag DragSpec DragFacts
  Live LiveSpec LiveFacts Depth DepthFacts Sized SizedSpec.
Local Open Scope R_scope.

Lemma zooms_positive turns : forall z, (0 < z)%Qc -> (0 < fold_left zoomed turns z)%Qc.
Proof. induction turns as [|b l IH]; intros z P; [exact P|]. cbn [fold_left]. apply IH, zoomed_positive, P. Qed.
Lemma positive_nonzero z : (0 < z)%Qc -> Qc_eq_bool z 0%Qc = false.
Proof. intros P. destruct (Qc_eq_bool z 0%Qc) eqn:E; [|reflexivity]. apply Qc_eq_bool_correct in E. subst z. discriminate P. Qed.
Lemma refill_never_raises base line z : (0 < z)%Qc -> never_raises (as_many base) (refill base line) z.
Proof.
  intros P turns m v p d. unfold refill. rewrite (positive_nonzero _ (zooms_positive turns z P)). eexists. split; [reflexivity|]. unfold as_many. cbn [t_sizes t_widths]. now rewrite map_length, repeat_length.
Qed.
Lemma sized_never_fails argsort V ps code face edge base : holds V ps -> length base = length ps -> never_fail (as_many base) [sized_vis argsort V code face edge].
Proof.
  intros Ho LB. constructor; [|constructor]. intros d w m v p [S W] _. apply (points_never_fail argsort V ps); [exact Ho|]. unfold rows_of_table, fits_size. now rewrite map_length, S.
Qed.

(** One moment and another without a change of size in between. *)
Definition apart (t t' : Viewport.scene) : Prop :=
  p_fig (s_view t') = p_fig (s_view t) /\ p_pos (s_view t') = p_pos (s_view t) /\ aligned t' /\ (0 < s_zoom t')%Qc /\ s_connected t' = true /\
  p_ylim (s_view t') = (- snd (p_ylim (s_view t')), snd (p_ylim (s_view t')))%Qc /\ snd (p_ylim (s_view t')) <> 0%Qc /\
  (snd (p_ylim (s_view t')) * s_zoom t = snd (p_ylim (s_view t)) * s_zoom t')%Qc.
Lemma shown_apart v z z' v' : p_xlim v = lim z -> (0 < z)%Qc -> (0 < z')%Qc -> snd (p_ylim v) <> 0%Qc -> show_zoom v z' = Ok v' ->
  p_fig v' = p_fig v /\ p_pos v' = p_pos v /\ p_xlim v' = lim z' /\ p_ylim v' = (- snd (p_ylim v'), snd (p_ylim v'))%Qc /\ snd (p_ylim v') <> 0%Qc /\
  (snd (p_ylim v') * z = snd (p_ylim v) * z')%Qc.
Proof.
  intros X Z Z' Y. unfold show_zoom. rewrite X. rewrite (lim_of z) by (intros ->; discriminate Z). cbn [snd].
  rewrite (positive_nonzero z Z). intros E. injection E as <-. cbn [p_fig p_pos p_xlim p_ylim].
  assert (N : (z' * (snd (p_ylim v) / z))%Qc <> 0%Qc).
  { intros Q. apply Qcmult_integral in Q. destruct Q as [Q|Q]; [rewrite Q in Z'; discriminate Z'|]. apply Y. rewrite <- (Qcmult_1_r (snd (p_ylim v))). rewrite <- (Qcmult_inv_l z) by (intros ->; discriminate Z).
    unfold Qcdiv in Q. rewrite Qcmult_assoc, Q. apply Qcmult_0_l. }
  rewrite (lim_of _ N). cbn [snd fst]. repeat split; [exact N|]. field. intros ->. discriminate Z.
Qed.
Lemma run_apart l : forall t0 t t', (forall e, In e l -> is_resize e = false) -> apart t0 t -> (0 < s_zoom t0)%Qc -> Viewport.run t l = Ok t' -> apart t0 t'.
Proof.
  induction l as [|e l IH]; intros t0 t t' N A Z R; [injection R as <-; exact A|]. cbn [Viewport.run] in R. destruct (Viewport.step t e) as [t1|] eqn:S; [|discriminate]. cbn [bind] in R.
  apply (IH t0 t1 t' (fun e I => N e (or_intror I))); [|exact Z|exact R]. destruct A as (F & P & X & Zt & C & Y & YN & YZ).
  assert (GO : forall z, (0 < z)%Qc -> forall v, show_zoom (s_view t) z = Ok v -> apart t0 (mkScene v z true)).
  { intros z Pz v E. destruct (shown_apart _ _ _ _ X Zt Pz YN E) as (F' & P' & X' & Y' & YN' & YZ'). unfold apart, aligned. cbn [s_view s_zoom s_connected].
    rewrite F', P'. repeat (split; [assumption|]). split; [reflexivity|]. split; [exact Y'|]. split; [exact YN'|].
    assert (NZ : s_zoom t <> 0%Qc) by (intros Q; rewrite Q in Zt; discriminate Zt).
    assert (snd (p_ylim v) = snd (p_ylim (s_view t)) * z / s_zoom t)%Qc as -> by (rewrite <- YZ'; field; exact NZ).
    transitivity ((snd (p_ylim (s_view t)) * s_zoom t0) * z / s_zoom t)%Qc; [field; exact NZ|]. rewrite YZ. field. exact NZ. }
  destruct e as [i| |inn b]; [discriminate (N _ (or_introl eq_refl))| |]; cbn [Viewport.step] in S.
  - destruct (show_zoom _ _) as [v|] eqn:E; [|discriminate]. injection S as <-. exact (GO _ Zt v E).
  - rewrite C in S. cbn [negb] in S. destruct inn; cbn [negb] in S; [|injection S as <-; repeat split; assumption]. cbv zeta in S.
    destruct (show_zoom _ _) as [v|] eqn:E; [|discriminate]. injection S as <-. exact (GO _ (zoomed_positive _ b Zt) v E).
Qed.
Lemma apart_spots t t' : aligned t -> (0 < s_zoom t)%Qc -> p_ylim (s_view t) = (- snd (p_ylim (s_view t)), snd (p_ylim (s_view t)))%Qc -> snd (p_ylim (s_view t)) <> 0%Qc -> apart t t' ->
  middle (s_view t') = middle (s_view t) /\ forall c, magnified (inR (s_zoom t) / inR (s_zoom t')) (middle (s_view t)) (spot (s_view t) c) (spot (s_view t') c).
Proof.
  intros X Z Y YN (F & P & X' & Z' & _ & Y' & YN' & YZ). pose proof (inR_lt _ _ Z) as RZ. pose proof (inR_lt _ _ Z') as RZ'. rewrite inR_0 in RZ, RZ'.
  assert (NZ : s_zoom t <> 0%Qc) by (intros Q; rewrite Q in Z; discriminate Z). assert (NZ' : s_zoom t' <> 0%Qc) by (intros Q; rewrite Q in Z'; discriminate Z').
  unfold aligned in X, X'. rewrite (lim_of _ NZ) in X. rewrite (lim_of _ NZ') in X'.
  set (v := s_view t) in *. set (v' := s_view t') in *.
  assert (W : side_x v' = side_x v /\ side_y v' = side_y v /\ middle v' = middle v).
  { unfold middle, side_x, side_y, left, bottom, wide, high, canvas_w, canvas_h. rewrite F, P. auto. }
  destruct W as (SX & SY & MI). split; [exact MI|]. intros c.
  assert (UX : unit_x v' = inR (s_zoom t) / inR (s_zoom t') * unit_x v).
  { unfold unit_x. rewrite SX. unfold span_x. rewrite X, X'. cbn [fst snd]. rewrite !inR_minus, !inR_opp. field. lra. }
  assert (UY : unit_y v' = inR (s_zoom t) / inR (s_zoom t') * unit_y v).
  { unfold unit_y. rewrite SY. unfold span_y. rewrite Y, Y'. cbn [fst snd]. rewrite !inR_minus, !inR_opp. apply (f_equal inR) in YZ. rewrite !inR_mult in YZ.
    apply inR_nz in YN, YN'. set (a := inR (snd (p_ylim v))) in *. set (b := inR (snd (p_ylim v'))) in *. clearbody a b.
    assert (b = a * inR (s_zoom t') / inR (s_zoom t)) as -> by (rewrite <- YZ; field; lra). clear YN' YZ. set (p := inR (s_zoom t)) in *. set (r := inR (s_zoom t')) in *. clearbody p r.
    replace (a * r / p - - (a * r / p)) with (2 * a * r / p) by (field; lra). replace (a - - a) with (2 * a) by ring. field. repeat split; first [lra|exact YN|assumption]. }
  unfold spot. rewrite MI, UX, UY. destruct (Req_EM_T _ _); [exact Logic.I|]. unfold magnified. split; ring.
Qed.

Section Running.
Variables (visuals : list (tables -> vis)) (base : list R) (line : R) (port : nat) (figure : nat -> nat).
Notation launched := (launched visuals (refill base line) port figure). Notation lives := (lives visuals (refill base line) port figure).
Notation live_step := (live_step visuals (refill base line) port figure).
Lemma tables_now c v z d0 s0 h s : made c -> launched c v z d0 = Ok s0 -> lives s0 h = Ok s -> let zoom := inR (s_zoom (l_view s)) in
  t_sizes (l_data s) = map (fun b => b / (zoom * zoom)) base /\ t_widths (l_data s) = repeat (line / zoom) (length base) /\ s_zoom (l_view s) <> 0%Qc.
Proof.
  intros M L E zoom. destruct (data_told _ _ _ _ _ _ _ _ _ _ _ M L E) as (d & T). unfold refill in T. destruct (Qc_eq_bool (s_zoom (l_view s)) 0%Qc) eqn:Z; [discriminate|].
  cbv zeta in T. fold zoom in T. injection T as <-. cbn [t_sizes t_widths]. split; [|split].
  - apply map_ext. intros b. unfold Rdiv. ring.
  - f_equal. unfold Rdiv. ring.
  - intros Q. rewrite Q in Z. discriminate Z.
Qed.
Lemma own_table code l j x : nth_error l j = Some x -> own (rows_of_table code l) j = Some [code x].
Proof. intros N. unfold rows_of_table. apply own_rows with (f := fun x => [code x]). exact N. Qed.
Lemma nth_repeat {I} (x : I) n j : (j < n)%nat -> nth_error (repeat x n) j = Some x.
Proof. revert j. induction n as [|n IH]; intros [|j] L; cbn; [inversion L|inversion L|reflexivity|]. apply IH. apply le_S_n. exact L. Qed.
Lemma sized_end argsort theta phi zdist sc c f x y w h v z d0 s0 hist s k V ps code face edge :
  sorts_numbers argsort -> ball_camera theta phi zdist sc = Ok c -> new_viewport f x y w h = Ok v ->
  nth_error visuals k = Some (sized_vis argsort V code face edge) -> holds V ps -> length base = length ps ->
  let n := length ps in fits n face -> clear n face -> fits n edge -> clear n edge ->
  launched c v z d0 = Ok s0 -> lives s0 hist = Ok s -> settled port figure hist ->
  let now := camera_steps figure c (start_of port ++ mouse_of hist) in let zoom := inR (s_zoom (l_view s)) in
  exists l items order, l_screen s = Some (s_view (l_view s), l) /\ nth_error l k = Some items /\
    visits n order /\ covers (depth_in (fun p => ahead (eye (c_model now) (c_view now) p)) ps) order /\
    map Some (picture (s_view (l_view s)) items) =
    map (fun j => match nth_error ps j, nth_error base j with
                  | Some p, Some b => Some ([spot (s_view (l_view s)) (clip (c_model now) (c_view now) (c_proj now) p)], drawn_with code zoom b line (own face j) (own edge j))
                  | _, _ => None
                  end) order.
Proof.
  intros SO B N K Ho LB n F1 C1 F2 C2 L E S now zoom. destruct (tables_now _ _ _ _ _ _ _ (ball_made _ _ _ _ _ B) L E) as (TS & TW & _). fold zoom in TS, TW.
  destruct (points_end visuals (refill base line) port figure argsort theta phi zdist sc c f x y w h v z d0 s0 hist s k (sized_vis argsort V code face edge) V ps face edge
    (rows_of_table code (t_widths (l_data s))) (rows_of_table code (t_sizes (l_data s))) SO B N K eq_refl Ho F1 C1 F2 C2) as (port' & l & items & order & SC & NE & _ & -> & VI & CO & MO).
  - unfold rows_of_table, fits. left. now rewrite map_length, TW, repeat_length.
  - exact Logic.I.
  - unfold rows_of_table, fits_size. now rewrite map_length, TS, map_length.
  - exact L.
  - exact E.
  - exact S.
  - exists l, items, order. repeat (split; [assumption|]). rewrite MO. apply map_ext. intros j. fold now. destruct (nth_error ps j) as [p|] eqn:P; [|reflexivity]. cbn [option_map].
    destruct (nth_error base j) as [b|] eqn:Bj.
    + unfold drawn_with. f_equal. f_equal. f_equal. f_equal. f_equal; [|f_equal].
      * apply own_table. rewrite TW. apply nth_repeat. apply nth_error_Some. congruence.
      * apply own_table. rewrite TS, nth_error_map, Bj. reflexivity.
    + exfalso. apply nth_error_None in Bj. assert (j < length ps)%nat by (apply nth_error_Some; congruence). rewrite LB in Bj. apply Nat.lt_nge in H. contradiction.
Qed.
Lemma no_resize hist : existsb is_resized hist = false -> forall e, In e (scrolls_of port figure hist) -> is_resize e = false.
Proof.
  intros NR e I. unfold scrolls_of in I. apply in_flat_map in I. destruct I as (a & IA & I).
  destruct a as [m b|i|]; [destruct (Camera.m_kind m); [destruct I| |destruct I|destruct I]; destruct I as [<-|[]]; reflexivity| |destruct I].
  exfalso. assert (existsb is_resized hist = true) by (apply existsb_exists; exists (Resized i); auto). congruence.
Qed.
Lemma run_connected l : forall t t', s_connected t = true -> Viewport.run t l = Ok t' -> s_connected t' = true.
Proof.
  induction l as [|e l IH]; intros t t' C R; [injection R as <-; exact C|]. cbn [Viewport.run] in R. destruct (Viewport.step t e) as [t1|] eqn:S; [|discriminate]. cbn [bind] in R.
  apply (IH t1 t'); [|exact R]. destruct e as [i| |inn b]; cbn [Viewport.step] in S.
  - destruct (resize _ _); [|discriminate]. injection S as <-. exact C.
  - destruct (show_zoom _ _); [|discriminate]. injection S as <-. reflexivity.
  - rewrite C in S. cbn [negb] in S. destruct (negb inn); [injection S as <-; exact C|]. cbv zeta in S. destruct (show_zoom _ _); [|discriminate]. injection S as <-. reflexivity.
Qed.
Lemma magnified_end c f x y w h v z d0 s0 h1 s1 h2 s2 : made c -> new_viewport f x y w h = Ok v -> (0 < z)%Qc ->
  launched c v z d0 = Ok s0 -> lives s0 h1 = Ok s1 -> aligned (l_view s1) -> lives s1 h2 = Ok s2 -> existsb is_resized h2 = false ->
  let v1 := s_view (l_view s1) in let v2 := s_view (l_view s2) in let k := inR (s_zoom (l_view s1)) / inR (s_zoom (l_view s2)) in
  0 < k /\ middle v2 = middle v1 /\ (forall p, magnified k (middle v1) (spot v1 p) (spot v2 p)) /\
  Forall2 (fun a b => diameter b = k * diameter a) (t_sizes (l_data s1)) (t_sizes (l_data s2)) /\
  Forall2 (fun a b => b = k * a) (t_widths (l_data s1)) (t_widths (l_data s2)).
Proof.
  intros M N Z L E1 A E2 NR v1 v2 k.
  assert (E12 : lives s0 (h1 ++ h2) = Ok s2) by (rewrite lives_app, E1; exact E2).
  destruct (parts _ _ _ _ _ _ _ _ _ _ _ M L E1) as (_ & R1). destruct (parts _ _ _ _ _ _ _ _ _ _ _ M L E12) as (_ & R2).
  unfold scrolls_of in R2. rewrite flat_map_app, app_assoc, run_app in R2. fold (scrolls_of port figure h1) (scrolls_of port figure h2) in R2. rewrite R1 in R2. cbn [bind] in R2.
  assert (Z1 : (0 < s_zoom (l_view s1))%Qc) by (destruct (zoom_run _ _ _ R1) as (tu & ->); apply zooms_positive; exact Z).
  assert (Z2 : (0 < s_zoom (l_view s2))%Qc) by (destruct (zoom_run _ _ _ R2) as (tu & ->); apply zooms_positive; exact Z1).
  pose proof (run_lims _ _ _ R1 (new_lims _ _ _ _ _ _ N)) as LI. destruct (lims_span _ LI) as (_ & _ & _ & YN). destruct (lims_centred _ LI) as [_ YC].
  assert (Y : p_ylim (s_view (l_view s1)) = (- snd (p_ylim (s_view (l_view s1))), snd (p_ylim (s_view (l_view s1))))%Qc).
  { unfold centred in YC. destruct (p_ylim (s_view (l_view s1))) as [a b]. cbn [fst snd] in *. now rewrite YC. }
  assert (SC : s_connected (l_view s1) = true).
  { cbn [app Viewport.run Viewport.step] in R1. destruct (show_zoom _ _) as [w1|] in R1; [|discriminate]. cbn [bind Viewport.step] in R1. destruct (show_zoom _ _) as [w2|] in R1; [|discriminate]. cbn [bind] in R1.
    apply (run_connected _ _ _) with (2 := R1). reflexivity. }
  assert (AP : apart (l_view s1) (l_view s2)).
  { apply (run_apart _ _ _ _ (no_resize _ NR)) with (3 := R2); [|exact Z1]. unfold apart. repeat (split; [first [reflexivity|assumption]|]). reflexivity. }
  destruct (apart_spots _ _ A Z1 Y YN AP) as (MI & MA). pose proof (inR_lt _ _ Z1) as P1. pose proof (inR_lt _ _ Z2) as P2. rewrite inR_0 in P1, P2.
  split; [apply Rdiv_lt_0_compat; assumption|]. split; [exact MI|]. split; [exact MA|].
  destruct (tables_now _ _ _ _ _ _ _ M L E1) as (S1 & W1 & _). destruct (tables_now _ _ _ _ _ _ _ M L E12) as (S2 & W2 & _). cbv zeta in S1, S2, W1, W2. rewrite S1, S2, W1, W2.
  unfold k. set (a := inR (s_zoom (l_view s1))) in *. set (b := inR (s_zoom (l_view s2))) in *. clearbody a b. split.
  - clear - P1 P2. induction base as [|r l IH]; cbn [map]; [constructor|]. constructor; [|exact IH]. unfold diameter. destruct (Rle_dec 0 r) as [P|P].
    + rewrite !sqrt_div_alt by nra. rewrite !sqrt_square by lra. field. lra.
    + assert (X : forall q, 0 < q -> sqrt (r / (q * q)) = 0).
      { intros q Q. apply sqrt_neg_0. assert (0 < / (q * q)) by (apply Rinv_0_lt_compat; nra). unfold Rdiv. nra. }
      rewrite !X by assumption. ring.
  - generalize (length base). intros n. induction n as [|n IH]; cbn [repeat]; [constructor|]. constructor; [|exact IH]. field. lra.
Qed.
End Running.

(** Views as wide as the zoom says. *)
Lemma update_aligned v v' x y n m : Viewport.update v = Ok v' -> p_extent v = (x, y, CInt n, CInt m) -> (n <= m)%Z -> p_xlim v' = lim (p_zoom v).
Proof.
  intros U X NM. pose proof U as U'. apply update_ok in U'. destruct U' as (F & XT & Z & P & LI).
  unfold Viewport.update in U. rewrite X in U. destruct (place _ _ x) as [rx|]; [|discriminate]. cbn [bind] in U. destruct (place _ _ y) as [ry|]; [|discriminate]. cbn [bind] in U.
  unfold place in U. destruct (Qc_eq_bool (fst (Viewport.size (p_fig v))) 0%Qc) eqn:W; [discriminate|]. cbn [bind] in U. destruct (Qc_eq_bool (snd (Viewport.size (p_fig v))) 0%Qc) eqn:H; [discriminate|]. cbn [bind] in U.
  unfold pixels_of in U. apply eqb_false in W, H. unfold Viewport.size in W, H, U. cbn [fst snd] in W, H, U.
  destruct (qlt _ _) eqn:Q in U.
  - exfalso. apply qlt_spec in Q. set (a := fst (f_inches (p_fig v))) in *. set (b := snd (f_inches (p_fig v))) in *. set (d := f_dpi (p_fig v)) in *. clearbody a b d.
    replace (zq m / (b * d) * b * d)%Qc with (zq m) in Q by (field; split; intros ->; [apply H; ring|apply H; ring]).
    replace (zq n / (a * d) * a * d)%Qc with (zq n) in Q by (field; split; intros ->; [apply W; ring|apply W; ring]).
    apply inR_lt in Q. rewrite !inR_zq in Q. apply lt_IZR in Q. lia.
  - destruct (Qc_eq_bool _ 0%Qc) in U; [discriminate|]. cbn [bind fst snd] in U. injection U as <-. reflexivity.
Qed.
Lemma run_aligned x y n m l : (n <= m)%Z -> forall t t', p_extent (s_view t) = (x, y, CInt n, CInt m) -> p_zoom (s_view t) = s_zoom t -> aligned t -> Viewport.run t l = Ok t' -> aligned t'.
Proof.
  intros NM. induction l as [|e l IH]; intros t t' X Z A R; [injection R as <-; exact A|]. cbn [Viewport.run] in R. destruct (Viewport.step t e) as [t1|] eqn:S; [|discriminate]. cbn [bind] in R.
  assert (GO : forall z v, show_zoom (s_view t) z = Ok v -> p_extent v = (x, y, CInt n, CInt m) /\ p_zoom v = z /\ p_xlim v = lim z).
  { intros z v E. apply show_ok in E. destruct E as (_ & EX & _ & EZ & EL & _). rewrite EX. auto. }
  enough (Q : p_extent (s_view t1) = (x, y, CInt n, CInt m) /\ p_zoom (s_view t1) = s_zoom t1 /\ aligned t1) by (destruct Q as (Q1 & Q2 & Q3); exact (IH t1 t' Q1 Q2 Q3 R)).
  destruct e as [i| |inn b]; cbn [Viewport.step] in S.
  - unfold resize in S. destruct (Viewport.update _) as [v|] eqn:U; [|discriminate]. injection S as <-. cbn [s_view s_zoom]. unfold aligned. cbn [s_view s_zoom].
    rewrite (update_aligned _ _ x y n m U X NM). apply update_ok in U. destruct U as (_ & UX & UZ & _). rewrite UX, UZ. cbn [p_extent p_zoom]. rewrite Z. auto.
  - destruct (show_zoom _ _) as [v|] eqn:E; [|discriminate]. injection S as <-. exact (GO _ _ E).
  - destruct (negb (s_connected t)); [injection S as <-; auto|]. destruct (negb inn); [injection S as <-; auto|]. cbv zeta in S. destruct (show_zoom _ _) as [v|] eqn:E; [|discriminate]. injection S as <-. exact (GO _ _ E).
Qed.
Section Aligned.
Context {D : Type}.
Variables (visuals : list (D -> vis)) (on_render : Qc -> mat -> mat -> mat -> D -> res D) (port : nat) (figure : nat -> nat).
Notation launched := (launched visuals on_render port figure). Notation lives := (lives visuals on_render port figure). Notation live_step := (live_step visuals on_render port figure).
Lemma aligned_unresized c f x y w h v z d0 s0 hist s : made c -> new_viewport f x y w h = Ok v -> launched c v z d0 = Ok s0 -> lives s0 hist = Ok s ->
  existsb is_resized hist = false -> aligned (l_view s).
Proof. intros M N L E NR. destruct (parts _ _ _ _ _ _ _ _ _ _ _ M L E) as (_ & R). exact (proj1 (start_even _ _ _ _ _ _ _ _ _ N (no_resize port figure hist NR) R)). Qed.
Lemma aligned_turned c v z d0 s0 hist s e b s' : made c -> launched c v z d0 = Ok s0 -> lives s0 hist = Ok s ->
  Camera.m_kind e = Camera.Scroll -> inside port figure e = true -> live_step s (Moved e b) = Ok s' -> aligned (l_view s').
Proof.
  intros M L E K I S. assert (E' : lives s0 (hist ++ [Moved e b]) = Ok s') by (rewrite lives_app, E; cbn [bind Live.lives]; rewrite S; reflexivity).
  destruct (parts _ _ _ _ _ _ _ _ _ _ _ M L E) as (_ & R). destruct (parts _ _ _ _ _ _ _ _ _ _ _ M L E') as (_ & R').
  unfold scrolls_of in R'. rewrite flat_map_app, app_assoc, run_app in R'. fold (scrolls_of port figure hist) in R'. rewrite R in R'. cbn [bind flat_map] in R'. rewrite K, I in R'. cbn [app Viewport.run Viewport.step] in R'.
  assert (SC : s_connected (l_view s) = true).
  { cbn [app Viewport.run Viewport.step] in R. destruct (show_zoom _ _) as [w1|] in R; [|discriminate]. cbn [bind Viewport.step] in R. destruct (show_zoom _ _) as [w2|] in R; [|discriminate]. cbn [bind] in R.
    apply (run_connected _ _ _) with (2 := R). reflexivity. }
  rewrite SC in R'. cbn [negb] in R'. cbv zeta in R'. destruct (show_zoom _ _) as [v'|] eqn:Z; [|discriminate]. cbn [bind] in R'. injection R' as <-. apply show_ok in Z. unfold aligned. cbn [s_view s_zoom]. tauto.
Qed.
Lemma aligned_pixels c f x y n m v z d0 s0 hist s : made c -> (0 < n <= m)%Z -> new_viewport f x y (CInt n) (CInt m) = Ok v -> launched c v z d0 = Ok s0 -> lives s0 hist = Ok s -> aligned (l_view s).
Proof.
  intros M NM N L E. destruct (parts _ _ _ _ _ _ _ _ _ _ _ M L E) as (_ & R). cbn [app Viewport.run Viewport.step] in R. destruct (show_zoom _ _) as [v1|] eqn:Z1 in R; [|discriminate]. cbn [bind] in R.
  apply show_ok in Z1. cbn [new_scene s_view s_zoom] in Z1. destruct Z1 as (_ & X1 & _ & P1 & L1 & _).
  assert (X : p_extent v = (x, y, CInt n, CInt m)).
  { unfold new_viewport, either in N. destruct n as [|n|n]; [lia| |lia]. destruct m as [|m|m]; [lia| |lia]. destruct (Viewport.update _) as [u|] eqn:U; [|discriminate]. cbn [bind] in N. injection N as <-. apply update_ok in U. cbn [p_extent]. now destruct U as (_ & -> & _). }
  apply (run_aligned x y n m (Viewport.Connect :: scrolls_of port figure hist) (proj2 NM) (mkScene v1 z true) (l_view s)); [now rewrite <- X|exact P1|exact L1|exact R].
Qed.
End Aligned.

Lemma sized_runs visuals base line port figure c f x y w h z d0 hist : made c -> never_fail (as_many base) visuals -> (0 < z)%Qc -> (0 < f_dpi f)%Qc -> (0 < fst (Viewport.size f))%Qc -> (0 < snd (Viewport.size f))%Qc ->
  ViewportSpec.plain x -> ViewportSpec.plain y -> some_length w -> some_length h -> sensible hist ->
  exists v s0 s, new_viewport f x y w h = Ok v /\ launched visuals (refill base line) port figure c v z d0 = Ok s0 /\ lives visuals (refill base line) port figure s0 hist = Ok s.
Proof. intros M NF Z. exact (runs visuals (refill base line) port figure (as_many base) c f x y w h z d0 hist M (refill_never_raises base line z Z) NF). Qed.

Lemma trial_turned : match (let* f := new_canvas (CInt 512) (CInt 512) (zq 100) in
                           let* v := new_viewport f (CFloat 0%Qc) (CFloat 0%Qc) (CFloat 1%Qc) (CFloat 1%Qc) in
                           let* a := Viewport.run (new_scene v 1%Qc) [Viewport.Connect; Viewport.Connect; Viewport.Resize (zq 10, zq 5)] in
                           let* b := Viewport.run a [Viewport.Scroll true Up] in Ok (f, a, b)) with
  | Ok (f, a, b) => (qlt 0%Qc (f_dpi f) && qlt 0%Qc (fst (Viewport.size f)) && qlt 0%Qc (snd (Viewport.size f))) &&
      (Qc_eq_bool (span_x (s_view a)) (zq 4) && Qc_eq_bool (s_zoom a) 1%Qc && Qc_eq_bool (span_x (s_view b)) (zq 2 * c_in)%Qc && Qc_eq_bool (s_zoom b) c_in) &&
      (Qc_eq_bool (wide (s_view a) * canvas_w (s_view a))%Qc (zq 1000) && Qc_eq_bool (wide (s_view b) * canvas_w (s_view b))%Qc (zq 1000)) = true
  | Err _ => False end.
Proof. vm_compute. reflexivity. Qed.
Lemma jumps visuals base line port figure c d0 x0 y0 : made c -> never_fail (as_many base) visuals ->
  exists f v s0 s1 s2, new_canvas (CInt 512) (CInt 512) (zq 100) = Ok f /\ new_viewport f (CFloat 0%Qc) (CFloat 0%Qc) (CFloat 1%Qc) (CFloat 1%Qc) = Ok v /\
    launched visuals (refill base line) port figure c v 1%Qc d0 = Ok s0 /\ lives visuals (refill base line) port figure s0 [Resized (zq 10, zq 5)] = Ok s1 /\
    live_step visuals (refill base line) port figure s1 (Moved (Camera.mkMouse Camera.Scroll (figure port) (Some port) x0 y0) Up) = Ok s2 /\
    let k := inR (s_zoom (l_view s1)) / inR (s_zoom (l_view s2)) in
    ~ (forall p, magnified k (middle (s_view (l_view s1))) (spot (s_view (l_view s1)) p) (spot (s_view (l_view s2)) p)) /\
    unit_x (s_view (l_view s2)) = 2 * k * unit_x (s_view (l_view s1)) /\
    t_sizes (l_data s1) = base /\ t_sizes (l_data s2) = map (fun b => k * k * b) base.
Proof.
  intros M NF. pose proof trial_turned as T. destruct (new_canvas (CInt 512) (CInt 512) (zq 100)) as [f|]; [|destruct T]. cbn [bind] in T.
  destruct (new_viewport f (CFloat 0%Qc) (CFloat 0%Qc) (CFloat 1%Qc) (CFloat 1%Qc)) as [v|] eqn:N; [|destruct T]. cbn [bind] in T.
  destruct (Viewport.run (new_scene v 1%Qc) [Viewport.Connect; Viewport.Connect; Viewport.Resize (zq 10, zq 5)]) as [a|] eqn:RA; [|destruct T]. cbn [bind] in T.
  destruct (Viewport.run a [Viewport.Scroll true Up]) as [b|] eqn:RB; [|destruct T]. cbn [bind] in T.
  apply andb_true_iff in T. destruct T as [T TW]. apply andb_true_iff in T. destruct T as [T TS]. apply andb_true_iff in T. destruct T as [T SH]. apply andb_true_iff in T. destruct T as [DP SW].
  apply andb_true_iff in TW. destruct TW as [WA WB]. apply andb_true_iff in TS. destruct TS as [TS ZB]. apply andb_true_iff in TS. destruct TS as [TS SB]. apply andb_true_iff in TS. destruct TS as [SA ZA].
  apply Qc_eq_bool_correct in WA, WB, ZB, SB, SA, ZA. apply qlt_spec in DP, SW, SH. assert (ONE : (0 < 1)%Qc) by now vm_compute.
  set (e := Moved (Camera.mkMouse Camera.Scroll (figure port) (Some port) x0 y0) Up).
  assert (SE : sensible [Resized (zq 10, zq 5); e]) by (repeat constructor; now vm_compute).
  destruct (sized_runs visuals base line port figure c f (CFloat 0%Qc) (CFloat 0%Qc) (CFloat 1%Qc) (CFloat 1%Qc) 1%Qc d0 [Resized (zq 10, zq 5); e] M NF ONE DP SW SH Logic.I Logic.I ONE ONE SE) as (v' & s0 & s2 & N' & L & E).
  rewrite N in N'. injection N' as <-. cbn [lives] in E. destruct (live_step visuals (refill base line) port figure s0 (Resized (zq 10, zq 5))) as [s1|] eqn:E1; [|discriminate]. cbn [bind] in E.
  destruct (live_step visuals (refill base line) port figure s1 e) as [s2'|] eqn:E2; [|discriminate]. cbn [bind] in E. injection E as ->.
  assert (L1 : lives visuals (refill base line) port figure s0 [Resized (zq 10, zq 5)] = Ok s1) by (cbn [lives]; rewrite E1; reflexivity).
  assert (L2 : lives visuals (refill base line) port figure s0 [Resized (zq 10, zq 5); e] = Ok s2) by (cbn [lives]; rewrite E1; cbn [bind]; rewrite E2; reflexivity).
  destruct (parts _ _ _ _ _ _ _ _ _ _ _ M L L1) as [_ V1]. destruct (parts _ _ _ _ _ _ _ _ _ _ _ M L L2) as [_ V2].
  assert (I : inside port figure (Camera.mkMouse Camera.Scroll (figure port) (Some port) x0 y0) = true) by (unfold inside; cbn; now rewrite !Nat.eqb_refl).
  unfold scrolls_of in V1, V2. cbn [flat_map app] in V1, V2. unfold e in V2. cbn [Camera.m_kind app] in V2. rewrite I in V2. rewrite RA in V1. injection V1 as ->.
  change [Viewport.Connect; Viewport.Connect; Viewport.Resize (zq 10, zq 5); Viewport.Scroll true Up] with ([Viewport.Connect; Viewport.Connect; Viewport.Resize (zq 10, zq 5)] ++ [Viewport.Scroll true Up]) in V2.
  rewrite run_app, RA in V2. cbn [bind] in V2. rewrite RB in V2. injection V2 as ->.
  destruct (tables_now _ _ _ _ _ _ _ _ _ _ _ _ M L L1) as (T1 & _). destruct (tables_now _ _ _ _ _ _ _ _ _ _ _ _ M L L2) as (T2 & _). cbv zeta in T1, T2.
  assert (CI : 0 < inR c_in) by (rewrite <- inR_0; apply inR_lt; now vm_compute). assert (O1 : inR 1%Qc = 1) by (change 1%Qc with (zq 1); now rewrite inR_zq).
  assert (U1 : unit_x (s_view (l_view s1)) = 250). { unfold unit_x, side_x. rewrite WA, SA, !inR_zq. field. }
  assert (U2 : unit_x (s_view (l_view s2)) = 500 / inR c_in). { unfold unit_x, side_x. rewrite WB, SB, inR_mult, !inR_zq. field. lra. }
  exists f, v, s0, s1, s2. split; [reflexivity|]. split; [exact N|]. split; [exact L|]. split; [exact L1|]. split; [exact E2|]. cbv zeta. rewrite ZA, ZB, O1 in *. split; [|split; [|split]].
  - intros Q. pose proof (Q (V4 0 0 0 1)) as Q0. specialize (Q (V4 1 0 0 1)). unfold spot in Q, Q0. cbn [w4 x4 y4] in Q, Q0. destruct (Req_EM_T 1 0); [lra|]. cbn [magnified fst snd] in Q, Q0.
    destruct Q as [Q _], Q0 as [Q0 _]. rewrite U1, U2 in Q. rewrite U1, U2 in Q0. set (m := fst (middle (s_view (l_view s1)))) in *. set (m' := fst (middle (s_view (l_view s2)))) in *. clearbody m m'.
    assert (K : 500 / inR c_in * (1 / 1) = 1 / inR c_in * (250 * (1 / 1))) by lra. set (r := inR c_in) in *. clearbody r.
    assert (500 = 250) by (apply (Rmult_eq_compat_r r) in K; replace (500 / r * (1 / 1) * r) with 500 in K by (field; lra); replace (1 / r * (250 * (1 / 1)) * r) with 250 in K by (field; lra); exact K). lra.
  - rewrite U1, U2. field. lra.
  - rewrite T1. rewrite <- (map_id base) at 2. apply map_ext. intros r. field.
  - rewrite T2. apply map_ext. intros r. field. lra.
Qed.
Lemma sized_example (figure : nat -> nat) code : let visuals := [sized_vis sort_nums sample code (Whole 1) (Whole 2)] in
  let up := Moved (Camera.mkMouse Camera.Scroll (figure 7%nat) (Some 7%nat) 0%Qc 0%Qc) Up in let h := [Moved (press figure 7 0%Qc 0%Qc) OtherButton; Resized (zq 10, zq 5); up] in
  settled 7 figure h /\ never_fail (as_many [25; 40]) visuals /\
  exists c f v s0 s, ball_camera 30 40 5 1 = Ok c /\ new_canvas (CInt 512) (CInt 512) (zq 100) = Ok f /\ new_viewport f (CInt 0) (CInt 0) (CInt 512) (CInt 512) = Ok v /\
    launched visuals (refill [25; 40] (1 / 4)) 7 figure c v 1%Qc (start_tables [25; 40] (1 / 4)) = Ok s0 /\ lives visuals (refill [25; 40] (1 / 4)) 7 figure s0 h = Ok s.
Proof.
  intros visuals up h. assert (NF : never_fail (as_many [25; 40]) visuals) by (apply (sized_never_fails sort_nums sample [V3 0 0 1; V3 0 0 2] code); [exact sample_holds|reflexivity]).
  assert (SE : sensible h) by (repeat constructor; now vm_compute). split; [|split; [exact NF|]].
  - right. exists [Moved (press figure 7 0%Qc 0%Qc) OtherButton; Resized (zq 10, zq 5)], up, []. split; [reflexivity|]. split; [reflexivity|]. right. eexists. eexists. split; [reflexivity|].
    unfold clicks, inside. cbn [Camera.m_kind Camera.m_figure Camera.m_inaxes]. rewrite Nat.eqb_refl. reflexivity.
  - destruct (ball_camera_ok (F := nat) 30 40 5 1) as (c & B). pose proof (ball_made _ _ _ _ _ B) as M.
    assert (T : match new_canvas (CInt 512) (CInt 512) (zq 100) with Ok f => qlt 0%Qc (f_dpi f) && qlt 0%Qc (fst (Viewport.size f)) && qlt 0%Qc (snd (Viewport.size f)) = true | Err _ => False end) by (vm_compute; reflexivity).
    destruct (new_canvas (CInt 512) (CInt 512) (zq 100)) as [f|]; [|destruct T]. apply andb_true_iff in T. destruct T as [T SH]. apply andb_true_iff in T. destruct T as [DP SW]. apply qlt_spec in DP, SW, SH.
    destruct (sized_runs visuals [25; 40] (1 / 4) 7 figure c f (CInt 0) (CInt 0) (CInt 512) (CInt 512) 1%Qc (start_tables [25; 40] (1 / 4)) h M NF eq_refl DP SW SH Logic.I Logic.I eq_refl eq_refl SE) as (v & s0 & s & N & L & E).
    exists c, f, v, s0, s. auto 7.
Qed.
