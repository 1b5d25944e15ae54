(** Whole pictures in floating point. *)
From Coq Require Import Reals Lra Psatz List Permutation ZArith Lia.
From Verif Require Import Base Glm GlmSpec Trackball TrackballSpec Drift DriftSpec DriftRound DriftFacts Viewport Vec VecSpec Render RenderSpec RenderFacts Picture PictureSpec PictureFacts Single SingleSpec SingleFacts Rendered RenderedSpec.
Import ListNotations.
Local Open Scope R_scope.

Lemma Forall2_nth {A B} (P : A -> B -> Prop) l m : Forall2 P l m -> forall i x, nth_error l i = Some x -> exists y, nth_error m i = Some y /\ P x y.
Proof.
  induction 1 as [|a b l m H _ IH]; intros [|i] x E; try discriminate; cbn in *; [injection E as <-; eauto|auto].
Qed.
Lemma Forall2_len {A B} (P : A -> B -> Prop) l m : Forall2 P l m -> length l = length m.
Proof. induction 1; cbn; congruence. Qed.
Lemma options_beside (out : list (option (R * R) * list (option (list Z)))) idx (item : nat -> option (option (R * R) * list (option (list Z)))) (P : nat -> _ -> Prop) :
  map Some out = map item idx -> (forall j x, In j idx -> item j = Some x -> P j x) -> Forall2 P idx out.
Proof.
  revert out. induction idx as [|j idx IH]; intros [|x out] E H; try discriminate; constructor.
  - injection E as E1 _. apply H; [now left|auto].
  - apply IH; [now injection E|]. intros j' x' I. apply H. now right.
Qed.

Section Whole.
Variables (f s : R) (M N viewh projh : mat) (ps : list vec3).
Hypotheses (F : 0 < f <= 328 / 100) (S : / 1000 <= s <= 1000) (I : Forall (in_cube s) ps) (BM : only_block M) (BN : only_block N)
  (NE : near (/ 10 ^ 7) M N) (NN : forall q, dot (block N q) (block N q) = dot q q)
  (SV : stored (camera_view s) viewh) (SP : stored (lens f) projh).
Variable v : Viewport.viewport.
Hypotheses (U : usable v) (UX : Rabs (unit_x v) <= 1000) (UY : Rabs (unit_y v) <= 1000).
Variable argsort : list num -> list nat.
Hypothesis SORT : sorts_numbers argsort.

Lemma vertex_placed T p q : transform_computed M viewh projh T -> vertex_computed T p q -> placed_computed M viewh projh p q.
Proof. intros HT (c & A & B). exists T, c. auto. Qed.
Lemma cube_nth j p : nth_error ps j = Some p -> in_cube s p.
Proof. intros E. apply nth_error_In in E. exact (proj1 (Forall_forall _ _) I p E). Qed.
Definition away (p : vec3) : R := - z4 (eye N (camera_view s) p).

Lemma items_beside T qs idx own_ out : transform_computed M viewh projh T -> Forall2 (vertex_computed T) ps qs ->
  map Some out = map (fun j => option_map (fun x => (x, own_ j)) (nth_error (map (fun q => on_canvas v (Num (x3 q)) (Num (y3 q))) qs) j)) idx ->
  visits (length ps) idx ->
  drawn_beside (/ 100) (fun p => spot v (clip N (camera_view s) (lens f) p)) own_ ps idx out.
Proof.
  intros HT HV E V. eapply options_beside; [exact E|]. intros j x Ij Ex. cbv beta in Ex.
  assert (J : (j < length ps)%nat) by (apply (Permutation_in _ V) in Ij; apply in_seq in Ij; lia).
  destruct (nth_error ps j) as [p|] eqn:Ep; [|apply nth_error_None in Ep; lia].
  destruct (Forall2_nth _ _ _ HV j p Ep) as (q & Eq & Hq). rewrite nth_error_map, Eq in Ex. cbn [option_map] in Ex. injection Ex as <-.
  exists p. split; [reflexivity|]. cbn [fst snd]. split; [|reflexivity].
  destruct (pixel_close f M N v s viewh projh p q) as (x & y & x' & y' & E1 & E2 & E3 & E4); auto; [exact (cube_nth j p Ep)|exact (vertex_placed T p q HT Hq)|].
  exists x, y, x', y'. auto.
Qed.
Lemma points_whole face edge width size out : let n := length ps in
  fits n face -> clear n face -> fits n edge -> clear n edge -> fits n width -> clear n width -> fits_size n size ->
  points_computed argsort v ps M viewh projh face edge width size out ->
  exists order, visits n order /\ covers_but (/ 1000) away ps order /\
    drawn_beside (/ 100) (fun p => spot v (clip N (camera_view s) (lens f) p)) (fun j => [own face j; own edge j; own width j; own size j]) ps order out.
Proof.
  intros n F1 C1 F2 C2 F3 C3 F4 (T & qs & ks & sz & HT & HV & HK & H). cbv zeta in H.
  assert (LQ : length qs = n) by (symmetry; exact (Forall2_len _ _ _ HV)). assert (LK : length ks = n) by (rewrite <- LQ; symmetry; exact (Forall2_len _ _ _ HK)).
  rewrite LQ in H. set (idx := argsort (map Num ks)) in *. destruct H as (ES & ->).
  assert (V : visits n idx) by (unfold visits; rewrite <- LK, <- (map_length Num ks); apply (proj1 (SORT (map Num ks)))).
  destruct (shown_size n idx size V F4) as (b & Eb & Hb). rewrite Eb in ES. injection ES as <-.
  exists idx. split; [exact V|]. split.
  - intros i j a c p q Hij Hi Hj Ep Eq. destruct (Forall2_nth _ _ _ HV a p Ep) as (p' & Ep' & Hp). destruct (Forall2_nth _ _ _ HV c q Eq) as (q' & Eq' & Hq).
    destruct (Forall2_nth _ _ _ HK a p' Ep') as (k & Ek & Kk). destruct (Forall2_nth _ _ _ HK c q' Eq') as (k' & Ek' & Kk').
    assert (K : k <= k') by (apply (proj2 (SORT (map Num ks)) i j a c k k' Hij Hi Hj); rewrite nth_error_map, ?Ek, ?Ek'; reflexivity).
    apply Rnot_le_lt. intros D. unfold away in D.
    destruct (ordered f M N s viewh projh p q p' q' k k' F BM BN NE NN S (cube_nth a p Ep) (cube_nth c q Eq) SV SP (vertex_placed T p p' HT Hp) (vertex_placed T q q' HT Hq) Kk Kk' D). lra.
  - apply (items_beside T qs); auto. rewrite drawn with (as_ := [face; edge; width; size]); [reflexivity|now rewrite map_length, LQ|].
    intros i j Hi. cbn [map]. rewrite !(shown_attach n idx) with (j := j) by assumption. now rewrite (Hb i j Hi).
Qed.
Lemma pixels_whole color out : let n := length ps in fits n color -> clear n color ->
  pixels_computed argsort v ps M viewh projh color out ->
  exists order, visits n order /\ covers_but (/ 1000) (fun p => - away p) ps order /\
    drawn_beside (/ 100) (fun p => spot v (clip N (camera_view s) (lens f) p)) (fun j => [own color j]) ps order out.
Proof.
  intros n F1 C1 (T & qs & HT & HV & H). cbv zeta in H.
  assert (LQ : length qs = n) by (symmetry; exact (Forall2_len _ _ _ HV)). rewrite LQ in H.
  set (ks := map (fun q => Num (z3 q)) qs) in *. set (idx := argsort ks) in *. subst out.
  assert (LK : length ks = n) by (unfold ks; now rewrite map_length).
  assert (V : visits n idx) by (unfold visits; rewrite <- LK; apply (proj1 (SORT ks))).
  exists idx. split; [exact V|]. split.
  - intros i j a c p q Hij Hi Hj Ep Eq. destruct (Forall2_nth _ _ _ HV a p Ep) as (p' & Ep' & Hp). destruct (Forall2_nth _ _ _ HV c q Eq) as (q' & Eq' & Hq).
    assert (K : z3 p' <= z3 q') by (apply (proj2 (SORT ks) i j a c _ _ Hij Hi Hj); unfold ks; rewrite nth_error_map, ?Ep', ?Eq'; reflexivity).
    apply Rnot_le_lt. intros D. unfold away in D.
    destruct (ordered f M N s viewh projh q p q' p' (rnd (1 - z3 q')) (rnd (1 - z3 p')) F BM BN NE NN S (cube_nth c q Eq) (cube_nth a p Ep) SV SP (vertex_placed T q q' HT Hq) (vertex_placed T p p' HT Hp)); try (now right); lra.
  - apply (items_beside T qs); auto. rewrite drawn with (as_ := [color]); [reflexivity|now rewrite map_length, LQ|].
    intros i j Hi. cbn [map]. now rewrite !(shown_attach n idx) with (j := j) by assumption.
Qed.
(** There are such pictures. *)
Lemma vertices_exist T : transform_computed M viewh projh T -> exists qs ks, Forall2 (vertex_computed T) ps qs /\ Forall2 sort_key qs ks.
Proof.
  intros HT. assert (K : forall l, Forall (in_cube s) l -> exists qs ks, Forall2 (vertex_computed T) l qs /\ Forall2 sort_key qs ks).
  { induction 1 as [|p l Hp _ (qs & ks & A & B)]; [exists [], []; auto|].
    destruct (moved_exists T p) as [c Hc].
    assert (W : 0 < w4 c) by exact (positive f s M N viewh projh p F S Hp BM NE NN SV SP T c HT Hc).
    exists (V3 (rnd32 (x4 c / w4 c)) (rnd32 (y4 c / w4 c)) (rnd32 (z4 c / w4 c)) :: qs), (rnd32 (1 - rnd32 (z4 c / w4 c)) :: ks).
    split; constructor; auto; [|now left]. exists c. split; [exact Hc|]. unfold divided, result. repeat split; auto. lra. }
  exact (K ps I).
Qed.
Lemma pictures_exist face edge width size color : fits_size (length ps) size ->
  (exists out, points_computed argsort v ps M viewh projh face edge width size out) /\ exists out, pixels_computed argsort v ps M viewh projh color out.
Proof.
  intros FS. destruct (product_exists projh viewh) as [PV E1], (product_exists PV M) as [T E2].
  assert (HT : transform_computed M viewh projh T) by (exists PV; auto).
  destruct (vertices_exist T HT) as (qs & ks & A & B).
  assert (LQ : length qs = length ps) by (symmetry; exact (Forall2_len _ _ _ A)). assert (LK : length ks = length ps) by (rewrite <- LQ; symmetry; exact (Forall2_len _ _ _ B)).
  assert (V : visits (length ps) (argsort (map Num ks))) by (unfold visits; rewrite <- LK, <- (map_length Num ks); apply (proj1 (SORT (map Num ks)))).
  destruct (shown_size _ _ size V FS) as (sz & Ez & _).
  split.
  - eexists. exists T, qs, ks, sz. cbv zeta. rewrite LQ. eauto 8.
  - eexists. exists T, qs. cbv zeta. eauto 8.
Qed.
End Whole.

Lemma whole_pictures L theta phi l : good_library L -> Forall on_screen l ->
  exists b b' m proj, fnew L theta phi = Ok b /\ facts L b l = Ok b' /\ rotation m /\ near (/ 10 ^ 7) (t_model b') m /\
    perspective 35 1 1 100 false = Ok proj /\
    forall argsort v s view' proj' ps face edge width size out, sorts_numbers argsort ->
      usable v -> Rabs (unit_x v) <= 1000 -> Rabs (unit_y v) <= 1000 -> / 1000 <= s <= 1000 -> Forall (in_cube s) ps ->
      stored (camera_view s) view' -> stored proj proj' ->
      let n := length ps in
      fits n face -> clear n face -> fits n edge -> clear n edge -> fits n width -> clear n width -> fits_size n size ->
      points_computed argsort v ps (transpose (t_model b')) view' proj' face edge width size out ->
      exists order, visits n order /\ covers_but (/ 1000) (fun p => - z4 (eye (transpose m) (camera_view s) p)) ps order /\
        drawn_beside (/ 100) (fun p => spot v (clip (transpose m) (camera_view s) proj p)) (fun j => [own face j; own edge j; own width j; own size j]) ps order out.
Proof.
  intros GL O. destruct (turned L theta phi l GL O) as (b & b' & m & E1 & E2 & R & NE & OB). destruct lens_ok as (f & F & _ & EF).
  exists b, b', m, (lens f). do 5 (split; [assumption|]).
  intros argsort v s v' p' ps face edge width size out SO U UX UY S I SV SP n F1 C1 F2 C2 F3 C3 F4 H.
  apply (points_whole f s (transpose (t_model b')) (transpose m) v' p' ps F S I) with (argsort := argsort); auto using near_transpose, block_transpose.
  - apply block_transpose, R. - intros q. now apply block_norm.
Qed.
Lemma whole_pixels L theta phi l : good_library L -> Forall on_screen l ->
  exists b b' m proj, fnew L theta phi = Ok b /\ facts L b l = Ok b' /\ rotation m /\ near (/ 10 ^ 7) (t_model b') m /\
    perspective 35 1 1 100 false = Ok proj /\
    forall argsort v s view' proj' ps color out, sorts_numbers argsort ->
      usable v -> Rabs (unit_x v) <= 1000 -> Rabs (unit_y v) <= 1000 -> / 1000 <= s <= 1000 -> Forall (in_cube s) ps ->
      stored (camera_view s) view' -> stored proj proj' ->
      fits (length ps) color -> clear (length ps) color ->
      pixels_computed argsort v ps (transpose (t_model b')) view' proj' color out ->
      exists order, visits (length ps) order /\ covers_but (/ 1000) (fun p => z4 (eye (transpose m) (camera_view s) p)) ps order /\
        drawn_beside (/ 100) (fun p => spot v (clip (transpose m) (camera_view s) proj p)) (fun j => [own color j]) ps order out.
Proof.
  intros GL O. destruct (turned L theta phi l GL O) as (b & b' & m & E1 & E2 & R & NE & OB). destruct lens_ok as (f & F & _ & EF).
  exists b, b', m, (lens f). do 5 (split; [assumption|]).
  intros argsort v s v' p' ps color out SO U UX UY S I SV SP F1 C1 H.
  destruct (pixels_whole f s (transpose (t_model b')) (transpose m) v' p' ps F S I (block_transpose _ OB) (block_transpose _ (proj1 R)) (near_transpose _ _ _ NE) (fun q => block_norm m q R) SV SP v U UX UY argsort SO color out F1 C1 H)
    as (order & V & C & D).
  exists order. split; [exact V|]. split; [|exact D].
  intros i j a c p q Hij Hi Hj Ep Eq. pose proof (C i j a c p q Hij Hi Hj Ep Eq) as K. unfold away in K. lra.
Qed.
Lemma whole_exist L theta phi l : good_library L -> Forall on_screen l ->
  exists b b' proj, fnew L theta phi = Ok b /\ facts L b l = Ok b' /\ perspective 35 1 1 100 false = Ok proj /\
    forall argsort v s ps face edge width size color, sorts_numbers argsort -> / 1000 <= s <= 1000 -> Forall (in_cube s) ps -> fits_size (length ps) size ->
      stored (camera_view s) (single (camera_view s)) /\ stored proj (single proj) /\
      (exists out, points_computed argsort v ps (transpose (t_model b')) (single (camera_view s)) (single proj) face edge width size out) /\
      exists out, pixels_computed argsort v ps (transpose (t_model b')) (single (camera_view s)) (single proj) color out.
Proof.
  intros GL O. destruct (turned L theta phi l GL O) as (b & b' & m & E1 & E2 & R & NE & OB). destruct lens_ok as (f & F & _ & EF).
  exists b, b', (lens f). do 3 (split; [assumption|]). intros argsort v s ps face edge width size color SO S I FS.
  destruct (single_stored s (proj1 S)) as [SV SP]. specialize (SP _ EF). do 2 (split; [assumption|]).
  exact (pictures_exist f s (transpose (t_model b')) (transpose m) _ _ ps F S I (block_transpose _ OB) (near_transpose _ _ _ NE) (fun q => block_norm m q R) SV SP v argsort SO face edge width size color FS).
Qed.
