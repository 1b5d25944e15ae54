(** C90: the raw image of a canvas. *)
From Verif Require Import Base Image ImageSpec ImageFacts.
Local Open Scope Z_scope.

(** The arithmetic is right: a quotient or product is a floating-point number and
    no other is closer to the exact one. *)
Theorem C90_rounding n d : 0 < n -> 0 < d ->
  (let '(a, b) := fl n d in 0 < b /\ double a b) /\
  (forall p q, 0 < q -> double p q -> as_close n d (fst (fl n d)) (snd (fl n d)) p q).
Proof. exact (fun Hn Hd => conj (fl_double n d Hn Hd) (fun p q Hq H => fl_closest n d p q Hn Hd Hq H)). Qed.
Print Assumptions C90_rounding.

(** At a resolution that is a power of two or the sum of two, or when the sizes
    are whole numbers of inches, the image has the size of the canvas. *)
Theorem C90_image_partial w h dpi : 0 < w < 2 ^ 52 -> 0 < h < 2 ^ 52 -> 0 < dpi ->
  safe_dpi dpi \/ ((dpi | w) /\ (dpi | h)) ->
  raw_image (Whole w) (Whole h) dpi = Ok (h, w, 4).
Proof. exact (raw_safe w h dpi). Qed.
Print Assumptions C90_image_partial.
Theorem C90_size_partial w dpi : 0 < w < 2 ^ 52 -> safe_dpi dpi ->
  exists b, 0 < b /\ size w dpi = (w * b, b).
Proof. exact (size_safe w dpi). Qed.
Print Assumptions C90_size_partial.

(** At any resolution no more than one column and one row are missing, and the
    image is right exactly when none is. *)
Theorem C90_one_short w dpi : 0 < w < 2 ^ 52 -> 0 < dpi -> pixels w dpi = w \/ pixels w dpi = w - 1.
Proof. exact (pixels_near w dpi). Qed.
Print Assumptions C90_one_short.
Theorem C90_image_iff w h dpi : 0 < w < 2 ^ 52 -> 0 < h < 2 ^ 52 -> 0 < dpi ->
  (raw_image (Whole w) (Whole h) dpi = Ok (h, w, 4) <-> pixels w dpi = w /\ pixels h dpi = h).
Proof. exact (raw_shape w h dpi). Qed.
Print Assumptions C90_image_iff.
Theorem C90_short_refused w h dpi : 4 < w < 2 ^ 52 -> 0 < h < 2 ^ 52 -> 0 < dpi ->
  pixels w dpi <> w -> pixels h dpi = h -> raw_image (Whole w) (Whole h) dpi = Err ValueError.
Proof. exact (raw_short w h dpi). Qed.
Print Assumptions C90_short_refused.

(** At 100 dpi a canvas 29 pixels wide, or 29 times a power of two, cannot be
    rendered to memory. *)
Theorem C90_image_refuted :
  raw_image (Whole 29) (Whole 100) 100 = Err ValueError /\ raw_image (Whole 464) (Whole 300) 100 = Err ValueError /\
  forallb (fun k => pixels (29 * 2 ^ Z.of_nat k) 100 =? 29 * 2 ^ Z.of_nat k - 1) (seq 0 47) = true.
Proof. vm_compute. repeat split. Qed.
Print Assumptions C90_image_refuted.
(** Neither can a canvas whose size is a measure. *)
Theorem C90_measured_refuted n d x dpi : raw_image (Measured n d) x dpi = Err TypeError /\ raw_image x (Measured n d) dpi = Err TypeError.
Proof. exact (raw_measured n d x dpi). Qed.
Print Assumptions C90_measured_refuted.
(** Both sides one short can even give an image of the right height and width with
    three bytes per pixel: the wrong picture without an error. *)
Theorem C90_wrong_picture_refuted : exists w h dpi, 4 < w /\ 4 < h /\ 0 < dpi /\
  raw_image (Whole w) (Whole h) dpi = Ok (h, w, 3).
Proof. exists 7, 8, 107. repeat split. Qed.
Print Assumptions C90_wrong_picture_refuted.

Example C90_case : safe_dpi 72 /\ safe_dpi 96 /\ safe_dpi 144 /\ safe_dpi 128 /\
  raw_image (Whole 29) (Whole 58) 72 = Ok (58, 29, 4) /\ raw_image (Whole 512) (Whole 512) 100 = Ok (512, 512, 4).
Proof.
  repeat split; try reflexivity.
  - right. exists 6, 3. split; [split; reflexivity || discriminate|reflexivity].
  - right. exists 6, 5. split; [split; reflexivity || discriminate|reflexivity].
  - right. exists 7, 4. split; [split; reflexivity || discriminate|reflexivity].
  - left. exists 7. split; [discriminate|reflexivity].
Qed.

(** A measure of a whole number of pixels makes a figure of the size that number makes. *)
Theorem C90_measured_figure n dpi : figure_pixels (Measured n 1) dpi = figure_pixels (Whole n) dpi.
Proof. exact (measured_whole n dpi). Qed.
Print Assumptions C90_measured_figure.
