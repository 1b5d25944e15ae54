(** C84: caps, joins and styles of lines. *)
From Verif Require Import Base Lines LinesSpec LinesFacts.

(** A path is drawn with the cap given last before it was first rendered in the
    viewport, whatever else happened. *)
Theorem C84_caps_partial c j t h1 h2 v z k : ~ In (Render v) h1 -> last_caps c h1 = Number z -> stands z k ->
  cap_in (run Paths (start c j t) (h1 ++ Render v :: h2)) v = Some k.
Proof. exact (first_render c j t h1 h2 v z k). Qed.
Print Assumptions C84_caps_partial.
(** Caps for many items, which the constructor accepts, and other numbers raise and
    change nothing. *)
Theorem C84_errors c j t h1 v : ~ In (Render v) h1 ->
  (last_caps c h1 = Many -> step Paths (run Paths (start c j t) h1) (Render v) = (run Paths (start c j t) h1, Err TypeError)) /\
  (forall z, last_caps c h1 = Number z -> (forall k, ~ stands z k) -> step Paths (run Paths (start c j t) h1) (Render v) = (run Paths (start c j t) h1, Err KeyError)).
Proof. exact (first_error c j t h1 v). Qed.
Print Assumptions C84_errors.
(** Caps given later are not seen in that viewport. *)
Theorem C84_change_refuted c j t h v a l : dget (shown (run Paths (start c j t) h)) v = Some l ->
  dget (shown (run Paths (start c j t) (h ++ [Caps a; Render v]))) v = Some l.
Proof. exact (change_unseen c j t h v a l). Qed.
Print Assumptions C84_change_refuted.
(** Joins and styles are never seen, nor the caps of segments, always round. *)
Theorem C84_joins_styles_refuted k c j t h v l : dget (shown (run k (start c j t) h)) v = Some l -> l_join l = None /\ l_style l = None.
Proof. exact (ignored k c j t h v l). Qed.
Print Assumptions C84_joins_styles_refuted.
Theorem C84_segments_refuted c j t h v l : dget (shown (run Segments (start c j t) h)) v = Some l -> l_cap l = Some Round.
Proof. exact (segments_round c j t h v l). Qed.
Print Assumptions C84_segments_refuted.

Example C84_case : let h := [Render 0; Caps (Number 3); Render 1; Render 0; Caps Many; Render 2] in
  let s := run Paths (start (Number 1) (Number 2) (Number 5)) h in
  cap_in s 0 = Some Butt /\ cap_in s 1 = Some Projecting /\ dget (shown s) 2 = None /\
  (exists l, dget (shown (run Segments (start (Number 1) (Number 2) (Number 5)) [Render 0])) 0 = Some l /\ l_cap l = Some Round).
Proof. repeat split. eexists; split; reflexivity. Qed.
