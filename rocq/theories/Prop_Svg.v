(** C41-C43 and C57: parsing SVG path descriptions. *)
From Verif Require Import Base Svg SvgSpec SvgFacts.

(** ** C41: an error, or lists of the same length with complete groups. *)
Theorem C41_well_formed arc float d p v codes :
  svg_to_path arc float d p = Ok (v, codes) ->
  grouped codes /\ (exists r, codes = MOVETO :: r) /\ (forall l, v = Points l -> length l = length codes).
Proof. exact (svg_well_formed arc float d p v codes). Qed.
Print Assumptions C41_well_formed.
Theorem C41_parsed_well_formed arc es p cs vs :
  parse_path arc es p = Ok (cs, vs) -> length cs = length vs /\ grouped cs.
Proof. exact (parse_path_well_formed arc es p cs vs). Qed.
Print Assumptions C41_parsed_well_formed.
(** The only errors, apart from those an arc may raise. *)
Theorem C41_errors arc es p x :
  parse_path arc es p = Err x ->
  (x = ValueError \/ x = IndexError \/ x = TypeError \/ x = AttributeError) \/
  (exists c r a l w e, arc c r a l w e = Err x).
Proof. exact (parse_path_errors arc es p x). Qed.
Print Assumptions C41_errors.
(** A text of letters and numbers is read as these letters and numbers. *)
Theorem C41_text_is_read ws :
  Forall word_ok ws -> tokenize (as_string (text ws)) = map word_token ws.
Proof. exact (tokenize_text ws). Qed.
Print Assumptions C41_text_is_read.
(** What is parsed is what SVG says, for paths that reopen with a moveto after
    every closepath. *)
Theorem C41_draws_as_svg arc l p :
  svg_valid l -> move_after_close l -> parse_path arc (path l) p = draw arc p p None None (absolutes p p l).
Proof. exact (draws arc l p). Qed.
Print Assumptions C41_draws_as_svg.
(** Without that restriction valid paths raise: closing twice without a moveto,
    or a smooth curve after closing. *)
Theorem C41_draws_as_svg_refuted :
  (exists l p, svg_valid l /\ (forall arc, parse_path arc (path l) p = Err AttributeError) /\
    forall arc, is_ok (draw arc p p None None (absolutes p p l)) = true) /\
  (exists l p, svg_valid l /\ (forall arc, parse_path arc (path l) p = Err TypeError) /\
    forall arc, is_ok (draw arc p p None None (absolutes p p l)) = true).
Proof. exact after_close_witness. Qed.
Print Assumptions C41_draws_as_svg_refuted.

Example C41_text_example :
  let ws := [WCmd "M"; WNum (mkNum None ["1"; "0"] None None);
             WNum (mkNum (Some "-") [] (Some ["5"]) (Some ("e", Some "+", ["2"])));
             WCmd "z"]%char in
  as_string (text ws) = "M 10 -.5e+2 z "%string /\ Forall word_ok ws /\
  tokenize "M10-.5e+2z" = map word_token ws.
Proof.
  cbv zeta. split; [reflexivity|]. split; [|reflexivity].
  repeat apply Forall_cons; try apply Forall_nil.
  - cbn. auto.
  - repeat split; cbn; unfold a_sign, all_digits; auto; try discriminate; repeat constructor; cbn; tauto.
  - repeat split; cbn; unfold a_sign, all_digits; auto; try discriminate; repeat constructor; cbn; tauto.
  - cbn. tauto.
Qed.
Example C41_parse_example :
  let l := [(MoveTo (z 1, z 1), true); (Cubic (z 0, z 1) (z 1, z 2) (z 3, z 3), false);
            (Smooth (z 5, z 5) (z 6, z 6), true); (Arc (z 1, z 1) (z 0) (z 0) (z 1) (z 7, z 7), true); (Close, false)] in
  svg_valid l /\ move_after_close l /\
  exists vs, parse_path ex_arc (path l) (z 0, z 0) =
    Ok ([MOVETO; CURVE4; CURVE4; CURVE4; CURVE4; CURVE4; CURVE4; LINETO; CURVE4; CURVE4; CURVE4; LINETO; CLOSEPOLY], vs).
Proof. cbv zeta. split; [exact I|]. split; [cbn; auto|]. eexists. vm_compute. reflexivity. Qed.
Example C41_errors_example :
  parse_path ex_arc [Cmd LL true; Num (z 1)] (z 0, z 0) = Err IndexError /\
  parse_path ex_arc [Num (z 1)] (z 0, z 0) = Err ValueError /\
  svg_to_path ex_arc ex_float "L 1 2" (z 0, z 0) = Err ValueError.
Proof. repeat split; vm_compute; reflexivity. Qed.

(** ** C42: relative commands are absolute ones with the current point added. *)
Theorem C42_relative_same_path arc l p :
  parse_path arc (path l) p = parse_path arc (path (map absolutely (absolutes p p l))) p.
Proof. exact (relative_same_path arc l p). Qed.
Print Assumptions C42_relative_same_path.
(** From any point of a parse, one relative operation gives the same vertices,
    leaves the same state but for the flag, and reads the same numbers. *)
Theorem C42_relative_step arc o last s k :
  relabel (run arc (letter_of o) last (setabs s false) (args o ++ k)) =
  run arc (letter_of o) last (setabs s true) (args (shift (cur s) o) ++ k).
Proof. exact (run_shift arc o last s k). Qed.
Print Assumptions C42_relative_step.
(** Leaving out a repeated letter (lineto after a moveto) changes nothing. *)
Theorem C42_implicit_letters arc ks p :
  Forall (fun k => Forall (kindred (first k)) (more k)) ks ->
  parse_path arc (concat (map implicitly ks)) p = parse_path arc (concat (map explicitly ks)) p.
Proof. exact (implicit_same_path arc ks p). Qed.
Print Assumptions C42_implicit_letters.
(** The starting position: an initial relative moveto is relative to it; after an
    absolute one it has no effect (the documentation says the contrary). *)
Theorem C42_start_position arc p ab l q q' :
  parse_path arc (path ((MoveTo p, true) :: map (fun o => (o, true)) l)) q =
  parse_path arc (path ((MoveTo p, true) :: map (fun o => (o, true)) l)) q' /\
  (ab = false -> parse_path arc (path [(MoveTo p, ab)]) q = Ok ([MOVETO], [(fst p + fst q, snd p + snd q)%Qc])).
Proof. exact (absolute_start arc p ab l q q'). Qed.
Print Assumptions C42_start_position.

Example C42_relative_example :
  absolutes (z 0, z 0) (z 0, z 0) [(MoveTo (z 1, z 2), false); (HLine (z 3), false); (VLine (z 1), false); (Close, false); (MoveTo (z 1, z 1), false)] =
  [MoveTo (z 1, z 2); HLine (z 4); VLine (z 3); Close; MoveTo (z 2, z 3)].
Proof. cbn. repeat f_equal; apply Qc_is_canon; reflexivity. Qed.
Example C42_implicit_example :
  let k := mkChunk (MoveTo (z 0, z 0)) false [LineTo (z 1, z 1); LineTo (z 2, z 0)] in
  Forall (kindred (first k)) (more k) /\
  implicitly k = [Cmd LM false; Num (z 0); Num (z 0); Num (z 1); Num (z 1); Num (z 2); Num (z 0)] /\
  is_ok (parse_path ex_arc (implicitly k) (z 0, z 0)) = true.
Proof. cbv zeta. split; [repeat constructor; discriminate|]. split; [reflexivity|vm_compute; reflexivity]. Qed.

(** ** C43: the unit square. *)
Theorem C43_within arc float d p l codes :
  svg_to_path arc float d p = Ok (Points l, codes) -> Forall (fun v => within (fst v) /\ within (snd v)) l.
Proof. exact (svg_within arc float d p l codes). Qed.
Print Assumptions C43_within.
(** Not both extremes in x and in y: the two axes share one minimum and one
    maximum. *)
Theorem C43_touches_refuted :
  exists d l codes, svg_to_path ex_arc ex_float d (z 0, z 0) = Ok (Points l, codes) /\
  ~ In (- half)%Qc (map snd l) /\ (exists v w, In v l /\ In w l /\ snd v <> snd w).
Proof. exact touching_refuted. Qed.
Print Assumptions C43_touches_refuted.
(** Some side is touched at each end. *)
Theorem C43_touches_partial arc float d p l codes :
  svg_to_path arc float d p = Ok (Points l, codes) ->
  (exists v, In v l /\ (fst v = - half \/ snd v = half)%Qc) /\ (exists v, In v l /\ (fst v = half \/ snd v = - half)%Qc).
Proof. exact (svg_touches arc float d p l codes). Qed.
Print Assumptions C43_touches_partial.
(** All four sides when the extents in x and y are the same. *)
Theorem C43_touches_square arc float d p l codes vs a b :
  svg_to_path arc float d p = Ok (Points l, codes) ->
  parse_path arc (map (element float) (tokenize d)) p = Ok (codes, vs) ->
  (forall x, coordinate vs x -> a <= x /\ x <= b)%Qc ->
  In a (map fst vs) -> In b (map fst vs) -> In a (map snd vs) -> In b (map snd vs) ->
  In (- half)%Qc (map fst l) /\ In half (map fst l) /\ In (- half)%Qc (map snd l) /\ In half (map snd l).
Proof. exact (svg_square arc float d p l codes vs a b). Qed.
Print Assumptions C43_touches_square.
(** The drawing keeps its shape, upside down. *)
Theorem C43_keeps_shape arc float d p l codes :
  svg_to_path arc float d p = Ok (Points l, codes) ->
  exists vs k b, parse_path arc (map (element float) (tokenize d)) p = Ok (codes, vs) /\ (0 < k)%Qc /\
  l = map (fun v => (k * fst v + b, - (k * snd v + b))%Qc) vs.
Proof. exact (svg_similar arc float d p l codes). Qed.
Print Assumptions C43_keeps_shape.
Theorem C43_degenerate arc float d p codes vs :
  parse_path arc (map (element float) (tokenize d)) p = Ok (codes, vs) ->
  (vs = [] -> svg_to_path arc float d p = Err ValueError) /\
  (vs <> [] -> (forall r, svg_to_path arc float d p = Ok (NaN, r) -> exists c, forall x, coordinate vs x -> x = c) /\
               ((exists c, forall x, coordinate vs x -> x = c) -> forall l r, svg_to_path arc float d p <> Ok (Points l, r))).
Proof. exact (svg_degenerate arc float d p codes vs). Qed.
Print Assumptions C43_degenerate.

Example C43_example :
  svg_to_path ex_arc ex_float "M 0 0 h 1 v 1 z" (z 0, z 0) =
  svg_to_path ex_arc ex_float "M 0 0 L 1 0 1 1 Z" (z 0, z 0) /\
  is_ok (svg_to_path ex_arc ex_float "M 0 0 h 1 v 1 z" (z 0, z 0)) = true /\
  svg_to_path ex_arc ex_float "" (z 0, z 0) = Err ValueError /\
  svg_to_path ex_arc ex_float "M 3 3" (z 0, z 0) = Ok (NaN, [MOVETO]).
Proof. repeat split; vm_compute; reflexivity. Qed.

(** ** C57: closing a subpath returns to where it started. *)
Theorem C57_closes_at_start arc es p cs vs :
  arcs_end arc -> parse_path arc es p = Ok (cs, vs) -> closed_at_start None p cs vs.
Proof. intros A. exact (parse_path_closed arc A es p cs vs). Qed.
Print Assumptions C57_closes_at_start.
Example C57_example :
  arcs_end ex_arc /\
  parse_path ex_arc (path [(MoveTo (z 1, z 1), true); (LineTo (z 2, z 2), true); (Close, true)]) (z 0, z 0) =
  Ok ([MOVETO; LINETO; LINETO; CLOSEPOLY], [(z 1, z 1); (z 2, z 2); (z 1, z 1); (z 1, z 1)]) /\
  ~ closed_at_start None (z 0, z 0) [MOVETO; LINETO; CLOSEPOLY] [(z 1, z 1); (z 2, z 2); (z 1, z 1)].
Proof.
  split; [|split].
  - intros c r x lg sw e p l E. injection E as <- <-. exists [], (c, e, e). split; reflexivity.
  - vm_compute. reflexivity.
  - cbn. intros (_ & E & _). apply (f_equal (fun q => Qnum (this (fst q)))) in E. vm_compute in E. discriminate.
Qed.

(** C73: arcs are only computed between different points with radii that are not
    zero; the others are drawn as a line or not at all. *)
Theorem C73_never_degenerate arc arc' es p :
  (forall c r x lg sw e, c <> e -> fst r <> 0%Qc -> snd r <> 0%Qc -> arc c r x lg sw e = arc' c r x lg sw e) ->
  parse_path arc es p = parse_path arc' es p.
Proof. intros H. exact (parse_path_arcs arc arc' H es p). Qed.
Print Assumptions C73_never_degenerate.
Example C73_never_degenerate_case : let never := fun (c r : point) (x lg sw : Qc) (e : point) => Err ZeroDivisionError in
  is_ok (parse_path never (path [(MoveTo (z 1, z 1), true); (Arc (z 0, z 1) (z 0) (z 0) (z 0) (z 2, z 2), true);
                                 (Arc (z 1, z 1) (z 0) (z 0) (z 0) (z 2, z 2), true)]) (z 0, z 0)) = true.
Proof. vm_compute. reflexivity. Qed.
