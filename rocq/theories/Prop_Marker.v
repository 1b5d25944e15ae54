(** C74: shapes of markers.  C75: axes of markers. *)
From Verif Require Import Base Svg SvgSpec SvgFacts Marker MarkerSpec MarkerFacts.
Local Open Scope nat_scope.

(** Every marker has the path of its own drawing; other numbers are refused. *)
Theorem C74_every_marker arc : arcs_defined arc ->
  (forall m, path_of arc (number m) = svg_to_path arc decimal (drawing m) origin /\ exists p, path_of arc (number m) = Ok p) /\
  (forall n, ~ known n -> path_of arc n = Err KeyError).
Proof. exact (path_of_ok arc). Qed.
Print Assumptions C74_every_marker.
Theorem C74_numbers n : known n <-> exists m, number m = n.
Proof. exact (known_number n). Qed.
Print Assumptions C74_numbers.
(** The outlines of square, minus and diamond are left open, the others are closed. *)
Theorem C74_closed_refuted arc m v cs : arcs_defined arc -> path_of arc (number m) = Ok (v, cs) ->
  (~ In m [square; minus; diamond] -> closed cs) /\ (In m [square; minus; diamond] -> ~ In CLOSEPOLY cs).
Proof. exact (outlines arc m v cs). Qed.
Print Assumptions C74_closed_refuted.
(** The middle of the drawing is at the position of the marker, but for the arrow. *)
Theorem C74_centred_partial arc m v cs : arcs_defined arc -> arcs_inside arc -> arcs_end arc -> path_of arc (number m) = Ok (v, cs) ->
  exists vs l, parse_path arc (map (element decimal) (tokenize (drawing m))) origin = Ok (cs, vs) /\ v = Points l /\
    ((exists k, (0 < k)%Qc /\ Forall2 (about_middle k) vs l) <-> m <> arrow).
Proof. exact (centred arc m v cs). Qed.
Print Assumptions C74_centred_partial.
(** Each marker has the shape of its type, turned by its angle. *)
Theorem C74_shapes {angle shape position axis_t} arc (styled : mpath -> shape) (turned : angle -> shape -> shape) (aligned : position -> shape -> res shape)
    types angles (axis : option axis_t) ps l :
  generate_markers arc styled turned aligned types angles axis ps = Ok l ->
  length l = length ps /\ forall i p, nth_error ps i = Some p ->
  exists s t a q, nth_error l i = Some s /\ value_at types i t /\ angle_at angles i a /\ path_of arc t = Ok q /\
    (axis = None -> s = turned a (styled q)) /\ (axis <> None -> aligned p (turned a (styled q)) = Ok s).
Proof. exact (shapes arc styled turned aligned types angles axis ps l). Qed.
Print Assumptions C74_shapes.
Theorem C74_shapes_exist {angle shape position axis_t} arc (styled : mpath -> shape) (turned : angle -> shape -> shape) (aligned : position -> shape -> res shape)
    types angles (ps : list position) : arcs_defined arc ->
  (forall i, i < length ps -> exists t, value_at types i t /\ known t) -> (forall i, i < length ps -> exists a, angle_at angles i a) ->
  exists l, generate_markers arc styled turned aligned types angles (@None axis_t) ps = Ok l.
Proof. exact (shapes_exist arc styled turned aligned types angles ps). Qed.
Print Assumptions C74_shapes_exist.
(** One type for all in an array is refused, though one angle for all is not. *)
Theorem C74_one_type_refuted {angle shape position axis_t} arc (styled : mpath -> shape) (turned : angle -> shape -> shape) (aligned : position -> shape -> res shape)
    l angles (ps : list position) : length l < length ps ->
  is_ok (generate_markers arc styled turned aligned (Each l) angles (@None axis_t) ps) = false.
Proof. exact (short_types arc styled turned aligned l angles ps). Qed.
Print Assumptions C74_one_type_refuted.

Definition C74_run types angles := generate_markers ex_arc (fun p => snd p) (fun (a : nat) s => skipn a s) (fun (p : nat) s => Ok s) types angles (@None nat) [7; 8].
Example C74_case : arcs_defined ex_arc /\ arcs_inside ex_arc /\ arcs_end ex_arc /\ known 3 /\ ~ known 13 /\
  C74_run (Each [3; 4]%Z) (Each [1; 2]) = Ok [[LINETO; LINETO; LINETO]; [LINETO; LINETO]] /\
  C74_run (Each [3]%Z) (One 1) = Err TypeError /\ C74_run (One 3%Z) (Each [1]) = Ok [[LINETO; LINETO; LINETO]; [LINETO; LINETO; LINETO]] /\
  C74_run (One 13%Z) (One 1) = Err KeyError.
Proof.
  split; [intros c r x lg sw e _ _ _; eexists; reflexivity|]. split.
  { intros c r x lg sw e p l C E _ G. injection G as <- <-. auto. }
  split; [intros c r x lg sw e p l G; injection G as <- <-; exists [], (c, e, e); auto|].
  split; [unfold known; lia|]. split; [unfold known; lia|]. repeat split; vm_compute; reflexivity.
Qed.

(** A marker does not face the axis given: any two axes give the same. *)
Theorem C75_axis_refuted {angle shape position axis_t} arc (styled : mpath -> shape) (turned : angle -> shape -> shape) (aligned : position -> shape -> res shape)
    types angles (a b : axis_t) (ps : list position) :
  generate_markers arc styled turned aligned types angles (Some a) ps = generate_markers arc styled turned aligned types angles (Some b) ps.
Proof. exact (axis_ignored arc styled turned aligned types angles a b ps). Qed.
Print Assumptions C75_axis_refuted.
Example C75_case : (0, 0, 1) <> (1, 0, 0).
Proof. discriminate. Qed.
