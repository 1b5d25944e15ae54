(** C120: the point cloud example as a whole. *)
From Coq Require Import QArith Qcanon Reals Lra.
From Verif Require Import Base Measure Viewport ViewportSpec Glm GlmSpec Vec VecSpec Render RenderSpec Cloud CloudSpec CloudFacts Picture PictureSpec PictureFacts Terrain TerrainSpec TerrainFacts.
Local Open Scope nat_scope.

(** The points shown are points of the file inside the bounds, each once, at the place the
    camera gives it and with its own colour: all of them, or as many as wished if there are
    more.  Of two points the nearer is drawn first, as Pixels does (C104_pixels_refuted). *)
Theorem C120_shown choose argsort code b w ps cs v model view proj : chooses choose -> sorts_numbers argsort -> usable v ->
  length cs = length ps -> ps <> [] \/ all_given b -> (0 <= w)%Z ->
  exists idx out all, terrain choose argsort code b (Some w) (mkArchive (Some ps) (Some cs)) v model view proj = Ok out /\
    NoDup all /\ (forall i, In i all <-> selected b ps i) /\
    NoDup idx /\ incl idx all /\ BinInt.Z.of_nat (length idx) = BinInt.Z.min w (BinInt.Z.of_nat (length all)) /\
    map Some out = map (shown_point code ps cs v model view proj) idx /\
    covers (depth_in (fun p => option_map Ropp (depth (clip model view proj p))) (map vertex ps)) idx.
Proof. exact (terrain_shown choose argsort code b w ps cs v model view proj). Qed.
Print Assumptions C120_shown.
(** Colours are shares between 0 and 1, in the order of the bytes. *)
Theorem C120_colors : (forall z, (0 <= z <= 255)%Z -> (Q2Qc 0 <= share z)%Qc /\ (share z <= Q2Qc 1)%Qc) /\
  (share 0 = Q2Qc 0 /\ share 255 = Q2Qc 1) /\ forall y z, (y < z)%Z -> (share y < share z)%Qc.
Proof. exact (conj share_range (conj share_ends share_grows)). Qed.
Print Assumptions C120_colors.
(** A file that lacks the positions or the colours is refused; with a side without a bound,
    as in the program, so is one without points. *)
Theorem C120_refused choose argsort code b w a v model view proj : a_pos a = None \/ a_color a = None ->
  terrain choose argsort code b w a v model view proj = Err KeyError.
Proof. exact (lacking_refused choose argsort code b w a v model view proj). Qed.
Print Assumptions C120_refused.
Theorem C120_empty_refuted choose argsort code w cs v model view proj :
  terrain choose argsort code program_bounds w (mkArchive (Some []) (Some cs)) v model view proj = Err ValueError.
Proof. exact (empty_refused choose argsort code w cs v model view proj). Qed.
Print Assumptions C120_empty_refuted.

Definition cloud_ex : list pt := [(qc 0, qc 1, qc 0); (qc 0, qc 2, qc 0); (qc 1, qc 3, qc 0); (qc 0, qc 5, qc 0); (Q2Qc (1 # 20), qc 3, Q2Qc (1 # 30))].
(** Of these five points, two are strictly inside; one is shown if one is wished. *)
Example C120_case : chooses (fun n k => seq 0 k) /\ sorts_numbers sort_nums /\
  crop cloud_ex ["a"; "b"; "c"; "d"; "e"]%string program_bounds = Ok ([(qc 0, qc 2, qc 0); (Q2Qc (1 # 20), qc 3, Q2Qc (1 # 30))], ["b"; "e"]%string) /\
  selected program_bounds cloud_ex 1 /\ ~ selected program_bounds cloud_ex 2.
Proof. exact terrain_case. Qed.
