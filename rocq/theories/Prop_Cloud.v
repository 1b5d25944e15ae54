(** C85: cropping and thinning clouds of points. *)
From Coq Require Import QArith Qcanon.
From Verif Require Import Base Cloud CloudSpec CloudFacts.
Local Open Scope nat_scope.

(** Cropping keeps, in order and each with its colour, the points strictly inside the
    bounds given, and of those only the ones that are not farthest out on a side without
    a bound. *)
Theorem C85_crop_partial {C} ps (cs : list C) b ps' cs' : crop ps cs b = Ok (ps', cs') ->
  length cs = length ps /\ length cs' = length ps' /\ kept (fun pc => within b (fst pc) /\ inner b ps (fst pc)) (combine ps cs) (combine ps' cs').
Proof. exact (crop_kept ps cs b ps' cs'). Qed.
Print Assumptions C85_crop_partial.
Theorem C85_crop_succeeds {C} ps (cs : list C) b : length cs = length ps -> ps <> [] \/ all_given b -> exists r, crop ps cs b = Ok r.
Proof. exact (crop_succeeds ps cs b). Qed.
Print Assumptions C85_crop_succeeds.
(** A bound left out is not "no bound": some point is always lost, and there must be a
    point. *)
Theorem C85_no_bound_refuted {C} ps (cs : list C) b ps' cs' a : crop ps cs b = Ok (ps', cs') -> ps <> [] -> lo b a = None \/ hi b a = None -> length ps' < length ps.
Proof. exact (some_lost ps cs b ps' cs' a). Qed.
Print Assumptions C85_no_bound_refuted.
Theorem C85_empty_refuted {C} (cs : list C) b a : lo b a = None \/ hi b a = None -> crop [] cs b = Err ValueError.
Proof. exact (crop_empty cs b a). Qed.
Print Assumptions C85_empty_refuted.
(** Thinning gives as many points as wished, if there are, each once and with its
    colour. *)
Theorem C85_thinned {C} choose ps (cs : list C) w : chooses choose -> length cs = length ps -> (0 <= w)%Z ->
  exists ps' cs' idx, downsample choose ps cs (Some w) = Ok (ps', cs') /\ BinInt.Z.of_nat (length ps') = BinInt.Z.min w (BinInt.Z.of_nat (length ps)) /\
  NoDup idx /\ Forall2 (fun i p => nth_error ps i = Some p) idx ps' /\ Forall2 (fun i c => nth_error cs i = Some c) idx cs'.
Proof. exact (thinned choose ps cs w). Qed.
Print Assumptions C85_thinned.

Example C85_case : let ps := [(qc 0, qc 1, qc 0); (qc 1, qc 2, qc 5); (qc 2, qc 3, qc 9); (qc 9, qc 0, qc 1)] in
  let b := mkBounds (fun a => match a with X => Some (qc 0) | _ => None end) (fun _ => None) in
  crop ps ["a"; "b"; "c"; "d"]%string b = Ok ([(qc 1, qc 2, qc 5)], ["b"]%string) /\
  crop ps ["a"]%string b = Err IndexError.
Proof. split; vm_compute; reflexivity. Qed.
Example C85_choice : chooses (fun n k => seq 0 k).
Proof. intros n k H. split; [apply seq_length|]. split; [apply seq_NoDup|]. intros i I. apply in_seq in I. lia. Qed.
