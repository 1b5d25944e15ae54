(** Proofs for C41-C43 and C57. *)
From Verif Require Import Base Svg SvgSpec.
From Coq Require Import Field.
Local Open Scope nat_scope.

Ltac bnd H :=
  match type of H with
  | bind ?x _ = Ok _ => let E := fresh "E" in destruct x eqn:E; cbn [bind] in H; [| discriminate H]
  end.

Lemma next_ok es x r : next es = Ok (x, r) -> es = Num x :: r.
Proof. destruct es as [|[?|y] t]; cbn; try discriminate. intros E; injection E as -> ->; reflexivity. Qed.
Lemma next_pos_ok es p r : next_pos es = Ok (p, r) -> es = Num (fst p) :: Num (snd p) :: r.
Proof.
  unfold next_pos. destruct (next es) as [[x t]|] eqn:A; cbn [bind fst snd]; [|discriminate].
  destruct (next t) as [[y u]|] eqn:B; cbn [bind fst snd]; [|discriminate].
  intros E. injection E as <- <-. apply next_ok in A, B. cbn. congruence.
Qed.
Lemma peqb_eq a b : peqb a b = true <-> a = b.
Proof.
  destruct a as [x y], b as [u v]; unfold peqb; cbn. rewrite andb_true_iff. split.
  - intros [E F]. apply Qc_eq_bool_correct in E, F. congruence.
  - intros E. injection E as -> ->. assert (K : forall z, Qc_eq_bool z z = true).
    { intros z. unfold Qc_eq_bool. destruct (Qc_eq_dec z z); congruence. }
    rewrite !K. auto.
Qed.
Lemma peqb_refl a : peqb a a = true. Proof. now apply peqb_eq. Qed.

(** The states reached: the command is never closepath, and the control points
    are known after curves. *)
Definition reached (s : state) : Prop :=
  cmd s <> Some LZ /\
  ((cmd s = Some LC \/ cmd s = Some LS) -> ctrl2 s <> None) /\
  ((cmd s = Some LQ \/ cmd s = Some LT) -> ctrl s <> None).
Lemma reached_initial p : reached (initial p).
Proof. unfold reached; cbn. intuition congruence. Qed.

Section Parse.
Variable arc : point -> point -> Qc -> Qc -> Qc -> point -> res (point * list (point * point * point)).
Notation run := (run arc).
Notation step := (step arc).
Notation parse := (parse arc).

Ltac nxt :=
  repeat match goal with
  | H : next _ = Ok _ |- _ => apply next_ok in H
  | H : next_pos _ = Ok _ |- _ => apply next_pos_ok in H
  | p : (_ * list elt)%type |- _ => destruct p
  end; cbn [fst snd] in *; subst.

Lemma run_ok c last s es o s' r :
  run c last s es = Ok (o, s', r) ->
  length r <= length es /\ (c <> LZ -> length r < length es) /\ reached s' /\
  length (fst o) = length (snd o) /\ (forall k, grouped k -> grouped (fst o ++ k)).
Proof.
  unfold Svg.run. intros H. cbv zeta in H.
  assert (U : forall c, c <> LZ -> c <> LC -> c <> LS -> c <> LQ -> c <> LT -> forall x y a d e, reached (mkSt x y (Some c) a d e)).
  { intros k; intros. unfold reached; cbn. intuition congruence. }
  destruct c; [|destruct (start s) as [q|]; [destruct (at_start _ _)|discriminate H]|..];
  repeat bnd H;
  try (destruct (peqb _ _) in H; [|destruct (Qc_eq_bool _ _ || Qc_eq_bool _ _)%bool in H; [|bnd H]]);
  injection H as <- <- <-; nxt; cbn [length fst snd];
  (split; [|split; [|split; [|split]]]); try (intros; lia);
  try (apply U; discriminate);
  try (unfold reached; cbn; intuition congruence);
  try (intros; repeat constructor; assumption).
  - destruct a4 as [v g]. unfold arc_codes, arc_verts. cbn [fst snd length]. f_equal.
    clear. induction g; cbn; congruence.
  - intros k K. destruct a4 as [v g]. unfold arc_codes. cbn [fst snd app]. constructor.
    clear -K. induction g; cbn; [assumption|now constructor].
Qed.

Lemma step_ok s es o s' r :
  reached s -> step s es = Ok (o, s', r) ->
  length r < length es /\ reached s' /\ length (fst o) = length (snd o) /\ (forall k, grouped k -> grouped (fst o ++ k)).
Proof.
  intros R. unfold Svg.step.
  assert (I : match cmd s with None => Err ValueError | Some l => run l (cmd s) s es end = Ok (o, s', r) ->
     length r < length es /\ reached s' /\ length (fst o) = length (snd o) /\ (forall k, grouped k -> grouped (fst o ++ k))).
  { destruct (cmd s) as [l|] eqn:E; [|discriminate]. intros H. apply run_ok in H as (_ & A & B & C & D).
    destruct R as (N & _). repeat split; auto; try apply B. apply A. intros ->. apply N. assumption. }
  destruct es as [|[l ab|x] t]; try assumption.
  intros H. apply run_ok in H as (A & _ & B & C & D). cbn [length]. repeat split; auto; try apply B. lia.
Qed.

Lemma parse_fuel es : forall f s, reached s -> length es <= f -> parse f s es = parse (length es) s es.
Proof.
  induction es as [es IH] using (well_founded_induction (well_founded_ltof _ (@length elt))).
  intros f s R L. destruct es as [|e es]; [destruct f; reflexivity|].
  cbn [length] in *. destruct f as [|f]; [lia|]. cbn [Svg.parse length].
  destruct (step s (e :: es)) as [[[o s'] r]|x] eqn:E; [|reflexivity]. cbn [bind fst snd].
  destruct (step_ok _ _ _ _ _ R E) as (K & R' & _). cbn [length] in K.
  assert (B : ltof _ (@length elt) r (e :: es)) by (unfold ltof; cbn [length]; lia).
  rewrite (IH r B f s' R') by lia. rewrite (IH r B (length es) s' R') by lia.
  reflexivity.
Qed.
Definition parse_all (s : state) (es : list elt) : res out := parse (length es) s es.
Definition cat (a : out) (b : out) : out := ((fst a ++ fst b)%list, (snd a ++ snd b)%list).
Lemma parse_all_nil s : parse_all s [] = Ok ([], []). Proof. reflexivity. Qed.
Lemma parse_all_step s es :
  es <> [] -> reached s ->
  parse_all s es = let* r := step s es in let* o := parse_all (snd (fst r)) (snd r) in Ok (cat (fst (fst r)) o).
Proof.
  intros N R. unfold parse_all at 1. destruct es as [|e es]; [congruence|]. cbn [length Svg.parse].
  destruct (step s (e :: es)) as [[[o s'] r]|x] eqn:E; [|reflexivity]. cbn [bind fst snd].
  destruct (step_ok _ _ _ _ _ R E) as (K & R' & _). cbn [length] in K.
  rewrite (parse_fuel r) by (try assumption; lia). reflexivity.
Qed.

(** ** C41 *)
Lemma parse_well_formed f : forall s es cs vs,
  reached s -> parse f s es = Ok (cs, vs) -> length cs = length vs /\ grouped cs.
Proof.
  induction f as [|f IH]; intros s es cs vs R H; destruct es as [|e es]; cbn [Svg.parse] in H;
    try (injection H as <- <-; split; [reflexivity|constructor]); try discriminate.
  destruct (step s (e :: es)) as [[[o s'] r]|] eqn:E; cbn [bind fst snd] in H; [|discriminate].
  destruct (parse f s' r) as [[cs' vs']|] eqn:E0; cbn [bind fst snd] in H; [|discriminate].
  injection H as <- <-. destruct (step_ok _ _ _ _ _ R E) as (_ & R' & A & B).
  destruct (IH _ _ _ _ R' E0) as [C D]. split; [rewrite !app_length; congruence|auto].
Qed.
Lemma parse_path_well_formed es p cs vs :
  parse_path arc es p = Ok (cs, vs) -> length cs = length vs /\ grouped cs.
Proof. apply parse_well_formed, reached_initial. Qed.

Definition usual (x : exn) : Prop := x = ValueError \/ x = IndexError \/ x = TypeError \/ x = AttributeError.
Lemma next_err es x : next es = Err x -> usual x.
Proof. unfold usual. destruct es as [|[?|?] ?]; cbn; intros E; try discriminate; injection E as <-; auto. Qed.
Lemma next_pos_err es x : next_pos es = Err x -> usual x.
Proof.
  unfold next_pos. destruct (next es) as [[a t]|y] eqn:E; cbn [bind fst snd].
  - destruct (next t) as [[b u]|y] eqn:F; cbn [bind]; [discriminate|]. intros K; injection K as <-. eapply next_err; eauto.
  - intros K; injection K as <-. eapply next_err; eauto.
Qed.
Definition arc_raises (x : exn) : Prop := exists c r a l w e, arc c r a l w e = Err x.
Ltac bnde H :=
  match type of H with
  | bind ?y _ = Err _ =>
      let E := fresh "E" in destruct y eqn:E; cbn [bind] in H;
      [| injection H as <-;
         first [left; first [eapply next_err; eassumption | eapply next_pos_err; eassumption]
               | right; unfold arc_raises; eauto 10; fail | idtac]]
  end.
Lemma run_err c s0 s es x :
  run c (cmd s0) s es = Err x -> reached s0 -> ctrl s = ctrl s0 -> ctrl2 s = ctrl2 s0 -> usual x \/ arc_raises x.
Proof.
  intros H (N & R2 & R1) E1 E2. unfold Svg.run in H. cbv zeta in H.
  assert (U : usual TypeError) by (unfold usual; auto).
  destruct c; try (match type of H with match start s with _ => _ end = _ => idtac end;
       destruct (start s); [discriminate|injection H as <-; left; unfold usual; auto]).
  all: repeat bnde H; try discriminate; try (solve [auto]).
  - destruct (cmd s0) as [[]|]; try discriminate; try (injection E as <-; auto);
      (destruct (ctrl2 s) eqn:K; [discriminate|exfalso; rewrite E2 in K; apply R2; auto]).
  - destruct (cmd s0) as [[]|]; try discriminate; try (injection E as <-; auto);
      (destruct (ctrl s) eqn:K; [discriminate|exfalso; rewrite E1 in K; apply R1; auto]).
  - destruct (peqb _ _); [discriminate|]. destruct (_ || _)%bool; [discriminate|].
    repeat bnde H. discriminate.
Qed.
Lemma step_err s es x : reached s -> step s es = Err x -> usual x \/ arc_raises x.
Proof.
  intros R. unfold Svg.step.
  assert (I : match cmd s with None => Err ValueError | Some l => run l (cmd s) s es end = Err x -> usual x \/ arc_raises x).
  { destruct (cmd s) as [l|] eqn:E.
    - intros H. rewrite <- E in H. eapply run_err; eauto.
    - intros H; injection H as <-. left; unfold usual; auto. }
  destruct es as [|[l ab|y] t]; try assumption. intros H. eapply run_err; eauto.
Qed.
Lemma parse_err es : forall s x, reached s -> parse_all s es = Err x -> usual x \/ arc_raises x.
Proof.
  induction es as [es IH] using (well_founded_induction (well_founded_ltof _ (@length elt))).
  intros s x R H. destruct es as [|e es]; [discriminate|].
  rewrite parse_all_step in H by (try assumption; discriminate).
  destruct (step s (e :: es)) as [[[o s'] r]|y] eqn:E; cbn [bind fst snd] in H.
  - destruct (step_ok _ _ _ _ _ R E) as (K & R' & _).
    destruct (parse_all s' r) as [q|y] eqn:F; cbn [bind] in H; [discriminate|]. injection H as <-.
    eapply IH with (y := r); eauto.
  - injection H as <-. eapply step_err; eauto.
Qed.
Lemma parse_path_errors es p x : parse_path arc es p = Err x -> usual x \/ arc_raises x.
Proof. apply parse_err, reached_initial. Qed.
End Parse.

(** ** C42 *)
Section Relative.
Variable arc : point -> point -> Qc -> Qc -> Qc -> point -> res (point * list (point * point * point)).
Notation run := (Svg.run arc).
Notation step := (Svg.step arc).
Notation parse_all := (parse_all arc).

Lemma step_written s i k : step s (written i ++ k) = run (letter_of (fst i)) (cmd s) (setabs s (snd i)) (args (fst i) ++ k).
Proof. reflexivity. Qed.
Lemma run_shift o last s k :
  relabel (run (letter_of o) last (setabs s false) (args o ++ k)) =
  run (letter_of o) last (setabs s true) (args (shift (cur s) o) ++ k).
Proof.
  destruct o; try reflexivity.
  - cbn. destruct (start s) as [q|]; [|reflexivity]. destruct (peqb (cur s) q); reflexivity.
  - cbn. destruct last as [[]|]; try reflexivity; destruct (ctrl2 s); reflexivity.
  - cbn. destruct last as [[]|]; try reflexivity; destruct (ctrl s); reflexivity.
  - cbn. unfold rel, padd. cbn. match goal with |- context [peqb ?a ?b] => destruct (peqb a b) end; [reflexivity|].
    destruct (_ || _)%bool; [reflexivity|].
    match goal with |- context [arc ?a ?b ?c ?d ?e ?f] => destruct (arc a b c d e f) as [[v g]|] end; reflexivity.
Qed.
Lemma run_abs o last s k :
  relabel (run (letter_of o) last (setabs s true) (args o ++ k)) = run (letter_of o) last (setabs s true) (args o ++ k).
Proof.
  destruct o; try reflexivity.
  - cbn. destruct (start s) as [q|]; reflexivity.
  - cbn. destruct last as [[]|]; try reflexivity; destruct (ctrl2 s); reflexivity.
  - cbn. destruct last as [[]|]; try reflexivity; destruct (ctrl s); reflexivity.
  - cbn. match goal with |- context [peqb ?a ?b] => destruct (peqb a b) end; [reflexivity|].
    destruct (_ || _)%bool; [reflexivity|].
    match goal with |- context [arc ?a ?b ?c ?d ?e ?f] => destruct (arc a b c d e f) as [[v g]|] end; reflexivity.
Qed.
Lemma letter_shift c o : letter_of (shift c o) = letter_of o. Proof. destruct o; reflexivity. Qed.
(** Where an operation leaves the current point and the start. *)
Lemma run_ends o last s k out' s' r st :
  run (letter_of o) last (setabs s true) (args o ++ k) = Ok (out', s', r) ->
  (forall q, start s = Some q -> q = st) ->
  r = k /\ cur s' = ends (cur s) st o /\ (forall q, start s' = Some q -> q = starts st o).
Proof.
  intros H N.
  assert (G : forall s1 o1, cur s1 = ends (cur s) st o -> start s1 = start s -> starts st o = st -> Ok (o1, s1, k) = Ok (out', s', r) ->
     r = k /\ cur s' = ends (cur s) st o /\ (forall q, start s' = Some q -> q = starts st o)).
  { intros s1 o1 A B C E. injection E as _ <- <-. rewrite B, C. auto. }
  destruct o; repeat match goal with p : point |- _ => destruct p end; try (eapply G; [| | |exact H]; reflexivity).
  - injection H as _ <- <-. cbn. intuition congruence.
  - cbn in H. destruct (start s) as [z|] eqn:E; [|discriminate]. injection H as _ <- <-. cbn.
    specialize (N z eq_refl). subst. intuition congruence.
  - cbn in H. destruct last as [[]|]; try discriminate; try (eapply G; [| | |exact H]; reflexivity);
      destruct (ctrl2 s); try discriminate; (eapply G; [| | |exact H]; reflexivity).
  - cbn in H. destruct last as [[]|]; try discriminate; try (eapply G; [| | |exact H]; reflexivity);
      destruct (ctrl s); try discriminate; (eapply G; [| | |exact H]; reflexivity).
  - cbn in H.
    match type of H with context [peqb ?a ?b] => destruct (peqb a b) eqn:P end.
    { apply peqb_eq in P. (eapply G; [| | |exact H]); cbn; auto. }
    destruct (_ || _)%bool in H; [(eapply G; [| | |exact H]; reflexivity)|].
    match type of H with context [arc ?a ?b ?c ?d ?e ?f] => destruct (arc a b c d e f) as [[v g]|] end;
      [cbn in H; eapply G; [| | |exact H]; reflexivity|discriminate].
Qed.
(** An operation consumes exactly its arguments. *)
Lemma run_args o last s : exists r : res (out * state), forall k,
  run (letter_of o) last s (args o ++ k) = match r with Ok p => Ok (p, k) | Err x => Err x end.
Proof.
  destruct o; cbn.
  1, 3-6, 8: eexists (Ok _); reflexivity.
  - destruct (start s); [eexists (Ok _)|exists (Err AttributeError)]; reflexivity.
  - destruct last as [[]|]; try (destruct (ctrl2 s));
      first [eexists (Ok _); reflexivity|eexists (Err _); reflexivity].
  - destruct last as [[]|]; try (destruct (ctrl s));
      first [eexists (Ok _); reflexivity|eexists (Err _); reflexivity].
  - destruct (peqb _ _); [eexists (Ok _); reflexivity|].
    destruct (_ || _)%bool; [eexists (Ok _); reflexivity|].
    match goal with |- context [arc ?a ?b ?c ?d ?e ?f] => destruct (arc a b c d e f) as [[v g]|] end;
      [eexists (Ok _); reflexivity|eexists (Err _); reflexivity].
Qed.
Definition same (s t : state) : Prop := setabs s true = setabs t true.

Lemma relative_absolute l : forall s t st,
  same s t -> reached s -> (forall q, start s = Some q -> q = st) ->
  parse_all s (path l) = parse_all t (path (map absolutely (absolutes (cur s) st l))).
Proof.
  induction l as [|[o ab] l IH]; intros s t st E R N; [reflexivity|].
  assert (Rt : reached t).
  { unfold same, setabs in E. destruct s, t; cbn in *. injection E as -> -> -> -> ->. exact R. }
  assert (Ec : cmd s = cmd t) by (unfold same, setabs in E; congruence).
  cbn [absolutes map path concat]. fold (path l).
  set (o' := if ab then o else shift (cur s) o).
  fold (path (map absolutely (absolutes (ends (cur s) st o') (starts st o') l))).
  rewrite !parse_all_step by (try assumption; cbn; discriminate).
  rewrite !step_written. cbn [fst snd absolutely].
  rewrite <- Ec. replace (setabs t true) with (setabs s true) by exact E.
  set (k' := path (map absolutely (absolutes (ends (cur s) st o') (starts st o') l))).
  assert (K : forall k, relabel (run (letter_of o) (cmd s) (setabs s ab) (args o ++ k)) =
              run (letter_of o') (cmd s) (setabs s true) (args o' ++ k)).
  { intros k. subst o'. destruct ab; [apply run_abs|]. rewrite letter_shift. apply run_shift. }
  destruct (run_args o' (cmd s) (setabs s true)) as [rr RR].
  specialize (K (path l)).
  destruct (run (letter_of o) (cmd s) (setabs s ab) (args o ++ path l)) as [[[o1 s1] r1]|x] eqn:A;
    cbn [relabel] in K; symmetry in K.
  - destruct (run_ends _ _ _ _ _ _ _ st K N) as (-> & C & D).
    rewrite RR in K |- *. destruct rr as [[o2 s2]|]; [|discriminate]. injection K as -> ->. cbn [bind fst snd]. subst k'.
    cbn [setabs cur] in C. rewrite <- C.
    destruct (run_ok _ _ _ _ _ _ _ _ A) as (_ & _ & R1 & _).
    rewrite (IH s1 (setabs s1 true) (starts st o')); [reflexivity|reflexivity|assumption|exact D].
  - rewrite RR in K |- *. destruct rr; [discriminate|]. injection K as ->. reflexivity.
Qed.
Lemma relative_same_path l p :
  parse_path arc (path l) p = parse_path arc (path (map absolutely (absolutes p p l))) p.
Proof. apply (relative_absolute l (initial p) (initial p) p); [reflexivity|apply reached_initial|discriminate]. Qed.

(** ** Letters left out *)
Lemma implicit_step s l ab x es : cmd s = Some l -> absol s = ab -> step s (Num x :: es) = step s (Cmd l ab :: Num x :: es).
Proof. intros A B. unfold Svg.step. rewrite A. rewrite <- B. destruct s; cbn in *. subst. reflexivity. Qed.
Lemma args_num o : letter_of o <> LZ -> exists x r, args o = Num x :: r.
Proof. destruct o; cbn; try congruence; unfold two; cbn; eauto. Qed.
Lemma run_cmd c last s es o s' r : run c last s es = Ok (o, s', r) -> c <> LZ -> cmd s' = Some (follow c) /\ absol s' = absol s.
Proof.
  unfold Svg.run. intros H N. cbv zeta in H. destruct c; try congruence; repeat bnd H;
  try (destruct (peqb _ _) in H; [|destruct (Qc_eq_bool _ _ || Qc_eq_bool _ _)%bool in H; [|bnd H]]);
  injection H as <- <- <-; split; reflexivity.
Qed.
Lemma more_implicit os : forall s l ab k1 k2,
  cmd s = Some l -> absol s = ab -> reached s -> l <> LM -> Forall (fun o => letter_of o = l /\ letter_of o <> LZ) os ->
  (forall s', reached s' -> parse_all s' k1 = parse_all s' k2) ->
  parse_all s (concat (map args os) ++ k1) = parse_all s (concat (map (fun o => written (o, ab)) os) ++ k2).
Proof.
  induction os as [|o os IH]; intros s l ab k1 k2 A B R NM F K; [now apply K|].
  apply Forall_cons_iff in F as [[E N] F]. cbn [map concat]. rewrite <- !app_assoc.
  destruct (args_num o N) as (x & r & X).
  rewrite !parse_all_step by (try assumption; rewrite ?X; discriminate).
  rewrite step_written. cbn [fst snd].
  assert (Q : forall k, step s (args o ++ k) = run (letter_of o) (cmd s) (setabs s ab) (args o ++ k)).
  { intros k. rewrite X. cbn [app]. rewrite (implicit_step _ _ _ _ _ A B). rewrite E. reflexivity. }
  rewrite Q. destruct (run_args o (cmd s) (setabs s ab)) as [rr RR].
  pose proof (RR (concat (map args os) ++ k1))%list as Z. rewrite !RR.
  destruct rr as [[o1 s1]|]; [|reflexivity]. cbn [bind fst snd].
  destruct (run_ok _ _ _ _ _ _ _ _ Z) as (_ & _ & R1 & _).
  destruct (run_cmd _ _ _ _ _ _ _ Z N) as [C1 C2].
  rewrite (IH s1 l ab k1 k2); try assumption; [reflexivity|].
  rewrite C1, E. destruct l; try reflexivity; congruence.
Qed.
Lemma implicit_letters ks : forall s,
  Forall (fun k => Forall (kindred (first k)) (more k)) ks -> reached s ->
  parse_all s (concat (map implicitly ks)) = parse_all s (concat (map explicitly ks)).
Proof.
  induction ks as [|[o ab os] ks IH]; intros s F R; [reflexivity|].
  apply Forall_cons_iff in F as [G F]. cbn [first more] in G.
  cbn [map concat]. unfold implicitly at 1, explicitly at 1. cbn [first is_abs more].
  rewrite <- !app_assoc. rewrite !parse_all_step by (try assumption; discriminate).
  rewrite !step_written. cbn [fst snd].
  destruct (run_args o (cmd s) (setabs s ab)) as [rr RR].
  pose proof (RR (concat (map args os) ++ concat (map implicitly ks)))%list as Z. rewrite !RR.
  destruct rr as [[o1 s1]|]; [|reflexivity]. cbn [bind fst snd].
  destruct (run_ok _ _ _ _ _ _ _ _ Z) as (_ & _ & R1 & _).
  destruct os as [|o2 os].
  - cbn [map concat app]. rewrite IH by assumption. reflexivity.
  - assert (N : letter_of o <> LZ).
    { intros N. apply Forall_cons_iff in G as [[G1 G2] _]. rewrite N in G1. apply G2. exact G1. }
    destruct (run_cmd _ _ _ _ _ _ _ Z N) as [C1 C2].
    rewrite (more_implicit (o2 :: os) s1 (follow (letter_of o)) ab _ (concat (map explicitly ks))); try assumption.
    + reflexivity.
    + destruct (letter_of o); discriminate.
    + intros s' R'. now apply IH.
Qed.
Lemma implicit_same_path ks p :
  Forall (fun k => Forall (kindred (first k)) (more k)) ks ->
  parse_path arc (concat (map implicitly ks)) p = parse_path arc (concat (map explicitly ks)) p.
Proof. intros F. apply (implicit_letters ks (initial p)); [assumption|apply reached_initial]. Qed.

(** ** What SVG says *)
Definition closed_next (l : list op) : Prop := match l with [] => True | MoveTo _ :: _ => True | _ => False end.
Fixpoint reopened (l : list op) : Prop :=
  match l with [] => True | Close :: r => closed_next r /\ reopened r | _ :: r => reopened r end.
Lemma absolutes_reopened l : forall c s, move_after_close l -> reopened (absolutes c s l).
Proof.
  induction l as [|[o ab] l IH]; intros c s M; [exact I|]. cbn [absolutes].
  destruct o; try (destruct ab; cbn in *; apply IH; exact M).
  destruct M as [A B]. assert (K : forall c s, closed_next (absolutes c s l)).
  { intros c' s'. destruct l as [|[[] [|]] l]; try contradiction; exact I. }
  destruct ab; cbn; split; auto.
Qed.
Definition drawing (s : state) (st : point) (cc qc : option point) : Prop :=
  start s = Some st /\
  exists l, cmd s = Some l /\
  cc = match l with LC | LS => ctrl2 s | _ => None end /\ qc = match l with LQ | LT => ctrl s | _ => None end.
Lemma cat_pre cs vs r : (let* o := r in Ok (cat (cs, vs) o)) = pre cs vs r.
Proof. destruct r; reflexivity. Qed.
Lemma draw_spec l : forall s st cc qc,
  reached s -> reopened l -> (drawing s st cc qc \/ closed_next l) ->
  parse_all s (path (map absolutely l)) = draw arc (cur s) st cc qc l.
Proof.
  induction l as [|o l IH]; intros s st cc qc R M D; [reflexivity|].
  change (path (map absolutely (o :: l))) with (written (o, true) ++ path (map absolutely l))%list.
  rewrite parse_all_step by (try assumption; discriminate). rewrite step_written. cbn [fst snd].
  destruct (run_args o (cmd s) (setabs s true)) as [rr RR].
  pose proof (RR (path (map absolutely l))) as Z.
  assert (M' : reopened l) by (destruct o; cbn in M; try exact M; apply M).
  assert (G : forall o1 s1 st' cc' qc',
    run (letter_of o) (cmd s) (setabs s true) (args o ++ path (map absolutely l)) = Ok (o1, s1, path (map absolutely l)) ->
    (drawing s1 st' cc' qc' \/ closed_next l) ->
    (let* r := run (letter_of o) (cmd s) (setabs s true) (args o ++ path (map absolutely l)) in
     let* o0 := parse_all (snd (fst r)) (snd r) in Ok (cat (fst (fst r)) o0)) =
    pre (fst o1) (snd o1) (draw arc (cur s1) st' cc' qc' l)).
  { intros o1 s1 st' cc' qc' E Dr. rewrite E. cbn [bind fst snd].
    destruct (run_ok _ _ _ _ _ _ _ _ E) as (_ & _ & R1 & _).
    rewrite (IH s1 st' cc' qc') by assumption. destruct o1. apply cat_pre. }
  clear Z RR rr.
  assert (Q : forall o1 s1 st' cc' qc' r,
    run (letter_of o) (cmd s) (setabs s true) (args o ++ path (map absolutely l)) = Ok (o1, s1, path (map absolutely l)) ->
    (drawing s1 st' cc' qc' \/ closed_next l) -> r = pre (fst o1) (snd o1) (draw arc (cur s1) st' cc' qc' l) ->
    (let* r := run (letter_of o) (cmd s) (setabs s true) (args o ++ path (map absolutely l)) in
     let* o0 := parse_all (snd (fst r)) (snd r) in Ok (cat (fst (fst r)) o0)) = r).
  { intros. subst r. eauto. }
  clear G.
  destruct o; repeat match goal with p : point |- _ => match p with st => fail 1 | _ => destruct p end end.
  { (* MoveTo *) eapply Q; [reflexivity| |reflexivity]. left. split; [reflexivity|]. exists LL. repeat split. }
  all: destruct D as [[D1 (lt & D2 & D3 & D4)]|D]; [|contradiction].
  { cbn in M. destruct M as [M _].
    cbn [draw]. destruct (peqb (cur s) st) eqn:P.
    - eapply Q; [cbn; rewrite D1; reflexivity|right; exact M|]. cbn. rewrite P. reflexivity.
    - eapply Q; [cbn; rewrite D1; reflexivity|right; exact M|]. cbn. rewrite P. reflexivity. }
  1-3: eapply Q; [reflexivity| |reflexivity]; left; (split; [exact D1|]); eexists; repeat split; fail.
  { eapply Q; [reflexivity| |reflexivity]. left. split; [exact D1|]. exists LC. repeat split. }
  { assert (U : run LS (cmd s) (setabs s true) (args (Smooth (q1, q2) (q, q0)) ++ path (map absolutely l)) =
       Ok (([CURVE4; CURVE4; CURVE4], [reflect (cur s) cc; (q1, q2); (q, q0)]),
           mkSt (q, q0) (start s) (Some LS) true (Some (q1, q2)) (ctrl s), path (map absolutely l))).
    { cbn. rewrite D2. destruct R as (_ & R2 & _). rewrite D2 in R2.
      destruct lt; subst cc; try reflexivity; cbn [reflect];
        (destruct (ctrl2 s) as [z|]; [reflexivity|exfalso; apply R2; auto]). }
    eapply Q; [exact U| |reflexivity]. left. split; [exact D1|]. exists LS. repeat split. }
  { eapply Q; [reflexivity| |reflexivity]. left. split; [exact D1|]. exists LQ. repeat split. }
  { assert (U : run LT (cmd s) (setabs s true) (args (SmoothQuad (q, q0)) ++ path (map absolutely l)) =
       Ok (([CURVE3; CURVE3], [reflect (cur s) qc; (q, q0)]),
           mkSt (q, q0) (start s) (Some LT) true (ctrl2 s) (Some (reflect (cur s) qc)), path (map absolutely l))).
    { cbn. rewrite D2. destruct R as (_ & _ & R2). rewrite D2 in R2.
      destruct lt; subst qc; try reflexivity; cbn [reflect];
        (destruct (ctrl s) as [z|]; [reflexivity|exfalso; apply R2; auto]). }
    eapply Q; [exact U| |reflexivity]. left. split; [exact D1|]. exists LT. repeat split. }
  { cbn [draw]. cbn [fst snd]. match goal with |- context [peqb ?a ?b] => destruct (peqb a b) eqn:P end.
    { eapply Q; [cbn; rewrite P; reflexivity| |]; [left; split; [exact D1|]; exists LA; repeat split|].
      cbn. apply peqb_eq in P. rewrite <- P. unfold pre. destruct (draw _ _ _ _ _ _) as [[? ?]|]; reflexivity. }
    match goal with |- context [(?a || ?b)%bool] => destruct (a || b)%bool eqn:Ra end.
    { eapply Q; [cbn; rewrite P; cbn in Ra; rewrite Ra; reflexivity| |]; [left; split; [exact D1|]; exists LA; repeat split|].
      reflexivity. }
    match goal with |- context [arc ?a ?b ?c ?d ?e ?f] => destruct (arc a b c d e f) as [[v g]|x] eqn:Ar end.
    { eapply Q; [cbn; rewrite P; cbn in Ra; rewrite Ra; rewrite Ar; reflexivity| |]; [left; split; [exact D1|]; exists LA; repeat split|].
      reflexivity. }
    cbn. rewrite P. cbn in Ra. rewrite Ra, Ar. reflexivity. }
Qed.
Lemma draws l p :
  svg_valid l -> move_after_close l -> parse_path arc (path l) p = draw arc p p None None (absolutes p p l).
Proof.
  intros V M. rewrite relative_same_path. apply (draw_spec _ (initial p)); [apply reached_initial|now apply absolutes_reopened|].
  right. destruct l as [|[[] [|]] l]; try contradiction; exact I.
Qed.
End Relative.

(** ** C57 *)
Section Closing.
Variable arc : point -> point -> Qc -> Qc -> Qc -> point -> res (point * list (point * point * point)).
Hypothesis arcs : arcs_end arc.

Lemma closed_curves g : forall m pen i t cs vs,
  g = (i ++ [t])%list -> closed_at_start m (snd t) cs vs ->
  closed_at_start m pen (concat (map (fun _ : point * point * point => [CURVE4; CURVE4; CURVE4]) g) ++ cs)
    (concat (map (fun t => [fst (fst t); snd (fst t); snd t]) g) ++ vs).
Proof.
  induction g as [|u g IH]; intros m pen i t cs vs E K; [destruct i; discriminate|].
  cbn [map concat app closed_at_start]. destruct i as [|u' i].
  - injection E as -> ->. exact K.
  - injection E as <- E. eapply IH; eauto.
Qed.
Lemma run_closed c last s es o s' r cs vs :
  Svg.run arc c last s es = Ok (o, s', r) -> closed_at_start (start s') (cur s') cs vs ->
  closed_at_start (start s) (cur s) (fst o ++ cs) (snd o ++ vs).
Proof.
  unfold Svg.run. intros H K. cbv zeta in H.
  destruct c; [|destruct (start s) as [q|] eqn:St; [destruct (at_start _ _) eqn:B|discriminate H]|..];
  repeat bnd H;
  try (destruct (peqb _ _) eqn:P in H; [|destruct (Qc_eq_bool _ _ || Qc_eq_bool _ _)%bool in H; [|bnd H]]);
  injection H as <- <- <-; cbn [fst snd app] in *; try exact K.
  - cbn [closed_at_start]. cbn in B. apply peqb_eq in B. repeat split; try assumption. 
  - cbn [closed_at_start]. repeat split; auto.
  - destruct a4 as [v g]. cbn [fst snd] in *. unfold arc_codes, arc_verts. cbn [app closed_at_start].
    destruct (arcs _ _ _ _ _ _ _ _ E4) as (i & t & G1 & G2).
    eapply closed_curves; [exact G1|]. rewrite G2. exact K.
Qed.
Lemma step_closed s es o s' r cs vs :
  Svg.step arc s es = Ok (o, s', r) -> closed_at_start (start s') (cur s') cs vs ->
  closed_at_start (start s) (cur s) (fst o ++ cs) (snd o ++ vs).
Proof.
  unfold Svg.step.
  assert (I : match cmd s with None => Err ValueError | Some l => Svg.run arc l (cmd s) s es end = Ok (o, s', r) ->
    closed_at_start (start s') (cur s') cs vs -> closed_at_start (start s) (cur s) (fst o ++ cs) (snd o ++ vs)).
  { destruct (cmd s); [|discriminate]. apply run_closed. }
  destruct es as [|[l ab|x] t]; try assumption. intros H K. apply (run_closed _ _ _ _ _ _ _ _ _ H K).
Qed.
Lemma parse_closed f : forall s es cs vs,
  Svg.parse arc f s es = Ok (cs, vs) -> closed_at_start (start s) (cur s) cs vs.
Proof.
  induction f as [|f IH]; intros s es cs vs H; destruct es as [|e es]; cbn [Svg.parse] in H;
    try (injection H as <- <-; exact I); try discriminate.
  destruct (Svg.step arc s (e :: es)) as [[[o s'] r]|] eqn:E; cbn [bind fst snd] in H; [|discriminate].
  destruct (Svg.parse arc f s' r) as [[cs' vs']|] eqn:E0; cbn [bind fst snd] in H; [|discriminate].
  injection H as <- <-. eapply step_closed; eauto.
Qed.
Lemma parse_path_closed es p cs vs : parse_path arc es p = Ok (cs, vs) -> closed_at_start None p cs vs.
Proof. apply (parse_closed _ (initial p)). Qed.
End Closing.

(** ** C43 *)
Local Open Scope Qc_scope.
Lemma qle_dec a b : Qcleb a b = true /\ a <= b \/ Qcleb a b = false /\ b < a.
Proof. unfold Qcleb. destruct (Qclt_le_dec b a); auto. Qed.
Lemma least_spec l : forall x, (forall y, In y (x :: l) -> least x l <= y) /\ In (least x l) (x :: l).
Proof.
  induction l as [|z l IH]; intros x; cbn [least].
  - split; [intros y [->|[]]; apply Qcle_refl|left; reflexivity].
  - destruct (IH (qmin x z)) as [A B].
    assert (M : qmin x z <= x /\ qmin x z <= z /\ (qmin x z = x \/ qmin x z = z)).
    { unfold qmin. destruct (qle_dec x z) as [[-> L]|[-> L]]; repeat split; auto using Qcle_refl, Qclt_le_weak. }
    destruct M as (M1 & M2 & M3). split.
    + intros y [<-|[<-|I]]; [eapply Qcle_trans; [apply A; left; reflexivity|assumption]..|apply A; now right].
    + destruct B as [B|B]; [|now right; right].
      rewrite <- B. destruct M3 as [->| ->]; [now left|now right; left].
Qed.
Lemma greatest_spec l : forall x, (forall y, In y (x :: l) -> y <= greatest x l) /\ In (greatest x l) (x :: l).
Proof.
  induction l as [|z l IH]; intros x; cbn [greatest].
  - split; [intros y [->|[]]; apply Qcle_refl|left; reflexivity].
  - destruct (IH (qmax x z)) as [A B].
    assert (M : x <= qmax x z /\ z <= qmax x z /\ (qmax x z = x \/ qmax x z = z)).
    { unfold qmax. destruct (qle_dec x z) as [[-> L]|[-> L]]; repeat split; auto using Qcle_refl, Qclt_le_weak. }
    destruct M as (M1 & M2 & M3). split.
    + intros y [<-|[<-|I]]; [eapply Qcle_trans; [|apply A; left; reflexivity]; assumption..|apply A; now right].
    + destruct B as [B|B]; [|now right; right].
      rewrite <- B. destruct M3 as [->| ->]; [now left|now right; left].
Qed.
Lemma coords_in l x : In x (coords l) <-> coordinate l x.
Proof.
  unfold coordinate, coords. induction l as [|p l IH]; cbn [map concat app].
  - split; [intros []|intros (p & [] & _)].
  - cbn [In]. rewrite IH. split.
    + intros [E|[E|(q & I & E)]]; [exists p; cbn; auto..|exists q; cbn; auto].
    + intros (q & [<-|I] & [E|E]); auto. all: right; right; exists q; auto.
Qed.
Lemma Qc_eq_bool_iff a b : Qc_eq_bool a b = true <-> a = b.
Proof. unfold Qc_eq_bool. destruct (Qc_eq_dec a b); split; congruence. Qed.
(** The affine map applied to every coordinate. *)
Definition unit_map (mn mx v : Qc) : Qc := (v - mn) / (mx - mn) - half.
Lemma half_pos : half + half = 1. Proof. apply Qc_is_canon. reflexivity. Qed.
Lemma sub_pos a b : a < b -> 0 < b - a.
Proof. intros L. apply (proj1 (Qclt_minus_iff a b)) in L. exact L. Qed.
Lemma unit_within mn mx v : mn < mx -> mn <= v -> v <= mx -> within (unit_map mn mx v).
Proof.
  intros L A B. pose proof (sub_pos _ _ L) as D.
  assert (N : mx - mn <> 0) by (intros E; rewrite E in D; exact (Qclt_not_eq _ _ D eq_refl)).
  unfold within, unit_map.
  assert (C1 : 0 <= (v - mn) / (mx - mn)).
  { apply (Qcmult_lt_0_le_reg_r _ _ (mx - mn) D). rewrite Qcmult_0_l.
    replace ((v - mn) / (mx - mn) * (mx - mn)) with (v - mn) by (field; assumption).
    apply -> Qcle_minus_iff in A. exact A. }
  assert (C2 : (v - mn) / (mx - mn) <= 1).
  { apply (Qcmult_lt_0_le_reg_r _ _ (mx - mn) D). rewrite Qcmult_1_l.
    replace ((v - mn) / (mx - mn) * (mx - mn)) with (v - mn) by (field; assumption).
    apply Qcplus_le_compat; [assumption|apply Qcle_refl]. }
  split.
  - replace (- half) with (0 - half) by ring. apply Qcplus_le_compat; [assumption|apply Qcle_refl].
  - replace half with (1 - half) at 2 by (rewrite <- half_pos; ring). apply Qcplus_le_compat; [assumption|apply Qcle_refl].
Qed.
Lemma within_opp x : within x -> within (- x).
Proof.
  intros [A B]. split; [apply Qcopp_le_compat; assumption|].
  apply Qcopp_le_compat in A. rewrite Qcopp_involutive in A. exact A.
Qed.
Lemma unit_least mn mx : mn <> mx -> unit_map mn mx mn = - half.
Proof. intros N. unfold unit_map. field. intros E. apply N. replace mx with (mx - mn + mn) by ring. rewrite E. ring. Qed.
Lemma unit_greatest mn mx : mn <> mx -> unit_map mn mx mx = half.
Proof.
  intros N. unfold unit_map. replace half with (1 - half) at 2 by (rewrite <- half_pos; ring). field.
  intros E. apply N. replace mx with (mx - mn + mn) by ring. rewrite E. ring.
Qed.
(** All that [normalise] does. *)
Lemma normalise_exact l :
  l <> [] ->
  exists mn mx, coordinate l mn /\ coordinate l mx /\ (forall x, coordinate l x -> mn <= x /\ x <= mx) /\
  normalise l = Ok (if Qc_eq_bool mx mn then NaN
                    else Points (map (fun p => (unit_map mn mx (fst p), - unit_map mn mx (snd p))) l)).
Proof.
  intros N. unfold normalise. destruct (coords l) as [|x r] eqn:E.
  - destruct l; [congruence|discriminate].
  - exists (least x r), (greatest x r). destruct (least_spec r x) as [A B]. destruct (greatest_spec r x) as [C D].
    rewrite <- E in *. repeat split; try (apply coords_in; assumption); try (apply coords_in in H; auto).
    destruct (Qc_eq_bool _ _); reflexivity.
Qed.
Lemma normalise_empty : normalise [] = Err ValueError. Proof. reflexivity. Qed.
Lemma normalise_nan l :
  l <> [] -> (normalise l = Ok NaN <-> exists c, forall x, coordinate l x -> x = c).
Proof.
  intros N. destruct (normalise_exact l N) as (mn & mx & A & B & C & E). rewrite E. split.
  - destruct (Qc_eq_bool mx mn) eqn:Q; [|discriminate]. intros _. apply Qc_eq_bool_iff in Q. subst.
    exists mn. intros x H. apply C in H as [H1 H2]. now apply Qcle_antisym.
  - intros (c & H). rewrite (H mn A), (H mx B). replace (Qc_eq_bool c c) with true; [reflexivity|].
    symmetry. now apply Qc_eq_bool_iff.
Qed.
Lemma normalise_points l l' :
  normalise l = Ok (Points l') ->
  exists mn mx, coordinate l mn /\ coordinate l mx /\ (forall x, coordinate l x -> mn <= x /\ x <= mx) /\ mn < mx /\
  l' = map (fun p => (unit_map mn mx (fst p), - unit_map mn mx (snd p))) l.
Proof.
  intros E. assert (N : l <> []) by (intros ->; discriminate).
  destruct (normalise_exact l N) as (mn & mx & A & B & C & F). exists mn, mx. rewrite F in E.
  destruct (Qc_eq_bool mx mn) eqn:Q; [discriminate|]. injection E as <-. repeat split; auto; try apply C; auto.
  destruct (Qclt_le_dec mn mx) as [G|G]; [assumption|].
  assert (K : mx = mn) by (apply Qcle_antisym; [assumption|apply (C mx B)]).
  apply Qc_eq_bool_iff in K. congruence.
Qed.
Lemma normalise_within l l' : normalise l = Ok (Points l') -> Forall (fun p => within (fst p) /\ within (snd p)) l'.
Proof.
  intros E. destruct (normalise_points _ _ E) as (mn & mx & A & B & C & L & ->).
  apply Forall_forall. intros p I. apply in_map_iff in I as (q & <- & I). cbn [fst snd].
  assert (X : coordinate l (fst q)) by (exists q; auto). assert (Y : coordinate l (snd q)) by (exists q; auto).
  split; [|apply within_opp]; apply unit_within; try assumption; apply C; assumption.
Qed.
Lemma normalise_similar l l' :
  normalise l = Ok (Points l') -> exists k b, 0 < k /\ l' = map (fun p => (k * fst p + b, - (k * snd p + b))) l.
Proof.
  intros E. destruct (normalise_points _ _ E) as (mn & mx & A & B & C & L & ->).
  pose proof (sub_pos _ _ L) as D.
  assert (N : mx - mn <> 0) by (intros Z; rewrite Z in D; exact (Qclt_not_eq _ _ D eq_refl)).
  exists (/ (mx - mn)), (- mn / (mx - mn) - half). split.
  - apply Qcnot_le_lt. intros G. apply (Qcmult_le_compat_r _ _ (mx - mn)) in G; [|now apply Qclt_le_weak].
    rewrite Qcmult_0_l, Qcmult_comm, Qcmult_inv_r in G by assumption. now vm_compute in G.
  - apply map_ext. intros [x y]. unfold unit_map. cbn [fst snd]. f_equal; field; assumption.
Qed.
Lemma normalise_touches l l' :
  normalise l = Ok (Points l') ->
  (exists p, In p l' /\ (fst p = - half \/ snd p = half)) /\ (exists p, In p l' /\ (fst p = half \/ snd p = - half)).
Proof.
  intros E. destruct (normalise_points _ _ E) as (mn & mx & A & B & C & L & ->).
  apply Qclt_not_eq in L. split.
  - destruct A as (p & I & [X|X]); (eexists; split; [apply in_map, I|]); cbn [fst snd]; rewrite <- X;
      rewrite unit_least by assumption; [left; reflexivity|right; apply Qcopp_involutive].
  - destruct B as (p & I & [X|X]); (eexists; split; [apply in_map, I|]); cbn [fst snd]; rewrite <- X;
      rewrite unit_greatest by assumption; [left; reflexivity|right; reflexivity].
Qed.
(** When the extents in x and y are the same interval, all four sides are touched. *)
Lemma normalise_square l l' a b :
  normalise l = Ok (Points l') -> (forall x, coordinate l x -> a <= x /\ x <= b) ->
  In a (map fst l) -> In b (map fst l) -> In a (map snd l) -> In b (map snd l) ->
  In (- half) (map fst l') /\ In half (map fst l') /\ In (- half) (map snd l') /\ In half (map snd l').
Proof.
  intros E R A1 B1 A2 B2. destruct (normalise_points _ _ E) as (mn & mx & A & B & C & L & ->).
  assert (Ka : coordinate l a) by (apply in_map_iff in A1 as (p & <- & I); exists p; auto).
  assert (Kb : coordinate l b) by (apply in_map_iff in B1 as (p & <- & I); exists p; auto).
  assert (mn = a) by (apply Qcle_antisym; [now apply C|now apply R]). subst mn.
  assert (mx = b) by (apply Qcle_antisym; [now apply R|now apply C]). subst mx.
  apply Qclt_not_eq in L. rewrite !map_map. cbn [fst snd].
  assert (Q : forall (f : point -> Qc) (g : Qc -> Qc) v w, In v (map f l) -> g v = w -> In w (map (fun p => g (f p)) l)).
  { intros f g v w I <-. apply in_map_iff in I as (p & <- & I). apply in_map_iff. eauto. }
  repeat split.
  - apply (Q fst (unit_map a b) a); [assumption|now apply unit_least].
  - apply (Q fst (unit_map a b) b); [assumption|now apply unit_greatest].
  - apply (Q snd (fun v => - unit_map a b v) b); [assumption|]. now rewrite unit_greatest.
  - apply (Q snd (fun v => - unit_map a b v) a); [assumption|]. rewrite unit_least by assumption. apply Qcopp_involutive.
Qed.

(** ** Tokens *)
Local Open Scope nat_scope.
Local Open Scope char_scope.
Definition digit (a : ascii) : Prop := In a ["0"; "1"; "2"; "3"; "4"; "5"; "6"; "7"; "8"; "9"].
Ltac each H := repeat (destruct H as [H|H]; [subst; try reflexivity|]); try contradiction.
Lemma digit_is a : digit a -> is_digit a = true. Proof. intros H. each H. Qed.
Lemma digit_not_sign a : digit a -> is_sign a = false. Proof. intros H. each H. Qed.
Lemma digit_not_command a : digit a -> command_of a = None. Proof. intros H. each H. Qed.
Definition stops (l : list ascii) : Prop := match l with [] => True | a :: _ => is_digit a = false end.
Lemma digits_app d l : Forall digit d -> stops l -> digits (d ++ l) = (d, l).
Proof.
  intros F S. induction F as [|a d A F IH]; cbn.
  - destruct l as [|a l]; [reflexivity|]. cbn in *. now rewrite S.
  - rewrite (digit_is _ A), IH. reflexivity.
Qed.
Definition exp_text (e : option (ascii * option ascii * list ascii)) : list ascii :=
  match e with Some (e, s, d) => (e :: opt s ++ d)%list | None => [] end.
Lemma sign_app s d l :
  a_sign s -> (match d with a :: _ => is_sign a = false | [] => False end) -> sign (opt s ++ d ++ l) = (opt s, (d ++ l)%list).
Proof.
  intros S D. destruct S as [->|[->| ->]]; cbn; try reflexivity.
  destruct d as [|a d]; [contradiction|]. cbn. now rewrite D.
Qed.
Lemma exponent_app e l :
  match e with Some (e, s, d) => (e = "e" \/ e = "E") /\ a_sign s /\ d <> [] /\ all_digits d | None => True end ->
  exponent (exp_text e ++ " " :: l) = (exp_text e, " " :: l).
Proof.
  destruct e as [[[e s] d]|]; cbn [exp_text]; intros H; [|reflexivity].
  destruct H as (E & S & N & D). cbn [app]. unfold exponent.
  replace (is_exp e) with true by (destruct E as [->| ->]; reflexivity).
  rewrite <- app_assoc. rewrite sign_app; [|assumption|].
  - rewrite digits_app; [|exact D|reflexivity]. destruct d; [congruence|reflexivity].
  - destruct d as [|a d]; [congruence|]. apply Forall_cons_iff in D as [D _]. now apply digit_not_sign.
Qed.
Lemma exp_stops e l :
  match e with Some (e, s, d) => (e = "e" \/ e = "E") /\ a_sign s /\ d <> [] /\ all_digits d | None => True end ->
  stops (exp_text e ++ " " :: l) /\ (match (exp_text e ++ " " :: l)%list with a :: _ => (a =? ".")%char = false | [] => True end).
Proof.
  destruct e as [[[e s] d]|]; intros H; [|split; reflexivity]. destruct H as ([->| ->] & _); split; reflexivity.
Qed.
Lemma match_spelled n l : proper n -> match_float (spelled n ++ " " :: l) = Some (spelled n, " " :: l).
Proof.
  intros (S & D & F & E). unfold match_float, spelled. destruct n as [s d f e]. cbn [n_sign n_int n_frac n_exp] in *.
  fold (exp_text e). destruct (exp_stops e l E) as [X1 X2].
  destruct f as [f|].
  - destruct F as [N F].
    replace ((opt s ++ d ++ ("." :: f) ++ exp_text e) ++ " " :: l)%list
      with (opt s ++ (d ++ "." :: f) ++ exp_text e ++ " " :: l)%list by (rewrite <- !app_assoc; reflexivity).
    rewrite sign_app; [|assumption|].
    2:{ destruct d as [|a d]; [reflexivity|]. apply Forall_cons_iff in D as [D _]. now apply digit_not_sign. }
    unfold mantissa. rewrite <- app_assoc. cbn [app]. rewrite digits_app; [|exact D|reflexivity].
    change ("." =? ".")%char with true. cbv iota.
    rewrite digits_app; [|exact F|exact X1]. destruct f as [|a f]; [congruence|].
    rewrite (exponent_app e l E). rewrite <- !app_assoc. reflexivity.
  - replace ((opt s ++ d ++ [] ++ exp_text e) ++ " " :: l)%list
      with (opt s ++ d ++ exp_text e ++ " " :: l)%list by (rewrite <- !app_assoc; reflexivity).
    rewrite sign_app; [|assumption|].
    2:{ destruct d as [|a d]; [congruence|]. apply Forall_cons_iff in D as [D _]. now apply digit_not_sign. }
    unfold mantissa. rewrite digits_app; [|exact D|exact X1].
    assert (W : match d with [] => None | _ :: _ => Some (d, (exp_text e ++ " " :: l)%list) end = Some (d, (exp_text e ++ " " :: l)%list)).
    { destruct d; [congruence|reflexivity]. }
    rewrite W. destruct (exp_text e ++ " " :: l)%list as [|a t] eqn:T.
    + destruct (exp_text e); discriminate.
    + rewrite X2. rewrite <- T, exponent_app by assumption. reflexivity.
Qed.
Definition numbers (ns : list numeral) : list ascii := text (map WNum ns).
Lemma spelled_cons n : proper n -> exists a r, spelled n = a :: r.
Proof.
  intros (S & D & F & E). destruct n as [s d f e]. unfold spelled. cbn in *.
  destruct s; [cbn; eauto|]. destruct d; [|cbn; eauto]. destruct f; [cbn; eauto|congruence].
Qed.
Lemma floats_numbers ns : forall f, Forall proper ns -> length (numbers ns) <= f -> find_floats f (numbers ns) = map spelled ns.
Proof.
  induction ns as [|n ns IH]; intros f P L; [destruct f; reflexivity|].
  apply Forall_cons_iff in P as [P Q]. unfold numbers in *. cbn [map text word_text] in *.
  destruct (spelled_cons n P) as (a & r & E).
  destruct f as [|f]; [rewrite E in L; cbn in L; lia|].
  cbn [find_floats]. rewrite E at 1. cbn [app]. rewrite match_spelled by assumption. f_equal.
  rewrite app_length in L. rewrite E in L. cbn [length] in L.
  destruct f as [|f]; [lia|]. cbn [find_floats]. cbn [match_float sign is_sign Ascii.eqb].
  change (match_float (" " :: text (map WNum ns))) with (@None (list ascii * list ascii)). cbv iota.
  apply IH; [assumption|lia].
Qed.
Lemma floats_padded ns f : Forall proper ns -> length (" " :: numbers ns) <= f -> find_floats f (" " :: numbers ns) = map spelled ns.
Proof.
  intros P L. destruct f as [|f]; [cbn in L; lia|]. cbn [find_floats].
  change (match_float (" " :: numbers ns)) with (@None (list ascii * list ascii)). cbv iota.
  apply floats_numbers; [assumption|cbn in L; lia].
Qed.
Lemma tokens_skip u : forall piece l, Forall (fun a => command_of a = None) u -> tokens_from piece (u ++ l) = tokens_from (rev u ++ piece) l.
Proof.
  induction u as [|a u IH]; intros piece l F; [reflexivity|].
  apply Forall_cons_iff in F as [A F]. cbn [app tokens_from]. rewrite A. rewrite IH by assumption.
  cbn [rev]. now rewrite <- app_assoc.
Qed.
Lemma spelled_no_command n : proper n -> Forall (fun a => command_of a = None) (spelled n).
Proof.
  intros (S & D & F & E). destruct n as [s d f e]. unfold spelled. cbn in *.
  assert (G : forall d, all_digits d -> Forall (fun a => command_of a = None) d).
  { intros u U. eapply Forall_impl; [|exact U]. apply digit_not_command. }
  assert (O : forall s, a_sign s -> Forall (fun a => command_of a = None) (opt s)).
  { intros u [->|[->| ->]]; repeat constructor. }
  apply Forall_app; split; [auto|]. apply Forall_app; split; [auto|]. apply Forall_app; split.
  - destruct f; [|constructor]. constructor; [reflexivity|]. apply G, F.
  - destruct e as [[[e s'] d']|]; [|constructor]. destruct E as (E & S' & _ & D').
    constructor; [destruct E as [->| ->]; reflexivity|]. apply Forall_app; split; auto.
Qed.
Lemma commands a : word_ok (WCmd a) -> exists c, command_of a = Some c.
Proof. cbn. intros H. repeat (destruct H as [H|H]; [subst; eexists; reflexivity|]). contradiction. Qed.
Lemma tokens_command piece a r c :
  command_of a = Some c ->
  tokens_from piece (a :: r) = (map TNum (find_floats (length piece) (rev piece)) ++ TCmd a :: tokens_from [] r)%list.
Proof. intros C. cbn [tokens_from]. now rewrite C. Qed.
Lemma text_app a b : text (a ++ b) = (text a ++ text b)%list.
Proof. induction a as [|w a IH]; cbn [text app]; [reflexivity|]. rewrite IH, <- app_assoc. reflexivity. Qed.
Lemma tokens_words ws : forall (pad : bool) ns, Forall word_ok ws -> Forall proper ns ->
  tokens_from (rev ((if pad then [" "] else []) ++ numbers ns)) (text ws) = (map (fun n => TNum (spelled n)) ns ++ map word_token ws)%list.
Proof.
  induction ws as [|w ws IH]; intros pad ns W P.
  - assert (G : find_floats (length (rev ((if pad then [" "] else []) ++ numbers ns)%list))
                 (rev (rev ((if pad then [" "] else []) ++ numbers ns)%list)) = map spelled ns).
    { rewrite rev_involutive, rev_length. destruct pad; cbn [app].
      - apply floats_padded; [assumption|lia].
      - apply floats_numbers; [assumption|lia]. }
    cbn [text tokens_from map]. rewrite G, map_map, app_nil_r. reflexivity.
  - apply Forall_cons_iff in W as [A W]. destruct w as [a|n].
    + cbn [text word_text app map word_token].
      destruct (commands a A) as [c C]. rewrite (tokens_command _ _ _ _ C).
      rewrite (IH true [] W (Forall_nil _) : tokens_from [] (" " :: text ws) = map word_token ws).
      assert (G : find_floats (length (rev ((if pad then [" "] else []) ++ numbers ns)%list))
                 (rev (rev ((if pad then [" "] else []) ++ numbers ns)%list)) = map spelled ns).
      { rewrite rev_involutive, rev_length. destruct pad; cbn [app].
        - apply floats_padded; [assumption|lia].
        - apply floats_numbers; [assumption|lia]. }
      rewrite G, map_map. reflexivity.
    + cbn [text word_text map word_token].
      replace (spelled n ++ " " :: text ws)%list with ((spelled n ++ [" "]) ++ text ws)%list by (rewrite <- app_assoc; reflexivity).
      rewrite tokens_skip.
      2:{ apply Forall_app; split; [apply spelled_no_command, A|repeat constructor]. }
      rewrite <- rev_app_distr.
      replace (((if pad then [" "] else []) ++ numbers ns) ++ spelled n ++ [" "])%list
        with ((if pad then [" "] else []) ++ numbers (ns ++ [n]))%list.
      * rewrite IH; [|assumption|apply Forall_app; split; [assumption|constructor; [exact A|constructor]]].
        rewrite map_app. cbn [map]. rewrite <- app_assoc. reflexivity.
      * rewrite <- app_assoc. f_equal. unfold numbers. rewrite map_app, text_app. reflexivity.
Qed.
Lemma chars_as_string l : chars (as_string l) = l.
Proof. induction l; cbn; congruence. Qed.
Lemma tokenize_text ws : Forall word_ok ws -> tokenize (as_string (text ws)) = map word_token ws.
Proof. intros W. unfold tokenize. rewrite chars_as_string. apply (tokens_words ws false [] W). constructor. Qed.

(** ** The whole function *)
Section Whole.
Variable arc : point -> point -> Qc -> Qc -> Qc -> point -> res (point * list (point * point * point)).
Variable float : list ascii -> Qc.
Lemma svg_to_path_ok d p v codes :
  svg_to_path arc float d p = Ok (v, codes) ->
  exists vs, parse_path arc (map (element float) (tokenize d)) p = Ok (codes, vs) /\ normalise vs = Ok v /\
  length codes = length vs /\ exists r, codes = MOVETO :: r.
Proof.
  unfold svg_to_path. destruct (parse_path _ _ _) as [[cs vs]|] eqn:P; cbn [bind fst snd]; [|discriminate].
  destruct (normalise vs) as [w|] eqn:N; cbn [bind]; [|discriminate].
  unfold make_path. destruct (negb _) eqn:B; [discriminate|].
  apply negb_false_iff, Nat.eqb_eq in B. intros H.
  assert (vs <> []) by (intros ->; discriminate). 
  destruct cs as [|[] cs]; try discriminate.
  - destruct vs; [congruence|discriminate].
  - injection H as <- <-. exists vs. eauto.
Qed.
Lemma svg_well_formed d p v codes :
  svg_to_path arc float d p = Ok (v, codes) ->
  grouped codes /\ (exists r, codes = MOVETO :: r) /\ (forall l, v = Points l -> length l = length codes).
Proof.
  intros H. destruct (svg_to_path_ok _ _ _ _ H) as (vs & P & N & L & M).
  destruct (parse_path_well_formed _ _ _ _ _ P) as [_ G]. repeat split; auto.
  intros l ->. destruct (normalise_points _ _ N) as (mn & mx & _ & _ & _ & _ & ->). rewrite map_length. symmetry; exact L.
Qed.
End Whole.

(** ** C43 for the whole function, witnesses and examples *)
Lemma svg_within arc float d p l codes :
  svg_to_path arc float d p = Ok (Points l, codes) -> Forall (fun v => within (fst v) /\ within (snd v)) l.
Proof. intros H. destruct (svg_to_path_ok _ _ _ _ _ _ H) as (vs & _ & N & _). eapply normalise_within; eauto. Qed.
Lemma svg_similar arc float d p l codes :
  svg_to_path arc float d p = Ok (Points l, codes) ->
  exists vs k b, parse_path arc (map (element float) (tokenize d)) p = Ok (codes, vs) /\ (0 < k)%Qc /\
  l = map (fun v => (k * fst v + b, - (k * snd v + b))%Qc) vs.
Proof.
  intros H. destruct (svg_to_path_ok _ _ _ _ _ _ H) as (vs & P & N & _).
  destruct (normalise_similar _ _ N) as (k & b & K & E). eauto 10.
Qed.
Lemma svg_touches arc float d p l codes :
  svg_to_path arc float d p = Ok (Points l, codes) ->
  (exists v, In v l /\ (fst v = - half \/ snd v = half)%Qc) /\ (exists v, In v l /\ (fst v = half \/ snd v = - half)%Qc).
Proof. intros H. destruct (svg_to_path_ok _ _ _ _ _ _ H) as (vs & _ & N & _). eapply normalise_touches; eauto. Qed.
Lemma svg_square arc float d p l codes vs a b :
  svg_to_path arc float d p = Ok (Points l, codes) ->
  parse_path arc (map (element float) (tokenize d)) p = Ok (codes, vs) ->
  (forall x, coordinate vs x -> a <= x /\ x <= b)%Qc ->
  In a (map fst vs) -> In b (map fst vs) -> In a (map snd vs) -> In b (map snd vs) ->
  In (- half)%Qc (map fst l) /\ In half (map fst l) /\ In (- half)%Qc (map snd l) /\ In half (map snd l).
Proof.
  intros H P. destruct (svg_to_path_ok _ _ _ _ _ _ H) as (vs' & P' & N & _).
  rewrite P' in P. injection P as ->. eapply normalise_square; eauto.
Qed.
Lemma svg_degenerate arc float d p codes vs :
  parse_path arc (map (element float) (tokenize d)) p = Ok (codes, vs) ->
  (vs = [] -> svg_to_path arc float d p = Err ValueError) /\
  (vs <> [] -> (forall r, svg_to_path arc float d p = Ok (NaN, r) -> exists c, forall x, coordinate vs x -> x = c) /\
               ((exists c, forall x, coordinate vs x -> x = c) -> forall l r, svg_to_path arc float d p <> Ok (Points l, r))).
Proof.
  intros P. split; [intros ->|intros N; split].
  - unfold svg_to_path. rewrite P. reflexivity.
  - intros r H. destruct (svg_to_path_ok _ _ _ _ _ _ H) as (vs' & P' & E & _).
    rewrite P' in P. injection P as _ ->. apply normalise_nan; assumption.
  - intros C l r H. destruct (svg_to_path_ok _ _ _ _ _ _ H) as (vs' & P' & E & _).
    rewrite P' in P. injection P as _ ->. apply normalise_nan in C; [congruence|assumption].
Qed.

Definition z (n : Z) : Qc := Q2Qc (inject_Z n).
(** Numbers written with one or more digits, without sign, as integers. *)
Definition ex_float (s : list ascii) : Qc :=
  z (fold_left (fun n a => (10 * n + Z.of_nat (nat_of_ascii a - 48))%Z) s 0%Z).
Definition ex_arc (c r : point) (x l w : Qc) (e : point) : res (point * list (point * point * point)) := Ok (c, [(c, e, e)]).

Definition touching_witness : Prop :=
  exists (d : string) l codes, svg_to_path ex_arc ex_float d (z 0, z 0) = Ok (Points l, codes) /\
  ~ In (- half)%Qc (map snd l) /\ (exists v w, In v l /\ In w l /\ snd v <> snd w).
Lemma touching_refuted : touching_witness.
Proof.
  exists "M 0 0 L 2 1"%string. eexists _, _. split; [|split].
  - unfold svg_to_path.
    match goal with |- context [tokenize ?x] => let t := eval vm_compute in (tokenize x) in change (tokenize x) with t end.
    cbn [map element command_of]. unfold parse_path, initial. cbn.
    match goal with |- context [Qc_eq_bool ?a ?b] => replace (Qc_eq_bool a b) with false by (vm_compute; reflexivity) end.
    reflexivity.
  - cbn [map snd]. intros [E|[E|[]]]; apply (f_equal (fun q => Qnum (this q))) in E; vm_compute in E; discriminate.
  - eexists _, _. split; [left; reflexivity|]. split; [right; left; reflexivity|].
    cbn [snd]. intros E. apply (f_equal (fun q => Qnum (this q))) in E. vm_compute in E. discriminate.
Qed.
Lemma after_close_witness :
  (exists l p, svg_valid l /\ (forall arc, parse_path arc (path l) p = Err AttributeError) /\
    forall arc, is_ok (draw arc p p None None (absolutes p p l)) = true) /\
  (exists l p, svg_valid l /\ (forall arc, parse_path arc (path l) p = Err TypeError) /\
    forall arc, is_ok (draw arc p p None None (absolutes p p l)) = true).
Proof.
  split.
  - exists [(MoveTo (z 0, z 0), true); (LineTo (z 1, z 0), true); (Close, true); (LineTo (z 1, z 1), true); (Close, true)], (z 0, z 0).
    repeat split; reflexivity.
  - exists [(MoveTo (z 0, z 0), true); (Close, true); (Smooth (z 1, z 1) (z 2, z 0), true)], (z 0, z 0).
    repeat split; reflexivity.
Qed.
Lemma absolute_start arc p ab l q q' :
  parse_path arc (path ((MoveTo p, true) :: map (fun o => (o, true)) l)) q =
  parse_path arc (path ((MoveTo p, true) :: map (fun o => (o, true)) l)) q' /\
  (ab = false -> parse_path arc (path [(MoveTo p, ab)]) q = Ok ([MOVETO], [(fst p + fst q, snd p + snd q)%Qc])).
Proof.
  split.
  - change (parse_all arc (initial q) (path ((MoveTo p, true) :: map (fun o => (o, true)) l)) =
            parse_all arc (initial q') (path ((MoveTo p, true) :: map (fun o => (o, true)) l))).
    rewrite !parse_all_step by (try apply reached_initial; discriminate). reflexivity.
  - intros ->. reflexivity.
Qed.

(** The parser asks for an arc only between different points and with radii that
    are not zero. *)
Section Degenerate.
Variables arc arc' : point -> point -> Qc -> Qc -> Qc -> point -> res (point * list (point * point * point)).
Hypothesis same : forall c r x lg sw e, c <> e -> fst r <> 0%Qc -> snd r <> 0%Qc -> arc c r x lg sw e = arc' c r x lg sw e.
Lemma peqb_false a b : peqb a b = false -> a <> b.
Proof.
  intros H E. subst b. unfold peqb in H. rewrite (proj2 (Qc_eq_bool_iff (fst a) (fst a)) eq_refl), (proj2 (Qc_eq_bool_iff (snd a) (snd a)) eq_refl) in H. discriminate.
Qed.
Lemma run_arcs c last s es : run arc c last s es = run arc' c last s es.
Proof.
  destruct c; cbn [run]; try reflexivity.
  destruct (next_pos es) as [r|x]; cbn [bind]; [|reflexivity]. destruct (next (snd r)) as [rot|x]; cbn [bind]; [|reflexivity].
  destruct (next (snd rot)) as [lg|x]; cbn [bind]; [|reflexivity]. destruct (next (snd lg)) as [sw|x]; cbn [bind]; [|reflexivity].
  destruct (next_pos (snd sw)) as [e|x]; cbn [bind]; [|reflexivity].
  destruct (peqb (cur s) (rel (absol s) (cur s) (fst e))) eqn:P; [reflexivity|].
  destruct (Qc_eq_bool (fst (fst r)) 0) eqn:A; [reflexivity|]. destruct (Qc_eq_bool (snd (fst r)) 0) eqn:B; [reflexivity|]. cbn [orb].
  rewrite same; [reflexivity|now apply peqb_false| |]; intros E; apply Qc_eq_bool_iff in E; congruence.
Qed.
Lemma parse_arcs f : forall s es, parse arc f s es = parse arc' f s es.
Proof.
  induction f as [|f IH]; intros s es; destruct es as [|e es]; cbn [parse]; try reflexivity.
  assert (T : step arc s (e :: es) = step arc' s (e :: es)) by (unfold step; destruct e; [apply run_arcs|destruct (cmd s); [apply run_arcs|reflexivity]]).
  rewrite T. destruct (step arc' s (e :: es)) as [r|x]; cbn [bind]; [|reflexivity]. now rewrite IH.
Qed.
Lemma parse_path_arcs es p : parse_path arc es p = parse_path arc' es p.
Proof. apply parse_arcs. Qed.
End Degenerate.
