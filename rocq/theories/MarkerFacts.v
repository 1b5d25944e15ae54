(** Proofs about markers. *)
From Verif Require Import Base Svg SvgSpec SvgFacts Marker MarkerSpec.
Local Open Scope nat_scope.

Definition plain (m : marker) : bool := match m with point_ => false | _ => true end.
Definition elts (m : marker) : list elt := map (element decimal) (tokenize (drawing m)).
Definition no_arc (c r : point) (x lg sw : Qc) (e : point) : res (point * list (point * point * point)) := Err ZeroDivisionError.
Definition parsed (m : marker) : res out := parse_path no_arc (elts m) origin.
Lemma plain_ok m : plain m = true -> is_ok (parsed m) = true.
Proof. destruct m; try discriminate; intros _; vm_compute; reflexivity. Qed.
(** Parsing that needs no arc is the same with any. *)
Lemma run_any arc c last s es r : run no_arc c last s es = Ok r -> run arc c last s es = Ok r.
Proof.
  destruct c; cbn [run]; auto. destruct (next_pos es) as [a|]; cbn [bind]; [|discriminate]. destruct (next (snd a)) as [rot|]; cbn [bind]; [|discriminate].
  destruct (next (snd rot)) as [lg|]; cbn [bind]; [|discriminate]. destruct (next (snd lg)) as [sw|]; cbn [bind]; [|discriminate].
  destruct (next_pos (snd sw)) as [e|]; cbn [bind]; [|discriminate]. destruct (peqb _ _); [auto|]. destruct (_ || _); [auto|]. discriminate.
Qed.
Lemma parse_any arc f : forall s es o, parse no_arc f s es = Ok o -> parse arc f s es = Ok o.
Proof.
  induction f as [|f IH]; intros s es o; destruct es as [|e es]; cbn [parse]; auto.
  assert (T : forall r, step no_arc s (e :: es) = Ok r -> step arc s (e :: es) = Ok r).
  { intros r. unfold step. destruct e; [apply run_any|destruct (cmd s); [apply run_any|discriminate]]. }
  destruct (step no_arc s (e :: es)) as [r|]; cbn [bind]; [|discriminate]. rewrite (T r eq_refl). cbn [bind].
  destruct (parse no_arc f (snd (fst r)) (snd r)) as [q|] eqn:P; cbn [bind]; [|discriminate]. rewrite (IH _ _ _ P). auto.
Qed.
(** The point: four quarters of a circle. *)
Definition elt_eqb (a b : elt) : bool :=
  match a, b with
  | Cmd LM true, Cmd LM true | Cmd LA true, Cmd LA true | Cmd LZ true, Cmd LZ true => true
  | Num x, Num y => Qc_eq_bool x y
  | _, _ => false
  end.
Fixpoint elts_eqb (a b : list elt) : bool :=
  match a, b with [], [] => true | x :: r, y :: s => elt_eqb x y && elts_eqb r s | _, _ => false end.
Lemma elts_eqb_ok a : forall b, elts_eqb a b = true -> a = b.
Proof.
  induction a as [|x a IH]; intros [|y b] H; try discriminate; [reflexivity|]. cbn [elts_eqb] in H. apply andb_true_iff in H as (E & H).
  rewrite (IH _ H). f_equal. destruct x as [[] []|x], y as [[] []|y]; try discriminate; try reflexivity. cbn [elt_eqb] in E. apply Qc_eq_bool_iff in E. now rewrite E.
Qed.
Definition quarter (x y : Z) : list elt := Cmd LA true :: map (fun n => Num (whole n)) [10; 10; 0; 0; 0; x; y]%Z.
Definition circle : list elt :=
  (Cmd LM true :: map (fun n => Num (whole n)) [12; 2]%Z ++ quarter 2 12 ++ quarter 12 22 ++ quarter 22 12 ++ quarter 12 2 ++ [Cmd LZ true])%list.
Lemma point_elts : elts point_ = circle.
Proof. apply elts_eqb_ok. vm_compute. reflexivity. Qed.
Lemma whole_eqb x y : Qc_eq_bool (whole x) (whole y) = (x =? y)%Z.
Proof.
  destruct (Z.eqb_spec x y) as [->|N]; [now apply Qc_eq_bool_iff|]. destruct (Qc_eq_bool (whole x) (whole y)) eqn:E; [|reflexivity]. exfalso. apply N.
  apply Qc_eq_bool_iff in E. apply Q2Qc_eq_iff in E. unfold inject_Z, Qeq in E. cbn in E. lia.
Qed.
Definition at_ (x y : Z) : point := (whole x, whole y).
Lemma at_eqb x y x' y' : peqb (at_ x y) (at_ x' y') = ((x =? x')%Z && (y =? y')%Z).
Proof. unfold peqb, at_. cbn [fst snd]. now rewrite !whole_eqb. Qed.
Lemma at_neq x y x' y' : ((x =? x')%Z && (y =? y')%Z) = false -> at_ x y <> at_ x' y'.
Proof. rewrite <- at_eqb. intros H E. rewrite E in H. rewrite at_eqb, !Z.eqb_refl in H. discriminate. Qed.
Lemma zero_whole : 0%Qc = whole 0. Proof. reflexivity. Qed.
Lemma step_quarter arc x0 y0 st cm c2 c1 x y k g : ((x0 =? x)%Z && (y0 =? y)%Z) = false ->
  arc (at_ x0 y0) (at_ 10 10) (whole 0) (whole 0) (whole 0) (at_ x y) = Ok g ->
  step arc (mkSt (at_ x0 y0) st cm true c2 c1) (quarter x y ++ k) =
  Ok ((arc_codes (snd g), arc_verts (fst g) (snd g)), mkSt (at_ x y) st (Some LA) true c2 c1, k).
Proof.
  intros N G. unfold quarter. cbn [map app step run next_pos next bind fst snd cur start cmd absol ctrl2 ctrl rel].
  fold (at_ x y) (at_ 10 10). rewrite at_eqb, N, zero_whole, !whole_eqb. cbn [Z.eqb orb]. rewrite G. reflexivity.
Qed.
Lemma parse_S arc f s es : es <> [] -> parse arc (S f) s es =
  let* r := step arc s es in let* o := parse arc f (snd (fst r)) (snd r) in Ok ((fst (fst (fst r)) ++ fst o)%list, (snd (fst (fst r)) ++ snd o)%list).
Proof. destruct es; [contradiction|reflexivity]. Qed.
Definition P0 : point := at_ 12 2.
Lemma point_parsed arc : arcs_defined arc -> exists g1 g2 g3 g4,
  arc (at_ 12 2) (at_ 10 10) (whole 0) (whole 0) (whole 0) (at_ 2 12) = Ok g1 /\
  arc (at_ 2 12) (at_ 10 10) (whole 0) (whole 0) (whole 0) (at_ 12 22) = Ok g2 /\
  arc (at_ 12 22) (at_ 10 10) (whole 0) (whole 0) (whole 0) (at_ 22 12) = Ok g3 /\
  arc (at_ 22 12) (at_ 10 10) (whole 0) (whole 0) (whole 0) (at_ 12 2) = Ok g4 /\
  parse_path arc (elts point_) origin =
  Ok (MOVETO :: arc_codes (snd g1) ++ arc_codes (snd g2) ++ arc_codes (snd g3) ++ arc_codes (snd g4) ++ [CLOSEPOLY],
      P0 :: arc_verts (fst g1) (snd g1) ++ arc_verts (fst g2) (snd g2) ++ arc_verts (fst g3) (snd g3) ++ arc_verts (fst g4) (snd g4) ++ [P0])%list.
Proof.
  intros A. assert (R : whole 10 <> 0%Qc) by (rewrite zero_whole; intros E; apply (proj2 (Qc_eq_bool_iff _ _)) in E; rewrite whole_eqb in E; discriminate).
  destruct (A (at_ 12 2) (at_ 10 10) (whole 0) (whole 0) (whole 0) (at_ 2 12)) as (g1 & G1); [now apply at_neq|exact R|exact R|].
  destruct (A (at_ 2 12) (at_ 10 10) (whole 0) (whole 0) (whole 0) (at_ 12 22)) as (g2 & G2); [now apply at_neq|exact R|exact R|].
  destruct (A (at_ 12 22) (at_ 10 10) (whole 0) (whole 0) (whole 0) (at_ 22 12)) as (g3 & G3); [now apply at_neq|exact R|exact R|].
  destruct (A (at_ 22 12) (at_ 10 10) (whole 0) (whole 0) (whole 0) (at_ 12 2)) as (g4 & G4); [now apply at_neq|exact R|exact R|].
  exists g1, g2, g3, g4. repeat (split; [assumption|]). rewrite point_elts. unfold parse_path.
  replace (length circle) with (6 + 30) by reflexivity. set (n := 30). unfold circle, initial.
  cbn [map app Nat.add].
  rewrite parse_S by discriminate. cbn [step run next_pos next bind fst snd cur start cmd absol ctrl2 ctrl rel]. fold (at_ 12 2).
  rewrite parse_S by discriminate. rewrite (fun N => step_quarter _ _ _ _ _ _ _ _ _ _ _ N G1) by reflexivity. cbn [bind fst snd].
  rewrite parse_S by discriminate. rewrite (fun N => step_quarter _ _ _ _ _ _ _ _ _ _ _ N G2) by reflexivity. cbn [bind fst snd].
  rewrite parse_S by discriminate. rewrite (fun N => step_quarter _ _ _ _ _ _ _ _ _ _ _ N G3) by reflexivity. cbn [bind fst snd].
  rewrite parse_S by discriminate. rewrite (fun N => step_quarter _ _ _ _ _ _ _ _ _ _ _ N G4) by reflexivity. cbn [bind fst snd].
  rewrite parse_S by discriminate. cbn [step run cur start cmd absol ctrl2 ctrl at_start]. rewrite at_eqb. cbn [Z.eqb Pos.eqb andb bind fst snd].
  unfold n. cbn [parse bind fst snd app]. now rewrite ?app_nil_r.
Qed.
Lemma plain_parsed arc m : plain m = true -> exists o, parsed m = Ok o /\ parse_path arc (elts m) origin = Ok o.
Proof.
  intros P. pose proof (plain_ok m P) as K. destruct (parsed m) as [o|] eqn:E; [|discriminate]. exists o. split; [reflexivity|]. now apply parse_any.
Qed.
(** What is checked by computation of the eleven drawings without arcs: they start
    with a moveto; whether they end with a closepoly; their extremes. *)
Definition ends_closed (m : marker) : bool := match m with square | minus | diamond => false | _ => true end.
Definition is_close (c : code) : bool := match c with CLOSEPOLY => true | _ => false end.
Definition is_move (c : code) : bool := match c with MOVETO => true | _ => false end.
Definition middle (m : marker) : bool := match m with arrow => false | _ => true end.
Definition check (m : marker) : bool :=
  match parsed m with
  | Ok (c :: cs, v :: vs) =>
      is_move c && Bool.eqb (is_close (last (c :: cs) MOVETO)) (ends_closed m) && Bool.eqb (existsb is_close (c :: cs)) (ends_closed m) &&
      match coords (v :: vs) with
      | x :: r => Bool.eqb (Qc_eq_bool (least x r + greatest x r)%Qc (whole 24)) (middle m) && negb (Qc_eq_bool (greatest x r) (least x r))
      | [] => false
      end
  | _ => false
  end.
Lemma plain_checked m : plain m = true -> check m = true.
Proof. destruct m; try discriminate; intros _; vm_compute; reflexivity. Qed.
(** The drawings are parsed. *)
Lemma to_path arc m cs vs : parse_path arc (elts m) origin = Ok (cs, vs) -> vs <> [] -> (exists r, cs = MOVETO :: r) ->
  exists v, svg_to_path arc decimal (drawing m) origin = Ok (v, cs) /\ normalise vs = Ok v.
Proof.
  intros P N (r & ->). unfold svg_to_path. fold (elts m). rewrite P. cbn [bind fst snd]. destruct (normalise_exact vs N) as (mn & mx & _ & _ & _ & E). rewrite E. cbn [bind].
  destruct (parse_path_well_formed _ _ _ _ _ P) as (L & _). unfold make_path. rewrite L, Nat.eqb_refl. cbn [negb]. eauto.
Qed.
Lemma drawn arc m : arcs_defined arc -> exists v cs vs, svg_to_path arc decimal (drawing m) origin = Ok (v, cs) /\
  parse_path arc (elts m) origin = Ok (cs, vs) /\ normalise vs = Ok v /\
  (ends_closed m = true -> closed cs) /\ (ends_closed m = false -> ~ In CLOSEPOLY cs).
Proof.
  intros A. destruct (plain m) eqn:P.
  - destruct (plain_parsed arc m P) as (o & O & Q). pose proof (plain_checked m P) as C. unfold check in C. rewrite O in C.
    destruct o as ([|c cs] & [|v vs]); try discriminate. apply andb_true_iff in C as (C & _). apply andb_true_iff in C as (C & E). apply andb_true_iff in C as (C & D).
    destruct c; try discriminate. apply eqb_prop in D, E.
    destruct (to_path arc m _ _ Q) as (w & S & N); [discriminate|eauto|]. exists w, (MOVETO :: cs), (v :: vs).
    split; [exact S|]. split; [exact Q|]. split; [exact N|]. split; intros K; rewrite K in D, E.
    + unfold closed. destruct (last (MOVETO :: cs) MOVETO); try discriminate. reflexivity.
    + intros I. assert (X : existsb is_close (MOVETO :: cs) = true) by (apply existsb_exists; exists CLOSEPOLY; auto). congruence.
  - destruct m; try discriminate. destruct (point_parsed arc A) as (g1 & g2 & g3 & g4 & _ & _ & _ & _ & Q).
    destruct (to_path arc point_ _ _ Q) as (w & S & N); [discriminate|eauto|]. eexists w, _, _. split; [exact S|]. split; [exact Q|]. split; [exact N|].
    split; intros K; [|discriminate]. unfold closed. rewrite !app_assoc, app_comm_cons. apply last_last.
Qed.
Lemma table_get arc d l : table_of arc l = Ok d -> NoDup (map number l) ->
  (forall m, In m l -> exists p, svg_to_path arc decimal (drawing m) origin = Ok p /\ dget d (number m) = Some p) /\
  (forall n, ~ In n (map number l) -> dget d n = None).
Proof.
  revert d. induction l as [|m l IH]; intros d T N; cbn [table_of] in T.
  - injection T as <-. split; [contradiction|reflexivity].
  - destruct (svg_to_path _ _ _ _) as [p|] eqn:P; cbn [bind] in T; [|discriminate]. destruct (table_of arc l) as [e|]; cbn [bind] in T; [|discriminate]. injection T as <-.
    cbn [map] in N. inversion N as [|? ? N1 N2]; subst. destruct (IH e eq_refl N2) as (I & J). split.
    + intros k [->|H]; cbn [dget].
      * destruct (Base.eqb_spec (number k) (number k)); [eauto|congruence].
      * destruct (Base.eqb_spec (number k) (number m)) as [E|E]; [|now apply I]. exfalso. apply N1. rewrite <- E. now apply in_map.
    + intros n H. cbn [dget]. cbn [map In] in H. destruct (Base.eqb_spec n (number m)) as [E|E]; [subst; tauto|]. apply J. tauto.
Qed.
Lemma table_ok arc : arcs_defined arc -> forall l, exists d, table_of arc l = Ok d.
Proof.
  intros A. induction l as [|m l (d & D)]; [now exists []|]. cbn [table_of]. destruct (drawn arc m A) as (v & cs & _ & -> & _). cbn [bind]. rewrite D. cbn [bind]. eauto.
Qed.
Lemma numbers_nodup : NoDup (map number all_markers).
Proof. cbn. repeat constructor; cbn; intuition discriminate. Qed.
Lemma in_all m : In m all_markers.
Proof. destruct m; cbn; tauto. Qed.
Lemma known_number n : known n <-> exists m, number m = n.
Proof.
  unfold known. split.
  - intros H. assert (I : In n (map number all_markers)) by (cbn; lia). apply in_map_iff in I as (m & E & _). eauto.
  - intros (m & <-). destruct m; cbn; lia.
Qed.
Lemma path_of_ok arc : arcs_defined arc ->
  (forall m, path_of arc (number m) = svg_to_path arc decimal (drawing m) origin /\ exists p, path_of arc (number m) = Ok p) /\
  (forall n, ~ known n -> path_of arc n = Err KeyError).
Proof.
  intros A. destruct (table_ok arc A all_markers) as (d & D). destruct (table_get arc d all_markers D numbers_nodup) as (I & J). unfold path_of. rewrite D. cbn [bind]. split.
  - intros m. destruct (I m (in_all m)) as (p & P & G). rewrite P, G. eauto.
  - intros n N. rewrite J; [reflexivity|]. intros H. apply N, known_number. apply in_map_iff in H as (m & E & _). eauto.
Qed.
Lemma ends_closed_ok m : (~ In m [square; minus; diamond] -> ends_closed m = true) /\ (In m [square; minus; diamond] -> ends_closed m = false).
Proof. destruct m; cbn; intuition discriminate. Qed.
Theorem outlines arc m v cs : arcs_defined arc -> path_of arc (number m) = Ok (v, cs) ->
  (~ In m [square; minus; diamond] -> closed cs) /\ (In m [square; minus; diamond] -> ~ In CLOSEPOLY cs).
Proof.
  intros A P. destruct (path_of_ok arc A) as (I & _). destruct (I m) as (E & _). rewrite E in P. destruct (drawn arc m A) as (v' & cs' & vs & S & _ & _ & C & O).
  rewrite P in S. injection S as <- <-. destruct (ends_closed_ok m) as (X & Y). split; intros H; [apply C, X, H|apply O, Y, H].
Qed.
(** Centring. *)
Local Open Scope Qc_scope.
Lemma whole_add a b : whole a + whole b = whole (a + b).
Proof.
  unfold whole, Qcplus. apply Q2Qc_eq_iff. cbn [this Q2Qc]. rewrite !Qred_correct, inject_Z_plus. reflexivity.
Qed.
Lemma two_half : half = 1 / (1 + 1).
Proof. apply Qc_is_canon. reflexivity. Qed.
Lemma one_one : 1 + 1 <> 0.
Proof. intros H. apply (f_equal this) in H. vm_compute in H. discriminate. Qed.
Lemma unit_middle mn mx v : mn < mx -> mn + mx = whole 24 -> unit_map mn mx v = / (mx - mn) * (v - whole 12).
Proof.
  intros L E. assert (N : mx - mn <> 0) by (intros Z; pose proof (sub_pos _ _ L) as P; rewrite Z in P; exact (Qclt_not_eq _ _ P eq_refl)).
  unfold unit_map. rewrite two_half. assert (T : whole 12 = (mn + mx) / (1 + 1)).
  { rewrite E, <- (whole_add 12 12 : _ = whole 24). field. exact one_one. }
  rewrite T. field. split; [exact one_one|exact N].
Qed.
Lemma forall2_map {A B} (R : A -> B -> Prop) (f : A -> B) l : (forall a, R a (f a)) -> Forall2 R l (map f l).
Proof. intros H. induction l; cbn [map]; constructor; auto. Qed.
Lemma inv_pos a : 0 < a -> 0 < / a.
Proof.
  intros P. assert (N : a <> 0) by (intros Z; rewrite Z in P; exact (Qclt_not_eq _ _ P eq_refl)).
  apply Qcnot_le_lt. intros G. apply (Qcmult_le_compat_r _ _ a) in G; [|now apply Qclt_le_weak]. rewrite Qcmult_0_l, Qcmult_comm, Qcmult_inv_r in G by assumption. now vm_compute in G.
Qed.
Lemma extremes_unique l a b c d : coordinate l a -> coordinate l b -> coordinate l c -> coordinate l d ->
  (forall x, coordinate l x -> a <= x /\ x <= b) -> (forall x, coordinate l x -> c <= x /\ x <= d) -> a = c /\ b = d.
Proof. intros A B C D H K. split; apply Qcle_antisym; apply H || apply K; assumption. Qed.
Lemma centred_if vs l mn mx : normalise vs = Ok (Points l) -> coordinate vs mn -> coordinate vs mx -> (forall x, coordinate vs x -> mn <= x /\ x <= mx) ->
  ((exists k, 0 < k /\ Forall2 (about_middle k) vs l) <-> mn + mx = whole 24).
Proof.
  intros N A B H. destruct (normalise_points _ _ N) as (mn' & mx' & A' & B' & H' & L & ->).
  destruct (extremes_unique vs mn mx mn' mx' A B A' B' H H') as (<- & <-). split.
  - intros (k & K & F). assert (U : forall x, coordinate vs x -> unit_map mn mx x = k * (x - whole 12)).
    { intros x (p & I & X). apply In_nth_error in I as (i & I).
      assert (M : forall j vs' l', Forall2 (about_middle k) vs' l' -> forall p, nth_error vs' j = Some p -> exists q, nth_error l' j = Some q /\ about_middle k p q).
      { clear. intros j vs' l' F. revert j. induction F as [|a b vs' l' R F IH]; intros [|j] p E; try discriminate; cbn [nth_error] in *; [injection E as <-; eauto|eauto]. }
      destruct (M _ _ _ F _ I) as (q & Q & R). rewrite (map_nth_error _ i vs I) in Q. injection Q as <-. destruct R as (R1 & R2). cbn [fst snd] in *.
      destruct X as [->| ->]; [exact R1|]. apply (f_equal Qcopp) in R2. now rewrite !Qcopp_involutive in R2. }
    assert (LN : mn <> mx) by now apply Qclt_not_eq.
    pose proof (U _ A) as U1. pose proof (U _ B) as U2. rewrite unit_least in U1 by exact LN. rewrite unit_greatest in U2 by exact LN.
    assert (E : k * (mn + mx - (whole 12 + whole 12)) = 0). { transitivity (k * (mn - whole 12) + k * (mx - whole 12)); [ring|]. rewrite <- U1, <- U2. ring. }
    apply Qcmult_integral in E as [E|E]; [rewrite E in K; exfalso; exact (Qclt_not_eq _ _ K eq_refl)|]. rewrite (whole_add 12 12) in E. change (12 + 12)%Z with 24%Z in E.
    transitivity (mn + mx - whole 24 + whole 24); [ring|]. rewrite E. ring.
  - intros E. exists (/ (mx - mn)). split; [now apply inv_pos, sub_pos|]. apply forall2_map. intros p. split; cbn [fst snd]; now rewrite unit_middle.
Qed.
Lemma plain_sum arc m cs vs v : plain m = true -> parse_path arc (elts m) origin = Ok (cs, vs) -> normalise vs = Ok v ->
  exists l mn mx, v = Points l /\ coordinate vs mn /\ coordinate vs mx /\ (forall x, coordinate vs x -> mn <= x /\ x <= mx) /\
    (mn + mx = whole 24 <-> m <> arrow).
Proof.
  intros P Q N. destruct (plain_parsed arc m P) as (o & O & Q'). rewrite Q in Q'. injection Q' as <-. pose proof (plain_checked m P) as C. unfold check in C. rewrite O in C.
  destruct cs as [|c cs]; [discriminate|]. destruct vs as [|w vs]; [discriminate|]. apply andb_true_iff in C as (_ & C).
  unfold normalise in N. destruct (coords (w :: vs)) as [|x r] eqn:E; [discriminate|]. apply andb_true_iff in C as (C & D). apply eqb_prop in C. apply negb_true_iff in D.
  rewrite D in N. injection N as <-. eexists _, (least x r), (greatest x r). split; [reflexivity|].
  destruct (least_spec r x) as (L1 & L2). destruct (greatest_spec r x) as (G1 & G2). rewrite <- E in *.
  split; [now apply coords_in|]. split; [now apply coords_in|]. split; [intros y Y; apply coords_in in Y; auto|].
  rewrite <- Qc_eq_bool_iff, C. destruct m; cbn; split; intros H; congruence || reflexivity || discriminate.
Qed.
Lemma verts_inside arc c r x lg sw e g : arcs_inside arc -> in_icon c -> in_icon e -> r = (whole 10, whole 10) -> arc c r x lg sw e = Ok g ->
  Forall in_icon (arc_verts (fst g) (snd g)).
Proof.
  intros A C E R G. destruct g as (p & l). destruct (A _ _ _ _ _ _ _ _ C E R G) as (P & F). cbn [fst snd]. unfold arc_verts. constructor; [exact P|].
  clear G. induction F as [|t l (T1 & T2 & T3) F IH]; cbn [map concat app]; [constructor|]. constructor; [exact T1|]. constructor; [exact T2|]. constructor; [exact T3|]. exact IH.
Qed.
Lemma arc_last arc c r x lg sw e g : arcs_end arc -> arc c r x lg sw e = Ok g -> In e (arc_verts (fst g) (snd g)).
Proof.
  intros A G. destruct g as (p & l). destruct (A _ _ _ _ _ _ _ _ G) as (i & t & -> & <-). cbn [fst snd]. unfold arc_verts. right.
  rewrite map_app, concat_app. apply in_or_app. right. cbn. auto.
Qed.
Lemma whole_le a b : (a <= b)%Z -> whole a <= whole b.
Proof. intros H. unfold whole, Qcle. cbn [this Q2Qc]. rewrite !Qred_correct. now rewrite <- Zle_Qle. Qed.
Lemma at_in_icon x y : (2 <= x <= 22)%Z -> (2 <= y <= 22)%Z -> in_icon (at_ x y).
Proof. intros X Y. unfold in_icon, at_. cbn [fst snd]. repeat split; apply whole_le; lia. Qed.
Lemma point_sum arc cs vs : arcs_defined arc -> arcs_inside arc -> arcs_end arc -> parse_path arc (elts point_) origin = Ok (cs, vs) ->
  coordinate vs (whole 2) /\ coordinate vs (whole 22) /\ (forall x, coordinate vs x -> whole 2 <= x /\ x <= whole 22).
Proof.
  intros A I E Q. destruct (point_parsed arc A) as (g1 & g2 & g3 & g4 & G1 & G2 & G3 & G4 & Q'). rewrite Q in Q'. apply (f_equal (fun r => match r with Ok o => snd o | Err _ => [] end)) in Q'. cbn [snd] in Q'.
  rewrite Q'. clear Q Q' cs vs. split; [|split].
  - exists P0. split; [now left|]. right. reflexivity.
  - exists (at_ 12 22). split; [|right; reflexivity]. right. apply in_or_app. right. apply in_or_app. left. exact (arc_last _ _ _ _ _ _ _ _ E G2).
  - assert (F : Forall in_icon (P0 :: arc_verts (fst g1) (snd g1) ++ arc_verts (fst g2) (snd g2) ++ arc_verts (fst g3) (snd g3) ++ arc_verts (fst g4) (snd g4) ++ [P0])).
    { constructor; [apply at_in_icon; lia|]. rewrite !Forall_app.
      split; [exact (verts_inside _ _ _ _ _ _ _ _ I (at_in_icon 12 2 ltac:(lia) ltac:(lia)) (at_in_icon 2 12 ltac:(lia) ltac:(lia)) eq_refl G1)|].
      split; [exact (verts_inside _ _ _ _ _ _ _ _ I (at_in_icon 2 12 ltac:(lia) ltac:(lia)) (at_in_icon 12 22 ltac:(lia) ltac:(lia)) eq_refl G2)|].
      split; [exact (verts_inside _ _ _ _ _ _ _ _ I (at_in_icon 12 22 ltac:(lia) ltac:(lia)) (at_in_icon 22 12 ltac:(lia) ltac:(lia)) eq_refl G3)|].
      split; [exact (verts_inside _ _ _ _ _ _ _ _ I (at_in_icon 22 12 ltac:(lia) ltac:(lia)) (at_in_icon 12 2 ltac:(lia) ltac:(lia)) eq_refl G4)|].
      constructor; [apply at_in_icon; lia|constructor]. }
    intros x (p & H & X). rewrite Forall_forall in F. destruct (F p H) as (F1 & F2 & F3 & F4). destruct X as [->| ->]; auto.
Qed.
Lemma whole_lt a b : (a < b)%Z -> whole a < whole b.
Proof. intros H. unfold whole, Qclt. cbn [this Q2Qc]. rewrite !Qred_correct. now rewrite <- Zlt_Qlt. Qed.
Theorem centred arc m v cs : arcs_defined arc -> arcs_inside arc -> arcs_end arc -> path_of arc (number m) = Ok (v, cs) ->
  exists vs l, parse_path arc (map (element decimal) (tokenize (drawing m))) origin = Ok (cs, vs) /\ v = Points l /\
    ((exists k, 0 < k /\ Forall2 (about_middle k) vs l) <-> m <> arrow).
Proof.
  intros A I E P. destruct (path_of_ok arc A) as (J & _). destruct (J m) as (K & _). rewrite K in P. destruct (drawn arc m A) as (v' & cs' & vs & S & Q & N & _).
  rewrite P in S. injection S as <- <-. exists vs. fold (elts m). destruct (plain m) eqn:PL.
  - destruct (plain_sum arc m cs vs v PL Q N) as (l & mn & mx & -> & C1 & C2 & C3 & C4). exists l. split; [exact Q|]. split; [reflexivity|].
    rewrite (centred_if vs l mn mx N C1 C2 C3). exact C4.
  - assert (m = point_) as -> by (clear - PL; destruct m; try discriminate; reflexivity). destruct (point_sum arc cs vs A I E Q) as (C1 & C2 & C3).
    assert (NE : vs <> []) by (intros ->; destruct C1 as (? & [] & _)).
    destruct v as [l|].
    + exists l. split; [exact Q|]. split; [reflexivity|]. rewrite (centred_if vs l (whole 2) (whole 22) N C1 C2 C3). split; [discriminate|]. intros _. apply whole_add.
    + apply (normalise_nan vs NE) in N as (c & H). pose proof (H _ C1) as H1. pose proof (H _ C2) as H2. rewrite <- H2 in H1. exfalso.
      refine (Qclt_not_eq _ _ (whole_lt 2 22 _) H1). lia.
Qed.
(** Shapes. *)
Section Shapes.
Local Open Scope nat_scope.
Variable arc : point -> point -> Qc -> Qc -> Qc -> point -> res (point * list (point * point * point)).
Context {angle shape position axis_t : Type}.
Variable styled : mpath -> shape.
Variable turned : angle -> shape -> shape.
Variable aligned : position -> shape -> res shape.
Notation one := (one_marker arc styled turned aligned).
Notation from := (markers_from arc styled turned aligned).
Lemma one_ok types angles (axis : option axis_t) i p s : one types angles axis i p = Ok s ->
  exists t a q, value_at types i t /\ angle_at angles i a /\ path_of arc t = Ok q /\
    (axis = None -> s = turned a (styled q)) /\ (axis <> None -> aligned p (turned a (styled q)) = Ok s).
Proof.
  unfold one_marker. destruct (item types i) as [t|] eqn:T; cbn [typed bind]; [|discriminate]. destruct (path_of arc t) as [q|] eqn:Q; cbn [bind]; [|discriminate].
  assert (VT : value_at types i t). { destruct types as [a|l]; cbn [item] in T; [injection T as ->; constructor|]. destruct (nth_error l i) eqn:E; [|discriminate]. injection T as ->. now constructor. }
  destruct (angled turned (item angles i) (styled q)) as [s'|] eqn:G; cbn [bind]; [|discriminate].
  assert (VA : exists a, angle_at angles i a /\ s' = turned a (styled q)).
  { destruct angles as [a|l]; cbn [item] in G.
    - cbn in G. injection G as <-. exists a. split; [constructor; constructor|reflexivity].
    - destruct (nth_error l i) as [a|] eqn:E; cbn [angled] in G.
      + injection G as <-. exists a. split; [constructor; now constructor|reflexivity].
      + destruct l as [|a [|b l]]; try discriminate. injection G as <-. exists a. split; [apply angle_single|reflexivity]. }
  destruct VA as (a & VA & ->). intros H. exists t, a, q. repeat (split; [assumption|]). destruct axis; split; intros K; congruence.
Qed.
Lemma from_ok types angles (axis : option axis_t) : forall ps i l, from types angles axis i ps = Ok l ->
  length l = length ps /\ forall j p, nth_error ps j = Some p -> exists s, nth_error l j = Some s /\ one types angles axis (i + j) p = Ok s.
Proof.
  induction ps as [|p ps IH]; intros i l H; cbn [markers_from] in H; [injection H as <-; split; [reflexivity|intros [] ? E; discriminate E]|].
  destruct (one types angles axis i p) as [s|] eqn:O; cbn [bind] in H; [|discriminate]. destruct (from types angles axis (S i) ps) as [m|] eqn:F; cbn [bind] in H; [|discriminate].
  injection H as <-. destruct (IH _ _ F) as (L & N). split; [cbn; now rewrite L|]. intros [|j] q E; cbn [nth_error] in *.
  - injection E as <-. exists s. rewrite Nat.add_0_r. auto.
  - destruct (N j q E) as (s' & S1 & S2). exists s'. rewrite Nat.add_succ_r. auto.
Qed.
Theorem shapes types angles (axis : option axis_t) ps l : generate_markers arc styled turned aligned types angles axis ps = Ok l ->
  length l = length ps /\ forall i p, nth_error ps i = Some p ->
  exists s t a q, nth_error l i = Some s /\ value_at types i t /\ angle_at angles i a /\ path_of arc t = Ok q /\
    (axis = None -> s = turned a (styled q)) /\ (axis <> None -> aligned p (turned a (styled q)) = Ok s).
Proof.
  intros H. destruct (from_ok _ _ _ _ _ _ H) as (L & N). split; [exact L|]. intros i p E. destruct (N i p E) as (s & S1 & S2).
  destruct (one_ok _ _ _ _ _ _ S2) as (t & a & q & R). exists s, t, a, q. auto.
Qed.
Theorem shapes_exist types angles ps : arcs_defined arc ->
  (forall i, i < length ps -> exists t, value_at types i t /\ known t) -> (forall i, i < length ps -> exists a, angle_at angles i a) ->
  exists l, generate_markers arc styled turned aligned types angles (@None axis_t) ps = Ok l.
Proof.
  intros A T G. unfold generate_markers. assert (R : forall ps' i, i + length ps' <= length ps -> exists l, from types angles (@None axis_t) i ps' = Ok l); [|now apply R].
  induction ps' as [|p ps' IH]; intros i B; cbn [markers_from]; [eauto|]. cbn [length] in B.
  destruct (T i ltac:(lia)) as (t & VT & KT). destruct (G i ltac:(lia)) as (a & VA).
  destruct (proj1 (known_number t) KT) as (m & <-). destruct (path_of_ok arc A) as (P & _). destruct (P m) as (_ & q & Q).
  assert (O : one types angles (@None axis_t) i p = Ok (turned a (styled q))).
  { unfold one_marker. assert (item types i = inl (number m)) as -> by (inversion VT as [? ? E|? ? ? E]; subst; cbn [item]; [reflexivity|now rewrite E]).
    cbn [typed bind]. rewrite Q. cbn [bind]. assert (angled turned (item angles i) (styled q) = Ok (turned a (styled q))) as ->; [|reflexivity].
    inversion VA as [? ? ? V|? ?]; subst.
    - inversion V as [? ? E|? ? ? E]; subst; cbn [item]; [reflexivity|now rewrite E].
    - cbn [item]. destruct i as [|[|i]]; reflexivity. }
  rewrite O. cbn [bind]. destruct (IH (S i)) as (l & L); [lia|]. rewrite L. cbn [bind]. eauto.
Qed.
(** Too few types, even one for all. *)
Theorem short_types l angles ps : length l < length ps -> is_ok (generate_markers arc styled turned aligned (Each l) angles (@None axis_t) ps) = false.
Proof.
  intros L. destruct (generate_markers arc styled turned aligned (Each l) angles (@None axis_t) ps) as [r|] eqn:E; [|reflexivity]. exfalso.
  destruct (shapes _ _ _ _ _ E) as (_ & N). destruct (nth_error ps (length l)) as [p|] eqn:P; [|apply nth_error_None in P; lia].
  destruct (N _ _ P) as (s & t & a & q & _ & V & _). inversion V as [|? ? ? X]; subst. assert (nth_error l (length l) = None) by (apply nth_error_None; lia). congruence.
Qed.
(** The axis given has no effect but by being there. *)
Theorem axis_ignored types angles (a b : axis_t) ps :
  generate_markers arc styled turned aligned types angles (Some a) ps = generate_markers arc styled turned aligned types angles (Some b) ps.
Proof. unfold generate_markers. generalize 0. induction ps as [|p ps IH]; intros i; cbn [markers_from]; [reflexivity|]. rewrite IH. reflexivity. Qed.
End Shapes.
