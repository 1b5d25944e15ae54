(** Proofs that recording does not change transforms. *)
From Verif Require Import Base Registry Convert Command CommandSpec CommandFacts Execute Protocol Session SessionFacts Journal JournalSpec JournalFacts JournalPlainSpec.
From Verif Require Transform.
Open Scope string_scope.
Open Scope nat_scope.

(** ** Recording never fails and leaves the transforms alone *)
Lemma has_id id sg args kw : dmem (build_parameters id sg args kw) "id" = true.
Proof.
  unfold build_parameters. assert (G : forall l (p : dict string value), dmem p "id" = true -> dmem (fold_left add_missing l p) "id" = true).
  { induction l as [|[x v] l IH]; intros p Hp; [exact Hp|]. apply IH. unfold add_missing. cbn [fst snd]. destruct (dmem p x); [exact Hp|].
    apply dmem_in. apply dmem_in in Hp. rewrite dkeys_dset. destruct (dmem p (key_of x v)); [exact Hp|]. apply in_or_app. now left. }
  assert (G' : forall l (p : dict string value), dmem p "id" = true -> dmem (fold_left add_positional l p) "id" = true).
  { induction l as [|[x v] l IH]; intros p Hp; [exact Hp|]. apply IH. unfold add_positional. cbn [fst snd].
    apply dmem_in. apply dmem_in in Hp. rewrite dkeys_dset. destruct (dmem p (key_of x v)); [exact Hp|]. apply in_or_app. now left. }
  apply G, G, G'. reflexivity.
Qed.
Lemma note_ok s i k m sg args kw : exists s', note s i k m sg args kw = Ok s' /\ nodes s' = nodes s.
Proof. unfold note. destruct (on s); [|eauto]. unfold mk_command. rewrite has_id. cbn [bind]. eexists. split; reflexivity. Qed.
Lemma method_ok s i m v n : get s i = Ok n -> (exists sg, method_sig m = Some sg) -> has_method (t_class n) m = true ->
  exists s', method s i m v = Ok s' /\ nodes s' = upd (nodes s) i (assign m n v).
Proof.
  intros G (sg & S) H. unfold method. rewrite G. cbn [bind]. rewrite S, H.
  destruct (note_ok (put s i (assign m n v)) i (class_name (t_class n)) m sg [v] []) as (s' & E & N). exists s'. split; [exact E|]. rewrite N. reflexivity.
Qed.
Lemma methods_known k m : k <> Buf ->
  ((exists sg, method_sig m = Some sg) /\ has_method k m = true <-> In m (methods_of k)).
Proof.
  intros B. unfold method_sig, has_method, methods_of.
  destruct (String.eqb_spec m "set_base") as [->|N1]; [split; [intros _; now left|intros _; split; [eexists; reflexivity|destruct k; congruence || reflexivity]]|].
  destruct (String.eqb_spec m "set_next") as [->|N2]; [split; [intros _; now (right; left)|intros _; split; [eexists; reflexivity|destruct k; congruence || reflexivity]]|].
  destruct (String.eqb_spec m "set_buffer") as [->|N3]; [split; [intros _; now (right; right; left)|intros _; split; [eexists; reflexivity|destruct k; congruence || reflexivity]]|].
  assert (O : forall l, In m (["set_base"; "set_next"; "set_buffer"] ++ l)%list <-> In m l).
  { intros l. split; [intros H|intros H; apply in_or_app; now right]. apply in_app_or in H as [H|H]; [|exact H]. cbn in H. destruct H as [H|[H|[H|[]]]]; congruence. }
  rewrite O. clear O.
  destruct (String.eqb_spec m "set_operator") as [->|N4].
  { split; [intros [_ H]; destruct k; try discriminate H; now left|]. intros H. destruct k; try contradiction; [destruct H as [H|[]]; discriminate H|]. split; [eexists; reflexivity|reflexivity]. }
  destruct (String.eqb_spec m "set_left") as [->|N5].
  { split; [intros [_ H]; destruct k; try discriminate H; now (right; left)|]. intros H. destruct k; try contradiction; [destruct H as [H|[]]; discriminate H|]. split; [eexists; reflexivity|reflexivity]. }
  destruct (String.eqb_spec m "set_right") as [->|N6].
  { split; [intros [_ H]; destruct k; try discriminate H; now (right; right; left)|]. intros H. destruct k; try contradiction; [destruct H as [H|[]]; discriminate H|]. split; [eexists; reflexivity|reflexivity]. }
  destruct (String.eqb_spec m "set_colormap") as [->|N7].
  { split; [intros [_ H]; destruct k; try discriminate H; (congruence || now left)|]. intros H. destruct k; try contradiction; [|destruct H as [H|[H|[H|[]]]]; discriminate H]. split; [eexists; reflexivity|reflexivity]. }
  split; [intros [(sg & H) _]; discriminate H|]. intros H. exfalso. destruct k; try contradiction; cbn in H; intuition congruence.
Qed.
Lemma methods_there s i m v n : get s i = Ok n -> t_class n <> Buf ->
  (In m (methods_of (t_class n)) -> exists s', method s i m v = Ok s') /\ (~ In m (methods_of (t_class n)) -> method s i m v = Err AttributeError).
Proof.
  intros G B. rewrite <- methods_known by exact B. split.
  - intros [S H]. destruct (method_ok s i m v n G S H) as (s' & E & _). eauto.
  - intros X. apply method_missing with (n := n); [exact G|]. destruct (method_sig m) as [sg|]; [|now left]. right.
    destruct (has_method (t_class n) m); [|reflexivity]. destruct X. split; [eauto|reflexivity].
Qed.
Lemma colormap_kept s i v s' : method s i "set_colormap" v = Ok s' -> nodes s' = nodes s.
Proof.
  intros M. destruct (get s i) as [n|] eqn:G; [|unfold method in M; rewrite G in M; discriminate].
  destruct (has_method (t_class n) "set_colormap") eqn:H.
  - destruct (method_ok s i "set_colormap" v n G (ex_intro _ _ eq_refl) H) as (q & E & N). rewrite M in E. injection E as <-. rewrite N.
    unfold get in G. destruct (nth_error (nodes s) i) as [x|] eqn:X; [|discriminate]. injection G as ->.
    replace (assign "set_colormap" n v) with n by now destruct n. now apply upd_same.
  - rewrite (method_missing s i _ v n G (or_intror H)) in M. discriminate.
Qed.
Lemma make0_ok s k : k <> Buf -> exists s' b, make0 s k = Ok (s', length (nodes s)) /\ nodes s' = (nodes s ++ [blank k b])%list /\ arg b "buffer" = VNone.
Proof.
  intros K. unfold make0. destruct (bind_args (sig_of k) [] []) as [b|] eqn:B; [|destruct k; (congruence || discriminate B)].
  cbn [bind]. unfold alloc.
  destruct (note_ok (mkSt (fst (create (reg s))) (nodes s ++ [blank k b])%list (log s) (on s)) (length (nodes s)) (class_name k) (path k) (sig_of k) [] []) as (s' & E & N).
  exists s', b. rewrite E. cbn [bind]. split; [reflexivity|]. split; [exact N|].
  destruct k; (congruence || (injection B as <-; reflexivity)).
Qed.

(** ** The relation *)
Section Sim.
Variable K : kind_code.
Hypothesis HC : codes K.
Lemma HK k a : match k with
  | Op o => K k a = Transform.KOp (same_opr o)
  | Out => exists n, K k a = Transform.KOut n
  | _ => (forall o, K k a <> Transform.KOp o) /\ (forall n, K k a <> Transform.KOut n)
  end.
Proof. pose proof (HC k a) as H. destruct k; try exact H; try (split; apply H). destruct H as (p & ->). split; discriminate. Qed.
Lemma HM k a : k <> Buf -> (match k with Cmap => True | _ => False end <-> exists p, K k a = Transform.KMap p).
Proof.
  intros B. pose proof (HC k a) as H. destruct k as [|c| | |u| |o].
  - congruence.
  - split; [intros []|]. intros (p & E). now apply (proj2 (proj2 H)) in E.
  - split; [intros []|]. intros (p & E). now apply (proj2 (proj2 H)) in E.
  - split; [intros _; exact H|intros _; exact I].
  - split; [intros []|]. intros (p & E). now apply (proj2 (proj2 H)) in E.
  - split; [intros []|]. destruct H as (n & ->). intros (p & E). discriminate.
  - split; [intros []|]. rewrite H. intros (p & E). discriminate.
Qed.

(** An object of the list that is not in [J], under its class's name. *)
Definition points (J : list nat) (ns : list tnode) (v : value) : Prop :=
  match v with VObj c i => ~ In i J /\ exists m, nth_error ns i = Some m /\ class_name (t_class m) = c | _ => True end.
Record fine (J : list nat) (ns : list tnode) (n : tnode) : Prop := mkFine {
  f_class : In (t_class n) classes;
  f_left : points J ns (t_left n); f_right : points J ns (t_right n); f_next : points J ns (t_next n); f_base : points J ns (t_base n);
  f_nt : transform_or_none (t_next n); f_bt : transform_or_none (t_base n) }.
Record sim (J : list nat) (ns : list tnode) (h : Transform.heap value) : Prop := mkSim {
  s_len : length h = length ns;
  s_node : forall k n, ~ In k J -> nth_error ns k = Some n -> nth_error h k = Some (as_node K n);
  s_fine : forall k n, ~ In k J -> nth_error ns k = Some n -> fine J ns n }.

Lemma sim_get J s h i : sim J (nodes s) h -> ~ In i J ->
  match get s i with
  | Ok n => Transform.get h i = Ok (as_node K n) /\ fine J (nodes s) n /\ nth_error (nodes s) i = Some n
  | Err e => Transform.get h i = Err e /\ nth_error (nodes s) i = None
  end.
Proof.
  intros H N. unfold get, Transform.get. destruct (nth_error (nodes s) i) as [n|] eqn:E.
  - rewrite (s_node _ _ _ H i n N E). split; [reflexivity|]. split; [exact (s_fine _ _ _ H i n N E)|reflexivity].
  - assert (E' : nth_error h i = None) by (apply nth_error_None in E; apply nth_error_None; rewrite (s_len _ _ _ H); exact E).
    rewrite E'. auto.
Qed.
Lemma buf_name k : In k classes -> String.eqb (class_name k) "Buffer" = match k with Buf => true | _ => false end.
Proof. intros H. unfold classes in H. cbn [In] in H. repeat (destruct H as [<-|H]; [reflexivity|]). destruct H. Qed.
(** What a value that is a transform points to. *)
Lemma operand_at J ns h v t : sim J ns h -> points J ns v -> a_transform v = Some t ->
  ~ In t J /\ exists m, nth_error ns t = Some m /\ t_class m <> Buf.
Proof.
  intros H P A. destruct v; try discriminate A. cbn [a_transform] in A. cbn [points] in P. destruct P as (N & m & E & C).
  destruct (String.eqb_spec c "Buffer") as [->|X]; [discriminate A|]. injection A as <-. split; [exact N|]. exists m. split; [exact E|].
  intros B. apply X. rewrite <- C, B. reflexivity.
Qed.
Lemma as_operand_some v t : a_transform v = Some t -> as_operand v = Transform.OT t.
Proof. unfold as_operand. now intros ->. Qed.
Lemma as_operand_none v : a_transform v = None -> Transform.is_transform (as_operand v) = false.
Proof. unfold as_operand. intros ->. destruct v; reflexivity. Qed.

(** ** Growing lists *)
(** [ns'] keeps the first elements of [ns]; those in [J] keep their class. *)
Definition grows (J : list nat) (ns ns' : list tnode) : Prop :=
  length ns <= length ns' /\
  (forall k n, nth_error ns k = Some n -> ~ In k J -> nth_error ns' k = Some n) /\
  (forall k n, nth_error ns k = Some n -> exists n', nth_error ns' k = Some n' /\ t_class n' = t_class n).
Lemma points_grows J J' ns ns' v : points J ns v -> (forall k n, nth_error ns k = Some n -> exists n', nth_error ns' k = Some n' /\ t_class n' = t_class n) ->
  (forall i, i < length ns -> In i J' -> In i J) -> points J' ns' v.
Proof.
  destruct v; cbn; auto. intros (N & m & E & C) G S. split.
  - intros I. apply N, S; [|exact I]. apply nth_error_Some. congruence.
  - destruct (G _ _ E) as (m' & E' & C'). exists m'. split; [exact E'|congruence].
Qed.
Lemma fine_grows J J' ns ns' n : fine J ns n -> (forall k n, nth_error ns k = Some n -> exists n', nth_error ns' k = Some n' /\ t_class n' = t_class n) ->
  (forall i, i < length ns -> In i J' -> In i J) -> fine J' ns' n.
Proof. intros [A B C D E F H] G S. constructor; auto; eapply points_grows; eassumption. Qed.

(** ** The base *)
Lemma base_sim J s h f : forall i, sim J (nodes s) h -> ~ In i J ->
  match base_of f s i with
  | Ok b => Transform.base f h i = Ok b /\ ~ In b J /\ exists m, nth_error (nodes s) b = Some m
  | Err e => Transform.base f h i = Err e
  end.
Proof.
  induction f as [|f IH]; intros i H N; [reflexivity|]. cbn [base_of Transform.base].
  pose proof (sim_get J s h i H N) as G. destruct (get s i) as [n|e]; [|rewrite (proj1 G); reflexivity].
  destruct G as (G & F & E). rewrite G. cbn [bind]. change (Transform.n_base (as_node K n)) with (as_base (t_base n)).
  pose proof (f_base _ _ _ F) as P. destruct (t_base n); cbn [as_base]; try (split; [reflexivity|split; [exact N|eauto]]).
  cbn [points] in P. apply IH; [exact H|exact (proj1 P)].
Qed.
Lemma base_app J s h t f : sim J (nodes s) h -> forall i, ~ In i J -> i < length h -> Transform.base f (h ++ t)%list i = Transform.base f h i.
Proof.
  intros H. induction f as [|f IH]; intros i N L; [reflexivity|]. cbn [Transform.base]. unfold Transform.get. rewrite nth_error_app1 by exact L.
  destruct (nth_error (nodes s) i) as [n|] eqn:E; [|apply nth_error_None in E; rewrite (s_len _ _ _ H) in L; lia].
  rewrite (s_node _ _ _ H i n N E). cbn [bind as_node Transform.n_base].
  pose proof (f_base _ _ _ (s_fine _ _ _ H i n N E)) as P. destruct (t_base n); cbn [as_base]; try reflexivity.
  cbn [points] in P. destruct P as (P & m & Q & _). apply IH; [exact P|]. rewrite (s_len _ _ _ H). apply nth_error_Some. congruence.
Qed.
Lemma upd_upd {A} (l : list A) i x y : upd (upd l i x) i y = upd l i y.
Proof. revert i. induction l; destruct i; cbn; auto. now rewrite IHl. Qed.
Lemma upd_at {A} (l : list A) i x : i < length l -> nth_error (upd l i x) i = Some x.
Proof. intros H. rewrite nth_error_upd, Nat.eqb_refl. destruct (nth_error l i) eqn:E; [reflexivity|]. apply nth_error_None in E. lia. Qed.
Lemma upd_else {A} (l : list A) i j x : j <> i -> nth_error (upd l i x) j = nth_error l j.
Proof. intros H. rewrite nth_error_upd. apply Nat.eqb_neq in H. now rewrite H. Qed.

(** What copying does to both. *)
Definition copied_alike (J : list nat) (s : st) (r : res (st * nat)) (p : res (Transform.heap value * nat)) : Prop :=
  match r, p with
  | Ok (s', j), Ok (h', j') => j = j' /\ length (nodes s) <= j < length (nodes s') /\ sim J (nodes s') h' /\
      (forall k, k < length (nodes s) -> nth_error (nodes s') k = nth_error (nodes s) k) /\
      (exists m, nth_error (nodes s') j = Some m /\ t_class m <> Buf)
  | Err e, Err e' => e = e'
  | _, _ => False
  end.
Lemma sim_snoc J ns h x y : sim J ns h -> sim (length ns :: J) (ns ++ [x])%list (h ++ [y])%list.
Proof.
  intros H. assert (G : forall k n, nth_error ns k = Some n -> exists n', nth_error (ns ++ [x])%list k = Some n' /\ t_class n' = t_class n).
  { intros k n E. exists n. split; [|reflexivity]. rewrite nth_error_app1; [exact E|]. apply nth_error_Some. congruence. }
  assert (A : forall k n, ~ In k (length ns :: J) -> nth_error (ns ++ [x])%list k = Some n -> nth_error ns k = Some n /\ k < length ns /\ ~ In k J).
  { intros k n N E. cbn [In] in N. assert (L : k < length ns).
    { assert (k < length (ns ++ [x])%list) by (apply nth_error_Some; congruence). rewrite app_length in *. cbn in *. lia. }
    rewrite nth_error_app1 in E by exact L. tauto. }
  constructor.
  - rewrite !app_length, (s_len _ _ _ H). reflexivity.
  - intros k n N E. destruct (A k n N E) as (E' & L & N'). rewrite nth_error_app1 by (rewrite (s_len _ _ _ H); exact L). now apply (s_node _ _ _ H).
  - intros k n N E. destruct (A k n N E) as (E' & L & N'). eapply fine_grows; [exact (s_fine _ _ _ H k n N' E')|exact G|].
    intros i Li [I|I]; [lia|exact I].
Qed.
Lemma upd_class {ns : list tnode} j x nj : nth_error ns j = Some nj -> t_class x = t_class nj ->
  forall k n, nth_error ns k = Some n -> exists n', nth_error (upd ns j x) k = Some n' /\ t_class n' = t_class n.
Proof.
  intros E C k n Ek. destruct (Nat.eq_dec k j) as [->|N]; [|exists n; rewrite upd_else by exact N; auto].
  exists x. rewrite upd_at by (apply nth_error_Some; congruence). split; [reflexivity|congruence].
Qed.
Lemma sim_upd_in J ns h j x nj : sim J ns h -> In j J -> nth_error ns j = Some nj -> t_class x = t_class nj -> sim J (upd ns j x) h.
Proof.
  intros H I E C. constructor.
  - rewrite upd_length. exact (s_len _ _ _ H).
  - intros k n N Ek. rewrite upd_else in Ek by (intros ->; tauto). now apply (s_node _ _ _ H).
  - intros k n N Ek. rewrite upd_else in Ek by (intros ->; tauto).
    eapply fine_grows; [exact (s_fine _ _ _ H k n N Ek)|exact (upd_class j x nj E C)|auto].
Qed.
Lemma sim_close J ns h j n y : sim (j :: J) ns h -> ~ In j J -> nth_error ns j = Some n -> fine (j :: J) ns n \/ fine J ns n -> y = as_node K n -> sim J ns (upd h j y).
Proof.
  intros H N E F ->. assert (L : j < length h) by (rewrite (s_len _ _ _ H); apply nth_error_Some; congruence).
  assert (D : forall m, fine (j :: J) ns m -> fine J ns m) by (intros m Hm; eapply fine_grows; [exact Hm|eauto|intros i _ I; now right]).
  constructor.
  - rewrite upd_length. exact (s_len _ _ _ H).
  - intros k m Nk Ek. destruct (Nat.eq_dec k j) as [->|X].
    + rewrite upd_at by exact L. congruence.
    + rewrite upd_else by exact X. apply (s_node _ _ _ H); [|exact Ek]. intros [I|I]; [now apply X|tauto].
  - intros k m Nk Ek. destruct (Nat.eq_dec k j) as [->|X].
    + assert (m = n) by congruence. subst m. destruct F; auto.
    + apply D, (s_fine _ _ _ H k m); [|exact Ek]. intros [I|I]; [now apply X|tauto].
Qed.

Definition not_buffer (c : st) (i : nat) : Prop := forall n, nth_error (nodes c) i = Some n -> t_class n <> Buf.
Definition copy_like (f : nat) : Prop := forall J s h i, sim J (nodes s) h -> (forall k, In k J -> k < length (nodes s)) -> ~ In i J -> not_buffer s i ->
  copied_alike J s (copy f s i) (Transform.copy f h i).
Definition plain_operand (f : nat) (h : Transform.heap value) (o : Transform.operand value) : res (Transform.heap value * Transform.operand value) :=
  match o with
  | Transform.OT j => let* r := Transform.copy f h j in Ok (fst r, Transform.OT (snd r))
  | _ => Ok (h, o)
  end.
Lemma obj_transform s i m : nth_error (nodes s) i = Some m -> In (t_class m) classes -> t_class m <> Buf -> a_transform (obj s i) = Some i.
Proof.
  intros E C N. unfold obj, cls_in. rewrite E. cbn [a_transform]. rewrite (buf_name _ C). revert N. destruct (t_class m); intros N; (reflexivity || congruence).
Qed.
(** Copying an operand. *)
Lemma operand_sim f J s h v : copy_like f -> sim J (nodes s) h -> (forall k, In k J -> k < length (nodes s)) -> points J (nodes s) v ->
  match (match a_transform v with Some t => let* r := copy f s t in Ok (fst r, obj (fst r) (snd r)) | None => Ok (s, v) end), plain_operand f h (as_operand v) with
  | Ok (s', w), Ok (h', o) => o = as_operand w /\ sim J (nodes s') h' /\ length (nodes s) <= length (nodes s') /\
      (forall k, k < length (nodes s) -> nth_error (nodes s') k = nth_error (nodes s) k) /\ points J (nodes s') w /\
      (a_transform v <> None -> a_transform w <> None) /\ (a_transform v = None -> w = v /\ s' = s)
  | Err e, Err e' => e = e'
  | _, _ => False
  end.
Proof.
  intros IH H HJ P. destruct (a_transform v) as [t|] eqn:A.
  - rewrite (as_operand_some _ _ A). cbn [plain_operand]. destruct (operand_at J (nodes s) h v t H P A) as (N & m & E & B).
    pose proof (IH J s h t H HJ N) as C. specialize (C (fun n En => ltac:(congruence))). unfold copied_alike in C.
    destruct (copy f s t) as [[s' j]|e], (Transform.copy f h t) as [[h' j']|e']; cbn [bind fst snd]; try contradiction; [|exact C].
    destruct C as (<- & L & S & F & m' & Em & Bm).
    assert (NJ : ~ In j J) by (intros I; apply HJ in I; lia).
    pose proof (f_class _ _ _ (s_fine _ _ _ S j m' NJ Em)) as Cm.
    pose proof (obj_transform s' j m' Em Cm Bm) as O.
    repeat (split; [first [exact S | exact F | lia | now rewrite (as_operand_some _ _ O)]|]). split; [|split; [intros _; congruence|discriminate]].
    unfold obj, cls_in. rewrite Em. cbn [points]. split; [exact NJ|eauto].
  - assert (Q : plain_operand f h (as_operand v) = Ok (h, as_operand v)) by (unfold as_operand; rewrite A; destruct v; reflexivity).
    rewrite Q. repeat (split; [first [reflexivity | exact H | lia | auto; fail | exact P | tauto]|]). tauto.
Qed.

Lemma plain_copy f h i : Transform.copy (S f) h i =
  (let* n := Transform.get h i in
   let* b := Transform.base (S (length h)) h i in
   let h1 := (h ++ [Transform.mkNode (Transform.n_kind n) Transform.ON Transform.ON Transform.ON None None])%list in
   let j := length h in
   let* r1 := plain_operand f h1 (Transform.n_next n) in
   match Transform.n_kind n with
   | Transform.KOp _ =>
       let* r2 := plain_operand f (fst r1) (Transform.n_left n) in
       if Transform.is_transform (Transform.n_right n) then
         let* r3 := plain_operand f (fst r2) (Transform.n_right n) in
         Ok (upd (fst r3) j (Transform.mkNode (Transform.n_kind n) (snd r2) (snd r3) (snd r1) (Transform.n_buf n) (Some b)), j)
       else Ok (upd (fst r2) j (Transform.mkNode (Transform.n_kind n) (Transform.n_left n) Transform.ON (snd r1) (Transform.n_buf n) (Some b)), j)
   | _ => Ok (upd (fst r1) j (Transform.mkNode (Transform.n_kind n) Transform.ON Transform.ON (snd r1) (Transform.n_buf n) (Some b)), j)
   end).
Proof. reflexivity. Qed.
(** An operand copied and given to a method of the object [j]. *)
Definition give f s v m j :=
  match a_transform v with
  | Some t => let* r := copy f s t in method (fst r) j m (obj (fst r) (snd r))
  | None => method s j m v
  end.
Lemma give_sim f J s h v m j nj : copy_like f -> sim J (nodes s) h -> (forall k, In k J -> k < length (nodes s)) -> points J (nodes s) v ->
  In j J -> nth_error (nodes s) j = Some nj -> (exists sg, method_sig m = Some sg) -> has_method (t_class nj) m = true ->
  match give f s v m j, plain_operand f h (as_operand v) with
  | Ok s', Ok (h', o) => exists w, o = as_operand w /\ nth_error (nodes s') j = Some (assign m nj w) /\ sim J (nodes s') h' /\
      length (nodes s) <= length (nodes s') /\ (forall k, k < length (nodes s) -> k <> j -> nth_error (nodes s') k = nth_error (nodes s) k) /\
      points J (nodes s') w /\ (a_transform v <> None -> a_transform w <> None) /\ (a_transform v = None -> w = v)
  | Err e, Err e' => e = e'
  | _, _ => False
  end.
Proof.
  intros IH H HJ P I E S M. pose proof (operand_sim f J s h v IH H HJ P) as O. unfold give.
  assert (D : forall s1 w h1, sim J (nodes s1) h1 -> length (nodes s) <= length (nodes s1) ->
    (forall k, k < length (nodes s) -> nth_error (nodes s1) k = nth_error (nodes s) k) -> points J (nodes s1) w ->
    exists s', method s1 j m w = Ok s' /\ nth_error (nodes s') j = Some (assign m nj w) /\ sim J (nodes s') h1 /\
      length (nodes s) <= length (nodes s') /\ (forall k, k < length (nodes s) -> k <> j -> nth_error (nodes s') k = nth_error (nodes s) k) /\
      points J (nodes s') w).
  { intros s1 w h1 H1 L F Pw. assert (Ej : nth_error (nodes s1) j = Some nj) by (rewrite F; [exact E|]; auto).
    assert (Gj : get s1 j = Ok nj) by (unfold get; now rewrite Ej).
    destruct (method_ok s1 j m w nj Gj S M) as (s' & Es & Ns). exists s'. split; [exact Es|]. rewrite Ns.
    assert (Lj : j < length (nodes s1)) by (apply nth_error_Some; congruence).
    split; [now apply upd_at|]. split; [eapply sim_upd_in; [exact H1|exact I|exact Ej|apply assign_class]|].
    split; [rewrite upd_length; exact L|]. split; [intros k Lk Nk; rewrite upd_else by exact Nk; now apply F|].
    eapply points_grows; [exact Pw|apply (upd_class j _ nj Ej), assign_class|auto]. }
  destruct (a_transform v) as [t|] eqn:A.
  - destruct (copy f s t) as [[s1 t']|e]; cbn [bind fst snd] in *; destruct (plain_operand f h (as_operand v)) as [[h1 o]|e']; try contradiction; [|exact O].
    destruct O as (-> & H1 & L & F & Pw & T & _). destruct (D s1 (obj s1 t') h1 H1 L F Pw) as (s' & -> & A1 & A2 & A3 & A4 & A5).
    exists (obj s1 t'). repeat (split; [assumption || reflexivity|]). discriminate.
  - destruct (plain_operand f h (as_operand v)) as [[h1 o]|e']; [|contradiction].
    destruct O as (-> & H1 & L & F & Pw & T & _). destruct (D s v h1 H1 L F Pw) as (s' & -> & A1 & A2 & A3 & A4 & A5).
    exists v. repeat (split; [assumption || reflexivity|]). reflexivity.
Qed.

Lemma copy_unfold f s i : copy (S f) s i =
  (let* n := get s i in
   let* r := make0 s (t_class n) in
   let j := snd r in
   let* s1 := method (fst r) j "set_buffer" (t_buf n) in
   let* b := base_of (length (nodes s1)) s1 i in
   let* s2 := method s1 j "set_base" (obj s1 b) in
   let* s3 := match a_transform (t_next n) with Some _ => give f s2 (t_next n) "set_next" j | None => Ok s2 end in
   match t_class n with
   | Op _ =>
       let* s4 := method s3 j "set_operator" (arg (t_attrs n) "operator") in
       let* s5 := give f s4 (t_left n) "set_left" j in
       let* s6 := match a_transform (t_right n) with
                  | Some _ => give f s5 (t_right n) "set_right" j
                  | None => method s5 j "set_left" (t_left n)
                  end in
       Ok (s6, j)
   | _ => let* m := get s3 j in
          Ok (put s3 j (mkT (t_class m) (t_left m) (t_right m) (t_next m) (t_buf m) (t_base m) (t_attrs n)), j)
   end).
Proof. reflexivity. Qed.

(** The state of the copy being made. *)
Record making (J : list nat) (s s' : st) (h : Transform.heap value) (j : nat) (x : tnode) : Prop := mkMaking {
  m_sim : sim (j :: J) (nodes s') h; m_len : length (nodes s) < length (nodes s');
  m_frame : forall k, k < length (nodes s) -> nth_error (nodes s') k = nth_error (nodes s) k;
  m_at : nth_error (nodes s') j = Some x }.
Lemma making_method J s s' h x m v : making J s s' h (length (nodes s)) x -> (exists sg, method_sig m = Some sg) -> has_method (t_class x) m = true ->
  exists s'', method s' (length (nodes s)) m v = Ok s'' /\ making J s s'' h (length (nodes s)) (assign m x v) /\ length (nodes s'') = length (nodes s') /\
    (forall k n, nth_error (nodes s') k = Some n -> exists n', nth_error (nodes s'') k = Some n' /\ t_class n' = t_class n).
Proof.
  intros [H L F A] S M. assert (G : get s' (length (nodes s)) = Ok x) by (unfold get; now rewrite A).
  destruct (method_ok s' (length (nodes s)) m v x G S M) as (s'' & E & N). exists s''. split; [exact E|].
  split; [|split; [rewrite N; apply upd_length|rewrite N; exact (upd_class _ _ _ A (assign_class m x v))]]. constructor; rewrite ?N.
  - eapply sim_upd_in; [exact H|now left|exact A|apply assign_class].
  - now rewrite upd_length.
  - intros k Lk. rewrite upd_else by lia. now apply F.
  - now apply upd_at.
Qed.
Lemma making_give J s s' h x m v f : copy_like f -> (forall k, In k J -> k < length (nodes s)) ->
  making J s s' h (length (nodes s)) x -> (exists sg, method_sig m = Some sg) -> has_method (t_class x) m = true -> points (length (nodes s) :: J) (nodes s') v ->
  match give f s' v m (length (nodes s)), plain_operand f h (as_operand v) with
  | Ok s'', Ok (h', o) => exists w, o = as_operand w /\ making J s s'' h' (length (nodes s)) (assign m x w) /\
      points (length (nodes s) :: J) (nodes s'') w /\ (a_transform v <> None -> a_transform w <> None) /\ (a_transform v = None -> w = v) /\
      (forall k n, nth_error (nodes s') k = Some n -> exists n', nth_error (nodes s'') k = Some n' /\ t_class n' = t_class n)
  | Err e, Err e' => e = e'
  | _, _ => False
  end.
Proof.
  intros IH HJ [H L F A] S M P.
  assert (HJ' : forall k, In k (length (nodes s) :: J) -> k < length (nodes s')) by (intros k [<-|I]; [exact L|apply HJ in I; lia]).
  pose proof (give_sim f (length (nodes s) :: J) s' h v m (length (nodes s)) x IH H HJ' P (or_introl eq_refl) A S M) as O.
  destruct (give f s' v m (length (nodes s))) as [s''|e], (plain_operand f h (as_operand v)) as [[h' o]|e']; try exact O.
  destruct O as (w & -> & Aw & Hw & Lw & Fw & Pw & Tw & Nw). exists w. split; [reflexivity|]. split; [|split; [exact Pw|split; [exact Tw|split; [exact Nw|]]]].
  - constructor; [exact Hw|lia| |exact Aw]. intros k Lk. rewrite Fw by lia. now apply F.
  - intros k n En. assert (Lk : k < length (nodes s')) by (apply nth_error_Some; congruence).
    destruct (Nat.eq_dec k (length (nodes s))) as [->|X].
    + exists (assign m x w). split; [exact Aw|]. rewrite assign_class. congruence.
    + exists n. split; [rewrite Fw by (assumption || lia); exact En|reflexivity].
Qed.
Lemma keeps (J : list nat) ns ns' v : points J ns v -> (forall k n, nth_error ns k = Some n -> exists n', nth_error ns' k = Some n' /\ t_class n' = t_class n) -> points J ns' v.
Proof. intros P G. eapply points_grows; [exact P|exact G|auto]. Qed.
Lemma base_kind J s h f : sim J (nodes s) h -> forall i b, ~ In i J -> not_buffer s i -> base_of f s i = Ok b -> exists m, nth_error (nodes s) b = Some m /\ t_class m <> Buf /\ In (t_class m) classes.
Proof.
  intros H. induction f as [|f IH]; intros i b N T E; [discriminate E|]. cbn [base_of] in E. unfold get in E.
  destruct (nth_error (nodes s) i) as [n|] eqn:En; [|discriminate E]. cbn [bind] in E. pose proof (s_fine _ _ _ H i n N En) as F.
  assert (Here : Ok i = Ok b -> exists m, nth_error (nodes s) b = Some m /\ t_class m <> Buf /\ In (t_class m) classes).
  { intros X. injection X as <-. exists n. split; [exact En|]. split; [exact (T n En)|exact (f_class _ _ _ F)]. }
  pose proof (f_base _ _ _ F) as P. pose proof (f_bt _ _ _ F) as Q. destruct (t_base n) eqn:Eb; try exact (Here E).
  cbn [points] in P. destruct P as (P & m & Em & C). eapply (IH _ b P); [|exact E]. intros m' Em'. assert (m' = m) by congruence. subst m'.
  intros B. rewrite B in C. destruct Q as [Q|Q]; [discriminate Q|]. apply Q. rewrite <- C. reflexivity.
Qed.

Lemma copy_sim f : copy_like f.
Proof.
  induction f as [|f IH]; intros J s h i H HJ NI T; [reflexivity|]. rewrite copy_unfold, plain_copy.
  pose proof (sim_get J s h i H NI) as G. destruct (get s i) as [n|e]; [|now rewrite (proj1 G)].
  destruct G as (G & Fn & En). rewrite G. cbn [bind].
  pose proof (T n En) as Tn. destruct (make0_ok s (t_class n) Tn) as (s0 & b0 & E0 & N0 & B0). rewrite E0. cbn [bind fst snd].
  set (j := length (nodes s)) in *.
  assert (Ki : In (t_class n) classes) by exact (f_class _ _ _ Fn).
  set (h1 := (h ++ [Transform.mkNode (Transform.n_kind (as_node K n)) Transform.ON Transform.ON Transform.ON None None])%list).
  assert (M0 : making J s s0 h1 j (blank (t_class n) b0)).
  { constructor; rewrite N0.
    - apply sim_snoc. exact H.
    - rewrite app_length. cbn. lia.
    - intros k Lk. now rewrite nth_error_app1.
    - rewrite nth_error_app2, Nat.sub_diag by lia. reflexivity. }
  assert (HM : forall m, In m ["set_buffer"; "set_base"; "set_next"] -> has_method (t_class n) m = true).
  { intros m Hm. destruct (t_class n); try congruence; cbn [In] in Hm; repeat (destruct Hm as [<-|Hm]; [reflexivity|]); destruct Hm. }
  destruct (making_method J s s0 h1 (blank (t_class n) b0) "set_buffer" (t_buf n) M0 (ex_intro _ _ eq_refl)) as (s1 & E1 & M1 & L1 & G1); [apply HM; cbn; tauto|].
  fold j in E1. rewrite E1. cbn [bind].
  assert (Lj : length h = j) by exact (s_len _ _ _ H).
  assert (LN : length (nodes s1) = S (length h)) by (rewrite L1, N0, app_length, Lj; cbn; unfold j; lia).
  assert (Li : i < length (nodes s)) by (apply nth_error_Some; congruence).
  assert (NI' : ~ In i (j :: J)). { intros [I|I]; [|tauto]. unfold j in I. lia. }
  pose proof (base_sim (j :: J) s1 h1 (length (nodes s1)) i (m_sim _ _ _ _ _ _ M1) NI') as Bs.
  assert (Eb : Transform.base (length (nodes s1)) h1 i = Transform.base (S (length h)) h i).
  { rewrite LN. apply (base_app J s); [exact H|exact NI|]. rewrite Lj. exact Li. }
  rewrite Eb in Bs.
  assert (T1 : not_buffer s1 i) by (intros m Em; rewrite (m_frame _ _ _ _ _ _ M1) in Em by exact Li; exact (T m Em)).
  pose proof (base_kind (j :: J) s1 h1 (length (nodes s1)) (m_sim _ _ _ _ _ _ M1) i) as Bk.
  destruct (base_of (length (nodes s1)) s1 i) as [b|e]; [|rewrite Bs; reflexivity].
  destruct Bs as (Bs & Nb & _). rewrite Bs. cbn [bind]. destruct (Bk b NI' T1 eq_refl) as (mb & Emb & Bmb & Cmb). clear Bk.
  destruct (making_method J s s1 h1 _ "set_base" (obj s1 b) M1 (ex_intro _ _ eq_refl)) as (s2 & E2 & M2 & L2 & G2); [rewrite assign_class; apply HM; cbn; tauto|].
  fold j in E2. rewrite E2. cbn [bind].
  pose proof (obj_transform s1 b mb Emb Cmb Bmb) as Ob.
  assert (Pb : points (j :: J) (nodes s2) (obj s1 b)) by (eapply keeps; [|exact G2]; unfold obj, cls_in; rewrite Emb; cbn [points]; eauto).
  assert (Old : forall v s', points J (nodes s) v -> (forall k, k < length (nodes s) -> nth_error (nodes s') k = nth_error (nodes s) k) -> points (j :: J) (nodes s') v).
  { intros v s' P F. eapply points_grows; [exact P| |].
    - intros k m Em. exists m. split; [rewrite F; [exact Em|apply nth_error_Some; congruence]|reflexivity].
    - intros k Lk [I|I]; [unfold j in I; lia|exact I]. }
  set (x2 := assign "set_base" (assign "set_buffer" (blank (t_class n) b0) (t_buf n)) (obj s1 b)) in *.
  assert (X2 : x2 = mkT (t_class n) VNone VNone VNone (t_buf n) (obj s1 b) (attrs_of (t_class n) b0)) by reflexivity.
  (* next *)
  assert (Nx : match (match a_transform (t_next n) with Some _ => give f s2 (t_next n) "set_next" j | None => Ok s2 end),
                     plain_operand f h1 (as_operand (t_next n)) with
               | Ok s3, Ok (h3, o) => exists w, o = as_operand w /\ making J s s3 h3 j (assign "set_next" x2 w) /\ points (j :: J) (nodes s3) w /\ transform_or_none w /\
                   (forall k m, nth_error (nodes s2) k = Some m -> exists m', nth_error (nodes s3) k = Some m' /\ t_class m' = t_class m)
               | Err e, Err e' => e = e'
               | _, _ => False
               end).
  { destruct (a_transform (t_next n)) as [t|] eqn:A.
    - pose proof (making_give J s s2 h1 x2 "set_next" (t_next n) f IH HJ M2 (ex_intro _ _ eq_refl)) as Gv. fold j in Gv.
      specialize (Gv ltac:(apply HM; cbn; tauto) (Old _ _ (f_next _ _ _ Fn) (m_frame _ _ _ _ _ _ M2))).
      destruct (give f s2 (t_next n) "set_next" j) as [s3|e], (plain_operand f h1 (as_operand (t_next n))) as [[h3 o]|e']; try exact Gv.
      destruct Gv as (w & Ew & Mw & Pw & Tw & _ & Gw). exists w. repeat (split; [assumption|]). split; [|exact Gw]. right. apply Tw. congruence.
    - destruct (f_nt _ _ _ Fn) as [V|V]; [|congruence]. rewrite V. cbn [as_operand a_transform plain_operand]. exists VNone.
      split; [reflexivity|]. split; [rewrite X2; rewrite X2 in M2; exact M2|]. split; [exact I|]. split; [now left|eauto]. }
  change (Transform.n_next (as_node K n)) with (as_operand (t_next n)).
  destruct (match a_transform (t_next n) with Some _ => give f s2 (t_next n) "set_next" j | None => Ok s2 end) as [s3|e],
           (plain_operand f h1 (as_operand (t_next n))) as [[h3 o]|e']; try contradiction; [|exact Nx].
  destruct Nx as (w & -> & M3 & P3 & T3 & G3). cbn [bind fst snd].
  assert (Pb3 : points (j :: J) (nodes s3) (obj s1 b)) by exact (keeps _ _ _ _ Pb G3).
  assert (NJ : ~ In j J) by (intros I; apply HJ in I; unfold j in I; lia).
  set (x3 := assign "set_next" x2 w) in *.
  assert (X3 : x3 = mkT (t_class n) VNone VNone w (t_buf n) (obj s1 b) (attrs_of (t_class n) b0)) by reflexivity.
  (* the end, once the fields are known *)
  assert (End : forall s' h' x, making J s s' h' j x -> t_class x = t_class n -> fine (j :: J) (nodes s') x ->
                copied_alike J s (Ok (s', j)) (Ok (upd h' (length h) (as_node K x), length h))).
  { intros s' h' x [H' L' F' A'] C' Fx. rewrite Lj. cbn [copied_alike]. split; [reflexivity|]. split; [unfold j; lia|].
    split; [exact (sim_close J (nodes s') h' j x _ H' NJ A' (or_introl Fx) eq_refl)|]. split; [exact F'|]. exists x. split; [exact A'|congruence]. }
  change (Transform.n_kind (as_node K n)) with (K (t_class n) (t_attrs n)).
  assert (Leaf : (forall o, K (t_class n) (t_attrs n) <> Transform.KOp o) ->
    copied_alike J s
      (let* m := get s3 j in Ok (put s3 j (mkT (t_class m) (t_left m) (t_right m) (t_next m) (t_buf m) (t_base m) (t_attrs n)), j))
      (Ok (upd h3 (length h) (Transform.mkNode (K (t_class n) (t_attrs n)) Transform.ON Transform.ON (as_operand w) (Transform.n_buf (as_node K n)) (Some b)), length h))).
  { intros _. unfold get. rewrite (m_at _ _ _ _ _ _ M3). cbn [bind]. rewrite X3. cbn [t_class t_left t_right t_next t_buf t_base].
    set (x4 := mkT (t_class n) VNone VNone w (t_buf n) (obj s1 b) (t_attrs n)).
    apply (End (put s3 j x4) h3 x4); [| |]; cbn [put nodes].
    - destruct M3 as [H3 L3 F3 A3]. constructor; cbn [put nodes].
      + eapply sim_upd_in; [exact H3|now left|exact A3|rewrite X3; reflexivity].
      + now rewrite upd_length.
      + intros k Lk. rewrite upd_else by (unfold j; lia). now apply F3.
      + apply upd_at. exact L3.
    - reflexivity.
    - pose proof (upd_class j x4 x3 (m_at _ _ _ _ _ _ M3) ltac:(rewrite X3; reflexivity)) as G4.
      constructor; cbn [x4 t_class t_left t_right t_next t_base]; [exact Ki|exact I|exact I|exact (keeps _ _ _ _ P3 G4)|exact (keeps _ _ _ _ Pb3 G4)|exact T3|right; rewrite Ob; discriminate]. }
  pose proof (HK (t_class n) (t_attrs n)) as HKn.
  assert (CP : match t_class n with Op o => True | _ => forall o, K (t_class n) (t_attrs n) <> Transform.KOp o end).
  { destruct (t_class n); try exact I; try (apply HKn); try (destruct HKn as (nm & ->); intros ?; discriminate). }
  destruct (t_class n) as [| | | | | |op] eqn:Cn;
    try (destruct (K _ (t_attrs n)) eqn:EK; try (exfalso; eapply CP; reflexivity); apply Leaf; exact CP).
  rewrite HKn. clear Leaf CP.
  destruct (making_method J s s3 h3 x3 "set_operator" (arg (t_attrs n) "operator") M3 (ex_intro _ _ eq_refl)) as (s4 & E4 & M4 & L4 & G4); [rewrite X3; reflexivity|].
  fold j in E4. rewrite E4. cbn [bind].
  set (x4 := assign "set_operator" x3 (arg (t_attrs n) "operator")) in *.
  set (a4 := dset (attrs_of (Op op) b0) "operator" (arg (t_attrs n) "operator")).
  assert (X4 : x4 = mkT (Op op) VNone VNone w (t_buf n) (obj s1 b) a4) by reflexivity. clearbody x4.
  change (Transform.n_left (as_node K n)) with (as_operand (t_left n)). change (Transform.n_right (as_node K n)) with (as_operand (t_right n)).
  pose proof (making_give J s s4 h3 x4 "set_left" (t_left n) f IH HJ M4 (ex_intro _ _ eq_refl)) as Gl. fold j in Gl.
  specialize (Gl ltac:(rewrite X4; reflexivity) (Old _ _ (f_left _ _ _ Fn) (m_frame _ _ _ _ _ _ M4))).
  destruct (give f s4 (t_left n) "set_left" j) as [s5|e], (plain_operand f h3 (as_operand (t_left n))) as [[h5 o]|e']; try contradiction; [|exact Gl].
  destruct Gl as (wl & -> & M5 & P5 & _ & _ & G5). cbn [bind fst snd].
  set (x5 := assign "set_left" x4 wl) in *.
  assert (X5 : x5 = mkT (Op op) wl VNone w (t_buf n) (obj s1 b) a4) by (unfold x5; rewrite X4; reflexivity). clearbody x5.
  pose proof (keeps _ _ _ _ (keeps _ _ _ _ P3 G4) G5) as P3'. pose proof (keeps _ _ _ _ (keeps _ _ _ _ Pb3 G4) G5) as Pb5.
  destruct (a_transform (t_right n)) as [t|] eqn:A.
  - rewrite (as_operand_some _ _ A). cbn [Transform.is_transform]. rewrite <- (as_operand_some _ _ A).
    pose proof (making_give J s s5 h5 x5 "set_right" (t_right n) f IH HJ M5 (ex_intro _ _ eq_refl)) as Gr. fold j in Gr.
    specialize (Gr ltac:(rewrite X5; reflexivity) (Old _ _ (f_right _ _ _ Fn) (m_frame _ _ _ _ _ _ M5))).
    destruct (give f s5 (t_right n) "set_right" j) as [s6|e], (plain_operand f h5 (as_operand (t_right n))) as [[h6 o]|e']; try contradiction; [|exact Gr].
    destruct Gr as (wr & -> & M6 & P6 & _ & _ & G6). cbn [bind fst snd].
    rewrite X5 in M6. change (assign "set_right" _ wr) with (mkT (Op op) wl wr w (t_buf n) (obj s1 b) a4) in M6.
    assert (Ek : K (Op op) a4 = Transform.KOp (same_opr op)) by exact (HK (Op op) a4).
    pose proof (End s6 h6 _ M6 eq_refl) as Fin. unfold as_node in Fin. cbn [t_class t_left t_right t_next t_buf t_base t_attrs] in Fin. rewrite Ek in Fin. apply Fin.
    constructor; cbn [t_class t_left t_right t_next t_base]; [exact Ki|exact (keeps _ _ _ _ P5 G6)|exact P6|exact (keeps _ _ _ _ P3' G6)|exact (keeps _ _ _ _ Pb5 G6)|exact T3|right; rewrite Ob; discriminate].
  - rewrite (as_operand_none _ A).
    destruct (making_method J s s5 h5 x5 "set_left" (t_left n) M5 (ex_intro _ _ eq_refl)) as (s6 & E6 & M6 & L6 & G6); [rewrite X5; reflexivity|].
    fold j in E6. rewrite E6. cbn [bind].
    rewrite X5 in M6. change (assign "set_left" _ (t_left n)) with (mkT (Op op) (t_left n) VNone w (t_buf n) (obj s1 b) a4) in M6.
    assert (Ek : K (Op op) a4 = Transform.KOp (same_opr op)) by exact (HK (Op op) a4).
    pose proof (End s6 h5 _ M6 eq_refl) as Fin. unfold as_node in Fin. cbn [t_class t_left t_right t_next t_buf t_base t_attrs] in Fin. rewrite Ek in Fin. apply Fin.
    constructor; cbn [t_class t_left t_right t_next t_base]; [exact Ki| |exact I|exact (keeps _ _ _ _ P3' G6)|exact (keeps _ _ _ _ Pb5 G6)|exact T3|right; rewrite Ob; discriminate].
    exact (Old _ _ (f_left _ _ _ Fn) (m_frame _ _ _ _ _ _ M6)).
Qed.

(** ** Chaining, binding, setting *)
Lemma last_sim s h f : sim [] (nodes s) h -> forall i, last_of f s i = Transform.last_of f h i.
Proof.
  intros H. induction f as [|f IH]; intros i; [reflexivity|]. cbn [last_of Transform.last_of].
  pose proof (sim_get [] s h i H (fun x => x)) as G. destruct (get s i) as [n|e]; [|now rewrite (proj1 G)].
  destruct G as (G & _). rewrite G. cbn [bind]. change (Transform.n_next (as_node K n)) with (as_operand (t_next n)).
  destruct (a_transform (t_next n)) as [t|] eqn:A; [rewrite (as_operand_some _ _ A); apply IH|].
  apply as_operand_none in A. destruct (as_operand (t_next n)); [discriminate A|reflexivity|reflexivity].
Qed.
Lemma last_kind s h f : sim [] (nodes s) h -> forall i b, (exists n, nth_error (nodes s) i = Some n /\ t_class n <> Buf) -> last_of f s i = Ok b ->
  exists n, nth_error (nodes s) b = Some n /\ t_class n <> Buf.
Proof.
  intros H. induction f as [|f IH]; intros i b (n & E & B) L; [discriminate L|]. cbn [last_of] in L. unfold get in L. rewrite E in L. cbn [bind] in L.
  destruct (a_transform (t_next n)) as [t|] eqn:A; [|injection L as <-; eauto]. apply (IH t b); [|exact L].
  exact (proj2 (operand_at [] (nodes s) h (t_next n) t H (f_next _ _ _ (s_fine _ _ _ H i n (fun x => x) E)) A)).
Qed.
Lemma bound_sim s h f : sim [] (nodes s) h -> forall i, bound f s i = Transform.bound f h i.
Proof.
  intros H. induction f as [|f IH]; intros i; [reflexivity|]. cbn [bound Transform.bound].
  pose proof (sim_get [] s h i H (fun x => x)) as G. destruct (get s i) as [n|e]; [|now rewrite (proj1 G)].
  destruct G as (G & Fn & En). rewrite G. cbn [bind].
  assert (Leaf : (let* j := last_of (S f) s i in let* m := get s j in Ok (match t_buf m with VNone => false | _ => true end)) =
                 (let* j := Transform.last_of (S f) h i in let* m := Transform.get h j in Ok (match Transform.n_buf m with Some _ => true | None => false end))).
  { rewrite (last_sim s h (S f) H i). destruct (Transform.last_of (S f) h i) as [j|e]; [|reflexivity]. cbn [bind].
    pose proof (sim_get [] s h j H (fun x => x)) as Gj. destruct (get s j) as [m|e]; [|now rewrite (proj1 Gj)].
    rewrite (proj1 Gj). cbn [bind]. cbn [as_node Transform.n_buf]. destruct (t_buf m); reflexivity. }
  change (Transform.n_kind (as_node K n)) with (K (t_class n) (t_attrs n)).
  change (Transform.n_left (as_node K n)) with (as_operand (t_left n)). change (Transform.n_right (as_node K n)) with (as_operand (t_right n)).
  pose proof (HK (t_class n) (t_attrs n)) as HKn.
  destruct (t_class n) as [| | | | | |op] eqn:Cn;
    try (destruct (K _ (t_attrs n)) eqn:EK; try exact Leaf; try (exfalso; destruct HKn as (X & _); eapply X; reflexivity); destruct HKn as (nm & X); discriminate X).
  rewrite HKn.
  destruct (a_transform (t_left n)) as [t|] eqn:A.
  - rewrite (as_operand_some _ _ A), IH. destruct (Transform.bound f h t) as [[|]|e]; try reflexivity. cbn [bind].
    destruct (a_transform (t_right n)) as [u|] eqn:A2; [rewrite (as_operand_some _ _ A2); apply IH|].
    apply as_operand_none in A2. destruct (as_operand (t_right n)); [discriminate A2|reflexivity|reflexivity].
  - apply as_operand_none in A. destruct (as_operand (t_left n)); [discriminate A|reflexivity|reflexivity].
Qed.

Lemma upd_same {A} (l : list A) i x : nth_error l i = Some x -> upd l i x = l.
Proof. revert i. induction l; destruct i; cbn; intros E; try congruence. now rewrite IHl. Qed.
(** Assigning a field of a transform. *)
Lemma set_sim s h i n m v : sim [] (nodes s) h -> nth_error (nodes s) i = Some n -> points [] (nodes s) v ->
  (m = "set_next" \/ m = "set_base" -> transform_or_none v) ->
  sim [] (upd (nodes s) i (assign m n v)) (upd h i (as_node K (assign m n v))).
Proof.
  intros H E P T. pose proof (s_fine _ _ _ H i n (fun x => x) E) as F. assert (L : i < length (nodes s)) by (apply nth_error_Some; congruence).
  pose proof (upd_class i (assign m n v) n E (assign_class m n v)) as G.
  assert (FA : fine [] (nodes s) (assign m n v)).
  { destruct n as [k l r x b o a], F as [F1 F2 F3 F4 F5 F6 F7]. cbn [t_class t_left t_right t_next t_base] in *. unfold assign.
    destruct (String.eqb_spec m "set_base") as [->|_]; [constructor; cbn; auto|]. destruct (String.eqb_spec m "set_next") as [->|_]; [constructor; cbn; auto|].
    repeat (destruct (String.eqb m _); [constructor; cbn; auto|]). constructor; auto. }
  constructor.
  - rewrite !upd_length. exact (s_len _ _ _ H).
  - intros k q N Eq. destruct (Nat.eq_dec k i) as [->|X].
    + rewrite upd_at in Eq by exact L. injection Eq as <-. apply upd_at. now rewrite (s_len _ _ _ H).
    + rewrite upd_else in Eq by exact X. rewrite upd_else by exact X. exact (s_node _ _ _ H k q N Eq).
  - intros k q N Eq. destruct (Nat.eq_dec k i) as [->|X].
    + rewrite upd_at in Eq by exact L. injection Eq as <-. eapply fine_grows; [exact FA|exact G|auto].
    + rewrite upd_else in Eq by exact X. eapply fine_grows; [exact (s_fine _ _ _ H k q N Eq)|exact G|auto].
Qed.
(** The ends agree. *)
Definition agree (r : res st) (p : res (Transform.heap value)) : Prop :=
  match r, p with Ok s, Ok h => sim [] (nodes s) h | Err e, Err e' => e = e' | _, _ => False end.
Lemma method_sim s h i n m v : sim [] (nodes s) h -> nth_error (nodes s) i = Some n -> t_class n <> Buf -> points [] (nodes s) v ->
  (m = "set_next" \/ m = "set_base" -> transform_or_none v) -> agree (method s i m v) (plain_set h i m v).
Proof.
  intros H E B P T. pose proof (set_sim s h i n m v H E P T) as S. unfold plain_set, Transform.set_buffer, Transform.set_next, Transform.set_left, Transform.set_right, Transform.get.
  pose proof (s_node _ _ _ H i n (fun x => x) E) as Eh. rewrite Eh. cbn [bind].
  assert (G : get s i = Ok n) by (unfold get; now rewrite E).
  assert (Good : (exists sg, method_sig m = Some sg) -> has_method (t_class n) m = true -> forall p, p = Ok (upd h i (as_node K (assign m n v))) -> agree (method s i m v) p).
  { intros Sg Hm p ->. destruct (method_ok s i m v n G Sg Hm) as (s' & -> & N). cbn [agree]. now rewrite N. }
  assert (Bad : method_sig m = None \/ has_method (t_class n) m = false -> agree (method s i m v) (Err AttributeError)).
  { intros X. unfold method. rewrite G. cbn [bind]. destruct (method_sig m); [|reflexivity]. destruct X as [X|X]; [discriminate|]. now rewrite X. }
  destruct (String.eqb_spec m "set_colormap") as [->|N0].
  { change (Transform.n_kind (as_node K n)) with (K (t_class n) (t_attrs n)). pose proof (HM (t_class n) (t_attrs n) B) as M.
    assert (Q : forall k, k <> Buf -> has_method k "set_colormap" = match k with Cmap => true | _ => false end) by (intros []; congruence || reflexivity).
    specialize (Q _ B). cbn [String.eqb Ascii.eqb Bool.eqb].
    assert (Yes : t_class n = Cmap -> agree (method s i "set_colormap" v) (Ok h)).
    { intros C. apply Good; [eexists; reflexivity|now rewrite C|]. rewrite upd_same; [reflexivity|]. rewrite Eh. now destruct n. }
    assert (No : t_class n <> Cmap -> agree (method s i "set_colormap" v) (Err AttributeError)).
    { intros C. apply Bad. right. rewrite Q. now destruct (t_class n). }
    destruct (K (t_class n) (t_attrs n)) eqn:EK; try (apply No; intros C; rewrite C in M; destruct M as [M _]; destruct (M I) as (p & X); discriminate X).
    apply Yes. destruct M as [_ M]. specialize (M (ex_intro _ _ eq_refl)). destruct (t_class n); (contradiction || reflexivity). }
  assert (HB : has_method (t_class n) m = match t_class n with Op _ => true | _ => negb (String.eqb m "set_operator" || String.eqb m "set_left" || String.eqb m "set_right") end).
  { apply String.eqb_neq in N0. unfold has_method. rewrite N0, !orb_false_r. destruct (t_class n); [congruence|reflexivity..]. }
  clear S. pose proof (HK (t_class n) (t_attrs n)) as HKn.
  destruct (String.eqb_spec m "set_buffer") as [->|N1]; [apply Good; [eexists; reflexivity|rewrite HB; destruct (t_class n); reflexivity|destruct n; reflexivity]|].
  destruct (String.eqb_spec m "set_next") as [->|N2]; [apply Good; [eexists; reflexivity|rewrite HB; destruct (t_class n); reflexivity|destruct n; reflexivity]|].
  destruct (String.eqb_spec m "set_base") as [->|N3]; [apply Good; [eexists; reflexivity|rewrite HB; destruct (t_class n); reflexivity|destruct n; reflexivity]|].
  change (Transform.n_kind (as_node K n)) with (K (t_class n) (t_attrs n)).
  assert (Leaf : has_method (t_class n) m = negb (String.eqb m "set_operator" || String.eqb m "set_left" || String.eqb m "set_right") ->
                 agree (method s i m v) (Err AttributeError)).
  { intros X. apply Bad. rewrite X. unfold method_sig. apply String.eqb_neq in N0, N1, N2, N3. rewrite N0, N1, N2, N3.
    destruct (String.eqb m "set_operator"), (String.eqb m "set_left"), (String.eqb m "set_right"); cbn; auto. }
  assert (Kop : match t_class n with Op op => K (t_class n) (t_attrs n) = Transform.KOp (same_opr op)
                | _ => (match K (t_class n) (t_attrs n) with Transform.KOp _ => true | _ => false end) = false end).
  { destruct (t_class n); try exact HKn; destruct (K _ (t_attrs n)); try reflexivity; exfalso;
      ((destruct HKn as (Y & _); eapply Y; reflexivity) || (destruct HKn as (nm & Y); discriminate Y)). }
  clear HKn. revert Kop HB. destruct (t_class n) as [| | | | | |op] eqn:Cn; intros HKn HB; try (rewrite HKn; apply Leaf; exact HB).
  rewrite HKn. clear Leaf.
  destruct (String.eqb_spec m "set_left") as [->|N4]; [apply Good; [eexists; reflexivity|reflexivity|]|].
  1: { destruct n as [k l r x b o a]. cbn [t_class] in Cn. subst k. unfold as_node. cbn [assign String.eqb Ascii.eqb Bool.eqb t_class t_attrs t_left t_right t_next t_buf t_base].
       rewrite (HK (Op op) a : _ = _). reflexivity. }
  destruct (String.eqb_spec m "set_right") as [->|N5]; [apply Good; [eexists; reflexivity|reflexivity|]|].
  1: { destruct n as [k l r x b o a]. cbn [t_class] in Cn. subst k. unfold as_node. cbn [assign String.eqb Ascii.eqb Bool.eqb t_class t_attrs t_left t_right t_next t_buf t_base].
       rewrite (HK (Op op) a : _ = _). reflexivity. }
  destruct (String.eqb_spec m "set_operator") as [->|N6].
  - apply Good; [eexists; reflexivity|reflexivity|]. rewrite upd_same; [reflexivity|]. rewrite Eh. f_equal.
    destruct n as [k l r x b o a]. cbn [t_class] in Cn. subst k. unfold as_node. cbn [assign String.eqb Ascii.eqb Bool.eqb t_class t_attrs t_left t_right t_next t_buf t_base].
    rewrite (HK (Op op) a : _ = _), (HK (Op op) (dset a "operator" v) : _ = _). reflexivity.
  - apply Bad. left. unfold method_sig. apply String.eqb_neq in N0, N1, N2, N3, N4, N5, N6. now rewrite N0, N1, N2, N3, N4, N5, N6.
Qed.
(** ** Making *)
Lemma sim_add s h x : sim [] (nodes s) h -> fine [length (nodes s)] (nodes s ++ [x])%list x -> sim [] (nodes s ++ [x])%list (h ++ [as_node K x])%list.
Proof.
  intros H F. pose proof (sim_snoc [] (nodes s) h x (as_node K x) H) as S.
  assert (E : nth_error (nodes s ++ [x])%list (length (nodes s)) = Some x) by (rewrite nth_error_app2, Nat.sub_diag by lia; reflexivity).
  pose proof (sim_close [] _ _ (length (nodes s)) x _ S (fun X => X) E (or_introl F) eq_refl) as C. rewrite upd_same in C; [exact C|].
  rewrite <- (s_len _ _ _ H), nth_error_app2, Nat.sub_diag by lia. reflexivity.
Qed.
Lemma bound_held c k args kw b : bind_args (sig_of k) args kw = Ok b -> (forall v, In v args -> held c v) -> (forall n v, In (n, v) kw -> held c v) ->
  forall n, held c (arg b n).
Proof.
  intros B A Q n. destruct (simple_class k) as ((N & _) & _ & D). unfold arg. destruct (dget b n) as [v|] eqn:G; [|reflexivity].
  unfold bind_args in B. destruct (forallb _ _); [|discriminate].
  rewrite (bind_params_get _ _ _ _ n B N) in G. destruct (dget (combine (map p_name (s_params (sig_of k))) args) n) as [w|] eqn:E.
  - injection G as <-. apply Base.dget_in in E. apply in_combine_r in E. auto.
  - destruct (existsb _ _); [|discriminate]. destruct (dget kw n) as [w|] eqn:E'; [injection G as <-; apply Base.dget_in in E'; eauto|].
    rewrite (D n v G). reflexivity.
Qed.
Lemma held_points c v : held c v -> points [] (nodes c) v.
Proof. destruct v; cbn; auto. Qed.
Lemma make_leaf_sim fuel s h k args kw b : sim [] (nodes s) h -> In k classes -> bind_args (sig_of k) args kw = Ok b -> (forall o, k <> Op o) ->
  exists s', make fuel s k args kw = Ok (s', length (nodes s)) /\ sim [] (nodes s') (h ++ [as_node K (blank k b)])%list.
Proof.
  intros H C B N. unfold make. rewrite B. cbn [bind].
  assert (E : body fuel s k b = Ok (alloc s (blank k b))) by (unfold body, alloc; destruct k; try reflexivity; exfalso; now apply (N o)).
  rewrite E. cbn [bind alloc fst snd].
  destruct (note_ok (mkSt (fst (create (reg s))) (nodes s ++ [blank k b])%list (log s) (on s)) (length (nodes s)) (class_name k) (path k) (sig_of k) args kw) as (s' & -> & Ns).
  cbn [bind]. exists s'. split; [reflexivity|]. rewrite Ns. cbn [nodes]. apply sim_add; [exact H|]. constructor; cbn; auto; now left.
Qed.
Lemma make_op_sim fuel s h o args kw b : sim [] (nodes s) h -> bind_args (sig_of (Op o)) args kw = Ok b -> (forall n, held s (arg b n)) ->
  agree (let* r := make fuel s (Op o) args kw in Ok (fst r))
        (let* r := Transform.make_op fuel h (same_opr o) (as_operand (arg b "left")) (as_operand (arg b "right")) in Ok (fst r)).
Proof.
  intros H B A. unfold make. rewrite B. cbn [bind]. unfold body, alloc.
  set (j := length (nodes s)). set (x0 := blank (Op o) b).
  set (s1 := mkSt (fst (create (reg s))) (nodes s ++ [x0])%list (log s) (on s)).
  change (Transform.make_op fuel h (same_opr o) (as_operand (arg b "left")) (as_operand (arg b "right"))) with
    (let* r1 := plain_operand fuel (h ++ [Transform.mkNode (Transform.KOp (same_opr o)) Transform.ON Transform.ON Transform.ON None None])%list (as_operand (arg b "left")) in
     let* r2 := plain_operand fuel (fst r1) (as_operand (arg b "right")) in
     Ok (upd (fst r2) (length h) (Transform.mkNode (Transform.KOp (same_opr o)) (snd r1) (snd r2) Transform.ON None None), length h)).
  set (h1 := (h ++ _)%list).
  assert (S1 : sim [j] (nodes s1) h1) by (apply sim_snoc; exact H).
  assert (Old : forall v s', held s v -> (forall k n, nth_error (nodes s) k = Some n -> exists n', nth_error (nodes s') k = Some n' /\ t_class n' = t_class n) -> points [j] (nodes s') v).
  { intros v s' Hv F. eapply points_grows; [exact (held_points s v Hv)|exact F|]. intros k Lk [I|[]]. unfold j in I. lia. }
  assert (G1 : forall k n, nth_error (nodes s) k = Some n -> exists n', nth_error (nodes s1) k = Some n' /\ t_class n' = t_class n).
  { intros k n E. exists n. split; [|reflexivity]. unfold s1. cbn [nodes]. rewrite nth_error_app1; [exact E|]. apply nth_error_Some. congruence. }
  assert (L1 : length (nodes s1) = S j) by (unfold s1, j; cbn [nodes]; rewrite app_length; cbn; lia).
  assert (J1 : forall k, In k [j] -> k < length (nodes s1)) by (intros k [<-|[]]; lia).
  assert (A1 : nth_error (nodes s1) j = Some x0) by (unfold s1, j; cbn [nodes]; rewrite nth_error_app2, Nat.sub_diag by lia; reflexivity).
  pose proof (operand_sim fuel [j] s1 h1 (arg b "left") (copy_sim fuel) S1 J1 (Old _ s1 (A "left") G1)) as Pl.
  fold (operand fuel s1 (arg b "left")) in Pl.
  destruct (operand fuel s1 (arg b "left")) as [[s2 vl]|e], (plain_operand fuel h1 (as_operand (arg b "left"))) as [[h2 ol]|e']; try contradiction; [|cbn; exact Pl].
  destruct Pl as (-> & S2 & L2 & F2 & P2 & _). cbn [bind fst snd].
  assert (G2 : forall k n, nth_error (nodes s1) k = Some n -> exists n', nth_error (nodes s2) k = Some n' /\ t_class n' = t_class n).
  { intros k n E. exists n. split; [|reflexivity]. rewrite F2; [exact E|]. apply nth_error_Some. congruence. }
  assert (J2 : forall k, In k [j] -> k < length (nodes s2)) by (intros k [<-|[]]; lia).
  pose proof (operand_sim fuel [j] s2 h2 (arg b "right") (copy_sim fuel) S2 J2) as Pr.
  specialize (Pr (keeps _ _ _ _ (Old _ s1 (A "right") G1) G2)). fold (operand fuel s2 (arg b "right")) in Pr.
  destruct (operand fuel s2 (arg b "right")) as [[s3 vr]|e], (plain_operand fuel h2 (as_operand (arg b "right"))) as [[h3 or]|e']; try contradiction; [|cbn; exact Pr].
  destruct Pr as (-> & S3 & L3 & F3 & P3 & _). cbn [bind fst snd].
  assert (G3 : forall k n, nth_error (nodes s2) k = Some n -> exists n', nth_error (nodes s3) k = Some n' /\ t_class n' = t_class n).
  { intros k n E. exists n. split; [|reflexivity]. rewrite F3; [exact E|]. apply nth_error_Some. congruence. }
  assert (A3 : nth_error (nodes s3) j = Some x0) by (rewrite F3, F2 by lia; exact A1).
  set (x := mkT (Op o) vl vr VNone VNone VNone (attrs_of (Op o) b)).
  destruct (note_ok (put s3 j x) j (class_name (Op o)) (path (Op o)) (sig_of (Op o)) args kw) as (s' & -> & Ns). cbn [bind fst agree]. rewrite Ns. cbn [put nodes].
  pose proof (upd_class j x x0 A3 eq_refl) as G4.
  rewrite (s_len _ _ _ H). fold j.
  apply (sim_close [] (upd (nodes s3) j x) h3 j x).
  - eapply sim_upd_in; [exact S3|now left|exact A3|reflexivity].
  - intros [].
  - apply upd_at. lia.
  - left. constructor; cbn [x t_class t_left t_right t_next t_base]; [|exact (keeps _ _ _ _ (keeps _ _ _ _ P2 G3) G4)|exact (keeps _ _ _ _ P3 G4)|exact I|exact I|now left|now left].
    unfold classes. destruct o; cbn [In]; tauto.
  - unfold as_node. cbn [x t_class t_left t_right t_next t_buf t_base t_attrs]. rewrite (HK (Op o) (attrs_of (Op o) b) : _ = _). reflexivity.
Qed.
Lemma copied_in s i s' j h' : copied_alike [] s (Ok (s', j)) (Ok (h', i)) -> sim [] (nodes s') h' /\ i = j /\
  (forall k n, nth_error (nodes s) k = Some n -> nth_error (nodes s') k = Some n) /\ (exists m, nth_error (nodes s') j = Some m /\ t_class m <> Buf).
Proof.
  intros (E & L & S & F & M). split; [exact S|]. split; [congruence|]. split; [|exact M].
  intros k n En. rewrite F; [exact En|]. apply nth_error_Some. congruence.
Qed.
Lemma copy_sim0 fuel s h i : sim [] (nodes s) h -> transform_at s i -> copied_alike [] s (copy fuel s i) (Transform.copy fuel h i).
Proof. intros H (n & E & B). apply copy_sim; [exact H|intros k []|intros []|]. intros m Em. congruence. Qed.
Lemma out_kind n : match t_class n with Out => exists nm, K (t_class n) (t_attrs n) = Transform.KOut nm | _ => forall nm, K (t_class n) (t_attrs n) <> Transform.KOut nm end.
Proof. pose proof (HK (t_class n) (t_attrs n)) as X. destruct (t_class n); try exact X; try (exact (proj2 X)). rewrite X. discriminate. Qed.
Lemma held_obj_points s i m : nth_error (nodes s) i = Some m -> points [] (nodes s) (obj s i).
Proof. intros E. unfold obj, cls_in. rewrite E. cbn [points]. split; [intros []|eauto]. Qed.

Lemma chain_sim fuel s h i j : sim [] (nodes s) h -> transform_at s i -> transform_at s j ->
  agree (let* r := chain fuel s i j in Ok (fst r)) (let* r := Transform.call fuel h i j in Ok (fst r)).
Proof.
  intros H Ti Tj. pose proof Ti as (n & En & Bn). unfold chain, Transform.call.
  pose proof (sim_get [] s h i H (fun x => x)) as G. destruct (get s i) as [n'|e]; [|now rewrite (proj1 G)].
  destruct G as (G & _ & En'). rewrite G. cbn [bind]. change (Transform.n_kind (as_node K n')) with (K (t_class n') (t_attrs n')).
  assert (Go : agree (let* r := (let* r := copy fuel s i in let* q := copy fuel (fst r) j in
                                 let* s1 := method (fst q) (snd r) "set_next" (obj (fst q) (snd q)) in
                                 let* s2 := method s1 (snd r) "set_buffer" VNone in Ok (s2, snd r)) in Ok (fst r))
                     (let* r := (let* r := Transform.copy fuel h i in let* q := Transform.copy fuel (fst r) j in
                                 let* h2 := Transform.set_next (fst q) (snd r) (Transform.OT (snd q)) in
                                 let* h3 := Transform.set_buffer h2 (snd r) None in Ok (h3, snd r)) in Ok (fst r))).
  { pose proof (copy_sim0 fuel s h i H Ti) as C1. destruct (copy fuel s i) as [[s1 a]|e], (Transform.copy fuel h i) as [[h1 a']|e']; try contradiction; [|exact C1].
    destruct (copied_in s a' s1 a h1 C1) as (S1 & -> & F1 & ma & Ea & Ba). cbn [bind fst snd].
    assert (Tj1 : transform_at s1 j) by (destruct Tj as (nj & Enj & Bnj); exists nj; split; [now apply F1|exact Bnj]).
    pose proof (copy_sim0 fuel s1 h1 j S1 Tj1) as C2. destruct (copy fuel s1 j) as [[s2 c]|e], (Transform.copy fuel h1 j) as [[h2 c']|e']; try contradiction; [|exact C2].
    destruct (copied_in s1 c' s2 c h2 C2) as (S2 & -> & F2 & mc & Ec & Bc). cbn [bind fst snd].
    pose proof (obj_transform s2 c mc Ec (f_class _ _ _ (s_fine _ _ _ S2 c mc (fun x => x) Ec)) Bc) as Oc.
    pose proof (method_sim s2 h2 a ma "set_next" (obj s2 c) S2 (F2 a ma Ea) Ba (held_obj_points s2 c mc Ec)) as M3.
    specialize (M3 ltac:(intros _; right; rewrite Oc; discriminate)).
    unfold plain_set, Transform.set_next, Transform.get in M3. rewrite (s_node _ _ _ S2 a ma (fun x => x) (F2 a ma Ea)) in M3. cbn [bind String.eqb Ascii.eqb Bool.eqb] in M3.
    rewrite (as_operand_some _ _ Oc) in M3. unfold Transform.set_next, Transform.get. rewrite (s_node _ _ _ S2 a ma (fun x => x) (F2 a ma Ea)). cbn [bind].
    pose proof (method_ok s2 a "set_next" (obj s2 c) ma) as MO. unfold get in MO. rewrite (F2 a ma Ea) in MO. specialize (MO eq_refl (ex_intro _ _ eq_refl)).
    destruct MO as (s3 & E3 & N3); [destruct (t_class ma); [congruence|reflexivity..]|]. rewrite E3 in *. cbn [agree] in M3. cbn [bind].
    set (h3 := upd h2 a _) in *.
    assert (E3a : nth_error (nodes s3) a = Some (assign "set_next" ma (obj s2 c))) by (rewrite N3; apply upd_at; apply nth_error_Some; rewrite (F2 a ma Ea); discriminate).
    pose proof (method_sim s3 h3 a _ "set_buffer" VNone M3 E3a ltac:(rewrite assign_class; exact Ba) I ltac:(intros [X|X]; discriminate X)) as M4.
    unfold plain_set in M4. pose proof (s_node _ _ _ M3 a _ (fun x => x) E3a) as E3h. unfold Transform.get in M4 at 1. rewrite E3h in M4. cbn [bind String.eqb Ascii.eqb Bool.eqb as_buffer] in M4.
    destruct (method s3 a "set_buffer" VNone), (Transform.set_buffer h3 a None); exact M4. }
  assert (n' = n) by congruence. subst n'. pose proof (out_kind n) as O.
  destruct (t_class n) eqn:Cn; try (destruct (K _ (t_attrs n)) eqn:EK; try exact Go; exfalso; eapply O; reflexivity). destruct O as (nm & ->). reflexivity.
Qed.
Lemma bind_sim I fuel s h i v : (forall v, bindable v = true -> Transform.e_bindable I v = true) -> sim [] (nodes s) h -> transform_at s i -> held s v -> bindable v = true ->
  agree (let* r := bind_to fuel s i v in Ok (fst r)) (let '(h', r) := Transform.bind_to I fuel h i v in let* _ := r in Ok h').
Proof.
  intros HI H Ti Hv Bv. pose proof Ti as (n & En & Bn). unfold bind_to, Transform.bind_to.
  pose proof (sim_get [] s h i H (fun x => x)) as G. destruct (get s i) as [n'|e]; [|now rewrite (proj1 G)].
  destruct G as (G & _ & En'). rewrite G. cbn [bind]. change (Transform.n_kind (as_node K n')) with (K (t_class n') (t_attrs n')).
  assert (n' = n) by congruence. subst n'.
  set (R := (let* r := copy fuel s i in let* b := bound fuel s i in
             if b then Err ValueError else let* m := last_of fuel (fst r) (snd r) in let* s1 := method (fst r) m "set_buffer" v in Ok (s1, snd r))).
  assert (Go : agree (let* r := R in Ok (fst r))
     (let '(h', r) := match Transform.copy fuel h i with
          | Err e => (h, Err e)
          | Ok (h1, t) =>
              if Transform.e_bindable I v then
                match Transform.bound fuel h i with
                | Err e => (h1, Err e)
                | Ok true => (h1, Err ValueError)
                | Ok false =>
                    match (let* k := Transform.last_of fuel h1 t in Transform.set_buffer h1 k (Some v)) with
                    | Ok h2 => (h2, Ok t)
                    | Err e => (h1, Err e)
                    end
                end
              else (h1, Err ValueError)
          end in let* _ := r in Ok h')).
  { unfold R. pose proof (copy_sim0 fuel s h i H Ti) as C1. destruct (copy fuel s i) as [[s1 a]|e], (Transform.copy fuel h i) as [[h1 a']|e']; try contradiction; [|exact C1].
    destruct (copied_in s a' s1 a h1 C1) as (S1 & -> & F1 & Ma). cbn [bind fst snd]. rewrite (HI v Bv), (bound_sim s h fuel H i).
    destruct (Transform.bound fuel h i) as [[|]|e]; try reflexivity. cbn [bind].
    rewrite <- (last_sim s1 h1 fuel S1 a). destruct (last_of fuel s1 a) as [k|e] eqn:El; [|reflexivity]. cbn [bind].
    destruct (last_kind s1 h1 fuel S1 a k Ma El) as (mk & Ek & Bk).
    assert (Pv : points [] (nodes s1) v) by (eapply points_grows; [exact (held_points s v Hv)|intros q m Em; exists m; split; [now apply F1|reflexivity]|auto]).
    pose proof (method_sim s1 h1 k mk "set_buffer" v S1 Ek Bk Pv ltac:(intros [X|X]; discriminate X)) as M.
    unfold plain_set in M. unfold Transform.get in M at 1. rewrite (s_node _ _ _ S1 k mk (fun x => x) Ek) in M. cbn [bind String.eqb Ascii.eqb Bool.eqb] in M.
    assert (Ev : as_buffer v = Some v) by (destruct v; try reflexivity; discriminate Bv). rewrite Ev in M.
    destruct (method s1 k "set_buffer" v), (Transform.set_buffer h1 k (Some v)); exact M. }
  pose proof (out_kind n) as O.
  destruct (t_class n) eqn:Cn; try (destruct (K _ (t_attrs n)) eqn:EK; try exact Go; exfalso; eapply O; reflexivity). destruct O as (nm & ->). reflexivity.
Qed.
Lemma step_sim I fuel s h a : (forall v, bindable v = true -> Transform.e_bindable I v = true) -> sim [] (nodes s) h -> typed s a ->
  agree (do_step fuel s a) (plain_step K I fuel h a).
Proof.
  intros HI H T. destruct a as [k args kw|i|i j|i v|i m v]; cbn [do_step plain_step typed] in *.
  - destruct T as (C & A & Q). destruct (bind_args (sig_of k) args kw) as [b|e] eqn:B; [|unfold make; rewrite B; reflexivity]. cbn [bind].
    assert (D : (exists o, k = Op o) \/ (forall o, k <> Op o)) by (destruct k; try (right; discriminate); left; eauto).
    destruct D as [(o & ->)|D]; [apply make_op_sim; [exact H|exact B|exact (bound_held s (Op o) args kw b B A Q)]|].
    destruct (make_leaf_sim fuel s h k args kw b H C B D) as (s' & -> & S'). cbn [bind fst]. destruct k; try exact S'. exfalso. now apply (D o).
  - pose proof (copy_sim0 fuel s h i H T) as C. destruct (copy fuel s i) as [[s1 a]|e], (Transform.copy fuel h i) as [[h1 a']|e']; try contradiction; [|exact C].
    exact (proj1 (copied_in s a' s1 a h1 C)).
  - apply chain_sim; tauto.
  - apply bind_sim; tauto.
  - destruct T as ((n & En & Bn) & Hv & Tv). eapply method_sim; try eassumption. now apply held_points.
Qed.
Lemma steps_sim I fuel l : (forall v, bindable v = true -> Transform.e_bindable I v = true) -> forall s h, sim [] (nodes s) h -> all_typed fuel s l ->
  agree (do_steps fuel s l) (plain_steps K I fuel h l).
Proof.
  intros HI. induction l as [|a l IH]; intros s h H T; [exact H|]. cbn [do_steps plain_steps all_typed] in *. destruct T as (Ta & T).
  pose proof (step_sim I fuel s h a HI H Ta) as S. destruct (do_step fuel s a) as [s'|e], (plain_step K I fuel h a) as [h'|e']; try contradiction; [|exact S].
  cbn [bind]. apply IH; [exact S|exact T].
Qed.
Lemma same_elements {A} (l : list A) : forall l', (forall i, nth_error l i = nth_error l' i) -> l = l'.
Proof.
  induction l as [|x l IH]; intros [|y l'] H; try reflexivity; try (specialize (H 0); discriminate H).
  pose proof (H 0) as H0. injection H0 as ->. f_equal. apply IH. intros i. exact (H (S i)).
Qed.
Lemma sim_map ns h : sim [] ns h -> map (as_node K) ns = h.
Proof.
  intros H. apply same_elements. intros i. rewrite nth_error_map. destruct (nth_error ns i) as [n|] eqn:E.
  - cbn [option_map]. symmetry. exact (s_node _ _ _ H i n (fun x => x) E).
  - symmetry. apply nth_error_None. rewrite (s_len _ _ _ H). now apply nth_error_None.
Qed.
Lemma recording_aside I fuel l : (forall v, bindable v = true -> Transform.e_bindable I v = true) -> all_typed fuel fresh l ->
  same_end K (do_steps fuel fresh l) (plain_steps K I fuel [] l).
Proof.
  intros HI T. assert (S0 : sim [] (nodes fresh) []).
  { constructor; cbn; [reflexivity| |]; intros k n _ E; destruct k; discriminate E. }
  pose proof (steps_sim I fuel l HI fresh [] S0 T) as A. destruct (do_steps fuel fresh l), (plain_steps K I fuel [] l); try exact A. cbn [same_end]. now apply sim_map.
Qed.
End Sim.

(** ** Recording or not *)
Definition alike2 {X} (r r' : res (st * X)) : Prop :=
  match r, r' with Ok x, Ok x' => nodes (fst x) = nodes (fst x') /\ snd x = snd x' | Err e, Err e' => e = e' | _, _ => False end.
Lemma bind1 (r r' : res st) {Y} (R : res Y -> res Y -> Prop) k k' : same_nodes r r' -> (forall e, R (Err e) (Err e)) -> (forall s s', nodes s = nodes s' -> R (k s) (k' s')) -> R (bind r k) (bind r' k').
Proof. destruct r, r'; cbn; try contradiction; intros E He H; [now apply H|subst; apply He]. Qed.
Lemma bind2 {X} (r r' : res (st * X)) {Y} (R : res Y -> res Y -> Prop) k k' : alike2 r r' -> (forall e, R (Err e) (Err e)) ->
  (forall s s' x, nodes s = nodes s' -> R (k (s, x)) (k' (s', x))) -> R (bind r k) (bind r' k').
Proof. destruct r as [[s x]|], r' as [[s' x']|]; cbn; try contradiction; intros E He H; [destruct E as (E & ->); now apply H|subst; apply He]. Qed.
Lemma get_nodes s s' i : nodes s = nodes s' -> get s i = get s' i.
Proof. unfold get. now intros ->. Qed.
Lemma obj_nodes s s' i : nodes s = nodes s' -> obj s i = obj s' i.
Proof. unfold obj, cls_in. now intros ->. Qed.
Lemma note_alike s s' i k m sg args kw : nodes s = nodes s' -> same_nodes (note s i k m sg args kw) (note s' i k m sg args kw).
Proof.
  intros E. destruct (note_ok s i k m sg args kw) as (t & -> & T), (note_ok s' i k m sg args kw) as (t' & -> & T'). cbn. congruence.
Qed.
Lemma method_alike s s' i m v : nodes s = nodes s' -> same_nodes (method s i m v) (method s' i m v).
Proof.
  intros E. unfold method. rewrite (get_nodes s s' i E). destruct (get s' i) as [n|e]; [|reflexivity]. cbn [bind].
  destruct (method_sig m); [|reflexivity]. destruct (has_method _ _); [|reflexivity]. apply note_alike. cbn [put nodes]. now rewrite E.
Qed.
Lemma base_nodes s s' f : nodes s = nodes s' -> forall i, base_of f s i = base_of f s' i.
Proof. intros E. induction f as [|f IH]; intros i; [reflexivity|]. cbn [base_of]. rewrite (get_nodes s s' i E). destruct (get s' i) as [n|]; [|reflexivity]. cbn [bind]. destruct (t_base n); auto. Qed.
Lemma last_nodes s s' f : nodes s = nodes s' -> forall i, last_of f s i = last_of f s' i.
Proof. intros E. induction f as [|f IH]; intros i; [reflexivity|]. cbn [last_of]. rewrite (get_nodes s s' i E). destruct (get s' i) as [n|]; [|reflexivity]. cbn [bind]. destruct (a_transform (t_next n)); auto. Qed.
Lemma bound_nodes s s' f : nodes s = nodes s' -> forall i, bound f s i = bound f s' i.
Proof.
  intros E. induction f as [|f IH]; intros i; [reflexivity|]. cbn [bound]. rewrite (get_nodes s s' i E). destruct (get s' i) as [n|]; [|reflexivity]. cbn [bind].
  assert (L : (let* j := last_of (S f) s i in let* m := get s j in Ok (match t_buf m with VNone => false | _ => true end)) =
              (let* j := last_of (S f) s' i in let* m := get s' j in Ok (match t_buf m with VNone => false | _ => true end))).
  { rewrite (last_nodes s s' (S f) E i). destruct (last_of (S f) s' i) as [j|]; [|reflexivity]. cbn [bind]. now rewrite (get_nodes s s' j E). }
  destruct (t_class n); try exact L. destruct (a_transform (t_left n)) as [l|]; [|reflexivity]. rewrite IH. destruct (bound f s' l) as [[|]|]; try reflexivity. cbn [bind].
  destruct (a_transform (t_right n)); [apply IH|reflexivity].
Qed.
Lemma make0_alike s s' k : nodes s = nodes s' -> alike2 (make0 s k) (make0 s' k).
Proof.
  intros E. unfold make0. destruct (bind_args (sig_of k) [] []) as [b|]; [|reflexivity]. cbn [bind alloc]. rewrite E.
  apply (bind1 _ _ alike2); [apply note_alike; cbn [nodes]; reflexivity|reflexivity|]. intros t t' T. cbn. auto.
Qed.
Lemma copy_alike f : forall s s' i, nodes s = nodes s' -> alike2 (copy f s i) (copy f s' i).
Proof.
  induction f as [|f IH]; intros s s' i E; [reflexivity|]. rewrite !copy_unfold.
  assert (GV : forall s s' v m j, nodes s = nodes s' -> same_nodes (give f s v m j) (give f s' v m j)).
  { clear s s' E. intros s s' v m j E. unfold give. destruct (a_transform v) as [t|]; [|now apply method_alike].
    apply (bind2 _ _ same_nodes); [now apply IH|reflexivity|]. intros q q' x Q. cbn [fst snd]. rewrite (obj_nodes q q' x Q). now apply method_alike. }
  rewrite (get_nodes s s' i E). destruct (get s' i) as [n|]; [|reflexivity]. cbn [bind].
  apply (bind2 _ _ alike2); [now apply make0_alike|reflexivity|]. intros s0 s0' j E0. cbn [fst snd].
  apply (bind1 _ _ alike2); [now apply method_alike|reflexivity|]. intros s1 s1' E1.
  rewrite (base_nodes s1 s1' _ E1 i), E1. destruct (base_of _ s1' i) as [b|]; [|reflexivity]. cbn [bind]. rewrite (obj_nodes s1 s1' b E1).
  apply (bind1 _ _ alike2); [now apply method_alike|reflexivity|]. intros s2 s2' E2.
  apply (bind1 _ _ alike2); [destruct (a_transform (t_next n)); [now apply GV|exact E2]|reflexivity|]. intros s3 s3' E3.
  assert (L : alike2 (let* m := get s3 j in Ok (put s3 j (mkT (t_class m) (t_left m) (t_right m) (t_next m) (t_buf m) (t_base m) (t_attrs n)), j))
                     (let* m := get s3' j in Ok (put s3' j (mkT (t_class m) (t_left m) (t_right m) (t_next m) (t_buf m) (t_base m) (t_attrs n)), j))).
  { rewrite (get_nodes s3 s3' j E3). destruct (get s3' j); [|reflexivity]. cbn. split; [now rewrite E3|reflexivity]. }
  destruct (t_class n); try exact L.
  apply (bind1 _ _ alike2); [now apply method_alike|reflexivity|]. intros s4 s4' E4.
  apply (bind1 _ _ alike2); [now apply GV|reflexivity|]. intros s5 s5' E5.
  apply (bind1 _ _ alike2); [destruct (a_transform (t_right n)); [now apply GV|now apply method_alike]|reflexivity|]. intros s6 s6' E6. cbn. auto.
Qed.
Lemma step_alike fuel s s' a : nodes s = nodes s' -> same_nodes (do_step fuel s a) (do_step fuel s' a).
Proof.
  intros E. destruct a as [k args kw|i|i j|i v|i m v]; cbn [do_step].
  - unfold make. destruct (bind_args (sig_of k) args kw) as [b|]; [|reflexivity]. cbn [bind].
    assert (OP : forall s s' v, nodes s = nodes s' -> alike2 (operand fuel s v) (operand fuel s' v)).
    { clear s s' E. intros s s' v E. unfold operand. destruct (a_transform v) as [t|]; [|cbn; auto].
      apply (bind2 _ _ alike2); [now apply copy_alike|reflexivity|]. intros q q' x Q. cbn. split; [exact Q|now apply obj_nodes]. }
    assert (B : alike2 (body fuel s k b) (body fuel s' k b)).
    { unfold body, alloc. rewrite E. destruct k; try (split; reflexivity).
      apply (bind2 _ _ alike2); [apply OP; cbn [nodes]; reflexivity|reflexivity|]. intros q q' l Q. cbn [fst snd].
      apply (bind2 _ _ alike2); [now apply OP|reflexivity|]. intros p p' r P. cbn. split; [now rewrite P|reflexivity]. }
    apply (bind2 (X:=nat) _ _ same_nodes); [|reflexivity|].
    + apply (bind2 _ _ alike2); [exact B|reflexivity|]. intros q q' i Q. cbn [fst snd].
      apply (bind1 _ _ alike2); [now apply note_alike|reflexivity|]. intros p p' P. cbn. auto.
    + intros q q' i Q. exact Q.
  - apply (bind2 _ _ same_nodes); [now apply copy_alike|reflexivity|]. intros q q' x Q. exact Q.
  - apply (bind2 (X:=nat) _ _ same_nodes); [|reflexivity|intros q q' x Q; exact Q]. unfold chain. rewrite (get_nodes s s' i E). destruct (get s' i) as [n|]; [|reflexivity]. cbn [bind].
    destruct (t_class n); try reflexivity;
      (apply (bind2 _ _ alike2); [now apply copy_alike|reflexivity|]; intros s1 s1' x E1; cbn [fst snd];
       apply (bind2 _ _ alike2); [now apply copy_alike|reflexivity|]; intros s2 s2' y E2; cbn [fst snd]; rewrite (obj_nodes s2 s2' y E2);
       apply (bind1 _ _ alike2); [now apply method_alike|reflexivity|]; intros s3 s3' E3;
       apply (bind1 _ _ alike2); [now apply method_alike|reflexivity|]; intros s4 s4' E4; cbn; auto).
  - apply (bind2 (X:=nat) _ _ same_nodes); [|reflexivity|intros q q' x Q; exact Q]. unfold bind_to. rewrite (get_nodes s s' i E). destruct (get s' i) as [n|]; [|reflexivity]. cbn [bind].
    destruct (t_class n); try reflexivity;
      (apply (bind2 _ _ alike2); [now apply copy_alike|reflexivity|]; intros s1 s1' x E1; cbn [fst snd];
       rewrite (bound_nodes s s' fuel E i); destruct (bound fuel s' i) as [[|]|]; try reflexivity; cbn [bind];
       rewrite (last_nodes s1 s1' fuel E1 x); destruct (last_of fuel s1' x); [|reflexivity]; cbn [bind];
       apply (bind1 _ _ alike2); [now apply method_alike|reflexivity|]; intros s4 s4' E4; cbn; auto).
  - now apply method_alike.
Qed.
Lemma steps_alike fuel l : forall s s', nodes s = nodes s' -> same_nodes (do_steps fuel s l) (do_steps fuel s' l).
Proof.
  induction l as [|a l IH]; intros s s' E; [exact E|]. cbn [do_steps]. apply (bind1 _ _ same_nodes); [now apply step_alike|reflexivity|]. intros q q' Q. now apply IH.
Qed.

(** ** Loading leaves the objects there were alone *)
Section Later.
Variable ns0 : list tnode.
Definition later (s : st) : Prop :=
  (forall z j, lookup (reg s) z = Some j -> length ns0 <= j) /\ length ns0 <= length (nodes s) /\ length (nodes s) = length (heap (reg s)) /\
  (forall i, i < length ns0 -> nth_error (nodes s) i = nth_error ns0 i).
Lemma later_note s i k m sg args kw s' : later s -> note s i k m sg args kw = Ok s' -> later s'.
Proof.
  unfold note. intros L E. destruct (on s); [|injection E as <-; exact L]. destruct (mk_command _ _ _ _ _) as [c|]; [|discriminate E]. injection E as <-. exact L.
Qed.
Lemma later_put s i n : later s -> length ns0 <= i -> later (put s i n).
Proof.
  intros (A & B & C & D) L. split; [exact A|]. cbn [put nodes reg]. rewrite upd_length. split; [exact B|]. split; [exact C|].
  intros q Lq. rewrite upd_else by lia. now apply D.
Qed.
Lemma lookup_dset (d : dict Z nat) k v z : dget (dset d k v) z = if (z =? k)%Z then Some v else dget d z.
Proof. rewrite dget_dset. cbn. now rewrite Z.eqb_sym. Qed.
Lemma later_alloc s n : later s -> later (fst (alloc s n)) /\ length ns0 <= snd (alloc s n).
Proof.
  intros (A & B & C & D). split; [|exact B]. split; [|split; [|split]]; cbn [alloc fst nodes reg create heap].
  - intros z j. unfold lookup. cbn [objects]. destruct (recording (reg s)); [|apply A].
    rewrite lookup_dset. destruct (z =? _)%Z; [|apply A]. intros X. injection X as <-. lia.
  - rewrite app_length. lia.
  - rewrite !app_length. cbn. lia.
  - intros i L. rewrite nth_error_app1 by lia. now apply D.
Qed.
Lemma later_method s i m v s' : later s -> length ns0 <= i -> method s i m v = Ok s' -> later s'.
Proof.
  unfold method. intros L Li E. destruct (get s i) as [n|]; [|discriminate E]. cbn [bind] in E. destruct (method_sig m); [|discriminate E].
  destruct (has_method _ _); [|discriminate E]. eapply later_note; [|exact E]. now apply later_put.
Qed.
Lemma later_make0 s k s' j : later s -> make0 s k = Ok (s', j) -> later s' /\ length ns0 <= j.
Proof.
  unfold make0. intros L E. destruct (bind_args _ _ _) as [b|]; [|discriminate E]. cbn [bind] in E.
  pose proof (later_alloc s (blank k b) L) as (L1 & J1). destruct (alloc s (blank k b)) as [s1 i]. cbn [fst snd] in L1, J1.
  destruct (note s1 i _ _ _ _ _) as [s2|] eqn:N; [|discriminate E]. injection E as <- <-. split; [|exact J1]. exact (later_note _ _ _ _ _ _ _ _ L1 N).
Qed.
Lemma later_copy f : forall s i s' j, later s -> copy f s i = Ok (s', j) -> later s' /\ length ns0 <= j.
Proof.
  induction f as [|f IH]; intros s i s' j L E; [discriminate E|]. rewrite copy_unfold in E.
  assert (GV : forall s v m j s', later s -> length ns0 <= j -> give f s v m j = Ok s' -> later s').
  { clear s s' j i L E. intros s v m j s' L Lj E. unfold give in E. destruct (a_transform v) as [t|]; [|exact (later_method _ _ _ _ _ L Lj E)].
    destruct (copy f s t) as [[s1 x]|] eqn:C; [|discriminate E]. cbn [bind fst snd] in E. destruct (IH _ _ _ _ L C) as (L1 & _). exact (later_method _ _ _ _ _ L1 Lj E). }
  destruct (get s i) as [n|]; [|discriminate E]. cbn [bind] in E.
  destruct (make0 s (t_class n)) as [[s0 j0]|] eqn:E0; [|discriminate E]. destruct (later_make0 _ _ _ _ L E0) as (L0 & J0). cbn [bind fst snd] in E.
  destruct (method s0 j0 "set_buffer" (t_buf n)) as [s1|] eqn:E1; [|discriminate E]. pose proof (later_method _ _ _ _ _ L0 J0 E1) as L1. cbn [bind] in E.
  destruct (base_of (length (nodes s1)) s1 i) as [b|]; [|discriminate E]. cbn [bind] in E.
  destruct (method s1 j0 "set_base" (obj s1 b)) as [s2|] eqn:E2; [|discriminate E]. pose proof (later_method _ _ _ _ _ L1 J0 E2) as L2. cbn [bind] in E.
  destruct (match a_transform (t_next n) with Some _ => give f s2 (t_next n) "set_next" j0 | None => Ok s2 end) as [s3|] eqn:E3; [|discriminate E]. cbn [bind] in E.
  assert (L3 : later s3) by (destruct (a_transform (t_next n)); [exact (GV _ _ _ _ _ L2 J0 E3)|injection E3 as <-; exact L2]).
  assert (LF : forall r, (let* m := get s3 j0 in Ok (put s3 j0 (mkT (t_class m) (t_left m) (t_right m) (t_next m) (t_buf m) (t_base m) (t_attrs n)), j0)) = Ok r -> later (fst r) /\ length ns0 <= snd r).
  { intros r X. destruct (get s3 j0); [|discriminate X]. injection X as <-. cbn [fst snd]. split; [now apply later_put|exact J0]. }
  destruct (t_class n); try exact (LF _ E).
  destruct (method s3 j0 "set_operator" _) as [s4|] eqn:E4; [|discriminate E]. pose proof (later_method _ _ _ _ _ L3 J0 E4) as L4. cbn [bind] in E.
  destruct (give f s4 (t_left n) "set_left" j0) as [s5|] eqn:E5; [|discriminate E]. pose proof (GV _ _ _ _ _ L4 J0 E5) as L5. cbn [bind] in E.
  destruct (match a_transform (t_right n) with Some _ => give f s5 (t_right n) "set_right" j0 | None => method s5 j0 "set_left" (t_left n) end) as [s6|] eqn:E6; [|discriminate E]. injection E as <- <-.
  split; [|exact J0]. destruct (a_transform (t_right n)); [exact (GV _ _ _ _ _ L5 J0 E6)|exact (later_method _ _ _ _ _ L5 J0 E6)].
Qed.
Lemma later_operand f s v s' w : later s -> operand f s v = Ok (s', w) -> later s'.
Proof.
  unfold operand. intros L E. destruct (a_transform v) as [t|]; [|injection E as <- <-; exact L].
  destruct (copy f s t) as [[s1 x]|] eqn:C; [|discriminate E]. injection E as <- <-. exact (proj1 (later_copy _ _ _ _ _ L C)).
Qed.
Lemma later_make f s k args kw s' i : later s -> make f s k args kw = Ok (s', i) -> later s' /\ length ns0 <= i.
Proof.
  unfold make. intros L E. destruct (bind_args _ _ _) as [b|]; [|discriminate E]. cbn [bind] in E.
  assert (B : forall r, body f s k b = Ok r -> later (fst r) /\ length ns0 <= snd r).
  { intros r X. unfold body in X. pose proof (later_alloc s (blank k b) L) as (L1 & J1). destruct (alloc s (blank k b)) as [s1 j]. cbn [fst snd] in L1, J1.
    destruct k; try (injection X as <-; split; assumption).
    destruct (operand f s1 (arg b "left")) as [[s2 l]|] eqn:Ol; [|discriminate X]. cbn [bind fst snd] in X.
    destruct (operand f s2 (arg b "right")) as [[s3 r']|] eqn:Or; [|discriminate X]. injection X as <-. cbn [fst snd].
    split; [|exact J1]. apply later_put; [|exact J1]. eapply later_operand; [|exact Or]. eapply later_operand; [|exact Ol]. exact L1. }
  destruct (body f s k b) as [[s1 j]|]; [|discriminate E]. destruct (B _ eq_refl) as (L1 & J1). cbn [bind fst snd] in *.
  destruct (note s1 j _ _ _ _ _) as [s2|] eqn:N; [|discriminate E]. injection E as <- <-. split; [|exact J1]. exact (later_note _ _ _ _ _ _ _ _ L1 N).
Qed.
Lemma later_redo f s c s' : later s -> redo f s c = Ok s' -> later s'.
Proof.
  unfold redo. intros L E. destruct (dget (c_params c) "id") as [idv|]; [|discriminate E]. destruct (resolve _ _ _ _) as [kw|]; [|discriminate E]. cbn [bind] in E.
  destruct (oid_of idv) as [oid|]; [|discriminate E]. destruct (String.eqb _ _).
  - destruct (class_at _) as [k|]; [|discriminate E]. destruct (make f s k [] kw) as [[s1 i]|] eqn:M; [|discriminate E]. destruct (later_make _ _ _ _ _ _ _ L M) as ((A & B & C & D) & I1).
    cbn [bind fst snd] in E. injection E as <-.
    assert (S1 : length (heap (set_id (reg s1) i oid)) = length (heap (reg s1)) /\ forall z j, dget (objects (set_id (reg s1) i oid)) z = Some j -> length ns0 <= j).
    { unfold set_id. destruct (nth_error (heap (reg s1)) i) as [old|]; [|split; [reflexivity|exact A]]. cbn [heap objects]. split; [apply upd_length|].
      destruct (dmem (objects (reg s1)) old); [|exact A]. intros z j. rewrite lookup_dset. destruct (z =? oid)%Z; [intros X; injection X as <-; exact I1|].
      intros Q. rewrite dget_ddel in Q. apply (A z). unfold lookup. destruct (Base.eqb _ _); [discriminate Q|exact Q]. }
    destruct S1 as (S1 & S2). split; [|split; [exact B|split; [|exact D]]]; cbn [reg nodes heap].
    + intros z j. unfold lookup. cbn [objects]. rewrite lookup_dset. destruct (z =? oid)%Z; [intros X; injection X as <-; exact I1|apply S2].
    + rewrite S1. exact C.
  - destruct (lookup (reg s) oid) as [i|] eqn:Lk; [|discriminate E]. destruct (get s i) as [n|]; [|discriminate E]. cbn [bind] in E. destruct (method_sig _) as [sg|]; [|discriminate E].
    destruct (has_method _ _); [|discriminate E]. destruct (bind_args sg [] kw) as [[|[x v] [|]]|]; try discriminate E. injection E as <-.
    apply later_put; [exact L|]. exact (proj1 L _ _ Lk).
Qed.
Lemma later_all f l : forall s s', later s -> redo_all f s l = Ok s' -> later s'.
Proof.
  induction l as [|c l IH]; intros s s' L E; [injection E as <-; exact L|]. cbn [redo_all] in E.
  destruct (redo f s (reload c)) as [s1|] eqn:E1; [|discriminate E]. exact (IH _ _ (later_redo _ _ _ _ L E1) E).
Qed.
End Later.
Lemma loading_apart f s l s' : length (nodes s) = length (heap (reg s)) -> redo_all f (loading s) l = Ok s' ->
  (forall z j, lookup (reg s') z = Some j -> length (nodes s) <= j) /\ (forall i n, nth_error (nodes s) i = Some n -> nth_error (nodes s') i = Some n).
Proof.
  intros N E. assert (L0 : later (nodes s) (loading s)).
  { split; [|split; [|split]]; cbn [loading nodes reg heap]; [|lia|exact N|auto]. intros z j X. discriminate X. }
  destruct (later_all (nodes s) f l (loading s) s' L0 E) as (A & _ & _ & D). split; [exact A|]. intros i n En. rewrite D; [exact En|]. apply nth_error_Some. congruence.
Qed.
Lemma method_recorded s i m v n s' : get s i = Ok n -> method s i m v = Ok s' -> on s = true ->
  exists x p, m = "set_" ++ x /\ log s' = (log s ++ [mkC (Z.of_nat (length (log s))) (class_name (t_class n)) m p])%list /\
    dget p "id" = Some (VOid (oid_in (reg s) i)) /\
    (forall c j, v = VObj c j -> dget p (x ++ "(id)") = Some (VOid (oid_in (reg s) j)) /\ (dget p x = None \/ dget p x = Some VNone)) /\
    ((forall c j, v <> VObj c j) -> dget p x = Some v /\ dkeys p = ["id"; x]).
Proof.
  intros G M O. unfold method in M. rewrite G in M. cbn [bind] in M. destruct (method_sig m) as [sg|] eqn:Es; [|discriminate]. destruct (has_method (t_class n) m); [|discriminate].
  unfold note in M. cbn [put on reg log nodes] in M. rewrite O in M. 
  assert (X : exists x, m = "set_" ++ x /\ In x ["base"; "next"; "buffer"; "operator"; "left"; "right"; "colormap"] /\ (sg = takes [opt x] \/ sg = takes [req x])).
  { unfold method_sig in Es. repeat match type of Es with context [String.eqb m ?c] => destruct (String.eqb_spec m c) as [->|] end; try discriminate; injection Es as <-.
    - exists "base". cbn; auto 10. - exists "next". cbn; auto 10. - exists "buffer". cbn; auto 10. - exists "operator". cbn; auto 10. - exists "left". cbn; auto 10. - exists "right". cbn; auto 10. - exists "colormap". cbn; auto 10. }
  destruct X as (x & -> & I & S). exists x. 
  destruct (mk_command _ _ _ _ _) as [cmd|] eqn:MC; [|discriminate]. cbn [bind] in M. injection M as <-. cbn [log].
  cbn [In] in I. repeat (destruct I as [<-|I]; [destruct S as [-> | ->]; destruct v; cbn in MC; injection MC as <-; eexists; (split; [reflexivity|]); (split; [reflexivity|]); (split; [reflexivity|]); (split; [intros ? ? Q; first [discriminate Q | injection Q as <- <-; split; [reflexivity|cbn; auto]]|intros Q; first [exfalso; exact (Q _ _ eq_refl)|split; reflexivity]])|]). destruct I.
Qed.
