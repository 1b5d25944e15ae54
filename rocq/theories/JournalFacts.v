(** Proofs about recorded transforms. *)
From Verif Require Import Base Registry RegistryFacts Convert Command CommandSpec CommandFacts Execute Protocol ProtocolFacts Session SessionFacts LibraryFacts
  Journal JournalSpec.
Open Scope string_scope.
Open Scope nat_scope.

(** ** Arguments *)
Lemma params_plain E d id sg args kw : annotations (s_params sg) = [] ->
  recorded_parameters E d id sg args kw = Ok (build_parameters id sg args kw).
Proof.
  intros A. unfold recorded_parameters. rewrite A. induction (build_parameters id sg args kw) as [|[k v] p IH]; [reflexivity|].
  cbn [check_parameters dget]. cbn [bind]. rewrite IH. reflexivity.
Qed.
Definition ident (f : func) (v : value) : res value := Ok v.
Definition no_env : cenv := mkE (fun _ => []) (fun _ => "") (fun _ => []).

(** Every default is None; no annotation. *)
Definition simple (sg : sig) : Prop :=
  valid_sig sg /\ annotations (s_params sg) = [] /\ forall k v, default_of sg k = Some v -> v = VNone.

Lemma bind_args_keys sg args kw b : bind_args sg args kw = Ok b -> dkeys b = p_names sg.
Proof. unfold bind_args. destruct (forallb _ _); [|discriminate]. apply bind_params_keys. Qed.

Lemma resolved_given sg id args kw b oidf cid cn mn c objs cls kw' :
  simple sg -> NoDup (dkeys kw) -> bind_args sg args kw = Ok b ->
  mk_command oidf cid cn mn (build_parameters id sg args kw) = Ok c ->
  (forall k v, dget b k = Some v -> plain v = true \/ exists cl r, v = VObj cl r) ->
  resolve objs cls (fun _ v => Ok v) (c_params c) = Ok kw' ->
  exists b', bind_args sg [] kw' = Ok b' /\ dkeys b' = p_names sg /\
    forall k v, dget b k = Some v ->
      dget b' k = Some (match v with
                        | VObj _ r => if default_of sg k then VNone else match dget objs (oidf r) with Some r' => VObj (cls r') r' | None => VNone end
                        | _ => v end).
Proof.
  intros (Hs & Ha & Hd) Hkw Hb Hc Hobj Hres.
  pose proof (params_plain no_env [] id sg args kw Ha) as Hr.
  assert (Hdp : forall k v, default_of sg k = Some v -> plain v = true) by (intros k v H; now rewrite (Hd k v H)).
  assert (G : forall k v, dget b k = Some v -> dget kw' k = Some (match v with
                        | VObj _ r => if default_of sg k then VNone else match dget objs (oidf r) with Some r' => VObj (cls r') r' | None => VNone end
                        | _ => v end)).
  { intros k v Hv. destruct (Hobj k v Hv) as [Hp|(cl & r & ->)].
    - destruct (replay_value no_env [] id sg args kw b _ oidf cid cn mn c objs cls _ kw' Hs Hkw Hb Hr Hc Hres k v Hv Hp) as (x & Hx & [[-> _]|(f & Hf & _)]).
      + destruct v; try discriminate Hp; exact Hx.
      + injection Hf as <-. destruct v; try discriminate Hp; exact Hx.
    - destruct (default_of sg k) as [dv|] eqn:Ed.
      + destruct (replay_object_lost no_env [] id sg args kw b _ oidf cid cn mn c objs cls _ kw' Hs Hkw Hb Hr Hc Hres k cl r dv Hv Ed (Hdp _ _ Ed)) as (x & Hx & D).
        rewrite (Hd _ _ Ed) in D. destruct D as [->|(f & Hf)]; [exact Hx|]. injection Hf as <-. exact Hx.
      + destruct (replay_object no_env [] id sg args kw b _ oidf cid cn mn c objs cls _ kw' Hs Hkw Hb Hr Hc Hres k cl r Hv Ed) as (r' & H1 & H2).
        rewrite H1. exact H2. }
  assert (Kb : dkeys b = p_names sg) by (eapply bind_args_keys; eassumption).
  assert (A : forall n, In n (dkeys kw') <-> In n (p_names sg)).
  { intros n. split.
    - apply (replay_no_extra no_env [] id sg args kw b _ oidf cid cn mn c objs cls _ kw' Hs Hkw Hb Hr Hc Hres).
    - intros I. rewrite <- Kb in I. destruct (ProtocolFacts.dget_in b n I) as (v & Hv). exact (dget_some_in _ _ _ (G n v Hv)). }
  assert (F : forallb (fun k => existsb (String.eqb k) (p_names sg)) (dkeys kw') = true).
  { apply forallb_forall. intros n I. apply existsb_exists. exists n. split; [now apply A|apply String.eqb_refl]. }
  destruct (bind_all (s_params sg) kw') as (b' & Hb' & Kb' & Gb'); [intros n I; now apply A|].
  exists b'. split; [unfold bind_args; now rewrite F|]. split; [exact Kb'|].
  intros k v Hv. rewrite Gb'; [auto|apply Hs|]. fold (p_names sg). rewrite <- Kb. exact (dget_some_in _ _ _ Hv).
Qed.
Lemma resolved_args sg id args kw b oidf cid cn mn c objs cls :
  simple sg -> NoDup (dkeys kw) -> bind_args sg args kw = Ok b ->
  mk_command oidf cid cn mn (build_parameters id sg args kw) = Ok c ->
  (forall k v, dget b k = Some v -> plain v = true \/ exists cl r, v = VObj cl r /\ dget objs (oidf r) <> None) ->
  exists kw' b', resolve objs cls (fun _ v => Ok v) (c_params c) = Ok kw' /\ bind_args sg [] kw' = Ok b' /\ dkeys b' = p_names sg /\
    forall k v, dget b k = Some v ->
      dget b' k = Some (match v with
                        | VObj _ r => if default_of sg k then VNone else match dget objs (oidf r) with Some r' => VObj (cls r') r' | None => VNone end
                        | _ => v end).
Proof.
  intros HS Hkw Hb Hc Hobj. destruct HS as (Hs & Ha & Hd).
  pose proof (params_plain no_env [] id sg args kw Ha) as Hr.
  assert (Hdp : forall k v, default_of sg k = Some v -> plain v = true) by (intros k v H; now rewrite (Hd k v H)).
  destruct (replay_succeeds no_env [] id sg args kw b _ oidf cid cn mn c objs cls (fun _ v => Ok v) Hs Hkw Hb Hr Hc Hobj Hdp) as (kw' & Hres); [eauto|].
  destruct (resolved_given sg id args kw b oidf cid cn mn c objs cls kw') as (b' & X); [split; auto|assumption..| |assumption|eauto].
  intros k v G. destruct (Hobj k v G) as [|(cl & r & E & _)]; eauto.
Qed.

(** ** Signatures *)
Ltac simple_sig := split; [split; [cbn; repeat first [apply NoDup_nil | apply NoDup_cons; [cbn; intuition discriminate|]]
    | split; [intros ? H; cbn in H; repeat (destruct H as [<-|H]; [split; [discriminate|reflexivity]|]); contradiction
             | intros ? ? H; cbn in H; repeat (destruct H as [<-|H]; [intros E; cbn in E; try discriminate; injection E as <-; reflexivity|]); contradiction]]
  | split; [reflexivity | intros ? ? H; unfold default_of in H; cbn in H;
      repeat match type of H with context [String.eqb ?a ?b] => destruct (String.eqb a b) end; congruence]].
Lemma simple_class k : simple (sig_of k).
Proof. destruct k; simple_sig. Qed.
Lemma simple_method m sg : method_sig m = Some sg -> simple sg.
Proof.
  unfold method_sig. repeat match goal with |- context [if ?c then _ else _] => destruct c end; intros E; try discriminate; injection E as <-; simple_sig.
Qed.
Lemma class_at_path k : In k classes -> class_at (path k) = Some k.
Proof. intros H. cbn in H. repeat (destruct H as [<-|H]; [reflexivity|]). contradiction. Qed.
Lemma contains_app a b c : contains c (a ++ b)%string = contains c a || contains c b.
Proof. induction a; cbn; [reflexivity|]. rewrite IHa. now rewrite orb_assoc. Qed.
Lemma path_dotted k : contains "." (path k) = true.
Proof. destruct k; try reflexivity; unfold path; rewrite contains_app; reflexivity. Qed.

(** ** The invariant *)
Definition fixed_class (k : tclass) : bool := match k with Letter _ | Unit _ => true | _ => false end.
Record R (c s : st) : Prop := mkRel {
  R_on : on c = true; R_off : on s = false;
  R_rc : recording (reg c) = true; R_rs : recording (reg s) = true;
  R_lc : length (nodes c) = length (heap (reg c)); R_ls : length (nodes s) = length (heap (reg s));
  R_cnt : (counter (reg c) <= counter (reg s))%Z;
  R_ids : forall i z, id_of (reg c) i = Some z -> (z <= counter (reg c))%Z;
  R_nd : NoDup (heap (reg c));
  R_inj : forall i i' j, stands c s i j -> stands c s i' j -> i = i';
  R_all : forall i, i < length (nodes c) -> rebuilt c s i;
  R_held : forall i n, nth_error (nodes c) i = Some n ->
     held c (t_left n) /\ held c (t_right n) /\ held c (t_next n) /\ held c (t_buf n) /\
     (forall o, t_class n = Op o -> exists v, plain v = true /\ arg (t_attrs n) "operator" = v) /\
     In (t_class n) classes /\ (fixed_class (t_class n) = true -> t_attrs n = attrs_of (t_class n) []) }.

Lemma id_of_inj c i j z : NoDup (heap (reg c)) -> id_of (reg c) i = Some z -> id_of (reg c) j = Some z -> i = j.
Proof.
  intros N A B. unfold id_of in *. apply (proj1 (NoDup_nth_error _) N); [apply nth_error_Some; congruence|congruence].
Qed.
Lemma id_of_lt c i z : id_of (reg c) i = Some z -> i < length (heap (reg c)).
Proof. intros H. apply nth_error_Some. unfold id_of in H. congruence. Qed.
Lemma lt_id_of c i : i < length (heap (reg c)) -> exists z, id_of (reg c) i = Some z.
Proof. intros H. unfold id_of. destruct (nth_error (heap (reg c)) i) eqn:E; [eauto|]. apply nth_error_None in E. lia. Qed.
Lemma oid_in_id c i z : id_of (reg c) i = Some z -> oid_in (reg c) i = z.
Proof. unfold oid_in. now intros ->. Qed.

(** Redoing a creation, as the registry sees it. *)
Lemma redo_make fuel s c k kw z idv : dget (c_params c) "id" = Some idv -> oid_of idv = Some z ->
  resolve (objects (reg s)) (cls_in s) (fun _ v => Ok v) (c_params c) = Ok kw ->
  class_at (c_class c) = Some k -> c_method c = "__init__" ->
  redo fuel s c = let* r := make fuel s k [] kw in
     let s1 := set_id (reg (fst r)) (snd r) z in
     Ok (mkSt (mkR (counter s1) (recording s1) (dset (objects s1) z (snd r)) (heap s1)) (nodes (fst r)) (log (fst r)) (on (fst r))).
Proof. intros A B C D M. unfold redo. cbv zeta. rewrite A, C, B, M, D. reflexivity. Qed.

(** Values seen from a longer state. *)
Lemma held_mono c c' v : (forall i n, nth_error (nodes c) i = Some n -> exists m, nth_error (nodes c') i = Some m /\ t_class m = t_class n) ->
  held c v -> held c' v.
Proof. intros H. destruct v; cbn; auto. intros (n & A & B). destruct (H _ _ A) as (m & C & D). exists m. split; [exact C|congruence]. Qed.

Lemma same_mono c s c' s' v w :
  (forall i j, stands c s i j -> stands c' s' i j) -> same_value c s v w -> same_value c' s' v w.
Proof. intros H. destruct v; cbn; auto. intros (j & A & B). exists j. auto. Qed.

Lemma plain_same c s v w : plain v = true -> same_value c s v w <-> w = v.
Proof. destruct v; cbn; intros P; try discriminate; tauto. Qed.

(** ** Making an object without giving it one *)
Definition node_of (k : tclass) (b : dict string value) : tnode :=
  match k with
  | Op _ => mkT k (arg b "left") (arg b "right") VNone VNone VNone (attrs_of k b)
  | _ => blank k b
  end.
Lemma not_transform v : is_object v = false -> a_transform v = None.
Proof. destruct v; try reflexivity. discriminate. Qed.
Lemma upd_snoc {A} (l : list A) x y : upd (l ++ [x])%list (length l) y = (l ++ [y])%list.
Proof. induction l; cbn; [reflexivity|]. now rewrite IHl. Qed.
Definition added (s : st) (n : tnode) (c : option command) : st :=
  mkSt (fst (create (reg s))) (nodes s ++ [n])%list (log s ++ match c with Some x => [x] | None => [] end)%list (on s).
Lemma body_plain fuel s k b : (forall n, is_object (arg b n) = false) ->
  body fuel s k b = Ok (mkSt (fst (create (reg s))) (nodes s ++ [node_of k b])%list (log s) (on s), length (nodes s)).
Proof.
  intros H. unfold body, alloc. destruct k; try reflexivity.
  unfold operand. rewrite (not_transform _ (H "left")). cbn [bind fst snd]. rewrite (not_transform _ (H "right")). cbn [bind fst snd].
  unfold put. cbn [nodes reg log on]. rewrite upd_snoc. reflexivity.
Qed.
Lemma make_plain_on fuel s k args kw b : on s = true -> bind_args (sig_of k) args kw = Ok b -> (forall n, is_object (arg b n) = false) ->
  exists c, mk_command (oid_in (fst (create (reg s)))) (Z.of_nat (length (log s))) (class_name k) (path k)
      (build_parameters (oid_in (fst (create (reg s))) (length (nodes s))) (sig_of k) args kw) = Ok c /\
    make fuel s k args kw = Ok (added s (node_of k b) (Some c), length (nodes s)).
Proof.
  intros O B H. unfold make. rewrite B. cbn [bind]. rewrite (body_plain _ _ _ _ H). cbn [bind fst snd]. unfold note. cbn [on reg log]. rewrite O.
  unfold mk_command. replace (dmem (build_parameters _ _ args kw) "id") with true.
  - eexists. split; [reflexivity|]. unfold added. now rewrite O.
  - symmetry. unfold build_parameters. assert (G : forall l (p : dict string value), dmem p "id" = true -> dmem (fold_left add_missing l p) "id" = true).
    { induction l as [|[x v] l IH]; intros p Hp; [exact Hp|]. apply IH. unfold add_missing. cbn [fst snd]. destruct (dmem p x); [exact Hp|].
      apply dmem_in. apply dmem_in in Hp. rewrite dkeys_dset. destruct (dmem p (key_of x v)); [exact Hp|]. apply in_or_app. now left. }
    assert (G' : forall l (p : dict string value), dmem p "id" = true -> dmem (fold_left add_positional l p) "id" = true).
    { induction l as [|[x v] l IH]; intros p Hp; [exact Hp|]. apply IH. unfold add_positional. cbn [fst snd].
      apply dmem_in. apply dmem_in in Hp. rewrite dkeys_dset. destruct (dmem p (key_of x v)); [exact Hp|]. apply in_or_app. now left. }
    apply G, G, G'. reflexivity.
Qed.
Lemma make_plain_off fuel s k kw b : on s = false -> bind_args (sig_of k) [] kw = Ok b -> (forall n, is_object (arg b n) = false) ->
  make fuel s k [] kw = Ok (added s (node_of k b) None, length (nodes s)).
Proof.
  intros O B H. unfold make. rewrite B. cbn [bind]. rewrite (body_plain _ _ _ _ H). cbn [bind fst snd]. unfold note. cbn [on]. rewrite O.
  cbn [bind]. unfold added. now rewrite app_nil_r, O.
Qed.
Lemma arg_dget (b b' : dict string value) n : dget b n = dget b' n -> arg b n = arg b' n.
Proof. unfold arg. now intros ->. Qed.
Lemma node_of_ext k b b' : (forall n, dget b n = dget b' n) -> node_of k b = node_of k b'.
Proof.
  intros H. assert (A : forall n, arg b n = arg b' n) by (intros; now apply arg_dget).
  destruct k; cbn [node_of]; unfold blank, attrs_of; rewrite ?A; reflexivity.
Qed.
Lemma make0_make fuel s k : make0 s k = match bind_args (sig_of k) [] [] with Ok b => make fuel s k [] [] | Err e => Err e end.
Proof.
  unfold make0, make. destruct (bind_args (sig_of k) [] []) as [b|e] eqn:B; [|reflexivity]. cbn [bind].
  assert (H : forall n, is_object (arg b n) = false).
  { intros n. unfold arg. destruct (dget b n) as [v|] eqn:D; [|reflexivity]. unfold bind_args in B. cbn in B.
    destruct k; cbn in B; try discriminate; injection B as <-; cbn in D;
      repeat match type of D with context [String.eqb ?x ?y] => destruct (String.eqb x y) end; try discriminate; injection D as <-; reflexivity. }
  rewrite (body_plain _ _ _ _ H). cbn [bind fst snd]. unfold alloc.
  replace (node_of k b) with (blank k b); [reflexivity|].
  destruct k; try reflexivity. unfold bind_args in B. cbn in B. injection B as <-. reflexivity.
Qed.
Lemma plain_obj v : plain v = true -> is_object v = false.
Proof. destruct v; cbn; congruence. Qed.

Lemma redo_added fuel s c k kw b z idv : on s = false -> length (nodes s) = length (heap (reg s)) ->
  dget (c_params c) "id" = Some idv -> oid_of idv = Some z ->
  resolve (objects (reg s)) (cls_in s) (fun _ v => Ok v) (c_params c) = Ok kw ->
  class_at (c_class c) = Some k -> c_method c = "__init__" -> bind_args (sig_of k) [] kw = Ok b -> (forall n, is_object (arg b n) = false) ->
  redo fuel s c = Ok (mkSt (fst (replay (reg s) 0 0 z)) (nodes s ++ [node_of k b])%list (log s) false).
Proof.
  intros O L A B C D M Hb H. rewrite (redo_make fuel s c k kw z idv A B C D M), (make_plain_off fuel s k kw b O Hb H).
  cbn [bind fst snd]. unfold added. cbn [reg nodes log on]. rewrite app_nil_r, O. unfold replay. cbn [create_n create fst snd]. rewrite L. reflexivity.
Qed.

Definition plain_node (n : tnode) : Prop :=
  plain (t_left n) = true /\ plain (t_right n) = true /\ plain (t_next n) = true /\ plain (t_buf n) = true /\
  (forall o, t_class n = Op o -> exists v, plain v = true /\ arg (t_attrs n) "operator" = v) /\
  In (t_class n) classes /\ (fixed_class (t_class n) = true -> t_attrs n = attrs_of (t_class n) []).
Lemma held_plain c v : plain v = true -> held c v.
Proof. destruct v; try discriminate; intros _; reflexivity || exact I. Qed.
Lemma node_of_plain k b : In k classes -> (forall n, plain (arg b n) = true) -> plain_node (node_of k b).
Proof.
  intros K H. unfold plain_node. destruct k; cbn [node_of blank t_left t_right t_next t_buf t_class t_attrs fixed_class]; repeat (split; [first [apply H | reflexivity | (intros ? E; try discriminate) ]|]);
    try (split; [exact K|intros; try discriminate; reflexivity]).
  eexists. split; [|reflexivity]. reflexivity.
Qed.

Lemma NoDup_snoc {A} (l : list A) x : NoDup l -> ~ In x l -> NoDup (l ++ [x])%list.
Proof.
  induction 1 as [|a l Ha N IH]; intros H; cbn; [constructor; [tauto|constructor]|].
  constructor; [|apply IH; cbn in H; tauto]. rewrite in_app_iff. cbn in *. intuition congruence.
Qed.
Lemma R_created c s n cmd : R c s -> plain_node n ->
  let c' := added c n (Some cmd) in
  let s' := mkSt (fst (replay (reg s) 0 0 (1 + counter (reg c))%Z)) (nodes s ++ [n])%list (log s) false in
  R c' s' /\ stands c' s' (length (nodes c)) (length (nodes s)).
Proof.
  intros [On Off Rc Rs Lc Ls Cnt Ids Nd Inj All Held] (P1 & P2 & P3 & P4 & P5 & P6 & P7) c' s'.
  set (z := (1 + counter (reg c))%Z) in *.
  assert (Iold : forall i, i < length (heap (reg c)) -> id_of (reg c') i = id_of (reg c) i).
  { intros i Hi. unfold id_of, c', added. cbn [reg create fst heap]. now rewrite nth_error_app1. }
  assert (Inew : id_of (reg c') (length (nodes c)) = Some z).
  { unfold id_of, c', added. cbn [reg create fst heap]. rewrite Lc, nth_error_app2, Nat.sub_diag; [reflexivity|lia]. }
  pose proof (replay_result (reg s) 0 0 z) as RR. destruct (replay (reg s) 0 0 z) as [s0 r0] eqn:ER. destruct RR as (L0 & r0E & C0 & Rec0 & H0).
  assert (St : forall i j, stands c s i j -> stands c' s' i j).
  { intros i j (y & A & B). exists y. pose proof (id_of_lt _ _ _ A) as Hi. split; [now rewrite Iold|].
    pose proof (Ids _ _ A) as Y. pose proof (replay_lookup (reg s) 0 0 z Rs y) as RL. destruct RL as (RL & _); [subst z; lia|].
    unfold s'. cbn [reg]. rewrite <- B. cbn [fst] in *. rewrite <- RL by lia. now rewrite ER. }
  assert (Sn : stands c' s' (length (nodes c)) (length (nodes s))).
  { exists z. split; [exact Inew|]. unfold s'. cbn [reg]. rewrite ?ER. cbn [fst]. rewrite L0, r0E, Ls. f_equal. lia. }
  assert (Lt : forall i j, stands c s i j -> i < length (heap (reg c)) /\ j < length (nodes s)).
  { intros i j (y & A & B). pose proof (id_of_lt _ _ _ A) as Hi. split; [exact Hi|]. rewrite <- Lc in Hi.
    destruct (All i Hi) as (j' & a & b & (y' & A' & B') & _ & N' & _). assert (y' = y) by congruence. subst y'. assert (j' = j) by congruence. subst j'.
    apply nth_error_Some. congruence. }
  assert (Ts : forall i j, stands c' s' i j -> stands c s i j \/ i = length (nodes c) /\ j = length (nodes s)).
  { intros i j (y & A & B). pose proof (id_of_lt _ _ _ A) as Hi. unfold c', added in Hi. cbn [reg create fst heap] in Hi. rewrite app_length in Hi. cbn [length] in Hi.
    destruct (Nat.eq_dec i (length (nodes c))) as [->|Ne].
    - right. split; [reflexivity|]. assert (y = z) by congruence. subst y. unfold s' in B. cbn [reg fst] in B. rewrite L0 in B. injection B as <-. rewrite Ls. lia.
    - left. rewrite Iold in A by lia. exists y. split; [exact A|]. rewrite <- B.
      pose proof (Ids _ _ A) as Y. pose proof (replay_lookup (reg s) 0 0 z Rs y) as RL. destruct RL as (RL & _); [subst z; lia|].
      unfold s'. cbn [reg]. rewrite <- RL by lia. now rewrite ER. }
  split; [|exact Sn].
  assert (Nc : forall i m, nth_error (nodes c) i = Some m -> nth_error (nodes c') i = Some m).
  { intros i m A. unfold c', added. cbn [nodes]. rewrite nth_error_app1; [exact A|]. apply nth_error_Some. congruence. }
  assert (Ns : forall i m, nth_error (nodes s) i = Some m -> nth_error (nodes s') i = Some m).
  { intros i m A. unfold s'. cbn [nodes]. rewrite nth_error_app1; [exact A|]. apply nth_error_Some. congruence. }
  assert (HM : forall v, held c v -> held c' v).
  { intros v. apply held_mono. intros i m A. exists m. auto. }
  constructor.
  - exact On.
  - reflexivity.
  - exact Rc.
  - unfold s'. cbn [reg]. rewrite ?ER. cbn [fst]. congruence.
  - unfold c', added. cbn [reg nodes create fst heap]. rewrite !app_length. cbn. lia.
  - unfold s'. cbn [reg nodes]. rewrite ?ER. cbn [fst]. rewrite app_length, H0. cbn. lia.
  - unfold s', c', added. cbn [reg create fst counter]. rewrite ?ER. cbn [fst]. rewrite C0. lia.
  - intros i y A. unfold c', added in *. cbn [reg create fst counter heap] in *. unfold id_of in A. cbn [heap] in A.
    destruct (Nat.lt_ge_cases i (length (heap (reg c)))) as [Hi|Hi].
    + rewrite nth_error_app1 in A by exact Hi. specialize (Ids i y A). lia.
    + rewrite nth_error_app2 in A by exact Hi. destruct (i - length (heap (reg c))) as [|q]; [cbn [nth_error] in A; assert (y = (1 + counter (reg c))%Z) by congruence; lia|destruct q; discriminate].
  - unfold c', added. cbn [reg create fst heap]. apply NoDup_snoc; [exact Nd|].
    intros A. apply In_nth_error in A. destruct A as (i & A). specialize (Ids i _ A). lia.
  - intros i i' j A B. apply Ts in A. apply Ts in B. destruct A as [A|(-> & ->)]; destruct B as [B|(-> & E)]; [eauto|subst j; apply Lt in A; lia|apply Lt in B; lia|reflexivity].
  - intros i Hi. unfold c', added in Hi. cbn [nodes] in Hi. rewrite app_length in Hi. cbn [length] in Hi.
    destruct (Nat.eq_dec i (length (nodes c))) as [->|Ne].
    + exists (length (nodes s)), n, n. split; [exact Sn|].
      split; [unfold c', added; cbn [nodes]; rewrite nth_error_app2, Nat.sub_diag; [reflexivity|lia]|].
      split; [unfold s'; cbn [nodes]; rewrite nth_error_app2, Nat.sub_diag; [reflexivity|lia]|].
      split; [reflexivity|]. split; [reflexivity|]. repeat (split; [now apply plain_same|]). now apply plain_same.
    + destruct (All i) as (j & a & b & A1 & A2 & A3 & A4 & A5 & A6 & A7 & A8 & A9); [lia|].
      exists j, a, b. split; [now apply St|]. split; [now apply Nc|]. split; [now apply Ns|]. split; [exact A4|]. split; [exact A5|].
      repeat (split; [eapply same_mono; eassumption|]). eapply same_mono; eassumption.
  - intros i m A. unfold c', added in A. cbn [nodes] in A. destruct (Nat.lt_ge_cases i (length (nodes c))) as [Hi|Hi].
    + rewrite nth_error_app1 in A by exact Hi. destruct (Held i m A) as (H1 & H2 & H3 & H4 & H5). auto 10.
    + rewrite nth_error_app2 in A by exact Hi. destruct (i - length (nodes c)) as [|q]; [injection A as <-|destruct q; discriminate].
      repeat (split; [now apply held_plain|]). auto.
Qed.

Lemma bound_plain sg args kw b : simple sg -> bind_args sg args kw = Ok b -> (forall v, In v args -> plain v = true) -> (forall n v, In (n, v) kw -> plain v = true) ->
  forall k v, dget b k = Some v -> plain v = true.
Proof.
  intros ((N & _) & _ & D) B A K k v G. unfold bind_args in B. destruct (forallb _ _); [|discriminate].
  rewrite (bind_params_get _ _ _ _ k B N) in G. destruct (dget (combine (map p_name (s_params sg)) args) k) as [w|] eqn:E.
  - injection G as <-. apply Base.dget_in in E. apply in_combine_r in E. auto.
  - destruct (existsb _ _); [|discriminate]. destruct (dget kw k) as [w|] eqn:E'; [injection G as <-; apply Base.dget_in in E'; eauto|].
    now rewrite (D k v G).
Qed.
Lemma arg_plain (b : dict string value) : (forall k v, dget b k = Some v -> plain v = true) -> forall n, plain (arg b n) = true.
Proof. intros H n. unfold arg. destruct (dget b n) eqn:E; [eauto|reflexivity]. Qed.
Lemma mk_command_id oidf cid cn mn id sg args kw b c : simple sg -> NoDup (dkeys kw) -> bind_args sg args kw = Ok b ->
  mk_command oidf cid cn mn (build_parameters id sg args kw) = Ok c -> dget (c_params c) "id" = Some (VOid id) /\ c_class c = cn /\ c_method c = mn.
Proof.
  intros (V & _) N B M. destruct (build_get id sg args kw b V N B) as (A & _). unfold mk_command in M. destruct (dmem _ _); [|discriminate].
  injection M as <-. cbn [c_params c_class c_method]. split; [|split; reflexivity].
  revert A. generalize (build_parameters id sg args kw). induction d as [|[x v] d IH]; cbn [dget map fst snd]; [discriminate|].
  destruct (Base.eqb "id" x); [|exact IH]. intros E. injection E as ->. reflexivity.
Qed.

Lemma make_replayed fuel fuel' c s k args kw c' i : R c s -> In k classes -> NoDup (dkeys kw) ->
  (forall v, In v args -> plain v = true) -> (forall n v, In (n, v) kw -> plain v = true) -> make fuel c k args kw = Ok (c', i) ->
  exists b cmd s', bind_args (sig_of k) args kw = Ok b /\ i = length (nodes c) /\ c' = added c (node_of k b) (Some cmd) /\
    redo fuel' s (reload cmd) = Ok s' /\ R c' s'.
Proof.
  intros HR K N PA PK M. destruct (bind_args (sig_of k) args kw) as [b|e] eqn:B; [|unfold make in M; rewrite B in M; discriminate].
  pose proof (bound_plain _ _ _ _ (simple_class k) B PA PK) as BP.
  pose proof (arg_plain b BP) as AP.
  destruct (make_plain_on fuel c k args kw b (R_on _ _ HR) B) as (cmd & MC & M'); [intros n; apply plain_obj, AP|].
  rewrite M in M'. assert (Ec : c' = added c (node_of k b) (Some cmd)) by congruence. assert (Ei : i = length (nodes c)) by congruence. clear M M'.
  destruct (mk_command_id _ _ _ _ _ _ _ _ _ _ (simple_class k) N B MC) as (Cid & Ccl & Cme).
  destruct (resolved_args _ _ _ _ _ _ _ _ _ _ (objects (reg s)) (cls_in s) (simple_class k) N B MC) as (kw' & b' & RS & B' & Kb' & G).
  { intros q v Q. left. eauto. }
  assert (Gx : forall n, dget b n = dget b' n).
  { intros n. destruct (dget b n) as [v|] eqn:E.
    - rewrite (G n v E). specialize (BP n v E). destruct v; try discriminate; reflexivity.
    - symmetry. apply dget_none. rewrite Kb'. rewrite <- (bind_args_keys _ _ _ _ B). now apply dget_none. }
  assert (Eid : oid_in (fst (create (reg c))) (length (nodes c)) = (1 + counter (reg c))%Z).
  { unfold oid_in, id_of. cbn [create fst heap]. rewrite (R_lc _ _ HR), nth_error_app2, Nat.sub_diag; [reflexivity|lia]. }
  rewrite Eid in Cid.
  exists b, cmd. eexists. split; [reflexivity|]. split; [exact Ei|]. split; [exact Ec|]. split.
  - unfold reload. rewrite Cme, path_dotted.
    apply redo_added with (idv := VOid (1 + counter (reg c))) (kw := kw') (k := k) (b := b'); cbn [c_params c_class c_method].
    + apply (R_off _ _ HR).
    + apply (R_ls _ _ HR).
    + exact Cid.
    + reflexivity.
    + exact RS.
    + now apply class_at_path.
    + reflexivity.
    + exact B'.
    + intros n. rewrite <- (arg_dget b b' n (Gx n)). apply plain_obj, AP.
  - rewrite <- (node_of_ext k b b' Gx). rewrite Ec. apply R_created; [exact HR|]. now apply node_of_plain.
Qed.

(** ** Calling a method *)
Definition keeps (m : string) : bool := String.eqb m "set_left" || String.eqb m "set_right" || String.eqb m "set_operator" || String.eqb m "set_colormap".
Lemma method_sig_one m sg v : method_sig m = Some sg ->
  exists x, p_names sg = [x] /\ bind_args sg [v] [] = Ok [(x, v)] /\ default_of sg x = (if keeps m then None else Some VNone) /\
    contains "." m = false /\ String.eqb m "__init__" = false.
Proof.
  unfold method_sig, keeps. repeat match goal with |- context [String.eqb m ?c] => destruct (String.eqb_spec m c) as [->|] end;
    cbn [orb]; intros E; try discriminate; injection E as <-; eexists; repeat (split; [reflexivity|]); reflexivity.
Qed.
Lemma stands_rebuilt c s i j : R c s -> stands c s i j -> exists n m, nth_error (nodes c) i = Some n /\ nth_error (nodes s) j = Some m /\
    t_class m = t_class n /\ t_attrs m = t_attrs n /\
    same_value c s (t_left n) (t_left m) /\ same_value c s (t_right n) (t_right m) /\
    same_value c s (t_next n) (t_next m) /\ same_value c s (t_buf n) (t_buf m).
Proof.
  intros HR (y & A & B). pose proof (id_of_lt _ _ _ A) as Hi. rewrite <- (R_lc _ _ HR) in Hi.
  destruct (R_all _ _ HR i Hi) as (j' & n & m & (y' & A' & B') & H). assert (y' = y) by congruence. subst y'. assert (j' = j) by congruence. subst j'. eauto.
Qed.
Lemma has_stand c s i n : R c s -> nth_error (nodes c) i = Some n -> exists j, stands c s i j.
Proof. intros HR A. destruct (R_all _ _ HR i) as (j & _ & _ & H & _); [apply nth_error_Some; congruence|eauto]. Qed.

Lemma method_redone fuel c s i m v c' : R c s -> method c i m v = Ok c' -> held c v ->
  exists n j n' v' cmd, nth_error (nodes c) i = Some n /\ stands c s i j /\ nth_error (nodes s) j = Some n' /\ has_method (t_class n) m = true /\
    c' = mkSt (reg c) (upd (nodes c) i (assign m n v)) (log c ++ [cmd])%list true /\
    redo fuel s (reload cmd) = Ok (put s j (assign m n' v')) /\
    (plain v = true -> v' = v) /\ (keeps m = true -> same_value c s v v') /\ (is_object v = true -> keeps m = false -> v' = VNone).
Proof.
  intros HR M Hv. unfold method, get in M. destruct (nth_error (nodes c) i) as [n|] eqn:En; [|discriminate]. cbn [bind] in M.
  destruct (method_sig m) as [sg|] eqn:Es; [|discriminate]. destruct (has_method (t_class n) m) eqn:Eh; [|discriminate].
  destruct (method_sig_one m sg v Es) as (x & Px & Bx & Dx & Nd & Ni).
  unfold note in M. cbn [put on reg log nodes] in M. rewrite (R_on _ _ HR) in M.
  destruct (mk_command _ _ _ _ _) as [cmd|] eqn:MC; [|discriminate]. cbn [bind] in M. injection M as <-.
  destruct (has_stand c s i n HR En) as (j & Sj). destruct (stands_rebuilt c s i j HR Sj) as (n0 & n' & En0 & En' & Cl & _).
  assert (n0 = n) by congruence. subst n0.
  assert (Nk : NoDup (dkeys (@nil (string * value)))) by constructor.
  destruct (mk_command_id _ _ _ _ _ _ _ _ _ _ (simple_method m sg Es) Nk Bx MC) as (Cid & Ccl & Cme).
  destruct (resolved_args _ _ _ _ _ _ _ _ _ _ (objects (reg s)) (cls_in s) (simple_method m sg Es) Nk Bx MC) as (kw' & b' & RS & B' & Kb' & G).
  { intros q w Q. cbn [dget] in Q. destruct (Base.eqb q x); [|discriminate]. injection Q as <-. destruct v; cbn in Hv; try (left; exact Hv).
    right. eexists _, _. split; [reflexivity|]. destruct Hv as (a & Ha & _). destruct (has_stand c s _ a HR Ha) as (ja & y & Y1 & Y2).
    rewrite (oid_in_id _ _ _ Y1). unfold lookup in Y2. congruence. }
  assert (Gx : dget [(x, v)] x = Some v) by (cbn [dget]; now rewrite Base.eqb_refl).
  specialize (G x v Gx). rewrite Px in Kb'. destruct b' as [|[x' v'] [|]]; cbn in Kb'; try discriminate. injection Kb' as ->.
  cbn [dget] in G. rewrite Base.eqb_refl in G. injection G as G.
  exists n, j, n', v', cmd. repeat (split; [first [assumption | reflexivity]|]). split.
  - unfold reload. rewrite Cme, Nd. unfold redo. rewrite Cid, RS. cbn [bind oid_of]. rewrite Cme, Ni.
    destruct Sj as (y & Y1 & Y2). rewrite (oid_in_id _ _ _ Y1), Y2. unfold get. rewrite En'. cbn [bind]. rewrite Es, Cl, Eh, B'. reflexivity.
  - split; [intros P; destruct v; try discriminate P; exact G|]. split.
    + intros Kp. rewrite Kp in Dx. destruct v; try exact G. rewrite Dx in G. destruct Hv as (a & Ha & Hc). destruct (has_stand c s _ a HR Ha) as (ja & Sa).
      destruct (stands_rebuilt c s _ ja HR Sa) as (a0 & a' & E0 & E1 & C1 & _). assert (a0 = a) by congruence. subst a0.
      pose proof Sa as (y & Y1 & Y2). rewrite (oid_in_id _ _ _ Y1) in G. unfold lookup in Y2. rewrite Y2 in G. cbn [same_value]. exists ja. split; [|exact Sa].
      rewrite G. unfold cls_in. rewrite E1, C1, Hc. reflexivity.
    + intros Ob Kp. rewrite Kp in Dx. destruct v; try discriminate Ob. now rewrite Dx in G.
Qed.

Lemma assign_class m n v : t_class (assign m n v) = t_class n.
Proof. destruct n. unfold assign. repeat match goal with |- context [String.eqb m ?c] => destruct (String.eqb m c) end; reflexivity. Qed.

Lemma upd_same {A} (l : list A) i x : nth_error l i = Some x -> upd l i x = l.
Proof. revert i. induction l; destruct i; cbn; intros H; try discriminate; [now injection H as ->|]. f_equal. auto. Qed.
Lemma R_update c s i j a a' n l : R c s -> stands c s i j -> nth_error (nodes c) i = Some n -> t_class a = t_class n -> t_class a' = t_class a ->
  t_attrs a' = t_attrs a ->
  same_value c s (t_left a) (t_left a') -> same_value c s (t_right a) (t_right a') ->
  same_value c s (t_next a) (t_next a') -> same_value c s (t_buf a) (t_buf a') ->
  held c (t_left a) -> held c (t_right a) -> held c (t_next a) -> held c (t_buf a) ->
  (forall o, t_class a = Op o -> exists v, plain v = true /\ arg (t_attrs a) "operator" = v) ->
  (fixed_class (t_class a) = true -> t_attrs a = attrs_of (t_class a) []) ->
  R (mkSt (reg c) (upd (nodes c) i a) l true) (put s j a').
Proof.
  intros HR Sj En Ca Ca' At S1 S2 S3 S4 H1 H2 H3 H4 Ho Hf.
  destruct (stands_rebuilt c s i j HR Sj) as (n0 & n' & En0 & En' & Cl & _). assert (n0 = n) by congruence. subst n0.
  assert (Li : i < length (nodes c)) by (apply nth_error_Some; congruence).
  assert (Lj : j < length (nodes s)) by (apply nth_error_Some; congruence).
  destruct HR as [On Off Rc Rs Lc Ls Cnt Ids Nd Inj All Held].
  set (c' := mkSt (reg c) (upd (nodes c) i a) l true). set (s' := put s j a').
  assert (St : forall i j, stands c s i j <-> stands c' s' i j) by (intros; reflexivity).
  assert (Sv : forall v w, same_value c s v w -> same_value c' s' v w) by (intros v w; apply same_mono; intros; now apply St).
  assert (HM : forall v, held c v -> held c' v).
  { intros v. apply held_mono. intros q b Hq. unfold c'. cbn [nodes]. destruct (Nat.eq_dec q i) as [->|Ne].
    - exists a. rewrite nth_error_upd, Nat.eqb_refl. assert (b = n) by congruence. subst b. now rewrite En.
    - exists b. rewrite nth_error_upd. apply Nat.eqb_neq in Ne. rewrite ?Ne. rewrite Nat.eqb_sym in Ne. rewrite ?Ne. auto. }
  constructor; try assumption.
  - reflexivity.
  - unfold c'. cbn [nodes reg]. now rewrite upd_length.
  - unfold s', put. cbn [nodes reg]. now rewrite upd_length.
  - intros q Hq. unfold c' in Hq. cbn [nodes] in Hq. rewrite upd_length in Hq. destruct (Nat.eq_dec q i) as [->|Ne].
    + exists j, a, a'. split; [now apply St|]. split; [unfold c'; cbn [nodes]; rewrite nth_error_upd, Nat.eqb_refl; now rewrite En|].
      split; [unfold s', put; cbn [nodes]; rewrite nth_error_upd, Nat.eqb_refl; now rewrite En'|]. auto 10.
    + destruct (All q Hq) as (jq & b & b' & A1 & A2 & A3 & A4 & A5 & A6 & A7 & A8 & A9).
      exists jq, b, b'. split; [now apply St|]. split.
      { unfold c'. cbn [nodes]. rewrite nth_error_upd. apply Nat.eqb_neq in Ne. rewrite ?Ne. rewrite Nat.eqb_sym in Ne. rewrite ?Ne. exact A2. }
      split; [|auto 10]. unfold s', put. cbn [nodes]. rewrite nth_error_upd.
      assert (Nj : jq <> j) by (intros ->; apply Ne; eapply Inj; eassumption). apply Nat.eqb_neq in Nj. rewrite ?Nj. rewrite Nat.eqb_sym in Nj. rewrite ?Nj. exact A3.
  - intros q b Hq. unfold c' in Hq. cbn [nodes] in Hq. rewrite nth_error_upd in Hq. destruct (Nat.eqb_spec q i) as [->|Ne].
    + rewrite En in Hq. injection Hq as <-. destruct (Held i n En) as (_ & _ & _ & _ & _ & K & _). rewrite Ca in *. auto 10.
    + destruct (Held q b Hq) as (G1 & G2 & G3 & G4 & G5). auto 10.
Qed.

Lemma R_assign c s i j n n' m v v' l : R c s -> nth_error (nodes c) i = Some n -> stands c s i j -> nth_error (nodes s) j = Some n' ->
  has_method (t_class n) m = true -> held c v -> m = "set_base" \/ same_value c s v v' -> (m = "set_operator" -> plain v = true) ->
  R (mkSt (reg c) (upd (nodes c) i (assign m n v)) l true) (put s j (assign m n' v')).
Proof.
  intros HR En Sj En' Hm Hv Sv Hp. destruct (stands_rebuilt c s i j HR Sj) as (n0 & n1 & E0 & E1 & Cl & At & S1 & S2 & S3 & S4).
  assert (n0 = n) by congruence. assert (n1 = n') by congruence. subst n0 n1.
  destruct (R_held _ _ HR i n En) as (H1 & H2 & H3 & H4 & H5 & _ & H6).
  apply R_update with (n := n); try assumption; try (now rewrite ?assign_class);
    destruct n as [k a1 a2 a3 a4 a5 a6]; destruct n' as [k' b1 b2 b3 b4 b5 b6]; cbn [t_class t_left t_right t_next t_buf t_attrs] in *; unfold assign;
    repeat match goal with |- context [String.eqb m ?c] => destruct (String.eqb_spec m c) as [->|] end;
    cbn [t_class t_left t_right t_next t_buf t_attrs]; try assumption;
    try (destruct Sv as [Sv|Sv]; [congruence|assumption]).
  - destruct Sv as [Sv|Sv]; [congruence|]. apply plain_same in Sv; [|auto]. now subst.
  - intros o _. exists v. split; [auto|]. unfold arg. now rewrite dget_dset_same.
  - intros F. exfalso. destruct k; discriminate.
Qed.

(** ** Whole programs *)
Lemma redo_all_app g s l1 l2 : redo_all g s (l1 ++ l2) = let* s' := redo_all g s l1 in redo_all g s' l2.
Proof. revert s. induction l1 as [|a l1 IH]; intros s; [reflexivity|]. cbn [redo_all app]. destruct (redo g s (reload a)); [apply IH|reflexivity]. Qed.

Section Replay.
  Context (g : nat) (s0 : st).
  Definition Inv (c : st) : Prop := exists s, redo_all g s0 (log c) = Ok s /\ R c s.

  Lemma inv_method c i m v c' : Inv c -> method c i m v = Ok c' -> held c v ->
    (m = "set_left" \/ m = "set_right" \/ m = "set_base" \/ plain v = true) -> 
    Inv c' /\ exists n, nth_error (nodes c) i = Some n /\ nodes c' = upd (nodes c) i (assign m n v).
  Proof.
    intros (s & Hs & HR) M Hv Hm. destruct (method_redone g c s i m v c' HR M Hv) as (n & j & n' & v' & cmd & A1 & A2 & A3 & A4 & A5 & A6 & A7 & A8 & A9).
    split; [|exists n; split; [exact A1|now rewrite A5]].
    exists (put s j (assign m n' v')). rewrite A5. cbn [log]. rewrite redo_all_app, Hs. cbn [bind redo_all]. rewrite A6. split; [reflexivity|].
    apply R_assign; try assumption.
    - destruct Hm as [Hm|[Hm|[Hm|Hm]]]; [right; apply A8; now subst m..|now left|]. right. apply plain_same; [exact Hm|]. auto.
    - intros ->. destruct Hm as [Hm|[Hm|[Hm|Hm]]]; try discriminate; exact Hm.
  Qed.
  Lemma inv_make fuel c k args kw c' i : Inv c -> In k classes -> NoDup (dkeys kw) ->
    (forall v, In v args -> plain v = true) -> (forall n v, In (n, v) kw -> plain v = true) -> make fuel c k args kw = Ok (c', i) ->
    Inv c' /\ i = length (nodes c) /\ exists n, nodes c' = (nodes c ++ [n])%list /\ t_class n = k.
  Proof.
    intros (s & Hs & HR) K N PA PK M. destruct (make_replayed fuel g c s k args kw c' i HR K N PA PK M) as (b & cmd & s' & B & I & E & D & HR').
    split; [|split; [exact I|]].
    - exists s'. rewrite E. cbn [added log]. rewrite redo_all_app, Hs. cbn [bind redo_all]. rewrite D. split; [reflexivity|]. now rewrite <- E.
    - exists (node_of k b). rewrite E. split; [reflexivity|]. now destruct k.
  Qed.

  Lemma inv_held c q n : Inv c -> nth_error (nodes c) q = Some n -> held c (t_left n) /\ held c (t_right n) /\ held c (t_next n) /\ held c (t_buf n) /\
     (forall o, t_class n = Op o -> exists v, plain v = true /\ arg (t_attrs n) "operator" = v) /\
     In (t_class n) classes /\ (fixed_class (t_class n) = true -> t_attrs n = attrs_of (t_class n) []).
  Proof. intros (s & _ & HR) A. exact (R_held _ _ HR q n A). Qed.

  (** [c] is what [c0] has become, with a new object [j] of class [k]. *)
  Definition grown (c0 c : st) (k : tclass) (j : nat) : Prop :=
    Inv c /\ (forall q n, nth_error (nodes c0) q = Some n -> nth_error (nodes c) q = Some n) /\
    length (nodes c0) <= j /\ exists m, nth_error (nodes c) j = Some m /\ t_class m = k.
  Lemma grown_method c0 c k j m v c' : grown c0 c k j -> method c j m v = Ok c' -> held c v ->
    (m = "set_left" \/ m = "set_right" \/ m = "set_base" \/ plain v = true) -> grown c0 c' k j.
  Proof.
    intros (HI & Old & Le & a & Ha & Hk) M Hv Hm. destruct (inv_method c j m v c' HI M Hv Hm) as (HI' & n & En & Eu).
    split; [exact HI'|]. rewrite Eu. split; [|split; [exact Le|]].
    - intros q b Hq. rewrite nth_error_upd. assert (q < length (nodes c0)) by (apply nth_error_Some; congruence).
      destruct (Nat.eqb_spec q j); [lia|]. auto.
    - exists (assign m n v). rewrite nth_error_upd, Nat.eqb_refl, En. split; [reflexivity|]. rewrite assign_class. congruence.
  Qed.
  Lemma whole_mono ns ns' : (forall q n, nth_error ns q = Some n -> nth_error ns' q = Some n) -> forall i, whole ns i -> whole ns' i.
  Proof. intros H i W. induction W; [eapply W_leaf|eapply W_op]; eauto. Qed.
  Lemma held_ext c c' v : (forall q n, nth_error (nodes c) q = Some n -> nth_error (nodes c') q = Some n) -> held c v -> held c' v.
  Proof. intros H. apply held_mono. eauto. Qed.
  Lemma held_obj c j m : nth_error (nodes c) j = Some m -> held c (obj c j).
  Proof. intros H. unfold obj, cls_in. rewrite H. cbn. eauto. Qed.
  Lemma base_of_in fuel s i b : base_of fuel s i = Ok b -> exists m, nth_error (nodes s) b = Some m.
  Proof.
    revert i. induction fuel as [|f IH]; intros i; [discriminate|]. cbn [base_of]. unfold get. destruct (nth_error (nodes s) i) as [n|] eqn:E; [|discriminate].
    cbn [bind]. destruct (t_base n); try (intros H; injection H as <-; eauto). apply IH.
  Qed.

  Lemma whole_inv ns i : whole ns i -> exists n, nth_error ns i = Some n /\ a_transform (t_next n) = None /\ is_object (t_buf n) = false /\
    (fixed_class (t_class n) = true \/ (exists o, t_class n = Op o) /\ (forall t, a_transform (t_left n) = Some t -> whole ns t) /\ (forall t, a_transform (t_right n) = Some t -> whole ns t)).
  Proof.
    intros W. inversion W as [? n A B C D|? n o A B C D E F]; subst; exists n; split; auto; split; auto; split; auto.
    - left. destruct (t_class n); try contradiction; reflexivity.
    - right. split; eauto.
  Qed.

  Lemma grown_copy fuel : forall c i c' j, Inv c -> whole (nodes c) i -> copy fuel c i = Ok (c', j) ->
    exists n, nth_error (nodes c) i = Some n /\ grown c c' (t_class n) j.
  Proof.
    induction fuel as [|f IH]; intros c i c' j HI W; [discriminate|]. cbn [copy].
    destruct (whole_inv _ _ W) as (n & En & Nx & Bf & Cases). unfold get at 1. rewrite En. cbn [bind].
    destruct (inv_held c i n HI En) as (H1 & H2 & H3 & H4 & H5 & H6 & H7).
    assert (Pb : plain (t_buf n) = true) by (destruct (t_buf n); try discriminate Bf; exact H4).
    destruct (make0 c (t_class n)) as [[c1 j1]|e] eqn:EM; [|discriminate]. cbn [bind fst snd].
    assert (G1 : grown c c1 (t_class n) j1).
    { rewrite (make0_make f) in EM. destruct (bind_args (sig_of (t_class n)) [] []) eqn:B0; [|discriminate].
      destruct (inv_make f c (t_class n) [] [] c1 j1 HI H6) as (HI1 & -> & m & Em & Km); [constructor|intros ? []|intros ? ? []|exact EM|].
      split; [exact HI1|]. rewrite Em. split; [|split; [lia|]].
      - intros q b Hq. rewrite nth_error_app1; [exact Hq|]. apply nth_error_Some. congruence.
      - exists m. rewrite nth_error_app2, Nat.sub_diag; [auto|lia]. }
    destruct (method c1 j1 "set_buffer" (t_buf n)) as [c2|e] eqn:E2; [|discriminate]. cbn [bind].
    assert (G2 : grown c c2 (t_class n) j1).
    { eapply grown_method; [exact G1|exact E2| |auto]. now apply held_plain. }
    destruct (base_of _ c2 i) as [b|e] eqn:EB; [|discriminate]. cbn [bind]. destruct (base_of_in _ _ _ _ EB) as (mb & Emb).
    destruct (method c2 j1 "set_base" (obj c2 b)) as [c3|e] eqn:E3; [|discriminate]. cbn [bind].
    assert (G3 : grown c c3 (t_class n) j1).
    { eapply grown_method; [exact G2|exact E3|eapply held_obj; eassumption|auto]. }
    rewrite Nx. cbn [bind].
    assert (CP : forall c4 v m c5, grown c c4 (t_class n) j1 -> held c v -> (forall t, a_transform v = Some t -> whole (nodes c) t) -> m = "set_left" \/ m = "set_right" ->
      match a_transform v with
      | Some t => let* r := copy f c4 t in method (fst r) j1 m (obj (fst r) (snd r))
      | None => method c4 j1 m v
      end = Ok c5 -> grown c c5 (t_class n) j1).
    { intros c4 v m c5 G4 Hv Wv Hm. destruct (a_transform v) as [t|] eqn:Ev.
      - destruct (copy f c4 t) as [[c6 j6]|] eqn:E6; [|discriminate]. cbn [bind fst snd]. intros E7.
        destruct G4 as (HI4 & Old4 & Le4 & m4 & Em4 & Km4).
        destruct (IH c4 t c6 j6 HI4 (whole_mono _ _ Old4 _ (Wv t eq_refl)) E6) as (nt & Ent & HI6 & Old6 & Le6 & m6 & Em6 & Km6).
        eapply grown_method; [|exact E7|eapply held_obj; eassumption|tauto].
        split; [exact HI6|]. split; [auto|]. split; [exact Le4|]. exists m4. auto.
      - intros E7. eapply grown_method; [exact G4|exact E7| |tauto]. destruct G4 as (_ & Old4 & _). eapply held_ext; eassumption. }
    destruct Cases as [Fx|((o & Eo) & Wl & Wr)].
    - assert (HX : forall (X : res (st * nat)) Y, (match t_class n with Op _ => Y | _ => X end) = X) by (intros; destruct (t_class n); try discriminate Fx; reflexivity).
      rewrite HX. clear HX. unfold get. destruct G3 as (HI3 & Old3 & Le3 & m3 & Em3 & Km3). rewrite Em3. cbn [bind].
      assert (Ea : t_attrs m3 = t_attrs n).
      { destruct (inv_held c3 j1 m3 HI3 Em3) as (_ & _ & _ & _ & _ & _ & K). rewrite Km3 in K. rewrite K, H7; auto. }
      rewrite <- Ea. replace (mkT _ _ _ _ _ _ _) with m3 by (destruct m3; reflexivity). unfold put. rewrite (upd_same _ _ _ Em3).
      replace (mkSt (reg c3) (nodes c3) (log c3) (on c3)) with c3 by (destruct c3; reflexivity).
      intros E. assert (c' = c3) by congruence. assert (j = j1) by congruence. subst c' j. exists n. split; [reflexivity|].
      split; [exact HI3|]. eauto.
    - rewrite Eo. destruct (H5 o Eo) as (vo & Pvo & Evo). rewrite Evo.
      destruct (method c3 j1 "set_operator" vo) as [c4|] eqn:E4; [|discriminate]. cbn [bind].
      assert (G4 : grown c c4 (t_class n) j1) by (eapply grown_method; [exact G3|exact E4|now apply held_plain|auto]).
      match goal with |- context [bind ?x _] => destruct x as [c5|] eqn:E5; [|discriminate] end. cbn [bind].
      assert (G5 : grown c c5 (t_class n) j1) by (eapply (CP c4 (t_left n) "set_left"); eauto).
      match goal with |- context [bind ?x _] => destruct x as [c6|] eqn:E6; [|discriminate] end. cbn [bind].
      intros E. assert (c' = c6) by congruence. assert (j = j1) by congruence. subst c' j. exists n. split; [reflexivity|].
      destruct (a_transform (t_right n)) as [t|] eqn:Et.
      + apply (CP c5 (t_right n) "set_right"); [exact G5|exact H2|rewrite Et; exact Wr|auto|rewrite Et; exact E6].
      + destruct G5 as (HI5 & Old5 & R5). eapply grown_method; [split; [exact HI5|split; [exact Old5|exact R5]]|exact E6| |auto]. eapply held_ext; eassumption.
  Qed.

  Lemma inv_step fuel c a c' : Inv c -> survives c a -> do_step fuel c a = Ok c' -> Inv c'.
  Proof.
    intros HI Sv. destruct a as [k args kw|i|i j|i v|i m v]; cbn [do_step survives] in *.
    - destruct Sv as (K & N & PA & PK). destruct (make fuel c k args kw) as [[c1 i1]|] eqn:E; [|discriminate]. cbn [bind fst].
      intros H. injection H as <-. now apply (inv_make fuel c k args kw c1 i1).
    - destruct (copy fuel c i) as [[c1 i1]|] eqn:E; [|discriminate]. cbn [bind fst]. intros H. injection H as <-.
      now destruct (grown_copy fuel c i c1 i1 HI Sv E) as (n & _ & HI' & _).
    - contradiction.
    - destruct Sv as (W & P). unfold bind_to. destruct (get c i) as [n|]; [|discriminate]. cbn [bind].
      destruct (copy fuel c i) as [[c1 i1]|] eqn:E.
      2: { destruct (t_class n); discriminate. }
      destruct (grown_copy fuel c i c1 i1 HI W E) as (n' & _ & HI' & _). intros H.
      assert (X : exists q, method c1 q "set_buffer" v = Ok c').
      { destruct (t_class n); try discriminate; cbn [bind fst snd] in H; destruct (bound fuel c i) as [[|]|]; try discriminate; cbn [bind] in H;
          destruct (last_of fuel c1 i1) as [q|]; try discriminate; cbn [bind] in H; exists q; destruct (method c1 q "set_buffer" v); try discriminate; cbn [bind fst] in H; congruence. }
      destruct X as (q & X). apply (inv_method c1 q "set_buffer" v c' HI' X); [now apply held_plain|auto].
    - destruct Sv as (Hv & Hm). intros M. apply (inv_method c i m v c' HI M Hv). tauto.
  Qed.
  Lemma inv_steps fuel l : forall c c', Inv c -> all_survive fuel c l -> do_steps fuel c l = Ok c' -> Inv c'.
  Proof.
    induction l as [|a l IH]; intros c c' HI Sv; cbn [do_steps all_survive] in *; [intros H; now injection H as <-|].
    destruct Sv as (S1 & S2). destruct (do_step fuel c a) as [c1|] eqn:E; [|discriminate]. cbn [bind]. eauto using inv_step.
  Qed.
End Replay.
Lemma R_start s : able s -> R fresh (loading s).
Proof.
  intros (Rs & C & L). constructor; try reflexivity; try assumption.
  - intros i z H. unfold id_of in H. cbn in H. destruct i; discriminate.
  - constructor.
  - intros i i' j (z & A & _). unfold id_of in A. cbn in A. destruct i; discriminate.
  - intros i H. cbn in H. lia.
  - intros i n H. cbn in H. destruct i; discriminate.
Qed.
Lemma eval_same {X} (I : interp X) c s : R c s -> forall h v w, held c v -> same_value c s v w -> eval I h (nodes s) w = eval I h (nodes c) v.
Proof.
  intros HR h. induction h as [|h IH]; intros v w Hv Sv; [reflexivity|]. destruct v; cbn [same_value] in Sv; try (subst w; reflexivity).
  destruct Sv as (j & -> & Sj). cbn [eval]. destruct (stands_rebuilt c s _ j HR Sj) as (n & m & En & Em & Cl & At & S1 & S2 & S3 & S4).
  rewrite En, Em, Cl, At. destruct (R_held _ _ HR _ n En) as (H1 & H2 & H3 & H4 & _).
  assert (T : match a_transform (t_next m) with
              | Some _ => let* y := eval I h (nodes s) (t_next m) in Ok (Some y)
              | None => match t_buf m with VNone => Ok None | w => let* y := eval I h (nodes s) w in Ok (Some y) end
              end = match a_transform (t_next n) with
              | Some _ => let* y := eval I h (nodes c) (t_next n) in Ok (Some y)
              | None => match t_buf n with VNone => Ok None | w => let* y := eval I h (nodes c) w in Ok (Some y) end
              end).
  { rewrite (IH _ _ H3 S3). replace (a_transform (t_next m)) with (match a_transform (t_next n) with Some _ => a_transform (t_next m) | None => None end).
    - destruct (a_transform (t_next n)) eqn:E.
      + destruct (t_next n); cbn [a_transform] in E; try discriminate. cbn [same_value] in S3. destruct S3 as (q & -> & _). cbn [a_transform] in *.
        destruct (String.eqb _ _); [discriminate|reflexivity].
      + pose proof (IH _ _ H4 S4) as K. destruct (t_buf n); cbn [same_value] in S4; try (rewrite S4 in *; rewrite ?K; reflexivity).
        destruct S4 as (q & E4 & _). rewrite E4 in *. rewrite K. reflexivity.
    - destruct (t_next n); cbn [same_value] in S3; try (rewrite S3; reflexivity). destruct S3 as (q & -> & _). cbn [a_transform]. now destruct (String.eqb _ _). }
  rewrite T. rewrite (IH _ _ H1 S1), (IH _ _ H2 S2). reflexivity.
Qed.

Lemma programs_rebuilt fuel g l c s : all_survive fuel fresh l -> do_steps fuel fresh l = Ok c -> able s ->
  exists s', redo_all g (loading s) (log c) = Ok s' /\
    forall i n, nth_error (nodes c) i = Some n -> rebuilt c s' i /\
      exists z j, id_of (reg c) i = Some z /\ lookup (reg s') z = Some j /\
        forall X (I : interp X) h, eval I h (nodes s') (obj s' j) = eval I h (nodes c) (obj c i).
Proof.
  intros Sv D A. destruct (inv_steps g (loading s) fuel l fresh c) as (s' & E & HR); auto.
  - exists (loading s). split; [reflexivity|]. now apply R_start.
  - exists s'. split; [exact E|]. intros i n En. assert (Li : i < length (nodes c)) by (apply nth_error_Some; congruence).
    pose proof (R_all _ _ HR i Li) as RB. split; [exact RB|]. destruct RB as (j & n' & m & Sj & En' & Em & Cl & _). assert (n' = n) by congruence. subst n'.
    pose proof Sj as (z & Z1 & Z2). exists z, j. split; [exact Z1|]. split; [exact Z2|]. intros X I h. apply eval_same; [exact HR|eapply held_obj; exact En|].
    unfold obj, cls_in. rewrite En, Em, Cl. cbn [same_value]. exists j. auto.
Qed.

(** Every class is one of the library's, with the parameters it has there. *)
Lemma classes_known k : In k classes -> exists c, In c protocol /\ k_path c = path k /\ k_sig c = sig_of k.
Proof.
  intros H. assert (F : exists c, Protocol.find protocol (path k) = Some c /\ k_path c = path k /\ k_sig c = sig_of k).
  { unfold classes in H. cbn [In] in H. repeat (destruct H as [<-|H]; [eexists; split; [reflexivity|split; reflexivity]|]). destruct H. }
  destruct F as (c & F & P & S). exists c. split; [|auto]. unfold Protocol.find in F. now apply find_some in F.
Qed.
Lemma classes_all c : In c protocol -> String.prefix "transform." (k_path c) = true -> k_path c <> "transform.Transform" -> k_path c <> "transform.Operator" ->
  exists k, In k classes /\ path k = k_path c /\ sig_of k = k_sig c.
Proof.
  intros H P N1 N2.
  assert (G : exists k, class_at (k_path c) = Some k /\ path k = k_path c /\ sig_of k = k_sig c).
  { unfold protocol in H. cbn [In] in H.
    repeat (destruct H as [<-|H]; [first [discriminate P | exfalso; apply N1; reflexivity | exfalso; apply N2; reflexivity
      | eexists; split; [reflexivity|split; reflexivity]]|]). destruct H. }
  destruct G as (k & G & A & B). exists k. split; [|auto]. unfold class_at in G. now apply find_some in G.
Qed.
Lemma keys_letters c : In (Letter c) classes -> forall fuel s b r, body fuel s (Letter c) b = Ok r ->
  exists n, nth_error (nodes (fst r)) (snd r) = Some n /\ dget (t_attrs n) "key" = Some (VStr (small_letter c)).
Proof.
  intros H fuel s b r E. unfold body, alloc in E. injection E as <-. cbn [fst snd nodes].
  exists (Journal.blank (Letter c) b). split; [rewrite nth_error_app2, Nat.sub_diag by lia; reflexivity|].
  cbn [Journal.blank t_attrs attrs_of dget]. change (Base.eqb "key" "key") with true. cbv iota. do 2 f_equal.
  unfold classes in H. cbn [In] in H. repeat (destruct H as [H|H]; [first [discriminate H | injection H as <-; reflexivity]|]). destruct H.
Qed.
Lemma method_missing s i m v n : get s i = Ok n -> method_sig m = None \/ has_method (t_class n) m = false -> method s i m v = Err AttributeError.
Proof. intros G H. unfold method. rewrite G. cbn [bind]. destruct H as [->| ->]; [reflexivity|]. destruct (method_sig m); reflexivity. Qed.
Lemma rebind_refused fuel s i v n r : get s i = Ok n -> (forall o, t_class n <> Op o) -> t_class n <> Out -> a_transform (t_next n) = None -> t_buf n <> VNone ->
  copy fuel s i = Ok r -> bind_to fuel s i v = Err ValueError.
Proof.
  intros G O U X B C. unfold bind_to. rewrite G. cbn [bind]. destruct fuel as [|f]; [discriminate C|].
  assert (K : bound (S f) s i = Ok true).
  { cbn [bound]. rewrite G. cbn [bind]. 
    assert (L : last_of (S f) s i = Ok i) by (cbn [last_of]; rewrite G; cbn [bind]; rewrite X; reflexivity).
    destruct (t_class n) eqn:T; try (exfalso; eapply O; reflexivity); rewrite L; cbn [bind]; rewrite G; cbn [bind]; destruct (t_buf n); congruence. }
  destruct (t_class n) eqn:T; try congruence; rewrite C; cbn [bind]; rewrite K; reflexivity.
Qed.

Lemma own_attributes k fuel s b r : (forall o, k <> Op o) -> body fuel s k b = Ok r ->
  exists n, nth_error (nodes (fst r)) (snd r) = Some n /\ t_class n = k /\
    (forall x, In x ["count"; "dtype"; "data"; "key"; "colormap"; "vmin"; "vmax"; "name"] -> In x (p_names (sig_of k)) -> dget (t_attrs n) x = Some (arg b x)) /\
    (In "buffer" (p_names (sig_of k)) -> t_buf n = arg b "buffer").
Proof.
  intros O E. unfold body, alloc in E.
  assert (E' : r = (mkSt (fst (create (reg s))) (nodes s ++ [Journal.blank k b]) (log s) (on s), length (nodes s))) by (destruct k; try (now injection E as <-); exfalso; eapply O; reflexivity).
  subst r. cbn [fst snd nodes]. exists (Journal.blank k b). split; [rewrite nth_error_app2, Nat.sub_diag by lia; reflexivity|].
  split; [reflexivity|]. split.
  - intros x I P. destruct k; try (exfalso; eapply O; reflexivity);
    cbn [sig_of p_names s_params map p_name req opt takes In] in P; cbn [In] in I;
    repeat (destruct P as [P|P]; [subst x; try reflexivity; exfalso; repeat (destruct I as [I|I]; [discriminate I|]); destruct I|]); destruct P.
  - intros P. destruct k; try reflexivity; cbn [sig_of p_names s_params map p_name req opt takes In] in P;
    repeat (destruct P as [P|P]; [discriminate P|]); destruct P.
Qed.
