(** Proofs about what playing recorded transforms back loses. *)
From Verif Require Import Base Registry RegistryFacts Convert Command CommandSpec CommandFacts Execute Protocol ProtocolFacts Session SessionFacts LibraryFacts
  Journal JournalSpec JournalFacts.
Open Scope string_scope.
Open Scope nat_scope.

(** ** The registry's view of a list of commands *)
Inductive ev := Cr (z : Z) | Ca (z : Z).
Definition is_cmd (c : command) (e : ev) : Prop :=
  match e with
  | Cr z => exists k args kw b oidf cid, In k classes /\ NoDup (dkeys kw) /\ bind_args (sig_of k) args kw = Ok b /\
      (forall n v, dget b n = Some v -> plain v = true \/ is_object v = true) /\
      mk_command oidf cid (class_name k) (path k) (build_parameters z (sig_of k) args kw) = Ok c
  | Ca z => dget (c_params c) "id" = Some (VOid z) /\ contains "." (c_method c) = false /\ String.eqb (c_method c) "__init__" = false
  end.
Fixpoint consecutive (a : Z) (E : list ev) (b : Z) : Prop :=
  match E with
  | [] => a = b
  | Cr z :: E => z = (a + 1)%Z /\ consecutive (a + 1) E b
  | Ca _ :: E => consecutive a E b
  end.
Fixpoint created (E : list ev) : Z := match E with [] => 0 | Cr _ :: E => 1 + created E | Ca _ :: E => created E end%Z.
Fixpoint rr (r : rstate) (E : list ev) : option rstate :=
  match E with
  | [] => Some r
  | Cr z :: E => rr (fst (replay r 0 0 z)) E
  | Ca z :: E => match lookup r z with Some _ => rr r E | None => None end
  end.
Lemma created_nonneg E : (0 <= created E)%Z.
Proof. induction E as [|[z|z] E IH]; cbn [created]; lia. Qed.
Lemma created_app E E' : created (E ++ E') = (created E + created E')%Z.
Proof. induction E as [|[z|z] E IH]; cbn [created app]; lia. Qed.
Lemma consecutive_created E : forall a b, consecutive a E b -> b = (a + created E)%Z.
Proof. induction E as [|[z|z] E IH]; intros a b; cbn [consecutive created]; [lia| |apply IH]. intros (_ & H). apply IH in H. lia. Qed.
Lemma consecutive_app E E' : forall a b c, consecutive a E b -> consecutive b E' c -> consecutive a (E ++ E') c.
Proof. induction E as [|[z|z] E IH]; intros a b c; cbn [consecutive app]; [now intros ->| |apply IH]. intros (H & H1) H2. split; [exact H|eauto]. Qed.
Lemma rr_app E E' : forall r, rr r (E ++ E') = match rr r E with Some r' => rr r' E' | None => None end.
Proof. induction E as [|[z|z] E IH]; intros r; cbn [rr app]; [reflexivity|apply IH|]. destruct (lookup r z); [apply IH|reflexivity]. Qed.
Lemma replay_facts r z : counter (fst (replay r 0 0 z)) = (counter r + 1)%Z /\ recording (fst (replay r 0 0 z)) = recording r.
Proof. pose proof (replay_result r 0 0 z) as H. destruct (replay r 0 0 z) as [r' i]. cbn [fst]. destruct H as (_ & _ & C & Rc & _). split; [rewrite C; reflexivity|exact Rc]. Qed.
Lemma rr_counter E : forall r r', rr r E = Some r' -> counter r' = (counter r + created E)%Z /\ recording r' = recording r.
Proof.
  induction E as [|[z|z] E IH]; intros r r'; cbn [rr created].
  - intros H. injection H as <-. split; [lia|reflexivity].
  - intros H. apply IH in H. destruct H as (H & H'). destruct (replay_facts r z) as (A & B). rewrite A in H. rewrite B in H'. split; [lia|exact H'].
  - destruct (lookup r z); [apply IH|discriminate].
Qed.
Lemma gone p q z b : forall r x, recording r = true -> lookup r z = None -> (z < x)%Z -> counter r = (x - 1)%Z -> consecutive x p b ->
  rr r (p ++ Ca z :: q) = None.
Proof.
  induction p as [|[y|y] p IH]; intros r x Rc L Lt C H; cbn [rr app consecutive] in *.
  - now rewrite L.
  - destruct H as (-> & H). destruct (replay_facts r (x + 1)) as (A & B). apply (IH _ (x + 1)%Z); [congruence| |lia|lia|exact H].
    destruct (replay_lookup r 0 0 (x + 1)%Z Rc z) as (RL & _); [lia|]. rewrite RL; [exact L|]. lia.
  - destruct (lookup r y); [|reflexivity]. eauto.
Qed.
Lemma evicted r z : recording r = true -> z <> (1 + counter r)%Z -> lookup (fst (replay r 0 0 z)) (1 + counter r)%Z = None.
Proof.
  intros Rc Nz. unfold replay. cbn [create_n create fst snd]. unfold set_id. cbn [heap counter recording objects]. rewrite Rc.
  rewrite nth_error_app2, Nat.sub_diag by lia. cbn [nth_error]. unfold lookup. cbn [objects].
  replace (dmem _ _) with true by (symmetry; unfold dmem; now rewrite dget_dset_same).
  rewrite dget_dset_other by congruence. rewrite dget_dset_other by congruence. now rewrite dget_ddel, Base.eqb_refl.
Qed.
Lemma late r a p q b : recording r = true -> counter r = (a - 1)%Z -> consecutive (1 + a) p b -> (1 + a < b)%Z ->
  rr r (Cr (1 + a) :: p ++ Ca (1 + a) :: q) = None.
Proof.
  intros Rc C H Lt. cbn [rr]. destruct (replay_facts r (1 + a)) as (A & B).
  assert (A' : counter (fst (replay r 0 0 (1 + a)%Z)) = a) by lia. assert (B' : recording (fst (replay r 0 0 (1 + a)%Z)) = true) by congruence.
  clear A B. generalize dependent (fst (replay r 0 0 (1 + a)%Z)). clear r Rc C. intros r C Rc. revert H. induction p as [|[y|y] p IH]; cbn [rr app consecutive].
  - lia.
  - intros (-> & H). destruct (replay_facts r (1 + a + 1)) as (A & B). apply (gone p q (1 + a)%Z b _ (1 + a + 1)%Z); [congruence| |lia|lia|exact H].
    replace (1 + a)%Z with (1 + counter r)%Z at 2 by lia. apply evicted; [exact Rc|lia].
  - intros H. destruct (lookup r y); [|reflexivity]. now apply IH.
Qed.

(** ** The recording side *)
Definition sound (c : st) : Prop :=
  on c = true /\ length (nodes c) = length (heap (reg c)) /\ (forall q n, nth_error (nodes c) q = Some n -> In (t_class n) classes).
(** [c'] follows [c] with the commands [E] recorded; objects below [K] have not
    changed. *)
Definition evolves (K : nat) (c : st) (E : list ev) (c' : st) : Prop :=
  sound c' /\ (exists l, log c' = (log c ++ l)%list /\ Forall2 is_cmd l E) /\ counter (reg c') = (counter (reg c) + created E)%Z /\
  length (nodes c) <= length (nodes c') /\ (forall q z, id_of (reg c) q = Some z -> id_of (reg c') q = Some z) /\
  (forall q n, q < K -> nth_error (nodes c) q = Some n -> nth_error (nodes c') q = Some n).
Lemma evolves_trans K c1 E1 c2 E2 c3 : evolves K c1 E1 c2 -> evolves K c2 E2 c3 -> evolves K c1 (E1 ++ E2) c3.
Proof.
  intros (_ & (l1 & L1 & F1) & C1 & N1 & I1 & O1) (S2 & (l2 & L2 & F2) & C2 & N2 & I2 & O2).
  split; [exact S2|]. split; [exists (l1 ++ l2)%list; split; [rewrite L2, L1; now rewrite app_assoc|now apply Forall2_app]|].
  split; [rewrite created_app; lia|]. split; [lia|]. split; auto.
Qed.
Lemma evolves_refl K c : sound c -> evolves K c [] c.
Proof. intros S. split; [exact S|]. split; [exists []; rewrite app_nil_r; auto|]. split; [cbn; lia|]. auto. Qed.
Lemma evolves_less K K' c E c' : K' <= K -> evolves K c E c' -> evolves K' c E c'.
Proof. intros Le (A & B & C & D & F & G). repeat (split; [assumption|]). intros q n Hq. apply G. lia. Qed.

Lemma method_evolves K c i m v c' z : sound c -> method c i m v = Ok c' -> K <= i -> id_of (reg c) i = Some z -> evolves K c [Ca z] c'.
Proof.
  intros (On & Ln & Cl) M Le Iz. unfold method, get in M. destruct (nth_error (nodes c) i) as [n|] eqn:En; [|discriminate]. cbn [bind] in M.
  destruct (method_sig m) as [sg|] eqn:Es; [|discriminate]. destruct (has_method (t_class n) m) eqn:Eh; [|discriminate].
  destruct (method_sig_one m sg v Es) as (x & Px & Bx & Dx & Nd & Ni).
  unfold note in M. cbn [put on reg log nodes] in M. rewrite On in M.
  destruct (mk_command _ _ _ _ _) as [cmd|] eqn:MC; [|discriminate]. cbn [bind] in M. injection M as <-.
  assert (Nk : NoDup (dkeys (@nil (string * value)))) by constructor.
  destruct (mk_command_id _ _ _ _ _ _ _ _ _ _ (simple_method m sg Es) Nk Bx MC) as (Cid & Ccl & Cme). rewrite (oid_in_id _ _ _ Iz) in Cid.
  split; [split; [reflexivity|]; cbn [nodes reg]; split; [now rewrite upd_length|]|].
  { intros q b Hq. rewrite nth_error_upd in Hq. destruct (Nat.eqb_spec q i) as [->|Ne]; [|eauto]. rewrite En in Hq. injection Hq as <-. rewrite assign_class. eauto. }
  split; [exists [cmd]; split; [reflexivity|]; constructor; [|constructor]|].
  { cbn [is_cmd]. rewrite Cme. auto. }
  cbn [reg nodes created]. split; [lia|]. rewrite upd_length. split; [lia|]. split; [auto|].
  intros q b Hq Hb. rewrite nth_error_upd. destruct (Nat.eqb_spec q i); [lia|exact Hb].
Qed.
Lemma sound_added c n cmd : sound c -> In (t_class n) classes -> sound (added c n cmd).
Proof.
  intros (On & Ln & Cl) Hn. split; [exact On|]. unfold added. cbn [nodes reg create fst heap]. split; [rewrite !app_length, Ln; reflexivity|].
  intros q b Hq. destruct (Nat.lt_ge_cases q (length (nodes c))) as [Lt|Ge].
  - rewrite nth_error_app1 in Hq by exact Lt. eauto.
  - rewrite nth_error_app2 in Hq by exact Ge. destruct (q - length (nodes c)) as [|k]; [|destruct k; discriminate]. cbn in Hq. injection Hq as <-. exact Hn.
Qed.
Lemma added_ids c n cmd q z : id_of (reg c) q = Some z -> id_of (reg (added c n cmd)) q = Some z.
Proof. intros H. unfold added. cbn [reg]. rewrite id_of_create; [exact H|]. now apply id_of_lt with (z := z). Qed.
Lemma added_new c n cmd : sound c -> id_of (reg (added c n cmd)) (length (nodes c)) = Some (1 + counter (reg c))%Z.
Proof. intros (_ & Ln & _). unfold added, id_of. cbn [reg create fst heap]. rewrite Ln, nth_error_app2, Nat.sub_diag; [reflexivity|lia]. Qed.
Lemma added_old c n cmd q b : nth_error (nodes c) q = Some b -> nth_error (nodes (added c n cmd)) q = Some b.
Proof. intros H. unfold added. cbn [nodes]. rewrite nth_error_app1; [exact H|]. apply nth_error_Some. congruence. Qed.

Lemma make0_evolves c k c' j : sound c -> In k classes -> make0 c k = Ok (c', j) ->
  j = length (nodes c) /\ evolves (length (nodes c)) c [Cr (1 + counter (reg c))] c' /\ id_of (reg c') j = Some (1 + counter (reg c))%Z.
Proof.
  intros S K M. rewrite (make0_make O) in M. destruct (bind_args (sig_of k) [] []) as [b|] eqn:B; [|discriminate].
  pose proof (bound_plain _ _ _ _ (simple_class k) B (fun v (H : In v []) => match H with end) (fun n v (H : In (n, v) []) => match H with end)) as BP.
  destruct (make_plain_on O c k [] [] b (proj1 S) B) as (cmd & MC & M'); [intros n; apply plain_obj, arg_plain, BP|].
  rewrite M in M'. assert (Ec : c' = added c (node_of k b) (Some cmd)) by congruence. assert (Ej : j = length (nodes c)) by congruence. subst c' j.
  split; [reflexivity|]. split; [|now apply added_new].
  assert (Eid : oid_in (fst (create (reg c))) (length (nodes c)) = (1 + counter (reg c))%Z).
  { apply (oid_in_id (added c (node_of k b) (Some cmd))). now apply added_new. }
  rewrite Eid in MC.
  split; [apply sound_added; [exact S|now destruct k]|]. split; [exists [cmd]; split; [reflexivity|]; constructor; [|constructor]|].
  { exists k, [], [], b. eexists _, _. split; [exact K|]. split; [constructor|]. split; [exact B|]. split; [eauto|exact MC]. }
  split; [reflexivity|]. split; [unfold added; cbn [nodes]; rewrite app_length; lia|]. split; [apply added_ids|]. intros q n _. apply added_old.
Qed.

Lemma copy_evolves fuel : forall c i c' j, sound c -> copy fuel c i = Ok (c', j) ->
  exists n E, nth_error (nodes c) i = Some n /\ j = length (nodes c) /\ id_of (reg c') j = Some (1 + counter (reg c))%Z /\
    evolves (length (nodes c)) c (Cr (1 + counter (reg c)) :: E) c' /\
    consecutive (1 + counter (reg c)) E (counter (reg c')) /\
    (compound n -> exists p q b, E = (p ++ Ca (1 + counter (reg c)) :: q)%list /\ consecutive (1 + counter (reg c)) p b /\ (1 + counter (reg c) < b)%Z).
Proof.
  induction fuel as [|f IH]; intros c i c' j S; [discriminate|]. cbn [copy]. unfold get at 1.
  destruct (nth_error (nodes c) i) as [n|] eqn:En; [|discriminate]. cbn [bind].
  assert (Kn : In (t_class n) classes) by (destruct S as (_ & _ & S); eauto).
  destruct (make0 c (t_class n)) as [[c1 j1]|e] eqn:EM; [|discriminate]. cbn [bind fst snd].
  destruct (make0_evolves c _ c1 j1 S Kn EM) as (Ej & V1 & I1). set (a := (1 + counter (reg c))%Z) in *. set (K := length (nodes c)) in *.
  destruct (method c1 j1 "set_buffer" (t_buf n)) as [c2|e] eqn:E2; [|discriminate]. cbn [bind].
  assert (ST : forall s E0 m v s', evolves K c (Cr a :: E0) s -> consecutive a E0 (counter (reg s)) -> id_of (reg s) j1 = Some a -> method s j1 m v = Ok s' ->
     evolves K c (Cr a :: E0 ++ [Ca a]) s' /\ consecutive a (E0 ++ [Ca a]) (counter (reg s')) /\ id_of (reg s') j1 = Some a).
  { intros s E0 m v s' V C I M. assert (V' : evolves K s [Ca a] s') by (eapply method_evolves; [apply V|exact M|lia|exact I]).
    split; [exact (evolves_trans _ _ _ _ _ _ V V')|]. destruct V' as (_ & _ & CC & _ & II & _). split; [|auto].
    eapply consecutive_app; [exact C|]. cbn [consecutive created] in *. lia. }
  assert (V1' : consecutive a [] (counter (reg c1))).
  { cbn [consecutive]. destruct V1 as (_ & _ & CC & _). cbn [created] in CC. unfold a. lia. }
  destruct (ST c1 [] _ _ c2 V1 V1' I1 E2) as (V2 & V2' & I2). clear V1 V1' I1.
  destruct (base_of _ c2 i) as [b|e]; [|discriminate]. cbn [bind].
  destruct (method c2 j1 "set_base" (obj c2 b)) as [c3|e] eqn:E3; [|discriminate]. cbn [bind].
  destruct (ST c2 _ _ _ c3 V2 V2' I2 E3) as (V3 & V3' & I3). clear V2 V2' I2. cbn [app] in V3, V3'.
  (* a field copied in its turn *)
  assert (CP : forall s E0 v m s', evolves K c (Cr a :: E0) s -> consecutive a E0 (counter (reg s)) -> id_of (reg s) j1 = Some a ->
     match a_transform v with
     | Some t => let* r := copy f s t in method (fst r) j1 m (obj (fst r) (snd r))
     | None => method s j1 m v
     end = Ok s' ->
     exists E1, evolves K c (Cr a :: E0 ++ E1) s' /\ consecutive a (E0 ++ E1) (counter (reg s')) /\ id_of (reg s') j1 = Some a /\
       (a_transform v <> None -> exists p b, E1 = (p ++ [Ca a])%list /\ consecutive a (E0 ++ p) b /\ (a < b)%Z)).
  { intros s E0 v m s' V C I. destruct (a_transform v) as [t|] eqn:Ev.
    - destruct (copy f s t) as [[s1 j']|] eqn:Ec; [|discriminate]. cbn [bind fst snd]. intros M.
      destruct (IH s t s1 j' (proj1 V) Ec) as (nt & Et & Ent & Ejt & It & Vt & Ct & _).
      assert (Vt' : evolves K s (Cr (1 + counter (reg s)) :: Et) s1).
      { eapply evolves_less; [|exact Vt]. destruct V as (_ & _ & _ & Le & _). unfold K. lia. }
      assert (Is : id_of (reg s1) j1 = Some a) by (destruct Vt as (_ & _ & _ & _ & II & _); auto).
      pose proof (evolves_trans _ _ _ _ _ _ V Vt') as V'. cbn [app] in V'.
      assert (C' : consecutive a (E0 ++ Cr (1 + counter (reg s)) :: Et) (counter (reg s1))).
      { eapply consecutive_app; [exact C|]. cbn [consecutive]. split; [lia|]. now rewrite Z.add_comm. }
      destruct (ST s1 _ m _ s' V' C' Is M) as (V'' & C'' & I''). exists ((Cr (1 + counter (reg s)) :: Et) ++ [Ca a])%list.
      rewrite app_assoc. split; [exact V''|]. split; [exact C''|]. split; [exact I''|]. intros _. exists (Cr (1 + counter (reg s)) :: Et), (counter (reg s1)).
      split; [reflexivity|]. split; [exact C'|]. pose proof (consecutive_created _ _ _ C') as X. rewrite created_app in X. cbn [created] in X.
      pose proof (created_nonneg E0). pose proof (created_nonneg Et). lia.
    - intros M. destruct (ST s E0 m v s' V C I M) as (V'' & C'' & I''). exists [Ca a]. repeat (split; [assumption|]). congruence. }
  match goal with |- context [match a_transform (t_next n) with Some _ => ?x | None => Ok c3 end] => 
    assert (NX : exists E4, forall c4, (match a_transform (t_next n) with Some _ => x | None => Ok c3 end) = Ok c4 -> 
      evolves K c (Cr a :: [Ca a; Ca a] ++ E4) c4 /\ consecutive a ([Ca a; Ca a] ++ E4) (counter (reg c4)) /\ id_of (reg c4) j1 = Some a /\
       (a_transform (t_next n) <> None -> exists p b, E4 = (p ++ [Ca a])%list /\ consecutive a ([Ca a; Ca a] ++ p) b /\ (a < b)%Z)) end.
  { destruct (a_transform (t_next n)) as [t|] eqn:Et.
    - match goal with |- exists E4, forall c4, ?x = Ok c4 -> _ => destruct x as [c4|] eqn:E4; [|exists []; intros ?; discriminate] end.
      destruct (CP c3 [Ca a; Ca a] (t_next n) "set_next" c4 V3 V3' I3) as (E1 & W1 & W2 & W3 & W4); [now rewrite Et|].
      exists E1. intros c5 X. injection X as <-. rewrite Et in W4. auto.
    - exists []. intros c4 X. injection X as <-. rewrite app_nil_r. repeat (split; [assumption|]). congruence. }
  destruct NX as (E4 & NX).
  match goal with |- context [match a_transform (t_next n) with Some _ => ?x | None => Ok c3 end] => 
    destruct (match a_transform (t_next n) with Some _ => x | None => Ok c3 end) as [c4|] eqn:X4; [|discriminate] end. cbn [bind].
  destruct (NX c4 eq_refl) as (V4 & C4 & I4 & Nx). clear NX.
  assert (FIN : exists E, (forall o, t_class n <> Op o) -> (let* m := get c4 j1 in Ok (put c4 j1 (mkT (t_class m) (t_left m) (t_right m) (t_next m) (t_buf m) (t_base m) (t_attrs n)), j1)) = Ok (c', j) ->
     j = K /\ id_of (reg c') j = Some a /\ evolves K c (Cr a :: E) c' /\ consecutive a E (counter (reg c')) /\
     (compound n -> exists p q b, E = (p ++ Ca a :: q)%list /\ consecutive a p b /\ (a < b)%Z)).
  { exists ([Ca a; Ca a] ++ E4)%list. intros No. unfold get. destruct (nth_error (nodes c4) j1) as [m|] eqn:Em; [|discriminate]. cbn [bind]. intros X. injection X as <- <-.
    split; [exact Ej|]. split; [exact I4|]. split; [|split; [exact C4|]].
    - rewrite <- (app_nil_r (Cr a :: [Ca a; Ca a] ++ E4)). eapply evolves_trans; [exact V4|].
      destruct V4 as ((On4 & Ln4 & Cl4) & _). split; [split; [exact On4|]; cbn [put nodes reg]; split; [now rewrite upd_length|]|].
      { intros q w Hq. rewrite nth_error_upd in Hq. destruct (Nat.eqb_spec q j1) as [->|]; [|eauto]. rewrite Em in Hq. injection Hq as <-. cbn [t_class]. eauto. }
      split; [exists []; split; [cbn [put log]; now rewrite app_nil_r|constructor]|]. cbn [put reg nodes created]. split; [lia|]. rewrite upd_length. split; [lia|]. split; [auto|].
      intros q w Hq Hw. rewrite nth_error_upd. destruct (Nat.eqb_spec q j1); [lia|exact Hw].
    - intros [Cn|((o & Co) & _)]; [|now destruct (No o)]. destruct (Nx Cn) as (p & bb & -> & Hp & Hb). exists ([Ca a; Ca a] ++ p)%list, [], bb. rewrite <- app_assoc. auto. }
  intros X.
  destruct (t_class n) as [| | | | | |o] eqn:Co; cycle 6.
  { destruct (method c4 j1 "set_operator" (arg (t_attrs n) "operator")) as [c5|] eqn:E5; [|discriminate]. cbn [bind] in X.
    destruct (ST c4 _ _ _ c5 V4 C4 I4 E5) as (V5 & C5 & I5).
    match type of X with context [bind ?x _] => destruct x as [c6|] eqn:E6; [|discriminate] end. cbn [bind] in X.
    destruct (CP c5 _ (t_left n) "set_left" c6 V5 C5 I5 E6) as (EL & V6 & C6 & I6 & L6).
    match type of X with context [bind ?x _] => destruct x as [c7|] eqn:E7; [|discriminate] end. cbn [bind] in X.
    assert (RR : exists ER, evolves K c (Cr a :: ((([Ca a; Ca a] ++ E4) ++ [Ca a]) ++ EL) ++ ER) c7 /\ consecutive a (((([Ca a; Ca a] ++ E4) ++ [Ca a]) ++ EL) ++ ER) (counter (reg c7)) /\ id_of (reg c7) j1 = Some a /\
       (a_transform (t_right n) <> None -> exists p b, ER = (p ++ [Ca a])%list /\ consecutive a (((([Ca a; Ca a] ++ E4) ++ [Ca a]) ++ EL) ++ p) b /\ (a < b)%Z)).
    { destruct (a_transform (t_right n)) as [t|] eqn:Et.
      - destruct (CP c6 _ (t_right n) "set_right" c7 V6 C6 I6) as (ER & W1 & W2 & W3 & W4); [now rewrite Et|]. rewrite Et in W4. exists ER. auto.
      - destruct (ST c6 _ _ _ c7 V6 C6 I6 E7) as (W1 & W2 & W3). exists [Ca a]. repeat (split; [assumption|]). congruence. }
    destruct RR as (ER & V7 & C7 & I7 & R7). injection X as <- <-.
    exists n, (((([Ca a; Ca a] ++ E4) ++ [Ca a]) ++ EL) ++ ER)%list. split; [reflexivity|]. split; [exact Ej|]. split; [exact I7|]. split; [exact V7|]. split; [exact C7|].
    intros [Cn|(_ & [Cl|Cr_])].
    - destruct (Nx Cn) as (p & bb & -> & Hp & Hb). exists ([Ca a; Ca a] ++ p)%list, ([Ca a] ++ EL ++ ER)%list, bb. split; [|auto].
      rewrite <- !app_assoc. reflexivity.
    - destruct (L6 Cl) as (p & bb & -> & Hp & Hb). exists (((([Ca a; Ca a] ++ E4) ++ [Ca a]) ++ p)%list), ER, bb. split; [|auto]. rewrite <- !app_assoc. reflexivity.
    - destruct (R7 Cr_) as (p & bb & -> & Hp & Hb). exists ((((([Ca a; Ca a] ++ E4) ++ [Ca a]) ++ EL) ++ p)%list), [], bb. split; [|auto]. rewrite <- !app_assoc. reflexivity. }
  all: destruct FIN as (E & FIN); destruct (FIN (fun o => ltac:(discriminate)) X) as (F1 & F2 & F3 & F4 & F5); exists n, E; auto 10.
Qed.

Lemma bound_passable sg args kw b : simple sg -> bind_args sg args kw = Ok b -> (forall v, In v args -> passable v) -> (forall n v, In (n, v) kw -> passable v) ->
  forall k v, dget b k = Some v -> passable v.
Proof.
  intros ((N & _) & _ & D) B A K k v G. unfold bind_args in B. destruct (forallb _ _); [|discriminate].
  rewrite (bind_params_get _ _ _ _ k B N) in G. destruct (dget (combine (map p_name (s_params sg)) args) k) as [w|] eqn:E.
  - injection G as <-. apply Base.dget_in in E. apply in_combine_r in E. auto.
  - destruct (existsb _ _); [|discriminate]. destruct (dget kw k) as [w|] eqn:E'; [injection G as <-; apply Base.dget_in in E'; eauto|].
    rewrite (D k v G). now left.
Qed.
Lemma operand_evolves f s v s' w : sound s -> operand f s v = Ok (s', w) ->
  exists E, evolves (length (nodes s)) s E s' /\
    (forall t n, a_transform v = Some t -> nth_error (nodes s) t = Some n -> compound n ->
       forall r, recording r = true -> counter r = (counter (reg s) - 1)%Z -> rr r E = None).
Proof.
  intros S. unfold operand. destruct (a_transform v) as [t|] eqn:Ev.
  - destruct (copy f s t) as [[s1 j]|] eqn:Ec; [|discriminate]. cbn [bind fst snd]. intros X. assert (s' = s1) by congruence. subst s'.
    destruct (copy_evolves f s t s1 j S Ec) as (n & E & En & _ & _ & V & _ & Cp). eexists. split; [exact V|].
    intros t' n' Et En' Cn r Rc Cr_. assert (t' = t) by congruence. subst t'. assert (n' = n) by congruence. subst n'.
    destruct (Cp Cn) as (p & q & b & -> & Hp & Hb). exact (late r _ p q b Rc Cr_ Hp Hb).
  - intros X. assert (s' = s) by congruence. subst s'. exists []. split; [now apply evolves_refl|]. intros; discriminate.
Qed.
Lemma make_evolves fuel c k args kw c' i : sound c -> In k classes -> NoDup (dkeys kw) -> (forall v, In v args -> passable v) -> (forall n v, In (n, v) kw -> passable v) ->
  make fuel c k args kw = Ok (c', i) ->
  i = length (nodes c) /\ exists b E, bind_args (sig_of k) args kw = Ok b /\ evolves (length (nodes c)) c E c' /\ id_of (reg c') i = Some (1 + counter (reg c))%Z /\
    (exists l cmd, log c' = (l ++ [cmd])%list /\ is_cmd cmd (Cr (1 + counter (reg c))) /\
       exists oidf cid, mk_command oidf cid (class_name k) (path k) (build_parameters (1 + counter (reg c)) (sig_of k) args kw) = Ok cmd) /\
    ((exists o, k = Op o) -> nested c (arg b "left") \/ nested c (arg b "right") ->
       forall r, recording r = true -> counter r = counter (reg c) -> rr r E = None).
Proof.
  intros S K N PA PK M. unfold make in M. destruct (bind_args (sig_of k) args kw) as [b|] eqn:B; [|discriminate]. cbn [bind] in M.
  pose proof (bound_passable _ _ _ _ (simple_class k) B PA PK) as BP.
  unfold body, alloc in M.
  set (s1 := mkSt (fst (create (reg c))) (nodes c ++ [blank k b])%list (log c) (on c)) in *.
  assert (E1 : s1 = added c (blank k b) None) by (unfold s1, added; now rewrite app_nil_r).
  assert (S1 : sound s1) by (rewrite E1; apply sound_added; [exact S|now destruct k]).
  assert (I1 : id_of (reg s1) (length (nodes c)) = Some (1 + counter (reg c))%Z) by (rewrite E1; now apply added_new).
  assert (C1 : counter (reg s1) = (counter (reg c) + 1)%Z) by reflexivity.
  assert (MID : exists s2 E, (match k with
        | Op _ => let* l := operand fuel s1 (arg b "left") in let* r := operand fuel (fst l) (arg b "right") in
                  Ok (put (fst r) (length (nodes c)) (mkT k (snd l) (snd r) VNone VNone VNone (attrs_of k b)), length (nodes c))
        | _ => Ok (s1, length (nodes c)) end) = Ok (s2, length (nodes c)) /\ evolves (length (nodes c)) s1 E s2 /\
        ((exists o, k = Op o) -> nested c (arg b "left") \/ nested c (arg b "right") -> forall r, recording r = true -> counter r = counter (reg c) -> rr r E = None)).
  { assert (Qt : (forall o, k <> Op o) -> exists s2 E, Ok (s1, length (nodes c)) = Ok (s2, length (nodes c)) /\ evolves (length (nodes c)) s1 E s2 /\
        ((exists o, k = Op o) -> nested c (arg b "left") \/ nested c (arg b "right") -> forall r, recording r = true -> counter r = counter (reg c) -> rr r E = None)).
    { intros No. exists s1, []. split; [reflexivity|]. split; [now apply evolves_refl|]. intros (o & Eo). now destruct (No o). }
    destruct k as [| | | | | |o]; try (apply Qt; intros o; discriminate). clear Qt.
    destruct (operand fuel s1 (arg b "left")) as [[s2 wl]|] eqn:EL; [|discriminate]. cbn [bind fst snd] in *.
    destruct (operand fuel s2 (arg b "right")) as [[s3 wr]|] eqn:ER; [|discriminate]. cbn [bind fst snd] in *.
    destruct (operand_evolves _ _ _ _ _ S1 EL) as (El & Vl & Nl). destruct (operand_evolves _ _ _ _ _ (proj1 Vl) ER) as (Er & Vr & Nr).
    assert (L1 : length (nodes s1) = Datatypes.S (length (nodes c))) by (unfold s1; cbn [nodes]; rewrite app_length; cbn; lia).
    assert (Lr : length (nodes s1) <= length (nodes s2)) by apply Vl.
    pose proof (evolves_less _ (length (nodes s1)) _ _ _ Lr Vr) as Vr'. pose proof (evolves_trans _ _ _ _ _ _ Vl Vr') as V.
    eexists _, (El ++ Er)%list. split; [reflexivity|]. split.
    - assert (V' : evolves (length (nodes c)) s1 (El ++ Er) s3) by (eapply evolves_less; [|exact V]; lia).
      rewrite <- (app_nil_r (El ++ Er)). eapply evolves_trans; [exact V'|]. destruct V' as ((On4 & Ln4 & Cl4) & _ & _ & L4 & _).
      split; [split; [exact On4|]; cbn [put nodes reg]; split; [now rewrite upd_length|]|].
      { intros q w Hq. rewrite nth_error_upd in Hq. destruct (Nat.eqb_spec q (length (nodes c))) as [->|]; [|eauto]. destruct (nth_error (nodes s3) (length (nodes c))); [|discriminate]. injection Hq as <-. exact K. }
      split; [exists []; split; [cbn [put log]; now rewrite app_nil_r|constructor]|]. cbn [put reg nodes created]. split; [lia|]. rewrite upd_length. split; [lia|]. split; [auto|].
      intros q w Hq Hw. rewrite nth_error_upd. destruct (Nat.eqb_spec q (length (nodes c))); [lia|exact Hw].
    - intros _ [(t & n & Ht & Hn & Cn)|(t & n & Ht & Hn & Cn)] r Rc Cr_.
      + rewrite rr_app. rewrite (Nl t n Ht) ; [reflexivity| |exact Cn|exact Rc|lia]. rewrite E1. now apply added_old.
      + rewrite rr_app. destruct (rr r El) as [r'|] eqn:Er'; [|reflexivity]. destruct (rr_counter _ _ _ Er') as (Cc & Rc').
        apply (Nr t n Ht); [|exact Cn|congruence|destruct Vl as (_ & _ & Cv & _); lia].
        destruct Vl as (_ & _ & _ & _ & _ & Fr). apply Fr; [rewrite L1; assert (t < length (nodes c)) by (apply nth_error_Some; congruence); lia|]. rewrite E1. now apply added_old. }
  destruct MID as (s2 & E & Em & V & Nst). rewrite Em in M. cbn [bind fst snd] in M.
  destruct V as (S2 & (l & L2 & F2) & C2 & N2 & I2 & O2). pose proof S2 as (On2 & Ln2 & Cl2).
  unfold note in M. rewrite On2 in M. rewrite (oid_in_id s2 _ _ (I2 _ _ I1)) in M.
  destruct (mk_command (oid_in (reg s2)) _ _ _ _) as [cmd|] eqn:MC; [|discriminate]. cbn [bind] in M. injection M as <- <-.
  assert (IC : is_cmd cmd (Cr (1 + counter (reg c)))).
  { exists k, args, kw, b. eexists _, _. split; [exact K|]. split; [exact N|]. split; [exact B|]. split; [exact BP|exact MC]. }
  split; [reflexivity|]. exists b, (E ++ [Cr (1 + counter (reg c))])%list. split; [reflexivity|]. split; [|split; [apply I2, I1|split]].
  - split; [split; [reflexivity|]; cbn [nodes reg]; split; assumption|]. cbn [log reg nodes]. split.
    { exists (l ++ [cmd])%list. split; [rewrite L2, app_assoc; unfold s1; reflexivity|]. apply Forall2_app; [exact F2|]. constructor; [exact IC|constructor]. }
    split; [rewrite created_app; cbn [created]; lia|]. split; [unfold s1 in N2; cbn [nodes] in N2; rewrite app_length in N2; lia|]. split.
    + intros q z Hq. apply I2. rewrite E1. now apply added_ids.
    + intros q n Hq Hn. apply O2; [exact Hq|]. rewrite E1. now apply added_old.
  - exists (log s2), cmd. split; [reflexivity|]. split; [exact IC|]. eauto.
  - intros Hk Hn r Rc Cr_. rewrite rr_app, (Nst Hk Hn r Rc Cr_). reflexivity.
Qed.

(** ** The playing side *)
Lemma body_quiet fuel s k b : ((exists o, k = Op o) -> forall n, is_object (arg b n) = false) ->
  body fuel s k b = Ok (mkSt (fst (create (reg s))) (nodes s ++ [node_of k b])%list (log s) (on s), length (nodes s)).
Proof. intros H. destruct k; try reflexivity. apply body_plain. apply H. eauto. Qed.
Lemma redo_cr g s c k args kw b oidf cid z s' : ready s -> In k classes -> NoDup (dkeys kw) -> bind_args (sig_of k) args kw = Ok b ->
  (forall n v, dget b n = Some v -> passable v) ->
  mk_command oidf cid (class_name k) (path k) (build_parameters z (sig_of k) args kw) = Ok c ->
  redo g s (reload c) = Ok s' ->
  exists b', s' = mkSt (fst (replay (reg s) 0 0 z)) (nodes s ++ [node_of k b'])%list (log s) false /\
    forall n v, dget b n = Some v -> default_of (sig_of k) n <> None -> dget b' n = Some (if is_object v then VNone else v).
Proof.
  intros (On & Ln) K N B P MC D. destruct (mk_command_id _ _ _ _ _ _ _ _ _ _ (simple_class k) N B MC) as (Cid & Ccl & Cme).
  unfold reload in D. rewrite Cme, path_dotted in D. unfold redo in D. cbn [c_params c_method c_class] in D. rewrite Cid in D.
  destruct (resolve (objects (reg s)) (cls_in s) (fun _ v => Ok v) (c_params c)) as [kw'|] eqn:RS; [|discriminate]. cbn [bind oid_of] in D.
  change (String.eqb "__init__" "__init__") with true in D. cbv iota in D. rewrite (class_at_path k K) in D.
  destruct (resolved_given _ _ _ _ _ _ _ _ _ _ (objects (reg s)) (cls_in s) kw' (simple_class k) N B MC) as (b' & B' & Kb' & G); [|exact RS|].
  { intros q v Q. destruct (P q v Q) as [|O]; [now left|]. right. destruct v; try discriminate O. eauto. }
  assert (GD : forall n v, dget b n = Some v -> default_of (sig_of k) n <> None -> dget b' n = Some (if is_object v then VNone else v)).
  { intros n v Hn Dn. rewrite (G n v Hn). destruct v; try reflexivity. destruct (default_of (sig_of k) n); [reflexivity|congruence]. }
  unfold make in D. rewrite B' in D. cbn [bind] in D. rewrite body_quiet in D.
  - cbn [bind fst snd] in D. unfold note in D. cbn [on] in D. rewrite On in D. cbn [bind fst snd] in D. assert (D' := D). injection D' as <-. clear D.
    exists b'. split; [|exact GD]. cbn [reg nodes log on]. unfold replay. cbn [create_n create fst snd]. rewrite <- Ln. reflexivity.
  - intros (o & ->) n. unfold arg. destruct (dget b' n) as [v|] eqn:E; [|reflexivity].
    assert (In n (dkeys b')) as Hin by (apply dget_some_in with (v := v); exact E). rewrite Kb' in Hin.
    assert (exists v0, dget b n = Some v0) as (v0 & E0) by (apply ProtocolFacts.dget_in; rewrite (bind_args_keys _ _ _ _ B); exact Hin).
    rewrite (GD n v0 E0) in E; [injection E as <-; now destruct v0|]. cbn in Hin. destruct Hin as [<-|[<-|[]]]; cbn; discriminate.
Qed.
Lemma redo_ca g s c z s' : ready s -> is_cmd c (Ca z) -> redo g s (reload c) = Ok s' -> reg s' = reg s /\ ready s' /\ lookup (reg s) z <> None.
Proof.
  intros (On & Ln) (Cid & Nd & Ni) D. unfold reload in D. rewrite Nd in D. unfold redo in D. rewrite Cid in D.
  destruct (resolve _ _ _ _) as [kw'|]; [|discriminate]. cbn [bind oid_of] in D. rewrite Ni in D. destruct (lookup (reg s) z) as [i|]; [|discriminate].
  destruct (get s i) as [n|]; [|discriminate]. cbn [bind] in D. destruct (method_sig _) as [sg|]; [|discriminate]. destruct (has_method _ _); [|discriminate].
  destruct (bind_args sg [] kw') as [[|[x v] [|]]|]; try discriminate. cbn [bind] in D. injection D as <-. cbn [put reg nodes on].
  split; [reflexivity|]. split; [split; [exact On|]; cbn [put reg nodes]; now rewrite upd_length|congruence].
Qed.
Lemma ready_replayed s z n l : ready s -> ready (mkSt (fst (replay (reg s) 0 0 z)) (nodes s ++ [n])%list l false).
Proof.
  intros Rd. split; [reflexivity|]. cbn [nodes reg]. pose proof (replay_result (reg s) 0 0 z) as RR. destruct (replay (reg s) 0 0 z) as [r0 i0].
  destruct RR as (_ & _ & _ & _ & H0). cbn [fst]. rewrite app_length, H0, <- (proj2 Rd). reflexivity.
Qed.
Lemma redo_rr g l E : Forall2 is_cmd l E -> forall s s', ready s -> redo_all g s l = Ok s' -> rr (reg s) E = Some (reg s') /\ ready s'.
Proof.
  induction 1 as [|c e l E He F IH]; intros s s' Rd; cbn [redo_all rr]; [intros X; injection X as <-; auto|].
  destruct (redo g s (reload c)) as [s1|] eqn:D; [|discriminate]. cbn [bind]. intros X. destruct e as [z|z].
  - destruct He as (k & args & kw & b & oidf & cid & K & N & B & P & MC). destruct (redo_cr g s c k args kw b oidf cid z s1 Rd K N B P MC D) as (b' & -> & _).
    destruct (IH _ s' (ready_replayed s z (node_of k b') (log s) Rd) X) as (A & B').
    cbn [reg] in A. auto.
  - destruct (redo_ca g s c z s1 Rd He D) as (E1 & Rd1 & L1). destruct (lookup (reg s) z); [|congruence]. rewrite <- E1. now apply IH.
Qed.

(** ** Programs *)
Lemma method_evolves0 c i m v c' : sound c -> method c i m v = Ok c' -> exists E, evolves 0 c E c'.
Proof.
  intros S M. assert (H : exists z, id_of (reg c) i = Some z).
  { unfold method, get in M. destruct (nth_error (nodes c) i) eqn:E; [|discriminate]. apply (lt_id_of c). destruct S as (_ & <- & _). apply nth_error_Some. congruence. }
  destruct H as (z & Iz). exists [Ca z]. eapply method_evolves; eauto. lia.
Qed.
Lemma copy_evolves0 fuel c i c' j : sound c -> copy fuel c i = Ok (c', j) -> exists E, evolves 0 c E c'.
Proof. intros S E. destruct (copy_evolves fuel c i c' j S E) as (n & E' & _ & _ & _ & V & _). eexists. eapply evolves_less; [|exact V]. lia. Qed.
Lemma step_evolves fuel c a c' : sound c -> proper a -> do_step fuel c a = Ok c' -> exists E, evolves 0 c E c'.
Proof.
  intros S P. destruct a as [k args kw|i|i j|i v|i m v]; cbn [do_step proper] in *.
  - destruct P as (K & N & PA & PK). destruct (make fuel c k args kw) as [[c1 i1]|] eqn:E; [|discriminate]. cbn [bind fst]. intros H. injection H as <-.
    destruct (make_evolves fuel c k args kw c1 i1 S K N PA PK E) as (_ & b & E' & _ & V & _). exists E'. eapply evolves_less; [|exact V]. lia.
  - destruct (copy fuel c i) as [[c1 i1]|] eqn:E; [|discriminate]. cbn [bind fst]. intros H. injection H as <-. eapply copy_evolves0; eauto.
  - unfold chain. destruct (get c i) as [n|]; [|discriminate]. cbn [bind]. intros H.
    assert (X : exists c1 i1, copy fuel c i = Ok (c1, i1)) by (destruct (copy fuel c i) as [[c1 i1]|]; [eauto|destruct (t_class n); discriminate]).
    destruct X as (c1 & i1 & E1). destruct (copy_evolves0 _ _ _ _ _ S E1) as (V1 & W1). rewrite E1 in H. cbn [bind fst snd] in H.
    assert (X : exists c2 j2, copy fuel c1 j = Ok (c2, j2)) by (destruct (copy fuel c1 j) as [[c2 j2]|]; [eauto|destruct (t_class n); discriminate]).
    destruct X as (c2 & j2 & E2). destruct (copy_evolves0 _ _ _ _ _ (proj1 W1) E2) as (V2 & W2). rewrite E2 in H. cbn [bind fst snd] in H.
    assert (X : exists c3, method c2 i1 "set_next" (obj c2 j2) = Ok c3) by (destruct (method c2 i1 "set_next" (obj c2 j2)) as [c3|]; [eauto|destruct (t_class n); discriminate]).
    destruct X as (c3 & E3). destruct (method_evolves0 _ _ _ _ _ (proj1 W2) E3) as (V3 & W3). rewrite E3 in H. cbn [bind fst snd] in H.
    assert (X : method c3 i1 "set_buffer" VNone = Ok c') by (destruct (t_class n); try discriminate; destruct (method c3 i1 "set_buffer" VNone); try discriminate; cbn in H; congruence).
    destruct (method_evolves0 _ _ _ _ _ (proj1 W3) X) as (V4 & W4). eexists. eapply evolves_trans; [exact W1|]. eapply evolves_trans; [exact W2|]. eapply evolves_trans; eassumption.
  - unfold bind_to. destruct (get c i) as [n|]; [|discriminate]. cbn [bind]. intros H.
    assert (X : exists c1 i1, copy fuel c i = Ok (c1, i1)) by (destruct (copy fuel c i) as [[c1 i1]|]; [eauto|destruct (t_class n); discriminate]).
    destruct X as (c1 & i1 & E1). destruct (copy_evolves0 _ _ _ _ _ S E1) as (V1 & W1). rewrite E1 in H. cbn [bind fst snd] in H.
    assert (X : exists q, method c1 q "set_buffer" v = Ok c').
    { destruct (t_class n); try discriminate; cbn [bind fst snd] in H; destruct (bound fuel c i) as [[|]|]; try discriminate; cbn [bind] in H;
        destruct (last_of fuel c1 i1) as [q|]; try discriminate; cbn [bind] in H; exists q; destruct (method c1 q "set_buffer" v); try discriminate; cbn [bind fst] in H; congruence. }
    destruct X as (q & X). destruct (method_evolves0 _ _ _ _ _ (proj1 W1) X) as (V2 & W2). eexists. eapply evolves_trans; eassumption.
  - intros M. eapply method_evolves0; eauto.
Qed.
Lemma steps_evolve fuel l : forall c c', sound c -> (forall a, In a l -> proper a) -> do_steps fuel c l = Ok c' -> exists E, evolves 0 c E c'.
Proof.
  induction l as [|a l IH]; intros c c' S P; cbn [do_steps].
  - intros H. injection H as <-. exists []. now apply evolves_refl.
  - destruct (do_step fuel c a) as [c1|] eqn:E; [|discriminate]. cbn [bind]. intros H.
    destruct (step_evolves fuel c a c1 S (P a (or_introl eq_refl)) E) as (E1 & V1). destruct (IH c1 c' (proj1 V1)) as (E2 & V2); [intros; apply P; now right|exact H|].
    eexists. eapply evolves_trans; eassumption.
Qed.
Lemma sound_fresh : sound fresh.
Proof. split; [reflexivity|]. split; [reflexivity|]. intros q n H. destruct q; discriminate. Qed.
Lemma do_steps_app fuel l1 l2 : forall c, do_steps fuel c (l1 ++ l2) = let* c' := do_steps fuel c l1 in do_steps fuel c' l2.
Proof. induction l1 as [|a l1 IH]; intros c; [reflexivity|]. cbn [do_steps app]. destruct (do_step fuel c a); [apply IH|reflexivity]. Qed.

Lemma nested_never fuel g l1 l2 o x y c1 c s : (forall a, In a (l1 ++ Make (Op o) [x; y] [] :: l2) -> proper a) ->
  do_steps fuel fresh l1 = Ok c1 -> nested c1 x \/ nested c1 y ->
  do_steps fuel fresh (l1 ++ Make (Op o) [x; y] [] :: l2) = Ok c ->
  redo_all g (loading fresh) (log c) <> Ok s.
Proof.
  intros P D1 Nst D RA. rewrite do_steps_app, D1 in D. cbn [bind do_steps] in D.
  destruct (steps_evolve fuel l1 fresh c1 sound_fresh) as (E1 & V1); [intros a I; apply P, in_or_app; now left|exact D1|].
  destruct (do_step fuel c1 (Make (Op o) [x; y] [])) as [c2|] eqn:D2; [|discriminate]. cbn [bind] in D. cbn [do_step] in D2.
  destruct (make fuel c1 (Op o) [x; y] []) as [[c2' i]|] eqn:M; [|discriminate]. cbn [bind fst] in D2. injection D2 as ->.
  destruct (P (Make (Op o) [x; y] [])) as (K & N & PA & PK); [apply in_or_app; right; now left|].
  destruct (make_evolves fuel c1 _ _ _ c2 i (proj1 V1) K N PA PK M) as (_ & b & E2 & B & V2 & _ & _ & Nv).
  destruct (steps_evolve fuel l2 c2 c (proj1 V2)) as (E3 & V3); [intros a I; apply P, in_or_app; right; now right|exact D|].
  destruct V1 as (_ & (k1 & L1 & F1) & C1 & _). destruct V2 as (_ & (k2 & L2 & F2) & C2 & _). destruct V3 as (_ & (k3 & L3 & F3) & C3 & _).
  assert (F : Forall2 is_cmd (log c) (E1 ++ E2 ++ E3)).
  { rewrite L3, L2, L1. cbn [fresh log app]. rewrite <- app_assoc. apply Forall2_app; [exact F1|]. now apply Forall2_app. }
  destruct (redo_rr g _ _ F (loading fresh) s) as (X & _); [split; reflexivity|exact RA|].
  rewrite rr_app in X. destruct (rr (reg (loading fresh)) E1) as [r1|] eqn:Er; [|discriminate]. destruct (rr_counter _ _ _ Er) as (Cr1 & Rr1).
  rewrite rr_app in X. rewrite Nv in X; [discriminate|eauto| | |].
  - assert (Eb : b = [("left", x); ("right", y)]) by (cbn in B; congruence). subst b. exact Nst.
  - rewrite Rr1. reflexivity.
  - rewrite Cr1, C1. reflexivity.
Qed.

Lemma operands_lost fuel l o x y c c' i : (forall a, In a l -> proper a) -> do_steps fuel fresh l = Ok c -> passable x -> passable y ->
  make fuel c (Op o) [x; y] [] = Ok (c', i) ->
  exists h cmd z, log c' = (h ++ [cmd])%list /\ id_of (reg c') i = Some z /\
    forall g s s', ready s -> redo g s (reload cmd) = Ok s' ->
      exists j n, lookup (reg s') z = Some j /\ nth_error (nodes s') j = Some n /\ t_class n = Op o /\
        t_left n = (if is_object x then VNone else x) /\ t_right n = (if is_object y then VNone else y) /\
        (is_object x = true \/ is_object y = true -> forall X (I : interp X) k w, eval I k (nodes s') (obj s' j) <> Ok w).
Proof.
  intros P D Px Py M. destruct (steps_evolve fuel l fresh c sound_fresh P D) as (E1 & V1).
  assert (K : In (Op o) classes) by (destruct o; cbn; tauto). assert (N : NoDup (dkeys (@nil (string * value)))) by constructor.
  assert (PA : forall v, In v [x; y] -> passable v) by (intros v [<-|[<-|[]]]; assumption).
  destruct (make_evolves fuel c _ _ _ c' i (proj1 V1) K N PA (fun n v (H : In (n, v) []) => match H with end) M) as (_ & b & E2 & B & V2 & Iz & (h & cmd & Lh & IC & oidf & cid & MC) & _).
  exists h, cmd, (1 + counter (reg c))%Z. split; [exact Lh|]. split; [exact Iz|]. intros g s s' Rd Rdo.
  assert (Eb : b = [("left", x); ("right", y)]) by (cbn in B; congruence).
  destruct (redo_cr g s cmd (Op o) [x; y] [] b oidf cid (1 + counter (reg c))%Z s' Rd K N B) as (b' & -> & G); [|exact MC|exact Rdo|].
  { intros n v Hn. rewrite Eb in Hn. apply Base.dget_in in Hn. destruct Hn as [H|[H|[]]]; injection H as <- <-; assumption. }
  assert (Gl : arg b' "left" = (if is_object x then VNone else x)) by (unfold arg; rewrite (G "left" x); [reflexivity|rewrite Eb; reflexivity|discriminate]).
  assert (Gr : arg b' "right" = (if is_object y then VNone else y)) by (unfold arg; rewrite (G "right" y); [reflexivity|rewrite Eb; reflexivity|discriminate]).
  pose proof (replay_result (reg s) 0 0 (1 + counter (reg c))%Z) as RR.
  exists (length (nodes s)), (node_of (Op o) b'). cbn [reg nodes].
  assert (En : nth_error (nodes s ++ [node_of (Op o) b']) (length (nodes s)) = Some (node_of (Op o) b')) by (rewrite nth_error_app2, Nat.sub_diag; [reflexivity|lia]).
  split; [destruct (replay (reg s) 0 0 (1 + counter (reg c))%Z) as [r0 i0]; destruct RR as (RL & RI & _); cbn [fst]; rewrite RL, RI, (proj2 Rd); f_equal; lia|].
  split; [exact En|]. cbn [node_of t_class t_left t_right]. split; [reflexivity|]. split; [exact Gl|]. split; [exact Gr|].
  intros HO X I [|k] w; [discriminate|]. unfold obj. cbn [eval nodes]. cbn [node_of] in En. rewrite En. cbn [t_class t_left t_right]. rewrite Gl, Gr.
  destruct HO as [->| ->].
  - destruct k; discriminate.
  - destruct (eval I k _ (if is_object x then VNone else x)); [|discriminate]. destruct k; discriminate.
Qed.

Lemma link_lost fuel g l c s i m v c' : all_survive fuel fresh l -> do_steps fuel fresh l = Ok c -> able s ->
  held c v -> is_object v = true -> m = "set_next" \/ m = "set_buffer" -> method c i m v = Ok c' ->
  exists s' z j n n', redo_all g (loading s) (log c') = Ok s' /\ id_of (reg c') i = Some z /\ lookup (reg s') z = Some j /\
    nth_error (nodes c') i = Some n /\ nth_error (nodes s') j = Some n' /\ link m n = v /\ link m n' = VNone.
Proof.
  intros Sv D A Hv Ho Hm M. destruct (inv_steps g (loading s) fuel l fresh c) as (s1 & E & HR); auto.
  { exists (loading s). split; [reflexivity|]. now apply R_start. }
  destruct (method_redone g c s1 i m v c' HR M Hv) as (n & j & n' & v' & cmd & A1 & A2 & A3 & A4 & A5 & A6 & A7 & A8 & A9).
  assert (V : v' = VNone) by (apply A9; [exact Ho|destruct Hm as [-> | ->]; reflexivity]). subst v'.
  destruct A2 as (z & Z1 & Z2). exists (put s1 j (assign m n' VNone)), z, j, (assign m n v), (assign m n' VNone). subst c'. cbn [log reg nodes put].
  rewrite redo_all_app, E. cbn [bind redo_all]. rewrite A6. split; [reflexivity|]. split; [exact Z1|]. split; [exact Z2|].
  split; [rewrite nth_error_upd, Nat.eqb_refl; now rewrite A1|]. split; [rewrite nth_error_upd, Nat.eqb_refl; now rewrite A3|].
  destruct n, n'. destruct Hm as [-> | ->]; split; reflexivity.
Qed.
