(** Proofs about transforms. *)
From Verif Require Import Base Transform TransformSpec.

Section Facts.
Context {V : Type}.
Implicit Types (h : heap V) (t : tree V) (x : branch V) (I : interp V).

Scheme tree_mut := Induction for tree Sort Prop
with branch_mut := Induction for branch Sort Prop.
Combined Scheme tree_branch_ind from tree_mut, branch_mut.

Lemma depth_unfold k l r n (b : option V) :
  depth (Node k l r n b) = S (Nat.max (depth_branch l) (Nat.max (depth_branch r) (depth_branch n))).
Proof. reflexivity. Qed.
Lemma copyable_unfold k l r n (b : option V) : copyable (Node k l r n b) =
  (match k with
   | KOp _ => copyable_branch l /\ (match r with BT _ => True | _ => False end) /\ copyable_branch r
   | _ => l = BN /\ r = BN
   end /\ copyable_branch n).
Proof. reflexivity. Qed.

(** ** What a tree depends on *)
Lemma stands_agree (P : nat -> Prop) h h' :
  (forall i, P i -> i < length h -> nth_error h' i = nth_error h i) ->
  (forall t i, stands P h t i -> stands P h' t i) /\
  (forall x o, stands_branch P h x o -> stands_branch P h' x o).
Proof.
  intros E. apply tree_branch_ind.
  - intros k l IHl r IHr n IHn b i (Hi & nd & Hn & Hk & Hb & Hl & Hr & Hx).
    split; [exact Hi|]. exists nd. rewrite (E i Hi) by (apply nth_error_Some; congruence).
    repeat (split; [solve [auto]|]). auto.
  - intros t IH [j|v|] H; try contradiction. exact (IH j H).
  - intros v [j|v'|] H; try contradiction. exact H.
  - intros [j|v'|] H; try contradiction. exact H.
Qed.
Lemma stands_weaken (P Q : nat -> Prop) h :
  (forall i, P i -> i < length h -> Q i) ->
  (forall t i, stands P h t i -> stands Q h t i) /\
  (forall x o, stands_branch P h x o -> stands_branch Q h x o).
Proof.
  intros E. apply tree_branch_ind.
  - intros k l IHl r IHr n IHn b i (Hi & nd & Hn & Hk & Hb & Hl & Hr & Hx).
    split; [apply E; [exact Hi|apply nth_error_Some; congruence]|]. exists nd. repeat (split; [solve [auto]|]). auto.
  - intros t IH [j|v|] H; try contradiction. exact (IH j H).
  - intros v [j|v'|] H; try contradiction. exact H.
  - intros [j|v'|] H; try contradiction. exact H.
Qed.
Lemma stands_keeps P h h' : keeps h h' ->
  (forall t i, stands P h t i -> stands P h' t i) /\
  (forall x o, stands_branch P h x o -> stands_branch P h' x o).
Proof. intros K. apply stands_agree. intros i _ Hi. now apply K. Qed.
Lemma stands_lt P h t i : stands P h t i -> i < length h.
Proof. destruct t. intros (_ & nd & Hn & _). apply nth_error_Some. congruence. Qed.
Lemma keeps_refl h : keeps h h. Proof. red. auto. Qed.
Lemma keeps_length h h' : keeps h h' -> length h <= length h'.
Proof.
  intros K. destruct (Nat.le_gt_cases (length h) (length h')) as [|E]; [assumption|].
  specialize (K (length h') E). rewrite (proj2 (nth_error_None h' (length h')) (le_n _)) in K.
  symmetry in K. apply nth_error_None in K. lia.
Qed.
Lemma keeps_trans h1 h2 h3 : keeps h1 h2 -> keeps h2 h3 -> keeps h1 h3.
Proof. intros A B i Hi. pose proof (keeps_length _ _ A). rewrite B by lia. now apply A. Qed.
Lemma keeps_app h l : keeps h (h ++ l).
Proof. intros i Hi. now rewrite nth_error_app1. Qed.
Lemma keeps_upd h h' j nd : keeps h h' -> length h <= j -> keeps h (upd h' j nd).
Proof. intros K Hj i Hi. rewrite nth_error_upd. destruct (Nat.eqb_spec i j); [lia|]. now apply K. Qed.

(** ** Bases *)
Lemma base_spec h : bases_older h -> forall f i, i < length h -> i < f ->
  exists b, base f h i = Ok b /\ b <= i.
Proof.
  intros B. induction f as [|f IH]; [lia|]. intros i Hi Hf. cbn [base]. unfold get.
  destruct (nth_error h i) as [nd|] eqn:E; [|apply nth_error_None in E; lia]. cbn [bind].
  destruct (n_base nd) as [b|] eqn:Eb; [|eauto].
  pose proof (B _ _ _ E Eb) as Hb. destruct (IH b ltac:(lia) ltac:(lia)) as (c & Hc & Hle).
  exists c. split; [exact Hc|lia].
Qed.
Lemma bases_app h nd : bases_older h -> n_base nd = None -> bases_older (h ++ [nd]).
Proof.
  intros B N i x b Hx Hb. destruct (Nat.lt_ge_cases i (length h)) as [Hi|Hi].
  - rewrite nth_error_app1 in Hx by exact Hi. eauto.
  - rewrite nth_error_app2 in Hx by exact Hi. destruct (i - length h) as [|[|m]]; cbn in Hx; try discriminate.
    congruence.
Qed.
Lemma bases_upd h j nd : bases_older h -> (forall b, n_base nd = Some b -> b < j) -> bases_older (upd h j nd).
Proof.
  intros B N i x b Hx Hb. rewrite nth_error_upd in Hx. destruct (Nat.eqb_spec i j) as [->|]; [|eauto].
  destruct (nth_error h j); inversion Hx; subst. auto.
Qed.

(** ** Copy *)
Definition newer h h' (k : nat) : Prop := length h <= k < length h'.
Definition good_copy h (t : tree V) h' j : Prop :=
  keeps h h' /\ bases_older h' /\ newer h h' j /\ stands (newer h h') h' t j.

Definition copy_op f h (o : operand V) : res (heap V * operand V) :=
  match o with OT j => let* r := copy f h j in Ok (fst r, OT (snd r)) | _ => Ok (h, o) end.
Definition good_branch h (x : branch V) h' o : Prop :=
  keeps h h' /\ bases_older h' /\ stands_branch (newer h h') h' x o.

Lemma copy_unfold f h i : copy (S f) h i =
  let* n := get h i in
  let* b := base (S (length h)) h i in
  let h1 := (h ++ [mkNode (n_kind n) ON ON ON None None])%list in
  let j := length h in
  let* r1 := copy_op f h1 (n_next n) in
  match n_kind n with
  | KOp _ =>
      let* r2 := copy_op f (fst r1) (n_left n) in
      if is_transform (n_right n) then
        let* r3 := copy_op f (fst r2) (n_right n) in
        Ok (upd (fst r3) j (mkNode (n_kind n) (snd r2) (snd r3) (snd r1) (n_buf n) (Some b)), j)
      else Ok (upd (fst r2) j (mkNode (n_kind n) (n_left n) ON (snd r1) (n_buf n) (Some b)), j)
  | _ => Ok (upd (fst r1) j (mkNode (n_kind n) ON ON (snd r1) (n_buf n) (Some b)), j)
  end.
Proof. reflexivity. Qed.


Definition inside h h' (k : nat) : Prop := length h < k < length h'.
Lemma assemble h hN nd k l r n b : keeps h hN -> length h < length hN -> bases_older hN ->
  (forall c, n_base nd = Some c -> c < length h) -> n_kind nd = k -> n_buf nd = b ->
  stands_branch (inside h hN) hN l (n_left nd) -> stands_branch (inside h hN) hN r (n_right nd) ->
  stands_branch (inside h hN) hN n (n_next nd) ->
  good_copy h (Node k l r n b) (upd hN (length h) nd) (length h).
Proof.
  intros K L B Nb Hk Hb Sl Sr Sn. split; [apply keeps_upd; [exact K|lia]|].
  split; [apply bases_upd; assumption|]. split; [split; [lia|rewrite upd_length; lia]|].
  split; [split; [lia|rewrite upd_length; lia]|]. exists nd. rewrite nth_error_upd, Nat.eqb_refl.
  destruct (nth_error hN (length h)) eqn:E; [|apply nth_error_None in E; lia].
  assert (T : forall x o, stands_branch (inside h hN) hN x o ->
    stands_branch (newer h (upd hN (length h) nd)) (upd hN (length h) nd) x o).
  { intros x o H. apply (proj2 (stands_weaken (inside h hN) (newer h (upd hN (length h) nd)) (upd hN (length h) nd)
      ltac:(unfold inside, newer; intros; rewrite upd_length; lia))).
    apply (proj2 (stands_agree (inside h hN) hN (upd hN (length h) nd) ltac:(unfold inside; intros q Hq _; rewrite nth_error_upd;
      destruct (Nat.eqb_spec q (length h)); [lia|reflexivity]))). exact H. }
  repeat (split; [solve [auto]|]). auto.
Qed.
Lemma later h h1 h2 hN x o : length h < length h1 -> keeps h2 hN ->
  stands_branch (newer h1 h2) h2 x o -> stands_branch (inside h hN) hN x o.
Proof.
  intros L K H. pose proof (keeps_length _ _ K).
  apply (proj2 (stands_weaken (newer h1 h2) (inside h hN) hN ltac:(unfold inside, newer; intros; lia))).
  now apply (proj2 (stands_keeps _ _ _ K)).
Qed.

Lemma copy_spec :
  (forall t, copyable t -> forall P f h i, stands P h t i -> depth t <= f -> bases_older h ->
     exists h', copy f h i = Ok (h', length h) /\ good_copy h t h' (length h)) /\
  (forall x, copyable_branch x -> forall P f h o, stands_branch P h x o -> depth_branch x <= f -> bases_older h ->
     exists h' o', copy_op f h o = Ok (h', o') /\ good_branch h x h' o').
Proof.
  apply tree_branch_ind.
  - intros k l IHl r IHr n IHn b C P f h i (Hi & nd & Hnd & Hk & Hb & Sl & Sr & Sn) D B.
    rewrite copyable_unfold in C. destruct C as [Ck Cn].
    rewrite depth_unfold in D. destruct f as [|f]; [lia|].
    assert (Li : i < length h) by (apply nth_error_Some; congruence).
    destruct (base_spec h B (S (length h)) i Li ltac:(lia)) as (bs & Hbs & Lbs).
    rewrite copy_unfold. unfold get. rewrite Hnd. cbn [bind]. rewrite Hbs. cbn [bind]. cbv zeta.
    set (h1 := (h ++ [mkNode (n_kind nd) ON ON ON None None])%list) in *.
    assert (L1 : length h1 = S (length h)) by (unfold h1; rewrite app_length; cbn; lia).
    assert (K1 : keeps h h1) by apply keeps_app.
    assert (B1 : bases_older h1) by (apply bases_app; [exact B|reflexivity]).
    destruct (IHn Cn P f h1 _ (proj2 (stands_keeps _ _ _ K1) _ _ Sn) ltac:(lia) B1) as (h2 & n' & En & K2 & B2 & S2).
    rewrite En. cbn [bind fst snd].
    assert (K12 := keeps_trans _ _ _ K1 K2). pose proof (keeps_length _ _ K2) as L2.
    assert (NB : forall c, Some bs = Some c -> c < length h) by (intros c Hc; inversion Hc; lia).
    assert (Hleaf : l = BN /\ r = BN ->
      good_copy h (Node k l r n b) (upd h2 (length h) (mkNode (n_kind nd) ON ON n' (n_buf nd) (Some bs))) (length h)).
    { intros [-> ->]. apply assemble; try assumption; cbn [n_left n_right n_next stands_branch]; auto.
      - lia.
      - apply later with h1 h2; [lia|apply keeps_refl|exact S2]. }
    destruct k as [key|u|pr|nm|o]; rewrite Hk in *; try (eexists; split; [reflexivity|]; now apply Hleaf).
    clear Hleaf. destruct Ck as (Cl & Rt & Cr).
    destruct (IHl Cl P f h2 _ (proj2 (stands_keeps _ _ _ K12) _ _ Sl) ltac:(lia) B2) as (h3 & l' & El & K3 & B3 & S3).
    rewrite El. cbn [bind fst snd].
    destruct r as [tr|v|]; try contradiction.
    destruct (n_right nd) as [jr|v|] eqn:Er; try contradiction. cbn [is_transform].
    assert (K13 := keeps_trans _ _ _ K12 K3). pose proof (keeps_length _ _ K3) as L3.
    destruct (IHr Cr P f h3 _ (proj2 (stands_keeps _ _ _ K13) _ _ Sr) ltac:(lia) B3) as (h4 & r' & Er' & K4 & B4 & S4).
    rewrite Er'. cbn [bind fst snd]. eexists; split; [reflexivity|].
    pose proof (keeps_length _ _ K4) as L4.
    apply assemble; try assumption; cbn [n_left n_right n_next n_kind n_buf n_base]; auto.
    + exact (keeps_trans _ _ _ K13 K4).
    + lia.
    + apply later with h2 h3; [lia|exact K4|exact S3].
    + apply later with h3 h4; [lia|apply keeps_refl|exact S4].
    + apply later with h1 h2; [lia|exact (keeps_trans _ _ _ K3 K4)|exact S2].
  - intros t IH C P f h [j|v|] H D B; try contradiction.
    cbn [copyable_branch depth_branch] in *. destruct (IH C P f h j H D B) as (h' & E & K & B' & N & S').
    unfold copy_op. rewrite E. cbn [bind fst snd]. eexists _, _. split; [reflexivity|]. split; [|split]; assumption.
  - intros v C P f h [j|v'|] H D B; try contradiction. cbn [copy_op].
    eexists _, _. split; [reflexivity|]. split; [apply keeps_refl|split; [exact B|exact H]].
  - intros C P f h [j|v'|] H D B; try contradiction. cbn [copy_op].
    eexists _, _. split; [reflexivity|]. split; [apply keeps_refl|split; [exact B|exact H]].
Qed.

(** ** Evaluation *)
Lemma value_unfold I k l r n (b : option V) : value I (Node k l r n b) =
  match k with
  | KOut name => e_out I name
  | KOp o =>
      let* a := value_branch I l in
      let* c := value_branch I r in
      match a, c with Some x, Some y => e_arith I o x y | _, _ => Err TypeError end
  | _ =>
      let* _ := e_ready I k in
      let* v := (match n with
                 | BT t => value I t
                 | _ => match b with Some v => Ok v | None => default_value I k end
                 end) in
      e_app I k v
  end.
Proof. destruct k; reflexivity. Qed.
Lemma value_branch_unfold I x : value_branch I x =
  match x with BT t => let* v := value I t in Ok (Some v) | BC v => Ok (Some v) | BN => Ok None end.
Proof. destruct x; reflexivity. Qed.

Lemma eval_spec I :
  (forall t P f h i, stands P h t i -> depth t <= f -> evaluate I f h i = value I t) /\
  (forall x P f h o, stands_branch P h x o -> depth_branch x <= f ->
     (match o with
      | OT j => let* v := evaluate I f h j in Ok (Some v)
      | OC v => Ok (Some v)
      | ON => Ok None
      end) = value_branch I x).
Proof.
  apply tree_branch_ind.
  - intros k l IHl r IHr n IHn b P f h i (Hi & nd & Hnd & Hk & Hb & Sl & Sr & Sn) D.
    rewrite depth_unfold in D. destruct f as [|f]; [lia|]. cbn [evaluate]. unfold get. rewrite Hnd. cbn [bind].
    rewrite Hk, Hb. pose proof (IHn P f h _ Sn ltac:(lia)) as EN.
    rewrite value_unfold. destruct k as [key|u|pr|nm|o]; try reflexivity.
    all: try (destruct (e_ready I _) as [u0|e0]; cbn [bind]; [|reflexivity];
      destruct n as [tn|v|]; destruct (n_next nd) as [jn|v'|]; try contradiction;
      try reflexivity; rewrite value_branch_unfold in EN;
      destruct (evaluate I f h jn) as [v0|e1], (value I tn) as [v1|e2]; cbn [bind] in *; congruence).
    rewrite (IHl P f h _ Sl ltac:(lia)), (IHr P f h _ Sr ltac:(lia)). reflexivity.
  - intros t IH P f h [j|v|] H D; try contradiction. rewrite value_branch_unfold.
    now rewrite (IH P f h j H D).
  - intros v P f h [j|v'|] H D; try contradiction.
    change (v = v') in H. now subst.
  - intros P f h [j|v'|] H D; try contradiction. reflexivity.
Qed.

(** ** Nothing existing is modified *)
Lemma copy_op_cases f h o h' o' : copy_op f h o = Ok (h', o') ->
  (exists j j', o = OT j /\ o' = OT j' /\ copy f h j = Ok (h', j')) \/ (h' = h /\ o' = o /\ is_transform o = false).
Proof.
  destruct o as [j|v|]; cbn [copy_op]; intros H;
    [|right; repeat split; congruence|right; repeat split; congruence].
  left. destruct (copy f h j) as [[h1 j1]|] eqn:E; cbn [bind fst snd] in H; [|discriminate].
  inversion H; subst. eauto.
Qed.
Lemma copy_keeps f : forall h i h' j, copy f h i = Ok (h', j) -> keeps h h' /\ j = length h.
Proof.
  induction f as [|f IH]; intros h i h' j; [discriminate|]. rewrite copy_unfold.
  destruct (get h i) as [nd|]; cbn [bind]; [|discriminate].
  destruct (base _ h i) as [b|]; cbn [bind]; [|discriminate]. cbv zeta.
  set (h1 := (h ++ _)%list).
  assert (K1 : keeps h h1) by apply keeps_app.
  assert (IHo : forall g o g' o', copy_op f g o = Ok (g', o') -> keeps g g').
  { intros g o g' o' H. apply copy_op_cases in H. destruct H as [(a & b' & _ & _ & H)|(-> & _)]; [|apply keeps_refl].
    now apply IH in H. }
  destruct (copy_op f h1 (n_next nd)) as [[h2 n']|] eqn:E1; cbn [bind fst snd]; [|discriminate].
  apply IHo in E1. assert (K2 := keeps_trans _ _ _ K1 E1).
  destruct (n_kind nd) as [key|u|pr|nm|o]; try (intros H; inversion H; subst; split; [apply keeps_upd; [exact K2|lia]|reflexivity]).
  destruct (copy_op f h2 (n_left nd)) as [[h3 l']|] eqn:E2; cbn [bind fst snd]; [|discriminate].
  apply IHo in E2. assert (K3 := keeps_trans _ _ _ K2 E2).
  destruct (is_transform (n_right nd)).
  - destruct (copy_op f h3 (n_right nd)) as [[h4 r']|] eqn:E3; cbn [bind fst snd]; [|discriminate].
    apply IHo in E3. assert (K4 := keeps_trans _ _ _ K3 E3).
    intros H; inversion H; subst; split; [apply keeps_upd; [exact K4|lia]|reflexivity].
  - intros H; inversion H; subst; split; [apply keeps_upd; [exact K3|lia]|reflexivity].
Qed.
Lemma copy_op_keeps f h o h' o' : copy_op f h o = Ok (h', o') -> keeps h h'.
Proof.
  intros H. apply copy_op_cases in H. destruct H as [(a & b & _ & _ & H)|(-> & _)]; [|apply keeps_refl].
  now apply copy_keeps in H.
Qed.

Lemma make_op_unfold f h o l r : make_op f h o l r =
  let h1 := (h ++ [mkNode (KOp o) ON ON ON None None])%list in
  let* r1 := copy_op f h1 l in
  let* r2 := copy_op f (fst r1) r in
  Ok (upd (fst r2) (length h) (mkNode (KOp o) (snd r1) (snd r2) ON None None), length h).
Proof. reflexivity. Qed.
Lemma make_op_keeps f h o l r h' j : make_op f h o l r = Ok (h', j) -> keeps h h' /\ j = length h.
Proof.
  rewrite make_op_unfold. cbv zeta. set (h1 := (h ++ _)%list).
  assert (K1 : keeps h h1) by apply keeps_app.
  destruct (copy_op f h1 l) as [[h2 l']|] eqn:E1; cbn [bind fst snd]; [|discriminate]. apply copy_op_keeps in E1.
  destruct (copy_op f h2 r) as [[h3 r']|] eqn:E2; cbn [bind fst snd]; [|discriminate]. apply copy_op_keeps in E2.
  intros H; inversion H; subst. split; [|reflexivity]. apply keeps_upd; [|lia].
  exact (keeps_trans _ _ _ (keeps_trans _ _ _ K1 E1) E2).
Qed.
Lemma set_buffer_keeps h h' i b h'' : keeps h h' -> length h <= i -> set_buffer h' i b = Ok h'' -> keeps h h''.
Proof.
  intros K Hi. unfold set_buffer. destruct (get h' i); cbn [bind]; [|discriminate].
  intros H; inversion H; subst. now apply keeps_upd.
Qed.
Lemma set_next_keeps h h' i b h'' : keeps h h' -> length h <= i -> set_next h' i b = Ok h'' -> keeps h h''.
Proof.
  intros K Hi. unfold set_next. destruct (get h' i); cbn [bind]; [|discriminate].
  intros H; inversion H; subst. now apply keeps_upd.
Qed.
Lemma call_keeps f h i j h' k : call f h i j = Ok (h', k) -> keeps h h' /\ length h <= k.
Proof.
  unfold call. destruct (get h i) as [nd|]; cbn [bind]; [|discriminate].
  enough (E : (let* r := copy f h i in
      let* q := copy f (fst r) j in
      let* h2 := set_next (fst q) (snd r) (OT (snd q)) in
      let* h3 := set_buffer h2 (snd r) None in Ok (h3, snd r)) = Ok (h', k) -> keeps h h' /\ length h <= k)
    by (destruct (n_kind nd); try exact E; discriminate).
  destruct (copy f h i) as [[h1 t]|] eqn:E1; cbn [bind fst snd]; [|discriminate]. apply copy_keeps in E1.
  destruct (copy f h1 j) as [[h2 q]|] eqn:E2; cbn [bind fst snd]; [|discriminate]. apply copy_keeps in E2.
  destruct (set_next h2 t (OT q)) as [h3|] eqn:E3; cbn [bind fst snd]; [|discriminate].
  destruct (set_buffer h3 t None) as [h4|] eqn:E4; cbn [bind fst snd]; [|discriminate].
  intros H; inversion H; subst. destruct E1 as [K1 ->], E2 as [K2 ->]. split; [|lia].
  eapply set_buffer_keeps in E4; [exact E4| |lia]. eapply set_next_keeps in E3; [exact E3| |lia].
  exact (keeps_trans _ _ _ K1 K2).
Qed.

Lemma copy_node f h i h' j : copy (S f) h i = Ok (h', j) ->
  exists nd nd' h2 n', nth_error h i = Some nd /\ nth_error h' (length h) = Some nd' /\ j = length h /\
    copy_op f (h ++ [mkNode (n_kind nd) ON ON ON None None])%list (n_next nd) = Ok (h2, n') /\
    n_next nd' = n' /\ n_kind nd' = n_kind nd /\ n_buf nd' = n_buf nd /\
    length h2 <= length h' /\
    (forall k, length h < k < length h2 -> nth_error h' k = nth_error h2 k).
Proof.
  rewrite copy_unfold. unfold get.
  destruct (nth_error h i) as [nd|] eqn:Hnd; cbn [bind]; [|discriminate].
  destruct (base _ h i) as [b|]; cbn [bind]; [|discriminate]. cbv zeta.
  set (h1 := (h ++ _)%list).
  assert (L1 : length h1 = S (length h)) by (unfold h1; rewrite app_length; cbn; lia).
  destruct (copy_op f h1 (n_next nd)) as [[h2 n']|] eqn:E1; cbn [bind fst snd]; [|discriminate].
  pose proof (copy_op_keeps _ _ _ _ _ E1) as K1. pose proof (keeps_length _ _ K1) as L2.
  enough (G : forall h3 (x : node V), keeps h2 h3 -> n_kind x = n_kind nd -> n_buf x = n_buf nd -> n_next x = n' ->
    h' = upd h3 (length h) x -> j = length h ->
    exists nd0 nd' h4 n'', Some nd = Some nd0 /\ nth_error h' (length h) = Some nd' /\ j = length h /\
    copy_op f (h ++ [mkNode (n_kind nd0) ON ON ON None None])%list (n_next nd0) = Ok (h4, n'') /\
    n_next nd' = n'' /\ n_kind nd' = n_kind nd0 /\ n_buf nd' = n_buf nd0 /\
    length h4 <= length h' /\
    (forall k, length h < k < length h4 -> nth_error h' k = nth_error h4 k)).
  { destruct (n_kind nd) as [key|u|pr|nm|o] eqn:Ek;
      try (intros H; injection H as Ha Hb; refine (G _ _ _ _ _ _ (eq_sym Ha) (eq_sym Hb)); [apply keeps_refl|reflexivity..]).
    destruct (copy_op f h2 (n_left nd)) as [[h3 l']|] eqn:E2; cbn [bind fst snd]; [|discriminate].
    pose proof (copy_op_keeps _ _ _ _ _ E2) as K2.
    destruct (is_transform (n_right nd)).
    - destruct (copy_op f h3 (n_right nd)) as [[h4 r']|] eqn:E3; cbn [bind fst snd]; [|discriminate].
      pose proof (copy_op_keeps _ _ _ _ _ E3) as K3.
      intros H; injection H as Ha Hb; refine (G _ _ _ _ _ _ (eq_sym Ha) (eq_sym Hb)); [exact (keeps_trans _ _ _ K2 K3)|reflexivity..].
    - intros H; injection H as Ha Hb; refine (G _ _ _ _ _ _ (eq_sym Ha) (eq_sym Hb)); [exact K2|reflexivity..]. }
  intros h3 x K3 Xk Xb Xn -> ->. pose proof (keeps_length _ _ K3) as L3.
  exists nd, x, h2, n'. split; [reflexivity|]. rewrite nth_error_upd, Nat.eqb_refl.
  destruct (nth_error h3 (length h)) eqn:E; [|apply nth_error_None in E; lia].
  split; [reflexivity|]. split; [reflexivity|]. split; [exact E1|]. repeat (split; [assumption|]).
  split; [rewrite upd_length; lia|]. intros k Hk. rewrite nth_error_upd.
  destruct (Nat.eqb_spec k (length h)); [lia|]. apply K3. lia.
Qed.

(** The chain a copy starts consists of new transforms. *)
Lemma copy_last f : forall h i h' j h'' g k, copy f h i = Ok (h', j) ->
  (forall q, length h <= q < length h' -> nth_error h'' q = nth_error h' q) ->
  last_of g h'' j = Ok k -> length h <= k.
Proof.
  induction f as [|f IH]; intros h i h' j h'' g k; [discriminate|]. intros C A.
  destruct (copy_node _ _ _ _ _ C) as (nd & nd' & h2 & n' & Hnd & Hnd' & -> & En & Nn & _ & _ & L & Q).
  destruct g as [|g]; cbn [last_of]; [discriminate|]. unfold get.
  assert (length h < length h') by (apply nth_error_Some; congruence).
  rewrite A by lia. rewrite Hnd'. cbn [bind]. rewrite Nn.
  apply copy_op_cases in En. set (h1 := (h ++ _)%list) in *.
  assert (L1 : length h1 = S (length h)) by (unfold h1; rewrite app_length; cbn; lia).
  destruct En as [(a & a' & Ea & -> & En)|(E1 & E2 & E3)].
  - intros HL. enough (length h1 <= k) by lia. eapply IH; [exact En| |exact HL].
    intros q Hq. rewrite A by lia. apply Q. lia.
  - subst. destruct (n_next nd) eqn:E; [discriminate|intros X; inversion X; lia|intros X; inversion X; lia].
Qed.
Lemma bind_keeps I f h i v h' r : bind_to I f h i v = (h', r) ->
  keeps h h' /\ (forall j, r = Ok j -> length h <= j).
Proof.
  unfold bind_to. destruct (get h i) as [nd|]; [|intros H; inversion H; subst; split; [apply keeps_refl|discriminate]].
  match goal with |- context [match copy f h i with Ok _ => _ | Err _ => _ end] => idtac end.
  enough (E : (match copy f h i with
          | Err e => (h, Err e)
          | Ok (h1, t) =>
              if e_bindable I v then
                match bound f h i with
                | Err e => (h1, Err e)
                | Ok true => (h1, Err ValueError)
                | Ok false =>
                    match (let* k := last_of f h1 t in set_buffer h1 k (Some v)) with
                    | Ok h2 => (h2, Ok t)
                    | Err e => (h1, Err e)
                    end
                end
              else (h1, Err ValueError)
          end) = (h', r) -> keeps h h' /\ (forall j, r = Ok j -> length h <= j)).
  { destruct (n_kind nd); try exact E. intros H; inversion H; subst. split; [apply keeps_refl|discriminate]. }
  destruct (copy f h i) as [[h1 t]|] eqn:C; [|intros H; inversion H; subst; split; [apply keeps_refl|discriminate]].
  destruct (copy_keeps _ _ _ _ _ C) as [K ->].
  destruct (e_bindable I v); [|intros H; inversion H; subst; split; [exact K|discriminate]].
  destruct (bound f h i) as [[|]|]; try (intros H; inversion H; subst; split; [exact K|discriminate]).
  destruct (last_of f h1 (length h)) as [k|] eqn:EL; cbn [bind];
    [|intros H; inversion H; subst; split; [exact K|discriminate]].
  pose proof (copy_last _ _ _ _ _ h1 _ _ C ltac:(reflexivity) EL) as Lk.
  destruct (set_buffer h1 k (Some v)) as [h2|] eqn:ES; intros H; inversion H; subst; [|split; [exact K|discriminate]].
  split; [eapply set_buffer_keeps; eauto|]. intros j Hj. inversion Hj. lia.
Qed.

(** ** Operators *)
Lemma make_op_spec f h o l r xl xr P : bases_older h ->
  stands_branch P h xl l -> copyable_branch xl -> depth_branch xl <= f ->
  stands_branch P h xr r -> copyable_branch xr -> depth_branch xr <= f ->
  exists h', make_op f h o l r = Ok (h', length h) /\ good_copy h (Node (KOp o) xl xr BN None) h' (length h).
Proof.
  intros B Sl Cl Dl Sr Cr Dr. rewrite make_op_unfold. cbv zeta. set (h1 := (h ++ _)%list).
  assert (L1 : length h1 = S (length h)) by (unfold h1; rewrite app_length; cbn; lia).
  assert (K1 : keeps h h1) by apply keeps_app.
  assert (B1 : bases_older h1) by (apply bases_app; [exact B|reflexivity]).
  destruct (proj2 copy_spec xl Cl P f h1 _ (proj2 (stands_keeps _ _ _ K1) _ _ Sl) Dl B1) as (h2 & l' & El & K2 & B2 & S2).
  rewrite El. cbn [bind fst snd]. assert (K12 := keeps_trans _ _ _ K1 K2). pose proof (keeps_length _ _ K2) as L2.
  destruct (proj2 copy_spec xr Cr P f h2 _ (proj2 (stands_keeps _ _ _ K12) _ _ Sr) Dr B2) as (h3 & r' & Er & K3 & B3 & S3).
  rewrite Er. cbn [bind fst snd]. pose proof (keeps_length _ _ K3) as L3. eexists; split; [reflexivity|].
  apply assemble; cbn [n_left n_right n_next n_kind n_buf n_base]; auto.
  - exact (keeps_trans _ _ _ K12 K3).
  - lia.
  - discriminate.
  - apply later with h1 h2; [lia|exact K3|exact S2].
  - apply later with h2 h3; [lia|apply keeps_refl|exact S3].
  - exact Logic.I.
Qed.

(** ** Calls *)
Lemma call_spec P f h i j k n b t2 : stage k -> bases_older h ->
  stands P h (Node k BN BN n b) i -> copyable_branch n -> depth (Node k BN BN n b) <= f ->
  stands P h t2 j -> copyable t2 -> depth t2 <= f ->
  exists h', call f h i j = Ok (h', length h) /\ good_copy h (Node k BN BN (BT t2) None) h' (length h).
Proof.
  intros Sk B S1 C1 D1 S2 C2 D2.
  assert (C1' : copyable (Node k BN BN n b)) by (rewrite copyable_unfold; destruct k; cbn in *; tauto).
  destruct (proj1 copy_spec _ C1' P f h i S1 D1 B) as (h1 & E1 & K1 & B1 & N1 & T1).
  destruct (proj1 copy_spec _ C2 P f h1 j (proj1 (stands_keeps _ _ _ K1) _ _ S2) D2 B1) as (h2 & E2 & K2 & B2 & N2 & T2).
  destruct S1 as (_ & nd & Hnd & Hk & _). unfold call, get. rewrite Hnd. cbn [bind]. rewrite Hk.
  assert (Hst : (let* r := copy f h i in
      let* q := copy f (fst r) j in
      let* h2 := set_next (fst q) (snd r) (OT (snd q)) in
      let* h3 := set_buffer h2 (snd r) None in Ok (h3, snd r)) =
      match k with KOut _ => Err TypeError | _ => let* r := copy f h i in
      let* q := copy f (fst r) j in
      let* h2 := set_next (fst q) (snd r) (OT (snd q)) in
      let* h3 := set_buffer h2 (snd r) None in Ok (h3, snd r) end) by (destruct k; reflexivity || contradiction).
  rewrite <- Hst. clear Hst. rewrite E1. cbn [bind fst snd]. rewrite E2. cbn [bind fst snd].
  destruct T1 as (_ & nd1 & Hnd1 & Hk1 & Hb1 & Hl1 & Hr1 & Hn1).
  pose proof (keeps_length _ _ K2) as L2. unfold newer in N1, N2.
  assert (Hnd2 : nth_error h2 (length h) = Some nd1) by (rewrite K2 by lia; exact Hnd1).
  unfold set_next, get. rewrite Hnd2. cbn [bind].
  set (X := mkNode (n_kind nd1) (n_left nd1) (n_right nd1) (OT (length h1)) (n_buf nd1) (n_base nd1)).
  unfold set_buffer, get. rewrite nth_error_upd, Nat.eqb_refl, Hnd2. cbn [bind].
  eexists; split; [reflexivity|].
  assert (L : length h < length h2) by lia.
  destruct (n_left nd1) eqn:EL; try contradiction. destruct (n_right nd1) eqn:ER; try contradiction.
  apply assemble; unfold X; cbn [n_left n_right n_next n_kind n_buf n_base]; auto.
  - apply keeps_upd; [exact (keeps_trans _ _ _ K1 K2)|lia].
  - rewrite upd_length. lia.
  - apply bases_upd; [exact B2|]. cbn [n_base]. intros c Hc. exact (B1 _ _ _ Hnd1 Hc).
  - intros c Hc. exact (B1 _ _ _ Hnd1 Hc).
  - set (h3 := upd h2 (length h) _).
    apply (proj2 (stands_agree (inside h h3) h2 h3 ltac:(unfold h3, inside; intros q Hq _; rewrite nth_error_upd;
      destruct (Nat.eqb_spec q (length h)); [lia|reflexivity])) (BT t2) (OT (length h1))).
    apply (proj2 (stands_weaken (newer h1 h2) (inside h h3) h2 ltac:(unfold h3, inside, newer; rewrite upd_length; intros; lia))
      (BT t2) (OT (length h1))). exact T2.
Qed.

Lemma line_head k ks (b : option V) : exists n b', line k ks b = Node k BN BN n b' /\ (n = BN \/ exists k' r, n = BT (line k' r b)).
Proof. destruct ks as [|k' r]; cbn [line]; eexists _, _; (split; [reflexivity|]); eauto. Qed.
Lemma line_depth : forall ks k (b : option V), depth (line k ks b) = S (length ks).
Proof.
  induction ks as [|k' r IH]; intros k b; [reflexivity|]. cbn [line]. rewrite depth_unfold.
  change (depth_branch (BT (line k' r b))) with (depth (line k' r b)). rewrite IH. reflexivity.
Qed.
Lemma line_copyable : forall ks k (b : option V), stage k -> Forall stage ks -> copyable (line k ks b).
Proof.
  induction ks as [|k' r IH]; intros k b Sk F.
  - cbn [line]. rewrite copyable_unfold. destruct k; cbn in *; tauto.
  - cbn [line]. rewrite copyable_unfold. inversion F; subst. split; [destruct k; cbn in *; tauto|].
    change (copyable (line k' r b)). auto.
Qed.
Lemma line_value I : forall ks k b v, stage k -> Forall stage ks ->
  b = Some v -> value I (line k ks b) = apply_all I (k :: ks) (Ok v).
Proof.
  intros ks k b v Sk F ->. revert k Sk F. induction ks as [|k' r IH]; intros k Sk F.
  - cbn [line]. rewrite value_unfold. destruct k; try contradiction; reflexivity.
  - cbn [line]. rewrite value_unfold. inversion F; subst. rewrite IH by assumption.
    destruct k; try contradiction; reflexivity.
Qed.

Lemma stands_w (P Q : nat -> Prop) h t i : stands P h t i -> (forall i, P i -> Q i) -> stands Q h t i.
Proof. intros S E. exact (proj1 (stands_weaken P Q h (fun i Hi _ => E i Hi)) t i S). Qed.
Lemma nest_spec (P : nat -> Prop) f : forall ks l h (x : nat) t, Forall stage ks -> bases_older h ->
  stands P h t x -> copyable t -> length ks + depth t <= f ->
  Forall2 (fun i k => exists n b, stands P h (Node k BN BN n b) i /\ copyable_branch n /\ depth (Node k BN BN n b) <= f) l ks ->
  exists h' j, nest f h l x = Ok (h', j) /\ keeps h h' /\ bases_older h' /\
    let t' := fold_right (fun k s => Node k BN BN (BT s) None) t ks in
    stands (fun q => P q \/ newer h h' q) h' t' j /\ copyable t' /\ depth t' <= f /\
    (l <> [] -> stands (newer h h') h' t' j).
Proof.
  induction ks as [|k ks IH]; intros l h x t F B St Ct D FL.
  - inversion FL; subst. cbn [nest fold_right]. exists h, x. split; [reflexivity|].
    split; [apply keeps_refl|]. split; [exact B|]. split; [|split; [exact Ct|split; [cbn in D; lia|congruence]]].
    eapply stands_w; [exact St|]. auto.
  - inversion FL as [|i k0 l' ks' Hi FL' E1 E2]; subst. inversion F as [|k1 ks1 Sk F1]; subst. cbn [length] in D.
    destruct (IH l' h x t F1 B St Ct ltac:(lia) FL') as (h1 & y & En & K1 & B1 & St1 & C1 & D1 & _).
    cbn [nest fold_right]. rewrite En. cbn [bind fst snd].
    set (t1 := fold_right _ t ks) in *.
    destruct Hi as (n & b & Si & Cn & Di).
    assert (Si' : stands (fun q => P q \/ newer h h1 q) h1 (Node k BN BN n b) i).
    { eapply stands_w; [exact (proj1 (stands_keeps _ _ _ K1) _ _ Si)|]. auto. }
    destruct (call_spec _ f h1 i y k n b t1 Sk B1 Si' Cn Di St1 C1 D1) as (h2 & E2 & K2 & B2 & N2 & S2).
    exists h2, (length h1). split; [exact E2|]. split; [exact (keeps_trans _ _ _ K1 K2)|]. split; [exact B2|].
    pose proof (keeps_length _ _ K1) as L1.
    cbv zeta. split; [|split; [|split]].
    + eapply stands_w; [exact S2|]. unfold newer; intros; right; lia.
    + rewrite copyable_unfold. split; [destruct k; cbn in Sk; try contradiction; split; reflexivity|exact C1].
    + rewrite depth_unfold. change (depth_branch (BT t1)) with (depth t1). cbn [depth_branch].
      enough (depth t1 <= length ks + depth t) by (cbn; lia).
      clear. unfold t1. induction ks as [|k ks IH]; [cbn; lia|]. cbn [fold_right]. rewrite depth_unfold.
      change (depth_branch (BT ?z)) with (depth z). cbn [length depth_branch]. cbn in *. lia.
    + intros _. eapply stands_w; [exact S2|]. unfold newer; intros; lia.
Qed.
Lemma nest_value I ks t : Forall stage ks ->
  value I (fold_right (fun k s => Node k BN BN (BT s) None) t ks) = apply_all I ks (value I t).
Proof.
  induction 1 as [|k ks Sk F IH]; [reflexivity|]. cbn [fold_right apply_all]. rewrite value_unfold, IH.
  destruct k; try contradiction; reflexivity.
Qed.

(** ** Binding *)
Lemma last_buffer_unfold k l r n (b : option V) :
  last_buffer (Node k l r n b) = match n with BT t => last_buffer t | _ => b end.
Proof. reflexivity. Qed.
Lemma tree_last :
  (forall t P f h i, stands P h t i -> depth t <= f ->
     exists j nd, last_of f h i = Ok j /\ nth_error h j = Some nd /\ n_buf nd = last_buffer t) /\
  (forall x P f h o, stands_branch P h x o -> depth_branch x <= f ->
     match x, o with
     | BT t, OT i => exists j nd, last_of f h i = Ok j /\ nth_error h j = Some nd /\ n_buf nd = last_buffer t
     | _, _ => True
     end).
Proof.
  apply tree_branch_ind.
  - intros k l _ r _ n IHn b P f h i (Hi & nd & Hnd & Hk & Hb & Sl & Sr & Sn) D.
    rewrite depth_unfold in D. destruct f as [|f]; [lia|]. cbn [last_of]. unfold get. rewrite Hnd. cbn [bind].
    specialize (IHn P f h _ Sn ltac:(lia)). rewrite last_buffer_unfold.
    destruct n as [tn|v|], (n_next nd) as [jn|v'|]; try contradiction; try exact IHn; eauto.
  - intros t IH P f h [j|v|] H D; try contradiction. exact (IH P f h j H D).
  - intros v P f h [j|v'|] H D; exact Logic.I.
  - intros P f h [j|v'|] H D; exact Logic.I.
Qed.
Lemma bound_stage P f h t i : stage (head t) -> stands P h t i -> depth t <= f ->
  bound f h i = Ok (match last_buffer t with Some _ => true | None => false end).
Proof.
  intros Sk St D. destruct (proj1 tree_last t P f h i St D) as (j & nd & El & Hj & Hb).
  destruct t as [k l r n b]. destruct St as (_ & m & Hm & Hk & _).
  destruct f as [|f]; [rewrite depth_unfold in D; lia|]. cbn [bound]. unfold get. rewrite Hm. cbn [bind].
  rewrite Hk. cbn [head] in Sk. destruct k; try contradiction.
  all: rewrite El; cbn [bind]; rewrite Hj; cbn [bind]; now rewrite Hb.
Qed.
Lemma bind_unfold I f h i v t h1 P : stage (head t) -> stands P h t i -> depth t <= f ->
  copy f h i = Ok (h1, length h) ->
  bind_to I f h i v =
    if e_bindable I v then
      match last_buffer t with
      | Some _ => (h1, Err ValueError)
      | None => match (let* k := last_of f h1 (length h) in set_buffer h1 k (Some v)) with
                | Ok h2 => (h2, Ok (length h))
                | Err e => (h1, Err e)
                end
      end
    else (h1, Err ValueError).
Proof.
  intros Sk St D C. pose proof (bound_stage P f h t i Sk St D) as EB. unfold bind_to, get.
  destruct t as [k l r n b]. destruct St as (_ & m & Hm & Hk & _). rewrite Hm, Hk, C, EB.
  cbn [head] in Sk. destruct k; try contradiction; destruct (e_bindable I v), (last_buffer _); reflexivity.
Qed.
Lemma rebind_spec P I f h t i v w : stage (head t) -> copyable t -> bases_older h -> stands P h t i -> depth t <= f ->
  last_buffer t = Some w \/ e_bindable I v = false ->
  exists h', bind_to I f h i v = (h', Err ValueError) /\ keeps h h'.
Proof.
  intros Sk C B St D H. destruct (proj1 copy_spec t C P f h i St D B) as (h1 & E & K & _).
  rewrite (bind_unfold I f h i v t h1 P Sk St D E). exists h1. split; [|exact K].
  destruct (e_bindable I v); [|reflexivity]. destruct H as [->|]; [reflexivity|discriminate].
Qed.
Lemma line_last_buffer : forall ks k (b : option V), last_buffer (line k ks b) = b.
Proof.
  induction ks as [|k' r IH]; intros k b; [reflexivity|]. cbn [line]. rewrite last_buffer_unfold. apply IH.
Qed.
Lemma line_last P h : forall ks k b i f, stands P h (line k ks b) i -> S (length ks) <= f ->
  exists j nd, last_of f h i = Ok j /\ nth_error h j = Some nd /\ n_next nd = ON /\
    forall v, stands P (upd h j (mkNode (n_kind nd) (n_left nd) (n_right nd) (n_next nd) (Some v) (n_base nd)))
                (line k ks (Some v)) i.
Proof.
  induction ks as [|k' r IH]; intros k b i f St L; (destruct f as [|f]; [lia|]); cbn [last_of]; unfold get.
  - destruct St as (Hi & nd & Hnd & Hk & Hb & Sl & Sr & Sn). rewrite Hnd. cbn [bind].
    destruct (n_next nd) eqn:En; try contradiction. exists i, nd. split; [reflexivity|]. split; [exact Hnd|].
    split; [exact En|]. intros v. cbn [line]. split; [exact Hi|]. rewrite nth_error_upd, Nat.eqb_refl, Hnd.
    eexists; split; [reflexivity|]. cbn [n_kind n_buf n_left n_right n_next]. rewrite Hk.
    destruct (n_left nd); try contradiction. destruct (n_right nd); try contradiction.
    split; [reflexivity|]. split; [reflexivity|]. split; [exact Logic.I|]. split; [exact Logic.I|].
    rewrite En. exact Logic.I.
  - cbn [line] in St. destruct St as (Hi & nd & Hnd & Hk & Hb & Sl & Sr & Sn). rewrite Hnd. cbn [bind].
    destruct (n_next nd) as [i'| |] eqn:En; try contradiction.
    destruct (IH k' b i' f Sn ltac:(cbn [length] in L; lia)) as (j & m & El & Hm & Nm & U).
    exists j, m. split; [exact El|]. split; [exact Hm|]. split; [exact Nm|]. intros v. cbn [line].
    split; [exact Hi|]. rewrite nth_error_upd. destruct (Nat.eqb_spec i j) as [->|]; [congruence|].
    exists nd. split; [exact Hnd|]. split; [exact Hk|]. split; [exact Hb|].
    destruct (n_left nd); try contradiction. destruct (n_right nd); try contradiction.
    split; [exact Logic.I|]. split; [exact Logic.I|]. rewrite En. exact (U v).
Qed.
Lemma bind_line P I f h k ks i v : stage k -> Forall stage ks -> bases_older h ->
  stands P h (line k ks None) i -> S (length ks) <= f -> e_bindable I v = true ->
  exists h', bind_to I f h i v = (h', Ok (length h)) /\ keeps h h' /\ bases_older h' /\
    stands (newer h h') h' (line k ks (Some v)) (length h).
Proof.
  intros Sk F B St L Bv.
  assert (C : copyable (line k ks (@None V))) by (apply line_copyable; assumption).
  assert (D : depth (line k ks (@None V)) <= f) by (rewrite line_depth; lia).
  assert (Sk' : stage (head (line k ks (@None V)))) by (destruct ks; exact Sk).
  destruct (proj1 copy_spec _ C P f h i St D B) as (h1 & E & K & B1 & N1 & S1).
  rewrite (bind_unfold I f h i v _ h1 P Sk' St D E), Bv, line_last_buffer.
  destruct (line_last _ _ _ _ _ _ f S1 L) as (j & nd & El & Hj & _ & U). rewrite El. cbn [bind].
  pose proof (copy_last _ _ _ _ _ h1 _ _ E ltac:(reflexivity) El) as Lj.
  unfold set_buffer, get. rewrite Hj. cbn [bind]. eexists; split; [reflexivity|].
  split; [apply keeps_upd; [exact K|exact Lj]|].
  split; [apply bases_upd; [exact B1|]; cbn [n_base]; intros c Hc; exact (B1 _ _ _ Hj Hc)|].
  eapply stands_w; [exact (U v)|]. unfold newer. intros q Hq. rewrite upd_length. exact Hq.
Qed.

(** ** Expressions *)
Lemma build_spec I f d : forall e h, supported e -> bases_older h ->
  (forall i, In i (leaves e) -> exists t, stands anywhere h t i /\ copyable t /\ depth t <= d) ->
  d + size e <= f ->
  exists h' j t, build f h e = Ok (h', j) /\ keeps h h' /\ bases_older h' /\
    stands anywhere h' t j /\ copyable t /\ depth t <= d + size e /\
    value I t = meaning I (evaluate I d h) e /\
    (size e <> 0 -> stands (newer h h') h' t j).
Proof.
  induction e as [i|o a IHa b IHb|o c a IHa]; intros h Su B Lv D; cbn [build leaves size supported meaning] in *.
  - destruct (Lv i ltac:(now left)) as (t & St & C & Dt). exists h, i, t.
    split; [reflexivity|]. split; [apply keeps_refl|]. split; [exact B|]. split; [exact St|]. split; [exact C|].
    split; [lia|]. split; [|congruence]. symmetry. exact (proj1 (eval_spec I) t _ d h i St Dt).
  - destruct Su as [Sa Sb].
    destruct (IHa h Sa B ltac:(intros i Hi; apply Lv, in_or_app; now left) ltac:(lia))
      as (h1 & ja & ta & Ea & K1 & B1 & S1 & C1 & D1 & V1 & _).
    assert (Lv1 : forall i, In i (leaves b) -> exists t, stands anywhere h1 t i /\ copyable t /\ depth t <= d).
    { intros i Hi. destruct (Lv i ltac:(apply in_or_app; now right)) as (t & St & C & Dt). exists t.
      split; [exact (proj1 (stands_keeps _ _ _ K1) _ _ St)|]. auto. }
    destruct (IHb h1 Sb B1 Lv1 ltac:(lia)) as (h2 & jb & tb & Eb & K2 & B2 & S2 & C2 & D2 & V2 & _).
    assert (Vb : meaning I (evaluate I d h1) b = meaning I (evaluate I d h) b).
    { clear -Lv K1. assert (Lb : forall i, In i (leaves b) -> evaluate I d h1 i = evaluate I d h i).
      { intros i Hi. destruct (Lv i ltac:(apply in_or_app; now right)) as (t & St & C & Dt).
        rewrite (proj1 (eval_spec I) t _ d h i St Dt).
        exact (proj1 (eval_spec I) t _ d h1 i (proj1 (stands_keeps _ _ _ K1) _ _ St) Dt). }
      clear Lv. induction b as [i|o' x IHx y IHy|o' c x IHx]; cbn [meaning leaves] in *.
      - apply Lb. now left.
      - rewrite IHx, IHy; [reflexivity| |]; intros i Hi; apply Lb, in_or_app; auto.
      - rewrite IHx; auto. }
    rewrite Ea. cbn [bind fst snd]. rewrite Eb. cbn [bind fst snd]. unfold op_tt.
    destruct (make_op_spec f h2 o (OT ja) (OT jb) (BT ta) (BT tb) anywhere B2
      (proj1 (stands_keeps _ _ _ K2) _ _ S1) C1 ltac:(change (depth_branch (BT ta)) with (depth ta); lia) S2 C2 ltac:(change (depth_branch (BT tb)) with (depth tb); lia))
      as (h3 & E3 & K3 & B3 & N3 & S3).
    exists h3, (length h2), (Node (KOp o) (BT ta) (BT tb) BN None). split; [exact E3|].
    assert (K13 := keeps_trans _ _ _ K1 K2). pose proof (keeps_length _ _ K13).
    split; [exact (keeps_trans _ _ _ K13 K3)|]. split; [exact B3|].
    split; [eapply stands_w; [exact S3|]; unfold anywhere; auto|].
    split; [rewrite copyable_unfold; split; [split; [exact C1|split; [exact Logic.I|exact C2]]|exact Logic.I]|].
    split; [rewrite depth_unfold; change (depth_branch (BT ta)) with (depth ta); change (depth_branch (BT tb)) with (depth tb);
            cbn [depth_branch]; lia|].
    split; [|intros _; eapply stands_w; [exact S3|]; unfold newer; intros; lia].
    rewrite value_unfold, !value_branch_unfold, V1, V2, Vb.
    destruct (meaning I (evaluate I d h) a); cbn [bind]; [|reflexivity].
    destruct (meaning I (evaluate I d h) b); reflexivity.
  - destruct Su as [Ho Sa].
    destruct (IHa h Sa B Lv ltac:(lia)) as (h1 & ja & ta & Ea & K1 & B1 & S1 & C1 & D1 & V1 & _).
    rewrite Ea. cbn [bind fst snd].
    destruct (make_op_spec f h1 o (OC c) (OT ja) (BC c) (BT ta) anywhere B1 eq_refl Logic.I ltac:(cbn; lia)
      S1 C1 ltac:(change (depth_branch (BT ta)) with (depth ta); lia)) as (h3 & E3 & K3 & B3 & N3 & S3).
    pose proof (keeps_length _ _ K1).
    exists h3, (length h1), (Node (KOp o) (BC c) (BT ta) BN None).
    split; [destruct Ho as [-> | ->]; exact E3|].
    split; [exact (keeps_trans _ _ _ K1 K3)|]. split; [exact B3|].
    split; [eapply stands_w; [exact S3|]; unfold anywhere; auto|].
    split; [rewrite copyable_unfold; split; [split; [exact Logic.I|split; [exact Logic.I|exact C1]]|exact Logic.I]|].
    split; [rewrite depth_unfold; change (depth_branch (BT ta)) with (depth ta); change (depth_branch (BC c)) with 0;
            cbn [depth_branch]; lia|].
    split; [|intros _; eapply stands_w; [exact S3|]; unfold newer; intros; lia].
    rewrite value_unfold, !value_branch_unfold, V1. destruct (meaning I _ a); reflexivity.
Qed.

(** ** The properties *)
Lemma copy_property P f h t i : stands P h t i -> copyable t -> bases_older h -> depth t <= f ->
  exists h' j, copy f h i = Ok (h', j) /\ keeps h h' /\ bases_older h' /\
    stands (fun k => length h <= k < length h') h' t j /\
    (forall I g, depth t <= g -> evaluate I g h' j = evaluate I g h i) /\
    (forall h'', (forall k, length h <= k -> nth_error h'' k = nth_error h' k) ->
       forall I g, depth t <= g -> evaluate I g h'' j = evaluate I g h i) /\
    (forall h'', (forall k, k < length h -> nth_error h'' k = nth_error h' k) ->
       forall I g, depth t <= g -> evaluate I g h'' i = evaluate I g h i).
Proof.
  intros St C B D. destruct (proj1 copy_spec t C P f h i St D B) as (h' & E & K & B' & N & S').
  exists h', (length h). split; [exact E|]. split; [exact K|]. split; [exact B'|]. split; [exact S'|].
  assert (Ev : forall I g, depth t <= g -> evaluate I g h i = value I t)
    by (intros I g Hg; exact (proj1 (eval_spec I) t P g h i St Hg)).
  split; [|split].
  - intros I g Hg. rewrite Ev by exact Hg. exact (proj1 (eval_spec I) t _ g h' _ S' Hg).
  - intros h'' A I g Hg. rewrite Ev by exact Hg. refine (proj1 (eval_spec I) t (newer h h') g h'' _ _ Hg).
    refine (proj1 (stands_agree (newer h h') h' h'' _) t _ S'). intros q Hq _. apply A, Hq.
  - intros h'' A I g Hg. rewrite Ev by exact Hg. refine (proj1 (eval_spec I) t P g h'' _ _ Hg).
    refine (proj1 (stands_keeps P h h'' _) t i St). intros q Hq. rewrite A by exact Hq. now apply K.
Qed.

(** An operator whose right operand is a constant: its copy never evaluates. *)
Lemma copy_constant_right f h i nd o h' j : nth_error h i = Some nd -> n_kind nd = KOp o ->
  is_transform (n_right nd) = false -> copy f h i = Ok (h', j) ->
  (exists nd', nth_error h' j = Some nd' /\ n_left nd' = n_left nd /\ n_right nd' = ON) /\
  forall I g v, evaluate I g h' j <> Ok v.
Proof.
  intros Hnd Hk Hr C. destruct (copy_keeps _ _ _ _ _ C) as [K ->].
  assert (X : exists nd', nth_error h' (length h) = Some nd' /\ n_kind nd' = KOp o /\
                n_left nd' = n_left nd /\ n_right nd' = ON).
  { destruct f as [|f]; [discriminate|]. rewrite copy_unfold in C. unfold get in C. rewrite Hnd in C. cbn [bind] in C.
    destruct (base _ h i) as [b|]; cbn [bind] in C; [|discriminate]. cbv zeta in C.
    destruct (copy_op f _ (n_next nd)) as [[h2 n']|] eqn:E1; cbn [bind fst snd] in C; [|discriminate].
    rewrite Hk in C.
    destruct (copy_op f h2 (n_left nd)) as [[h3 l']|] eqn:E2; cbn [bind fst snd] in C; [|discriminate].
    rewrite Hr in C. injection C as <-. apply copy_op_keeps in E1, E2.
    pose proof (keeps_length _ _ E1) as L1. pose proof (keeps_length _ _ E2) as L2. rewrite app_length in L1. cbn in L1.
    rewrite nth_error_upd, Nat.eqb_refl. destruct (nth_error h3 (length h)) eqn:E; [|apply nth_error_None in E; lia].
    eexists; split; [reflexivity|]. cbn [n_kind n_left n_right]. auto. }
  destruct X as (nd' & Hn & Hk' & Hl & Hr'). split; [eauto|]. intros I [|g] v; cbn [evaluate]; [discriminate|].
  unfold get. rewrite Hn. cbn [bind]. rewrite Hk', Hr'.
  destruct (n_left nd') as [q|c|]; [destruct (evaluate I g h' q)| |]; cbn [bind]; discriminate.
Qed.

Lemma op_keeps f h o i (x : nat) h' j :
  (op_tt f h o i x = Ok (h', j) -> keeps h h' /\ length h <= j).
Proof. intros H. apply make_op_keeps in H. destruct H as [K ->]. split; [exact K|lia]. Qed.
Lemma op_tc_keeps f h o i v h' j : op_tc f h o i v = Ok (h', j) -> keeps h h' /\ length h <= j.
Proof. intros H. apply make_op_keeps in H. destruct H as [K ->]. split; [exact K|lia]. Qed.
Lemma op_ct_keeps f h o v i h' j : op_ct f h o v i = Ok (h', j) -> keeps h h' /\ length h <= j.
Proof.
  destruct o; cbn [op_ct]; intros H; try discriminate; apply make_op_keeps in H; destruct H as [K ->]; (split; [exact K|lia]).
Qed.
Lemma measure_mul_keeps I num f h i v h' r : measure_mul I num f h i v = (h', r) ->
  keeps h h' /\ (forall j, r = Ok j -> length h <= j).
Proof.
  unfold measure_mul. destruct (num v); [apply bind_keeps|].
  destruct (op_tc f h Times i v) as [[h1 j1]|e] eqn:E; intros H; inversion H; subst.
  - apply op_tc_keeps in E. destruct E as [K L]. split; [exact K|]. intros j Hj. inversion Hj; subst. exact L.
  - split; [apply keeps_refl|discriminate].
Qed.

Lemma op_value P f h o l r xl xr : bases_older h ->
  stands_branch P h xl l -> copyable_branch xl -> depth_branch xl <= f ->
  stands_branch P h xr r -> copyable_branch xr -> depth_branch xr <= f ->
  exists h' j, make_op f h o l r = Ok (h', j) /\ keeps h h' /\ bases_older h' /\
    stands (fun k => length h <= k < length h') h' (Node (KOp o) xl xr BN None) j /\
    forall I g, f < g -> evaluate I g h' j =
      (let* a := value_branch I xl in let* b := value_branch I xr in
       match a, b with Some x, Some y => e_arith I o x y | _, _ => Err TypeError end).
Proof.
  intros B Sl Cl Dl Sr Cr Dr.
  destruct (make_op_spec f h o l r xl xr P B Sl Cl Dl Sr Cr Dr) as (h' & E & K & B' & N & S').
  exists h', (length h). split; [exact E|]. split; [exact K|]. split; [exact B'|]. split; [exact S'|].
  intros I g Hg. rewrite (proj1 (eval_spec I) _ _ g h' _ S'); [reflexivity|]. rewrite depth_unfold. cbn [depth_branch]. lia.
Qed.
Lemma eval_lift I g h t i P : stands P h t i -> depth t <= g ->
  (let* v := evaluate I g h i in Ok (Some v)) = value_branch I (BT t).
Proof. intros S D. rewrite value_branch_unfold, (proj1 (eval_spec I) t P g h i S D). reflexivity. Qed.

Lemma op_tt_value P f h o i1 i2 t1 t2 : bases_older h ->
  stands P h t1 i1 -> copyable t1 -> depth t1 <= f -> stands P h t2 i2 -> copyable t2 -> depth t2 <= f ->
  exists h' j, op_tt f h o i1 i2 = Ok (h', j) /\ keeps h h' /\
    forall I, evaluate I (S f) h' j =
      let* a := evaluate I f h i1 in let* b := evaluate I f h i2 in e_arith I o a b.
Proof.
  intros B S1 C1 D1 S2 C2 D2.
  destruct (op_value P f h o (OT i1) (OT i2) (BT t1) (BT t2) B S1 C1 D1 S2 C2 D2) as (h' & j & E & K & _ & _ & Ev).
  exists h', j. split; [exact E|]. split; [exact K|]. intros I. rewrite Ev by lia.
  rewrite <- (eval_lift I f h t1 i1 P S1 D1), <- (eval_lift I f h t2 i2 P S2 D2).
  destruct (evaluate I f h i1); cbn [bind]; [|reflexivity]. destruct (evaluate I f h i2); reflexivity.
Qed.
Lemma op_tc_value P f h o i t c : bases_older h -> stands P h t i -> copyable t -> depth t <= f ->
  exists h' j, op_tc f h o i c = Ok (h', j) /\ keeps h h' /\
    forall I, evaluate I (S f) h' j = let* a := evaluate I f h i in e_arith I o a c.
Proof.
  intros B S1 C1 D1.
  destruct (op_value P f h o (OT i) (OC c) (BT t) (BC c) B S1 C1 D1 eq_refl Logic.I ltac:(cbn; lia)) as (h' & j & E & K & _ & _ & Ev).
  exists h', j. split; [exact E|]. split; [exact K|]. intros I. rewrite Ev by lia.
  rewrite <- (eval_lift I f h t i P S1 D1). destruct (evaluate I f h i); reflexivity.
Qed.
Lemma op_ct_value P f h o i t c : o <> Divide -> bases_older h -> stands P h t i -> copyable t -> depth t <= f ->
  exists h' j, op_ct f h o c i = Ok (h', j) /\ keeps h h' /\
    forall I, (forall (x y : V), e_arith I Plus x y = e_arith I Plus y x) ->
      evaluate I (S f) h' j = let* a := evaluate I f h i in e_arith I o c a.
Proof.
  intros No B S1 C1 D1. destruct o; [| | |congruence].
  - destruct (op_tc_value P f h Plus i t c B S1 C1 D1) as (h' & j & E & K & Ev).
    exists h', j. split; [exact E|]. split; [exact K|]. intros I Comm. rewrite Ev.
    destruct (evaluate I f h i); cbn [bind]; [apply Comm|reflexivity].
  - destruct (op_value P f h Minus (OC c) (OT i) (BC c) (BT t) B eq_refl Logic.I ltac:(cbn; lia) S1 C1 D1) as (h' & j & E & K & _ & _ & Ev).
    exists h', j. split; [exact E|]. split; [exact K|]. intros I _. rewrite Ev by lia.
    rewrite <- (eval_lift I f h t i P S1 D1). destruct (evaluate I f h i); reflexivity.
  - destruct (op_value P f h Times (OC c) (OT i) (BC c) (BT t) B eq_refl Logic.I ltac:(cbn; lia) S1 C1 D1) as (h' & j & E & K & _ & _ & Ev).
    exists h', j. split; [exact E|]. split; [exact K|]. intros I _. rewrite Ev by lia.
    rewrite <- (eval_lift I f h t i P S1 D1). destruct (evaluate I f h i); reflexivity.
Qed.
Lemma build_value I f d e h : supported e -> bases_older h ->
  (forall i, In i (leaves e) -> exists t, stands anywhere h t i /\ copyable t /\ depth t <= d) ->
  d + size e <= f ->
  exists h' j, build f h e = Ok (h', j) /\ keeps h h' /\ evaluate I f h' j = meaning I (evaluate I d h) e.
Proof.
  intros Su B Lv D. destruct (build_spec I f d e h Su B Lv D) as (h' & j & t & E & K & _ & St & _ & Dt & Vt & _).
  exists h', j. split; [exact E|]. split; [exact K|]. rewrite <- Vt.
  exact (proj1 (eval_spec I) t _ f h' j St ltac:(lia)).
Qed.

Lemma call_value P f h i j k n b t2 : stage k -> bases_older h ->
  stands P h (Node k BN BN n b) i -> copyable_branch n -> depth (Node k BN BN n b) <= f ->
  stands P h t2 j -> copyable t2 -> depth t2 <= f ->
  exists h' r, call f h i j = Ok (h', r) /\ keeps h h' /\
    stands (fun q => length h <= q < length h') h' (Node k BN BN (BT t2) None) r /\
    forall I, evaluate I (S f) h' r =
      let* _ := e_ready I k in let* v := evaluate I f h j in e_app I k v.
Proof.
  intros Sk B S1 C1 D1 S2 C2 D2.
  destruct (call_spec P f h i j k n b t2 Sk B S1 C1 D1 S2 C2 D2) as (h' & E & K & _ & N & S').
  exists h', (length h). split; [exact E|]. split; [exact K|]. split; [exact S'|]. intros I.
  rewrite (proj1 (eval_spec I) _ _ (S f) h' _ S') by (rewrite depth_unfold; change (depth_branch (BT t2)) with (depth t2); cbn [depth_branch]; lia).
  rewrite value_unfold, (proj1 (eval_spec I) t2 P f h j S2 D2). destruct k; try contradiction; reflexivity.
Qed.
Lemma nest_value_spec I f d h l ks (x : nat) t : Forall stage ks -> bases_older h ->
  stands anywhere h t x -> copyable t -> depth t <= d -> length ks + d <= f ->
  Forall2 (fun i k => stands anywhere h (Node k BN BN BN None) i) l ks ->
  exists h' j, nest f h l x = Ok (h', j) /\ keeps h h' /\
    evaluate I f h' j = apply_all I ks (evaluate I d h x).
Proof.
  intros F B St C D Df FL.
  assert (FL' : Forall2 (fun i k => exists n b, stands anywhere h (Node k BN BN n b) i /\ copyable_branch n /\ depth (Node k BN BN n b) <= f) l ks).
  { assert (1 <= d) by (destruct t; rewrite depth_unfold in D; lia).
    clear -FL Df H. induction FL as [|i k l ks Hi FL IH]; constructor.
    - exists BN, None. split; [exact Hi|]. split; [exact Logic.I|]. cbn [length] in Df. cbn. lia.
    - apply IH. cbn [length] in Df. lia. }
  destruct (nest_spec anywhere f ks l h x t F B St C ltac:(lia) FL') as (h' & j & E & K & _ & S' & _ & Dt & _).
  exists h', j. split; [exact E|]. split; [exact K|].
  rewrite (proj1 (eval_spec I) _ _ f h' j S' Dt), nest_value by exact F.
  now rewrite (proj1 (eval_spec I) t _ d h x St D).
Qed.
Lemma bind_value P I f h k ks i v : stage k -> Forall stage ks -> bases_older h ->
  stands P h (line k ks None) i -> S (length ks) <= f -> e_bindable I v = true ->
  exists h' j, bind_to I f h i v = (h', Ok j) /\ keeps h h' /\
    stands (fun q => length h <= q < length h') h' (line k ks (Some v)) j /\
    forall J, evaluate J f h' j = apply_all J (k :: ks) (Ok v).
Proof.
  intros Sk F B St L Bv. destruct (bind_line P I f h k ks i v Sk F B St L Bv) as (h' & E & K & _ & S').
  exists h', (length h). split; [exact E|]. split; [exact K|]. split; [exact S'|]. intros J.
  rewrite (proj1 (eval_spec J) _ _ f h' _ S') by (rewrite line_depth; lia).
  now apply line_value.
Qed.
End Facts.

(** ** Concrete cases *)
Definition code (k : kind) : Z :=
  match k with KAcc _ => 1 | KMeas _ => 2 | KMap z => z | KOut _ => 0 | KOp _ => 0 end.
(** Each stage appends a digit to the value. *)
Definition zI : interp Z :=
  mkI (fun _ => Ok tt) (fun k v => Ok (10 * v + code k)%Z) 1%Z
      (fun n => if String.eqb n "screen" then Ok 7%Z else Err ValueError)
      (fun o a b => match o with Plus => Ok (a + b) | Minus => Ok (a - b) | Times => Ok (a * b) | Divide => Ok (a / b) end)%Z
      (fun _ => true).
(** An accessor bound to 5, and two unbound maps. *)
Definition zh : heap Z :=
  [mkNode (KAcc "x") ON ON ON (Some 5%Z) None; mkNode (KMap 3) ON ON ON None None; mkNode (KMap 4) ON ON ON None None;
   mkNode (KMap 6) ON ON ON None None].
Definition zX : tree Z := Node (KAcc "x") BN BN BN (Some 5%Z).
Definition zM (n : Z) : tree Z := Node (KMap n) BN BN BN None.
Lemma zh_bases : bases_older zh.
Proof. intros i nd b. do 4 (destruct i as [|i]; [cbn; intros E; inversion E; subst; cbn; discriminate|]). now destruct i. Qed.
Lemma zh_x : stands anywhere zh zX 0.
Proof. split; [exact I|]. eexists; split; [reflexivity|]. repeat (split; [reflexivity || exact I|]). exact I. Qed.
Lemma zh_m1 : stands anywhere zh (zM 3) 1.
Proof. split; [exact I|]. eexists; split; [reflexivity|]. repeat (split; [reflexivity || exact I|]). exact I. Qed.
Lemma zh_m2 : stands anywhere zh (zM 4) 2.
Proof. split; [exact I|]. eexists; split; [reflexivity|]. repeat (split; [reflexivity || exact I|]). exact I. Qed.
Lemma zh_m3 : stands anywhere zh (zM 6) 3.
Proof. split; [exact I|]. eexists; split; [reflexivity|]. repeat (split; [reflexivity || exact I|]). exact I. Qed.

(** (x * 2).copy() *)
Lemma copy_constant_witness :
  exists h i h' j h'', op_tc 5 zh Times 0 2%Z = Ok (h, i) /\ evaluate zI 5 h i = Ok 102%Z /\
    copy 5 h i = Ok (h', j) /\ evaluate zI 5 h' j = Err TypeError /\
    (* the copy shares the left operand of the original *)
    exists nd nd' k, nth_error h' i = Some nd /\ nth_error h' j = Some nd' /\ n_left nd = OT k /\ n_left nd' = OT k /\
    set_buffer h' k (Some 9%Z) = Ok h''.
Proof.
  eexists _, _, _, _, _. split; [vm_compute; reflexivity|]. split; [vm_compute; reflexivity|].
  split; [vm_compute; reflexivity|]. split; [vm_compute; reflexivity|].
  eexists _, _, _. repeat (split; [vm_compute; reflexivity|]). vm_compute. reflexivity.
Qed.
(** (x * 2) + x *)
Lemma op_constant_witness :
  exists h i h' j, op_tc 5 zh Times 0 2%Z = Ok (h, i) /\ evaluate zI 5 h i = Ok 102%Z /\ evaluate zI 5 h 0 = Ok 51%Z /\
    op_tt 5 h Plus i 0 = Ok (h', j) /\ evaluate zI 5 h' j = Err TypeError.
Proof. eexists _, _, _, _. repeat (split; [vm_compute; reflexivity|]). vm_compute. reflexivity. Qed.
(** 2 / x *)
Lemma op_divide_witness : op_ct 5 zh Divide 2%Z 0 = Err TypeError.
Proof. reflexivity. Qed.
(** m1(m2)(m3)(8): m2 is dropped. *)
Lemma regroup_witness :
  exists h1 a h2 b h3 c h4 d h5 e h6 f,
    call 9 zh 1 2 = Ok (h1, a) /\ call 9 h1 a 3 = Ok (h2, b) /\ bind_to zI 9 h2 b 8%Z = (h3, Ok c) /\
    evaluate zI 9 h3 c = Ok 863%Z /\
    call 9 zh 2 3 = Ok (h4, d) /\ call 9 h4 1 d = Ok (h5, e) /\ bind_to zI 9 h5 e 8%Z = (h6, Ok f) /\
    evaluate zI 9 h6 f = Ok 8643%Z.
Proof. do 12 eexists. repeat (split; [vm_compute; reflexivity|]). vm_compute. reflexivity. Qed.
(** (x + x)(m1(8)): the next transform is ignored. *)
Lemma operator_chain_witness :
  exists h1 a h2 b h3 c, op_tt 9 zh Plus 0 0 = Ok (h1, a) /\ bind_to zI 9 h1 1 8%Z = (h2, Ok b) /\
    call 9 h2 a b = Ok (h3, c) /\ evaluate zI 9 h3 c = evaluate zI 9 h1 a /\ evaluate zI 9 h1 a = Ok 102%Z.
Proof. do 6 eexists. repeat (split; [vm_compute; reflexivity|]). vm_compute. reflexivity. Qed.
(** (m1 + m2)(8) stays unbound; (2 * m1)(8) raises AttributeError. *)
Lemma operator_bind_witness :
  (exists h1 a h2 b h3 c, op_tt 9 zh Plus 1 2 = Ok (h1, a) /\ bind_to zI 9 h1 a 8%Z = (h2, Ok b) /\
    evaluate zI 9 h2 b = Err AttributeError /\ bind_to zI 9 h2 b 9%Z = (h3, Ok c)) /\
  (exists h1 a h2, op_ct 9 zh Times 2%Z 1 = Ok (h1, a) /\ bind_to zI 9 h1 a 8%Z = (h2, Err AttributeError)).
Proof.
  split; [do 6 eexists|do 3 eexists]; repeat (split; [vm_compute; reflexivity|]); vm_compute; reflexivity.
Qed.
(** A bound transform can be called on a transform: its buffer is dropped. *)
Lemma call_drops_buffer_witness :
  exists h1 a h2 b, bind_to zI 9 zh 1 8%Z = (h1, Ok a) /\ evaluate zI 9 h1 a = Ok 83%Z /\
    call 9 h1 a 0 = Ok (h2, b) /\ evaluate zI 9 h2 b = Ok 513%Z.
Proof. do 4 eexists. repeat (split; [vm_compute; reflexivity|]). vm_compute. reflexivity. Qed.

(** Out takes no argument. *)
Lemma out_refused {V} (I : interp V) fuel (h : heap V) i v n x : get h i = Ok n -> n_kind n = KOut x -> bind_to I fuel h i v = (h, Err TypeError).
Proof. intros G K. unfold bind_to. rewrite G, K. reflexivity. Qed.
