(** Proofs about recorded methods that call recorded methods. *)
From Verif Require Import Base Nested NestedSpec.

Section Facts.
Context {St Cl : Type}.
Variables (meth : Cl -> body St Cl) (proper : Cl -> bool).
Notation runs := (runs meth proper). Notation exec := (exec meth proper). Notation replay := (replay meth proper).
Notation returns := (returns meth proper). Notation all_return := (all_return meth proper).

Lemma ended_cons c q ok ts1 ts2 : flat_map ended (Made c q ok ts1 :: ts2) =
  (if ok && negb q then flat_map ended ts1 ++ [c] else flat_map ended ts1) ++ flat_map (@ended Cl) ts2.
Proof. cbn [flat_map ended]. destruct (ok && negb q); [reflexivity|]. now rewrite app_nil_r. Qed.
Lemma exec_runs n : forall s b s' l ok, exec n s b = Some (s', l, ok) -> exists ts, runs s b s' ok ts /\ l = flat_map ended ts.
Proof.
  induction n as [|n IH]; intros s b s' l ok E; [discriminate|]. cbn [Nested.exec] in E. destruct b as [| |f k|k|q c k].
  - injection E as <- <- <-. exists []. split; [constructor|reflexivity].
  - injection E as <- <- <-. exists []. split; [constructor|reflexivity].
  - destruct (IH _ _ _ _ _ E) as (ts & R & ->). exists ts. split; [now constructor|reflexivity].
  - destruct (IH _ _ _ _ _ E) as (ts & R & ->). exists ts. split; [now constructor|reflexivity].
  - destruct (exec n s (meth c)) as [[[s1 l1] ok1]|] eqn:E1; [|discriminate].
    destruct (exec n s1 (k (ok1 && proper c))) as [[[s2 l2] ok2]|] eqn:E2; [|discriminate]. injection E as <- <- <-.
    destruct (IH _ _ _ _ _ E1) as (t1 & R1 & ->), (IH _ _ _ _ _ E2) as (t2 & R2 & ->).
    exists (Made c q (ok1 && proper c) t1 :: t2). split; [econstructor; eassumption|]. symmetry. apply ended_cons.
Qed.
Lemma runs_exec s b s' ok ts : runs s b s' ok ts -> exists n, forall m, n <= m -> exec m s b = Some (s', flat_map ended ts, ok).
Proof.
  induction 1 as [s|s|s f k s' ok ts R [n IH]|s k s' ok ts R [n IH]|s q c k s1 ok1 t1 s2 ok2 t2 R1 [n1 IH1] R2 [n2 IH2]].
  - exists 1. intros [|m] L; [lia|reflexivity].
  - exists 1. intros [|m] L; [lia|reflexivity].
  - exists (S n). intros [|m] L; [lia|]. cbn [Nested.exec]. apply IH. lia.
  - exists (S n). intros [|m] L; [lia|]. cbn [Nested.exec]. apply IH. lia.
  - exists (S (n1 + n2)). intros [|m] L; [lia|]. cbn [Nested.exec]. rewrite IH1 by lia. rewrite IH2 by lia. now rewrite ended_cons.
Qed.
Lemma runs_same s b s1 ok1 t1 s2 ok2 t2 : runs s b s1 ok1 t1 -> runs s b s2 ok2 t2 -> s1 = s2 /\ ok1 = ok2 /\ t1 = t2.
Proof.
  intros R. revert s2 ok2 t2. induction R as [s|s|s f k s' ok ts R IH|s k s' ok ts R IH|s q c k s1 ok1 t1 s2 ok2 t2 R1 IH1 R2 IH2]; intros s3 ok3 t3 Q;
    inversion Q; subst; auto.
  match goal with H : runs s (meth c) _ _ _ |- _ => destruct (IH1 _ _ _ H) as (-> & -> & ->) end.
  match goal with H : runs _ (k _) _ _ _ |- _ => destruct (IH2 _ _ _ H) as (-> & -> & ->) end. auto.
Qed.
Lemma script_ok cs s s' ok ts : runs s (script cs) s' ok ts -> ok = true.
Proof.
  revert s ts. induction cs as [|c r IH]; intros s ts R; cbn in R; inversion R; subst; [reflexivity|]. eapply IH. eassumption.
Qed.
Lemma recorded s cs s' l : (exists n, record meth proper n s cs = Some (s', l)) <->
  exists ts, runs s (script cs) s' true ts /\ l = flat_map ended ts.
Proof.
  unfold record. split.
  - intros (n & E). destruct (exec n s (script cs)) as [[[s1 l1] ok]|] eqn:X; [|discriminate]. injection E as <- <-.
    destruct (exec_runs _ _ _ _ _ _ X) as (ts & R & ->). exists ts. split; [|reflexivity]. now rewrite <- (script_ok _ _ _ _ _ R).
  - intros (ts & R & ->). destruct (runs_exec _ _ _ _ _ R) as (n & N). exists n. now rewrite N by lia.
Qed.

(** ** Replay *)
Notation alone c := (Call true c (fun ok : bool => if ok then Return else Raise)).
Lemma alone_runs c s s' ok ts : runs s (alone c) s' ok ts -> exists ok1 ts1, runs s (meth c) s' ok1 ts1 /\ ok = ok1 && proper c.
Proof.
  intros R. inversion R as [| | | |? ? ? ? s1 ok1 t1 ? ? t2 R1 R2]; subst. destruct (ok1 && proper c) eqn:E; inversion R2; subst; eauto.
Qed.
Lemma alone_returns c s s' : returns c s s' -> exists ts, runs s (alone c) s' true ts.
Proof. intros (P & ts & R). eexists. econstructor; [exact R|]. rewrite P. cbn. constructor. Qed.
Lemma replay_returns n l : forall s s', replay n s l = Some (s', true) -> all_return l s s'.
Proof.
  induction l as [|c r IH]; intros s s' E; cbn [Nested.replay] in E; [now injection E|].
  destruct (exec n s (alone c)) as [[[s1 l1] [|]]|] eqn:X; try discriminate.
  destruct (exec_runs _ _ _ _ _ _ X) as (ts & R & _). destruct (alone_runs _ _ _ _ _ R) as (ok1 & t1 & R1 & K).
  symmetry in K. apply andb_prop in K. destruct K as [-> P]. exists s1. split; [split; eauto|now apply IH].
Qed.
Lemma returns_replay l : forall s s', all_return l s s' -> exists n, forall m, n <= m -> replay m s l = Some (s', true).
Proof.
  induction l as [|c r IH]; intros s s' A; cbn in A.
  - subst s'. now exists 0.
  - destruct A as (s1 & R & A). destruct (alone_returns _ _ _ R) as (ts & R1). destruct (runs_exec _ _ _ _ _ R1) as (n1 & N1), (IH _ _ A) as (n2 & N2).
    exists (n1 + n2). intros m L. cbn [Nested.replay]. rewrite N1 by lia. apply N2. lia.
Qed.
Lemma replayed s l s' : (exists n, replay n s l = Some (s', true)) <-> all_return l s s'.
Proof.
  split; [intros (n & E); eapply replay_returns; eassumption|]. intros A. destruct (returns_replay _ _ _ A) as (n & N). exists n. now apply N.
Qed.
Lemma stopped s l s' : (exists n, replay n s l = Some (s', false)) <->
  exists l1 c l2 s1, l = l1 ++ c :: l2 /\ all_return l1 s s1 /\ raises meth proper c s1 s'.
Proof.
  split.
  - intros (n & E). revert s E. induction l as [|c r IH]; intros s E; cbn [Nested.replay] in E; [discriminate|].
    destruct (exec n s (alone c)) as [[[s1 l1] [|]]|] eqn:X; try discriminate;
      destruct (exec_runs _ _ _ _ _ _ X) as (ts & R & _); destruct (alone_runs _ _ _ _ _ R) as (ok1 & t1 & R1 & K); symmetry in K.
    + destruct (IH _ E) as (a & c' & b & s2 & -> & A & B). exists (c :: a), c', b, s2. split; [reflexivity|]. split; [|exact B].
      apply andb_prop in K. destruct K as [-> P]. exists s1. split; [split; eauto|exact A].
    + injection E as <-. exists [], c, r, s. split; [reflexivity|]. split; [reflexivity|]. apply andb_false_iff in K. exists ok1, t1. auto.
  - intros (a & c & b & s1 & -> & A & (ok & ts & R & K)). destruct (returns_replay _ _ _ A) as (n1 & N1).
    assert (Q : exists us, runs s1 (alone c) s' false us).
    { eexists. econstructor; [exact R|]. destruct K as [->| ->]; rewrite ?andb_false_r; cbn; constructor. }
    destruct Q as (us & Q). destruct (runs_exec _ _ _ _ _ Q) as (n2 & N2). exists (n1 + n2).
    specialize (N1 (n1 + n2) ltac:(lia)). specialize (N2 (n1 + n2) ltac:(lia)). clear A. revert s N1. induction a as [|x a IH]; intros s N1; cbn [app Nested.replay] in *.
    + injection N1 as ->. now rewrite N2.
    + destruct (exec (n1 + n2) s (alone x)) as [[[s3 l3] [|]]|]; try discriminate. now apply IH.
Qed.
Lemma all_return_app a b : forall s s', all_return (a ++ b) s s' <-> exists s1, all_return a s s1 /\ all_return b s1 s'.
Proof.
  induction a as [|c r IH]; intros s s'; cbn; [split; [eauto|intros (s1 & -> & H); exact H]|]. split.
  - intros (s1 & R & H). apply IH in H. destruct H as (s2 & A & B). exists s2. split; [exists s1; auto|exact B].
  - intros (s2 & (s1 & R & A) & B). exists s1. split; [exact R|]. apply IH. eauto.
Qed.
Lemma returns_same c s s1 s2 : returns c s s1 -> returns c s s2 -> s1 = s2.
Proof. intros (_ & t1 & A) (_ & t2 & B). now destruct (runs_same _ _ _ _ _ _ _ _ A B). Qed.

(** ** Everything below asks not to be recorded *)
Lemma hushed_runs s b s' ok ts : (forall c, hushed (meth c)) -> hushed b -> runs s b s' ok ts -> flat_map ended ts = [].
Proof.
  intros HM HB R. induction R as [s|s|s f k s' ok ts R IH|s k s' ok ts R IH|s q c k s1 ok1 t1 s2 ok2 t2 R1 IH1 R2 IH2]; auto.
  destruct HB as [-> HB]. rewrite ended_cons, andb_false_r, IH1, IH2; auto.
Qed.
Lemma hushed_script cs : (forall c, hushed (meth c)) -> forall s s' ts, runs s (script cs) s' true ts ->
  length (flat_map ended ts) <= length cs /\
  (length (flat_map ended ts) = length cs -> flat_map ended ts = cs /\ all_return cs s s').
Proof.
  intros HM. induction cs as [|c r IH]; intros s s' ts R; cbn [script] in R; inversion R as [| | | |? ? ? ? s1 ok1 t1 ? ? t2 R1 R2]; subst.
  - split; [reflexivity|]. intros _. split; reflexivity.
  - destruct (IH _ _ _ R2) as [L E]. rewrite ended_cons, (hushed_runs _ _ _ _ _ HM (HM c) R1), andb_true_r.
    destruct (ok1 && proper c) eqn:K; cbn [app length]; split; try lia. intros Q. destruct (E ltac:(lia)) as [-> A]. split; [reflexivity|].
    apply andb_prop in K. destruct K as [-> P]. exists s1. split; [split; [exact P|eauto]|exact A].
Qed.
Lemma hushed_replay n s cs s' l : (forall c, hushed (meth c)) -> record meth proper n s cs = Some (s', l) -> length l = length cs ->
  l = cs /\ exists m, replay m s l = Some (s', true).
Proof.
  intros HM E L. destruct (proj1 (recorded s cs s' l) (ex_intro _ n E)) as (ts & R & ->). destruct (hushed_script cs HM _ _ _ R) as [_ Q].
  destruct (Q L) as [-> A]. split; [reflexivity|]. now apply replayed.
Qed.

(** ** What is recorded below makes no difference *)
Lemma absorbed_before c l : (forall c', In c' l -> absorbs meth proper c c') -> forall s s2, returns c s s2 ->
  exists s1, all_return l s s1 /\ returns c s1 s2.
Proof.
  induction l as [|c' l IH]; intros A s s2 R; [exists s; split; [reflexivity|exact R]|].
  destruct (A c' (or_introl eq_refl) s s2 R) as (s1 & R1 & R2). destruct (IH (fun x H => A x (or_intror H)) _ _ R2) as (s3 & B & R3).
  exists s3. split; [exists s1; auto|exact R3].
Qed.
Lemma absorbed_script cs : (forall c c', In c cs -> recorded_within meth proper c c' -> absorbs meth proper c c') ->
  forall s s', all_return cs s s' -> exists ts, runs s (script cs) s' true ts /\ all_return (flat_map ended ts) s s'.
Proof.
  induction cs as [|c r IH]; intros A s s' R; cbn in R.
  - subst s'. exists []. split; [constructor|reflexivity].
  - destruct R as (s1 & [P [t1 R1]] & R). destruct (IH (fun x y H => A x y (or_intror H)) _ _ R) as (t2 & R2 & B).
    exists (Made c false (true && proper c) t1 :: t2). split; [econstructor; [exact R1|exact R2]|].
    rewrite ended_cons, P. cbn [andb negb].
    destruct (absorbed_before c (flat_map ended t1)) with (s := s) (s2 := s1) as (s3 & C & D).
    + intros c' I. apply A; [now left|]. exists s, s1, true, t1. auto.
    + split; eauto.
    + apply all_return_app. exists s1. split; [|exact B]. apply all_return_app. exists s3. split; [exact C|]. exists s1. split; [exact D|reflexivity].
Qed.
Lemma absorbed_replay cs s s' : (forall c c', In c cs -> recorded_within meth proper c c' -> absorbs meth proper c c') ->
  all_return cs s s' -> exists n l, record meth proper n s cs = Some (s', l) /\ replay n s l = Some (s', true).
Proof.
  intros A R. destruct (absorbed_script cs A s s' R) as (ts & X & Y). destruct (runs_exec _ _ _ _ _ X) as (n & N), (returns_replay _ _ _ Y) as (m & M).
  exists (n + m), (flat_map ended ts). unfold record. rewrite N by lia. split; [reflexivity|]. apply M. lia.
Qed.

(** ** How often *)
Variable is_c : Cl -> bool.
Notation total f ts := (list_sum (map f ts)).
Lemma weight_deeper t : forall d, weight is_c d t = d * made is_c t + weight is_c 0 t.
Proof.
  revert t. fix IH 1. intros [c q ok ts] d. cbn [weight made].
  assert (G : forall ts d, total (weight is_c d) ts = d * total (made is_c) ts + total (weight is_c 0) ts).
  { clear - IH. fix G 1. intros [|t ts] d; [cbn; lia|]. cbn [map list_sum fold_right]. rewrite (IH t d). specialize (G ts d). unfold list_sum in *. lia. }
  destruct (ok && negb q).
  - rewrite (G ts (S d)), (G ts 1). destruct (is_c c); lia.
  - rewrite (G ts d). destruct (is_c c); lia.
Qed.
Hypothesis STRAIGHT : forall c, straight (meth c).
Hypothesis PROPER : forall c, proper c = true.
Lemma straight_runs s b s' ok ts : straight b -> runs s b s' ok ts -> ok = true.
Proof.
  intros HB R. induction R as [s|s|s f k s' ok ts R IH|s k s' ok ts R IH|s q c k s1 ok1 t1 s2 ok2 t2 R1 IH1 R2 IH2]; auto; try contradiction.
  apply IH2. rewrite (IH1 (STRAIGHT c)), PROPER. exact HB.
Qed.
Lemma straight_trees s b s' ok ts : straight b -> runs s b s' ok ts -> forall s0 s0' ok0 us, runs s0 b s0' ok0 us -> us = ts.
Proof.
  intros HB R. induction R as [s|s|s f k s' ok ts R IH|s k s' ok ts R IH|s q c k s1 ok1 t1 s2 ok2 t2 R1 IH1 R2 IH2]; intros u u' ok0 us Q;
    inversion Q as [| | | |? ? ? ? u1 ok1' v1 ? ? v2 Q1 Q2]; subst; auto; try contradiction.
  - eapply IH; eauto.
  - rewrite (straight_runs _ _ _ _ _ (STRAIGHT c) R1) in *. rewrite (straight_runs _ _ _ _ _ (STRAIGHT c) Q1) in *. rewrite !PROPER in *. cbn [andb] in *.
    f_equal; [f_equal; eapply (IH1 (STRAIGHT c)); eassumption|eapply (IH2 HB); eassumption].
Qed.
(** All the calls of a tree are run again as they were. *)
Inductive genuine : tree Cl -> Prop :=
| Genuine c q ok ts s s' ok1 : runs s (meth c) s' ok1 ts -> Forall genuine ts -> genuine (Made c q ok ts).
Lemma runs_genuine s b s' ok ts : runs s b s' ok ts -> Forall genuine ts.
Proof. induction 1; auto. constructor; auto. econstructor; eassumption. Qed.
Lemma script_app a b s s' ts : runs s (script (a ++ b)) s' true ts ->
  exists s1 t1 t2, runs s (script a) s1 true t1 /\ runs s1 (script b) s' true t2 /\ ts = t1 ++ t2.
Proof.
  revert s ts. induction a as [|c a IH]; intros s ts R; cbn [app script] in *.
  - exists s, [], ts. split; [constructor|auto].
  - inversion R as [| | | |? ? ? ? u1 ok1' v1 ? ? v2 Q1 Q2]; subst. destruct (IH _ _ Q2) as (s1 & t1 & t2 & A & B & ->).
    exists s1, (Made c false (ok1' && proper c) v1 :: t1), t2. split; [econstructor; eassumption|]. split; [exact B|reflexivity].
Qed.
Lemma times_tree t : genuine t -> forall s s' us, runs s (script (ended t)) s' true us -> total (made is_c) us = weight is_c 0 t.
Proof.
  revert t. fix IH 2. intros t [c q ok ts u u' ok1 R G] s s' us Q. cbn [ended weight] in *.
  assert (L : forall ts, Forall genuine ts -> forall s s' us, runs s (script (flat_map ended ts)) s' true us -> total (made is_c) us = total (weight is_c 0) ts).
  { clear - IH. fix L 2. intros ts [|t ts' g G] s s' us Q; cbn [flat_map] in Q.
    - cbn in Q. inversion Q. reflexivity.
    - destruct (script_app _ _ _ _ _ Q) as (s1 & t1 & t2 & A & B & ->). rewrite map_app, list_sum_app. cbn [map list_sum fold_right].
      rewrite (IH t g _ _ _ A). specialize (L ts' G _ _ _ B). unfold list_sum in *. lia. }
  destruct (script_app _ _ _ _ _ Q) as (s1 & t1 & t2 & A & B & ->). rewrite map_app, list_sum_app. rewrite (L ts G _ _ _ A).
  destruct (ok && negb q).
  - cbn [script] in B. inversion B as [| | | |? ? ? ? u1 ok1' v1 ? ? v2 Q1 Q2]; subst. inversion Q2; subst.
    rewrite (straight_trees _ _ _ _ _ (STRAIGHT c) R _ _ _ _ Q1). cbn [map list_sum fold_right made].
    assert (W : forall ts, total (weight is_c 1) ts = total (made is_c) ts + total (weight is_c 0) ts).
    { clear. induction ts as [|t ts W]; [reflexivity|]. cbn [map list_sum fold_right]. rewrite (weight_deeper t 1). unfold list_sum in *. lia. }
    rewrite W. unfold list_sum. lia.
  - inversion B; subst. cbn. destruct (is_c c); unfold list_sum; lia.
Qed.
Lemma times_replay s cs s' ts s0 s0' us : runs s (script cs) s' true ts -> runs s0 (script (flat_map ended ts)) s0' true us ->
  total (made is_c) us = total (weight is_c 0) ts.
Proof.
  intros R. pose proof (runs_genuine _ _ _ _ _ R) as G. clear R. revert s0 us. induction G as [|t ts g G IH]; intros s0 us Q; cbn [flat_map] in Q.
  - cbn in Q. inversion Q. reflexivity.
  - destruct (script_app _ _ _ _ _ Q) as (s1 & t1 & t2 & A & B & ->). rewrite map_app, list_sum_app. cbn [map list_sum fold_right].
    rewrite (times_tree t g _ _ _ A), (IH _ _ B). reflexivity.
Qed.
Lemma returns_script l : forall s s', all_return l s s' -> exists us, runs s (script l) s' true us.
Proof.
  induction l as [|c r IH]; intros s s' A; cbn in A.
  - subst. exists []. constructor.
  - destruct A as (s1 & (P & ts & R) & A). destruct (IH _ _ A) as (us & Q). eexists. econstructor; [exact R|exact Q].
Qed.
Lemma replay_times n m s cs s' l s0 s0' : record meth proper n s cs = Some (s', l) -> replay m s0 l = Some (s0', true) ->
  exists ts us, runs s (script cs) s' true ts /\ runs s0 (script l) s0' true us /\ total (made is_c) us = total (weight is_c 0) ts.
Proof.
  intros E F. destruct (proj1 (recorded s cs s' l) (ex_intro _ n E)) as (ts & R & ->). pose proof (replay_returns _ _ _ _ F) as A.
  destruct (returns_script _ _ _ A) as (us & Q). exists ts, us. split; [exact R|]. split; [exact Q|]. eapply times_replay; eassumption.
Qed.
End Facts.

Lemma counter_times : (forall c, straight (tally c)) /\
  exists ts, runs tally any (0%Z, false) (script [1; 0]) (3%Z, false) true ts /\
    list_sum (map (made (Nat.eqb 0)) ts) = 3 /\ list_sum (map (weight (Nat.eqb 0) 0) ts) = 5.
Proof.
  split.
  - intros [|c]; exact I.
  - destruct (proj1 (recorded tally any (0%Z, false) [1; 0] (3%Z, false) [0; 0; 1; 0])) as (ts & R & E); [exists 9; reflexivity|].
    exists ts. split; [exact R|]. assert (X : exists us, runs tally any (0%Z, false) (script [1; 0]) (3%Z, false) true us /\
      list_sum (map (made (Nat.eqb 0)) us) = 3 /\ list_sum (map (weight (Nat.eqb 0) 0) us) = 5).
    { eexists. split; [|split].
      - cbn [script]. eapply (RCall _ _ _ _ _ _ (2%Z, false) true); [|eapply (RCall _ _ _ _ _ _ (3%Z, false) true); [|apply RReturn]].
        + eapply (RCall _ _ _ _ _ _ (1%Z, false) true); [|eapply (RCall _ _ _ _ _ _ (2%Z, false) true); [|apply RReturn]]; apply RChange, RReturn.
        + apply RChange, RReturn.
      - reflexivity.
      - reflexivity. }
    destruct X as (us & Q & A). destruct (runs_same _ _ _ _ _ _ _ _ _ _ R Q) as (_ & _ & ->). exact A.
Qed.
Lemma five_runs s s' ok ts : runs counter any s (counter 5) s' ok ts -> s' = (7%Z, true) /\ ok = true /\ flat_map ended ts = [4; 3].
Proof.
  intros R. assert (E : exec counter any 5 s (counter 5) = Some ((7%Z, true), [4; 3], true)) by reflexivity.
  destruct (runs_exec _ _ _ _ _ _ _ R) as (n & N). destruct (exec_runs _ _ _ _ _ _ _ _ E) as (us & Q & F).
  destruct (runs_same _ _ _ _ _ _ _ _ _ _ R Q) as (-> & -> & ->). auto.
Qed.
Lemma counter_absorbs : (forall c', recorded_within counter any 5 c' -> absorbs counter any 5 c') /\
  recorded_within counter any 5 4 /\ all_return counter any [5] (0%Z, false) (7%Z, true) /\
  record counter any 9 (0%Z, false) [5] = Some ((7%Z, true), [4; 3; 5]) /\
  replay counter any 9 (0%Z, false) [4; 3; 5] = Some ((7%Z, true), true).
Proof.
  assert (F : forall s, exists ts, runs counter any s (counter 5) (7%Z, true) true ts /\ flat_map ended ts = [4; 3]).
  { intros s. destruct (exec_runs counter any 5 s (counter 5) (7%Z, true) [4; 3] true eq_refl) as (us & Q & E). eauto. }
  split; [|split; [|split; [|split; reflexivity]]].
  - intros c' (s & s' & ok & ts & R & I). apply five_runs in R. destruct R as (_ & _ & E). rewrite E in I.
    intros u u2 (_ & t & R). apply five_runs in R. destruct R as (-> & _ & _).
    destruct I as [<-|[<-|[]]]; [exists (7%Z, snd u)|exists (fst u, true)]; (split; [split; [reflexivity|]|split; [reflexivity|]]).
    + eexists. apply RChange, RReturn.
    + destruct (F (7%Z, snd u)) as (v & V & _). eauto.
    + eexists. apply RChange, RReturn.
    + destruct (F (fst u, true)) as (v & V & _). eauto.
  - destruct (F (0%Z, false)) as (v & V & E). exists (0%Z, false), (7%Z, true), true, v. split; [exact V|]. rewrite E. now left.
  - exists (7%Z, true). split; [split; [reflexivity|]|reflexivity]. destruct (F (0%Z, false)) as (v & V & _). eauto.
Qed.
