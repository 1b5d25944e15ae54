(** Proofs about visuals. *)
From Verif Require Import Base Transform TransformSpec TransformFacts Visual VisualSpec.
From Verif Require Dtype.
Local Open Scope string_scope.

Section Facts.
Context {A M : Type}.
Implicit Types (s : visual A M) (W : world A M).

(** ** Setting variables *)
Lemma set_input W s n v : dmem (v_in s) n = true ->
  let s' := fst (set_variable W s n v) in
  snd (set_variable W s n v) = Ok tt /\ get_variable s' n = Ok v /\
  (forall m, m <> n -> get_variable s' m = get_variable s m) /\
  v_arrays s' = v_arrays s /\ v_out s' = v_out s /\
  (forall m, dmem (v_in s') m = dmem (v_in s) m) /\ same_matrices s s'.
Proof.
  intros H. unfold set_variable. rewrite H. cbn.
  split; [reflexivity|]. split; [unfold get_variable; cbn; now rewrite dget_dset_same|].
  split; [intros m Hm; unfold get_variable; cbn; now rewrite dget_dset_other|].
  split; [reflexivity|]. split; [reflexivity|]. split; [|now repeat split].
  intros m. unfold dmem. rewrite dget_dset. destruct (eqb m n) eqn:E; [|reflexivity].
  apply eqb_eq in E. subst m. unfold dmem in H. now rewrite H.
Qed.

Lemma set_output W s n v i a a' : dget (v_in s) n = None -> dget (v_out s) n = Some i ->
  nth_error (v_arrays s) i = Some a -> w_assign W (v_arrays s) a v = Ok a' ->
  let s' := fst (set_variable W s n v) in
  snd (set_variable W s n v) = Ok tt /\
  get_variable s' n = Ok (VRef i) /\ nth_error (v_arrays s') i = Some a' /\
  (forall j, j <> i -> nth_error (v_arrays s') j = nth_error (v_arrays s) j) /\
  (forall m, get_variable s' m = get_variable s m) /\
  (forall m x, get_variable s m = Ok x -> x <> VRef i -> get_variable s' m = Ok x /\ seen s' x = seen s x) /\
  v_in s' = v_in s /\ v_out s' = v_out s /\ same_matrices s s'.
Proof.
  intros Hi Ho Ha Hs. unfold set_variable. apply dmem_false in Hi as Hm. rewrite Hm, Ho, Ha, Hs. cbn.
  assert (K : forall j, j <> i -> nth_error (upd (v_arrays s) i a') j = nth_error (v_arrays s) j).
  { intros j Hj. rewrite nth_error_upd. destruct (Nat.eqb_spec j i); [contradiction|reflexivity]. }
  assert (Lt : i < length (v_arrays s)) by (apply nth_error_Some; congruence).
  split; [reflexivity|]. split; [unfold get_variable; cbn; now rewrite Hi, Ho|].
  split. { rewrite nth_error_upd, Nat.eqb_refl. now rewrite Ha. }
  split; [exact K|]. split; [reflexivity|]. split; [|now repeat split].
  intros m x Hx Nx. split; [exact Hx|]. unfold seen. f_equal. destruct x; try reflexivity. cbn. apply K. congruence.
Qed.
Lemma set_output_fails W s n v i a e : dget (v_in s) n = None -> dget (v_out s) n = Some i ->
  nth_error (v_arrays s) i = Some a -> w_assign W (v_arrays s) a v = Err e ->
  set_variable W s n v = (s, Err e).
Proof.
  intros Hi Ho Ha Hs. unfold set_variable. apply dmem_false in Hi. now rewrite Hi, Ho, Ha, Hs.
Qed.
Lemma unknown W s n v f h : dget (v_in s) n = None -> dget (v_out s) n = None ->
  set_variable W s n v = (s, Err IndexError) /\ get_variable s n = Err IndexError /\
  eval_variable W f h s n = Err IndexError.
Proof.
  intros Hi Ho. apply dmem_false in Hi as Hm. unfold set_variable, eval_variable, get_variable. now rewrite Hm, Hi, Ho.
Qed.

(** ** Histories *)
Lemma set_cases W s n v :
  (dmem (v_in s) n = true /\ fst (set_variable W s n v) = with_in s (dset (v_in s) n v)) \/
  (dmem (v_in s) n = false /\ (fst (set_variable W s n v) = s \/
     exists i a a', dget (v_out s) n = Some i /\ nth_error (v_arrays s) i = Some a /\
       w_assign W (v_arrays s) a v = Ok a' /\
       fst (set_variable W s n v) = with_arrays s (upd (v_arrays s) i a'))).
Proof.
  unfold set_variable. destruct (dmem (v_in s) n); [left; now split|right]. split; [reflexivity|].
  destruct (dget (v_out s) n) as [i|]; [|now left].
  destruct (nth_error (v_arrays s) i) as [a|] eqn:Ea; [|now left].
  destruct (w_assign W (v_arrays s) a v) as [a'|] eqn:Es; [|now left].
  right. exists i, a, a'. now repeat split.
Qed.
Lemma set_keeps_out W s n v : v_out (fst (set_variable W s n v)) = v_out s.
Proof.
  destruct (set_cases W s n v) as [[_ ->]|[_ [->|(i & a & a' & _ & _ & _ & ->)]]]; reflexivity.
Qed.
Lemma set_keeps_in W s n v m : dmem (v_in (fst (set_variable W s n v))) m = dmem (v_in s) m.
Proof.
  destruct (set_cases W s n v) as [[H ->]|[_ [->|(i & a & a' & _ & _ & _ & ->)]]]; try reflexivity.
  cbn. unfold dmem in *. rewrite dget_dset. destruct (eqb m n) eqn:E; [|reflexivity].
  apply eqb_eq in E. subst m. now rewrite H.
Qed.
Lemma history_names W h : forall s,
  v_out (assignments W s h) = v_out s /\ (forall m, dmem (v_in (assignments W s h)) m = dmem (v_in s) m).
Proof.
  induction h as [|[n v] r IH]; intros s; cbn [assignments]; [now split|].
  destruct (IH (fst (set_variable W s n v))) as [H1 H2]. split.
  - now rewrite H1, set_keeps_out.
  - intros m. now rewrite H2, set_keeps_in.
Qed.
Lemma history_input W n h : forall s d, get_variable s n = Ok d -> dmem (v_in s) n = true ->
  get_variable (assignments W s h) n = Ok (latest n d h).
Proof.
  induction h as [|[m v] r IH]; intros s d G H; cbn [assignments latest]; [exact G|].
  apply IH; [|now rewrite set_keeps_in].
  destruct (String.eqb_spec m n) as [->|Ne].
  - apply (set_input W s n v H).
  - destruct (set_cases W s m v) as [[Hm E]|[Hm [->|(i & a & a' & Ho & Ha & Hs & E)]]]; [|exact G|].
    + destruct (set_input W s m v Hm) as (_ & _ & K & _). rewrite K; [exact G|congruence].
    + rewrite E. exact G.
Qed.

(** The contents an out-only variable ends up with. *)
Lemma set_array W s n v i : (forall m, dmem (v_in s) m = false -> dget (v_out s) m = Some i -> m <> n) ->
  nth_error (v_arrays (fst (set_variable W s n v))) i = nth_error (v_arrays s) i.
Proof.
  intros H. destruct (set_cases W s n v) as [[Hm ->]|[Hm [->|(j & a & a' & Ho & Ha & Hs & ->)]]]; try reflexivity.
  cbn. rewrite nth_error_upd. destruct (Nat.eqb_spec i j) as [->|]; [|reflexivity].
  exfalso. now apply (H n).
Qed.
Lemma frozen W i h : forall s, (forall m, dget (v_out s) m = Some i -> dmem (v_in s) m = true) ->
  nth_error (v_arrays (assignments W s h)) i = nth_error (v_arrays s) i.
Proof.
  induction h as [|[n v] r IH]; intros s H; cbn [assignments]; [reflexivity|].
  rewrite IH.
  - apply set_array. intros m Hm Ho. apply H in Ho. congruence.
  - intros m. rewrite set_keeps_out, set_keeps_in. apply H.
Qed.

(** ** Output variables in transforms *)
Lemma has_dot_split n : has_dot n = false -> Dtype.split dot n = [n] /\ before_dot n = n.
Proof.
  induction n as [|a r IH]; [now split|]. unfold has_dot in *. cbn [chars existsb Dtype.split before_dot].
  change dot with "."%char in *. rewrite Ascii.eqb_sym.
  destruct (Ascii.eqb a "."%char); [discriminate|]. cbn [orb]. intros H. destruct (IH H) as [-> ->]. now split.
Qed.
Lemma split_nonempty n : Dtype.split dot n <> [].
Proof.
  destruct n as [|a r]; cbn; [discriminate|]. destruct (Ascii.eqb a dot); [discriminate|].
  destruct (Dtype.split dot r); discriminate.
Qed.
Lemma split_before n : hd "" (Dtype.split dot n) = before_dot n.
Proof.
  induction n as [|a r IH]; [reflexivity|]. cbn [Dtype.split before_dot]. change dot with "."%char in *.
  destruct (Ascii.eqb a "."%char); [reflexivity|]. pose proof (split_nonempty r) as N. change dot with "."%char in N.
  destruct (Dtype.split "."%char r) as [|x l]; [contradiction|]. cbn in *. now rewrite IH.
Qed.
Lemma has_dot_app n k : has_dot n = false -> has_dot k = false ->
  has_dot (n ++ String dot k) = true /\ Dtype.split dot (n ++ String dot k) = [n; k].
Proof.
  intros Hn Hk. induction n as [|a r IH].
  - cbn. split; [reflexivity|]. now destruct (has_dot_split k Hk) as [-> _].
  - unfold has_dot in *. cbn [chars existsb] in Hn. apply orb_false_iff in Hn as [Ha Hr].
    specialize (IH Hr). cbn [append chars existsb Dtype.split]. rewrite (Ascii.eqb_sym a dot), Ha. cbn [orb].
    destruct IH as [-> ->]. now split.
Qed.

(** What [Out name] evaluates to. *)
Lemma eval_out W f h s m i nd n : dget (v_in s) m = Some (VTrans i) -> nth_error h i = Some nd -> n_kind nd = KOut n ->
  eval_variable W (S f) h s m = let* r := out_value W s n in Ok (w_at1 W (v_arrays s) r).
Proof.
  intros Hm Hi Hk. unfold eval_variable, get_variable. rewrite Hm. cbn [bind evaluate]. unfold get. rewrite Hi. cbn [bind].
  rewrite Hk. reflexivity.
Qed.
Lemma out_plain W s n : has_dot n = false ->
  out_value W s n = match dget (v_out s) n with
                    | Some i => Ok (VRef i)
                    | None => match dget (v_in s) n with Some v => Ok v | None => Err ValueError end
                    end.
Proof.
  intros H. unfold out_value, variables. rewrite H. destruct (dget (v_out s) n); [reflexivity|].
  now destruct (dget (v_in s) n).
Qed.
Lemma shadow W f h s m i nd n : dget (v_in s) m = Some (VTrans i) -> nth_error h i = Some nd -> n_kind nd = KOut n ->
  has_dot n = false ->
  eval_variable W (S f) h s m =
    match dget (v_out s) n with
    | Some j => Ok (w_at1 W (v_arrays s) (VRef j))
    | None => match dget (v_in s) n with Some v => Ok (w_at1 W (v_arrays s) v) | None => Err ValueError end
    end.
Proof.
  intros Hm Hi Hk Hn. rewrite (eval_out W f h s m i nd n Hm Hi Hk), (out_plain W s n Hn).
  destruct (dget (v_out s) n); [reflexivity|]. now destruct (dget (v_in s) n).
Qed.
Lemma component W f h s m i nd n k : dget (v_in s) m = Some (VTrans i) -> nth_error h i = Some nd ->
  n_kind nd = KOut (n ++ String "."%char k) -> has_dot n = false -> has_dot k = false ->
  eval_variable W (S f) h s m =
    match variables s n with
    | None => Err ValueError
    | Some v => match out_index k with
                | None => Err UnboundLocalError
                | Some l => let* r := w_pick W (v_arrays s) v l in Ok (w_at1 W (v_arrays s) r)
                end
    end.
Proof.
  intros Hm Hi Hk Hn Hk'. rewrite (eval_out W f h s m i nd _ Hm Hi Hk).
  destruct (has_dot_app n k Hn Hk') as [H1 H2]. unfold out_value. change "."%char with dot. rewrite H1, H2. cbn [hd last].
  destruct (variables s n); [|reflexivity]. now destruct (out_index k).
Qed.
Lemma chars_letters k : chars k = letters k. Proof. induction k; cbn; congruence. Qed.
Lemma position_some a : forall l i, NoDup l -> nth_error l i = Some a -> position a l = Some i.
Proof.
  induction l as [|b l IH]; intros [|i] N H; try discriminate; cbn in *.
  - injection H as ->. now rewrite Ascii.eqb_refl.
  - inversion N as [|? ? Nb N']. subst. destruct (Ascii.eqb_spec a b) as [->|].
    + exfalso. apply Nb. eapply nth_error_In; eauto.
    + now rewrite (IH i N' H).
Qed.
Lemma position_none a l : ~ In a l -> position a l = None.
Proof.
  induction l as [|b l IH]; intros H; [reflexivity|]. cbn.
  destruct (Ascii.eqb_spec a b) as [->|]; [exfalso; apply H; now left|]. rewrite IH; [reflexivity|].
  intros K. apply H. now right.
Qed.
Lemma positions_some sw : forall k l, NoDup sw -> Forall2 (fun a i => nth_error sw i = Some a) k l ->
  positions k sw = Some l.
Proof.
  intros k l N H. induction H as [|a i k l Ha _ IH]; [reflexivity|]. cbn. now rewrite (position_some a sw i N Ha), IH.
Qed.
Lemma positions_none sw : forall k a, In a k -> ~ In a sw -> positions k sw = None.
Proof.
  induction k as [|b k IH]; intros a H N; [contradiction|]. destruct H as [->|H]; cbn.
  - now rewrite (position_none a sw N).
  - rewrite (IH a H N). now destruct (position b sw).
Qed.
Lemma nodup_sw sw : sw = "xyzw" \/ sw = "rgba" -> NoDup (letters sw).
Proof. intros [-> | ->]; repeat (constructor; [cbn; intuition discriminate|]); constructor. Qed.
Lemma index_picks k l : picks "xyzw" k l \/ picks "rgba" k l -> out_index k = Some l.
Proof.
  unfold out_index. rewrite chars_letters. change (chars "xyzw") with (letters "xyzw"). change (chars "rgba") with (letters "rgba"). intros [H|H].
  - now rewrite (positions_some _ _ _ (nodup_sw "xyzw" (or_introl eq_refl)) H).
  - pose proof (positions_some _ _ _ (nodup_sw "rgba" (or_intror eq_refl)) H) as R. rewrite R.
    unfold picks in H. destruct (letters k) as [|a r]; [cbn in R |- *; congruence|].
    rewrite (positions_none _ _ a); [reflexivity|now left|].
    inversion H as [|x i ? ? Hx]; subst. apply nth_error_In in Hx. cbn in Hx |- *.
    intros K. decompose [or] Hx; decompose [or] K; subst; try contradiction; try discriminate.
Qed.
Lemma index_mixed k a b : In a (letters k) -> In b (letters k) -> ~ In a (letters "xyzw") -> ~ In b (letters "rgba") ->
  out_index k = None.
Proof.
  intros Ha Hb Na Nb. unfold out_index. rewrite chars_letters. change (chars "xyzw") with (letters "xyzw"). change (chars "rgba") with (letters "rgba").
  now rewrite (positions_none _ _ a Ha Na), (positions_none _ _ b Hb Nb).
Qed.
Lemma component_read W f h s m i nd n k v l : dget (v_in s) m = Some (VTrans i) -> nth_error h i = Some nd ->
  n_kind nd = KOut (n ++ String "."%char k) -> ~ In "."%char (letters n) -> read s n = Some v ->
  picks "xyzw" k l \/ picks "rgba" k l ->
  eval_variable W (S f) h s m = let* r := w_pick W (v_arrays s) v l in Ok (w_at1 W (v_arrays s) r).
Proof.
  intros Hm Hi Hk Hn Hv Hp.
  assert (D : forall x, ~ In "."%char (letters x) -> has_dot x = false).
  { intros x Hx. unfold has_dot. rewrite chars_letters. destruct (existsb (Ascii.eqb dot) (letters x)) eqn:E; [|reflexivity].
    apply existsb_exists in E as (a & Ha & Ea). apply Ascii.eqb_eq in Ea. subst a. contradiction. }
  assert (Dk : has_dot k = false).
  { apply D. intros K. destruct Hp as [Hp|Hp]; red in Hp; revert K Hp; generalize (letters k); intros lk K Hp.
    all: induction Hp as [|a j lk l' Ha _ IH]; [contradiction|]; destruct K as [->|K]; [|now apply IH];
      apply nth_error_In in Ha; cbn in Ha; decompose [or] Ha; try discriminate; contradiction. }
  rewrite (component W f h s m i nd n k Hm Hi Hk (D n Hn) Dk).
  change (variables s n) with (read s n). rewrite Hv, (index_picks k l Hp). reflexivity.
Qed.
Lemma eval_tree W f h s m i t : dget (v_in s) m = Some (VTrans i) -> stands anywhere h t i -> depth t <= f ->
  eval_variable W f h s m =
    let* r := TransformSpec.value (interp_of W s) t in Ok (w_at1 W (v_arrays s) r).
Proof.
  intros Hm S D. unfold eval_variable, get_variable. rewrite Hm. cbn [bind].
  now rewrite (proj1 (eval_spec (interp_of W s)) t anywhere f h i S D).
Qed.

(** ** Evaluation depends on the names read only *)
Lemma out_frame W s s' n : v_arrays s' = v_arrays s -> variables s' (before_dot n) = variables s (before_dot n) ->
  out_value W s' n = out_value W s n.
Proof.
  intros HA HV. unfold out_value. destruct (has_dot n) eqn:E.
  - cbn zeta. rewrite split_before, HV, HA. reflexivity.
  - destruct (has_dot_split n E) as [_ B]. rewrite B in HV. now rewrite HV.
Qed.
Lemma value_frame W s s' : v_arrays s' = v_arrays s ->
  (forall t : tree value, (forall n, In n (names_read t) -> variables s' n = variables s n) ->
     TransformSpec.value (interp_of W s') t = TransformSpec.value (interp_of W s) t) /\
  (forall x : branch value, (forall n, In n (names_read_in x) -> variables s' n = variables s n) ->
     value_branch (interp_of W s') x = value_branch (interp_of W s) x).
Proof.
  intros HA. apply tree_branch_ind.
  - intros k l IHl r IHr n IHn b H. rewrite !value_unfold.
    assert (stagecase : (forall m, In m ("dpi" :: "viewport" :: "canvas" :: "size" :: "index" :: names_read_in n)%list ->
        variables s' m = variables s m) ->
      (let* _ := e_ready (interp_of W s') k in
       let* v := (match n with BT t => TransformSpec.value (interp_of W s') t
                  | _ => match b with Some v => Ok v | None => default_value (interp_of W s') k end end) in
       e_app (interp_of W s') k v) =
      (let* _ := e_ready (interp_of W s) k in
       let* v := (match n with BT t => TransformSpec.value (interp_of W s) t
                  | _ => match b with Some v => Ok v | None => default_value (interp_of W s) k end end) in
       e_app (interp_of W s) k v)).
    { intros K. assert (C : context s' = context s).
      { unfold context. apply map_ext_in. intros m Hm. apply K. cbn in Hm |- *.
        decompose [or] Hm; auto 10; contradiction. }
      assert (N : value_branch (interp_of W s') n = value_branch (interp_of W s) n).
      { apply IHn. intros m Hm. apply K. do 5 right. exact Hm. }
      cbn [interp_of e_ready e_app]. rewrite C, HA.
      destruct (w_ready W (context s) k); cbn [bind]; [|reflexivity]. f_equal.
      destruct n as [t|c|]; try reflexivity. rewrite !value_branch_unfold in N.
      destruct (TransformSpec.value (interp_of W s') t), (TransformSpec.value (interp_of W s) t); cbn [bind] in N; congruence. }
    destruct k as [key|u|pr|nm|o]; try (apply stagecase; exact H).
    + cbn [interp_of e_out]. apply out_frame; [exact HA|]. apply H. now left.
    + rewrite IHl, IHr; try (intros m Hm; apply H; cbn; apply in_or_app; auto; fail).
      cbn [interp_of e_arith]. now rewrite HA.
  - intros t IH H. rewrite !value_branch_unfold. now rewrite IH.
  - reflexivity.
  - reflexivity.
Qed.
Lemma eval_frame W f h s m i t n v : dget (v_in s) m = Some (VTrans i) -> stands anywhere h t i -> depth t <= f ->
  dmem (v_in s) n = true -> m <> n -> ~ In n (names_read t) ->
  eval_variable W f h (fst (set_variable W s n v)) m = eval_variable W f h s m.
Proof.
  intros Hm S D Hn Ne Nr. set (s' := fst (set_variable W s n v)).
  destruct (set_input W s n v Hn) as (_ & _ & _ & HA & HO & _ & _).
  assert (Hs : v_in s' = dset (v_in s) n v) by (unfold s', set_variable; rewrite Hn; reflexivity).
  assert (Hm' : dget (v_in s') m = Some (VTrans i)) by (rewrite Hs, dget_dset_other; auto).
  rewrite (eval_tree W f h s' m i t Hm' S D), (eval_tree W f h s m i t Hm S D).
  rewrite (proj1 (value_frame W s s' HA)).
  - unfold s'. now rewrite HA.
  - intros x Hx. unfold variables, s'. rewrite HO. destruct (dget (v_out s) x); [reflexivity|].
    fold s'. rewrite Hs, dget_dset_other; [reflexivity|]. intros ->. contradiction.
Qed.
(** A name that has an output is never read from the inputs. *)
Lemma eval_shared W f h s m i t n v j : dget (v_in s) m = Some (VTrans i) -> stands anywhere h t i -> depth t <= f ->
  dmem (v_in s) n = true -> dget (v_out s) n = Some j -> m <> n ->
  eval_variable W f h (fst (set_variable W s n v)) m = eval_variable W f h s m.
Proof.
  intros Hm S D Hn Ho Ne. set (s' := fst (set_variable W s n v)).
  destruct (set_input W s n v Hn) as (_ & _ & _ & HA & HO & _ & _).
  assert (Hs : v_in s' = dset (v_in s) n v) by (unfold s', set_variable; rewrite Hn; reflexivity).
  assert (Hm' : dget (v_in s') m = Some (VTrans i)) by (rewrite Hs, dget_dset_other; auto).
  rewrite (eval_tree W f h s' m i t Hm' S D), (eval_tree W f h s m i t Hm S D).
  rewrite (proj1 (value_frame W s s' HA)).
  - unfold s'. now rewrite HA.
  - intros x Hx. unfold variables, s'. rewrite HO. destruct (dget (v_out s) x) eqn:E; [reflexivity|].
    fold s'. rewrite Hs, dget_dset_other; [reflexivity|]. intros ->. congruence.
Qed.

(** ** The visuals *)
Lemma dget_combine_seq : forall (l : list string) b i n, dget (combine l (seq b (length l))) n = Some i ->
  exists k, nth_error l k = Some n /\ i = b + k.
Proof.
  induction l as [|x l IH]; intros b i n H; [discriminate|]. cbn [length seq combine dget] in H.
  destruct (eqb n x) eqn:E.
  - apply eqb_eq in E. subst x. injection H as <-. exists 0%nat. split; [reflexivity|lia].
  - destruct (IH (S b) i n H) as (k & Hk & ->). exists (S k). split; [exact Hk|lia].
Qed.
Lemma dget_combine_in {X} : forall (l : list string) (vs : list X) n, length l <= length vs -> In n l ->
  exists v, dget (combine l vs) n = Some v.
Proof.
  induction l as [|x l IH]; intros [|v vs] n L H; cbn [length combine dget In] in *; try lia; try contradiction.
  destruct (eqb n x) eqn:E; [now exists v|]. destruct H as [->|H]; [now rewrite eqb_refl in E|].
  apply IH; [lia|exact H].
Qed.
Lemma dget_combine_out {X} : forall (l : list string) (vs : list X) n v, dget (combine l vs) n = Some v -> In n l.
Proof.
  intros l vs n v H. apply dget_in, in_combine_l in H. exact H.
Qed.
Lemma outputs_nodup k : NoDup (outputs k).
Proof.
  destruct k; cbn; repeat (constructor; [cbn; intuition discriminate|]); constructor.
Qed.
Definition shared (k : vkind) (n : string) : Prop := In n (inputs k) /\ In n (outputs k).

Lemma shared_frozen W eye k args (arrays fresh : list A) n h :
  S (length args) = length (inputs k) -> length fresh = length (outputs k) -> shared k n ->
  let s := build (M := M) eye k args arrays fresh in
  exists i a, nth_error fresh i = Some a /\
    dget (v_out (assignments W s h)) n = Some (length arrays + i) /\
    nth_error (v_arrays (assignments W s h)) (length arrays + i) = Some a.
Proof.
  intros La Lf [Hi Ho] s.
  destruct (dget_combine_in (outputs k) (seq (length arrays) (length (outputs k))) n) as (j & Hj).
  { rewrite seq_length. lia. } { exact Ho. }
  destruct (dget_combine_seq _ _ _ _ Hj) as (i & Hn & ->).
  assert (Li : i < length fresh) by (rewrite Lf; apply nth_error_Some; congruence).
  destruct (nth_error fresh i) as [a|] eqn:Ea; [|apply nth_error_Some in Li; contradiction].
  exists i, a. split; [exact Ea|]. destruct (history_names W h s) as [HO HI]. rewrite HO. split; [exact Hj|].
  rewrite frozen.
  - cbn. rewrite nth_error_app2 by lia. now replace (length arrays + i - length arrays)%nat with i by lia.
  - intros m Hm. cbn in Hm. destruct (dget_combine_seq _ _ _ _ Hm) as (i' & Hn' & E).
    assert (i' = i) by lia. subst i'. assert (m = n) by congruence. subst m.
    destruct (dget_combine_in (inputs k) (args ++ [VNone])%list n) as (v & Hv); [rewrite app_length; cbn; lia|exact Hi|].
    cbn. unfold dmem. now rewrite Hv.
Qed.

(** ** Rendering with stored matrices *)
Lemma set_matrices W s n v : same_matrices s (fst (set_variable W s n v)).
Proof.
  destruct (set_cases W s n v) as [[_ ->]|[_ [->|(i & a & a' & _ & _ & _ & ->)]]]; now repeat split.
Qed.
Lemma render_matrices W s vp m v p : let s' := fst (render W s vp m v p) in
  v_model s' = given m (v_model s) /\ v_view s' = given v (v_view s) /\ v_proj s' = given p (v_proj s) /\
  v_transform s' = match (let* pv := w_mul W (v_proj s') (v_view s') in w_mul W pv (v_model s')) with
                   | Ok x => Some x | Err _ => None end.
Proof.
  intros s'. unfold s', render. set (s0 := mkV _ _ _ _ _ _ _).
  destruct (set_matrices W s0 "viewport" vp) as (H1 & H2 & H3 & H4). now rewrite H1, H2, H3, H4.
Qed.
Lemma renders_matrices W h : forall s, let s' := renders W s h in
  v_model s' = last_given (v_model s) (map (fun c => fst (snd c)) h) /\
  v_view s' = last_given (v_view s) (map (fun c => fst (snd (snd c))) h) /\
  v_proj s' = last_given (v_proj s) (map (fun c => snd (snd (snd c))) h).
Proof.
  induction h as [|[vp [m [v p]]] r IH]; intros s; cbn [renders map fst snd last_given]; [now repeat split|].
  destruct (IH (fst (render W s vp m v p))) as (H1 & H2 & H3).
  destruct (render_matrices W s vp m v p) as (G1 & G2 & G3 & _).
  rewrite G1 in H1. rewrite G2 in H2. rewrite G3 in H3.
  split; [|split].
  - rewrite H1. now destruct m.
  - rewrite H2. now destruct v.
  - rewrite H3. now destruct p.
Qed.
Lemma renders_transform W h c s : let s' := renders W s (h ++ [c]) in
  v_transform s' = match (let* pv := w_mul W (v_proj s') (v_view s') in w_mul W pv (v_model s')) with
                   | Ok x => Some x | Err _ => None end.
Proof.
  revert s. induction h as [|[vp [m [v p]]] r IH]; intros s.
  - destruct c as [vp [m [v p]]]. cbn [app renders]. apply (render_matrices W s vp m v p).
  - cbn [app renders]. apply IH.
Qed.
Lemma rerender W s vp vp' m v p : let s1 := fst (render W s vp m v p) in
  let s2 := fst (render W s1 vp' None None None) in same_matrices s1 s2.
Proof.
  intros s1 s2. destruct (render_matrices W s vp m v p) as (G1 & G2 & G3 & G4).
  destruct (render_matrices W s1 vp' None None None) as (K1 & K2 & K3 & K4). fold s1 in G1, G2, G3, G4. fold s2 in K1, K2, K3, K4.
  cbn [given] in *. split; [exact K1|]. split; [exact K2|]. split; [exact K3|].
  now rewrite K4, K1, K2, K3, G4.
Qed.
Lemma render_viewport W s vp m v p : dmem (v_in s) "viewport" = true ->
  snd (render W s vp m v p) = Ok tt /\
  get_variable (fst (render W s vp m v p)) "viewport" = Ok vp /\
  forall n, n <> "viewport" -> get_variable (fst (render W s vp m v p)) n = get_variable s n.
Proof.
  intros H. unfold render. set (s0 := mkV _ _ _ _ _ _ _).
  destruct (set_input W s0 "viewport" vp H) as (H1 & H2 & H3 & _). split; [exact H1|]. split; [exact H2|].
  intros n Hn. now rewrite H3.
Qed.
(** A visual on which render was never called with matrices still has a
    transform. *)
Lemma declared W s vp t : v_transform s <> None -> w_mul W (v_proj s) (v_view s) = Ok t ->
  (exists u, w_mul W t (v_model s) = Ok u) -> v_transform (fst (render W s vp None None None)) <> None.
Proof.
  intros _ H [u Hu]. destruct (render_matrices W s vp None None None) as (K1 & K2 & K3 & K4).
  rewrite K4, K1, K2, K3. cbn [given]. rewrite H. cbn [bind]. rewrite Hu. discriminate.
Qed.
End Facts.

(** ** Witnesses *)
(** Arrays of one number; assigning converts numbers and copies arrays. *)
Definition ex_assign (l : list Z) (a : Z) (v : value) : res Z :=
  match v with
  | VAtom z => Ok z
  | VRef i => match nth_error l i with Some z => Ok z | None => Err KeyError end
  | _ => Err ValueError
  end.
Definition ex_world : world Z Z :=
  mkW ex_assign (fun _ v => v) (fun _ v _ => Ok v) (fun _ _ => Ok tt) (fun _ _ _ v => Ok v) (VAtom 1)
      (fun _ _ _ b => Ok b) (fun _ => true) (fun a b => Ok (a * b)%Z).
(** Points(positions, sizes, fill_colors, line_colors, line_widths): the sizes are
    Out("line_widths"), the widths 5. *)
Definition ex_heap : heap value := [mkNode (KOut "line_widths") ON ON ON None None].
Definition ex_points : visual Z Z :=
  build 1%Z Points [VRef 0; VTrans 0; VOther 1; VOther 2; VAtom 5] [10%Z] [100; 101; 102; 103; 104]%Z.

Lemma alias_witness : exists (s : visual Z Z) n m v x,
  n <> m /\ get_variable s m = Ok x /\ snd (set_variable ex_world s n v) = Ok tt /\
  get_variable (fst (set_variable ex_world s n v)) m = Ok x /\
  seen (fst (set_variable ex_world s n v)) x <> seen s x.
Proof.
  exists (fst (set_variable ex_world ex_points "positions" (VRef 1))), "screen[positions]", "positions", (VAtom 7), (VRef 1).
  split; [discriminate|]. split; [reflexivity|]. split; [reflexivity|]. split; [reflexivity|]. vm_compute. discriminate.
Qed.
Lemma shared_witness : exists (s : visual Z Z) h m n v,
  get_variable s n = Ok (VAtom 5) /\
  get_variable (fst (set_variable ex_world s n v)) n = Ok v /\ v <> VAtom 5 /\
  n_kind (nth 0%nat h (mkNode (KMap 0) ON ON ON None None)) = KOut n /\ get_variable s m = Ok (VTrans 0) /\
  exists i, eval_variable ex_world 1 h s m = Ok (VRef i) /\ nth_error (v_arrays s) i = Some 104%Z /\
    eval_variable ex_world 1 h (fst (set_variable ex_world s n v)) m = Ok (VRef i) /\
    nth_error (v_arrays (fst (set_variable ex_world s n v))) i = Some 104%Z.
Proof.
  exists ex_points, ex_heap, "sizes", "line_widths", (VAtom 9).
  split; [reflexivity|]. split; [reflexivity|]. split; [discriminate|]. split; [reflexivity|]. split; [reflexivity|].
  exists 5%nat. repeat split.
Qed.
(** sizes = Out("positions") where the positions are a transform. *)
Definition ex_nested : visual Z Z :=
  build 1%Z Pixels [VTrans 0; VTrans 1] [10%Z] [100%Z].
Definition ex_nested_heap : heap value :=
  [mkNode (KAcc "x") ON ON ON (Some (VRef 0)) None; mkNode (KOut "positions") ON ON ON None None].
Lemma nested_witness : exists (s : visual Z Z) h m n,
  n_kind (nth 1%nat h (mkNode (KMap 0) ON ON ON None None)) = KOut n /\ get_variable s m = Ok (VTrans 1) /\
  eval_variable ex_world 2 h s n = Ok (VRef 0) /\ eval_variable ex_world 2 h s m = Ok (VTrans 0).
Proof. exists ex_nested, ex_nested_heap, "colors", "positions". repeat split. Qed.
