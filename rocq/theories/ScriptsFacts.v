(** Proofs about the scripts. *)
From Verif Require Import Base JsonComp JsonCompSpec JsonCompFacts Scripts.
From Coq Require Import Permutation Sorting.Sorted.
Local Open Scope list_scope.

Section Check.
  Context {bytes : Type} (same_bytes : bytes -> bytes -> bool)
          (loads : bytes -> res json) (similarity : bytes -> bytes -> res Qc).
  Let matches (output : string -> option bytes) (p : string * bytes) : Prop :=
    exists o, output (fst p) = Some o /\ verify same_bytes loads similarity (fst p) (snd p) o = Ok true.
  Lemma check_all_iff output n : forall l,
    (check_all same_bytes loads similarity output n l = Matched n <-> Forall (matches output) l) /\
    (forall m, check_all same_bytes loads similarity output n l = Matched m -> m = n).
  Proof.
    induction l as [|[name e] l [IH IH']]; cbn [check_all].
    - split; [split; [constructor|reflexivity]|intros m [= <-]; reflexivity].
    - destruct (output name) as [o|] eqn:O.
      + destruct (verify _ _ _ name e o) as [[|]|] eqn:V.
        * split; [|exact IH']. rewrite IH. split; [intros F; constructor; [|exact F]; exists o; auto|intros F; now inversion F].
        * split; [|discriminate]. split; [discriminate|]. intros F. inversion F as [|? ? (o' & A & B) _]; subst. cbn [fst snd] in *. congruence.
        * split; [|discriminate]. split; [discriminate|]. intros F. inversion F as [|? ? (o' & A & B) _]; subst. cbn [fst snd] in *. congruence.
      + split; [|discriminate]. split; [discriminate|]. intros F. inversion F as [|? ? (o' & A & B) _]; subst. cbn [fst snd] in *. congruence.
  Qed.
  Lemma check_iff expected output n :
    check_main same_bytes loads similarity expected output = Matched n <->
    n = length (filter (fun p => checked (fst p)) expected) /\
    (forall name e, In (name, e) expected -> checked name = true ->
       exists o, output name = Some o /\ verify same_bytes loads similarity name e o = Ok true).
  Proof.
    unfold check_main. set (l := filter _ _). destruct (check_all_iff output (length l) l) as [A B]. split.
    - intros H. pose proof (B _ H) as ->. split; [reflexivity|]. intros name e I C. apply A in H. rewrite Forall_forall in H.
      apply (H (name, e)). apply filter_In. auto.
    - intros [-> H]. apply A. apply Forall_forall. intros [name e] I. apply filter_In in I. destruct I. now apply H.
  Qed.
  Lemma check_order expected expected' output n : Permutation expected expected' ->
    check_main same_bytes loads similarity expected output = Matched n -> check_main same_bytes loads similarity expected' output = Matched n.
  Proof.
    intros P H. apply check_iff in H. destruct H as [-> H]. apply check_iff. split.
    - apply Permutation_length. clear H. induction P; cbn; repeat match goal with |- context [if ?b then _ else _] => destruct b end; auto.
      + apply perm_swap.
      + now transitivity (filter (fun p => checked (fst p)) l').
    - intros name e I. apply H. now apply (Permutation_in _ (Permutation_sym P)).
  Qed.
  Lemma verify_other name e o : ~ In (lower (extension name)) [".png"; ".jpg"; ".jpeg"; ".json"]%string ->
    (verify same_bytes loads similarity name e o = Ok true <-> same_bytes e o = true) /\
    (verify same_bytes loads similarity name e o = Ok false <-> same_bytes e o = false).
  Proof.
    intros N. unfold verify. set (x := lower (extension name)) in *.
    assert (E : forall y, In y [".png"; ".jpg"; ".jpeg"; ".json"]%string -> String.eqb x y = false).
    { intros y Hy. apply String.eqb_neq. intros ->. contradiction. }
    cbn [existsb]. rewrite !E by (cbn; tauto). cbn [orb]. destruct (same_bytes e o); split; split; congruence.
  Qed.
  Lemma verify_json name e o x y : extension name = ".json"%string -> loads e = Ok x -> loads o = Ok y ->
    verify same_bytes loads similarity name e o = deep_comp x y.
  Proof. intros E A B. unfold verify. rewrite E. cbn. now rewrite A, B. Qed.
End Check.

Lemma verify_image {bytes} same_bytes loads similarity name (e o : bytes) score : lower (extension name) = ".png"%string ->
  similarity e o = Ok score ->
  (verify same_bytes loads similarity name e o = Ok true <-> (threshold <= score)%Qc) /\
  (verify same_bytes loads similarity name e o = Ok false <-> (score < threshold)%Qc).
Proof.
  intros E S. unfold verify. rewrite E. cbn [existsb]. rewrite String.eqb_refl. cbn [orb]. rewrite S. cbn [bind].
  assert (T : Qle_bool (this threshold) (this score) = true <-> (threshold <= score)%Qc) by apply Qle_bool_iff.
  destruct (Qle_bool _ _); split; (split; [intros K; try discriminate|intros K; try reflexivity]).
  - now apply T.
  - exfalso. apply (Qcle_not_lt threshold score); [now apply T|exact K].
  - exfalso. apply T in K. discriminate.
  - apply Qcnot_le_lt. intros L. apply T in L. discriminate.
Qed.
Lemma verify_not_made {bytes} same_bytes loads similarity name (e o : bytes) x : lower (extension name) = ".png"%string ->
  similarity e o = Err x -> verify same_bytes loads similarity name e o = Err x.
Proof. intros E S. unfold verify. rewrite E. cbn [existsb]. rewrite String.eqb_refl. cbn [orb]. now rewrite S. Qed.
Lemma append_length s t : String.length (s ++ t) = (String.length s + String.length t)%nat.
Proof. induction s; cbn; auto. Qed.
Lemma substring_split s : forall n m, (n + m = String.length s)%nat -> s = (substring 0 n s ++ substring n m s)%string.
Proof.
  induction s as [|c s IH]; intros n m L; cbn in *.
  - now destruct n, m.
  - destruct n as [|n]; cbn.
    + destruct m as [|m]; [discriminate|]. injection L as ->. f_equal. clear IH.
      induction s as [|d s IH]; cbn; congruence.
    + f_equal. apply IH. lia.
Qed.
Lemma substring_last p : forall s, substring (String.length p) (String.length s) (p ++ s) = s.
Proof. induction p as [|c p IH]; intros s; cbn; [|apply IH]. induction s; cbn; congruence. Qed.
Lemma ends_iff suffix s : ends_with suffix s = true <-> exists p, s = (p ++ suffix)%string.
Proof.
  unfold ends_with. rewrite andb_true_iff, Nat.leb_le, String.eqb_eq. split.
  - intros (L & E). exists (substring 0 (String.length s - String.length suffix) s). rewrite <- E at 2. apply substring_split. lia.
  - intros (p & ->). rewrite append_length. split; [lia|].
    replace (String.length p + String.length suffix - String.length suffix)%nat with (String.length p) by lia. apply substring_last.
Qed.
Lemma index_of_none x l : index_of x l = None -> ~ In x l.
Proof.
  induction l as [|y l IH]; cbn; [tauto|]. destruct (String.eqb_spec x y); [discriminate|].
  destruct (index_of x l); [discriminate|]. intros _ [K|K]; [congruence|]. now apply IH.
Qed.
Lemma index_of_some x l : forall i, index_of x l = Some i -> l = firstn i l ++ x :: skipn (i + 1) l /\ ~ In x (firstn i l).
Proof.
  induction l as [|y l IH]; cbn; [discriminate|]. intros i. destruct (String.eqb_spec x y) as [->|N].
  - intros [= <-]. cbn. tauto.
  - destruct (index_of x l) as [j|]; [|discriminate]. intros [= <-]. destruct (IH j eq_refl) as [A B]. cbn.
    split; [now f_equal|]. intros [K|K]; [congruence|]. tauto.
Qed.
Lemma split_ok prog args : prog <> "--"%string ->
  (~ In "--"%string args /\ split_argv (prog :: args) = (args, [])) \/
  (exists l m, args = l ++ "--"%string :: m /\ ~ In "--"%string l /\ split_argv (prog :: args) = (l, m)).
Proof.
  intros P. unfold split_argv. cbn [index_of]. destruct (String.eqb_spec "--" prog) as [K|_]; [congruence|].
  destruct (index_of "--" args) as [i|] eqn:E.
  - right. apply index_of_some in E. destruct E as [A B]. exists (firstn i args), (skipn (i + 1) args). auto.
  - left. apply index_of_none in E. auto.
Qed.

Definition name_le (s t : string) : Prop := str_lt t s = false.
Lemma name_le_trans a b c : name_le a b -> name_le b c -> name_le a c.
Proof.
  unfold name_le. intros A B. destruct (str_lt c a) eqn:C; [|reflexivity]. exfalso.
  rewrite str_lt_flip in A. destruct (str_lt a b) eqn:AB.
  - now rewrite (str_lt_trans _ _ _ C AB) in B.
  - apply negb_false_iff, String.eqb_eq in A. subst. congruence.
Qed.
Lemma insert_name_perm x l : Permutation (x :: l) (insert_name x l).
Proof. induction l as [|y l IH]; cbn; [reflexivity|]. destruct (str_lt x y); [reflexivity|]. rewrite perm_swap. now constructor. Qed.
Lemma insert_name_sorted x l : StronglySorted name_le l -> StronglySorted name_le (insert_name x l).
Proof.
  induction 1 as [|y l S IH F]; cbn; [repeat constructor|]. destruct (str_lt x y) eqn:E.
  - assert (L : name_le x y) by (unfold name_le; rewrite str_lt_flip, E; reflexivity).
    constructor; [constructor; auto|]. constructor; [exact L|]. eapply Forall_impl; [|exact F]. intros z. now apply name_le_trans.
  - constructor; [exact IH|]. apply Forall_forall. intros z Z. apply (Permutation_in _ (Permutation_sym (insert_name_perm x l))) in Z.
    destruct Z as [<-|Z]; [exact E|]. rewrite Forall_forall in F. auto.
Qed.
Lemma sort_names_ok l : Permutation l (sort_names l) /\ StronglySorted name_le (sort_names l).
Proof.
  induction l as [|x l [A B]]; cbn; [split; constructor|]. split; [|now apply insert_name_sorted].
  rewrite <- insert_name_perm. now constructor.
Qed.

Section RunAll.
  Variable status : string -> list string -> nat.
  Let success args s := (status s args =? 0)%nat.
  Lemma run_all env args : existsb (String.eqb "GSP_SC_INTERACTIVE") env = false -> forall l,
    run_loop status env false args l = (map (fun s => (s, success args s)) l, Exit 0).
  Proof.
    intros E. induction l as [|s l IH]; cbn [run_loop map]; [reflexivity|]. unfold launch. rewrite E, andb_false_r, IH. reflexivity.
  Qed.
  Lemma run_stop env args : existsb (String.eqb "GSP_SC_INTERACTIVE") env = false -> forall l,
    (forallb (success args) l = true /\ run_loop status env true args l = (map (fun s => (s, true)) l, Exit 0)) \/
    (exists l1 s l2, l = l1 ++ s :: l2 /\ forallb (success args) l1 = true /\ success args s = false /\
       run_loop status env true args l = (map (fun s => (s, true)) l1 ++ [(s, false)], Exit 1)).
  Proof.
    intros E. induction l as [|s l IH]; cbn [run_loop map forallb]; [left; auto|]. unfold launch. rewrite E.
    fold (success args s). destruct (success args s) eqn:S; cbn [negb andb].
    - destruct IH as [[A ->]|(l1 & t & l2 & -> & A & B & ->)]; [left; auto|]. right. exists (s :: l1), t, l2. cbn. rewrite S. auto.
    - right. exists [], s, l. auto.
  Qed.
  Lemma run_raises env stop args l : existsb (String.eqb "GSP_SC_INTERACTIVE") env = true -> l <> [] ->
    run_loop status env stop args l = ([], Raised TypeError).
  Proof. intros E N. destruct l as [|s l]; [easy|]. cbn [run_loop]. unfold launch. now rewrite E. Qed.
End RunAll.

Lemma lower_letters : forall c,
  (forall i, String.get i "ABCDEFGHIJKLMNOPQRSTUVWXYZ" = Some c -> String.get i "abcdefghijklmnopqrstuvwxyz" = Some (lower_char c)) /\
  ((forall i, String.get i "ABCDEFGHIJKLMNOPQRSTUVWXYZ" <> Some c) -> lower_char c = c).
Proof.
  intros c. split.
  - intros i. do 26 (destruct i as [|i]; [cbn [String.get]; intros E; injection E as <-; reflexivity|]). cbn. destruct i; discriminate.
  - intros N. destruct c as [[] [] [] [] [] [] [] []]; try reflexivity;
      exfalso; first [now apply (N 0%nat)|now apply (N 1%nat)|now apply (N 2%nat)|now apply (N 3%nat)|now apply (N 4%nat)|now apply (N 5%nat)|now apply (N 6%nat)|now apply (N 7%nat)
        |now apply (N 8%nat)|now apply (N 9%nat)|now apply (N 10%nat)|now apply (N 11%nat)|now apply (N 12%nat)|now apply (N 13%nat)|now apply (N 14%nat)|now apply (N 15%nat)|now apply (N 16%nat)
        |now apply (N 17%nat)|now apply (N 18%nat)|now apply (N 19%nat)|now apply (N 20%nat)|now apply (N 21%nat)|now apply (N 22%nat)|now apply (N 23%nat)|now apply (N 24%nat)|now apply (N 25%nat)].
Qed.
