(** Proofs about the comparison of JSON documents. *)
From Verif Require Import Base JsonComp JsonCompSpec.
From Coq Require Import Permutation Sorting.Sorted Lqa.
Local Open Scope list_scope.

(** ** Induction *)
Section ValInd.
  Variable P : val -> Prop.
  Hypotheses (HN : P ANone) (HX : forall x, P (ANum x)) (HS : forall s, P (AStr s))
    (HL : forall l, Forall P l -> P (AList l)) (HT : forall k v, P v -> P (ATup k v)).
  Fixpoint val_ind' (v : val) : P v :=
    match v with
    | ANone => HN
    | ANum x => HX x
    | AStr s => HS s
    | AList l => HL l ((fix go l : Forall P l := match l with [] => Forall_nil _ | x :: l' => Forall_cons x (val_ind' x) (go l') end) l)
    | ATup k v => HT k v (val_ind' v)
    end.
End ValInd.
Section JsonInd.
  Variable P : json -> Prop.
  Hypotheses (HN : P JNull) (HB : forall b, P (JBool b)) (HX : forall x, P (JNum x)) (HS : forall s, P (JStr s))
    (HL : forall l, Forall P l -> P (JList l)) (HO : forall l, Forall (fun p => P (snd p)) l -> P (JObj l)).
  Fixpoint json_ind' (j : json) : P j :=
    match j with
    | JNull => HN
    | JBool b => HB b
    | JNum x => HX x
    | JStr s => HS s
    | JList l => HL l ((fix go l : Forall P l := match l with [] => Forall_nil _ | x :: l' => Forall_cons x (json_ind' x) (go l') end) l)
    | JObj l => HO l ((fix go l : Forall (fun p => P (snd p)) l :=
                         match l with [] => Forall_nil _ | x :: l' => Forall_cons x (json_ind' (snd x)) (go l') end) l)
    end.
End JsonInd.

(** ** Python's [==] and [<] *)
Fixpoint aeqs (l m : list val) : bool :=
  match l, m with [], [] => true | x :: l', y :: m' => aeq x y && aeqs l' m' | _, _ => false end.
Lemma aeq_list l m : aeq (AList l) (AList m) = aeqs l m.
Proof. reflexivity. Qed.
Fixpoint alts (l m : list val) : res bool :=
  match l, m with
  | _, [] => Ok false
  | [], _ :: _ => Ok true
  | x :: l', y :: m' => if aeq x y then alts l' m' else alt x y
  end.
Lemma alt_list l m : alt (AList l) (AList m) = alts l m.
Proof. reflexivity. Qed.
Lemma aeq_spec a : forall b, aeq a b = true <-> a = b.
Proof.
  induction a using val_ind'; intros b; destruct b; try (split; [discriminate|congruence]).
  - split; reflexivity.
  - cbn [aeq]. rewrite Qeq_bool_iff. split; [intros E; f_equal; now apply Qc_is_canon|now intros [= ->]].
  - cbn [aeq]. rewrite String.eqb_eq. split; congruence.
  - rewrite aeq_list. revert l0. induction H as [|x l Hx Hl IH]; intros [|y m]; cbn [aeqs]; try (split; [discriminate|congruence]).
    + split; reflexivity.
    + rewrite andb_true_iff, Hx, IH. split; [intros [-> E]; congruence|intros [= -> ->]; auto].
  - cbn [aeq]. rewrite andb_true_iff, String.eqb_eq, IHa. split; [intros [-> ->]; reflexivity|intros [= -> ->]; auto].
Qed.
Lemma aeq_refl a : aeq a a = true. Proof. now apply aeq_spec. Qed.
Lemma aeq_sym a b : aeq a b = aeq b a.
Proof. apply eq_true_iff_eq. rewrite !aeq_spec. split; congruence. Qed.
Lemma aeq_false a b : aeq a b = false <-> a <> b.
Proof. rewrite <- not_true_iff_false, aeq_spec. reflexivity. Qed.

Lemma str_lt_flip s t : str_lt t s = if str_lt s t then false else negb (String.eqb s t).
Proof.
  unfold str_lt. rewrite (String.compare_antisym s t). destruct (String.compare t s) eqn:E; cbn.
  - apply String.compare_eq_iff in E. subst. now rewrite String.eqb_refl.
  - destruct (String.eqb s t) eqn:K; [|reflexivity]. apply String.eqb_eq in K. subst.
    pose proof (String.compare_antisym t t) as A. rewrite E in A. discriminate.
  - reflexivity.
Qed.
Lemma str_lt_irrefl s : str_lt s s = false.
Proof. pose proof (str_lt_flip s s) as H. destruct (str_lt s s); [congruence|reflexivity]. Qed.
Lemma ascii_lt_trans a b c : Ascii.compare a b = Lt -> Ascii.compare b c = Lt -> Ascii.compare a c = Lt.
Proof. unfold Ascii.compare. rewrite !N.compare_lt_iff. lia. Qed.
Lemma str_lt_trans s t u : str_lt s t = true -> str_lt t u = true -> str_lt s u = true.
Proof.
  unfold str_lt. revert t u. induction s as [|a s IH]; intros [|b t] [|c u]; cbn; try discriminate; try reflexivity.
  destruct (Ascii.compare a b) eqn:A; try discriminate; destruct (Ascii.compare b c) eqn:B; try discriminate.
  - apply Ascii.compare_eq_iff in A. apply Ascii.compare_eq_iff in B. subst.
    destruct (Ascii.compare c c) eqn:K; [apply IH| |]; unfold Ascii.compare in K; rewrite N.compare_refl in K; discriminate.
  - apply Ascii.compare_eq_iff in A. subst. now rewrite B.
  - apply Ascii.compare_eq_iff in B. subst. now rewrite A.
  - now rewrite (ascii_lt_trans _ _ _ A B).
Qed.
Lemma num_lt_spec x y : num_lt x y = true <-> (this x < this y)%Q.
Proof.
  unfold num_lt. rewrite negb_true_iff, <- not_true_iff_false, Qle_bool_iff. split; [apply Qnot_le_lt|apply Qlt_not_le].
Qed.
Lemma num_lt_flip x y : num_lt y x = if num_lt x y then false else negb (Qeq_bool (this x) (this y)).
Proof.
  destruct (num_lt x y) eqn:A.
  - apply num_lt_spec in A. apply not_true_iff_false. rewrite num_lt_spec. lra.
  - apply not_true_iff_false in A. rewrite num_lt_spec in A. apply eq_true_iff_eq.
    rewrite num_lt_spec, negb_true_iff, <- not_true_iff_false, Qeq_bool_iff. lra.
Qed.

(** Comparing the other way round. *)
Definition flipped (b : bool) (r : res bool) : res bool :=
  match r with Ok true => Ok false | Ok false => Ok (negb b) | Err e => Err e end.
Lemma alt_flip a : forall b, alt b a = flipped (aeq a b) (alt a b).
Proof.
  induction a using val_ind'; intros b; destruct b as [|x0|s0|l0|k0 v]; try reflexivity.
  - cbn. rewrite (num_lt_flip x x0). now destruct (num_lt x x0).
  - cbn. rewrite (str_lt_flip s s0). now destruct (str_lt s s0).
  - rewrite !alt_list, aeq_list. revert l0. induction H as [|x l Hx Hl IH]; intros [|y m]; try reflexivity.
    cbn [alts aeqs]. rewrite (aeq_sym y x), Hx. destruct (aeq x y) eqn:E; [apply IH|]. reflexivity.
  - cbn. rewrite String.eqb_sym, (aeq_sym v a), IHa. destruct (String.eqb k k0) eqn:K.
    + destruct (aeq a v) eqn:V; cbn; [reflexivity|]. reflexivity.
    + rewrite (str_lt_flip k k0), K. now destruct (str_lt k k0).
Qed.
Lemma alt_true_neq a b : alt a b = Ok true -> aeq a b = false.
Proof.
  intros H. apply aeq_false. intros ->. pose proof (alt_flip b b) as K. rewrite H in K. discriminate.
Qed.
Lemma alt_err a : forall b e, alt a b = Err e -> e = TypeError.
Proof.
  induction a using val_ind'; intros b e; destruct b as [|x0|s0|l0|k0 v]; cbn; try congruence.
  - change (alts l l0 = Err e -> e = TypeError). revert l0. induction H as [|x l Hx Hl IH]; intros [|y m]; cbn [alts]; try discriminate.
    destruct (aeq x y); [apply IH|apply Hx].
  - destruct (String.eqb k k0); [|discriminate]. destruct (aeq a v); [discriminate|apply IHa].
Qed.
Lemma alt_trans a : forall b c, alt a b = Ok true -> alt b c = Ok true -> alt a c = Ok true.
Proof.
  induction a using val_ind'; intros b c; destruct b as [|x0|s0|l0|k0 v]; try discriminate; destruct c as [|x1|s1|l1|k1 v0]; try discriminate; cbn [alt].
  - intros A B. injection A as A. injection B as B. rewrite num_lt_spec in *. f_equal. apply num_lt_spec. lra.
  - intros A B. injection A as A. injection B as B. f_equal. now apply (str_lt_trans _ s0).
  - change (alts l l0 = Ok true -> alts l0 l1 = Ok true -> alts l l1 = Ok true).
    revert l0 l1. induction H as [|x l Hx Hl IH]; intros [|y m] [|z n]; cbn [alts]; try discriminate; try reflexivity.
    destruct (aeq x y) eqn:A.
    + apply aeq_spec in A. subst y. destruct (aeq x z) eqn:B; [apply IH|auto].
    + destruct (aeq y z) eqn:B.
      * apply aeq_spec in B. subst z. rewrite A. auto.
      * intros K L. pose proof (Hx _ _ K L) as M. now rewrite (alt_true_neq _ _ M).
  - destruct (String.eqb k k0) eqn:A.
    + apply String.eqb_eq in A. subst k0. destruct (aeq a v) eqn:V; [discriminate|].
      destruct (String.eqb k k1) eqn:B; [|auto]. destruct (aeq v v0) eqn:U; [discriminate|].
      intros K L. pose proof (IHa _ _ K L) as M. now rewrite (alt_true_neq _ _ M).
    + destruct (String.eqb k0 k1) eqn:B.
      * apply String.eqb_eq in B. subst k1. now rewrite A.
      * intros K L. injection K as K. injection L as L. pose proof (str_lt_trans _ _ _ K L) as M. rewrite M.
        destruct (String.eqb k k1) eqn:C; [|reflexivity]. apply String.eqb_eq in C. subst. now rewrite str_lt_irrefl in M.
Qed.

(** ** Sorting *)
Definition le (a b : val) : Prop := alt b a = Ok false.
Definition comparable (a b : val) : Prop := exists r, alt a b = Ok r.
Lemma comparable_sym a b : comparable a b -> comparable b a.
Proof. intros [r H]. unfold comparable. rewrite alt_flip, H. destruct r; cbn; eauto. Qed.
Lemma le_cases a b : le a b -> alt a b = Ok true \/ a = b.
Proof.
  unfold le. intros H. rewrite alt_flip, H. cbn. destruct (aeq b a) eqn:E; [|auto]. apply aeq_spec in E. auto.
Qed.
Lemma lt_le a b : alt a b = Ok true -> le a b.
Proof. intros H. unfold le. now rewrite alt_flip, H. Qed.
Lemma le_trans a b c : le a b -> le b c -> le a c.
Proof.
  intros A B. destruct (le_cases _ _ A) as [K| ->]; [|exact B]. destruct (le_cases _ _ B) as [L| <-]; [|exact A].
  apply lt_le. now apply (alt_trans _ b).
Qed.
Lemma le_antisym a b : le a b -> le b a -> a = b.
Proof.
  intros A B. destruct (le_cases _ _ A) as [K|K]; [|exact K]. unfold le in B. congruence.
Qed.
Lemma le_comparable a b : le a b -> comparable a b.
Proof. intros H. apply comparable_sym. now exists false. Qed.

Lemma insert_ok x : forall l r, insert x l = Ok r -> Permutation (x :: l) r /\ (StronglySorted le l -> StronglySorted le r).
Proof.
  induction l as [|y l IH]; intros r; cbn [insert].
  - intros [= <-]. split; [reflexivity|]. intros _. repeat constructor.
  - destruct (alt x y) as [[|]|] eqn:A; cbn [bind]; [|destruct (insert x l) as [s|] eqn:I; cbn [bind]|]; try discriminate.
    + intros [= <-]. split; [reflexivity|]. intros S. constructor; [exact S|].
      apply lt_le in A. inversion S as [|? ? S' F]; subst. constructor; [exact A|].
      eapply Forall_impl; [|exact F]. intros z Z. now apply (le_trans _ y).
    + intros [= <-]. destruct (IH _ eq_refl) as [P Q]. split.
      * rewrite perm_swap. now constructor.
      * intros S. inversion S as [|? ? S' F]; subst. constructor; [now apply Q|].
        apply Forall_forall. intros z Z. apply (Permutation_in _ (Permutation_sym P)) in Z. destruct Z as [<-|Z].
        -- exact A.
        -- rewrite Forall_forall in F. now apply F.
Qed.
Lemma sorted_ok : forall l s, sorted l = Ok s -> Permutation l s /\ StronglySorted le s.
Proof.
  induction l as [|x l IH]; intros s; cbn [sorted].
  - intros [= <-]. split; constructor.
  - destruct (sorted l) as [r|]; cbn [bind]; [|discriminate]. intros I. apply insert_ok in I. destruct I as [P Q].
    destruct (IH _ eq_refl) as [P' S]. split; [|now apply Q]. rewrite <- P. now constructor.
Qed.
Lemma sorted_unique_aux : forall s t, Permutation s t -> StronglySorted le s -> StronglySorted le t -> s = t.
Proof.
  induction s as [|x s IH]; intros t P S T.
  - now apply Permutation_nil in P.
  - destruct t as [|y t]; [symmetry in P; now apply Permutation_nil in P|].
    inversion S as [|? ? S' F]; inversion T as [|? ? T' G]; subst. rewrite Forall_forall in F, G.
    assert (E : x = y).
    { assert (X : In x (y :: t)) by (apply (Permutation_in _ P); now left).
      assert (Y : In y (x :: s)) by (apply (Permutation_in _ (Permutation_sym P)); now left).
      destruct X as [X|X]; [congruence|]. destruct Y as [Y|Y]; [congruence|]. apply le_antisym; auto. }
    subst y. f_equal. apply IH; auto. now apply Permutation_cons_inv in P.
Qed.
Lemma sorted_unique l m s t : Permutation l m -> sorted l = Ok s -> sorted m = Ok t -> s = t.
Proof.
  intros P A B. apply sorted_ok in A. apply sorted_ok in B. destruct A as [A S]. destruct B as [B T].
  apply sorted_unique_aux; auto. now rewrite <- A, <- B.
Qed.
(** Sorting succeeds just when any two elements can be compared, whatever their
    order. *)
Lemma pairs_perm (R : val -> val -> Prop) : (forall a b, R a b -> R b a) ->
  forall l m, Permutation l m -> ForallOrdPairs R l -> ForallOrdPairs R m.
Proof.
  intros SYM l m P. induction P as [|x l m P IH|x y l|l m n P1 IH1 P2 IH2]; intros F.
  - exact F.
  - inversion F as [|? ? A B]; subst. constructor; [|now apply IH]. rewrite Forall_forall in *. intros z Z. apply A.
    now apply (Permutation_in _ (Permutation_sym P)).
  - inversion F as [|? ? A B]; subst. inversion B as [|? ? C D]; subst. inversion A as [|? ? AX AL]; subst.
    constructor; [constructor; auto|]. constructor; auto.
  - auto.
Qed.
Lemma strongly_pairs (R : val -> val -> Prop) l : StronglySorted R l -> ForallOrdPairs R l.
Proof. induction 1; constructor; auto. Qed.
Lemma pairs_impl (R T : val -> val -> Prop) l : (forall a b, R a b -> T a b) -> ForallOrdPairs R l -> ForallOrdPairs T l.
Proof. intros H. induction 1; constructor; auto. eapply Forall_impl; [|eassumption]. auto. Qed.
Lemma sorted_all_comparable l s : sorted l = Ok s -> ForallOrdPairs comparable l.
Proof.
  intros H. apply sorted_ok in H. destruct H as [P S]. apply (pairs_perm comparable comparable_sym s l); [now symmetry|].
  apply (pairs_impl le); [apply le_comparable|now apply strongly_pairs].
Qed.
Lemma insert_total x l : Forall (comparable x) l -> exists r, insert x l = Ok r.
Proof.
  induction 1 as [|y l [b A] F IH]; cbn [insert]; [eauto|]. rewrite A. cbn [bind]. destruct b; [eauto|].
  destruct IH as [r ->]. cbn [bind]. eauto.
Qed.
Lemma comparable_sorts l : ForallOrdPairs comparable l -> exists s, sorted l = Ok s.
Proof.
  induction 1 as [|x l F P IH]; cbn [sorted]; [eauto|]. destruct IH as [s S]. rewrite S. cbn [bind].
  apply insert_total. apply sorted_ok in S. destruct S as [Q _]. rewrite Forall_forall in *. intros z Z. apply F.
  now apply (Permutation_in _ (Permutation_sym Q)).
Qed.
Lemma sorted_perm l m s : Permutation l m -> sorted l = Ok s -> sorted m = Ok s.
Proof.
  intros P S. destruct (comparable_sorts m) as [t T].
  - apply (pairs_perm comparable comparable_sym l m P). now apply (sorted_all_comparable l s).
  - now rewrite (sorted_unique _ _ _ _ P S T).
Qed.
Lemma insert_err x l e : insert x l = Err e -> e = TypeError.
Proof.
  induction l as [|y l IH]; cbn [insert]; [discriminate|].
  destruct (alt x y) as [[|]|] eqn:A; cbn [bind]; [discriminate| |].
  - destruct (insert x l); cbn [bind]; [discriminate|]. intros [= <-]. now apply IH.
  - intros [= <-]. now apply (alt_err _ _ _ A).
Qed.
Lemma sorted_err l e : sorted l = Err e -> e = TypeError.
Proof.
  induction l as [|y l IH]; cbn [sorted]; [discriminate|].
  destruct (sorted l); cbn [bind]; [apply insert_err|]. intros [= <-]. now apply IH.
Qed.

(** ** Reordering *)
Lemma collect_forall2 {A B} (f : A -> res B) l : forall r, collect f l = Ok r -> Forall2 (fun x y => f x = Ok y) l r.
Proof.
  induction l as [|x l IH]; intros r; cbn.
  - intros [= <-]. constructor.
  - destruct (f x) as [y|] eqn:E; cbn [bind]; [|discriminate]. fold (collect f).
    destruct (collect f l) as [s|]; cbn [bind]; [|discriminate]. intros [= <-]. constructor; auto.
Qed.
Lemma collect_complete {A B} (f : A -> res B) l r : Forall2 (fun x y => f x = Ok y) l r -> collect f l = Ok r.
Proof.
  induction 1 as [|x y l r E F IH]; cbn; [reflexivity|]. rewrite E. cbn [bind]. fold (collect f). now rewrite IH.
Qed.
Lemma collect_err {A B} (f : A -> res B) l e : Forall (fun x => forall e, f x = Err e -> e = TypeError) l -> collect f l = Err e -> e = TypeError.
Proof.
  induction 1 as [|x l Hx Hl IH]; cbn; [discriminate|]. destruct (f x) eqn:E; cbn [bind].
  - fold (collect f). destruct (collect f l); cbn [bind]; [discriminate|]. intros [= <-]. now apply IH.
  - intros [= <-]. now apply Hx.
Qed.
Definition member (p : string * json) : res val := let* v := reordered (snd p) in Ok (ATup (fst p) v).
Lemma reordered_list l : reordered (JList l) = let* r := collect reordered l in let* s := sorted r in Ok (AList s).
Proof. reflexivity. Qed.
Lemma reordered_obj l : reordered (JObj l) = let* r := collect member l in let* s := sorted r in Ok (AList s).
Proof. reflexivity. Qed.
Lemma reordered_err x : forall e, reordered x = Err e -> e = TypeError.
Proof.
  induction x using json_ind'; intros e; try discriminate.
  - rewrite reordered_list. destruct (collect reordered l) as [r|] eqn:C; cbn [bind].
    + destruct (sorted r) eqn:S; cbn [bind]; [discriminate|]. intros [= <-]. now apply (sorted_err _ _ S).
    + intros [= <-]. now apply (collect_err _ _ _ H C).
  - rewrite reordered_obj. destruct (collect member l) as [r|] eqn:C; cbn [bind].
    + destruct (sorted r) eqn:S; cbn [bind]; [discriminate|]. intros [= <-]. now apply (sorted_err _ _ S).
    + intros [= <-]. refine (collect_err _ _ _ _ C). eapply Forall_impl; [|exact H]. intros [k v] Hv e'. unfold member. cbn [fst snd] in *.
      destruct (reordered v); cbn [bind]; [discriminate|]. intros [= <-]. now apply Hv.
Qed.
Lemma symmetric x y : deep_comp x y = deep_comp y x.
Proof.
  unfold deep_comp. destruct (reordered x) as [a|e] eqn:X; destruct (reordered y) as [b|e'] eqn:Y; cbn [bind]; try reflexivity.
  - now rewrite aeq_sym.
  - now rewrite (reordered_err _ _ X), (reordered_err _ _ Y).
Qed.
Lemma self x : deep_comp x x = Ok true \/ deep_comp x x = Err TypeError.
Proof.
  unfold deep_comp. destruct (reordered x) as [a|e] eqn:X; cbn [bind].
  - rewrite aeq_refl. auto.
  - rewrite (reordered_err _ _ X). auto.
Qed.

(** The shapes of results. *)
Lemma reordered_shape x a : reordered x = Ok a ->
  match x with
  | JNull => a = ANone
  | JBool b => a = ANum (if b then 1 else 0)%Qc
  | JNum n => a = ANum n
  | JStr s => a = AStr s
  | JList l => exists r s, Forall2 (fun x y => reordered x = Ok y) l r /\ sorted r = Ok s /\ a = AList s
  | JObj l => exists r s, Forall2 (fun p y => member p = Ok y) l r /\ sorted r = Ok s /\ a = AList s
  end.
Proof.
  destruct x; try (now intros [= <-]).
  - rewrite reordered_list. destruct (collect reordered l) as [r|] eqn:C; cbn [bind]; [|discriminate].
    destruct (sorted r) as [s|] eqn:S; cbn [bind]; [|discriminate]. intros [= <-]. exists r, s. auto using collect_forall2.
  - rewrite reordered_obj. destruct (collect member l) as [r|] eqn:C; cbn [bind]; [|discriminate].
    destruct (sorted r) as [s|] eqn:S; cbn [bind]; [|discriminate]. intros [= <-]. exists r, s. auto using collect_forall2.
Qed.
Lemma member_tup p y : member p = Ok y -> exists v, reordered (snd p) = Ok v /\ y = ATup (fst p) v.
Proof. unfold member. destruct (reordered (snd p)); cbn [bind]; [|discriminate]. intros [= <-]. eauto. Qed.
Lemma reordered_not_tup x k v : reordered x <> Ok (ATup k v).
Proof.
  intros H. apply reordered_shape in H. destruct x; try discriminate; destruct H as (? & ? & _ & _ & H); discriminate.
Qed.
(** A permutation of the images comes from one of the arguments. *)
Lemma perm_images {A B} (f : A -> B -> Prop) m t r : Forall2 f m t -> Permutation t r -> exists m', Permutation m m' /\ Forall2 f m' r.
Proof.
  intros F P. revert m F. induction P as [|x l n P IH|x y l|l n o P1 IH1 P2 IH2]; intros m F.
  - inversion F; subst. exists []. split; constructor.
  - inversion F as [|a ? m0 ? Fa Fm]; subst. destruct (IH _ Fm) as (m' & Q & G). exists (a :: m'). split; constructor; auto.
  - inversion F as [|a ? m0 ? Fa Fm]; subst. inversion Fm as [|b ? m1 ? Fb Fn]; subst. exists (b :: a :: m1). split; [apply perm_swap|repeat constructor; auto].
  - destruct (IH1 _ F) as (m1 & Q1 & G1). destruct (IH2 _ G1) as (m2 & Q2 & G2). exists m2. split; [now rewrite Q1|exact G2].
Qed.
Lemma forall2_join {A B C} (f : A -> C -> Prop) (g : B -> C -> Prop) l m r : Forall2 f l r -> Forall2 g m r ->
  Forall2 (fun x y => exists c, f x c /\ g y c) l m.
Proof.
  intros F. revert m. induction F; intros m G; inversion G; subst; constructor; eauto.
Qed.
Lemma forall2_in {A B} (P : A -> B -> Prop) (R : A -> Prop) l m : Forall R l -> Forall2 P l m -> Forall2 (fun x y => R x /\ P x y) l m.
Proof. intros F. induction 1; inversion F; subst; constructor; auto. Qed.

Lemma forall2_impl {A B} (P Q : A -> B -> Prop) l m : (forall x y, P x y -> Q x y) -> Forall2 P l m -> Forall2 Q l m.
Proof. intros H. induction 1; constructor; auto. Qed.
Lemma forall2_flip {A B} (P : A -> B -> Prop) l m : Forall2 P l m -> Forall2 (fun y x => P x y) m l.
Proof. induction 1; constructor; auto. Qed.
Lemma same_alike x : forall y a, reordered x = Ok a -> reordered y = Ok a -> alike x y.
Proof.
  induction x using json_ind'; intros y a X Y; apply reordered_shape in X; pose proof Y as Y'; apply reordered_shape in Y'.
  - subst. destruct y; try discriminate; try constructor; destruct Y' as (? & ? & _ & _ & Y'); discriminate.
  - subst. destruct y; try discriminate; try (destruct Y' as (? & ? & _ & _ & Y'); discriminate).
    + apply (alike_num _ _ (if b then 1 else 0)%Qc); [now destruct b|]. destruct b, b0; try reflexivity; discriminate.
    + injection Y' as <-. apply (alike_num _ _ (if b then 1 else 0)%Qc); [now destruct b|reflexivity].
  - subst. destruct y; try discriminate; try (destruct Y' as (? & ? & _ & _ & Y'); discriminate).
    + injection Y' as ->. apply (alike_num _ _ (if b then 1 else 0)%Qc); [reflexivity|now destruct b].
    + injection Y' as ->. now apply (alike_num _ _ x0).
  - subst. destruct y; try discriminate; try (destruct Y' as (? & ? & _ & _ & Y'); discriminate).
    injection Y' as ->. constructor.
  - destruct X as (r & s & F & S & ->). destruct y; try discriminate.
    + destruct Y' as (r' & s' & F' & S' & E). injection E as <-.
      apply sorted_ok in S. apply sorted_ok in S'. destruct S as [P _], S' as [P' _].
      destruct (perm_images _ _ _ r F') as (m' & Q & G); [now rewrite P', P|].
      apply (alike_list _ _ m' Q). pose proof (forall2_join _ _ _ _ _ F G) as J. apply (forall2_in _ _ _ _ H) in J.
      eapply forall2_impl; [|exact J]. intros u v (Hu & c & A & B). eauto.
    + destruct Y' as (r' & s' & F' & S' & E). injection E as <-.
      apply sorted_ok in S. apply sorted_ok in S'. destruct S as [P _], S' as [P' _].
      destruct l as [|u l].
      * inversion F; subst. apply Permutation_nil in P. subst. symmetry in P'. apply Permutation_nil in P'. subst. inversion F'; subst. constructor.
      * exfalso. inversion F as [|? c ? ? Hc _]; subst.
        assert (IN : In c r') by (apply (Permutation_in _ (Permutation_sym P')), (Permutation_in _ P); now left).
        apply in_split in IN. destruct IN as (r1 & r2 & ->). apply Forall2_app_inv_r in F'. destruct F' as (l1 & l2 & _ & F2 & _).
        inversion F2 as [|p ? ? ? Hp _]; subst. apply member_tup in Hp. destruct Hp as (v & _ & ->). now apply reordered_not_tup in Hc.
  - destruct X as (r & s & F & S & ->). destruct y; try discriminate.
    + destruct Y' as (r' & s' & F' & S' & E). injection E as <-.
      apply sorted_ok in S. apply sorted_ok in S'. destruct S as [P _], S' as [P' _].
      destruct l as [|u l].
      * inversion F; subst. apply Permutation_nil in P. subst. symmetry in P'. apply Permutation_nil in P'. subst. inversion F'; subst. constructor.
      * exfalso. inversion F as [|? c ? ? Hc _]; subst.
        assert (IN : In c r') by (apply (Permutation_in _ (Permutation_sym P')), (Permutation_in _ P); now left).
        apply in_split in IN. destruct IN as (r1 & r2 & ->). apply Forall2_app_inv_r in F'. destruct F' as (l1 & l2 & _ & F2 & _).
        inversion F2 as [|p ? ? ? Hp _]; subst. apply member_tup in Hc. destruct Hc as (v & _ & ->). now apply reordered_not_tup in Hp.
    + destruct Y' as (r' & s' & F' & S' & E). injection E as <-.
      apply sorted_ok in S. apply sorted_ok in S'. destruct S as [P _], S' as [P' _].
      destruct (perm_images _ _ _ r F') as (m' & Q & G); [now rewrite P', P|].
      apply (alike_obj _ _ m' Q). pose proof (forall2_join _ _ _ _ _ F G) as J. apply (forall2_in _ _ _ _ H) in J.
      eapply forall2_impl; [|exact J]. intros u v (Hu & c & A & B). cbn beta in Hu.
      apply member_tup in A. apply member_tup in B. destruct A as (va & A & ->). destruct B as (vb & B & E). injection E as E1 E2. subst vb. eauto.
Qed.

Lemma perm_args {A B} (f : A -> B -> Prop) m m' r : Forall2 f m' r -> Permutation m m' -> exists r', Permutation r r' /\ Forall2 f m r'.
Proof.
  intros F P. apply forall2_flip in F. destruct (perm_images _ _ _ m F) as (r' & Q & G); [now symmetry|].
  exists r'. split; [exact Q|]. now apply forall2_flip in G.
Qed.
Lemma forall2_compose {A B C} (P : A -> B -> Prop) (Q : A -> C -> Prop) l m r : Forall2 P l m -> Forall2 Q l r ->
  Forall2 (fun y z => exists x, P x y /\ Q x z) m r.
Proof. intros F. revert r. induction F; intros r G; inversion G; subst; constructor; eauto. Qed.
Lemma as_number_reordered x n : as_number x = Some n -> reordered x = Ok (ANum n).
Proof. destruct x as [|[|]| | | |]; cbn; congruence. Qed.
Lemma list_build m r s : Forall2 (fun x y => reordered x = Ok y) m r -> sorted r = Ok s -> reordered (JList m) = Ok (AList s).
Proof. intros F S. rewrite reordered_list, (collect_complete _ _ _ F). cbn [bind]. now rewrite S. Qed.
Lemma obj_build m r s : Forall2 (fun x y => member x = Ok y) m r -> sorted r = Ok s -> reordered (JObj m) = Ok (AList s).
Proof. intros F S. rewrite reordered_obj, (collect_complete _ _ _ F). cbn [bind]. now rewrite S. Qed.
Lemma alike_same x : forall y a, alike x y -> reordered x = Ok a -> reordered y = Ok a.
Proof.
  induction x using json_ind'; intros y a A X; inversion A; subst; try assumption;
    try (match goal with H1 : as_number _ = Some ?n, H2 : as_number y = Some ?n |- _ =>
         rewrite (as_number_reordered _ _ H1) in X; rewrite (as_number_reordered _ _ H2); exact X end).
  - match goal with HP : Permutation _ _, HF : Forall2 _ _ _ |- _ => rename HP into PP, HF into FF end.
    apply reordered_shape in X. destruct X as (r & s & F & S & ->).
    assert (G : Forall2 (fun x y => reordered x = Ok y) m' r).
    { apply (forall2_in _ _ _ _ H) in FF. pose proof (forall2_compose _ _ _ _ _ FF F) as J. eapply forall2_impl; [|exact J].
      intros u v (w & (Hw & B) & C). eauto. }
    destruct (perm_args _ m m' r G PP) as (r' & Q & G'). apply (list_build _ _ _ G'). now apply (sorted_perm r).
  - match goal with HP : Permutation _ _, HF : Forall2 _ _ _ |- _ => rename HP into PP, HF into FF end.
    apply reordered_shape in X. destruct X as (r & s & F & S & ->).
    assert (G : Forall2 (fun x y => member x = Ok y) m' r).
    { apply (forall2_in _ _ _ _ H) in FF. pose proof (forall2_compose _ _ _ _ _ FF F) as J. eapply forall2_impl; [|exact J].
      intros u v (w & (Hw & B & D) & C). apply member_tup in C. destruct C as (c & C & ->). unfold member. rewrite (Hw _ _ D C), <- B. reflexivity. }
    destruct (perm_args _ m m' r G PP) as (r' & Q & G'). apply (obj_build _ _ _ G'). now apply (sorted_perm r).
Qed.
Lemma accepts_iff x y : deep_comp x x = Ok true -> (deep_comp x y = Ok true <-> alike x y).
Proof.
  unfold deep_comp. destruct (reordered x) as [a|] eqn:X; cbn [bind]; [|discriminate]. intros _. split.
  - destruct (reordered y) as [b|] eqn:Y; cbn [bind]; [|discriminate]. intros H. injection H as H. apply aeq_spec in H. subst.
    now apply (same_alike x y b).
  - intros A. rewrite (alike_same x y a A X). cbn [bind]. now rewrite aeq_refl.
Qed.
Lemma rejects_iff x y : deep_comp x x = Ok true -> deep_comp y y = Ok true -> (deep_comp x y = Ok false <-> ~ alike x y).
Proof.
  intros A B. rewrite <- (accepts_iff x y A). revert A B. unfold deep_comp.
  destruct (reordered x) as [a|]; cbn [bind]; [|discriminate]. destruct (reordered y) as [b|]; cbn [bind]; [|discriminate].
  intros _ _. destruct (aeq a b); split; congruence.
Qed.

(** ** Documents that compare without error *)
Lemma pairs_forall (R : val -> val -> Prop) (P : val -> Prop) l : (forall a b, P a -> P b -> R a b) -> Forall P l -> ForallOrdPairs R l.
Proof.
  intros H. induction 1 as [|x l Px Pl IH]; constructor; [|exact IH]. eapply Forall_impl; [|exact Pl]. auto.
Qed.
Definition is_num (a : val) : Prop := exists n, a = ANum n.
Lemma list_total l (P : val -> Prop) : (forall a b, P a -> P b -> comparable a b) ->
  Forall (fun x => exists a, reordered x = Ok a /\ P a) l -> exists s, reordered (JList l) = Ok (AList s) /\ Forall P s.
Proof.
  intros C F. assert (G : exists r, Forall2 (fun x y => reordered x = Ok y) l r /\ Forall P r).
  { induction F as [|x l (a & X & Y) F (r & G1 & G2)]; [exists []; split; constructor|]. exists (a :: r). split; constructor; auto. }
  destruct G as (r & G1 & G2). destruct (comparable_sorts r) as [s S]; [now apply (pairs_forall _ P)|]. exists s.
  split; [now apply (list_build _ r)|]. apply sorted_ok in S. destruct S as [S _]. now rewrite <- S.
Qed.
Lemma num_comparable a b : is_num a -> is_num b -> comparable a b.
Proof. intros [n ->] [m ->]. eexists. reflexivity. Qed.
Lemma nums_comparable a b : (exists l, a = AList l /\ Forall is_num l) -> (exists l, b = AList l /\ Forall is_num l) -> comparable a b.
Proof.
  intros (l & -> & F) (m & -> & G). unfold comparable. rewrite alt_list. revert m G.
  induction F as [|x l X F IH]; intros [|y m] G; cbn [alts]; eauto. inversion G; subst.
  destruct (aeq x y); [now apply IH|]. now apply num_comparable.
Qed.
Lemma numbers_total l : Forall numeric l -> exists s, reordered (JList l) = Ok (AList s) /\ Forall is_num s.
Proof.
  intros F. apply (list_total l is_num num_comparable). eapply Forall_impl; [|exact F]. intros x [n X].
  exists (ANum n). split; [now apply as_number_reordered|now exists n].
Qed.
Lemma members_total l : NoDup (map fst l) -> Forall (fun p => exists a, reordered (snd p) = Ok a) l -> exists a, reordered (JObj l) = Ok a.
Proof.
  intros N F. assert (G : exists r, Forall2 (fun p y => member p = Ok y) l r).
  { clear N. induction F as [|p l (a & X) F (r & G)]; [exists []; constructor|]. exists (ATup (fst p) a :: r). constructor; [|exact G].
    unfold member. now rewrite X. }
  destruct G as [r G]. destruct (comparable_sorts r) as [s S]; [|exists (AList s); now apply (obj_build _ r)].
  clear F. induction G as [|p y l r E G IH]; [constructor|]. inversion N as [|? ? NI N']; subst. constructor; [|now apply IH].
  apply member_tup in E. destruct E as (v & _ & ->). apply Forall_forall. intros z Z.
  apply in_split in Z. destruct Z as (r1 & r2 & ->). apply Forall2_app_inv_r in G. destruct G as (l1 & l2 & G1 & G2 & ->).
  inversion G2 as [|p' ? ? ? Hp _]; subst. apply member_tup in Hp. destruct Hp as (v' & _ & ->).
  exists (str_lt (fst p) (fst p')). cbn [alt]. destruct (String.eqb (fst p) (fst p')) eqn:K; [|reflexivity].
  apply String.eqb_eq in K. exfalso. apply NI. rewrite K, map_app. apply in_or_app. right. now left.
Qed.
Section UniformInd.
  Variable P : json -> Prop.
  Hypotheses (H1 : P JNull) (H2 : forall x, numeric x -> P x) (H3 : forall x, text x -> P x)
    (H4 : forall l, Forall numeric l -> P (JList l)) (H5 : forall l, Forall text l -> P (JList l))
    (H6 : forall l, Forall row l -> P (JList l)) (H7 : forall x, uniform x -> P x -> P (JList [x]))
    (H8 : forall l, NoDup (map fst l) -> Forall (fun p => uniform (snd p)) l -> Forall (fun p => P (snd p)) l -> P (JObj l)).
  Fixpoint uniform_ind' j (u : uniform j) : P j :=
    match u with
    | uniform_null => H1
    | uniform_num x h => H2 x h
    | uniform_text x h => H3 x h
    | uniform_numbers l h => H4 l h
    | uniform_texts l h => H5 l h
    | uniform_rows l h => H6 l h
    | uniform_single x h => H7 x h (uniform_ind' x h)
    | uniform_obj l n h => H8 l n h ((fix go l (h : Forall (fun p => uniform (snd p)) l) : Forall (fun p => P (snd p)) l :=
        match h with Forall_nil _ => Forall_nil _ | Forall_cons x hx hl => Forall_cons x (uniform_ind' _ hx) (go _ hl) end) l h)
    end.
End UniformInd.
Lemma uniform_total x : uniform x -> exists a, reordered x = Ok a.
Proof.
  intros U. induction U using uniform_ind'.
  - eexists. reflexivity.
  - destruct H as [n H]. exists (ANum n). now apply as_number_reordered.
  - destruct H as [s ->]. eexists. reflexivity.
  - destruct (numbers_total l H) as (s & -> & _). eauto.
  - destruct (list_total l (fun a => exists s, a = AStr s)) as (s & -> & _); [|eapply Forall_impl; [|exact H]|eauto].
    + intros a b [s ->] [t ->]. eexists. reflexivity.
    + intros x [s ->]. eexists. split; [reflexivity|]. now exists s.
  - destruct (list_total l (fun a => exists l, a = AList l /\ Forall is_num l) nums_comparable) as (s & -> & _); [eapply Forall_impl; [|exact H]|eauto].
    intros x (r & -> & F). destruct (numbers_total r F) as (s & -> & G). eauto.
  - destruct IHU as [a A]. exists (AList [a]). apply (list_build _ [a]); [repeat constructor; exact A|reflexivity].
  - now apply members_total.
Qed.
Lemma uniform_self x : uniform x -> deep_comp x x = Ok true.
Proof. intros U. destruct (uniform_total x U) as [a A]. unfold deep_comp. rewrite A. cbn [bind]. now rewrite aeq_refl. Qed.

(** What alike documents agree on. *)
Lemma alike_members l m k u : NoDup (map fst m) -> alike (JObj l) (JObj m) -> dget l k = Some u -> exists v, dget m k = Some v /\ alike u v.
Proof.
  intros N A. inversion A as [|x y n X Y| | |? ? m' P F| |]; subst; [discriminate X|]. clear A.
  assert (N' : NoDup (map fst m')) by (eapply Permutation_NoDup; [apply Permutation_map, P|exact N]).
  assert (G : dget l k = Some u -> exists v, In (k, v) m' /\ alike u v).
  { clear - F. induction F as [|[k1 u1] [k2 v2] l m' [K A] F IH]; cbn; [discriminate|]. cbn [fst snd] in *. subst k2.
    destruct (String.eqb_spec k k1) as [->|E]; [intros [= <-]; eauto|].
    intros D; destruct (IH D) as (v & I & B); eauto. }
  intros D. destruct (G D) as (v & I & B). exists v. split; [|exact B].
  apply (Permutation_in _ (Permutation_sym P)) in I. clear - I N. induction m as [|[k1 w] m IH]; cbn in *; [tauto|].
  inversion N as [|? ? NI N']; subst. destruct I as [E|I].
  - injection E as -> ->. destruct (String.eqb_spec k k); [reflexivity|congruence].
  - destruct (String.eqb_spec k k1) as [->|E]; [|auto]. exfalso. apply NI. apply (in_map fst) in I. exact I.
Qed.
Lemma alike_length l m : alike (JList l) (JList m) -> length l = length m.
Proof.
  intros A. inversion A as [|x y n X Y| |? ? m' P F| | |]; subst; [discriminate X|].
  rewrite (Permutation_length P). clear - F. induction F; cbn; congruence.
Qed.
Lemma alike_size l m : alike (JObj l) (JObj m) -> length l = length m.
Proof.
  intros A. inversion A as [|x y n X Y| | |? ? m' P F| |]; subst; [discriminate X|].
  rewrite (Permutation_length P). clear - F. induction F; cbn; congruence.
Qed.
