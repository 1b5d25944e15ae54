(** Facts about transforms, commands and queues as text. *)
From Coq Require Import Decimal DecimalString DecimalZ.
From Verif Require Import Base Registry Convert Command Execute Session Journal JournalSpec Print PrintSpec.
From Verif Require Import JournalPlainFacts.
From Verif Require Queue QueueSpec QueueFacts JsonFacts JournalFacts.
Open Scope string_scope.

(** ** Numbers *)
Definition digit (c : ascii) : bool := existsb (Ascii.eqb c) (list_ascii_of_string "-0123456789").
Fixpoint all_chars (p : ascii -> bool) (s : string) : bool := match s with EmptyString => true | String c r => p c && all_chars p r end.
Lemma app_nil_s (a : string) : a ++ "" = a.
Proof. induction a; cbn [append]; congruence. Qed.
Lemma app_assoc_s (a b c : string) : (a ++ b) ++ c = a ++ b ++ c.
Proof. induction a; cbn [append]; congruence. Qed.
Lemma uint_digits d : all_chars digit (NilEmpty.string_of_uint d) = true.
Proof. induction d; cbn [NilEmpty.string_of_uint all_chars]; rewrite ?IHd; reflexivity. Qed.
Lemma decimal_digits z : all_chars digit (decimal z) = true.
Proof.
  unfold decimal, NilZero.string_of_int, NilZero.string_of_uint.
  destruct (Z.to_int z) as [d|d]; destruct d; cbn [all_chars]; try reflexivity; try apply (uint_digits (_ _)).
  all: cbn [digit]; apply andb_true_iff; split; [reflexivity|apply (uint_digits (_ _))].
Qed.
Lemma to_int_some z : Z.to_int z <> Pos Nil /\ Z.to_int z <> Neg Nil.
Proof.
  destruct z as [|p|p]; cbn [Z.to_int]; (split; [try discriminate|try discriminate]); intros H; injection H as H;
    apply (DecimalPos.Unsigned.to_uint_nonnil p H).
Qed.
Lemma decimal_inj z z' : decimal z = decimal z' -> z = z'.
Proof.
  intros H. assert (E : Some (Z.to_int z) = Some (Z.to_int z')).
  { rewrite <- (NilZero.isi (Z.to_int z)), <- (NilZero.isi (Z.to_int z')); try apply to_int_some. unfold decimal in H. now rewrite H. }
  injection E as E. rewrite <- (DecimalZ.of_to z), <- (DecimalZ.of_to z'). now rewrite E.
Qed.
Definition starts_not (p : ascii -> bool) (s : string) : Prop := match s with EmptyString => True | String c _ => p c = false end.
Lemma span_inj p a : forall b x y, all_chars p a = true -> all_chars p b = true -> starts_not p x -> starts_not p y -> a ++ x = b ++ y -> a = b /\ x = y.
Proof.
  induction a as [|c a IH]; intros [|d b] x y A B X Y E; cbn [append all_chars] in *.
  - auto.
  - subst x. cbn in X. apply andb_true_iff in B as [B _]. congruence.
  - subst y. cbn in Y. apply andb_true_iff in A as [A _]. congruence.
  - injection E as -> E. apply andb_true_iff in A as [_ A]. apply andb_true_iff in B as [_ B].
    destruct (IH b x y A B X Y E). split; congruence.
Qed.
Lemma decimal_first z z' x y : starts_not digit x -> starts_not digit y -> decimal z ++ x = decimal z' ++ y -> z = z' /\ x = y.
Proof.
  intros X Y E. destruct (span_inj digit _ _ _ _ (decimal_digits z) (decimal_digits z') X Y E) as [D E'].
  split; [now apply decimal_inj|exact E'].
Qed.
Lemma lacks_chars c s : contains c s = false -> all_chars (fun x => negb (Ascii.eqb c x)) s = true.
Proof.
  induction s as [|x s IH]; cbn [contains all_chars]; auto. intros H. apply orb_false_iff in H as [H1 H2]. now rewrite H1, IH.
Qed.
Lemma cut_inj c a b x y : contains c a = false -> contains c b = false -> a ++ String c x = b ++ String c y -> a = b /\ x = y.
Proof.
  intros A B E. destruct (span_inj (fun k => negb (Ascii.eqb c k)) a b (String c x) (String c y)) as [H1 H2];
    [now apply lacks_chars..| | |exact E|].
  1,2: cbn; now rewrite Ascii.eqb_refl.
  injection H2 as H2. auto.
Qed.
Lemma occ_app c a b : occurrences c (a ++ b) = (occurrences c a + occurrences c b)%nat.
Proof. induction a as [|x a IH]; cbn [append occurrences]; [reflexivity|]. rewrite IH. lia. Qed.
Lemma occ_digits c s : digit c = false -> all_chars digit s = true -> occurrences c s = 0%nat.
Proof.
  intros C. induction s as [|x s IH]; cbn [all_chars occurrences]; auto. intros H. apply andb_true_iff in H as [H1 H2].
  rewrite (IH H2). destruct (Ascii.eqb c x) eqn:E; [|reflexivity]. apply Ascii.eqb_eq in E. subst. congruence.
Qed.
Lemma occ_decimal c z : digit c = false -> occurrences c (decimal z) = 0%nat.
Proof. intros C. apply occ_digits; [exact C|apply decimal_digits]. Qed.
Lemma contains_app c a b : contains c (a ++ b) = (contains c a || contains c b)%bool.
Proof. induction a as [|x a IH]; cbn [append contains]; [reflexivity|]. now rewrite IH, orb_assoc. Qed.
Lemma digits_lack c s : digit c = false -> all_chars digit s = true -> contains c s = false.
Proof.
  intros C. induction s as [|x s IH]; cbn [all_chars contains]; auto. intros H. apply andb_true_iff in H as [H1 H2].
  rewrite (IH H2). destruct (Ascii.eqb c x) eqn:E; [|reflexivity]. apply Ascii.eqb_eq in E. subst. congruence.
Qed.
Lemma decimal_lacks c z : digit c = false -> contains c (decimal z) = false.
Proof. intros C. apply digits_lack; [exact C|apply decimal_digits]. Qed.

(** ** Transforms *)
Lemma bind_ok {A B} (r : res A) (k : A -> res B) y : (let* x := r in k x) = Ok y -> exists x, r = Ok x /\ k x = Ok y.
Proof. destruct r; cbn [bind]; [eauto|discriminate]. Qed.
Lemma classes_plain k : In k classes -> contains " " (class_name k) = false /\ occurrences "(" (class_name k) = 0%nat /\ occurrences ")" (class_name k) = 0%nat /\ one_line (class_name k).
Proof. unfold classes. intros H. repeat (destruct H as [<-|H]; [repeat split|]); destruct H. Qed.

Section Texts.
Variable shown : value -> string.
Variable arrays : value -> res bool.

Lemma based_of s i b : based s i b -> exists F, forall fuel, (F <= fuel)%nat -> base_of fuel s i = Ok b.
Proof.
  induction 1 as [i n G N|i n c j b G T H [F IH]].
  - exists 1%nat. intros [|f] L; [lia|]. cbn [base_of]. rewrite G. cbn [bind]. destruct (t_base n) eqn:E; try reflexivity. destruct (N c r). reflexivity.
  - exists (S F). intros [|f] L; [lia|]. cbn [base_of]. rewrite G. cbn [bind]. rewrite T. apply IH. lia.
Qed.
Lemma truth_transform s v j : transform_of s v j -> truth arrays s v = Ok true /\ id_of_value s v = Ok (oid_in (reg s) j).
Proof.
  intros (c & m & -> & G & N). unfold truth, id_of_value. rewrite G. cbn [bind]. split; [|reflexivity]. destruct (t_class m); congruence.
Qed.
Lemma truth_buffer s v z : buffer_of s v z -> truth arrays s v = Ok (negb (Z.eqb z 0)).
Proof.
  intros (c & j & m & -> & G & K & A & L). unfold truth. rewrite G. cbn [bind]. rewrite K, A.
  destruct (Z.ltb_spec z 0); [lia|reflexivity].
Qed.
Lemma head_reads s i n b : get s i = Ok n -> base_known s i n b ->
  exists F, forall fuel, (F <= fuel)%nat -> head arrays fuel s i = Ok (class_name (t_class n) ++ " (id=" ++ id_text s i ++ base_text s b).
Proof.
  intros G B. destruct b as [b|]; cbn [base_known base_text] in *.
  - destruct B as [[j T] B]. destruct (based_of s i b B) as [F H]. exists F. intros fuel L. unfold head. rewrite G. cbn [bind].
    rewrite (proj1 (truth_transform _ _ _ T)). cbn [bind]. rewrite (H fuel L). cbn [bind]. unfold id_text. now rewrite !app_assoc_s.
  - exists 0%nat. intros fuel _. unfold head. rewrite G. cbn [bind]. rewrite B. cbn [truth bind]. now rewrite app_nil_s.
Qed.
Lemma tail_reads s n o : attached s n o -> tail arrays s n = Ok (attached_text s o).
Proof.
  unfold tail. destruct o as [j|]; cbn [attached attached_text].
  - intros [T|[N [T|(z & B & P & c & E)]]].
    + destruct (truth_transform _ _ _ T) as [-> H]. cbn [bind]. rewrite H. reflexivity.
    + rewrite N. cbn [truth bind]. destruct (truth_transform _ _ _ T) as [-> H]. cbn [bind]. rewrite H. reflexivity.
    + rewrite N. cbn [truth bind]. rewrite (truth_buffer _ _ _ B). destruct B as (c' & k & m & E' & G & _). rewrite E in E'. injection E' as <- <-.
      destruct (Z.eqb_spec z 0) as [Z0|Z0]; [lia|]. cbn [negb bind]. rewrite E. unfold id_of_value. rewrite G. reflexivity.
  - intros [N [E|B]]; rewrite N; cbn [truth bind].
    + rewrite E. reflexivity.
    + rewrite (truth_buffer _ _ _ B). reflexivity.
Qed.
Scheme reads_ind2 := Induction for reads Sort Prop with side_reads_ind2 := Induction for side_reads Sort Prop.
Combined Scheme reads_both from reads_ind2, side_reads_ind2.

Lemma reads_repr s i x : reads shown s i x -> exists F, forall fuel, (F <= fuel)%nat -> repr shown arrays fuel s i = Ok x.
Proof.
  revert i x. apply (reads_ind2 shown s
    (fun i x _ => exists F, forall fuel, (F <= fuel)%nat -> repr shown arrays fuel s i = Ok x)
    (fun v x _ => exists F, forall fuel, (F <= fuel)%nat -> match a_transform v with Some j => repr shown arrays fuel s j | None => Ok (shown v) end = Ok x)).
  - intros i n b o G NB NO B A. destruct (head_reads s i n b G B) as [F H]. exists (S F). intros [|f] L; [lia|]. cbn [repr].
    rewrite G. cbn [bind]. rewrite H by lia. cbn [bind]. destruct (t_class n) eqn:K; try congruence;
    rewrite (tail_reads s n o A); cbn [bind]; now rewrite !app_assoc_s.
  - intros i n op b l r G K B Hl [Fl Il] Hr [Fr Ir]. destruct (head_reads s i n b G B) as [F H].
    exists (S (F + Fl + Fr)). intros [|f] L; [lia|]. cbn [repr]. rewrite G. cbn [bind]. rewrite H by lia. cbn [bind]. rewrite K.
    rewrite Il by lia. cbn [bind]. rewrite Ir by lia. cbn [bind]. now rewrite !app_assoc_s.
  - intros v E. exists 0%nat. intros fuel _. now rewrite E.
  - intros v j x E R [F H]. exists F. intros fuel L. rewrite E. now apply H.
Qed.

Scheme has_shape_ind2 := Induction for has_shape Sort Prop with side_ind2 := Induction for side Sort Prop.
Lemma shape_reads s i t : has_shape s i t -> (forall j, within s i j -> presentable s j) -> exists x, reads shown s i x.
Proof.
  revert i t. apply (has_shape_ind2 s
    (fun i t _ => (forall j, within s i j -> presentable s j) -> exists x, reads shown s i x)
    (fun v o _ => (forall k j, a_transform v = Some k -> within s k j -> presentable s j) -> exists x, side_reads shown s v x)).
  - intros i n G NB NO P. destruct (P i (itself s i)) as (n' & G' & [b B] & A). assert (n' = n) by congruence. subst n'.
    destruct A as [[o A]|[o A]]; [destruct (NO o A)|]. eexists. eapply read_single; eauto.
  - intros i n o l r G K Hl Il Hr Ir P. destruct (P i (itself s i)) as (n' & G' & [b B] & _). assert (n' = n) by congruence. subst n'.
    destruct Il as [x X]. { intros k j E W. apply P. eapply below; [exact G|eauto|now left|exact E|exact W]. }
    destruct Ir as [y Y]. { intros k j E W. apply P. eapply below; [exact G|eauto|now right|exact E|exact W]. }
    eexists. eapply read_operator; eauto.
  - intros v E _. eexists. now constructor.
  - intros v j t E H I P. destruct I as [x X]. { intros k W. now apply (P j). } exists x. eapply read_inner; eauto.
Qed.
Lemma printed s i t : has_shape s i t -> (forall j, within s i j -> presentable s j) ->
  exists x F, forall fuel, (F <= fuel)%nat -> repr shown arrays fuel s i = Ok x.
Proof. intros H P. destruct (shape_reads s i t H P) as [x X]. exists x. exact (reads_repr s i x X). Qed.

(** Parentheses. *)
Lemma occ_head fuel s i n h c : get s i = Ok n -> head arrays fuel s i = Ok h -> occurrences c (class_name (t_class n)) = 0%nat -> digit c = false ->
  c <> " "%char -> c <> "i"%char -> c <> "d"%char -> c <> "="%char -> c <> "["%char -> c <> "]"%char -> c <> "b"%char -> c <> "a"%char -> c <> "s"%char -> c <> "e"%char ->
  occurrences c h = (if Ascii.eqb c "(" then 1 else 0)%nat.
Proof.
  intros G H N D N1 N2 N3 N4 N5 N6 N7 N8 N9 N10. apply Ascii.eqb_neq in N1, N2, N3, N4, N5, N6, N7, N8, N9, N10.
  unfold head in H. rewrite G in H. cbn [bind] in H. apply bind_ok in H as (b & _ & H). destruct b.
  - apply bind_ok in H as (r & _ & H). injection H as <-. repeat (rewrite occ_app || cbn [occurrences]). rewrite N, !(occ_decimal c) by exact D.
    rewrite N1, N2, N3, N4, N5, N6, N7, N8, N9, N10. destruct (Ascii.eqb c "("); reflexivity.
  - injection H as <-. repeat (rewrite occ_app || cbn [occurrences]). rewrite N, !(occ_decimal c) by exact D. rewrite N1, N2, N3, N4. destruct (Ascii.eqb c "("); reflexivity.
Qed.
Lemma occ_tail s n t : tail arrays s n = Ok t -> balanced t.
Proof.
  unfold tail, balanced. intros H. apply bind_ok in H as (x & _ & H). destruct x.
  - apply bind_ok in H as (z & _ & H). injection H as <-. cbn [occurrences Ascii.eqb Bool.eqb]; now rewrite !occ_app, !occ_decimal.
  - apply bind_ok in H as (b & _ & H). destruct b; [|injection H as <-; reflexivity].
    apply bind_ok in H as (z & _ & H). injection H as <-. cbn [occurrences Ascii.eqb Bool.eqb]; now rewrite !occ_app, !occ_decimal.
Qed.
Lemma parentheses s : (forall v, balanced (shown v)) -> (forall i n, get s i = Ok n -> In (t_class n) classes) ->
  forall fuel i t x, has_shape s i t -> repr shown arrays fuel s i = Ok x -> occurrences "(" x = (occurrences ")" x + operators t)%nat.
Proof.
  intros HS HC. induction fuel as [|f IH]; intros i t x T H; [discriminate|]. cbn [repr] in H.
  apply bind_ok in H as (n & G & H). apply bind_ok in H as (h & Hh & H).
  destruct (classes_plain _ (HC i n G)) as (_ & N1 & N2 & _).
  assert (O1 : occurrences "(" h = 1%nat) by (rewrite (occ_head (S f) s i n h "(" G Hh N1); congruence || reflexivity).
  assert (O2 : occurrences ")" h = 0%nat) by (rewrite (occ_head (S f) s i n h ")" G Hh N2); congruence || reflexivity).
  inversion T as [i' n' G' NB NO|i' n' o l r G' K Sl Sr]; subst; assert (n' = n) by congruence; subst n'.
  - assert (exists t, tail arrays s n = Ok t /\ x = h ++ ")" ++ t) as (t & Ht & ->).
    { destruct (t_class n) eqn:K; try congruence; apply bind_ok in H as (t & Ht & H); exists t; split; congruence. }
    pose proof (occ_tail s n t Ht) as B. unfold balanced in B. repeat (rewrite occ_app || cbn [occurrences operators Ascii.eqb Bool.eqb]). lia.
  - rewrite K in H. apply bind_ok in H as (a & Ha & H). apply bind_ok in H as (b & Hb & H). injection H as <-.
    assert (S1 : forall v d y, side s v d -> match a_transform v with Some j => repr shown arrays f s j | None => Ok (shown v) end = Ok y ->
              occurrences "(" y = (occurrences ")" y + match d with Some q => operators q | None => 0 end)%nat).
    { intros v d y Sd Hy. inversion Sd as [v' E|v' j q E Q]; subst; rewrite E in Hy.
      - injection Hy as <-. rewrite (HS v). lia.
      - now apply (IH j q y Q). }
    apply (S1 _ _ _ Sl) in Ha. apply (S1 _ _ _ Sr) in Hb. repeat (rewrite occ_app || cbn [occurrences operators Ascii.eqb Bool.eqb]). lia.
Qed.

(** Telling transforms apart. *)
Lemma repr_start s fuel i x : known s i -> repr shown arrays fuel s i = Ok x ->
  exists k rest, contains " " k = false /\ starts_not digit rest /\ x = k ++ String " " ("(id=" ++ decimal (oid_in (reg s) i) ++ rest).
Proof.
  intros (n & G & C & NB) H. destruct fuel as [|f]; [discriminate|]. cbn [repr] in H. rewrite G in H. cbn [bind] in H. apply bind_ok in H as (h & Hh & H).
  assert (exists r0 r1 c, h = class_name (t_class n) ++ " (id=" ++ decimal (oid_in (reg s) i) ++ r0 /\ starts_not digit (r0 ++ String c r1) /\ x = h ++ String c r1) as (r0 & r1 & c & E & D & ->).
  { assert (exists r0, h = class_name (t_class n) ++ " (id=" ++ decimal (oid_in (reg s) i) ++ r0 /\ (r0 = "" \/ exists q, r0 = String "[" q)) as (r0 & E & R).
    { unfold head in Hh. rewrite G in Hh. cbn [bind] in Hh. apply bind_ok in Hh as (b & _ & Hh). destruct b.
      - apply bind_ok in Hh as (r & _ & Hh). injection Hh as <-. eexists. rewrite !app_assoc_s. split; [reflexivity|]. right. now eexists.
      - injection Hh as <-. exists "". split; [now rewrite app_nil_s|now left]. }
    assert (exists r1 c, x = h ++ String c r1 /\ digit c = false) as (r1 & c & X & D).
    { destruct (t_class n) eqn:K; try congruence.
      all: try (apply bind_ok in H as (t & _ & H); injection H as <-; exists t, ")"%char; split; reflexivity).
      apply bind_ok in H as (a & _ & H). apply bind_ok in H as (b & _ & H). injection H as <-. eexists _, ","%char. split; reflexivity. }
    exists r0, r1, c. split; [exact E|]. split; [|exact X]. destruct R as [->|[q ->]]; [exact D|reflexivity]. }
  exists (class_name (t_class n)), (r0 ++ String c r1). split; [apply (classes_plain _ C)|]. split; [exact D|]. rewrite E, !app_assoc_s. reflexivity.
Qed.
Lemma ids_apart s : NoDup (heap (reg s)) -> length (nodes s) = length (heap (reg s)) ->
  forall fuel fuel' i j x, known s i -> known s j -> repr shown arrays fuel s i = Ok x -> repr shown arrays fuel' s j = Ok x -> i = j.
Proof.
  intros N L fuel fuel' i j x Ki Kj Hi Hj. destruct (repr_start s fuel i x Ki Hi) as (k & r & A & B & ->).
  destruct (repr_start s fuel' j _ Kj Hj) as (k' & r' & A' & B' & E).
  destruct (cut_inj " " _ _ _ _ A A' E) as [_ E']. cbn [append] in E'. injection E' as E'.
  destruct (decimal_first _ _ _ _ B B' E') as [Z _].
  assert (I : forall i, known s i -> id_of (reg s) i = Some (oid_in (reg s) i)).
  { intros q (n & G & _). unfold oid_in, id_of. unfold get in G. destruct (nth_error (nodes s) q) eqn:E1; [|discriminate].
    assert (q < length (heap (reg s)))%nat by (rewrite <- L; apply nth_error_Some; congruence).
    destruct (nth_error (heap (reg s)) q) eqn:E2; [reflexivity|]. apply nth_error_None in E2. lia. }
  apply I in Ki, Kj. unfold id_of in *. rewrite Z in Ki. apply (proj1 (NoDup_nth_error _) N); [apply nth_error_Some; congruence|congruence].
Qed.
(** Bound to a number. *)
Lemma number_unprinted s i n v z f : get s i = Ok n -> t_class n <> Buf -> (forall o, t_class n <> Op o) -> t_next n = VNone ->
  t_buf n = v -> v = VInt z \/ v = VFloat z -> z <> 0%Z -> (exists h, head arrays (S f) s i = Ok h) ->
  repr shown arrays (S f) s i = Err AttributeError.
Proof.
  intros G NB NO NN B V Z [h H]. cbn [repr]. rewrite G. cbn [bind]. rewrite H. cbn [bind].
  assert (T : tail arrays s n = Err AttributeError).
  { unfold tail. rewrite NN. cbn [truth bind]. rewrite B. apply Z.eqb_neq in Z. destruct V as [->| ->]; cbn [truth bind]; rewrite Z; reflexivity. }
  destruct (t_class n); try congruence; rewrite T; reflexivity.
Qed.
End Texts.

(** An operator that is its own operand. *)
Lemma own_operand shown arrays s i n o : get s i = Ok n -> t_class n = Op o -> a_transform (t_left n) = Some i -> forall fuel x, repr shown arrays fuel s i <> Ok x.
Proof.
  intros G K L. induction fuel as [|f IH]; intros x H; [discriminate|]. cbn [repr] in H. rewrite G in H. cbn [bind] in H.
  apply bind_ok in H as (h & _ & H). rewrite K, L in H. apply bind_ok in H as (l & Hl & _). exact (IH l Hl).
Qed.

(** ** Programs *)
Section Kept.
Variable P : st -> Prop.
Hypothesis P_note : forall s c, P s -> P (mkSt (reg s) (nodes s) (log s ++ [c])%list (on s)).
Hypothesis P_put : forall s i n, P s -> P (put s i n).
Hypothesis P_alloc : forall s n, P s -> P (fst (alloc s n)).
Lemma kept_note s i k m sg args kw s' : P s -> note s i k m sg args kw = Ok s' -> P s'.
Proof.
  unfold note. intros L E. destruct (on s) eqn:O; [|injection E as <-; exact L]. destruct (mk_command _ _ _ _ _) as [c|]; [|discriminate E].
  cbn [bind] in E. injection E as <-. rewrite <- O. now apply P_note.
Qed.
Lemma kept_method s i m v s' : P s -> method s i m v = Ok s' -> P s'.
Proof.
  unfold method. intros L E. destruct (get s i) as [n|]; [|discriminate E]. cbn [bind] in E. destruct (method_sig m); [|discriminate E].
  destruct (has_method _ _); [|discriminate E]. eapply kept_note; [|exact E]. now apply P_put.
Qed.
Lemma kept_make0 s k s' j : P s -> make0 s k = Ok (s', j) -> P s'.
Proof.
  unfold make0. intros L E. destruct (bind_args _ _ _) as [b|]; [|discriminate E]. cbn [bind] in E.
  pose proof (P_alloc s (blank k b) L) as L1. destruct (alloc s (blank k b)) as [s1 i]. cbn [fst snd] in L1.
  destruct (note s1 i _ _ _ _ _) as [s2|] eqn:N; [|discriminate E]. injection E as <- <-. exact (kept_note _ _ _ _ _ _ _ _ L1 N).
Qed.
Lemma kept_copy f : forall s i s' j, P s -> copy f s i = Ok (s', j) -> P s'.
Proof.
  induction f as [|f IH]; intros s i s' j L E; [discriminate E|]. rewrite copy_unfold in E.
  assert (GV : forall s v m j s', P s -> give f s v m j = Ok s' -> P s').
  { clear s s' j i L E. intros s v m j s' L E. unfold give in E. destruct (a_transform v) as [t|]; [|exact (kept_method _ _ _ _ _ L E)].
    destruct (copy f s t) as [[s1 x]|] eqn:C; [|discriminate E]. cbn [bind fst snd] in E. exact (kept_method _ _ _ _ _ (IH _ _ _ _ L C) E). }
  destruct (get s i) as [n|]; [|discriminate E]. cbn [bind] in E.
  destruct (make0 s (t_class n)) as [[s0 j0]|] eqn:E0; [|discriminate E]. pose proof (kept_make0 _ _ _ _ L E0) as L0. cbn [bind fst snd] in E.
  destruct (method s0 j0 "set_buffer" (t_buf n)) as [s1|] eqn:E1; [|discriminate E]. pose proof (kept_method _ _ _ _ _ L0 E1) as L1. cbn [bind] in E.
  destruct (base_of (length (nodes s1)) s1 i) as [b|]; [|discriminate E]. cbn [bind] in E.
  destruct (method s1 j0 "set_base" (obj s1 b)) as [s2|] eqn:E2; [|discriminate E]. pose proof (kept_method _ _ _ _ _ L1 E2) as L2. cbn [bind] in E.
  destruct (match a_transform (t_next n) with Some _ => give f s2 (t_next n) "set_next" j0 | None => Ok s2 end) as [s3|] eqn:E3; [|discriminate E]. cbn [bind] in E.
  assert (L3 : P s3) by (destruct (a_transform (t_next n)); [exact (GV _ _ _ _ _ L2 E3)|injection E3 as <-; exact L2]).
  assert (LF : forall r, (let* m := get s3 j0 in Ok (put s3 j0 (mkT (t_class m) (t_left m) (t_right m) (t_next m) (t_buf m) (t_base m) (t_attrs n)), j0)) = Ok r -> P (fst r)).
  { intros r X. destruct (get s3 j0); [|discriminate X]. injection X as <-. cbn [fst snd]. now apply P_put. }
  destruct (t_class n); try exact (LF _ E).
  destruct (method s3 j0 "set_operator" _) as [s4|] eqn:E4; [|discriminate E]. pose proof (kept_method _ _ _ _ _ L3 E4) as L4. cbn [bind] in E.
  destruct (give f s4 (t_left n) "set_left" j0) as [s5|] eqn:E5; [|discriminate E]. pose proof (GV _ _ _ _ _ L4 E5) as L5. cbn [bind] in E.
  destruct (match a_transform (t_right n) with Some _ => give f s5 (t_right n) "set_right" j0 | None => method s5 j0 "set_left" (t_left n) end) as [s6|] eqn:E6; [|discriminate E]. injection E as <- <-.
  destruct (a_transform (t_right n)); [exact (GV _ _ _ _ _ L5 E6)|exact (kept_method _ _ _ _ _ L5 E6)].
Qed.
Lemma kept_operand f s v s' w : P s -> operand f s v = Ok (s', w) -> P s'.
Proof.
  unfold operand. intros L E. destruct (a_transform v) as [t|]; [|injection E as <- <-; exact L].
  destruct (copy f s t) as [[s1 x]|] eqn:C; [|discriminate E]. injection E as <- <-. exact (kept_copy _ _ _ _ _ L C).
Qed.
Lemma kept_make f s k args kw s' i : P s -> make f s k args kw = Ok (s', i) -> P s'.
Proof.
  unfold make. intros L E. destruct (bind_args _ _ _) as [b|]; [|discriminate E]. cbn [bind] in E.
  assert (B : forall r, body f s k b = Ok r -> P (fst r)).
  { intros r X. unfold body in X. pose proof (P_alloc s (blank k b) L) as L1. destruct (alloc s (blank k b)) as [s1 j]. cbn [fst snd] in L1.
    destruct k; try (injection X as <-; assumption).
    destruct (operand f s1 (arg b "left")) as [[s2 l]|] eqn:Ol; [|discriminate X]. cbn [bind fst snd] in X.
    destruct (operand f s2 (arg b "right")) as [[s3 r']|] eqn:Or; [|discriminate X]. injection X as <-. cbn [fst snd].
    apply P_put. eapply kept_operand; [|exact Or]. eapply kept_operand; [|exact Ol]. exact L1. }
  destruct (body f s k b) as [[s1 j]|]; [|discriminate E]. pose proof (B _ eq_refl) as L1. cbn [bind fst snd] in *.
  destruct (note s1 j _ _ _ _ _) as [s2|] eqn:N; [|discriminate E]. injection E as <- <-. exact (kept_note _ _ _ _ _ _ _ _ L1 N).
Qed.
Lemma kept_step f s a s' : P s -> do_step f s a = Ok s' -> P s'.
Proof.
  intros L E. destruct a as [k args kw|i|i j|i v|i m v]; cbn [do_step] in E.
  - destruct (make f s k args kw) as [[s1 x]|] eqn:M; [|discriminate E]. injection E as <-. exact (kept_make _ _ _ _ _ _ _ L M).
  - destruct (copy f s i) as [[s1 x]|] eqn:M; [|discriminate E]. injection E as <-. exact (kept_copy _ _ _ _ _ L M).
  - destruct (chain f s i j) as [[s1 x]|] eqn:M; [|discriminate E]. injection E as <-. unfold chain in M. destruct (get s i) as [n|]; [|discriminate M]. cbn [bind] in M.
    destruct (t_class n); try discriminate M;
    (destruct (copy f s i) as [[s2 y]|] eqn:C1; [|discriminate M]; cbn [bind fst snd] in M;
     destruct (copy f s2 j) as [[s3 z]|] eqn:C2; [|discriminate M]; cbn [bind fst snd] in M;
     destruct (method s3 y _ _) as [s4|] eqn:M1; [|discriminate M]; cbn [bind] in M;
     destruct (method s4 y _ _) as [s5|] eqn:M2; [|discriminate M]; injection M as <- <-;
     exact (kept_method _ _ _ _ _ (kept_method _ _ _ _ _ (kept_copy _ _ _ _ _ (kept_copy _ _ _ _ _ L C1) C2) M1) M2)).
  - destruct (bind_to f s i v) as [[s1 x]|] eqn:M; [|discriminate E]. injection E as <-. unfold bind_to in M. destruct (get s i) as [n|]; [|discriminate M]. cbn [bind] in M.
    destruct (t_class n); try discriminate M;
    (destruct (copy f s i) as [[s2 y]|] eqn:C1; [|discriminate M]; cbn [bind fst snd] in M;
     destruct (bound f s i) as [[|]|]; try discriminate M; cbn [bind] in M;
     destruct (last_of f s2 y) as [q|]; [|discriminate M]; cbn [bind] in M;
     destruct (method s2 q _ _) as [s5|] eqn:M2; [|discriminate M]; injection M as <- <-;
     exact (kept_method _ _ _ _ _ (kept_copy _ _ _ _ _ L C1) M2)).
  - exact (kept_method _ _ _ _ _ L E).
Qed.
Lemma kept_steps f l : forall s s', P s -> do_steps f s l = Ok s' -> P s'.
Proof.
  induction l as [|a l IH]; intros s s' L E; [injection E as <-; exact L|]. cbn [do_steps] in E.
  destruct (do_step f s a) as [s1|] eqn:E1; [|discriminate E]. exact (IH _ _ (kept_step _ _ _ _ L E1) E).
Qed.
End Kept.

Definition numbered (s : st) : Prop :=
  NoDup (heap (reg s)) /\ length (nodes s) = length (heap (reg s)) /\ forall z, In z (heap (reg s)) -> (z <= counter (reg s))%Z.
Lemma program_numbered f l s : do_steps f fresh l = Ok s -> numbered s.
Proof.
  apply (kept_steps numbered).
  - intros t c H. exact H.
  - intros t i n (A & B & C). split; [exact A|]. cbn [put nodes reg]. rewrite upd_length. auto.
  - intros t n (A & B & C). unfold numbered. cbn [alloc create fst reg nodes heap counter]. split; [|split].
    + apply JournalFacts.NoDup_snoc; [exact A|]. intros X. apply C in X. lia.
    + rewrite !app_length. cbn. lia.
    + intros z X. apply in_app_or in X as [X|[<-|[]]]; [apply C in X|]; lia.
  - split; [constructor|]. split; [reflexivity|]. intros z [].
Qed.
Lemma told_apart shown arrays f l s : do_steps f fresh l = Ok s ->
  forall fuel fuel' i j x, known s i -> known s j -> repr shown arrays fuel s i = Ok x -> repr shown arrays fuel' s j = Ok x -> i = j.
Proof. intros E. destruct (program_numbered f l s E) as (A & B & _). exact (ids_apart shown arrays s A B). Qed.

(** ** Commands *)
Lemma command_first c x : command_text c = Ok x -> exists r, starts_not digit r /\ x = "Command #" ++ decimal (c_id c) ++ r.
Proof.
  unfold command_text. intros H. apply bind_ok in H as (z & _ & H). injection H as <-. destruct (creation c).
  - eexists. split; [|reflexivity]. reflexivity.
  - eexists (": " ++ c_class c ++ "(id=" ++ decimal z ++ ")" ++ "/" ++ c_method c ++ "(…)"). split; [reflexivity|].
    repeat (rewrite app_assoc_s || (progress cbn [append])). reflexivity.
Qed.
Lemma commands_apart c d x : command_text c = Ok x -> command_text d = Ok x -> c_id c = c_id d.
Proof.
  intros C D. destruct (command_first c x C) as (r & R & ->). destruct (command_first d _ D) as (r' & R' & E).
  cbn [append] in E. injection E as E. exact (proj1 (decimal_first _ _ _ _ R R' E)).
Qed.
Lemma recorded_apart h q i j c d x : nth_error (Queue.commands (Queue.history h) q) i = Some c -> nth_error (Queue.commands (Queue.history h) q) j = Some d ->
  command_text c = Ok x -> command_text d = Ok x -> i = j.
Proof.
  assert (W : forall l i j c d, QueueSpec.increasing_upto (Queue.cids (Queue.history h)) l -> (i < j)%nat -> nth_error l i = Some c -> nth_error l j = Some d -> (c_id c < c_id d)%Z).
  { clear. intros l i j c d [_ H] L A B. apply nth_error_split in A as (l1 & l2 & -> & <-).
    rewrite nth_error_app2 in B by lia. destruct (j - length l1)%nat as [|k] eqn:K; [lia|]. cbn [nth_error] in B. apply nth_error_split in B as (l3 & l4 & -> & _).
    eapply H. reflexivity. }
  pose proof (QueueFacts.increasing_history h q) as I. intros A B C D. pose proof (commands_apart c d x C D) as E.
  destruct (Nat.lt_trichotomy i j) as [L|[L|L]]; [|exact L|]; [pose proof (W _ _ _ _ _ I L A B)|pose proof (W _ _ _ _ _ I L B A)]; lia.
Qed.
Lemma text_line c : proper_command c -> exists x, command_text c = Ok x /\ one_line x.
Proof.
  intros ([z Z] & A & B). unfold command_text. rewrite Z. cbn [bind]. eexists. split; [reflexivity|].
  unfold one_line in *. destruct (creation c); repeat (rewrite contains_app || cbn [contains append]); rewrite ?A, ?B, !decimal_lacks by reflexivity; reflexivity.
Qed.
Lemma split_line c s t : contains c s = false -> split_on c (s ++ String c t) = s :: split_on c t.
Proof.
  induction s as [|x s IH]; cbn [contains append split_on].
  - intros _. now rewrite Ascii.eqb_refl.
  - intros H. apply orb_false_iff in H as [H1 H2]. rewrite Ascii.eqb_sym, H1, IH by exact H2. reflexivity.
Qed.
Lemma queue_lines l : Forall proper_command l -> exists t xs, command_lines l = Ok t /\ map command_text l = map Ok xs /\ lines t = (map item xs ++ [""])%list.
Proof.
  induction 1 as [|c l P H (t & xs & A & B & C)].
  - exists "", []. repeat split.
  - destruct (text_line c P) as (x & X & O). exists ("  - " ++ x ++ eol ++ t), (x :: xs).
    cbn [command_lines map]. rewrite X. cbn [bind]. rewrite A. cbn [bind]. split; [reflexivity|]. split; [now rewrite B|].
    unfold lines, eol. change ("  - " ++ x ++ String (ascii_of_nat 10) "" ++ t) with ("  - " ++ x ++ String (ascii_of_nat 10) t). rewrite <- app_assoc_s.
    rewrite split_line; [unfold lines in C; now rewrite C|]. rewrite contains_app. exact O.
Qed.
Lemma queue_read s q d : nth_error (Queue.qs s) q = Some d -> one_line (Queue.q_name d) -> Forall proper_command (Queue.q_cmds d) ->
  exists x xs b, queue_text s q = Ok x /\ map command_text (Queue.q_cmds d) = map Ok xs /\ (b = true <-> Queue.active s = Some q) /\
    lines x = (queue_head d b :: map item xs ++ [""])%list.
Proof.
  intros E N P. destruct (queue_lines _ P) as (t & xs & A & B & C). unfold queue_text. rewrite E, A. cbn [bind].
  eexists _, xs, (match Queue.active s with Some a => Nat.eqb a q | None => false end). split; [reflexivity|]. split; [exact B|]. split.
  - destruct (Queue.active s) as [a|]; [|split; discriminate]. destruct (Nat.eqb_spec a q) as [Q|Q]; split; intros X; [now rewrite Q|reflexivity|discriminate X|injection X as X; destruct (Q X)].
  - unfold lines. rewrite <- C. set (b := match Queue.active s with Some a => Nat.eqb a q | None => false end).
    set (n := decimal (Z.of_nat (length (Queue.q_cmds d)))). assert (NL : one_line n) by (apply decimal_lacks; reflexivity).
    unfold queue_head, lines. fold n. rewrite <- split_line.
    + f_equal. unfold eol, state_text. destruct b, (Queue.q_ro d); repeat (rewrite app_assoc_s || (progress cbn [append])); reflexivity.
    + unfold state_text, one_line in *. destruct b, (Queue.q_ro d); repeat (rewrite contains_app || cbn [contains append]); rewrite N, NL; reflexivity.
Qed.
Lemma creation_reloaded c z : contains "." (c_method c) = true -> object_id c = Ok z ->
  command_text c = Ok ("Command #" ++ decimal (c_id c) ++ ": " ++ c_class c ++ "(id=" ++ decimal z ++ ")") /\
  command_text (reload c) = Ok ("Command #" ++ decimal (c_id c) ++ ": " ++ c_method c ++ "(id=" ++ decimal z ++ ")/__init__(…)").
Proof.
  intros D Z. unfold command_text, reload. rewrite Z, D. unfold creation. rewrite D, orb_true_r. cbn [bind]. split; [reflexivity|].
  change (object_id (mkC (c_id c) (c_method c) "__init__" (c_params c))) with (object_id c). rewrite Z. cbn [bind c_method c_class c_id].
  cbn [String.eqb contains Ascii.eqb Bool.eqb orb]. repeat (rewrite app_assoc_s || (progress cbn [append])). reflexivity.
Qed.
Lemma dump_lines called c l : dumped called c = Ok l -> exists x, l = (x :: map (param_line called) (c_params c))%list.
Proof. unfold dumped. intros H. apply bind_ok in H as (z & _ & H). injection H as <-. eauto. Qed.
Lemma length_app (a b : string) : String.length (a ++ b) = (String.length a + String.length b)%nat.
Proof. induction a; cbn [append String.length Nat.add]; congruence. Qed.
Lemma length_zeros n : String.length (zeros n) = n.
Proof. induction n; cbn [zeros String.length]; congruence. Qed.
Lemma three_digits z : (0 <= z)%Z -> (3 <= String.length (padded z))%nat /\ exists k, padded z = zeros k ++ decimal z /\ (k = 0%nat \/ String.length (padded z) = 3%nat).
Proof.
  intros Z. unfold padded. destruct (Z.ltb_spec z 0); [lia|]. rewrite length_app, length_zeros. split; [lia|]. eexists. split; [reflexivity|]. lia.
Qed.
Lemma identified called c :
  match dget (c_params c) "id" with
  | None => command_text c = Err KeyError /\ dumped called c = Err KeyError
  | Some (VInt z) | Some (VOid z) => object_id c = Ok z /\ is_ok (command_text c) = true /\ is_ok (dumped called c) = true
  | Some (VFloat _) => True
  | Some _ => command_text c = Err TypeError /\ dumped called c = Err TypeError
  end.
Proof. unfold command_text, dumped, object_id. destruct (dget (c_params c) "id") as [v|]; [|now split]. destruct v; cbn [bind is_ok]; try exact I; repeat split. Qed.
Lemma dump_read called c l : dumped called c = Ok l -> exists z x, object_id c = Ok z /\ l = (x :: map (param_line called) (c_params c))%list /\
  x = "#" ++ padded (c_id c) ++ ": " ++ (if creation c then "Creation of " ++ c_class c ++ "(id=" ++ decimal z ++ ")" else c_class c ++ "(id=" ++ decimal z ++ ") → " ++ c_method c ++ "(…)").
Proof.
  unfold dumped. intros H. apply bind_ok in H as (z & Z & H). injection H as <-. exists z. eexists. split; [exact Z|]. split; [reflexivity|]. destruct (creation c); reflexivity.
Qed.
Lemma creation_iff c : creation c = true <-> c_method c = "" \/ contains "." (c_method c) = true.
Proof. unfold creation. rewrite orb_true_iff, String.eqb_eq. reflexivity. Qed.
Lemma param_shown called k v : param_line called (k, v) = "      | " ++ k ++ ": " ++ match v with VConv f w => class_of w ++ " (→ " ++ called f ++ ")" | _ => class_of v end.
Proof. destruct v; reflexivity. Qed.
Lemma recorded_id oidf cid cn mn id sg args kw c : mk_command oidf cid cn mn (build_parameters id sg args kw) = Ok c -> ~ In "id" (p_names sg ++ s_locals sg) -> ~ In "id" (dkeys kw) ->
  object_id c = Ok id.
Proof.
  unfold mk_command. intros H NP NK. destruct (dmem _ "id"); [|discriminate]. injection H as <-. unfold object_id. cbn [c_params].
  assert (M : forall p : dict string value, dget (map (fun kv => (fst kv, id_value oidf (snd kv))) p) "id" = match dget p "id" with Some v => Some (id_value oidf v) | None => None end).
  { induction p as [|[k v] p IH]; cbn [map fst snd dget]; [reflexivity|]. destruct (Base.eqb _ _); auto. }
  assert (NE : forall k v, k <> "id" -> key_of k v <> "id").
  { intros k v N. unfold key_of. destruct (is_object v); [|exact N]. destruct k as [|a [|b k]]; cbn [append]; intros X; try discriminate X.
    injection X as -> -> X. destruct k; discriminate X. }
  assert (A : forall l p, (forall kv, In kv l -> fst kv <> "id") -> dget p "id" = Some (VOid id) -> dget (fold_left add_positional l p) "id" = Some (VOid id)).
  { induction l as [|kv l IH]; intros p N D; [exact D|]. cbn [fold_left]. apply IH; [intros x X; apply N; now right|].
    unfold add_positional. rewrite dget_dset. destruct (Base.eqb _ _) eqn:E; [|exact D]. apply eqb_eq in E. destruct (NE (fst kv) (snd kv)); [apply N; now left|congruence]. }
  assert (B : forall l p, (forall kv, In kv l -> fst kv <> "id") -> dget p "id" = Some (VOid id) -> dget (fold_left add_missing l p) "id" = Some (VOid id)).
  { induction l as [|kv l IH]; intros p N D; [exact D|]. cbn [fold_left]. apply IH; [intros x X; apply N; now right|].
    unfold add_missing. destruct (dmem p (fst kv)); [exact D|]. rewrite dget_dset. destruct (Base.eqb _ _) eqn:E; [|exact D]. apply eqb_eq in E. destruct (NE (fst kv) (snd kv)); [apply N; now left|congruence]. }
  rewrite M. unfold build_parameters. rewrite B; [reflexivity| |].
  - intros [k v] X E. cbn [fst] in E. subst k. apply NP. apply in_or_app. left. unfold p_names.
    clear - X. induction (s_params sg) as [|p l IH]; cbn [get_default_args map] in *; [destruct X|]. destruct (p_default p); [|right; now apply IH].
    destruct X as [X|X]; [injection X as X _; left; exact X|right; now apply IH].
  - apply B.
    + intros [k v] X E. cbn [fst] in E. subst k. apply NK. unfold dkeys. change "id" with (fst ("id", v)). now apply in_map.
    + apply A; [|reflexivity]. intros [k v] X E. cbn [fst] in E. subst k. apply NP. exact (in_combine_l _ _ _ _ X).
Qed.
