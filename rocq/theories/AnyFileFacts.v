(** Proofs about loading any file. *)
From Verif Require Import Base Registry Convert Command CommandSpec CommandFacts Queue QueueSpec QueueFacts Base64 Execute Json JsonSpec JsonFacts JsonText JsonFile AnyFile AnyFileSpec.
Open Scope string_scope.

(** ** Reading any text: a value or a ValueError *)
Fixpoint clean (v : jt) : Prop :=
  match v with
  | TBad => False
  | TList l => (fix go (l : list jt) := match l with [] => True | x :: r => clean x /\ go r end) l
  | TDict d => (fix go (d : list (pystr * jt)) := match d with [] => True | (_, x) :: r => clean x /\ go r end) d
  | _ => True
  end.
Lemma clean_list l : clean (TList l) <-> Forall clean l.
Proof. cbn [clean]. induction l as [|x l IH]; [split; constructor|]. rewrite Forall_cons_iff, <- IH. tauto. Qed.
Lemma clean_dict d : clean (TDict d) <-> Forall (fun kv => clean (snd kv)) d.
Proof. cbn [clean]. induction d as [|[k x] d IH]; [split; constructor|]. rewrite Forall_cons_iff, <- IH. cbn [snd]. tauto. Qed.

Definition shorter {A} (n : nat) (P : A -> Prop) (r : res (A * text)) : Prop :=
  match r with Ok (v, rest) => P v /\ (length rest < n)%nat | Err e => e = ValueError end.
Lemma spaces_length s : (length (spaces s) <= length s)%nat.
Proof. induction s as [|c s IH]; cbn [spaces]; [lia|]. destruct (is_space c); cbn [length] in *; lia. Qed.
Lemma units_shorter : forall n s, (length s <= n)%nat -> shorter (S n) (fun _ => True) (scan_units s).
Proof.
  assert (W : forall s, shorter (S (length s)) (fun _ => True) (scan_units s)).
  { intros s. assert (E : exists n, (length s <= n)%nat) by (exists (length s); lia). destruct E as [n E].
    revert s E. induction n as [|n IH]; intros s E.
    { destruct s; [reflexivity | cbn in E; lia]. }
    destruct s as [|c r]; [reflexivity|]. cbn [length] in E. cbn [scan_units].
    assert (One : forall k r1, (length r1 < length (c :: r))%nat -> shorter (S (length (c :: r))) (fun _ => True)
      (let* x := scan_units r1 in Ok (k :: fst x, snd x))).
    { intros k r1 L. cbn [length] in *. pose proof (IH r1 ltac:(lia)) as G. destruct (scan_units r1) as [[u rest]|e]; cbn in *; [|exact G]. split; [auto|lia]. }
    destruct (JsonText.code c =? 34)%N; [cbn; split; [auto|lia]|].
    destruct (JsonText.code c =? 92)%N; [|destruct (JsonText.code c <? 32)%N; [reflexivity|apply One; cbn; lia]].
    destruct r as [|e r1]; [reflexivity|].
    repeat (match goal with |- shorter _ _ (if (JsonText.code e =? ?k)%N then _ else _) => destruct (JsonText.code e =? k)%N; [try (apply One; cbn; lia)|] end); [|reflexivity].
    destruct r1 as [|a [|b [|c' [|d r2]]]]; try reflexivity.
    destruct (hex_value a), (hex_value b), (hex_value c'), (hex_value d); try reflexivity. apply One. cbn. lia. }
  intros n s L. pose proof (W s) as G. destruct (scan_units s) as [[u r]|e]; cbn in *; [split; [auto|lia]|exact G].
Qed.
Lemma string_shorter s : shorter (S (length s)) (fun _ => True) (scan_string s).
Proof. unfold scan_string. pose proof (units_shorter (length s) s ltac:(lia)) as G. destruct (scan_units s) as [[u r]|e]; exact G. Qed.
Lemma skip_length w s r : skip w s = Some r -> w <> [] -> (length r < length s)%nat.
Proof.
  assert (L : forall w s r, skip w s = Some r -> (length s = length w + length r)%nat).
  { induction w0 as [|a w0 IH]; intros s0 r0; cbn [skip]; [now intros [= ->]|]. destruct s0 as [|b s0]; [discriminate|].
    destruct (Ascii.eqb a b); [|discriminate]. intros E. apply IH in E. cbn. lia. }
  intros E N. apply L in E. destruct w; [congruence|]. cbn in E. lia.
Qed.
Lemma span_length p s : (length (snd (span p s)) <= length s)%nat.
Proof. induction s as [|c s IH]; cbn [span]; [cbn; lia|]. destruct (p c); cbn [snd length] in *; lia. Qed.
Lemma fraction_length s : (length (snd (scan_fraction s)) <= length s)%nat.
Proof.
  destruct s as [|c s]; cbn [scan_fraction]; [cbn; lia|]. destruct (JsonText.code c =? 46)%N; [|cbn; lia].
  pose proof (span_length is_digit s). destruct (span is_digit s) as [[|d l] r]; cbn in *; lia.
Qed.
Lemma exponent_length s : (length (snd (scan_exponent s)) <= length s)%nat.
Proof.
  destruct s as [|c s]; cbn [scan_exponent]; [cbn; lia|]. destruct ((JsonText.code c =? 101)%N || (JsonText.code c =? 69)%N)%bool; [|cbn; lia].
  destruct s as [|x s].
  { cbn. lia. }
  destruct ((JsonText.code x =? 43)%N || (JsonText.code x =? 45)%N)%bool.
  - pose proof (span_length is_digit s). destruct (span is_digit s) as [[|d l] r]; cbn [snd length] in *; lia.
  - pose proof (span_length is_digit (x :: s)). destruct (span is_digit (x :: s)) as [[|d l] r]; cbn [snd length] in *; lia.
Qed.
Lemma number_shorter s : shorter (length s) clean (scan_number s).
Proof.
  unfold scan_number.
  assert (L : (length (snd (scan_sign s)) <= length s)%nat) by (destruct s as [|c s]; cbn [scan_sign]; [cbn; lia|]; destruct (JsonText.code c =? 45)%N; cbn; lia).
  destruct (scan_sign s) as [sg s1]. cbn [snd] in L.
  destruct (scan_whole s1) as [[w s2]|] eqn:W; [|reflexivity].
  assert (L2 : (length s2 < length s1)%nat).
  { destruct s1 as [|c s1]; [discriminate|]. cbn [scan_whole] in W. destruct (JsonText.code c =? 48)%N; [injection W as <- <-; cbn; lia|].
    destruct (is_digit c) eqn:D; [|discriminate]. injection W as W. cbn [span] in W. rewrite D in W. injection W as <- <-.
    pose proof (span_length is_digit s1). cbn. lia. }
  pose proof (fraction_length s2). destruct (scan_fraction s2) as [fr s3]. pose proof (exponent_length s3). destruct (scan_exponent s3) as [ex s4].
  cbn [snd] in *. destruct (fr ++ ex)%list; cbn; split; auto; lia.
Qed.
Lemma atom_shorter s : shorter (length s) clean (scan_atom s).
Proof.
  unfold scan_atom. repeat (match goal with |- context [skip (t ?w) s] => destruct (skip (t w) s) eqn:? end);
  repeat match goal with H : skip ?w s = Some ?r |- _ => apply skip_length in H; [|discriminate] end;
  try (cbn; split; [exact I | assumption]); apply number_shorter.
Qed.
Lemma put_clean d k v : Forall (fun kv => clean (snd kv)) d -> clean v -> Forall (fun kv => clean (snd kv)) (put d k v).
Proof.
  intros D V. induction D as [|[k' v'] d C D IH]; cbn [put]; [now repeat constructor|]. destruct (pystr_eqb k' k); constructor; auto.
Qed.
Lemma scan_total f :
  (forall s, (2 * length s < f)%nat -> shorter (length s) clean (scan f s)) /\
  (forall s acc, (2 * length s + 1 < f)%nat -> Forall clean acc -> shorter (length s) clean (scan_list f s acc)) /\
  (forall s acc, (2 * length s < f)%nat -> Forall (fun kv => clean (snd kv)) acc -> shorter (length s) clean (scan_dict f s acc)).
Proof.
  induction f as [|f (IS & IL & ID)]; (split; [|split]).
  1-3: intros; lia.
  - intros s F. destruct s as [|c r]; [reflexivity|]. cbn [scan]. cbn [length] in F.
    destruct (JsonText.code c =? 34)%N.
    { pose proof (string_shorter r) as G. destruct (scan_string r) as [[x rest]|e]; cbn in *; [split; [exact I|lia]|exact G]. }
    pose proof (spaces_length r) as L.
    destruct (JsonText.code c =? 91)%N.
    { destruct (spaces r) as [|c1 r1]; [reflexivity|]. cbn [length] in L. destruct (JsonText.code c1 =? 93)%N; [cbn; split; [exact I|lia]|].
      pose proof (IL (c1 :: r1) [] ltac:(cbn [length]; lia) (Forall_nil _)) as G. destruct (scan_list f (c1 :: r1) []) as [[v rest]|e]; cbn in *; [split; [tauto|lia]|exact G]. }
    destruct (JsonText.code c =? 123)%N.
    { destruct (spaces r) as [|c1 r1]; [reflexivity|]. cbn [length] in L. destruct (JsonText.code c1 =? 125)%N; [cbn; split; [exact I|lia]|].
      pose proof (ID (c1 :: r1) [] ltac:(cbn [length]; lia) (Forall_nil _)) as G. destruct (scan_dict f (c1 :: r1) []) as [[v rest]|e]; cbn in *; [split; [tauto|lia]|exact G]. }
    apply atom_shorter.
  - intros s acc F A. cbn [scan_list]. pose proof (IS s ltac:(lia)) as G. destruct (scan f s) as [[x rest]|e]; [|exact G]. destruct G as (G1 & G2). cbn [bind fst snd].
    pose proof (spaces_length rest) as L. destruct (spaces rest) as [|c r]; [reflexivity|]. cbn [length] in L.
    assert (A' : Forall clean (acc ++ [x])) by (apply Forall_app; auto).
    destruct (JsonText.code c =? 93)%N; [split; [now apply clean_list|lia]|]. destruct (JsonText.code c =? 44)%N; [|reflexivity].
    pose proof (spaces_length r) as L2.
    pose proof (IL (spaces r) _ ltac:(lia) A') as H. destruct (scan_list f (spaces r) (acc ++ [x])) as [[v w]|e]; cbn in *; [split; [tauto|lia]|exact H].
  - intros s acc F A. cbn [scan_dict]. destruct s as [|q s1]; [reflexivity|]. cbn [length] in F. destruct (negb (JsonText.code q =? 34)%N); [reflexivity|].
    pose proof (string_shorter s1) as G. destruct (scan_string s1) as [[k rest]|e]; [|exact G]. destruct G as (_ & G). cbn [bind fst snd].
    pose proof (spaces_length rest) as L. destruct (spaces rest) as [|c s2]; [reflexivity|]. cbn [length] in L.
    destruct (negb (JsonText.code c =? 58)%N); [reflexivity|]. pose proof (spaces_length s2) as L2.
    pose proof (IS (spaces s2) ltac:(lia)) as H. destruct (scan f (spaces s2)) as [[x rest2]|e]; [|exact H]. destruct H as (H1 & H2). cbn [bind fst snd].
    pose proof (spaces_length rest2) as L3. destruct (spaces rest2) as [|c1 r]; [reflexivity|]. cbn [length] in L3.
    assert (A' := put_clean acc k x A H1).
    destruct (JsonText.code c1 =? 125)%N; [split; [now apply clean_dict|cbn [length]; lia]|]. destruct (JsonText.code c1 =? 44)%N; [|reflexivity].
    pose proof (spaces_length r) as L4.
    pose proof (ID (spaces r) _ ltac:(lia) A') as J. destruct (scan_dict f (spaces r) (put acc k x)) as [[v w]|e]; cbn [shorter length] in *; [split; [tauto|lia]|exact J].
Qed.
Lemma loads_total x : match loads x with Ok v => clean v | Err e => e = ValueError end.
Proof.
  unfold loads. pose proof (spaces_length x) as L.
  destruct (scan_total (S (2 * length x))) as (G & _). specialize (G (spaces x) ltac:(lia)).
  destruct (scan (S (2 * length x)) (spaces x)) as [[v r]|e]; [|exact G]. cbn [bind fst snd].
  destruct (spaces r); [apply G|reflexivity].
Qed.

(** ** What an entry is *)
Lemma item_cases d k : (exists v, item d k = Ok v) \/ item d k = Err KeyError.
Proof. induction d as [|[k' v] d IH]; cbn [item]; [now right|]. destruct (pystr_eqb k' k); [left; eauto|exact IH]. Qed.
Lemma item_in d k v : item d k = Ok v -> exists k', In (k', v) d.
Proof.
  induction d as [|[k' v'] d IH]; cbn [item]; [discriminate|]. destruct (pystr_eqb k' k); [intros [= ->]; exists k'; now left|].
  intros H. destruct (IH H) as (k2 & H2). exists k2. now right.
Qed.
Lemma sub_gives j k v : subscript j k = Ok v <-> gives j k v.
Proof.
  unfold gives. split.
  - destruct j as [| | | | | |d|]; try discriminate. intros E. exists d. split; [reflexivity|exact E].
  - intros (d & -> & E). exact E.
Qed.
Lemma sub_lacks j k : subscript j k = Err KeyError <-> lacks j k.
Proof.
  unfold lacks. split.
  - destruct j as [| | | | | |d|]; try discriminate. cbn [subscript]. intros E. exists d. split; [reflexivity|]. rewrite E. discriminate.
  - intros (d & -> & E). cbn [subscript]. destruct (item_cases d (of_string k)) as [(v & H)|H]; [now apply E in H|exact H].
Qed.
Lemma sub_not j k : ~ a_dict j -> subscript j k = Err TypeError.
Proof. destruct j as [| | | | | |d|]; try reflexivity. intros H. exfalso. apply H. now exists d. Qed.
Lemma sub_cases j k : (exists v, gives j k v) \/ lacks j k \/ ~ a_dict j.
Proof.
  destruct j as [| | | | | |d|].
  7: { destruct (item_cases d (of_string k)) as [(v & H)|H]; [left; exists v; exists d; auto|]. right. left. apply sub_lacks. exact H. }
  all: right; right; intros (d0 & H); discriminate H.
Qed.
Lemma str_dec j : a_str j \/ ~ a_str j.
Proof. destruct j as [| | | |s| | |]; try (right; intros (x & H); discriminate H). left. now exists s. Qed.
Lemma dict_dec j : a_dict j \/ ~ a_dict j.
Proof. destruct j as [| | | | | |d|]; try (right; intros (x & H); discriminate H). left. now exists d. Qed.
Lemma entry_cases j : entry_ok j \/ exists e, refused j e.
Proof.
  destruct (sub_cases j "method") as [(m & Hm)|[Hm|Hm]]; [|right; eexists; now apply no_method|right; eexists; now apply not_a_dict].
  destruct (str_dec m) as [(m' & ->)|Nm]; [|right; eexists; now apply (method_not_text j m)].
  destruct (sub_cases j "parameters") as [(p & Hp)|[Hp|Hp]]; [|right; eexists; now apply (no_parameters j m')|right; eexists; now apply not_a_dict].
  destruct (dict_dec p) as [(d & ->)|Np]; [|right; eexists; now apply (parameters_not_dict j m' p)].
  destruct (in_dec string_dec "id" (names d)) as [Hi|Hi]; [left; now exists m', d|right; eexists; now apply (no_id j m' d)].
Qed.

(** The values. *)
Lemma python_means fval code v : clean v -> means fval code v (python_value fval code v).
Proof.
  revert v. fix IH 1. intros v. destruct v as [| b | z | k | s | l | d |]; intros C; cbn [python_value].
  - constructor. - destruct b; constructor. - constructor. - constructor. - constructor.
  - constructor. revert C. cbn [clean]. induction l as [|x l IHl]; intros C; cbn [map]; constructor; [apply IH, C | apply IHl, C].
  - constructor. - destruct C.
Qed.
Lemma params_means fval code d : clean (TDict d) ->
  Forall2 (fun kv p => fst p = to_string (fst kv) /\ means fval code (snd kv) (snd p)) d
    (map (fun kv => (to_string (fst kv), python_value fval code (snd kv))) d).
Proof.
  rewrite clean_dict. induction 1 as [|[k v] d C D IH]; cbn [map]; constructor; [split; [reflexivity|apply python_means, C]|exact IH].
Qed.
Lemma split_shape m : match split_on "/" m with
  | [] => False
  | [a] => a = m /\ contains "/" m = false
  | [a; b] => m = a ++ "/" ++ b /\ contains "/" a = false /\ contains "/" b = false
  | a :: b :: _ => exists r, m = a ++ "/" ++ r /\ contains "/" a = false /\ contains "/" r = true
  end.
Proof.
  induction m as [|x m IH]; cbn [split_on]; [auto|].
  destruct (Ascii.eqb_spec x "/"%char) as [->|N].
  - destruct (split_on "/" m) as [|a [|b [|c l]]]; [destruct IH| | |].
    + destruct IH as (-> & C). auto.
    + destruct IH as (E & A & B). exists m. repeat split. rewrite E. clear. induction a as [|y a IH]; [reflexivity|]. cbn [append contains]. destruct (Ascii.eqb "/" y); auto.
    + destruct IH as (r & E & A & B). exists m. repeat split. rewrite E. clear. induction a as [|y a IH]; [reflexivity|]. cbn [append contains]. destruct (Ascii.eqb "/" y); auto.
  - assert (F : Ascii.eqb "/" x = false) by (apply Ascii.eqb_neq; congruence).
    destruct (split_on "/" m) as [|a [|b [|c l]]]; [destruct IH| | |].
    + destruct IH as (-> & C). cbn [contains]. rewrite F. auto.
    + destruct IH as (E & A & B). rewrite E. cbn [append contains]. rewrite F. auto.
    + destruct IH as (r & E & A & B). exists r. rewrite E. cbn [append contains]. rewrite F. auto.
Qed.
Lemma method_split m : method_of m (fst (split_method m)) (snd (split_method m)).
Proof.
  unfold split_method, method_of. pose proof (split_shape m) as S.
  assert (U : forall a b, m = a ++ "/" ++ b -> contains "/" a = false -> contains "/" b = false -> split_on "/" m = [a; b]).
  { intros a b -> A B. now apply split_once. }
  assert (R : (forall a b, split_on "/" m <> [a; b]) -> forall a b, m = a ++ "/" ++ b -> contains "/" a = true \/ contains "/" b = true).
  { intros N a b E. destruct (contains "/" a) eqn:A; auto. destruct (contains "/" b) eqn:B; auto. exfalso. exact (N a b (U a b E A B)). }
  destruct (split_on "/" m) as [|a [|b [|c l]]] eqn:E; cbn [fst snd].
  - destruct S.
  - right. repeat split. apply R. intros; discriminate.
  - left. exact S.
  - right. repeat split. apply R. intros; discriminate.
Qed.
Lemma in_names fval code d : dmem (map (fun kv => (to_string (fst kv), python_value fval code (snd kv))) d) "id" = true <-> In "id" (names d).
Proof.
  unfold dmem, names. induction d as [|[k v] d IH]; cbn [map dget fst snd]; [split; [discriminate|intros []]|].
  cbn [In]. change (Base.eqb "id" (to_string k)) with (String.eqb "id" (to_string k)).
  destruct (String.eqb_spec "id" (to_string k)) as [E|N].
  - split; auto.
  - rewrite IH. split; [auto|]. intros [H|H]; [congruence|exact H].
Qed.
Lemma python_not_object fval code v : is_object (python_value fval code v) = false.
Proof. destruct v as [| [|] | | | | | |]; reflexivity. Qed.

(** ** One entry *)
Definition drawn (s : sys) (n : Z) : sys := mkSys (qs s) (inst s) (active s) (rec s) n.
Lemma one_ok fval code s q j : clean j -> entry_ok j -> exists c, made fval code (cids s + 1) j c /\
  load_one fval code s q j = (fst (push (drawn s (cids s + 1)) q c), Ok tt).
Proof.
  intros C (m & d & Hm & Hp & Hi). unfold load_one. rewrite (proj2 (sub_gives _ _ _) Hm).
  destruct (split_method (to_string m)) as [cn mn] eqn:Es. rewrite (proj2 (sub_gives _ _ _) Hp).
  unfold new_command, mk_command. rewrite (proj2 (in_names fval code d) Hi).
  eexists. split; [|rewrite (Z.add_comm 1); reflexivity].
  exists m, d. split; [exact Hm|]. split; [exact Hp|]. cbn [c_id c_class c_method c_params]. split; [lia|].
  split; [pose proof (method_split (to_string m)) as G; rewrite Es in G; exact G|].
  rewrite map_map. erewrite map_ext; [apply params_means|].
  - destruct Hp as (dd & -> & Hp). apply item_in in Hp as (k & Hp). apply clean_dict in C. rewrite Forall_forall in C. exact (C _ Hp).
  - intros [k v]. cbn [fst snd]. f_equal. apply id_value_plain, python_not_object.
Qed.
Lemma one_refused fval code s q j e : refused j e -> exists n, (cids s <= n)%Z /\ load_one fval code s q j = (drawn s n, Err e).
Proof.
  assert (S0 : drawn s (cids s) = s) by now destruct s.
  intros [j0 N|j0 L|j0 m G N|j0 m G L|j0 m p G P N|j0 m d G P N]; unfold load_one.
  - rewrite (sub_not _ _ N). exists (cids s). rewrite S0. split; [lia|reflexivity].
  - rewrite (proj2 (sub_lacks _ _) L). exists (cids s). rewrite S0. split; [lia|reflexivity].
  - rewrite (proj2 (sub_gives _ _ _) G). exists (cids s). rewrite S0. split; [lia|].
    destruct m as [| | | |x| | |]; try reflexivity. exfalso. apply N. now exists x.
  - rewrite (proj2 (sub_gives _ _ _) G). destruct (split_method (to_string m)) as [cn mn].
    rewrite (proj2 (sub_lacks _ _) L). exists (cids s). rewrite S0. split; [lia|reflexivity].
  - rewrite (proj2 (sub_gives _ _ _) G). destruct (split_method (to_string m)) as [cn mn]. rewrite (proj2 (sub_gives _ _ _) P).
    exists (1 + cids s)%Z. split; [lia|]. destruct p as [| | | | | |d|]; try reflexivity. exfalso. apply N. now exists d.
  - rewrite (proj2 (sub_gives _ _ _) G). destruct (split_method (to_string m)) as [cn mn]. rewrite (proj2 (sub_gives _ _ _) P).
    exists (1 + cids s)%Z. split; [lia|]. unfold new_command, mk_command.
    destruct (dmem _ "id") eqn:D; [apply in_names in D; contradiction|reflexivity].
Qed.
Lemma refused_one j e e' : refused j e -> refused j e' -> e = e'.
Proof.
  intros H H'. destruct (one_refused (fun _ => 0%Z) (fun _ => 0%Z) sinit 0%nat j e H) as (n & _ & E).
  destruct (one_refused (fun _ => 0%Z) (fun _ => 0%Z) sinit 0%nat j e' H') as (n' & _ & E'). rewrite E in E'. congruence.
Qed.
Lemma refused_not_ok j e : refused j e -> ~ entry_ok j.
Proof.
  assert (D : forall j k a b, gives j k a -> gives j k b -> a = b).
  { intros j0 k a b A B. apply sub_gives in A, B. congruence. }
  assert (L : forall j k a, gives j k a -> ~ lacks j k).
  { intros j0 k a A B. apply sub_gives in A. apply sub_lacks in B. congruence. }
  intros [j0 N|j0 L0|j0 m G N|j0 m G L0|j0 m p G P N|j0 m d G P N] (m1 & d1 & G1 & P1 & I1).
  - destruct G1 as (dd & -> & _). apply N. now exists dd.
  - exact (L _ _ _ G1 L0).
  - apply N. exists m1. exact (D _ _ _ _ G G1).
  - exact (L _ _ _ P1 L0).
  - apply N. exists d1. exact (D _ _ _ _ P P1).
  - pose proof (D _ _ _ _ P P1) as [= ->]. contradiction.
Qed.

(** ** The loop *)
Lemma only_refl q s : only_queue q s s.
Proof. repeat split; auto. intros d H. now exists d. Qed.
Lemma only_trans q a b c : only_queue q a b -> only_queue q b c -> only_queue q a c.
Proof.
  intros (A1 & A2 & A3 & A4 & A5 & A6) (B1 & B2 & B3 & B4 & B5 & B6). repeat split; try congruence.
  - intros p N. rewrite B5, A5; auto.
  - intros d H. destruct (A6 d H) as (d' & H' & X & Y). destruct (B6 d' H') as (d2 & H2 & X2 & Y2). exists d2. repeat split; congruence.
Qed.
Lemma only_drawn q s n : only_queue q s (drawn s n).
Proof. repeat split; auto. intros d H. now exists d. Qed.
Lemma only_on q s f : (forall x, q_name (f x) = q_name x /\ q_ro (f x) = q_ro x) -> only_queue q s (on_queue s q f).
Proof.
  intros F. destruct (on_queue_rest s q f) as (A & B & C & _). repeat split; auto.
  - apply on_queue_len.
  - intros p N. rewrite on_queue_nth. apply Nat.eqb_neq in N. now rewrite N.
  - intros d H. exists (f d). rewrite on_queue_nth, Nat.eqb_refl, H. split; [reflexivity|apply F].
Qed.
Lemma only_push q s c : only_queue q s (fst (push s q c)).
Proof.
  unfold push. destruct (nth_error (qs s) q) as [x|] eqn:E; [|apply only_refl]. destruct (q_ro x) eqn:R; [apply only_refl|]. cbn [fst].
  repeat split; cbn [qs set_qs inst active rec]; auto.
  - apply upd_length.
  - intros p N. rewrite nth_error_upd. apply Nat.eqb_neq in N. now rewrite N.
  - intros d H. rewrite E in H. injection H as <-. rewrite nth_error_upd, Nat.eqb_refl.
    assert (q < length (qs s))%nat by (apply nth_error_Some; congruence). destruct (Nat.ltb_spec q (length (qs s))); [|lia].
    rewrite E. eexists. split; [reflexivity|]. cbn. auto.
Qed.
Lemma push_cids s q c : cids (fst (push s q c)) = cids s.
Proof. unfold push. destruct (nth_error (qs s) q) as [x|]; [|reflexivity]. destruct (q_ro x); reflexivity. Qed.
Lemma push_readonly s q c : readonly (fst (push s q c)) q = readonly s q.
Proof.
  unfold push, readonly. destruct (nth_error (qs s) q) as [x|] eqn:E; [|now cbn; rewrite E]. destruct (q_ro x) eqn:R; cbn [fst qs set_qs]; [now rewrite E, R|].
  rewrite nth_error_upd, Nat.eqb_refl, E. destruct (Nat.ltb q (length (qs s))); auto.
Qed.
Lemma each_good fval code l : Forall clean l -> Forall entry_ok l -> forall s q rest, (q < length (qs s))%nat -> readonly s q = false ->
  exists s' cs, load_each fval code s q (l ++ rest) = load_each fval code s' q rest /\ made_all fval code (cids s) l cs /\
    commands s' q = (commands s q ++ cs)%list /\ only_queue q s s' /\ readonly s' q = false /\ cids s' = (cids s + Z.of_nat (length l))%Z.
Proof.
  intros C G. induction l as [|j l IH]; intros s q rest Hl Hr.
  - exists s, []. cbn. rewrite app_nil_r. split; [reflexivity|]. split; [constructor|]. split; [reflexivity|]. split; [apply only_refl|]. split; [assumption|lia].
  - apply Forall_cons_iff in C as (C1 & C2). apply Forall_cons_iff in G as (G1 & G2).
    destruct (one_ok fval code s q j C1 G1) as (c & M & E). set (s0 := drawn s (cids s + 1)) in *.
    destruct (push_accepted s0 q c Hl Hr) as (_ & P1 & _). set (s1 := fst (push s0 q c)) in *.
    assert (R1 : readonly s1 q = false) by (unfold s1; rewrite push_readonly; exact Hr).
    assert (O1 : only_queue q s s1) by (eapply only_trans; [apply (only_drawn q s (cids s + 1))|apply only_push]).
    assert (N1 : cids s1 = (cids s + 1)%Z) by (unfold s1; rewrite push_cids; reflexivity).
    destruct (IH C2 G2 s1 q rest) as (s2 & cs & E2 & M2 & P2 & O2 & R2 & N2).
    { destruct O1 as (O1 & _). rewrite O1. exact Hl. } { exact R1. }
    exists s2, (c :: cs). cbn [app load_each]. rewrite E. split; [exact E2|].
    split; [constructor; [exact M|rewrite <- N1; exact M2]|].
    split; [rewrite P2, P1, <- app_assoc; reflexivity|].
    split; [eapply only_trans; eassumption|]. split; [exact R2|]. rewrite N2, N1. cbn [length]. lia.
Qed.
Lemma each_readonly fval code l : Forall clean l -> forall s q, readonly s q = true ->
  exists n o, (cids s <= n)%Z /\ load_each fval code s q l = (drawn s n, o) /\ (Forall entry_ok l -> o = Ok tt /\ n = (cids s + Z.of_nat (length l))%Z).
Proof.
  induction l as [|j l IH]; intros C s q R; cbn [load_each].
  - exists (cids s), (Ok tt). split; [lia|]. split; [now destruct s|]. intros _. split; [reflexivity|cbn; lia].
  - apply Forall_cons_iff in C as (C1 & C2). destruct (entry_cases j) as [G|(e & B)].
    + destruct (one_ok fval code s q j C1 G) as (c & _ & E). rewrite E. rewrite push_refused by exact R. cbn [fst].
      destruct (IH C2 (drawn s (cids s + 1)) q R) as (n & o & L & E2 & X). cbn [cids drawn] in L. rewrite E2.
      exists n, o. split; [lia|]. split; [reflexivity|]. intros H. apply Forall_cons_iff in H as (_ & H). destruct (X H) as (Y & Z0). split; [exact Y|].
      rewrite Z0. cbn [cids drawn length]. lia.
    + destruct (one_refused fval code s q j e B) as (n & L & E). rewrite E. exists n, (Err e). split; [exact L|]. split; [reflexivity|].
      intros H. apply Forall_cons_iff in H as (H & _). exfalso. exact (refused_not_ok _ _ B H).
Qed.

(** ** The whole load *)
Lemma chosen_queue s q s1 q1 : chosen s q s1 q1 -> queue_or_active s q = (s1, q1).
Proof.
  unfold queue_or_active. intros [(-> & N & ->)|([->|(p & -> & E)] & G)].
  - destruct (commands s q1); [congruence|reflexivity].
  - exact G. - now rewrite E.
Qed.
Lemma chosen_some s q : exists s1 q1, chosen s q s1 q1.
Proof.
  unfold chosen. destruct q as [q|].
  - destruct (commands s q) eqn:E.
    + destruct (get_queue s None) as [s1 q1]. exists s1, q1. right. split; [right; now exists q|reflexivity].
    + exists s, q. left. rewrite E. repeat split. discriminate.
  - destruct (get_queue s None) as [s1 q1]. exists s1, q1. right. split; [now left|reflexivity].
Qed.
Lemma chosen_valid h q s1 q1 : chosen (history h) q s1 q1 -> (q1 < length (qs s1))%nat.
Proof.
  intros [(-> & N & ->)|(_ & G)].
  - unfold commands in N. destruct (nth_error (qs (history h)) q1) eqn:E; [|congruence]. apply nth_error_Some. congruence.
  - destruct (get_active_spec (history h) (wf_history h)) as (_ & _ & _ & L & _). rewrite G in L. exact L.
Qed.
Lemma not_json fval code s q x : (forall v, loads x <> Ok v) -> load_text fval code s q x = (s, Err ValueError).
Proof.
  intros N. unfold load_text. pose proof (loads_total x) as T. destruct (loads x) as [v|e]; [now destruct (N v)|]. cbn [bind]. now rewrite T.
Qed.
Lemma no_commands fval code s q x v : loads x = Ok v ->
  (~ a_dict v -> load_text fval code s q x = (s, Err TypeError)) /\
  (lacks v "commands" -> load_text fval code s q x = (s, Err KeyError)).
Proof.
  intros E. unfold load_text. rewrite E. cbn [bind]. split.
  - intros N. now rewrite (sub_not _ _ N).
  - intros L. now rewrite (proj2 (sub_lacks _ _) L).
Qed.
Lemma found x c : file_commands x c -> (let* v := loads x in subscript v "commands") = Ok c /\ clean c.
Proof.
  intros (v & E & G). pose proof (loads_total x) as T. rewrite E in *. cbn [bind]. split; [now apply sub_gives|].
  destruct G as (d & -> & G). apply item_in in G as (k & G). apply clean_dict in T. rewrite Forall_forall in T. exact (T _ G).
Qed.
Lemma emptied s q : (q < length (qs s))%nat -> commands (empty s q) q = [] /\ only_queue q s (empty s q) /\ readonly (empty s q) q = readonly s q /\ cids (empty s q) = cids s.
Proof.
  intros L. destruct (empty_effect s q L) as (E1 & _ & E3 & _ & E5 & _). repeat split; auto.
  - apply on_queue_len. - now destruct (on_queue_rest s q (fun x => mkQ (q_name x) (q_ro x) [])). - now destruct (on_queue_rest s q (fun x => mkQ (q_name x) (q_ro x) [])) as (_ & ? & _). - now destruct (on_queue_rest s q (fun x => mkQ (q_name x) (q_ro x) [])) as (_ & _ & ? & _).
  - intros p N. unfold empty. rewrite on_queue_nth. apply Nat.eqb_neq in N. now rewrite N.
  - intros d H. unfold empty. rewrite on_queue_nth, Nat.eqb_refl, H. eexists. split; [reflexivity|]. auto.
Qed.
Lemma loads_session fval code h q s1 q1 x l : file_commands x (TList l) -> Forall entry_ok l -> chosen (history h) q s1 q1 -> readonly s1 q1 = false ->
  exists s2, load_text fval code (history h) q x = (s2, Ok q1) /\ made_all fval code (cids s1) l (commands s2 q1) /\ only_queue q1 s1 s2.
Proof.
  intros F G C R. destruct (found _ _ F) as (E & CL). apply clean_list in CL. pose proof (chosen_valid _ _ _ _ C) as L.
  destruct (emptied s1 q1 L) as (E1 & E2 & E3 & E4).
  destruct (each_good fval code l CL G (empty s1 q1) q1 []) as (s2 & cs & X1 & X2 & X3 & X4 & _).
  { destruct E2 as (-> & _). exact L. } { congruence. }
  exists s2. unfold load_text. rewrite E, (chosen_queue _ _ _ _ C). cbn [iterate]. rewrite app_nil_r in X1. rewrite X1. cbn [load_each bind].
  split; [reflexivity|]. rewrite X3, E1, <- E4. split; [exact X2|]. eapply only_trans; eassumption.
Qed.
Lemma stops_at fval code h q s1 q1 x good bad rest e : file_commands x (TList (good ++ bad :: rest)) -> Forall entry_ok good -> refused bad e ->
  chosen (history h) q s1 q1 -> readonly s1 q1 = false ->
  exists s2, load_text fval code (history h) q x = (s2, Err e) /\ made_all fval code (cids s1) good (commands s2 q1) /\ only_queue q1 s1 s2.
Proof.
  intros F G B C R. destruct (found _ _ F) as (E & CL). apply clean_list in CL. apply Forall_app in CL as (CL & _). pose proof (chosen_valid _ _ _ _ C) as L.
  destruct (emptied s1 q1 L) as (E1 & E2 & E3 & E4).
  destruct (each_good fval code good CL G (empty s1 q1) q1 (bad :: rest)) as (s2 & cs & X1 & X2 & X3 & X4 & _).
  { destruct E2 as (-> & _). exact L. } { congruence. }
  destruct (one_refused fval code s2 q1 bad e B) as (n & _ & Y).
  exists (drawn s2 n). unfold load_text. rewrite E, (chosen_queue _ _ _ _ C). cbn [iterate]. rewrite X1. cbn [load_each]. rewrite Y. cbn [bind].
  split; [reflexivity|]. change (commands (drawn s2 n) q1) with (commands s2 q1). rewrite X3, E1, <- E4. split; [exact X2|].
  eapply only_trans; [exact E2|]. eapply only_trans; [exact X4|apply only_drawn].
Qed.
Lemma other_commands fval code h q s1 q1 x c : file_commands x c -> chosen (history h) q s1 q1 ->
  (forall l, c <> TList l) -> exists s2, commands s2 q1 = [] /\ only_queue q1 s1 s2 /\ cids s2 = cids s1 /\
    load_text fval code (history h) q x = (s2, if match c with TStr [] | TDict [] => true | _ => false end then Ok q1 else Err TypeError).
Proof.
  intros F C N. destruct (found _ _ F) as (E & _). pose proof (chosen_valid _ _ _ _ C) as L.
  destruct (emptied s1 q1 L) as (E1 & E2 & E3 & E4).
  exists (empty s1 q1). split; [exact E1|]. split; [exact E2|]. split; [exact E4|]. unfold load_text. rewrite E, (chosen_queue _ _ _ _ C).
  destruct c as [| | | |[|y w]|l|[|[y z] w]|]; try reflexivity. now destruct (N l).
Qed.
Lemma readonly_load fval code h q s1 q1 x l : file_commands x (TList l) -> chosen (history h) q s1 q1 -> readonly s1 q1 = true ->
  exists s2 o, load_text fval code (history h) q x = (s2, o) /\ commands s2 q1 = [] /\ only_queue q1 s1 s2 /\ (Forall entry_ok l -> o = Ok q1).
Proof.
  intros F C R. destruct (found _ _ F) as (E & CL). apply clean_list in CL. pose proof (chosen_valid _ _ _ _ C) as L.
  destruct (emptied s1 q1 L) as (E1 & E2 & E3 & E4).
  destruct (each_readonly fval code l CL (empty s1 q1) q1) as (n & o & _ & X & Y); [congruence|].
  unfold load_text. rewrite E, (chosen_queue _ _ _ _ C). cbn [iterate]. rewrite X. eexists _, _. split; [reflexivity|].
  split; [exact E1|]. split; [eapply only_trans; [exact E2|apply only_drawn]|]. intros G. now rewrite (proj1 (Y G)).
Qed.
Lemma same_commands fval code s q x y c : file_commands x c -> file_commands y c -> load_text fval code s q x = load_text fval code s q y.
Proof. intros X Y. unfold load_text. rewrite (proj1 (found _ _ X)), (proj1 (found _ _ Y)). reflexivity. Qed.

(** Agreement with Json.v for what JsonFile.v reads. *)
Lemma value_agrees fval code v : forall j, value_of fval v = Ok j -> decode j = python_value fval code v.
Proof.
  revert v. fix IH 1. intros v j. destruct v as [| b | z | k | s | l | d |]; cbn [value_of]; try discriminate.
  - now intros [= <-]. - now intros [= <-]. - now intros [= <-]. - now intros [= <-].
  - intros E. cbn [python_value].
    match type of E with (let* l' := ?g l in _) = _ =>
      assert (A : forall l', g l = Ok l' -> map decode l' = map (python_value fval code) l) end.
    { clear E. induction l as [|x l IHl]; intros l' E; [now injection E as <-|]. cbn in E.
      destruct (value_of fval x) as [x'|] eqn:Ex; [|discriminate]. cbn [bind] in E.
      match type of E with (let* r' := ?g l in _) = _ => destruct (g l) as [r'|] eqn:Er; [|discriminate] end. injection E as <-.
      cbn [map]. rewrite (IH x x' Ex), (IHl r' eq_refl). reflexivity. }
    match type of E with (let* l' := ?g l in _) = _ => destruct (g l) as [l'|] eqn:El; [|discriminate] end. injection E as <-.
    cbn [decode]. now rewrite (A l' eq_refl).
Qed.
Lemma each_agrees fval code l : forall es, each (read_entry fval) l = Ok es -> forall s q, load_each fval code s q l = load_loop s q es.
Proof.
  induction l as [|j l IH]; intros es E s q; cbn [each] in E.
  - injection E as <-. reflexivity.
  - destruct (read_entry fval j) as [en|] eqn:R; [|discriminate]. cbn [bind] in E. destruct (each (read_entry fval) l) as [r|]; [|discriminate]. injection E as <-.
    cbn [load_each load_loop]. unfold read_entry in R. unfold load_one.
    destruct (subscript j "method") as [m|]; [|discriminate]. destruct (subscript j "id") as [i|]; [|discriminate].
    destruct (subscript j "parameters") as [p|]; [|discriminate]. cbn [bind] in R.
    destruct m as [| | | |m| | |]; try discriminate R. destruct i as [| |i| | | | |]; try discriminate R. destruct p as [| | | | | |d|]; try discriminate R.
    match type of R with (let* p' := ?g in _) = _ => destruct g as [p'|] eqn:P; [|discriminate] end. injection R as <-. cbn [e_method e_params].
    destruct (split_method (to_string m)) as [cn mn].
    assert (EQ : map (fun kv => (to_string (fst kv), python_value fval code (snd kv))) d = map (fun kv => (fst kv, decode (snd kv))) p').
    { clear - P. revert p' P. induction d as [|[k v] d IHd]; intros p' P; cbn [each fst snd] in P; [now injection P as <-|].
      destruct (value_of fval v) as [w|] eqn:V; [|discriminate]. cbn [bind] in P.
      match type of P with (let* r' := ?g in _) = _ => destruct g as [r'|] eqn:Er; [|discriminate] end. injection P as <-.
      cbn [map fst snd]. rewrite (value_agrees fval code v w V), (IHd r' eq_refl). reflexivity. }
    rewrite EQ. destruct (new_command s (fun _ => 0%Z) cn mn (map (fun kv => (fst kv, decode (snd kv))) p')) as [s1 [c|e]]; [apply IH; reflexivity|reflexivity].
Qed.
Lemma text_agrees fval code s q x es : read_text fval x = Ok es -> load_text fval code s q x = load_queue s q (Ok es).
Proof.
  unfold read_text, load_text, load_queue. destruct (loads x) as [v|]; [|discriminate]. cbn [bind].
  destruct (subscript v "commands") as [c|]; [|discriminate]. cbn [bind]. destruct c as [| | | | |l| |]; try discriminate.
  intros E. destruct (queue_or_active s q) as [s1 q1]. cbn [iterate]. rewrite (each_agrees fval code l es E).
  destruct (load_loop (empty s1 q1) q1 es) as [s3 o]. reflexivity.
Qed.

(** ** Witnesses *)
Lemma reads_broken : exists d, loads broken = Ok (TDict [(of_string "commands", TList
  [TDict [(of_string "method", TStr (of_string "core.Data")); (of_string "parameters", TDict [(of_string "id", TInt 7)])]; d])]) /\ refused d ValueError.
Proof.
  exists (TDict [(of_string "method", TStr (of_string "Data/set")); (of_string "parameters", TDict [])]). split; [vm_compute; reflexivity|].
  apply (no_id _ (of_string "Data/set") []); [eexists; split; reflexivity|eexists; split; reflexivity|intros []].
Qed.
Lemma failed_load_witness : exists s q x s' e, load_text (fun _ => 0%Z) (fun _ => 0%Z) s (Some q) x = (s', Err e) /\ commands s' q <> commands s q.
Proof.
  exists before, 0%nat, broken. eexists _, ValueError. split; [vm_compute; reflexivity|]. vm_compute. discriminate.
Qed.
Lemma failed_load_refuted : ~ forall fval code h q x s' e, load_text fval code (history h) (Some q) x = (s', Err e) -> commands s' q = commands (history h) q.
Proof.
  intros H. destruct failed_load_witness as (s & q & x & s' & e & E & N).
  assert (E' : exists s', load_text (fun _ => 0%Z) (fun _ => 0%Z) before (Some 0%nat) broken = (s', Err ValueError) /\ commands s' 0%nat <> commands before 0%nat).
  { eexists. split; [vm_compute; reflexivity|]. vm_compute. discriminate. }
  destruct E' as (s2 & E2 & N2). apply N2. unfold before in *. exact (H _ _ _ _ _ _ _ E2).
Qed.
Lemma only_sessions_refuted : ~ forall fval code h q x s' q', load_text fval code (history h) q x = (s', Ok q') -> exists l, file_commands x (TList l).
Proof.
  intros H. assert (E : exists s', load_text (fun _ => 0%Z) (fun _ => 0%Z) before (Some 0%nat) a_word = (s', Ok 0%nat)) by (eexists; vm_compute; reflexivity).
  destruct E as (s' & E). unfold before in E. destruct (H _ _ _ _ _ _ _ E) as (l & v & L & d & -> & G). vm_compute in L. injection L as <-. vm_compute in G. discriminate.
Qed.
Lemma cases_lemma j : (entry_ok j \/ exists e, refused j e) /\ (forall e e', refused j e -> refused j e' -> e = e') /\ (forall e, refused j e -> ~ entry_ok j).
Proof. split; [apply entry_cases|]. split; [intros e e'; apply refused_one|intros e; apply refused_not_ok]. Qed.
