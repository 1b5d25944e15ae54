(** Proofs about the code shown in the documentation. *)
From Verif Require Import Base Docs DocsSpec.
Local Open Scope string_scope.
Local Open Scope nat_scope.

Lemma drop_spaces k s : drop k (spaces k ++ s) = s.
Proof. induction k; cbn; auto. Qed.
Lemma indent_spaces k s : indent_of (spaces k ++ s) = k + indent_of s.
Proof. induction k; cbn; auto. Qed.
Lemma text_spaces k s : has_text (spaces k ++ s) = has_text s.
Proof. induction k; cbn; auto. Qed.
Lemma no_text_newline : has_text newline = false.
Proof. reflexivity. Qed.
Lemma indented_ne k l : line_ok l -> indented k l <> "".
Proof.
  intros [->|T]; [discriminate|]. unfold indented. destruct (String.eqb_spec l newline) as [->|N]; [discriminate|]. intros E.
  rewrite <- (text_spaces k) in T. rewrite E in T. discriminate.
Qed.
Lemma getline_app pre x rest : getline (pre ++ x :: rest) (length pre + 1) = x.
Proof. rewrite Nat.add_1_r. cbn. rewrite app_nth2 by lia. now rewrite Nat.sub_diag. Qed.

Section Block.
Variable k : nat.
Hypothesis K : 0 < k.
(** Once the indentation is known. *)
Lemma read_block rest : (rest = [] \/ exists l r, rest = l :: r /\ ends k l) -> forall body pre fuel line i, Forall line_ok body ->
  line + i = length pre + 1 -> length body < fuel ->
  read fuel (pre ++ map (indented k) body ++ rest) line i k = Some body.
Proof.
  intros R. induction body as [|l body IH]; intros pre fuel line i F E L; destruct fuel as [|fuel]; try (cbn in L; lia).
  - cbn [map app read]. rewrite E. destruct (Nat.eqb_spec k 0); [lia|]. destruct R as [->|(l & r & -> & T & I)].
    + rewrite app_nil_r. rewrite Nat.add_1_r. cbn [getline]. rewrite nth_overflow by lia. now rewrite Bool.orb_true_r.
    + rewrite getline_app. apply Nat.ltb_lt in I. now rewrite I, T.
  - inversion F as [|? ? F1 F2]; subst. cbn [map app read]. rewrite E, getline_app. destruct (Nat.eqb_spec k 0); [lia|].
    destruct (String.eqb_spec (indented k l) "") as [B|B]; [now apply indented_ne in B|]. rewrite Bool.orb_false_r.
    replace (Nat.ltb (indent_of (indented k l)) k && has_text (indented k l))%bool with false.
    + assert (X : read fuel (pre ++ indented k l :: map (indented k) body ++ rest) line (S i) k = Some body).
      { change (pre ++ indented k l :: map (indented k) body ++ rest)%list with (pre ++ [indented k l] ++ map (indented k) body ++ rest)%list. rewrite app_assoc. apply IH; [exact F2| |cbn in L; lia].
        rewrite app_length. cbn. lia. }
      rewrite X. f_equal. f_equal. unfold indented. destruct (String.eqb_spec l newline) as [->|N]; [reflexivity|].
      destruct (String.eqb_spec (spaces k ++ l) newline) as [G|G]; [|apply drop_spaces].
      destruct F1 as [->|F1]; [congruence|]. rewrite <- (text_spaces k), G in F1. discriminate.
    + symmetry. unfold indented. destruct (String.eqb_spec l newline) as [->|N]; [now rewrite no_text_newline, andb_false_r|]. rewrite indent_spaces. destruct (Nat.ltb_spec (k + indent_of l) k); [lia|reflexivity].
Qed.
Theorem block_shown pre w first body rest fuel : (rest = [] \/ exists l r, rest = l :: r /\ ends k l) ->
  has_text first = true -> indent_of first = 0 -> Forall line_ok body -> S (length body) < fuel ->
  code fuel (pre ++ w :: map (indented k) (first :: body) ++ rest) (length pre + 1) = Some (first :: body).
Proof.
  intros R T I F L. unfold code. destruct fuel as [|fuel]; [lia|].
  assert (N : first <> newline) by (intros ->; discriminate).
  assert (D : indented k first = spaces k ++ first) by (unfold indented; destruct (String.eqb_spec first newline); congruence).
  cbn [map app read]. rewrite D.
  assert (G : getline (pre ++ w :: (spaces k ++ first)%string :: map (indented k) body ++ rest) (length pre + 1 + 1) = spaces k ++ first).
  { change (pre ++ w :: (spaces k ++ first)%string :: map (indented k) body ++ rest)%list with (pre ++ [w] ++ (spaces k ++ first)%string :: map (indented k) body ++ rest)%list.
    rewrite app_assoc. replace (length pre + 1) with (length (pre ++ [w])) by (rewrite app_length; reflexivity). apply getline_app. }
  rewrite G, indent_spaces, I, Nat.add_0_r, Nat.eqb_refl.
  assert (X : read fuel (pre ++ w :: (spaces k ++ first)%string :: map (indented k) body ++ rest) (length pre + 1) 2 k = Some body).
  { change (pre ++ w :: (spaces k ++ first)%string :: map (indented k) body ++ rest)%list with (pre ++ [w; (spaces k ++ first)%string] ++ map (indented k) body ++ rest)%list.
    rewrite app_assoc. apply read_block; auto; [rewrite app_length; cbn; lia|lia]. }
  rewrite X. destruct (String.eqb_spec (spaces k ++ first) newline) as [H|H]; [rewrite <- (text_spaces k), H in T; discriminate|]. now rewrite drop_spaces.
Qed.
End Block.
(** An empty line first: the block is taken to be indented by one. *)
Theorem empty_first k pre w body rest fuel : 1 < k -> (rest = [] \/ exists l r, rest = l :: r /\ ends 1 l) -> Forall line_ok body -> S (length body) < fuel ->
  code fuel (pre ++ w :: map (indented k) (newline :: body) ++ rest) (length pre + 1) = Some (map (indented (k - 1)) (newline :: body)).
Proof.
  intros K R F L. unfold code. destruct fuel as [|fuel]; [lia|]. cbn [map app read]. change (indented k newline) with newline.
  assert (G : getline (pre ++ w :: newline :: map (indented k) body ++ rest) (length pre + 1 + 1) = newline).
  { change (pre ++ w :: newline :: map (indented k) body ++ rest)%list with (pre ++ [w] ++ newline :: map (indented k) body ++ rest)%list.
    rewrite app_assoc. replace (length pre + 1) with (length (pre ++ [w])) by (rewrite app_length; reflexivity). apply getline_app. }
  rewrite G. cbn [Nat.eqb]. change (indent_of newline) with 1.
  assert (M : map (indented k) body = map (indented 1) (map (indented (k - 1)) body)).
  { rewrite map_map. apply map_ext_in. intros l I. rewrite Forall_forall in F. specialize (F l I). unfold indented. destruct (String.eqb_spec l newline) as [->|N]; [reflexivity|].
    destruct (String.eqb_spec (spaces (k - 1) ++ l) newline) as [H|H].
    - destruct F as [->|F]; [congruence|]. rewrite <- (text_spaces (k - 1)), H in F. discriminate.
    - replace k with (S (k - 1)) at 1 by lia. reflexivity. }
  assert (X : read fuel (pre ++ w :: newline :: map (indented k) body ++ rest) (length pre + 1) 2 1 = Some (map (indented (k - 1)) body)).
  { rewrite M. change (pre ++ w :: newline :: map (indented 1) (map (indented (k - 1)) body) ++ rest)%list with (pre ++ [w; newline] ++ map (indented 1) (map (indented (k - 1)) body) ++ rest)%list.
    rewrite app_assoc. apply read_block; [lia|exact R| |rewrite app_length; cbn; lia|rewrite map_length; lia].
    rewrite Forall_map. eapply Forall_impl; [|exact F]. intros l [->|T]; [now left|]. unfold indented. destruct (String.eqb l newline) eqn:Q; [left; now apply String.eqb_eq|]. right. now rewrite text_spaces. }
  rewrite X. reflexivity.
Qed.
(** A line less indented, for instance inside a string, ends the block. *)
Theorem cut_short k pre w first body cut more fuel : 0 < k -> has_text first = true -> indent_of first = 0 -> Forall line_ok body -> ends k cut -> S (length body) < fuel ->
  code fuel (pre ++ w :: map (indented k) (first :: body) ++ cut :: more) (length pre + 1) = Some (first :: body).
Proof. intros K T I F E L. apply block_shown; auto. right. eauto. Qed.
(** Without the source the loop does not end. *)
Theorem no_source file line fuel : length file <= line -> code fuel file line = None.
Proof.
  intros H. unfold code. assert (X : forall fuel i, 0 < i -> read fuel file line i 0 = None).
  { induction fuel0 as [|f IH]; intros i I; [reflexivity|]. cbn [read]. replace (getline file (line + i)) with "".
    - cbn. now rewrite IH by lia.
    - symmetry. unfold getline. destruct (line + i) eqn:E; [reflexivity|]. apply nth_overflow. lia. }
  apply X. lia.
Qed.

Lemma blanks : newline = String (ascii_of_nat 10) "" /\ forall c, is_space c = true <-> In (nat_of_ascii c) [9; 10; 32].
Proof.
  split; [reflexivity|]. intros c. destruct c as [[] [] [] [] [] [] [] []]; cbn; split; intros H; try discriminate; try tauto;
  repeat (destruct H as [H|H]; try discriminate); destruct H.
Qed.
