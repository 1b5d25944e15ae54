(** Proofs about Base64.v. *)
From Verif Require Import Base Base64.
Local Open Scope N_scope.

Definition bytes_ok (l : list N) : Prop := forall b, In b l -> b < 256.

Lemma below64 (P : N -> Prop) : (forall k, (k < 64)%nat -> P (N.of_nat k)) -> forall n, n < 64 -> P n.
Proof. intros H n Hn. rewrite <- (N2Nat.id n). apply H. lia. Qed.
Lemma dec_enc6 n : n < 64 -> dec6 (enc6 n) = Some n.
Proof.
  revert n. apply below64. intros k Hk.
  assert (H : forallb (fun k => match dec6 (enc6 (N.of_nat k)) with Some m => N.eqb m (N.of_nat k) | None => false end)
                (seq 0 64) = true) by reflexivity.
  rewrite forallb_forall in H. specialize (H k). rewrite in_seq in H. specialize (H ltac:(lia)).
  destruct (dec6 _); [|discriminate]. apply N.eqb_eq in H. now subst.
Qed.
Lemma enc6_not_pad n : n < 64 -> Ascii.eqb (enc6 n) pad = false.
Proof.
  revert n. apply below64. intros k Hk.
  assert (H : forallb (fun k => negb (Ascii.eqb (enc6 (N.of_nat k)) pad)) (seq 0 64) = true) by reflexivity.
  rewrite forallb_forall in H. specialize (H k). rewrite in_seq in H. specialize (H ltac:(lia)).
  now apply negb_true_iff.
Qed.

Ltac dm := repeat match goal with
  | |- context [?a / ?b] => pose proof (N.div_mod a b ltac:(discriminate));
      pose proof (N.mod_lt a b ltac:(discriminate));
      let q := fresh "q" in let r := fresh "r" in
      set (q := a / b) in *; set (r := a mod b) in *; clearbody q r
  | |- context [?a mod ?b] => pose proof (N.div_mod a b ltac:(discriminate));
      pose proof (N.mod_lt a b ltac:(discriminate));
      let q := fresh "q" in let r := fresh "r" in
      set (q := a / b) in *; set (r := a mod b) in *; clearbody q r
  end.

Lemma six0 a : a < 256 -> a / 4 < 64. Proof. intros. dm. lia. Qed.
Lemma six1 a b : b < 256 -> (a mod 4) * 16 + b / 16 < 64. Proof. intros. dm. lia. Qed.
Lemma six1' a : (a mod 4) * 16 < 64. Proof. dm. lia. Qed.
Lemma six2 b c : c < 256 -> (b mod 16) * 4 + c / 64 < 64. Proof. intros. dm. lia. Qed.
Lemma six2' b : (b mod 16) * 4 < 64. Proof. dm. lia. Qed.
Lemma six3 c : c mod 64 < 64. Proof. dm. lia. Qed.

Lemma byte0_ok a b : b < 256 -> byte0 (a / 4) ((a mod 4) * 16 + b / 16) = a.
Proof.
  intros Hb. unfold byte0. replace (((a mod 4) * 16 + b / 16) / 16) with (a mod 4).
  - pose proof (N.div_mod a 4 ltac:(discriminate)). lia.
  - rewrite N.add_comm, N.div_add by discriminate.
    assert (b / 16 / 16 = 0) as -> by (rewrite N.div_div by discriminate; apply N.div_small; lia). lia.
Qed.
Lemma byte0_ok' a : byte0 (a / 4) ((a mod 4) * 16) = a.
Proof.
  unfold byte0. rewrite N.div_mul by discriminate. pose proof (N.div_mod a 4 ltac:(discriminate)). lia.
Qed.
Lemma mod_low x y k : y < k -> k <> 0 -> (x * k + y) mod k = y.
Proof. intros Hy Hk. rewrite N.add_comm, N.mod_add by assumption. now apply N.mod_small. Qed.
Lemma byte1_ok a b c : b < 256 -> c < 256 ->
  byte1 ((a mod 4) * 16 + b / 16) ((b mod 16) * 4 + c / 64) = b.
Proof.
  intros Hb Hc. unfold byte1. rewrite mod_low by (try discriminate; apply N.div_lt_upper_bound; lia).
  replace (((b mod 16) * 4 + c / 64) / 4) with (b mod 16).
  - pose proof (N.div_mod b 16 ltac:(discriminate)). lia.
  - rewrite N.add_comm, N.div_add by discriminate.
    assert (c / 64 / 4 = 0) as -> by (rewrite N.div_div by discriminate; apply N.div_small; lia). lia.
Qed.
Lemma byte1_ok' a b : b < 256 -> byte1 ((a mod 4) * 16 + b / 16) ((b mod 16) * 4) = b.
Proof.
  intros Hb. unfold byte1. rewrite mod_low by (try discriminate; apply N.div_lt_upper_bound; lia).
  rewrite N.div_mul by discriminate. pose proof (N.div_mod b 16 ltac:(discriminate)). lia.
Qed.
Lemma byte2_ok b c : c < 256 -> byte2 ((b mod 16) * 4 + c / 64) (c mod 64) = c.
Proof.
  intros Hc. unfold byte2. rewrite mod_low by (try discriminate; apply N.div_lt_upper_bound; lia).
  pose proof (N.div_mod c 64 ltac:(discriminate)). lia.
Qed.

Lemma list_ind3 {A} (P : list A -> Prop) :
  P [] -> (forall a, P [a]) -> (forall a b, P [a; b]) ->
  (forall a b c r, P r -> P (a :: b :: c :: r)) -> forall l, P l.
Proof.
  intros H0 H1 H2 H3. fix IH 1. intros [|a [|b [|c r]]]; [exact H0 | apply H1 | apply H2 | apply H3, IH].
Qed.

Lemma b64_roundtrip l : bytes_ok l -> b64decode (b64encode l) = Ok l.
Proof.
  induction l as [|a|a b|a b c r IH] using list_ind3; intros H; [reflexivity| | |];
    assert (Ha : a < 256) by (apply H; now left).
  - cbn [b64encode b64decode]. rewrite !dec_enc6 by (apply six0 || apply six1'; assumption).
    cbn. now rewrite byte0_ok'.
  - assert (Hb : b < 256) by (apply H; right; now left).
    cbn [b64encode b64decode].
    rewrite !dec_enc6 by (apply six0 || apply six1 || apply six2'; assumption).
    rewrite enc6_not_pad by apply six2'. cbn [Ascii.eqb pad].
    rewrite byte0_ok, byte1_ok' by assumption. reflexivity.
  - assert (Hb : b < 256) by (apply H; right; now left).
    assert (Hc : c < 256) by (apply H; right; right; now left).
    cbn [b64encode b64decode].
    rewrite !dec_enc6 by (apply six0 || apply six1 || apply six2 || apply six3; assumption).
    rewrite !enc6_not_pad by (apply six2 || apply six3; assumption).
    rewrite IH by (intros x Hx; apply H; do 3 right; exact Hx).
    cbn [bind]. rewrite byte0_ok, byte1_ok, byte2_ok by assumption. reflexivity.
Qed.

(** Characters of the encoding are letters, digits, + / = : nothing JSON has to
    escape. *)
Definition b64_char (c : ascii) : bool := match dec6 c with Some _ => true | None => Ascii.eqb c pad end.
Fixpoint all_chars (P : ascii -> bool) (s : string) : bool :=
  match s with EmptyString => true | String c r => P c && all_chars P r end.
Lemma enc6_char n : n < 64 -> b64_char (enc6 n) = true.
Proof. intros H. unfold b64_char. now rewrite dec_enc6. Qed.
Lemma b64_alphabet l : bytes_ok l -> all_chars b64_char (b64encode l) = true.
Proof.
  induction l as [|a|a b|a b c r IH] using list_ind3; intros H; [reflexivity| | |];
    assert (Ha : a < 256) by (apply H; now left).
  - cbn [b64encode all_chars]. rewrite !enc6_char by (apply six0 || apply six1'; assumption). reflexivity.
  - assert (Hb : b < 256) by (apply H; right; now left). cbn [b64encode all_chars].
    rewrite !enc6_char by (apply six0 || apply six1 || apply six2'; assumption). reflexivity.
  - assert (Hb : b < 256) by (apply H; right; now left).
    assert (Hc : c < 256) by (apply H; right; right; now left). cbn [b64encode all_chars].
    rewrite !enc6_char by (apply six0 || apply six1 || apply six2 || apply six3; assumption).
    rewrite IH by (intros x Hx; apply H; do 3 right; exact Hx). reflexivity.
Qed.
Lemma b64_length l : String.length (b64encode l) = (4 * ((length l + 2) / 3))%nat.
Proof.
  induction l as [|a|a b|a b c r IH] using list_ind3; [reflexivity..|].
  cbn [b64encode String.length length]. rewrite IH.
  replace (S (S (S (length r))) + 2)%nat with ((length r + 2) + 1 * 3)%nat by lia.
  rewrite Nat.div_add by lia. lia.
Qed.
Lemma b64_injective l l' : bytes_ok l -> bytes_ok l' -> b64encode l = b64encode l' -> l = l'.
Proof. intros H H' E. apply b64_roundtrip in H, H'. congruence. Qed.
