(** Proofs about session files as text: texts that are cut short. *)
From Coq Require Import Lia Decimal DecimalZ.
From Verif Require Import Base JsonText JsonTextSpec JsonTextFacts.
Open Scope N_scope.

(** *** Pieces of the scanner: how much they read, what they raise, and what they do
    with a longer text *)
Lemma spaces_length s : (length (spaces s) <= length s)%nat.
Proof. induction s as [|c s IH]; [reflexivity|]. cbn [spaces]. destruct (is_space c); cbn [length]; lia. Qed.
Lemma spaces_more s q : spaces s <> [] -> spaces (s ++ q) = (spaces s ++ q)%list.
Proof.
  induction s as [|c s IH]; intros H; [now destruct H|]. cbn [app spaces] in *.
  destruct (is_space c); [now apply IH|reflexivity].
Qed.

Lemma units_all n : forall s, (length s <= n)%nat ->
  match scan_units s with
  | Ok (u, r) => (length r < length s)%nat /\ forall q, scan_units (s ++ q) = Ok (u, (r ++ q)%list)
  | Err e => e = ValueError
  end.
Proof.
  induction n as [|n IH]; intros s L.
  - destruct s; [reflexivity|cbn in L; lia].
  - destruct s as [|c r]; [reflexivity|]. cbn [length] in L.
    assert (K : forall k s0, (length s0 <= n)%nat -> (length s0 <= length r)%nat ->
      match (let* x := scan_units s0 in Ok (k :: fst x, snd x)) with
      | Ok (u, r') => (length r' < S (length r))%nat /\
          forall q, (let* x := scan_units (s0 ++ q) in Ok (k :: fst x, snd x)) = Ok (u, (r' ++ q)%list)
      | Err e => e = ValueError
      end).
    { intros k s0 L0 L1. specialize (IH s0 L0). destruct (scan_units s0) as [[u r']|e]; cbn [bind fst snd]; [|exact IH].
      destruct IH as [IL IE]. split; [lia|]. intros q. rewrite IE. reflexivity. }
    cbn [scan_units app length].
    destruct (code c =? 34); [split; [lia|reflexivity]|].
    destruct (code c =? 92).
    + destruct r as [|e r1]; [reflexivity|]. cbn [app length] in *.
      repeat match goal with |- context [code e =? ?k] => destruct (code e =? k); [apply K; lia|] end.
      destruct (code e =? 117); [|reflexivity].
      destruct r1 as [|a [|b [|c1 [|d r2]]]]; try reflexivity. cbn [app length] in *.
      destruct (hex_value a), (hex_value b), (hex_value c1), (hex_value d); try reflexivity. apply K; lia.
    + destruct (code c <? 32); [reflexivity|]. apply K; lia.
Qed.
Lemma string_all s :
  match scan_string s with
  | Ok (u, r) => (length r < length s)%nat /\ forall q, scan_string (s ++ q) = Ok (u, (r ++ q)%list)
  | Err e => e = ValueError
  end.
Proof.
  pose proof (units_all (length s) s (le_n _)) as H. unfold scan_string.
  destruct (scan_units s) as [[u r]|e]; cbn [bind fst snd]; [|exact H].
  destruct H as [L E]. split; [exact L|]. intros q. rewrite E. reflexivity.
Qed.

Lemma span_split p s : s = (fst (span p s) ++ snd (span p s))%list.
Proof. induction s as [|c s IH]; [reflexivity|]. cbn [span]. destruct (p c); cbn [fst snd app]; [congruence|reflexivity]. Qed.
Lemma span_more p s q : snd (span p s) <> [] -> span p (s ++ q) = (fst (span p s), (snd (span p s) ++ q)%list).
Proof.
  induction s as [|c s IH]; intros H; [now destruct H|]. cbn [app span] in *. destruct (p c); [|reflexivity].
  cbn [fst snd] in *. now rewrite IH.
Qed.

Definition settled (r : text) : Prop := exists c r', r = c :: r' /\ code c <> 46 /\ code c <> 101 /\ code c <> 69.

Lemma fraction_split s : s = (fst (scan_fraction s) ++ snd (scan_fraction s))%list.
Proof.
  destruct s as [|c s]; [reflexivity|]. unfold scan_fraction. destruct (code c =? 46); [|reflexivity].
  pose proof (span_split is_digit s) as E. destruct (span is_digit s) as [[|x d] r]; [reflexivity|].
  cbn [fst snd app] in *. congruence.
Qed.
Lemma fraction_more s q : (exists c r, snd (scan_fraction s) = c :: r /\ code c <> 46) ->
  scan_fraction (s ++ q) = (fst (scan_fraction s), (snd (scan_fraction s) ++ q)%list).
Proof.
  destruct s as [|c s]; [intros (c & r & E & _); discriminate|]. unfold scan_fraction. cbn [app].
  destruct (N.eqb_spec (code c) 46) as [E|E]; [|reflexivity].
  intros (c' & r & H & N).
  assert (M : snd (span is_digit s) <> []).
  { pose proof (span_split is_digit s) as P. destruct (span is_digit s) as [[|x d] [|y r']]; try discriminate.
    cbn [snd] in H. injection H as -> _. contradiction. }
  pose proof (span_more is_digit s q M) as Q. rewrite Q.
  destruct (span is_digit s) as [[|x d] [|y r']]; cbn [fst snd] in *; reflexivity.
Qed.
Definition exp_sign (r : text) : text * text :=
  match r with x :: r1 => if (code x =? 43) || (code x =? 45) then ([x], r1) else ([], r) | [] => ([], []) end.
Lemma exp_sign_split r : r = (fst (exp_sign r) ++ snd (exp_sign r))%list.
Proof. destruct r as [|x r]; [reflexivity|]. cbn [exp_sign]. destruct ((code x =? 43) || (code x =? 45)); reflexivity. Qed.
Lemma exp_sign_more r q : snd (exp_sign r) <> [] -> exp_sign (r ++ q) = (fst (exp_sign r), (snd (exp_sign r) ++ q)%list).
Proof. destruct r as [|x r]; [intros H; now destruct H|]. cbn [exp_sign app]. destruct ((code x =? 43) || (code x =? 45)); reflexivity. Qed.
Lemma scan_exponent_cons c r : scan_exponent (c :: r) =
  if (code c =? 101) || (code c =? 69) then
    match span is_digit (snd (exp_sign r)) with ([], _) => ([], c :: r) | (d, r2) => ((c :: fst (exp_sign r) ++ d)%list, r2) end
  else ([], c :: r).
Proof.
  cbn [scan_exponent]. destruct ((code c =? 101) || (code c =? 69)); [|reflexivity].
  destruct r as [|x r]; [reflexivity|]. cbn [exp_sign]. destruct ((code x =? 43) || (code x =? 45)); reflexivity.
Qed.
Lemma exponent_split s : s = (fst (scan_exponent s) ++ snd (scan_exponent s))%list.
Proof.
  destruct s as [|c s]; [reflexivity|]. rewrite scan_exponent_cons. destruct ((code c =? 101) || (code c =? 69)); [|reflexivity].
  pose proof (span_split is_digit (snd (exp_sign s))) as E. pose proof (exp_sign_split s) as G.
  destruct (span is_digit (snd (exp_sign s))) as [[|x d] r]; [reflexivity|].
  cbn [fst snd app] in *. rewrite <- app_assoc. cbn [app]. congruence.
Qed.
Lemma exponent_more s q : (exists c r, snd (scan_exponent s) = c :: r /\ code c <> 101 /\ code c <> 69) ->
  scan_exponent (s ++ q) = (fst (scan_exponent s), (snd (scan_exponent s) ++ q)%list).
Proof.
  destruct s as [|c s]; [intros (c & r & E & _); discriminate|]. cbn [app]. rewrite !scan_exponent_cons.
  destruct ((code c =? 101) || (code c =? 69)) eqn:E; [|reflexivity].
  intros (c' & r & H & N1 & N2).
  assert (X : forall r', (c' :: r)%list = (c :: r')%list -> False).
  { intros r' K. injection K as -> _. apply orb_true_iff in E as [E|E]; apply N.eqb_eq in E; contradiction. }
  assert (M : snd (span is_digit (snd (exp_sign s))) <> []).
  { destruct (span is_digit (snd (exp_sign s))) as [[|x d] [|y r']]; try discriminate.
    exfalso. eapply X. symmetry. exact H. }
  assert (M1 : snd (exp_sign s) <> []) by (intros K; rewrite K in M; now destruct M).
  rewrite exp_sign_more by assumption. cbn [fst snd]. rewrite (span_more is_digit _ q M).
  destruct (span is_digit (snd (exp_sign s))) as [[|x d] r']; cbn [fst snd] in *; [|reflexivity].
  exfalso. eapply X. symmetry. exact H.
Qed.

Lemma exponent_head s y e : fst (scan_exponent s) = y :: e -> code y = 101 \/ code y = 69.
Proof.
  destruct s as [|c s]; [discriminate|]. rewrite scan_exponent_cons.
  destruct ((code c =? 101) || (code c =? 69)) eqn:E; [|discriminate].
  destruct (span is_digit (snd (exp_sign s))) as [[|x d] r]; [discriminate|]. cbn [fst]. intros H. injection H as <- _.
  apply orb_true_iff in E as [E|E]; apply N.eqb_eq in E; auto.
Qed.

Definition leads (s : text) : Prop :=
  exists c r, s = c :: r /\ (digit_code (code c) \/ code c = 45 /\ exists d r', r = d :: r' /\ digit_code (code d)).
Lemma whole_all s :
  match scan_whole s with
  | Some (w, r) => s = (w ++ r)%list /\ (exists c w', w = c :: w' /\ digit_code (code c)) /\
                   (r <> [] -> forall q, scan_whole (s ++ q) = Some (w, (r ++ q)%list))
  | None => True
  end.
Proof.
  destruct s as [|c s]; [exact I|]. unfold scan_whole. cbn [app].
  destruct (N.eqb_spec (code c) 48) as [E|E].
  - split; [reflexivity|]. split; [|reflexivity]. exists c, []. split; [reflexivity|]. unfold digit_code. lia.
  - destruct (is_digit c) eqn:D; [|exact I].
    pose proof (span_split is_digit (c :: s)) as P. pose proof (fun q => span_more is_digit (c :: s) q) as M.
    assert (Hd : exists c0 w', fst (span is_digit (c :: s)) = c0 :: w' /\ digit_code (code c0)).
    { cbn [span]. rewrite D. cbn [fst]. exists c, (fst (span is_digit s)). split; [reflexivity|]. now apply is_digit_spec. }
    destruct (span is_digit (c :: s)) as [w r]. cbn [fst snd] in *. split; [exact P|]. split; [exact Hd|].
    intros N q. now rewrite <- (M q N).
Qed.
Lemma sign_all s : s = (fst (scan_sign s) ++ snd (scan_sign s))%list /\
  (snd (scan_sign s) <> [] -> forall q, scan_sign (s ++ q) = (fst (scan_sign s), (snd (scan_sign s) ++ q)%list)) /\
  (fst (scan_sign s) = [] \/ exists c, fst (scan_sign s) = [c] /\ code c = 45).
Proof.
  destruct s as [|c s]; [split; [reflexivity|]; split; [intros H; now destruct H|now left]|].
  cbn [scan_sign app]. destruct (N.eqb_spec (code c) 45) as [E|E]; cbn [fst snd app].
  - split; [reflexivity|]. split; [reflexivity|]. right. now exists c.
  - split; [reflexivity|]. split; [reflexivity|]. now left.
Qed.
Lemma number_all s :
  match scan_number s with
  | Ok (v, r) => (length r < length s)%nat /\ leads s /\ (settled r -> forall q, scan_number (s ++ q) = Ok (v, (r ++ q)%list))
  | Err e => e = ValueError
  end.
Proof.
  unfold scan_number. destruct (sign_all s) as (S1 & S2 & S3). destruct (scan_sign s) as [sg s1]. cbn [fst snd] in *.
  pose proof (whole_all s1) as W. destruct (scan_whole s1) as [[w s2]|] eqn:EW; [|reflexivity].
  destruct W as (W1 & (c & w' & W2 & W3) & W4).
  pose proof (fraction_split s2) as F1. pose proof (fun q => fraction_more s2 q) as F2. destruct (scan_fraction s2) as [fr s3]. cbn [fst snd] in *.
  pose proof (exponent_split s3) as E1. pose proof (fun q => exponent_more s3 q) as E2. pose proof (exponent_head s3) as E3. destruct (scan_exponent s3) as [ex s4]. cbn [fst snd] in *.
  assert (L : (length s4 < length s)%nat).
  { rewrite S1, W1, F1, E1, W2, !app_length. cbn [length]. lia. }
  assert (H : leads s).
  { rewrite S1, W1, W2. destruct S3 as [->|(m & -> & M)]; cbn [app]; eexists _, _; (split; [reflexivity|]); [now left|].
    right. split; [exact M|]. now eexists _, _. }
  assert (X : settled s4 -> forall q,
    (let '(sg0, s0) := scan_sign (s ++ q) in
     match scan_whole s0 with
     | None => Err ValueError
     | Some (w0, s5) => let '(fr0, s6) := scan_fraction s5 in let '(ex0, s7) := scan_exponent s6 in
        match (fr0 ++ ex0)%list with
        | [] => Ok (TInt (Z.of_int (match sg0 with [] => Pos (read_uint w0) | _ => Neg (read_uint w0) end)), s7)
        | _ => Ok (TFloat (sg0 ++ w0 ++ fr0 ++ ex0)%list, s7)
        end
     end) =
    match (fr ++ ex)%list with
    | [] => Ok (TInt (Z.of_int (match sg with [] => Pos (read_uint w) | _ => Neg (read_uint w) end)), (s4 ++ q)%list)
    | _ => Ok (TFloat (sg ++ w ++ fr ++ ex)%list, (s4 ++ q)%list)
    end).
  { intros (k & r' & K & K1 & K2 & K3) q.
    assert (N4 : s4 <> []) by (rewrite K; discriminate).
    assert (N2 : s2 <> []). { rewrite F1, E1, K. intros Z. apply app_eq_nil in Z as [_ Z]. apply app_eq_nil in Z as [_ Z]. discriminate. }
    rewrite S2 by (rewrite W1, W2; discriminate). rewrite W4 by assumption.
    rewrite F2.
    - rewrite E2; [reflexivity|]. now exists k, r'.
    - rewrite E1. destruct ex as [|y ex].
      + cbn [app]. exists k, r'. now split.
      + (* the exponent starts with e *)
        cbn [app]. exists y, (ex ++ s4)%list. split; [reflexivity|].
        destruct (E3 y ex eq_refl) as [-> | ->]; discriminate. }
  destruct (fr ++ ex)%list; (split; [exact L|]; split; [exact H|exact X]).
Qed.

Lemma skip_some w s r : skip w s = Some r -> s = (w ++ r)%list.
Proof.
  revert s. induction w as [|a w IH]; intros s H; [now injection H|]. destruct s as [|b s]; [discriminate|].
  cbn [skip] in H. destruct (Ascii.eqb_spec a b); [|discriminate]. subst. cbn [app]. f_equal. now apply IH.
Qed.
Lemma leads_number s : leads s -> scan_atom s = scan_number s.
Proof.
  intros (c & r & -> & H).
  assert (K : forall a d, digit_code (code d) -> ~ digit_code (code a) -> a <> d) by (intros a d; apply digit_not_word).
  unfold scan_atom. cbn [t list_ascii_of_string]. destruct H as [D|(E & d & r' & -> & D)].
  - rewrite !skip_head; [reflexivity|..]; (apply K; [assumption|]); intros [K1 K2]; revert K1 K2; vm_compute; congruence.
  - change 45 with (code "-"%char) in E. apply code_inj in E as ->.
    rewrite (skip_head "n"), (skip_head "t"), (skip_head "f"), (skip_head "N"), (skip_head "I"%char) by discriminate.
    cbn [skip]. change (Ascii.eqb "-" "-") with true. cbv iota.
    rewrite (proj2 (Ascii.eqb_neq "I" d)); [reflexivity|].
    apply K; [assumption|]. intros [K1 K2]; revert K1 K2; vm_compute; congruence.
Qed.
Lemma leads_more s q : leads s -> leads (s ++ q).
Proof.
  intros (c & r & -> & H). exists c, (r ++ q)%list. split; [reflexivity|].
  destruct H as [D|(E & d & r' & -> & D)]; [now left|]. right. split; [exact E|]. now exists d, (r' ++ q)%list.
Qed.
Lemma word_length (w r : text) : (w <> [] -> length r < length (w ++ r))%nat.
Proof. intros H. rewrite app_length. destruct w; [now destruct H|]. cbn. lia. Qed.
Lemma atom_all s :
  match scan_atom s with
  | Ok (v, r) => (length r < length s)%nat /\ (settled r -> forall q, scan_atom (s ++ q) = Ok (v, (r ++ q)%list))
  | Err e => e = ValueError
  end.
Proof.
  unfold scan_atom at 1.
  destruct (skip (t "null") s) as [r|] eqn:E1; [apply skip_some in E1 as ->; split; [now apply word_length|reflexivity]|].
  destruct (skip (t "true") s) as [r|] eqn:E2; [apply skip_some in E2 as ->; split; [now apply word_length|reflexivity]|].
  destruct (skip (t "false") s) as [r|] eqn:E3; [apply skip_some in E3 as ->; split; [now apply word_length|reflexivity]|].
  destruct (skip (t "NaN") s) as [r|] eqn:E4; [apply skip_some in E4 as ->; split; [now apply word_length|reflexivity]|].
  destruct (skip (t "Infinity") s) as [r|] eqn:E5; [apply skip_some in E5 as ->; split; [now apply word_length|reflexivity]|].
  destruct (skip (t "-Infinity") s) as [r|] eqn:E6; [apply skip_some in E6 as ->; split; [now apply word_length|reflexivity]|].
  pose proof (number_all s) as H. destruct (scan_number s) as [[v r]|e]; [|exact H].
  destruct H as (L & D & X). split; [exact L|]. intros S q. rewrite leads_number by now apply leads_more. now apply X.
Qed.

Definition composite (v : jt) : Prop := match v with TStr _ | TList _ | TDict _ => True | _ => False end.

Lemma atom_not_composite s v r : scan_atom s = Ok (v, r) -> ~ composite v.
Proof.
  unfold scan_atom, scan_number.
  destruct (skip (t "null") s); [intros H; injection H as <- _; exact (fun x => x)|].
  destruct (skip (t "true") s); [intros H; injection H as <- _; exact (fun x => x)|].
  destruct (skip (t "false") s); [intros H; injection H as <- _; exact (fun x => x)|].
  destruct (skip (t "NaN") s); [intros H; injection H as <- _; exact (fun x => x)|].
  destruct (skip (t "Infinity") s); [intros H; injection H as <- _; exact (fun x => x)|].
  destruct (skip (t "-Infinity") s); [intros H; injection H as <- _; exact (fun x => x)|].
  destruct (scan_sign s) as [sg s1]. destruct (scan_whole s1) as [[w s2]|]; [|discriminate].
  destruct (scan_fraction s2) as [fr s3]. destruct (scan_exponent s3) as [ex s4].
  destruct (fr ++ ex)%list; intros H; injection H as <- _; exact (fun x => x).
Qed.

(** How much is read. *)
Lemma reads_some f :
  (forall s v r, scan f s = Ok (v, r) -> (length r < length s)%nat) /\
  (forall s a v r, scan_list f s a = Ok (v, r) -> (length r < length s)%nat /\ composite v) /\
  (forall s a v r, scan_dict f s a = Ok (v, r) -> (length r < length s)%nat /\ composite v).
Proof.
  induction f as [|f (I1 & I2 & I3)]; [repeat split; discriminate|]. split; [|split].
  - intros s v r H. cbn [scan] in H. destruct s as [|c s]; [discriminate|]. cbn [length].
    destruct (code c =? 34).
    { pose proof (string_all s) as A. destruct (scan_string s) as [[u r']|e]; cbn [bind fst snd] in H; [|discriminate].
      injection H as <- <-. lia. }
    pose proof (spaces_length s) as SL.
    destruct (code c =? 91).
    { destruct (spaces s) as [|c1 r1]; [discriminate|]. cbn [length] in SL. destruct (code c1 =? 93).
      - injection H as <- <-. lia.
      - apply I2 in H as [H _]. cbn [length] in H. lia. }
    destruct (code c =? 123).
    { destruct (spaces s) as [|c1 r1]; [discriminate|]. cbn [length] in SL. destruct (code c1 =? 125).
      - injection H as <- <-. lia.
      - apply I3 in H as [H _]. cbn [length] in H. lia. }
    pose proof (atom_all (c :: s)) as A. rewrite H in A. apply A.
  - intros s a v r H. cbn [scan_list] in H. destruct (scan f s) as [[x rx]|e] eqn:E; cbn [bind fst snd] in H; [|discriminate].
    apply I1 in E. pose proof (spaces_length rx) as SL. destruct (spaces rx) as [|c r']; [discriminate|]. cbn [length] in SL.
    destruct (code c =? 93); [injection H as <- <-; split; [lia|exact I]|].
    destruct (code c =? 44); [|discriminate]. apply I2 in H as [H C]. pose proof (spaces_length r'). split; [lia|exact C].
  - intros s a v r H. cbn [scan_dict] in H. destruct s as [|q s1]; [discriminate|]. cbn [length].
    destruct (negb (code q =? 34)); [discriminate|].
    pose proof (string_all s1) as A. destruct (scan_string s1) as [[k rk]|e]; cbn [bind fst snd] in H; [|discriminate].
    destruct A as [A _]. pose proof (spaces_length rk) as SL. destruct (spaces rk) as [|c s2]; [discriminate|]. cbn [length] in SL.
    destruct (negb (code c =? 58)); [discriminate|].
    destruct (scan f (spaces s2)) as [[x rx]|e] eqn:E; cbn [bind fst snd] in H; [|discriminate].
    apply I1 in E. pose proof (spaces_length s2). pose proof (spaces_length rx) as SL2. destruct (spaces rx) as [|c1 r']; [discriminate|]. cbn [length] in SL2.
    destruct (code c1 =? 125); [injection H as <- <-; split; [lia|exact I]|].
    destruct (code c1 =? 44); [|discriminate]. apply I3 in H as [H C]. pose proof (spaces_length r'). split; [lia|exact C].
Qed.

(** Only ValueError is raised. *)
Lemma only_value_errors f :
  (forall s e, scan f s = Err e -> (2 * length s + 1 <= f)%nat -> e = ValueError) /\
  (forall s a e, scan_list f s a = Err e -> (2 * length s + 2 <= f)%nat -> e = ValueError) /\
  (forall s a e, scan_dict f s a = Err e -> (2 * length s + 2 <= f)%nat -> e = ValueError).
Proof.
  induction f as [|f (I1 & I2 & I3)]; [repeat split; intros; lia|]. destruct (reads_some f) as (R1 & R2 & R3). split; [|split].
  - intros s e H F. cbn [scan] in H. destruct s as [|c s]; [congruence|]. cbn [length] in F.
    destruct (code c =? 34).
    { pose proof (string_all s) as A. destruct (scan_string s) as [[u r']|e']; cbn [bind fst snd] in H; congruence. }
    pose proof (spaces_length s) as SL.
    destruct (code c =? 91).
    { destruct (spaces s) as [|c1 r1]; [congruence|]. destruct (code c1 =? 93); [discriminate|]. apply I2 in H; [exact H|lia]. }
    destruct (code c =? 123).
    { destruct (spaces s) as [|c1 r1]; [congruence|]. destruct (code c1 =? 125); [discriminate|]. apply I3 in H; [exact H|lia]. }
    pose proof (atom_all (c :: s)) as A. now rewrite H in A.
  - intros s a e H F. cbn [scan_list] in H. destruct (scan f s) as [[x rx]|e'] eqn:E; cbn [bind fst snd] in H.
    2:{ injection H as <-. apply I1 in E; [exact E|lia]. }
    apply R1 in E. pose proof (spaces_length rx) as SL. destruct (spaces rx) as [|c r']; [congruence|]. cbn [length] in SL.
    destruct (code c =? 93); [discriminate|]. destruct (code c =? 44); [|congruence].
    pose proof (spaces_length r'). apply I2 in H; [exact H|lia].
  - intros s a e H F. cbn [scan_dict] in H. destruct s as [|q s1]; [congruence|]. cbn [length] in F.
    destruct (negb (code q =? 34)); [congruence|].
    pose proof (string_all s1) as A. destruct (scan_string s1) as [[k rk]|e']; cbn [bind fst snd] in H; [|congruence].
    destruct A as [A _]. pose proof (spaces_length rk) as SL. destruct (spaces rk) as [|c s2]; [congruence|]. cbn [length] in SL.
    destruct (negb (code c =? 58)); [congruence|]. pose proof (spaces_length s2).
    destruct (scan f (spaces s2)) as [[x rx]|e'] eqn:E; cbn [bind fst snd] in H.
    2:{ injection H as <-. apply I1 in E; [exact E|lia]. }
    apply R1 in E. pose proof (spaces_length rx) as SL2. destruct (spaces rx) as [|c1 r']; [congruence|]. cbn [length] in SL2.
    destruct (code c1 =? 125); [discriminate|]. destruct (code c1 =? 44); [|congruence].
    pose proof (spaces_length r'). apply I3 in H; [exact H|lia].
Qed.

Lemma settled_spaces r c s : spaces r = c :: s -> code c = 93 \/ code c = 125 \/ code c = 44 -> settled r.
Proof.
  destruct r as [|d r]; [discriminate|]. cbn [spaces]. intros H C. exists d, r. split; [reflexivity|].
  destruct (is_space d) eqn:E.
  - unfold is_space in E. rewrite !orb_true_iff, !N.eqb_eq in E. lia.
  - injection H as -> _. lia.
Qed.

(** What is read from the beginning of a text is read from the whole of it. *)
Lemma reads_more f :
  (forall s v r, scan f s = Ok (v, r) -> settled r \/ composite v -> forall f' q, (f <= f')%nat -> scan f' (s ++ q) = Ok (v, (r ++ q)%list)) /\
  (forall s a v r, scan_list f s a = Ok (v, r) -> forall f' q, (f <= f')%nat -> scan_list f' (s ++ q) a = Ok (v, (r ++ q)%list)) /\
  (forall s a v r, scan_dict f s a = Ok (v, r) -> forall f' q, (f <= f')%nat -> scan_dict f' (s ++ q) a = Ok (v, (r ++ q)%list)).
Proof.
  induction f as [|f (I1 & I2 & I3)]; [repeat split; discriminate|]. split; [|split].
  - intros s v r H C f' q F. destruct f' as [|f']; [lia|]. cbn [scan] in H |- *. destruct s as [|c s]; [discriminate|]. cbn [app].
    destruct (code c =? 34).
    { pose proof (string_all s) as A. destruct (scan_string s) as [[u r']|e]; cbn [bind fst snd] in H; [|discriminate].
      destruct A as [_ A]. rewrite A. cbn [bind fst snd]. injection H as <- <-. reflexivity. }
    destruct (code c =? 91).
    { pose proof (spaces_more s q) as SM. destruct (spaces s) as [|c1 r1]; [discriminate|]. rewrite SM by discriminate. cbn [app].
      destruct (code c1 =? 93); [injection H as <- <-; reflexivity|]. apply (I2 _ _ _ _ H f' q). lia. }
    destruct (code c =? 123).
    { pose proof (spaces_more s q) as SM. destruct (spaces s) as [|c1 r1]; [discriminate|]. rewrite SM by discriminate. cbn [app].
      destruct (code c1 =? 125); [injection H as <- <-; reflexivity|]. apply (I3 _ _ _ _ H f' q). lia. }
    pose proof (atom_all (c :: s)) as A. rewrite H in A. destruct A as [_ A].
    destruct C as [C|C]; [now apply A|]. now destruct (atom_not_composite _ _ _ H).
  - intros s a v r H f' q F. destruct f' as [|f']; [lia|]. cbn [scan_list] in H |- *.
    destruct (scan f s) as [[x rx]|e] eqn:E; cbn [bind fst snd] in H; [|discriminate].
    pose proof (spaces_more rx q) as SM. destruct (spaces rx) as [|c r'] eqn:SP; [discriminate|].
    assert (S : settled rx).
    { apply (settled_spaces _ _ _ SP). destruct (N.eqb_spec (code c) 93); [now left|]. destruct (N.eqb_spec (code c) 44); [auto|discriminate]. }
    rewrite (I1 _ _ _ E (or_introl S) f' q) by lia. cbn [bind fst snd]. rewrite SM by discriminate. cbn [app].
    destruct (code c =? 93); [injection H as <- <-; reflexivity|]. destruct (code c =? 44); [|discriminate].
    assert (N : spaces r' <> []).
    { intros K. rewrite K in H. destruct f; [discriminate|]. cbn [scan_list] in H. destruct f; discriminate. }
    rewrite spaces_more by assumption. apply (I2 _ _ _ _ H f' q). lia.
  - intros s a v r H f' q F. destruct f' as [|f']; [lia|]. cbn [scan_dict] in H |- *. destruct s as [|u s1]; [discriminate|]. cbn [app].
    destruct (negb (code u =? 34)); [discriminate|].
    pose proof (string_all s1) as A. destruct (scan_string s1) as [[k rk]|e]; cbn [bind fst snd] in H; [|discriminate].
    destruct A as [_ A]. rewrite A. cbn [bind fst snd].
    pose proof (spaces_more rk q) as SM. destruct (spaces rk) as [|c s2]; [discriminate|]. rewrite SM by discriminate. cbn [app].
    destruct (negb (code c =? 58)); [discriminate|].
    destruct (scan f (spaces s2)) as [[x rx]|e] eqn:E; cbn [bind fst snd] in H; [|discriminate].
    assert (N2 : spaces s2 <> []). { intros K. rewrite K in E. destruct f; discriminate. }
    rewrite spaces_more by assumption.
    pose proof (spaces_more rx q) as SM2. destruct (spaces rx) as [|c1 r'] eqn:SP; [discriminate|].
    assert (S : settled rx).
    { apply (settled_spaces _ _ _ SP). destruct (N.eqb_spec (code c1) 125); [auto|]. destruct (N.eqb_spec (code c1) 44); [auto|discriminate]. }
    rewrite (I1 _ _ _ E (or_introl S) f' q) by lia. cbn [bind fst snd]. rewrite SM2 by discriminate. cbn [app].
    destruct (code c1 =? 125); [injection H as <- <-; reflexivity|]. destruct (code c1 =? 44); [|discriminate].
    assert (N : spaces r' <> []).
    { intros K. rewrite K in H. destruct f; discriminate. }
    rewrite spaces_more by assumption. apply (I3 _ _ _ _ H f' q). lia.
Qed.

(** *** Texts cut short *)
Lemma loads_errors s e : loads s = Err e -> e = ValueError.
Proof.
  unfold loads. destruct (scan (S (2 * length s)) (spaces s)) as [[v r]|e'] eqn:E; cbn [bind fst snd].
  - destruct (spaces r); congruence.
  - intros H. injection H as <-. apply only_value_errors in E; [exact E|]. pose proof (spaces_length s). lia.
Qed.
Lemma cut_refused st v p : writable v -> composite v -> cut_short p (pr st 0 v) -> loads p = Err ValueError.
Proof.
  intros W C (q & N & E). destruct (loads p) as [v'|e] eqn:L; [|f_equal; exact (loads_errors _ _ L)]. exfalso.
  unfold loads in L. destruct (scan (S (2 * length p)) (spaces p)) as [[v0 r]|e'] eqn:S; cbn [bind fst snd] in L; [|discriminate].
  destruct p as [|c p]; [discriminate|].
  destruct (pr_opens st 0 v W) as (c' & r' & O & SP & _).
  assert (c' = c). { rewrite E in O. cbn [app] in O. congruence. } subst c'.
  rewrite spaces_head in S by assumption.
  assert (C0 : composite v0).
  { assert (D : code c = 34 \/ code c = 91 \/ code c = 123).
    { destruct v; try contradiction; cbn [pr] in O.
      - unfold write_str in O. injection O as <- _. now left.
      - destruct l; injection O as <- _; auto.
      - destruct d; injection O as <- _; auto. }
    cbn [scan] in S. destruct (N.eqb_spec (code c) 34).
    { destruct (scan_string p); cbn [bind] in S; [injection S as <- _; exact I|discriminate]. }
    destruct (N.eqb_spec (code c) 91).
    { destruct (spaces p) as [|c1 r1]; [discriminate|]. destruct (code c1 =? 93); [injection S as <- _; exact I|].
      now apply reads_some in S as [_ S]. }
    destruct (N.eqb_spec (code c) 123); [|lia].
    destruct (spaces p) as [|c1 r1]; [discriminate|]. destruct (code c1 =? 125); [injection S as <- _; exact I|].
    now apply reads_some in S as [_ S]. }
  pose proof (proj1 (reads_more _) _ _ _ S (or_intror C0) (Datatypes.S (2 * length (pr st 0 v))) q) as X.
  rewrite E in X. pose proof (reads_back st v 0%nat [] (Datatypes.S (2 * length (pr st 0 v))) W I) as R.
  rewrite app_nil_r, E in R. rewrite X in R.
  - specialize (R ltac:(rewrite <- E; lia)). injection R as _ R. apply app_eq_nil in R as [_ R]. contradiction.
  - rewrite app_length. cbn [length]. lia.
Qed.
Lemma dumps_cut st v x p : writable v -> match v with TStr _ | TList _ | TDict _ => True | _ => False end ->
  dumps st v = Ok x -> cut_short p x -> loads p = Err ValueError.
Proof.
  intros W C D K. rewrite dumps_pr in D by assumption.
  assert (E : x = pr st 0 v) by congruence. subst x. now apply (cut_refused st v).
Qed.

Lemma surrogates_lost : ~ forall st s, code_points s -> (let* x := dumps st (TStr s) in loads x) = Ok (TStr s).
Proof.
  intros H. specialize (H Compact [55357; 56832]). assert (C : code_points [55357; 56832]).
  { intros c [<-|[<-|[]]]; reflexivity. }
  apply (string_back Compact _ C) in H; [|exact C]. apply (H 0%nat 55357 56832 eq_refl eq_refl). split; split; vm_compute; congruence.
Qed.
Lemma small_proper s : (forall c, In c s -> c < 55296 \/ 57344 <= c < 1114112) -> proper_string s.
Proof.
  intros H. split; [intros c Hc; destruct (H c Hc); lia|]. intros i a b A _ [K _]. apply nth_error_In in A. destruct (H a A); lia.
Qed.
Ltac small := apply small_proper; cbn [In]; intros ? ?; repeat match goal with H : _ \/ _ |- _ => destruct H end; try contradiction; subst; lia.
Lemma token w f e : (w = t "0" \/ exists c r, w = (c :: r)%list /\ JsonTextSpec.digits (c :: r) /\ c <> "0"%char) ->
  (f = [] \/ exists d, f = ("."%char :: d)%list /\ JsonTextSpec.digits d /\ d <> []) ->
  (e = [] \/ exists sg d, e = ("e"%char :: sg ++ d)%list /\ (sg = [] \/ sg = t "+" \/ sg = t "-") /\ JsonTextSpec.digits d /\ d <> []) ->
  f <> [] \/ e <> [] -> float_token (w ++ f ++ e) /\ float_token (t "-" ++ w ++ f ++ e).
Proof.
  intros W F E N. split; right; right; right.
  - exists [], w, f, e. repeat split; auto.
  - exists (t "-"), w, f, e. repeat split; auto.
Qed.
Lemma digits_check s : forallb is_digit s = true -> JsonTextSpec.digits s.
Proof. rewrite forallb_forall. intros H c Hc. specialize (H c Hc). now apply is_digit_spec in H. Qed.
Lemma token_01 : float_token (t "0.1").
Proof.
  apply (token (t "0") (t ".1") []); [now left| |now left|left; discriminate].
  right. exists (t "1"). split; [reflexivity|]. split; [now apply digits_check|discriminate].
Qed.
Lemma token_1e5 : float_token (t "-1e-05").
Proof.
  apply (token (t "1") [] (t "e-05")); [|now left| |right; discriminate].
  - right. exists "1"%char, []. split; [reflexivity|]. split; [now apply digits_check|discriminate].
  - right. exists (t "-"), (t "05"). split; [reflexivity|]. split; [auto|]. split; [now apply digits_check|discriminate].
Qed.
Lemma sample_writable : writable sample.
Proof.
  unfold sample. constructor.
  - cbn [map fst]. repeat first [apply NoDup_nil | apply NoDup_cons; [cbn [In]; intuition discriminate|]].
  - intros k x [H|[H|[H|[]]]]; injection H as <- <-.
    + split; [small|]. constructor. intros x [<-|[<-|[<-|[<-|[<-|[<-|[]]]]]]]; constructor.
      * apply token_01.
      * apply token_1e5.
      * now left.
      * intros x [].
    + split; [small|]. constructor; [cbn [map fst]; apply NoDup_cons; [intros []|apply NoDup_nil]|].
      intros k x [H|[]]; injection H as <- <-. split; [small|constructor].
    + split; [small|constructor].
Qed.
Lemma sample_bad_unwritable : unwritable sample_bad.
Proof.
  eapply u_dict; [right; left; reflexivity|]. eapply u_list; [right; left; reflexivity|]. constructor.
Qed.
