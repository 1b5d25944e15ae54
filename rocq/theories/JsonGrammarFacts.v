(** Proofs about the grammar of JSON documents. *)
From Coq Require Import Lia Decimal DecimalZ.
From Verif Require Import Base JsonText JsonTextSpec JsonTextFacts JsonTextFacts2 JsonGrammarSpec.
Open Scope N_scope.

(** *** Characters and strings *)
Lemma blanks_blank w : blanks w <-> blank w.
Proof.
  unfold blanks, blank. rewrite Forall_forall. split; intros H c I; specialize (H c I); unfold is_space in *; fold (code c) in *.
  - cbn [In] in H. rewrite !orb_true_iff, !N.eqb_eq. lia.
  - cbn [In]. rewrite !orb_true_iff, !N.eqb_eq in H. lia.
Qed.
Lemma spaces_split s : exists w, blank w /\ s = (w ++ spaces s)%list.
Proof.
  induction s as [|c s (w & B & E)]; [exists []; split; [constructor|reflexivity]|]. cbn [spaces].
  destruct (is_space c) eqn:K; [|exists []; split; [constructor|reflexivity]].
  exists (c :: w). split; [now constructor|]. cbn [app]. now f_equal.
Qed.
Lemma hex_sound c n : hex_value c = Some n -> hexadecimal c n.
Proof.
  destruct c as [[] [] [] [] [] [] [] []]; intros H; vm_compute in H; try discriminate; injection H as <-;
    unfold hexadecimal; ((left; reflexivity) || (right; reflexivity)).
Qed.
Lemma hex_complete c n : hexadecimal c n -> hex_value c = Some n.
Proof.
  intros H. assert (L : (N.to_nat n < 16)%nat) by (destruct H as [H|H]; [change 16%nat with (length (t "0123456789abcdef"))|change 16%nat with (length (t "0123456789ABCDEF"))]; apply nth_error_Some; rewrite H; discriminate).
  assert (E : In n [0;1;2;3;4;5;6;7;8;9;10;11;12;13;14;15]) by (cbn [In]; lia).
  cbn [In] in E. repeat (destruct E as [<-|E]; [destruct H as [H|H]; vm_compute in H; injection H as <-; reflexivity|]). destruct E.
Qed.

Lemma code_char c n : n < 256 -> code c = n -> c = ch n.
Proof. intros L E. apply code_inj. now rewrite code_ch. Qed.
Lemma letter_scan n x s : letter n x -> scan_units (x ++ s) = let* r := scan_units s in Ok (n :: fst r, snd r).
Proof.
  intros H. destruct H as [c P Q B|c n E|a b c d na nb nc nd A B C D].
  - cbn [app scan_units]. fold (code c) in *.
    rewrite (proj2 (N.eqb_neq (code c) 34)), (proj2 (N.eqb_neq (code c) 92)), (proj2 (N.ltb_ge (code c) 32)); [reflexivity|exact P|..];
      intros K; [apply B|apply Q]; now apply code_inj.
  - unfold short_escapes in E. cbn [In] in E. repeat (destruct E as [E|E]; [injection E as <- <-; reflexivity|]). destruct E.
  - apply hex_complete in A, B, C, D. cbn [app scan_units].
    change (code "\" =? 34) with false. change (code "\" =? 92) with true. cbv iota.
    change (code "u" =? 34) with false. change (code "u" =? 92) with false. change (code "u" =? 47) with false.
    change (code "u" =? 98) with false. change (code "u" =? 102) with false. change (code "u" =? 110) with false.
    change (code "u" =? 114) with false. change (code "u" =? 116) with false. change (code "u" =? 117) with true. cbv iota.
    rewrite A, B, C, D. replace (((na * 16 + nb) * 16 + nc) * 16 + nd) with (4096 * na + 256 * nb + 16 * nc + nd) by ring. reflexivity.
Qed.
Lemma letters_scan u y s : letters u y -> scan_units (y ++ "034"%char :: s) = Ok (u, s).
Proof.
  induction 1 as [|n x u y L _ IH]; [reflexivity|]. rewrite <- app_assoc, (letter_scan n x _ L), IH. reflexivity.
Qed.
Lemma scan_letters n : forall s u r, (length s <= n)%nat -> scan_units s = Ok (u, r) ->
  exists y, letters u y /\ s = (y ++ "034"%char :: r)%list.
Proof.
  induction n as [|n IH]; intros s u r L H; (destruct s as [|c s]; [discriminate|]); cbn [length] in L; [lia|].
  assert (K : forall k x s0, letter k x -> (length s0 <= n)%nat -> (let* z := scan_units s0 in Ok (k :: fst z, snd z)) = Ok (u, r) ->
    exists y, letters u y /\ (x ++ s0)%list = (y ++ "034"%char :: r)%list).
  { intros k x s0 P L0 E. destruct (scan_units s0) as [[u0 r0]|] eqn:S0; [|discriminate]. cbn [bind fst snd] in E. injection E as <- <-.
    destruct (IH s0 u0 r0 L0 S0) as (y & Y & ->). exists (x ++ y)%list. split; [now constructor|]. now rewrite <- app_assoc. }
  cbn [scan_units] in H. destruct (N.eqb_spec (code c) 34) as [E|E].
  { injection H as <- <-. exists []. split; [constructor|]. cbn [app]. f_equal. now apply (code_char c 34). }
  destruct (N.eqb_spec (code c) 92) as [E1|E1].
  - apply (code_char c 92) in E1; [|reflexivity]. subst c. destruct s as [|e s]; [discriminate|]. cbn [length] in L.
    assert (T : forall k, In (e, k) short_escapes -> (let* z := scan_units s in Ok (k :: fst z, snd z)) = Ok (u, r) ->
      exists y, letters u y /\ ("\"%char :: e :: s)%list = (y ++ "034"%char :: r)%list).
    { intros k I X. apply (K k ["\"%char; e] s); [now constructor|lia|exact X]. }
    cbv zeta in H.
    destruct (N.eqb_spec (code e) 34) as [Z|_]; [apply (code_char e 34) in Z; [|reflexivity]; subst e; apply (T 34); [vm_compute; tauto|exact H]|].
    destruct (N.eqb_spec (code e) 92) as [Z|_]; [apply (code_char e 92) in Z; [|reflexivity]; subst e; apply (T 92); [vm_compute; tauto|exact H]|].
    destruct (N.eqb_spec (code e) 47) as [Z|_]; [apply (code_char e 47) in Z; [|reflexivity]; subst e; apply (T 47); [vm_compute; tauto|exact H]|].
    destruct (N.eqb_spec (code e) 98) as [Z|_]; [apply (code_char e 98) in Z; [|reflexivity]; subst e; apply (T 8); [vm_compute; tauto|exact H]|].
    destruct (N.eqb_spec (code e) 102) as [Z|_]; [apply (code_char e 102) in Z; [|reflexivity]; subst e; apply (T 12); [vm_compute; tauto|exact H]|].
    destruct (N.eqb_spec (code e) 110) as [Z|_]; [apply (code_char e 110) in Z; [|reflexivity]; subst e; apply (T 10); [vm_compute; tauto|exact H]|].
    destruct (N.eqb_spec (code e) 114) as [Z|_]; [apply (code_char e 114) in Z; [|reflexivity]; subst e; apply (T 13); [vm_compute; tauto|exact H]|].
    destruct (N.eqb_spec (code e) 116) as [Z|_]; [apply (code_char e 116) in Z; [|reflexivity]; subst e; apply (T 9); [vm_compute; tauto|exact H]|].
    destruct (N.eqb_spec (code e) 117) as [Z|_]; [|discriminate]. apply (code_char e 117) in Z; [|reflexivity]. subst e.
    destruct s as [|a [|b [|c [|d s]]]]; try discriminate. cbn [length] in L.
    destruct (hex_value a) as [na|] eqn:A; [|discriminate]. destruct (hex_value b) as [nb|] eqn:B; [|discriminate].
    destruct (hex_value c) as [nc|] eqn:C; [|discriminate]. destruct (hex_value d) as [nd|] eqn:D; [|discriminate].
    apply hex_sound in A, B, C, D.
    replace (((na * 16 + nb) * 16 + nc) * 16 + nd) with (4096 * na + 256 * nb + 16 * nc + nd) in H by ring.
    apply (K (4096 * na + 256 * nb + 16 * nc + nd) ["\"%char; "u"%char; a; b; c; d] s); [now constructor|lia|exact H].
  - destruct (N.ltb_spec (code c) 32) as [G|G]; [discriminate|].
    apply (K (code c) [c] s); [|lia|exact H]. constructor; [exact G|..]; intros ->; now apply E || now apply E1.
Qed.

Lemma pair_spec a b : pair_of a b <-> high a && low b = true.
Proof. rewrite andb_true_iff, high_spec, low_spec. reflexivity. Qed.
Lemma joins_pairs u s : joins u s -> join_pairs u = s.
Proof.
  induction 1 as [|a b r s P _ IH|a r s N _ IH]; [reflexivity|..].
  - cbn [join_pairs]. rewrite (proj1 (pair_spec a b) P), IH. f_equal. lia.
  - destruct r as [|b r]; cbn [join_pairs] in *; [now rewrite <- IH|].
    destruct (high a && low b) eqn:E; [exfalso; apply (N b r eq_refl); now apply pair_spec|]. now rewrite IH.
Qed.
Lemma pairs_joins n : forall u, (length u <= n)%nat -> joins u (join_pairs u).
Proof.
  induction n as [|n IH]; intros u L; (destruct u as [|a [|b r]]; cbn [length] in L; [constructor|..]); try lia.
  - apply j_one; [discriminate|constructor].
  - cbn [join_pairs]. destruct (high a && low b) eqn:E.
    + rewrite (N.mul_comm (a - 55296) 1024). apply j_pair; [now apply pair_spec|]. apply IH. lia.
    + apply j_one; [|apply IH; cbn [length]; lia]. intros b' r' X P. injection X as <- <-. apply pair_spec in P. congruence.
Qed.
Lemma string_complete s x q : string_text s x -> exists y, x = "034"%char :: y /\ scan_string (y ++ q) = Ok (s, q).
Proof.
  intros (u & y & L & J & ->). eexists. split; [reflexivity|]. unfold scan_string. rewrite <- app_assoc. cbn [app].
  rewrite (letters_scan u y q L). cbn [bind fst snd]. now rewrite (joins_pairs u s J).
Qed.
Lemma string_sound y s r : scan_string y = Ok (s, r) -> exists x, string_text s x /\ ("034"%char :: y)%list = (x ++ r)%list.
Proof.
  unfold scan_string. destruct (scan_units y) as [[u r']|] eqn:E; [|discriminate]. cbn [bind fst snd]. intros H. injection H as <- <-.
  destruct (scan_letters (length y) y u r' (le_n _) E) as (z & Z & ->). exists ("034"%char :: z ++ ["034"%char])%list. split.
  - exists u, z. split; [exact Z|]. split; [|reflexivity]. exact (pairs_joins (length u) u (le_n _)).
  - cbn [app]. now rewrite <- app_assoc.
Qed.

(** *** Numbers *)
Definition dval (c : ascii) : Z := (Z.of_N (N_of_ascii c) - 48)%Z.
Lemma decimal_step w z : fold_left (fun n c => 10 * n + Z.of_N (N_of_ascii c) - 48)%Z w z = fold_left (fun n c => 10 * n + dval c)%Z w z.
Proof. revert z. induction w as [|c w IH]; intros z; [reflexivity|]. cbn [fold_left]. rewrite IH. f_equal. unfold dval. lia. Qed.
Lemma read_uint_cons c w : digit_code (code c) ->
  (forall p, Zpos (Pos.of_uint_acc (read_uint (c :: w)) p) = Zpos (Pos.of_uint_acc (read_uint w) (Z.to_pos (10 * Zpos p + dval c)))) /\
  Z.of_N (Pos.of_uint (read_uint (c :: w))) =
    if (dval c =? 0)%Z then Z.of_N (Pos.of_uint (read_uint w)) else Zpos (Pos.of_uint_acc (read_uint w) (Z.to_pos (dval c))).
Proof.
  intros D. assert (E : In (code c - 48) [0;1;2;3;4;5;6;7;8;9]) by (unfold digit_code in D; cbn [In]; lia).
  assert (V : dval c = Z.of_N (code c - 48)) by (unfold dval, digit_code in *; fold (code c); lia).
  rewrite V. cbn [read_uint]. destruct D as [D _]. clear V. generalize dependent (code c - 48). intros n E.
  cbn [In] in E. repeat (destruct E as [<-|E]; [split; [intros p; cbn [Pos.of_uint_acc]; f_equal; f_equal; lia|reflexivity]|]). destruct E.
Qed.
Lemma of_uint_acc w : digits w -> forall p, Zpos (Pos.of_uint_acc (read_uint w) p) = fold_left (fun n c => 10 * n + dval c)%Z w (Zpos p).
Proof.
  induction w as [|c w IH]; intros D p; [reflexivity|].
  assert (Dc : digit_code (code c)) by (apply D; now left).
  rewrite (proj1 (read_uint_cons c w Dc)). rewrite IH by (intros x X; apply D; now right). cbn [fold_left].
  f_equal. rewrite Z2Pos.id; [reflexivity|]. unfold dval, digit_code in *. fold (code c). lia.
Qed.
Lemma decimal_uint w : digits w -> Z.of_uint (read_uint w) = decimal w.
Proof.
  unfold decimal. rewrite decimal_step. unfold Z.of_uint. induction w as [|c w IH]; intros D; [reflexivity|].
  assert (Dc : digit_code (code c)) by (apply D; now left).
  assert (Dw : digits w) by (intros x X; apply D; now right).
  rewrite (proj2 (read_uint_cons c w Dc)). cbn [fold_left]. change (10 * 0 + dval c)%Z with (dval c).
  destruct (Z.eqb_spec (dval c) 0) as [->|N]; [now apply IH|]. rewrite of_uint_acc by assumption.
  rewrite Z2Pos.id; [reflexivity|]. unfold dval, digit_code in *. fold (code c) in *. lia.
Qed.
Lemma whole_digits w : whole_text w -> digits w.
Proof. intros [->|(c & r & -> & D & _)]; [|exact D]. intros c [<-|[]]. vm_compute. split; discriminate. Qed.
Lemma whole_a w : whole_text w <-> a_whole w.
Proof.
  unfold whole_text, a_whole. split; (intros [->|(c & r & -> & D & N)]; [now left|right; exists c, r; auto]).
Qed.
Lemma sign_sound s : fst (scan_sign s) = [] \/ fst (scan_sign s) = t "-".
Proof.
  destruct s as [|c s]; [now left|]. cbn [scan_sign]. destruct (N.eqb_spec (code c) 45) as [E|E]; [|now left].
  right. cbn [fst]. apply (code_char c 45) in E as ->; reflexivity.
Qed.
Lemma span_all p s : forall c, In c (fst (span p s)) -> p c = true.
Proof.
  induction s as [|a s IH]; [intros c []|]. cbn [span]. destruct (p a) eqn:E; [|intros c []]. cbn [fst].
  intros c [<-|H]; [exact E|now apply IH].
Qed.
Lemma span_is_digits s : digits (fst (span is_digit s)).
Proof. intros c H. apply is_digit_spec. now apply (span_all is_digit s). Qed.
Lemma whole_sound s w r : scan_whole s = Some (w, r) -> whole_text w.
Proof.
  destruct s as [|c s]; [discriminate|]. unfold scan_whole. destruct (N.eqb_spec (code c) 48) as [E|E].
  - intros H. injection H as <- _. left. apply (code_char c 48) in E as ->; reflexivity.
  - destruct (is_digit c) eqn:D; [|discriminate]. intros H. right.
    pose proof (span_is_digits (c :: s)) as P. cbn [span] in H, P. rewrite D in H, P. cbn [fst] in P. injection H as <- _.
    eexists _, _. split; [reflexivity|]. split; [exact P|]. intros ->. now apply E.
Qed.
Lemma fraction_sound s : fst (scan_fraction s) = [] \/ fraction_text (fst (scan_fraction s)).
Proof.
  destruct s as [|c s]; [now left|]. unfold scan_fraction. destruct (N.eqb_spec (code c) 46) as [E|E]; [|now left].
  pose proof (span_is_digits s) as P. destruct (span is_digit s) as [[|x d] r]; [now left|]. right. cbn [fst] in *.
  exists (x :: d). split; [|split; [exact P|discriminate]]. f_equal. apply (code_char c 46) in E as ->; reflexivity.
Qed.
Lemma exp_sign_sound r : fst (exp_sign r) = [] \/ fst (exp_sign r) = t "+" \/ fst (exp_sign r) = t "-".
Proof.
  destruct r as [|c r]; [now left|]. cbn [exp_sign]. destruct (N.eqb_spec (code c) 43) as [E|E]; cbn [orb fst].
  - right. left. apply (code_char c 43) in E as ->; reflexivity.
  - destruct (N.eqb_spec (code c) 45) as [E1|E1]; [|now left]. right. right. apply (code_char c 45) in E1 as ->; reflexivity.
Qed.
Lemma exponent_sound s : fst (scan_exponent s) = [] \/ exponent_text (fst (scan_exponent s)).
Proof.
  destruct s as [|c s]; [now left|]. rewrite scan_exponent_cons.
  destruct ((code c =? 101) || (code c =? 69)) eqn:E; [|now left].
  pose proof (exp_sign_sound s) as G. pose proof (span_is_digits (snd (exp_sign s))) as P.
  destruct (span is_digit (snd (exp_sign s))) as [[|x d] r]; [now left|]. right. cbn [fst] in *.
  exists c, (fst (exp_sign s)), (x :: d). split; [reflexivity|]. split; [|split; [exact G|split; [exact P|discriminate]]].
  apply orb_true_iff in E as [E|E]; apply N.eqb_eq in E; [left; now apply (code_char c 101)|right; now apply (code_char c 69)].
Qed.
Lemma number_sound s v r : scan_number s = Ok (v, r) -> exists x, value_text v x /\ s = (x ++ r)%list.
Proof.
  unfold scan_number. destruct (sign_all s) as (S1 & _ & _). pose proof (sign_sound s) as S2. destruct (scan_sign s) as [sg s1]. cbn [fst snd] in *.
  pose proof (whole_all s1) as W. pose proof (whole_sound s1) as W2. destruct (scan_whole s1) as [[w s2]|]; [|discriminate].
  destruct W as (W1 & _). specialize (W2 w s2 eq_refl).
  pose proof (fraction_split s2) as F1. pose proof (fraction_sound s2) as F2. destruct (scan_fraction s2) as [fr s3]. cbn [fst snd] in *.
  pose proof (exponent_split s3) as E1. pose proof (exponent_sound s3) as E2. destruct (scan_exponent s3) as [ex s4]. cbn [fst snd] in *.
  destruct (fr ++ ex)%list as [|z l] eqn:FE.
  - intros H. injection H as <- <-. apply app_eq_nil in FE as [-> ->]. cbn [app] in *. subst s s1 s2 s3.
    destruct S2 as [->| ->].
    + exists w. split; [|reflexivity]. cbn [Z.of_int]. rewrite decimal_uint by now apply whole_digits. now constructor.
    + exists ("-"%char :: w). split; [|reflexivity]. cbn [t list_ascii_of_string Z.of_int]. rewrite decimal_uint by now apply whole_digits. now constructor.
  - intros H. injection H as <- <-. exists (sg ++ w ++ fr ++ ex)%list. rewrite <- FE. split.
    + apply v_float; try assumption. rewrite FE. discriminate.
    + subst s s1 s2 s3. now rewrite <- !app_assoc.
Qed.
Lemma atom_sound s v r : scan_atom s = Ok (v, r) -> exists x, value_text v x /\ s = (x ++ r)%list.
Proof.
  unfold scan_atom.
  destruct (skip (t "null") s) as [q|] eqn:E1; [intros H; injection H as <- <-; apply skip_some in E1; eexists; split; [constructor|exact E1]|].
  destruct (skip (t "true") s) as [q|] eqn:E2; [intros H; injection H as <- <-; apply skip_some in E2; eexists; split; [constructor|exact E2]|].
  destruct (skip (t "false") s) as [q|] eqn:E3; [intros H; injection H as <- <-; apply skip_some in E3; eexists; split; [constructor|exact E3]|].
  destruct (skip (t "NaN") s) as [q|] eqn:E4; [intros H; injection H as <- <-; apply skip_some in E4; eexists; split; [apply v_word; cbn; tauto|exact E4]|].
  destruct (skip (t "Infinity") s) as [q|] eqn:E5; [intros H; injection H as <- <-; apply skip_some in E5; eexists; split; [apply v_word; cbn; tauto|exact E5]|].
  destruct (skip (t "-Infinity") s) as [q|] eqn:E6; [intros H; injection H as <- <-; apply skip_some in E6; eexists; split; [apply v_word; cbn; tauto|exact E6]|].
  apply number_sound.
Qed.

Lemma exponent_complete e s : e = [] \/ exponent_text e -> hd_is (fun n => ~ digit_code n /\ n <> 101 /\ n <> 69) s -> scan_exponent (e ++ s) = (e, s).
Proof.
  intros [->|(c & sg & d & -> & C & S & D & N)] H.
  - destruct s as [|c s]; [reflexivity|]. cbn [app scan_exponent]. destruct H as (_ & H1 & H2).
    now rewrite (proj2 (N.eqb_neq (code c) 101)), (proj2 (N.eqb_neq (code c) 69)).
  - cbn [app]. rewrite scan_exponent_cons. replace ((code c =? 101) || (code c =? 69)) with true by (destruct C as [->| ->]; reflexivity).
    assert (E : exp_sign ((sg ++ d) ++ s) = (sg, (d ++ s)%list)).
    { destruct S as [->|[->| ->]]; [|reflexivity|reflexivity].
      destruct d as [|x d]; [now destruct N|]. cbn [app exp_sign].
      pose proof (D x (or_introl eq_refl)) as K. fold (code x) in K.
      now rewrite (proj2 (N.eqb_neq (code x) 43)), (proj2 (N.eqb_neq (code x) 45)) by lia. }
    rewrite E. cbn [fst snd]. rewrite span_digits; [|assumption|destruct s; [exact I|apply H]].
    destruct d; [now destruct N|reflexivity].
Qed.
Lemma number_complete sg w f e s : a_sign sg -> whole_text w -> f = [] \/ fraction_text f -> e = [] \/ exponent_text e -> stops s ->
  scan_number (sg ++ w ++ f ++ e ++ s) =
  match (f ++ e)%list with
  | [] => Ok (TInt (Z.of_int (match sg with [] => Pos (read_uint w) | _ => Neg (read_uint w) end)), s)
  | _ => Ok (TFloat (sg ++ w ++ f ++ e)%list, s)
  end.
Proof.
  intros S W F E H. apply whole_a in W. unfold scan_number. rewrite scan_sign_ok by assumption. cbv iota beta.
  assert (H3 : hd_is (fun n => ~ digit_code n /\ n <> 46) (e ++ s)).
  { destruct E as [->|(c & x & d & -> & [->| ->] & _)];
      [|cbn [app hd_is]; split; [intros [K1 K]; revert K; vm_compute; congruence|discriminate]..].
    destruct s; [exact I|]. destruct H as (A & B & _). now split. }
  rewrite scan_whole_ok; [|assumption|].
  - rewrite scan_fraction_ok by assumption. cbv iota beta. rewrite exponent_complete; [reflexivity|assumption|].
    destruct s; [exact I|]. destruct H as (A & B & C & D). now repeat split.
  - destruct F as [->|(d & -> & _)]; [|cbn [app hd_is]; intros [K _]; revert K; vm_compute; congruence].
    cbn [app]. destruct (e ++ s)%list; [exact I|]. apply H3.
Qed.

(** *** Dictionaries *)
Definition puts (ps d : list (pystr * jt)) : list (pystr * jt) := fold_left (fun d kv => put d (fst kv) (snd kv)) ps d.
Notation dec := (list_eq_dec N.eq_dec).
Lemma in_firsts l k : In k (firsts l) <-> In k l.
Proof.
  induction l as [|a l IH]; [reflexivity|]. cbn [firsts In]. split.
  - intros [->|H]; [now left|]. apply in_remove in H as [H _]. right. now apply IH.
  - intros [->|H]; [now left|]. destruct (dec k a) as [->|N]; [now left|]. right. apply in_in_remove; [exact N|now apply IH].
Qed.
Lemma remove_app_one l k a : remove dec a (l ++ [k]) = (remove dec a l ++ (if dec a k then [] else [k]))%list.
Proof. rewrite remove_app. cbn [remove]. now destruct (dec a k). Qed.
Lemma firsts_app l k : firsts (l ++ [k]) = if in_dec dec k l then firsts l else (firsts l ++ [k])%list.
Proof.
  induction l as [|a l IH]; [reflexivity|]. cbn [app firsts]. rewrite IH.
  destruct (in_dec dec k l) as [I|N]; destruct (in_dec dec k (a :: l)) as [I'|N']; cbn [In] in *; try tauto.
  - destruct I' as [->|C]; [|contradiction]. rewrite remove_app_one. destruct (dec k k); [|contradiction]. now rewrite app_nil_r.
  - rewrite remove_app_one. destruct (dec a k) as [->|]; [tauto|reflexivity].
Qed.
Lemma keys_put d k v : map fst (put d k v) = if in_dec dec k (map fst d) then map fst d else (map fst d ++ [k])%list.
Proof.
  induction d as [|[k' v'] d IH]; [reflexivity|]. cbn [put]. destruct (pystr_eqb k' k) eqn:E.
  - apply pystr_eqb_spec in E as ->. cbn [map fst]. destruct (in_dec dec k (k :: map fst d)) as [_|N]; [reflexivity|]. destruct N. now left.
  - cbn [map fst]. rewrite IH. assert (K : k' <> k) by (intros ->; rewrite (proj2 (pystr_eqb_spec k k) eq_refl) in E; discriminate).
    destruct (in_dec dec k (map fst d)) as [I|N], (in_dec dec k (k' :: map fst d)) as [I'|N']; cbn [In] in *; try tauto; reflexivity.
Qed.
Lemma in_put d k v k' v' : NoDup (map fst d) -> In (k', v') (put d k v) -> k' = k /\ v' = v \/ k' <> k /\ In (k', v') d.
Proof.
  induction d as [|[a b] d IH]; cbn [put]; intros ND H.
  - destruct H as [H|[]]. injection H as -> ->. now left.
  - cbn [map fst] in ND. apply NoDup_cons_iff in ND as [NI ND]. destruct (pystr_eqb a k) eqn:E.
    + apply pystr_eqb_spec in E as ->. destruct H as [H|H]; [injection H as -> ->; now left|]. right. split; [|now right].
      intros ->. apply NI. now apply (in_map fst) in H.
    + destruct H as [H|H].
      * injection H as -> ->. right. split; [|now left]. intros ->. rewrite (proj2 (pystr_eqb_spec k k) eq_refl) in E. discriminate.
      * destruct (IH ND H) as [X|[X Y]]; [now left|right]. split; [exact X|now right].
Qed.
Lemma NoDup_removed (l : list pystr) a : NoDup l -> NoDup (remove dec a l).
Proof.
  induction l as [|b l IH]; intros H; [constructor|]. apply NoDup_cons_iff in H as [N H]. cbn [remove].
  destruct (dec a b); [now apply IH|]. constructor; [|now apply IH]. intros K. apply in_remove in K as [K _]. contradiction.
Qed.
Lemma NoDup_firsts l : NoDup (firsts l).
Proof. induction l as [|a l IH]; [constructor|]. cbn [firsts]. constructor; [apply remove_In|now apply NoDup_removed]. Qed.
Lemma of_pairs_put ps d k v : of_pairs ps d -> of_pairs (ps ++ [(k, v)]) (put d k v).
Proof.
  intros [K V]. split.
  - rewrite map_app. cbn [map fst]. rewrite firsts_app, keys_put, K.
    destruct (in_dec dec k (firsts (map fst ps))) as [I|N], (in_dec dec k (map fst ps)) as [I'|N']; try reflexivity; exfalso;
      [apply N'|apply N]; now apply in_firsts.
  - intros k' v' I. destruct (in_put d k v k' v') as [[-> ->]|[N J]]; [rewrite K; apply NoDup_firsts|exact I|..].
    + exists ps, []. split; [reflexivity|]. exact (fun x => x).
    + destruct (V k' v' J) as (l & r & -> & M). exists l, (r ++ [(k, v)])%list. split; [now rewrite <- app_assoc|].
      rewrite map_app. intros X. apply in_app_or in X as [X|[X|[]]]; [contradiction|now apply N].
Qed.
Lemma of_pairs_puts ps : of_pairs ps (puts ps []).
Proof.
  induction ps as [|[k v] ps IH] using rev_ind; [split; [reflexivity|intros k v []]|].
  unfold puts in *. rewrite fold_left_app. cbn [fold_left fst snd]. now apply of_pairs_put.
Qed.
Lemma last_value_unique ps k v w : last_value ps k v -> last_value ps k w -> v = w.
Proof.
  intros (l & r & -> & N) (l' & r' & E & N'). revert l' E. induction l as [|a l IH]; intros [|a' l'] E; cbn [app] in E; injection E as E1 E2.
  - congruence.
  - subst r. exfalso. apply N. rewrite map_app. apply in_or_app. right. now left.
  - subst r'. exfalso. apply N'. rewrite map_app. apply in_or_app. right. now left.
  - eapply IH. exact E2.
Qed.
Lemma of_pairs_unique ps d d' : of_pairs ps d -> of_pairs ps d' -> d = d'.
Proof.
  intros [K V] [K' V'].
  assert (U : forall k v w, In (k, v) d -> In (k, w) d' -> v = w) by (intros k v w A B; exact (last_value_unique ps k v w (V k v A) (V' k w B))).
  rewrite <- K' in K. clear K' V V'. revert d' K U. induction d as [|[k v] d IH]; intros [|[k' v'] d'] K U; try discriminate; [reflexivity|].
  cbn [map fst] in K. injection K as -> K. f_equal; [f_equal; apply (U k'); now left|]. apply IH; [exact K|]. intros a b c A B. apply (U a); now right.
Qed.
Lemma puts_of_pairs ps d : of_pairs ps d -> puts ps [] = d.
Proof. intros H. exact (of_pairs_unique ps _ _ (of_pairs_puts ps) H). Qed.

(** *** What is read is in the grammar *)
Lemma items_blank w xs y : blanks w -> items_text xs y -> items_text xs (w ++ y).
Proof.
  intros B H. assert (A : forall w1, blanks w1 -> blanks (w ++ w1)).
  { intros w1 B1 c I. apply in_app_or in I as [I|I]; auto. }
  destruct H; rewrite app_assoc; constructor; auto.
Qed.
Lemma pairs_blank w ps y : blanks w -> pairs_text ps y -> pairs_text ps (w ++ y).
Proof.
  intros B H. assert (A : forall w1, blanks w1 -> blanks (w ++ w1)).
  { intros w1 B1 c I. apply in_app_or in I as [I|I]; auto. }
  destruct H; rewrite app_assoc; constructor; auto.
Qed.
Lemma nil_blanks : blanks []. Proof. intros c []. Qed.
Lemma scan_sound f :
  (forall s v r, scan f s = Ok (v, r) -> exists x, value_text v x /\ s = (x ++ r)%list) /\
  (forall s a v r, scan_list f s a = Ok (v, r) -> exists xs y, v = TList (a ++ xs) /\ items_text xs y /\ s = (y ++ "]"%char :: r)%list) /\
  (forall s a v r, scan_dict f s a = Ok (v, r) -> exists ps y, v = TDict (puts ps a) /\ pairs_text ps y /\ s = (y ++ "}"%char :: r)%list).
Proof.
  induction f as [|f (IHv & IHl & IHd)]; [now repeat split|]. split; [|split].
  - intros s v r H. cbn [scan] in H. destruct s as [|c s]; [discriminate|].
    destruct (N.eqb_spec (code c) 34) as [E|_].
    { apply (code_char c 34) in E; [|reflexivity]. subst c. destruct (scan_string s) as [[k q]|] eqn:K; [|discriminate].
      cbn [bind fst snd] in H. injection H as <- <-. destruct (string_sound s k q K) as (x & X & E). exists x. split; [now constructor|exact E]. }
    destruct (N.eqb_spec (code c) 91) as [E|_].
    { apply (code_char c 91) in E; [|reflexivity]. subst c. destruct (spaces_split s) as (w & B & E). apply blanks_blank in B.
      destruct (spaces s) as [|c1 r1]; [discriminate|]. destruct (N.eqb_spec (code c1) 93) as [C|_].
      - injection H as <- <-. apply (code_char c1 93) in C; [|reflexivity]. subst c1 s. exists ("["%char :: w ++ ["]"%char])%list.
        split; [now constructor|]. cbn [app]. now rewrite <- app_assoc.
      - destruct (IHl _ _ _ _ H) as (xs & y & -> & Y & EY). exists ("["%char :: (w ++ y) ++ ["]"%char])%list. cbn [app]. split.
        + apply v_list. now apply items_blank.
        + rewrite E, EY, <- !app_assoc. reflexivity. }
    destruct (N.eqb_spec (code c) 123) as [E|_].
    { apply (code_char c 123) in E; [|reflexivity]. subst c. destruct (spaces_split s) as (w & B & E). apply blanks_blank in B.
      destruct (spaces s) as [|c1 r1]; [discriminate|]. destruct (N.eqb_spec (code c1) 125) as [C|_].
      - injection H as <- <-. apply (code_char c1 125) in C; [|reflexivity]. subst c1 s. exists ("{"%char :: w ++ ["}"%char])%list.
        split; [now constructor|]. cbn [app]. now rewrite <- app_assoc.
      - destruct (IHd _ _ _ _ H) as (xs & y & -> & Y & EY). exists ("{"%char :: (w ++ y) ++ ["}"%char])%list. split.
        + apply v_dict with (ps := xs); [now apply pairs_blank|apply of_pairs_puts].
        + rewrite E, EY. cbn [app]. rewrite <- !app_assoc. reflexivity. }
    now apply atom_sound.
  - intros s a v r H. cbn [scan_list] in H. destruct (scan f s) as [[x q]|] eqn:E; [|discriminate]. cbn [bind fst snd] in H.
    destruct (IHv _ _ _ E) as (z & Z & ->). destruct (spaces_split q) as (w & B & Q). apply blanks_blank in B.
    destruct (spaces q) as [|c q']; [discriminate|]. destruct (N.eqb_spec (code c) 93) as [C|_].
    + injection H as <- <-. apply (code_char c 93) in C; [|reflexivity]. subst c q. exists [x], (z ++ w)%list.
      split; [reflexivity|]. split; [exact (i_one x z [] w nil_blanks B Z)|now rewrite <- app_assoc].
    + destruct (N.eqb_spec (code c) 44) as [C|_]; [|discriminate]. apply (code_char c 44) in C; [|reflexivity]. subst c.
      destruct (IHl _ _ _ _ H) as (xs & y & -> & Y & EY). destruct (spaces_split q') as (w' & B' & Q'). apply blanks_blank in B'.
      exists (x :: xs), (z ++ w ++ ","%char :: w' ++ y)%list. split; [now rewrite <- app_assoc|]. split.
      * exact (i_more x z [] w xs _ nil_blanks B Z (items_blank w' xs y B' Y)).
      * rewrite Q, Q', EY, <- !app_assoc. cbn [app]. now rewrite <- app_assoc.
  - intros s a v r H. cbn [scan_dict] in H. destruct s as [|c s]; [discriminate|].
    destruct (N.eqb_spec (code c) 34) as [E|_]; [|discriminate]. cbn [negb] in H. apply (code_char c 34) in E; [|reflexivity]. subst c.
    destruct (scan_string s) as [[k q]|] eqn:K; [|discriminate]. cbn [bind fst snd] in H. destruct (string_sound s k q K) as (zk & ZK & EK).
    change (ch 34) with "034"%char. rewrite EK.
    destruct (spaces_split q) as (w & B & Q). apply blanks_blank in B. destruct (spaces q) as [|c q']; [discriminate|].
    destruct (N.eqb_spec (code c) 58) as [C|_]; [|discriminate]. cbn [negb] in H. apply (code_char c 58) in C; [|reflexivity]. subst c.
    destruct (spaces_split q') as (w' & B' & Q'). apply blanks_blank in B'.
    destruct (scan f (spaces q')) as [[x p]|] eqn:X; [|discriminate]. cbn [bind fst snd] in H. destruct (IHv _ _ _ X) as (z & Z & EZ).
    destruct (spaces_split p) as (w2 & B2 & P). apply blanks_blank in B2. destruct (spaces p) as [|c1 p']; [discriminate|].
    destruct (N.eqb_spec (code c1) 125) as [C|_].
    + injection H as <- <-. apply (code_char c1 125) in C; [|reflexivity]. subst c1.
      exists [(k, x)], (zk ++ w ++ ":"%char :: w' ++ z ++ w2)%list. split; [reflexivity|]. split.
      * exact (p_one k zk x z [] w w' w2 nil_blanks B B' B2 ZK Z).
      * rewrite Q, Q', EZ, P, <- !app_assoc. cbn [app]. now rewrite <- !app_assoc.
    + destruct (N.eqb_spec (code c1) 44) as [C|_]; [|discriminate]. apply (code_char c1 44) in C; [|reflexivity]. subst c1.
      destruct (IHd _ _ _ _ H) as (ps & y & -> & Y & EY). destruct (spaces_split p') as (w3 & B3 & P3). apply blanks_blank in B3.
      exists ((k, x) :: ps), (zk ++ w ++ ":"%char :: w' ++ z ++ w2 ++ ","%char :: w3 ++ y)%list. split; [reflexivity|]. split.
      * exact (p_more k zk x z [] w w' w2 ps _ nil_blanks B B' B2 ZK Z (pairs_blank w3 ps y B3 Y)).
      * rewrite Q, Q', EZ, P, P3, EY, <- !app_assoc. cbn [app]. rewrite <- !app_assoc. cbn [app]. now rewrite <- !app_assoc.
Qed.
Lemma loads_sound s v : loads s = Ok v -> document v s.
Proof.
  unfold loads. destruct (scan _ (spaces s)) as [[x r]|] eqn:E; [|discriminate]. cbn [bind fst snd].
  destruct (spaces r) as [|c q] eqn:R; [|discriminate]. intros H. injection H as <-.
  destruct (proj1 (scan_sound _) _ _ _ E) as (y & Y & EY). destruct (spaces_split s) as (w & B & S). destruct (spaces_split r) as (w2 & B2 & R2).
  exists w, y, w2. split; [now apply blanks_blank|]. split; [now apply blanks_blank|]. split; [exact Y|].
  rewrite R, app_nil_r in R2. now rewrite S, EY, R2 at 1.
Qed.

(** *** What is in the grammar is read *)
Lemma stops_blank w s : blanks w -> stops s -> stops (w ++ s).
Proof.
  intros B S. destruct w as [|c w]; [exact S|]. cbn [app]. specialize (B c (or_introl eq_refl)). fold (code c) in B.
  unfold stops, hd_is, stop_code, digit_code. destruct B as [B|[B|[B|[B|[]]]]]; rewrite <- B; repeat split; try discriminate; lia.
Qed.
Lemma string_opens s x : string_text s x -> exists y, x = "034"%char :: y.
Proof. intros (u & y & _ & _ & ->). now eexists. Qed.
Lemma whole_opens w : whole_text w -> exists c r, w = c :: r /\ digit_code (code c).
Proof. intros W. apply whole_a in W. now apply whole_head. Qed.
Lemma value_opens v x : value_text v x -> opens x.
Proof.
  assert (D : forall w r, whole_text w -> opens (w ++ r)).
  { intros w r W. apply whole_opens in W as (c & y & -> & W). exists c, (y ++ r)%list. split; [reflexivity|]. apply digit_opens in W. tauto. }
  assert (O : forall c r, is_space c = false -> code c <> 93 -> code c <> 125 -> opens (c :: r)) by (intros c r A B C; now exists c, r).
  destruct 1 as [| | |w H|w H|w H|sg w f e S H _ _ _|s x H|w _|xs y _|w _|ps d y _ _]; try (apply O; [reflexivity|discriminate..]).
  - destruct H as [<-|[<-|[<-|[]]]]; (apply O; [reflexivity|discriminate..]).
  - rewrite <- (app_nil_r w). now apply D.
  - destruct S as [->| ->]; [exact (D w _ H)|]. apply O; [reflexivity|discriminate..].
  - apply string_opens in H as (y & ->). apply O; [reflexivity|discriminate..].
Qed.
Lemma items_open xs y : items_text xs y -> exists w z, y = (w ++ z)%list /\ blank w /\ opens z.
Proof.
  destruct 1 as [v x w1 w2 B1 B2 V|v x w1 w2 xs y B1 B2 V _]; apply value_opens in V as (c & r & -> & O); apply blanks_blank in B1.
  - exists w1, ((c :: r) ++ w2)%list. split; [reflexivity|]. split; [exact B1|]. now exists c, (r ++ w2)%list.
  - exists w1, ((c :: r) ++ w2 ++ ","%char :: y)%list. split; [reflexivity|]. split; [exact B1|]. now exists c, (r ++ w2 ++ ","%char :: y)%list.
Qed.
Lemma pairs_open ps y : pairs_text ps y -> exists w z, y = (w ++ z)%list /\ blank w /\ opens z.
Proof.
  destruct 1 as [k z v x w1 w2 w3 w4 B1 B2 B3 B4 K V|k z v x w1 w2 w3 w4 ps y B1 B2 B3 B4 K V _];
    apply string_opens in K as (r & ->); apply blanks_blank in B1;
    (eexists w1, _; split; [reflexivity|]; split; [exact B1|]; cbn [app]; eexists _, _; split; [reflexivity|]; now repeat split).
Qed.
Lemma scan_of_atom f x s : opens x -> match x with c :: _ => code c <> 34 /\ code c <> 91 /\ code c <> 123 | [] => True end ->
  scan (S f) (x ++ s) = scan_atom (x ++ s).
Proof.
  intros (c & r & -> & _) (A & B & C). cbn [app scan].
  now rewrite (proj2 (N.eqb_neq _ _) A), (proj2 (N.eqb_neq _ _) B), (proj2 (N.eqb_neq _ _) C).
Qed.
Lemma scan_of_number f sg w r : a_sign sg -> whole_text w -> scan (S f) (sg ++ w ++ r) = scan_number (sg ++ w ++ r).
Proof.
  intros S W. rewrite <- scan_atom_number; [|assumption|now apply whole_a]. apply whole_opens in W as (c & y & -> & W).
  apply digit_opens in W as (A1 & A2 & A3 & A4 & A5 & A6).
  destruct S as [->| ->]; cbn [app t list_ascii_of_string scan]; [|reflexivity].
  now rewrite (proj2 (N.eqb_neq _ _) A4), (proj2 (N.eqb_neq _ _) A5), (proj2 (N.eqb_neq _ _) A6).
Qed.

Scheme value_text_m := Minimality for value_text Sort Prop
  with items_text_m := Minimality for items_text Sort Prop
  with pairs_text_m := Minimality for pairs_text Sort Prop.
Combined Scheme grammar_ind from value_text_m, items_text_m, pairs_text_m.

Lemma spaces_to w x s : blanks w -> opens x -> spaces (w ++ x ++ s) = (x ++ s)%list.
Proof. intros B O. rewrite spaces_blank by now apply blanks_blank. now apply opens_spaces. Qed.
Lemma spaces_char w c s : blanks w -> is_space c = false -> spaces (w ++ c :: s) = c :: s.
Proof. intros B O. rewrite spaces_blank by now apply blanks_blank. now apply spaces_head. Qed.
Lemma comma_stops s : stops (","%char :: s).
Proof. exact stop_44. Qed.
Lemma bracket_stops s : stops ("]"%char :: s).
Proof. exact stop_93. Qed.
Lemma brace_stops s : stops ("}"%char :: s).
Proof. exact stop_125. Qed.
Ltac lens := rewrite ?app_length in *; cbn [length] in *; rewrite ?app_length in *; cbn [length] in *; rewrite ?app_length in *; cbn [length] in *; lia.

Lemma scan_complete :
  (forall v x, value_text v x -> forall f s, stops s -> (2 * length x + 1 <= f)%nat -> scan f (x ++ s) = Ok (v, s)) /\
  (forall xs y, items_text xs y -> forall f s a, (2 * length y + 2 <= f)%nat ->
     scan_list f (spaces (y ++ "]"%char :: s)) a = Ok (TList (a ++ xs), s)) /\
  (forall ps y, pairs_text ps y -> forall f s a, (2 * length y + 2 <= f)%nat ->
     scan_dict f (spaces (y ++ "}"%char :: s)) a = Ok (TDict (puts ps a), s)).
Proof.
  apply grammar_ind.
  - intros [|f] s _ L; [lia|]. reflexivity.
  - intros [|f] s _ L; [lia|]. reflexivity.
  - intros [|f] s _ L; [lia|]. reflexivity.
  - intros w H [|f] s _ L; [lia|]. destruct H as [<-|[<-|[<-|[]]]]; reflexivity.
  - intros w H [|f] s S L; [lia|].
    pose proof (number_complete [] w [] [] s (or_introl eq_refl) H (or_introl eq_refl) (or_introl eq_refl) S) as N.
    pose proof (scan_of_number f [] w s (or_introl eq_refl) H) as N1. cbn [app] in *. rewrite N1, N. cbn [Z.of_int].
    now rewrite decimal_uint by now apply whole_digits.
  - intros w H [|f] s S L; [lia|].
    pose proof (number_complete (t "-") w [] [] s (or_intror eq_refl) H (or_introl eq_refl) (or_introl eq_refl) S) as N.
    pose proof (scan_of_number f (t "-") w s (or_intror eq_refl) H) as N1. cbn [app t list_ascii_of_string] in *. rewrite N1, N. cbn [Z.of_int].
    now rewrite decimal_uint by now apply whole_digits.
  - intros sg w fr e S W F E NE [|f] s St L; [lia|].
    pose proof (number_complete sg w fr e s S W F E St) as N. rewrite <- !app_assoc, scan_of_number, N by assumption.
    destruct (fr ++ e)%list as [|c l] eqn:Q; [now destruct NE|reflexivity].
  - intros k x K [|f] s St L; [lia|]. destruct (string_complete k x s K) as (y & -> & E). cbn [app scan].
    change (code "034" =? 34) with true. cbv iota. now rewrite E.
  - intros w B [|f] s St L; [lia|]. cbn [app scan]. change (code "[" =? 34) with false. change (code "[" =? 91) with true. cbv iota.
    rewrite <- app_assoc. cbn [app]. now rewrite spaces_char.
  - intros xs y Y IH [|f] s St L; [lia|]. cbn [app scan]. change (code "[" =? 34) with false. change (code "[" =? 91) with true. cbv iota.
    rewrite <- app_assoc. cbn [app]. specialize (IH f s [] ltac:(lens)). revert IH.
    destruct (items_open xs y Y) as (w & z & -> & B & c & r & -> & O1 & O2 & O3). rewrite <- app_assoc, spaces_blank by exact B.
    cbn [app]. rewrite spaces_head by exact O1. intros IH. now rewrite (proj2 (N.eqb_neq _ _) O2).
  - intros w B [|f] s St L; [lia|]. cbn [app scan]. change (code "{" =? 34) with false. change (code "{" =? 91) with false. change (code "{" =? 123) with true. cbv iota.
    rewrite <- app_assoc. cbn [app]. now rewrite spaces_char.
  - intros ps d y Y IH D [|f] s St L; [lia|]. cbn [app scan]. change (code "{" =? 34) with false. change (code "{" =? 91) with false. change (code "{" =? 123) with true. cbv iota.
    rewrite <- app_assoc. cbn [app]. specialize (IH f s [] ltac:(lens)). revert IH.
    destruct (pairs_open ps y Y) as (w & z & -> & B & c & r & -> & O1 & O2 & O3). rewrite <- app_assoc, spaces_blank by exact B.
    cbn [app]. rewrite spaces_head by exact O1. intros IH. rewrite (proj2 (N.eqb_neq _ _) O3), IH. now rewrite (puts_of_pairs ps d D).
  - intros v x w1 w2 B1 B2 V IH [|f] s a L; [lia|]. rewrite <- !app_assoc, spaces_to by (try assumption; now apply value_opens in V).
    cbn [scan_list]. rewrite IH; [|apply stops_blank; [assumption|apply bracket_stops]|lens]. cbn [bind fst snd].
    rewrite spaces_char by (assumption || reflexivity). reflexivity.
  - intros v x w1 w2 xs y B1 B2 V IH Y IHy [|f] s a L; [lia|]. rewrite <- !app_assoc, spaces_to by (try assumption; now apply value_opens in V).
    cbn [scan_list app]. rewrite IH; [|apply stops_blank; [assumption|apply comma_stops]|lens]. cbn [bind fst snd].
    rewrite spaces_char by (assumption || reflexivity). change (code "," =? 93) with false. change (code "," =? 44) with true. cbv iota.
    rewrite IHy by lens. now rewrite <- app_assoc.
  - intros k z v x w1 w2 w3 w4 B1 B2 B3 B4 K V IH [|f] s a L; [lia|]. pose proof (fun q => string_complete k z q K) as SC.
    rewrite <- !app_assoc. cbn [app]. rewrite <- !app_assoc.
    destruct (SC (w2 ++ ":"%char :: w3 ++ x ++ w4 ++ "}"%char :: s)%list) as (y & -> & E). cbn [app]. rewrite spaces_char by (assumption || reflexivity).
    cbn [scan_dict]. change (code "034" =? 34) with true. cbn [negb]. rewrite E. cbn [bind fst snd].
    rewrite spaces_char by (assumption || reflexivity). change (code ":" =? 58) with true. cbn [negb].
    rewrite spaces_to by (try assumption; now apply value_opens in V).
    rewrite IH; [|apply stops_blank; [assumption|apply brace_stops]|lens]. cbn [bind fst snd].
    rewrite spaces_char by (assumption || reflexivity). reflexivity.
  - intros k z v x w1 w2 w3 w4 ps y' B1 B2 B3 B4 K V IH Y IHy [|f] s a L; [lia|]. pose proof (fun q => string_complete k z q K) as SC.
    rewrite <- !app_assoc. cbn [app]. rewrite <- !app_assoc. cbn [app].
    destruct (SC (w2 ++ ":"%char :: w3 ++ x ++ w4 ++ ","%char :: y' ++ "}"%char :: s)%list) as (y & -> & E). cbn [app]. rewrite spaces_char by (assumption || reflexivity).
    cbn [scan_dict]. change (code "034" =? 34) with true. cbn [negb]. rewrite E. cbn [bind fst snd].
    rewrite spaces_char by (assumption || reflexivity). change (code ":" =? 58) with true. cbn [negb].
    rewrite spaces_to by (try assumption; now apply value_opens in V).
    rewrite IH; [|apply stops_blank; [assumption|apply comma_stops]|lens]. cbn [bind fst snd].
    rewrite spaces_char by (assumption || reflexivity). change (code "," =? 125) with false. change (code "," =? 44) with true. cbv iota.
    rewrite IHy by lens. reflexivity.
Qed.
Lemma loads_complete s v : document v s -> loads s = Ok v.
Proof.
  intros (w1 & x & w2 & B1 & B2 & V & ->). unfold loads. pose proof (value_opens v x V) as O. rewrite spaces_to by assumption.
  rewrite (proj1 scan_complete v x V); [|rewrite <- (app_nil_r w2); apply stops_blank; [assumption|exact I]|lens].
  cbn [bind fst snd]. rewrite <- (app_nil_r w2), spaces_blank by now apply blanks_blank. reflexivity.
Qed.
Lemma reads_spec s v : loads s = Ok v <-> document v s.
Proof. split; [apply loads_sound|apply loads_complete]. Qed.
Lemma unambiguous s v w : document v s -> document w s -> v = w.
Proof. intros A B. apply reads_spec in A, B. congruence. Qed.
Lemma refused_spec s : loads s = Err ValueError <-> ~ exists v, document v s.
Proof.
  split.
  - intros E (v & D). apply reads_spec in D. congruence.
  - intros N. destruct (loads s) as [v|e] eqn:E.
    + destruct N. exists v. now apply reads_spec.
    + now rewrite (loads_errors s e E).
Qed.
Lemma written_is_document st v x : writable v -> dumps st v = Ok x -> document v x.
Proof. intros W D. apply reads_spec. pose proof (loads_dumps st v W) as R. rewrite D in R. exact R. Qed.
Lemma only_value v w x : value_text v x -> document w x -> v = w.
Proof. intros V D. apply (unambiguous x); [|exact D]. exists [], x, []. split; [apply nil_blanks|]. split; [apply nil_blanks|]. split; [exact V|]. now rewrite app_nil_r. Qed.
