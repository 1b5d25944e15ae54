(** Proofs about session files as text. *)
From Coq Require Import Lia Decimal DecimalZ DecimalN DecimalFacts DecimalPos.
From Verif Require Import Base JsonText JsonTextSpec.
Open Scope N_scope.

Lemma code_ch n : n < 256 -> code (ch n) = n.
Proof. intros H. unfold code, ch. now apply N_ascii_embedding. Qed.

(** *** Trees *)
Section Tree_ind.
  Variable P : jt -> Prop.
  Hypothesis Hnull : P TNull.
  Hypothesis Hbool : forall b, P (TBool b).
  Hypothesis Hint : forall z, P (TInt z).
  Hypothesis Hfloat : forall k, P (TFloat k).
  Hypothesis Hstr : forall s, P (TStr s).
  Hypothesis Hlist : forall l, Forall P l -> P (TList l).
  Hypothesis Hdict : forall d, Forall (fun kv => P (snd kv)) d -> P (TDict d).
  Hypothesis Hbad : P TBad.
  Fixpoint tree_ind (v : jt) : P v :=
    match v with
    | TNull => Hnull | TBool b => Hbool b | TInt z => Hint z | TFloat k => Hfloat k | TStr s => Hstr s
    | TList l => Hlist l ((fix go l := match l return Forall P l with [] => Forall_nil _ | x :: r => Forall_cons x (tree_ind x) (go r) end) l)
    | TDict d => Hdict d ((fix go d := match d return Forall (fun kv => P (snd kv)) d with [] => Forall_nil _ | kv :: r => Forall_cons kv (tree_ind (snd kv)) (go r) end) d)
    | TBad => Hbad
    end.
End Tree_ind.

(** *** Strings *)
Definition units1 (c : N) : pystr :=
  if c <? 65536 then [c] else [55296 + (c - 65536) / 1024 mod 1024; 56320 + (c - 65536) mod 1024].

Lemma hex_value_digit n : n < 16 -> hex_value (hex_digit n) = Some n.
Proof.
  intros H. assert (E : In n [0;1;2;3;4;5;6;7;8;9;10;11;12;13;14;15]).
  { cbn [In]. lia. }
  cbn [In] in E. repeat (destruct E as [<-|E]; [reflexivity|]). destruct E.
Qed.
Lemma hex4 c : c < 65536 ->
  (((c / 4096 mod 16) * 16 + c / 256 mod 16) * 16 + c / 16 mod 16) * 16 + c mod 16 = c.
Proof.
  intros H. replace (c / 4096) with (c / 16 / 16 / 16) by (rewrite !N.div_div by lia; reflexivity).
  replace (c / 256) with (c / 16 / 16) by (rewrite !N.div_div by lia; reflexivity).
  set (a := c / 16). set (b := a / 16). set (d := b / 16).
  assert (c = 16 * a + c mod 16) by (apply N.div_mod; lia).
  assert (a = 16 * b + a mod 16) by (apply N.div_mod; lia).
  assert (b = 16 * d + b mod 16) by (apply N.div_mod; lia).
  assert (d < 16). { unfold d, b, a. rewrite !N.div_div by lia. apply N.div_lt_upper_bound; lia. }
  rewrite (N.mod_small d 16) by assumption. lia.
Qed.
Lemma scan_u c s : c < 65536 ->
  scan_units (u_escape c ++ s) = (let* x := scan_units s in Ok (c :: fst x, snd x)).
Proof.
  intros H. unfold u_escape. cbn [app].
  cbn [scan_units].
  replace (code (ch 92) =? 34) with false by reflexivity. replace (code (ch 92) =? 92) with true by reflexivity.
  repeat match goal with |- context [code (ch 117) =? ?k] => let b := eval vm_compute in (code (ch 117) =? k) in change (code (ch 117) =? k) with b end.
  cbv iota beta zeta.
  rewrite !hex_value_digit by (apply N.mod_lt; lia). rewrite hex4 by assumption. reflexivity.
Qed.
Lemma scan_escape c s : c < 1114112 ->
  scan_units (escape c ++ s) = (let* x := scan_units s in Ok ((units1 c ++ fst x)%list, snd x)).
Proof.
  intros H. unfold escape.
  destruct (N.eqb_spec c 34) as [->|]; [reflexivity|]. destruct (N.eqb_spec c 92) as [->|]; [reflexivity|].
  destruct (N.eqb_spec c 10) as [->|]; [reflexivity|]. destruct (N.eqb_spec c 13) as [->|]; [reflexivity|].
  destruct (N.eqb_spec c 9) as [->|]; [reflexivity|]. destruct (N.eqb_spec c 12) as [->|]; [reflexivity|].
  destruct (N.eqb_spec c 8) as [->|]; [reflexivity|].
  destruct ((32 <=? c) && (c <=? 126)) eqn:E.
  - apply andb_true_iff in E as [E1 E2]. apply N.leb_le in E1, E2.
    cbn [app scan_units]. rewrite (code_ch c) by lia.
    rewrite (proj2 (N.eqb_neq c 34)), (proj2 (N.eqb_neq c 92)), (proj2 (N.ltb_ge c 32)) by assumption.
    unfold units1. rewrite (proj2 (N.ltb_lt c 65536)) by lia. reflexivity.
  - unfold units1. destruct (N.ltb_spec c 65536) as [L|L].
    + rewrite scan_u by assumption. reflexivity.
    + assert (M1 : (c - 65536) / 1024 mod 1024 < 1024) by (apply N.mod_lt; lia).
      assert (M2 : (c - 65536) mod 1024 < 1024) by (apply N.mod_lt; lia).
      rewrite <- app_assoc, !scan_u by lia. destruct (scan_units s); reflexivity.
Qed.
Lemma scan_escapes s rest : code_points s ->
  scan_units (flat_map escape s ++ ch 34 :: rest) = Ok (flat_map units1 s, rest).
Proof.
  intros H. induction s as [|c s IH]; [reflexivity|].
  cbn [flat_map]. rewrite <- app_assoc, scan_escape by (apply H; now left).
  rewrite IH by (intros x Hx; apply H; now right). reflexivity.
Qed.

Lemma join_plain a r : high a = false -> join_pairs (a :: r) = a :: join_pairs r.
Proof. intros H. destruct r; cbn [join_pairs]; [reflexivity|]. now rewrite H. Qed.
Lemma join_nolow a r : match r with [] => True | b :: _ => low b = false end -> join_pairs (a :: r) = a :: join_pairs r.
Proof. destruct r; intros H; cbn [join_pairs]; [reflexivity|]. rewrite H, andb_false_r. reflexivity. Qed.
Lemma high_spec a : high a = true <-> 55296 <= a < 56320.
Proof. unfold high. rewrite andb_true_iff, !N.leb_le. lia. Qed.
Lemma low_spec a : low a = true <-> 56320 <= a < 57344.
Proof. unfold low. rewrite andb_true_iff, !N.leb_le. lia. Qed.

Lemma no_pair_tail c s : no_surrogate_pair (c :: s) -> no_surrogate_pair s.
Proof. intros H i a b A B. exact (H (S i) a b A B). Qed.
Lemma join_units s : code_points s -> no_surrogate_pair s -> join_pairs (flat_map units1 s) = s.
Proof.
  induction s as [|c s IH]; intros C H; [reflexivity|].
  specialize (IH (fun x Hx => C x (or_intror Hx)) (no_pair_tail _ _ H)).
  assert (Hc : c < 1114112) by (apply C; now left).
  cbn [flat_map]. unfold units1 at 1. destruct (N.ltb_spec c 65536) as [L|L].
  - cbn [app]. destruct (high c) eqn:E; [|now rewrite join_plain, IH].
    rewrite join_nolow, IH; [reflexivity|].
    destruct s as [|d s]; [exact I|]. cbn [flat_map]. unfold units1 at 1.
    destruct (N.ltb_spec d 65536) as [L'|L']; cbn [app].
    + destruct (low d) eqn:F; [|reflexivity]. exfalso. apply (H 0%nat c d eq_refl eq_refl).
      apply high_spec in E. apply low_spec in F. lia.
    + assert (M1 : (d - 65536) / 1024 mod 1024 < 1024) by (apply N.mod_lt; lia).
      set (x := (d - 65536) / 1024 mod 1024) in *. clearbody x.
      destruct (low (55296 + x)) eqn:F; [|reflexivity]. apply low_spec in F. lia.
  - cbn [app]. set (v := c - 65536).
    assert (V : v / 1024 < 1024). { apply N.div_lt_upper_bound; unfold v; lia. }
    rewrite (N.mod_small (v / 1024)) by assumption.
    assert (M2 : v mod 1024 < 1024) by (apply N.mod_lt; lia).
    pose proof (N.div_mod v 1024 ltac:(lia)) as D.
    assert (V' : c = 65536 + v) by (unfold v; lia). clearbody v.
    set (x := v / 1024) in *. set (y := v mod 1024) in *. clearbody x y.
    cbn [join_pairs].
    rewrite (proj2 (high_spec _)), (proj2 (low_spec _)) by lia. cbn [andb].
    rewrite IH. f_equal. lia.
Qed.
Lemma scan_string_write s rest : proper_string s ->
  scan_string (flat_map escape s ++ ch 34 :: rest) = Ok (s, rest).
Proof.
  intros [C H]. unfold scan_string. rewrite scan_escapes by assumption. cbn [bind fst snd].
  now rewrite join_units.
Qed.

(** *** Spaces *)
Definition blank (w : text) : Prop := Forall (fun c => is_space c = true) w.
Lemma spaces_blank w s : blank w -> spaces (w ++ s) = spaces s.
Proof. induction 1 as [|c w E _ IH]; [reflexivity|]. cbn [app spaces]. now rewrite E. Qed.
Lemma spaces_head c s : is_space c = false -> spaces (c :: s) = c :: s.
Proof. intros E. cbn [spaces]. now rewrite E. Qed.
Lemma newline_blank st l : blank (newline st l).
Proof.
  destruct st; [constructor|]. constructor; [reflexivity|].
  generalize (2 * l)%nat. induction n; cbn [repeat]; constructor; [reflexivity|assumption].
Qed.
Lemma separator_comma st l : exists w, separator st l = ch 44 :: w /\ blank w.
Proof.
  destruct st; [exists (t " "); split; [reflexivity|]; constructor; [reflexivity|constructor]|].
  exists (newline Indented l). split; [reflexivity|apply newline_blank].
Qed.

(** *** Numbers *)
Definition hd_is (P : N -> Prop) (s : text) : Prop := match s with [] => True | c :: _ => P (code c) end.
Definition digit_code (n : N) : Prop := 48 <= n <= 57.
Definition stop_code (n : N) : Prop := ~ digit_code n /\ n <> 46 /\ n <> 101 /\ n <> 69.
Definition stops : text -> Prop := hd_is stop_code.

Lemma is_digit_spec c : is_digit c = true <-> digit_code (code c).
Proof. unfold is_digit, digit_code. rewrite andb_true_iff, !N.leb_le. reflexivity. Qed.
Lemma is_digit_false c : ~ digit_code (code c) -> is_digit c = false.
Proof. intros H. destruct (is_digit c) eqn:E; [|reflexivity]. now apply is_digit_spec in E. Qed.
Lemma span_digits d s : JsonTextSpec.digits d -> hd_is (fun n => ~ digit_code n) s -> span is_digit (d ++ s) = (d, s).
Proof.
  intros D H. induction d as [|c d IH].
  - destruct s as [|c s]; [reflexivity|]. cbn [app span]. now rewrite is_digit_false.
  - cbn [app span]. rewrite (proj2 (is_digit_spec c)) by (apply D; now left).
    rewrite IH; [reflexivity|]. intros x Hx. apply D. now right.
Qed.

Definition a_sign (s : text) : Prop := s = [] \/ s = t "-".
Definition a_whole (w : text) : Prop := w = t "0" \/ exists c r, w = (c :: r)%list /\ JsonTextSpec.digits (c :: r) /\ c <> "0"%char.
Definition a_fraction (f : text) : Prop := f = [] \/ exists d, f = ("."%char :: d)%list /\ JsonTextSpec.digits d /\ d <> [].
Definition an_exponent (e : text) : Prop :=
  e = [] \/ exists sg d, e = ("e"%char :: sg ++ d)%list /\ (sg = [] \/ sg = t "+" \/ sg = t "-") /\ JsonTextSpec.digits d /\ d <> [].

Lemma code_inj a b : code a = code b -> a = b.
Proof. intros H. rewrite <- (ascii_N_embedding a), <- (ascii_N_embedding b). unfold code in H. now rewrite H. Qed.
Lemma whole_head w : a_whole w -> exists c r, w = c :: r /\ digit_code (code c).
Proof.
  intros [->|(c & r & -> & D & _)]; [exists "0"%char, []; split; [reflexivity|]; vm_compute; split; discriminate|].
  exists c, r. split; [reflexivity|]. apply D. now left.
Qed.
Lemma scan_sign_ok sg w s : a_sign sg -> a_whole w -> scan_sign (sg ++ w ++ s) = (sg, (w ++ s)%list).
Proof.
  intros [->| ->] W; [|reflexivity]. apply whole_head in W as (c & r & -> & D). cbn [app scan_sign].
  rewrite (proj2 (N.eqb_neq (code c) 45)); [reflexivity|]. unfold digit_code in D. lia.
Qed.
Lemma scan_whole_ok w s : a_whole w -> hd_is (fun n => ~ digit_code n) s -> scan_whole (w ++ s) = Some (w, s).
Proof.
  intros [->|(c & r & -> & D & N)] H; [reflexivity|].
  change ((c :: r) ++ s)%list with (c :: (r ++ s))%list. unfold scan_whole.
  rewrite (proj2 (N.eqb_neq (code c) 48)).
  - rewrite (proj2 (is_digit_spec c)) by (apply D; now left).
    change (c :: (r ++ s))%list with ((c :: r) ++ s)%list. now rewrite span_digits.
  - intros E. apply N. now apply code_inj.
Qed.
Lemma scan_fraction_ok f s : a_fraction f -> hd_is (fun n => ~ digit_code n /\ n <> 46) s -> scan_fraction (f ++ s) = (f, s).
Proof.
  intros [->|(d & -> & D & N)] H.
  - destruct s as [|c s]; [reflexivity|]. cbn [app scan_fraction]. destruct H as [_ H].
    now rewrite (proj2 (N.eqb_neq (code c) 46)).
  - cbn [app scan_fraction]. change (code "."%char =? 46) with true. cbv iota.
    rewrite span_digits; [|assumption|destruct s; [exact I|apply H]].
    destruct d; [now destruct N|reflexivity].
Qed.
Lemma scan_exponent_ok e s : an_exponent e -> hd_is (fun n => ~ digit_code n /\ n <> 101 /\ n <> 69) s -> scan_exponent (e ++ s) = (e, s).
Proof.
  intros [->|(sg & d & -> & S & D & N)] H.
  - destruct s as [|c s]; [reflexivity|]. cbn [app scan_exponent]. destruct H as (_ & H1 & H2).
    now rewrite (proj2 (N.eqb_neq (code c) 101)), (proj2 (N.eqb_neq (code c) 69)).
  - cbn [app scan_exponent]. change ((code "e"%char =? 101) || (code "e"%char =? 69)) with true. cbv iota.
    assert (E : match ((sg ++ d) ++ s)%list with
                | x :: r1 => if (code x =? 43) || (code x =? 45) then ([x], r1) else ([], ((sg ++ d) ++ s)%list)
                | [] => ([], []) end = (sg, (d ++ s)%list)).
    { destruct S as [->|[->| ->]]; [|reflexivity|reflexivity].
      destruct d as [|c d]; [now destruct N|]. cbn [app].
      pose proof (D c (or_introl eq_refl)) as K. fold (code c) in K.
      now rewrite (proj2 (N.eqb_neq (code c) 43)), (proj2 (N.eqb_neq (code c) 45)) by lia. }
    rewrite E. cbv iota beta.
    rewrite span_digits; [|assumption|destruct s; [exact I|apply H]].
    destruct d; [now destruct N|reflexivity].
Qed.
Lemma scan_number_ok sg w f e s : a_sign sg -> a_whole w -> a_fraction f -> an_exponent e -> stops s ->
  scan_number (sg ++ w ++ f ++ e ++ s) =
  match (f ++ e)%list with
  | [] => Ok (TInt (Z.of_int (match sg with [] => Pos (read_uint w) | _ => Neg (read_uint w) end)), s)
  | _ => Ok (TFloat (sg ++ w ++ f ++ e)%list, s)
  end.
Proof.
  intros S W F E H. unfold scan_number. rewrite scan_sign_ok by assumption. cbv iota beta.
  assert (H3 : hd_is (fun n => ~ digit_code n /\ n <> 46) (e ++ s)).
  { destruct E as [->|(x & d & -> & _)]; [|cbn [app hd_is]; split; [intros [_ K]; revert K; vm_compute; congruence|discriminate]].
    destruct s; [exact I|]. destruct H as (A & B & _). now split. }
  rewrite scan_whole_ok; [|assumption|].
  - rewrite scan_fraction_ok by assumption. cbv iota beta. rewrite scan_exponent_ok; [reflexivity|assumption|].
    destruct s; [exact I|]. destruct H as (A & B & C & D). now repeat split.
  - destruct F as [->|(d & -> & _)]; [|cbn [app hd_is]; intros [K _]; revert K; vm_compute; congruence].
    cbn [app]. destruct (e ++ s)%list; [exact I|]. apply H3.
Qed.

Lemma write_uint_digits d : JsonTextSpec.digits (write_uint d).
Proof.
  induction d; cbn [write_uint]; [intros c []| ..];
    (intros c [<-|H]; [vm_compute; split; discriminate|now apply IHd]).
Qed.
Lemma read_write_uint d : read_uint (write_uint d) = d.
Proof. induction d; cbn [write_uint read_uint]; [reflexivity|..]; rewrite IHd; reflexivity. Qed.
Lemma nzhead_shape d : match nzhead d with Nil => True | D0 _ => False | _ => True end.
Proof. induction d; cbn [nzhead]; auto. Qed.
Lemma to_uint_whole n : a_whole (write_uint (N.to_uint n)).
Proof.
  rewrite <- (DecimalN.Unsigned.of_to n), DecimalN.Unsigned.to_of.
  unfold unorm. pose proof (nzhead_shape (N.to_uint n)) as S.
  destruct (nzhead (N.to_uint n)) as [|d|d|d|d|d|d|d|d|d|d]; [now left|destruct S|..]; right;
    cbn [write_uint]; eexists _, _; (split; [reflexivity|]); (split; [|discriminate]).
  - exact (write_uint_digits (D1 d)).
  - exact (write_uint_digits (D2 d)).
  - exact (write_uint_digits (D3 d)).
  - exact (write_uint_digits (D4 d)).
  - exact (write_uint_digits (D5 d)).
  - exact (write_uint_digits (D6 d)).
  - exact (write_uint_digits (D7 d)).
  - exact (write_uint_digits (D8 d)).
  - exact (write_uint_digits (D9 d)).
Qed.
Lemma write_int_shape z : exists sg w, write_int z = (sg ++ w)%list /\ a_sign sg /\ a_whole w /\
  Z.of_int (match sg with [] => Pos (read_uint w) | _ => Neg (read_uint w) end) = z.
Proof.
  pose proof (DecimalZ.of_to z) as O. unfold write_int. destruct z as [|p|p]; cbn [Z.to_int] in *.
  - exists [], (write_uint (N.to_uint 0)). split; [reflexivity|]. split; [now left|]. split; [apply to_uint_whole|reflexivity].
  - exists [], (write_uint (N.to_uint (Npos p))). split; [reflexivity|]. split; [now left|]. split; [apply to_uint_whole|].
    rewrite read_write_uint. exact O.
  - exists (t "-"), (write_uint (N.to_uint (Npos p))). split; [reflexivity|]. split; [now right|]. split; [apply to_uint_whole|].
    cbn [t list_ascii_of_string]. rewrite read_write_uint. exact O.
Qed.

(** What starts a number is not the start of a word. *)
Lemma skip_head a w c s : a <> c -> skip (a :: w) (c :: s) = None.
Proof. intros H. cbn [skip]. now rewrite (proj2 (Ascii.eqb_neq a c)). Qed.
Lemma digit_not_word c a : digit_code (code c) -> ~ digit_code (code a) -> a <> c.
Proof. intros D N ->. contradiction. Qed.
Lemma scan_atom_number sg w s : a_sign sg -> a_whole w -> scan_atom (sg ++ w ++ s) = scan_number (sg ++ w ++ s).
Proof.
  intros S W. apply whole_head in W as (c & r & -> & D).
  assert (K : forall a, ~ digit_code (code a) -> a <> c) by (intros a; now apply digit_not_word).
  unfold scan_atom. destruct S as [->| ->]; cbn [app t list_ascii_of_string].
  - rewrite !skip_head; [reflexivity|..]; apply K; intros [K1 K2]; revert K1 K2; vm_compute; congruence.
  - rewrite (skip_head "n"), (skip_head "t"), (skip_head "f"), (skip_head "N"), (skip_head "I"%char) by discriminate.
    cbn [skip]. change (Ascii.eqb "-" "-") with true. cbv iota.
    rewrite (proj2 (Ascii.eqb_neq "I" c)); [reflexivity|].
    apply K. intros [K1 K2]; revert K1 K2; vm_compute; congruence.
Qed.
Lemma scan_int z s : stops s -> scan_atom (write_int z ++ s) = Ok (TInt z, s).
Proof.
  intros H. destruct (write_int_shape z) as (sg & w & -> & S & W & E). rewrite <- app_assoc.
  rewrite scan_atom_number by assumption.
  change (sg ++ w ++ s)%list with (sg ++ w ++ [] ++ [] ++ s)%list.
  rewrite scan_number_ok by (try assumption; now left). cbn [app]. now rewrite E.
Qed.
Lemma scan_float k s : float_token k -> stops s -> scan_atom (k ++ s) = Ok (TFloat k, s).
Proof.
  intros [->|[->|[->|(sg & w & f & e & -> & S & W & F & E & N)]]] H; [reflexivity..|].
  rewrite <- !app_assoc. rewrite scan_atom_number by assumption.
  rewrite scan_number_ok by assumption. destruct (f ++ e)%list eqn:Z; [|reflexivity].
  apply app_eq_nil in Z as [-> ->]. destruct N as [N|N]; now destruct N.
Qed.

(** *** What is written *)
Fixpoint joined (sep : text) (l : list text) : text :=
  match l with [] => [] | [x] => x | x :: r => (x ++ sep ++ joined sep r)%list end.
Fixpoint pr (st : style) (l : nat) (v : jt) : text :=
  match v with
  | TNull | TBad => t "null"
  | TBool b => t (if b then "true" else "false")
  | TInt z => write_int z
  | TFloat tok => tok
  | TStr s => write_str s
  | TList [] => t "[]"
  | TList xs => (ch 91 :: newline st (S l)) ++ joined (separator st (S l)) (map (pr st (S l)) xs) ++ newline st l ++ [ch 93]
  | TDict [] => t "{}"
  | TDict d => (ch 123 :: newline st (S l)) ++
      joined (separator st (S l)) (map (fun kv => (write_str (fst kv) ++ t ": ") ++ pr st (S l) (snd kv)) d) ++ newline st l ++ [ch 125]
  end%list.

(** A piece [o] of output is the whole of [x], or stops within it. *)
Definition part_of (o : out) (x : text) : Prop :=
  o = (x, true) \/ exists p u, o = (p, false) /\ x = (p ++ u)%list /\ u <> [].
Lemma part_after a b x y : part_of a x -> part_of b y -> part_of (after a b) (x ++ y)%list.
Proof.
  intros [->|(p & u & -> & -> & N)] B.
  - unfold after. cbn [fst snd]. destruct B as [->|(p & u & -> & -> & N)]; [now left|].
    right. exists (x ++ p)%list, u. cbn [fst snd]. now rewrite app_assoc.
  - right. exists p, (u ++ y)%list. unfold after. cbn [fst snd]. split; [reflexivity|]. split; [now rewrite app_assoc|].
    destruct u; [now destruct N|discriminate].
Qed.
Lemma part_say x : part_of (say x) x. Proof. now left. Qed.
Lemma part_items {A} (f : A -> out) (g : A -> text) sep l : (forall a, In a l -> part_of (f a) (g a)) ->
  part_of (items sep (map f l)) (joined sep (map g l)).
Proof.
  intros H. induction l as [|a l IH]; [apply part_say|].
  assert (Ha : part_of (f a) (g a)) by (apply H; now left).
  specialize (IH (fun b Hb => H b (or_intror Hb))).
  destruct l as [|b l]; [exact Ha|].
  change (items sep (map f (a :: b :: l))) with (after (f a) (after (say sep) (items sep (map f (b :: l))))).
  change (joined sep (map g (a :: b :: l))) with (g a ++ sep ++ joined sep (map g (b :: l)))%list.
  apply part_after; [exact Ha|]. apply part_after; [apply part_say|exact IH].
Qed.
Lemma part_write st v : forall l, part_of (write st l v) (pr st l v).
Proof.
  induction v as [| | | | |xs IH|d IH|] using tree_ind; intros l; try (now left).
  - destruct xs as [|x xs]; [now left|].
    set (L := x :: xs) in *.
    change (write st l (TList L)) with (after (say (ch 91 :: newline st (S l)))
                      (after (items (separator st (S l)) (map (write st (S l)) L)) (say (newline st l ++ [ch 93])%list))).
    change (pr st l (TList L)) with ((ch 91 :: newline st (S l)) ++ joined (separator st (S l)) (map (pr st (S l)) L) ++ newline st l ++ [ch 93])%list.
    apply part_after; [apply part_say|]. apply part_after; [|apply part_say].
    apply part_items. intros a Ha. rewrite Forall_forall in IH. now apply IH.
  - destruct d as [|x xs]; [now left|].
    set (L := x :: xs) in *.
    change (write st l (TDict L)) with (after (say (ch 123 :: newline st (S l)))
                     (after (items (separator st (S l)) (map (fun kv => after (say (write_str (fst kv) ++ t ": ")%list) (write st (S l) (snd kv))) L))
                            (say (newline st l ++ [ch 125])%list))).
    change (pr st l (TDict L)) with ((ch 123 :: newline st (S l)) ++
      joined (separator st (S l)) (map (fun kv => (write_str (fst kv) ++ t ": ") ++ pr st (S l) (snd kv)) L) ++ newline st l ++ [ch 125])%list.
    apply part_after; [apply part_say|]. apply part_after; [|apply part_say].
    apply (part_items (fun kv => after (say (write_str (fst kv) ++ t ": ")%list) (write st (S l) (snd kv)))
                      (fun kv => ((write_str (fst kv) ++ t ": ") ++ pr st (S l) (snd kv))%list)).
    intros a Ha. rewrite Forall_forall in IH. apply part_after; [apply part_say|]. now apply IH.
  - right. exists [], (t "null"). repeat split. discriminate.
Qed.
Lemma pr_mended st v : forall l, pr st l (mended v) = pr st l v.
Proof.
  induction v as [| | | | |xs IH|d IH|] using tree_ind; intros l; try reflexivity.
  - destruct xs as [|x xs]; [reflexivity|]. set (L := x :: xs) in *.
    change (pr st l (mended (TList L))) with ((ch 91 :: newline st (S l)) ++ joined (separator st (S l)) (map (pr st (S l)) (map mended L)) ++ newline st l ++ [ch 93])%list.
    change (pr st l (TList L)) with ((ch 91 :: newline st (S l)) ++ joined (separator st (S l)) (map (pr st (S l)) L) ++ newline st l ++ [ch 93])%list.
    rewrite map_map. rewrite (map_ext_in _ (pr st (S l)) L); [reflexivity|].
    intros a Ha. rewrite Forall_forall in IH. now apply IH.
  - destruct d as [|x xs]; [reflexivity|]. set (L := x :: xs) in *.
    set (g := fun kv : pystr * jt => ((write_str (fst kv) ++ t ": ") ++ pr st (S l) (snd kv))%list).
    change (pr st l (mended (TDict L))) with ((ch 123 :: newline st (S l)) ++ joined (separator st (S l)) (map g (map (fun kv => (fst kv, mended (snd kv))) L)) ++ newline st l ++ [ch 125])%list.
    change (pr st l (TDict L)) with ((ch 123 :: newline st (S l)) ++ joined (separator st (S l)) (map g L) ++ newline st l ++ [ch 125])%list.
    rewrite map_map. rewrite (map_ext_in _ g L); [reflexivity|].
    intros a Ha. rewrite Forall_forall in IH. unfold g. cbn [fst snd]. now rewrite IH.
Qed.

(** Whether something is raised. *)
Lemma after_false a b : snd (after a b) = false <-> snd a = false \/ snd a = true /\ snd b = false.
Proof. unfold after. destruct (snd a) eqn:E; cbn [snd]; [|rewrite E]; intuition congruence. Qed.
Lemma items_false {A} (f : A -> out) sep l : snd (items sep (map f l)) = false <-> exists a, In a l /\ snd (f a) = false.
Proof.
  induction l as [|a l IH]; [split; [discriminate|intros (a & [] & _)]|].
  destruct l as [|b l].
  - cbn [map items]. split; [intros H; exists a; split; [now left|exact H]|]. intros (x & [<-|[]] & H). exact H.
  - change (items sep (map f (a :: b :: l))) with (after (f a) (after (say sep) (items sep (map f (b :: l))))).
    rewrite !after_false, IH. cbn [say snd]. split.
    + intros [H|(_ & [H|(_ & x & Hx & H)])]; [exists a; split; [now left|exact H]|discriminate|].
      exists x. split; [now right|exact H].
    + intros (x & [<-|Hx] & H); [now left|]. destruct (snd (f a)) eqn:E; [|now left]. right. split; [reflexivity|].
      right. split; [reflexivity|]. now exists x.
Qed.
Lemma write_false st v : forall l, snd (write st l v) = false <-> unwritable v.
Proof.
  induction v as [| | | | |xs IH|d IH|] using tree_ind; intros l; try (split; [discriminate|inversion 1]).
  - destruct xs as [|x xs]; [split; [discriminate|inversion 1; subst; contradiction]|]. set (L := x :: xs) in *.
    change (write st l (TList L)) with (after (say (ch 91 :: newline st (S l)))
                      (after (items (separator st (S l)) (map (write st (S l)) L)) (say (newline st l ++ [ch 93])%list))).
    rewrite !after_false, items_false. cbn [say snd]. rewrite Forall_forall in IH. split.
    + intros [H|(_ & [(a & Ha & H)|(_ & H)])]; try discriminate. apply (u_list L a Ha). now apply (IH a Ha (S l)).
    + inversion 1; subst. right. split; [reflexivity|]. left. exists x0. split; [assumption|]. now apply IH.
  - destruct d as [|x xs]; [split; [discriminate|inversion 1; subst; contradiction]|]. set (L := x :: xs) in *.
    set (f := fun kv => after (say (write_str (fst kv) ++ t ": ")%list) (write st (S l) (snd kv))).
    change (write st l (TDict L)) with (after (say (ch 123 :: newline st (S l)))
                     (after (items (separator st (S l)) (map f L)) (say (newline st l ++ [ch 125])%list))).
    rewrite !after_false, items_false. cbn [say snd]. rewrite Forall_forall in IH. split.
    + intros [H|(_ & [((k & a) & Ha & H)|(_ & H)])]; try discriminate. apply (u_dict L k a Ha).
      unfold f in H. rewrite after_false in H. cbn [say fst snd] in H. destruct H as [H|[_ H]]; [discriminate|].
      now apply (IH (k, a) Ha (S l)).
    + inversion 1; subst. right. split; [reflexivity|]. left. exists (k, x0). split; [assumption|].
      unfold f. rewrite after_false. right. split; [reflexivity|]. now apply (IH (k, x0)).
  - split; [constructor|reflexivity].
Qed.
Lemma writable_not v : writable v -> ~ unwritable v.
Proof.
  induction v as [| | | | |xs IH|d IH|] using tree_ind; intros W U; inversion U; subst; inversion W; subst;
    rewrite Forall_forall in IH.
  - apply (IH x); auto.
  - apply (IH (k, x)); [assumption| |assumption]. cbn [snd].
    match goal with H : forall k x, In (k, x) d -> _ |- _ => now apply (H k x) end.
Qed.
Lemma write_pr st l v : writable v -> write st l v = (pr st l v, true).
Proof.
  intros W. destruct (part_write st v l) as [E|(p & u & E & _)]; [exact E|]. exfalso.
  apply (writable_not v W). apply (write_false st v l). now rewrite E.
Qed.

(** *** Reading back what was written *)
Definition opens (x : text) : Prop := exists c r, x = c :: r /\ is_space c = false /\ code c <> 93 /\ code c <> 125.
Lemma opens_spaces x s : opens x -> spaces (x ++ s) = (x ++ s)%list.
Proof. intros (c & r & -> & H & _). now apply spaces_head. Qed.
Lemma digit_opens c : digit_code (code c) -> is_space c = false /\ code c <> 93 /\ code c <> 125 /\ code c <> 34 /\ code c <> 91 /\ code c <> 123.
Proof.
  intros [A B]. unfold is_space.
  rewrite (proj2 (N.eqb_neq (code c) 32)), (proj2 (N.eqb_neq (code c) 9)), (proj2 (N.eqb_neq (code c) 10)), (proj2 (N.eqb_neq (code c) 13)) by lia.
  repeat split; lia.
Qed.
(** What starts an atom. *)
Definition atomic (x : text) : Prop :=
  exists c r, x = c :: r /\ is_space c = false /\ code c <> 93 /\ code c <> 125 /\ code c <> 34 /\ code c <> 91 /\ code c <> 123.
Lemma atomic_opens x : atomic x -> opens x.
Proof. intros (c & r & H). exists c, r. tauto. Qed.
Ltac concrete := eexists _, _; split; [reflexivity|]; repeat split; vm_compute; discriminate.
Lemma signed_atomic sg w s : a_sign sg -> a_whole w -> atomic (sg ++ w ++ s).
Proof.
  intros [->| ->] W; [|concrete]. apply whole_head in W as (c & r & -> & D).
  exists c, (r ++ s)%list. split; [reflexivity|]. now apply digit_opens.
Qed.
Lemma int_atomic z : atomic (write_int z).
Proof.
  destruct (write_int_shape z) as (sg & w & -> & S & W & _). rewrite <- (app_nil_r w). now apply signed_atomic.
Qed.
Lemma float_atomic k : float_token k -> atomic k.
Proof.
  intros [->|[->|[->|(sg & w & f & e & -> & S & W & _)]]]; [concrete..|]. now apply signed_atomic.
Qed.
Lemma pr_opens st l v : writable v -> opens (pr st l v).
Proof.
  intros W. destruct v as [|b|z|k|s|xs|d|].
  - concrete.
  - destruct b; concrete.
  - apply atomic_opens, int_atomic.
  - apply atomic_opens, float_atomic. now inversion W.
  - concrete.
  - destruct xs; concrete.
  - destruct d; concrete.
  - inversion W.
Qed.
Lemma joined_head sep x r : exists y, joined sep (x :: r) = (x ++ y)%list.
Proof. destruct r as [|z r]; [exists []; now rewrite app_nil_r|]. eexists. reflexivity. Qed.
Lemma opens_app x y : opens x -> opens (x ++ y).
Proof. intros (c & r & -> & H). exists c, (r ++ y)%list. now split. Qed.
Lemma newline_stops st l c s : stop_code (code c) -> stops (newline st l ++ c :: s).
Proof.
  intros H. destruct st; [exact H|]. cbn [newline app]. split; [intros [A B]; revert A B; vm_compute; congruence|].
  repeat split; discriminate.
Qed.
Lemma stop_44 : stop_code (code (ch 44)).
Proof. split; [intros [A B]; revert A B; vm_compute; congruence|]. repeat split; discriminate. Qed.
Lemma stop_93 : stop_code (code (ch 93)).
Proof. split; [intros [A B]; revert A B; vm_compute; congruence|]. repeat split; discriminate. Qed.
Lemma stop_125 : stop_code (code (ch 125)).
Proof. split; [intros [A B]; revert A B; vm_compute; congruence|]. repeat split; discriminate. Qed.

Definition reads (st : style) (v : jt) : Prop :=
  forall l s fuel, writable v -> stops s -> (2 * length (pr st l v) + 1 <= fuel)%nat -> scan fuel (pr st l v ++ s) = Ok (v, s).

Lemma scan_atomic f x s : atomic x -> scan (S f) (x ++ s) = scan_atom (x ++ s).
Proof.
  intros (c & r & -> & _ & _ & _ & A & B & C). cbn [app scan].
  now rewrite (proj2 (N.eqb_neq _ _) A), (proj2 (N.eqb_neq _ _) B), (proj2 (N.eqb_neq _ _) C).
Qed.

Lemma scan_list_items st l l' xs : xs <> [] -> Forall (reads st) xs -> (forall x, In x xs -> writable x) ->
  forall acc fuel s, (2 * length (joined (separator st l) (map (pr st l) xs)) + 2 <= fuel)%nat ->
  scan_list fuel (joined (separator st l) (map (pr st l) xs) ++ newline st l' ++ ch 93 :: s) acc = Ok (TList (acc ++ xs), s).
Proof.
  intros N R W. induction xs as [|x xs IH]; [now destruct N|]. intros acc fuel s F.
  inversion R as [|? ? Rx Rxs]; subst. assert (Wx : writable x) by (apply W; now left).
  destruct fuel as [|f]; [lia|]. destruct xs as [|y xs].
  - cbn [map joined] in *. cbn [scan_list]. rewrite Rx; [|assumption|apply newline_stops, stop_93|lia].
    cbn [bind fst snd]. rewrite spaces_blank by apply newline_blank. rewrite spaces_head by reflexivity. reflexivity.
  - specialize (IH ltac:(discriminate) Rxs (fun z Hz => W z (or_intror Hz))).
    set (J := joined (separator st l) (map (pr st l) (y :: xs))) in *.
    change (joined (separator st l) (map (pr st l) (x :: y :: xs))) with (pr st l x ++ separator st l ++ J)%list in *.
    assert (O : opens J).
    { unfold J. cbn [map]. destruct (joined_head (separator st l) (pr st l y) (map (pr st l) xs)) as [z ->].
      apply opens_app, pr_opens, W. right. now left. }
    clearbody J. destruct (separator_comma st l) as (w & E & B). rewrite E in *. clear E.
    rewrite !app_length in F. cbn [length] in F. rewrite <- !app_assoc. cbn [scan_list].
    rewrite Rx; [|assumption|exact stop_44|lia].
    cbn [bind fst snd]. cbn [app]. rewrite spaces_head by reflexivity. cbv iota.
    change (code (ch 44) =? 93) with false. change (code (ch 44) =? 44) with true. cbv iota.
    rewrite spaces_blank by assumption.
    rewrite opens_spaces by assumption. rewrite IH by lia. now rewrite <- app_assoc.
Qed.

Lemma pystr_eqb_spec a b : pystr_eqb a b = true <-> a = b.
Proof.
  revert b. induction a as [|x a IH]; intros [|y b]; cbn [pystr_eqb]; try (split; congruence).
  rewrite andb_true_iff, N.eqb_eq, IH. split; [intros [-> ->]; reflexivity|now injection 1].
Qed.
Lemma put_new d k v : ~ In k (map fst d) -> put d k v = (d ++ [(k, v)])%list.
Proof.
  induction d as [|[k' v'] d IH]; intros H; [reflexivity|]. cbn [put app].
  destruct (pystr_eqb k' k) eqn:E; [apply pystr_eqb_spec in E; subst; destruct H; now left|].
  rewrite IH; [reflexivity|]. intros K. apply H. now right.
Qed.
Definition pair_text (st : style) (l : nat) (kv : pystr * jt) : text :=
  ((write_str (fst kv) ++ t ": ") ++ pr st l (snd kv))%list.
Lemma pair_opens st l kv : opens (pair_text st l kv).
Proof. unfold pair_text, write_str. concrete. Qed.
Lemma pair_length st l kv : (length (pr st l (snd kv)) + 4 <= length (pair_text st l kv))%nat.
Proof. unfold pair_text, write_str. rewrite !app_length. cbn [length]. rewrite app_length. cbn. lia. Qed.

Lemma scan_dict_one st l kv acc f s : proper_string (fst kv) -> writable (snd kv) -> reads st (snd kv) -> stops s ->
  (2 * length (pr st l (snd kv)) + 1 <= f)%nat ->
  scan_dict (S f) (pair_text st l kv ++ s) acc =
  match spaces s with
  | [] => Err ValueError
  | c1 :: r =>
      if code c1 =? 125 then Ok (TDict (put acc (fst kv) (snd kv)), r)
      else if code c1 =? 44 then scan_dict f (spaces r) (put acc (fst kv) (snd kv))
      else Err ValueError
  end.
Proof.
  intros K W R S F. unfold pair_text, write_str. rewrite <- !app_assoc. cbn [app scan_dict].
  change (negb (code (ch 34) =? 34)) with false. cbv iota.
  rewrite <- app_assoc. cbn [app].
  rewrite scan_string_write by assumption. cbn [bind fst snd].
  cbn [t list_ascii_of_string app].
  rewrite spaces_head by reflexivity. cbv iota. change (negb (code ":" =? 58)) with false. cbv iota.
  change (spaces (" "%char :: pr st l (snd kv) ++ s)) with (spaces (pr st l (snd kv) ++ s)).
  rewrite opens_spaces by now apply pr_opens. rewrite R by assumption. reflexivity.
Qed.
Lemma scan_dict_items st l l' d : d <> [] -> Forall (fun kv => reads st (snd kv)) d ->
  (forall k x, In (k, x) d -> proper_string k /\ writable x) ->
  forall acc fuel s, NoDup (map fst (acc ++ d)) ->
  (2 * length (joined (separator st l) (map (pair_text st l) d)) + 2 <= fuel)%nat ->
  scan_dict fuel (joined (separator st l) (map (pair_text st l) d) ++ newline st l' ++ ch 125 :: s) acc = Ok (TDict (acc ++ d), s).
Proof.
  intros N R W. induction d as [|kv d IH]; [now destruct N|]. intros acc fuel s ND F.
  inversion R as [|? ? Rx Rxs]; subst.
  assert (Wx : proper_string (fst kv) /\ writable (snd kv)). { destruct kv as [k x]. apply W. now left. }
  destruct Wx as [Wk Wx]. destruct kv as [k x] eqn:KV. rewrite <- KV in *.
  assert (P : put acc (fst kv) (snd kv) = (acc ++ [kv])%list).
  { subst kv. apply put_new. rewrite map_app in ND. cbn [map fst] in ND. apply NoDup_remove_2 in ND.
    intros K. apply ND. apply in_or_app. now left. }
  pose proof (pair_length st l kv) as PL.
  destruct fuel as [|f]; [lia|]. destruct d as [|kv' d].
  - cbn [map joined] in *. rewrite scan_dict_one; [|assumption..|apply newline_stops, stop_125|lia].
    rewrite spaces_blank by apply newline_blank. rewrite spaces_head by reflexivity. cbv iota.
    change (code (ch 125) =? 125) with true. cbv iota. now rewrite P.
  - specialize (IH ltac:(discriminate) Rxs (fun a b Hz => W a b (or_intror Hz))).
    set (J := joined (separator st l) (map (pair_text st l) (kv' :: d))) in *.
    change (joined (separator st l) (map (pair_text st l) (kv :: kv' :: d))) with (pair_text st l kv ++ separator st l ++ J)%list in *.
    assert (O : opens J).
    { unfold J. cbn [map]. destruct (joined_head (separator st l) (pair_text st l kv') (map (pair_text st l) d)) as [z ->].
      apply opens_app, pair_opens. }
    clearbody J. destruct (separator_comma st l) as (w & E & B). rewrite E in *. clear E.
    rewrite !app_length in F. cbn [length] in F. rewrite <- !app_assoc.
    rewrite scan_dict_one; [|assumption..|exact stop_44|lia].
    cbn [app]. rewrite spaces_head by reflexivity. cbv iota.
    change (code (ch 44) =? 125) with false. change (code (ch 44) =? 44) with true. cbv iota.
    rewrite spaces_blank by assumption.
    rewrite opens_spaces by assumption. rewrite P, IH; [now rewrite <- app_assoc|now rewrite <- app_assoc|lia].
Qed.

Lemma reads_back st v : reads st v.
Proof.
  induction v as [|b|z|k|str|xs IH|d IH|] using tree_ind; intros l s fuel W S F; (destruct fuel as [|f]; [lia|]).
  - reflexivity.
  - destruct b; reflexivity.
  - cbn [pr] in *. rewrite scan_atomic by apply int_atomic. now apply scan_int.
  - cbn [pr] in *. inversion W; subst. rewrite scan_atomic by now apply float_atomic. now apply scan_float.
  - cbn [pr] in *. inversion W; subst. unfold write_str. cbn [app scan].
    change (code (ch 34) =? 34) with true. cbv iota. rewrite <- app_assoc. cbn [app].
    rewrite scan_string_write by assumption. reflexivity.
  - destruct xs as [|x xs]; [reflexivity|]. set (L := x :: xs) in *.
    change (pr st l (TList L)) with ((ch 91 :: newline st (Datatypes.S l)) ++ joined (separator st (Datatypes.S l)) (map (pr st (Datatypes.S l)) L) ++ newline st l ++ [ch 93])%list in *.
    set (J := joined (separator st (Datatypes.S l)) (map (pr st (Datatypes.S l)) L)) in *.
    assert (WL : forall y, In y L -> writable y) by (inversion W; assumption).
    assert (O : opens J).
    { unfold J, L. cbn [map]. destruct (joined_head (separator st (Datatypes.S l)) (pr st (Datatypes.S l) x) (map (pr st (Datatypes.S l)) xs)) as [z ->].
      apply opens_app, pr_opens, WL. now left. }
    rewrite !app_length in F. cbn [length] in F. rewrite <- !app_assoc. cbn [app scan].
    change (code (ch 91) =? 34) with false. change (code (ch 91) =? 91) with true. cbv iota.
    rewrite spaces_blank by apply newline_blank. rewrite opens_spaces by assumption.
    pose proof (scan_list_items st (Datatypes.S l) l L ltac:(discriminate) IH WL [] f s) as G. fold J in G.
    destruct O as (c & r & E & _ & C & _). rewrite E in *. cbn [app]. rewrite (proj2 (N.eqb_neq _ _) C). cbv iota.
    cbn [app] in G. apply G. cbn [length] in *. lia.
  - destruct d as [|x xs]; [reflexivity|]. set (L := x :: xs) in *.
    change (pr st l (TDict L)) with ((ch 123 :: newline st (Datatypes.S l)) ++ joined (separator st (Datatypes.S l)) (map (pair_text st (Datatypes.S l)) L) ++ newline st l ++ [ch 125])%list in *.
    set (J := joined (separator st (Datatypes.S l)) (map (pair_text st (Datatypes.S l)) L)) in *.
    inversion W as [| | | | | |d' ND WL]; subst d'.
    assert (O : opens J).
    { unfold J, L. cbn [map]. destruct (joined_head (separator st (Datatypes.S l)) (pair_text st (Datatypes.S l) x) (map (pair_text st (Datatypes.S l)) xs)) as [z ->].
      apply opens_app, pair_opens. }
    rewrite !app_length in F. cbn [length] in F. rewrite <- !app_assoc. cbn [app scan].
    change (code (ch 123) =? 34) with false. change (code (ch 123) =? 91) with false. change (code (ch 123) =? 123) with true. cbv iota.
    rewrite spaces_blank by apply newline_blank. rewrite opens_spaces by assumption.
    pose proof (scan_dict_items st (Datatypes.S l) l L ltac:(discriminate) IH WL [] f s ND) as G. fold J in G.
    destruct O as (c & r & E & _ & _ & C). rewrite E in *. cbn [app]. rewrite (proj2 (N.eqb_neq _ _) C). cbv iota.
    cbn [app] in G. apply G. cbn [length] in *. lia.
  - inversion W.
Qed.

Lemma dumps_pr st v : writable v -> dumps st v = Ok (pr st 0 v).
Proof. intros W. unfold dumps. now rewrite write_pr. Qed.
Lemma loads_dumps st v : writable v -> (let* x := dumps st v in loads x) = Ok v.
Proof.
  intros W. rewrite dumps_pr by assumption. cbn [bind]. unfold loads.
  pose proof (opens_spaces _ [] (pr_opens st 0 v W)) as O. rewrite app_nil_r in O. rewrite O.
  pose proof (reads_back st v 0%nat [] (S (2 * length (pr st 0 v))) W I) as R. rewrite app_nil_r in R.
  rewrite R by lia. reflexivity.
Qed.

(** *** Strings with pairs of surrogates *)
Lemma join_length s : (length (join_pairs s) <= length s)%nat.
Proof.
  assert (K : forall n s, (length s <= n)%nat -> (length (join_pairs s) <= length s)%nat).
  { clear s. induction n as [|n IH]; intros s L; [destruct s; [reflexivity|cbn in L; lia]|].
    destruct s as [|a [|b r]]; [reflexivity|reflexivity|]. cbn [length] in L.
    change (join_pairs (a :: b :: r)) with
      (if high a && low b then (65536 + (a - 55296) * 1024 + (b - 56320)) :: join_pairs r else a :: join_pairs (b :: r)).
    destruct (high a && low b).
    - pose proof (IH r ltac:(lia)). cbn [length]. lia.
    - pose proof (IH (b :: r) ltac:(cbn [length]; lia)) as H. cbn [length] in *. lia. }
  now apply (K (length s)).
Qed.
Lemma join_same s : join_pairs s = s -> no_surrogate_pair s.
Proof.
  induction s as [|a s IH]; intros E; [intros [|i] x y K; discriminate|].
  destruct s as [|b r]; [intros [|[|i]] x y K1 K2; discriminate|].
  change (join_pairs (a :: b :: r)) with
      (if high a && low b then (65536 + (a - 55296) * 1024 + (b - 56320)) :: join_pairs r else a :: join_pairs (b :: r)) in E.
  destruct (high a && low b) eqn:H.
  - exfalso. pose proof (join_length r). apply (f_equal (@length N)) in E. cbn [length] in E. lia.
  - assert (E' : join_pairs (b :: r) = (b :: r)%list) by congruence. specialize (IH E'). intros [|i] x y K1 K2 [A B].
    + cbn [nth_error] in K1, K2. injection K1 as ->. injection K2 as ->.
      apply high_spec in A. apply low_spec in B. rewrite A, B in H. discriminate.
    + exact (IH i x y K1 K2 (conj A B)).
Qed.
Lemma join_units_join s : code_points s -> join_pairs (flat_map units1 s) = join_pairs s.
Proof.
  assert (K : forall n s, (length s <= n)%nat -> code_points s -> join_pairs (flat_map units1 s) = join_pairs s).
  { clear s. induction n as [|n IH]; intros s L C; [destruct s; [reflexivity|cbn in L; lia]|].
    destruct s as [|c s]; [reflexivity|]. cbn [length] in L.
    assert (Hc : c < 1114112) by (apply C; now left).
    assert (C' : code_points s) by (intros x Hx; apply C; now right).
    cbn [flat_map]. unfold units1 at 1. destruct (N.ltb_spec c 65536) as [B|B].
    - cbn [app]. destruct (high c) eqn:E.
      2:{ rewrite !join_plain by assumption. now rewrite IH by (assumption || lia). }
      destruct s as [|d s]; [reflexivity|]. cbn [flat_map]. unfold units1 at 1.
      destruct (N.ltb_spec d 65536) as [B'|B']; cbn [app].
      + assert (C'' : code_points s) by (intros x Hx; apply C'; now right). cbn [length] in L.
        destruct (low d) eqn:F.
        * cbn [join_pairs]. rewrite E, F. cbn [andb]. now rewrite IH by (assumption || lia).
        * rewrite (join_nolow c (d :: flat_map units1 s)), (join_nolow c (d :: s)) by exact F. f_equal.
          pose proof (IH (d :: s) ltac:(cbn [length]; lia) C') as I. cbn [flat_map] in I. unfold units1 in I at 1.
          rewrite (proj2 (N.ltb_lt d 65536)) in I by assumption. exact I.
      + assert (M1 : (d - 65536) / 1024 mod 1024 < 1024) by (apply N.mod_lt; lia).
        rewrite (join_nolow c (d :: s)), (join_nolow c (_ :: _ :: flat_map units1 s)); [f_equal| |].
        * pose proof (IH (d :: s) ltac:(cbn [length] in *; lia) C') as I. cbn [flat_map] in I. unfold units1 in I at 1.
          rewrite (proj2 (N.ltb_ge d 65536)) in I by assumption. exact I.
        * set (x := (d - 65536) / 1024 mod 1024) in *. clearbody x.
          destruct (low (55296 + x)) eqn:F; [|reflexivity]. apply low_spec in F. lia.
        * destruct (low d) eqn:F; [|reflexivity]. apply low_spec in F. lia.
    - assert (E : high c = false). { destruct (high c) eqn:F; [|reflexivity]. apply high_spec in F. lia. }
      rewrite (join_plain c) by assumption. cbn [app]. set (v := c - 65536).
      assert (V : v / 1024 < 1024). { apply N.div_lt_upper_bound; unfold v; lia. }
      rewrite (N.mod_small (v / 1024)) by assumption.
      assert (M2 : v mod 1024 < 1024) by (apply N.mod_lt; lia).
      pose proof (N.div_mod v 1024 ltac:(lia)) as D.
      assert (V' : c = 65536 + v) by (unfold v; lia). clearbody v.
      set (x := v / 1024) in *. set (y := v mod 1024) in *. clearbody x y.
      change (join_pairs (55296 + x :: 56320 + y :: flat_map units1 s)) with
        (if high (55296 + x) && low (56320 + y) then (65536 + (55296 + x - 55296) * 1024 + (56320 + y - 56320)) :: join_pairs (flat_map units1 s)
         else (55296 + x) :: join_pairs (56320 + y :: flat_map units1 s)).
      rewrite (proj2 (high_spec _)), (proj2 (low_spec _)) by lia. cbn [andb].
      rewrite IH by (assumption || lia). f_equal. lia. }
  now apply (K (length s)).
Qed.
Lemma loads_string st s : code_points s -> (let* x := dumps st (TStr s) in loads x) = Ok (TStr (join_pairs s)).
Proof.
  intros C. change (dumps st (TStr s)) with (Ok (write_str s)). cbn [bind].
  unfold loads, write_str. rewrite spaces_head by reflexivity.
  set (n := (2 * length _)%nat). clearbody n. cbn [scan]. change (code (ch 34) =? 34) with true. cbv iota.
  unfold scan_string. rewrite scan_escapes by assumption. cbn [bind fst snd]. now rewrite join_units_join.
Qed.
Lemma string_back st s : code_points s ->
  ((let* x := dumps st (TStr s) in loads x) = Ok (TStr s) <-> no_surrogate_pair s).
Proof.
  intros C. rewrite loads_string by assumption. split.
  - intros H. apply join_same. congruence.
  - intros H. do 2 f_equal. rewrite <- (join_units s C H) at 2. symmetry. now apply join_units_join.
Qed.
Lemma dumps_injective st v w x : writable v -> writable w -> dumps st v = Ok x -> dumps st w = Ok x -> v = w.
Proof.
  intros V W A B. pose proof (loads_dumps st v V) as P. pose proof (loads_dumps st w W) as Q.
  rewrite A in P. rewrite B in Q. cbn [bind] in P, Q. congruence.
Qed.
Lemma dumps_error st v e : dumps st v = Err e <-> e = TypeError /\ unwritable v.
Proof.
  unfold dumps. pose proof (write_false st v 0) as H. destruct (write st 0 v) as [x [|]]; cbn [snd] in H.
  - split; [discriminate|]. intros [_ U]. apply H in U. discriminate.
  - split; [intros E; split; [congruence|now apply H]|]. intros [-> _]. reflexivity.
Qed.

(** *** Only ASCII is written *)
Definition seen (nl : bool) (c : ascii) : bool :=
  ((32 <=? N_of_ascii c) && (N_of_ascii c <=? 126)) || (nl && (N_of_ascii c =? 10)).
Lemma seen_plain nl s : forallb (seen nl) s = true <-> plain nl s.
Proof.
  rewrite forallb_forall. unfold plain, seen. split; intros H c Hc; specialize (H c Hc).
  - rewrite orb_true_iff, !andb_true_iff, !N.leb_le, N.eqb_eq in H. exact H.
  - rewrite orb_true_iff, !andb_true_iff, !N.leb_le, N.eqb_eq. exact H.
Qed.
Lemma plain_app nl a b : plain nl a -> plain nl b -> plain nl (a ++ b).
Proof. intros A B c H. apply in_app_or in H as [H|H]; [now apply A|now apply B]. Qed.
Lemma plain_cons nl a b : 32 <= N_of_ascii a <= 126 -> plain nl b -> plain nl (a :: b).
Proof. intros A B c [<-|H]; [now left|now apply B]. Qed.
Lemma plain_nil nl : plain nl []. Proof. intros c []. Qed.
Lemma digits_plain nl s : JsonTextSpec.digits s -> plain nl s.
Proof. intros H c Hc. left. specialize (H c Hc). lia. Qed.
Lemma hex_plain n : n < 16 -> 32 <= N_of_ascii (hex_digit n) <= 126.
Proof.
  intros H. unfold hex_digit. destruct (N.ltb_spec n 10); fold (code (ch (48 + n))); fold (code (ch (87 + n))).
  - unfold ch. rewrite N_ascii_embedding by lia. lia.
  - unfold ch. rewrite N_ascii_embedding by lia. lia.
Qed.
Lemma u_plain nl c : plain nl (u_escape c).
Proof.
  unfold u_escape. apply plain_cons; [vm_compute; split; discriminate|]. apply plain_cons; [vm_compute; split; discriminate|].
  repeat (apply plain_cons; [apply hex_plain, N.mod_lt; lia|]). apply plain_nil.
Qed.
Lemma escape_plain nl c : plain nl (escape c).
Proof.
  unfold escape.
  repeat match goal with |- context [if c =? ?k then _ else _] => destruct (c =? k); [apply seen_plain; destruct nl; reflexivity|] end.
  destruct ((32 <=? c) && (c <=? 126)) eqn:E.
  - apply andb_true_iff in E as [E1 E2]. apply N.leb_le in E1, E2. apply plain_cons; [|apply plain_nil].
    fold (code (ch c)). rewrite code_ch by lia. lia.
  - destruct (c <? 65536); [apply u_plain|]. apply plain_app; apply u_plain.
Qed.
Lemma str_plain nl s : plain nl (write_str s).
Proof.
  unfold write_str. apply plain_cons; [vm_compute; split; discriminate|]. apply plain_app.
  - induction s as [|c s IH]; cbn [flat_map]; [apply plain_nil|]. apply plain_app; [apply escape_plain|exact IH].
  - apply seen_plain. destruct nl; reflexivity.
Qed.
Lemma int_plain nl z : plain nl (write_int z).
Proof.
  unfold write_int. destruct (Z.to_int z); [apply digits_plain, write_uint_digits|].
  apply plain_cons; [vm_compute; split; discriminate|]. apply digits_plain, write_uint_digits.
Qed.
Lemma float_plain nl k : float_token k -> plain nl k.
Proof.
  intros [->|[->|[->|(sg & w & f & e & -> & S & W & F & E & _)]]]; try (apply seen_plain; destruct nl; reflexivity).
  repeat apply plain_app.
  - destruct S as [->| ->]; apply seen_plain; destruct nl; reflexivity.
  - destruct W as [->|(c & r & -> & D & _)]; [apply seen_plain; destruct nl; reflexivity|now apply digits_plain].
  - destruct F as [->|(d & -> & D & _)]; [apply plain_nil|]. apply plain_cons; [vm_compute; split; discriminate|now apply digits_plain].
  - destruct E as [->|(x & d & -> & X & D & _)]; [apply plain_nil|]. apply plain_cons; [vm_compute; split; discriminate|].
    apply plain_app; [|now apply digits_plain]. destruct X as [->|[->| ->]]; apply seen_plain; destruct nl; reflexivity.
Qed.
Definition nls (st : style) : bool := match st with Compact => false | Indented => true end.
Lemma newline_plain st l : plain (nls st) (newline st l).
Proof.
  destruct st; [apply plain_nil|]. intros c [<-|H]; [right; split; reflexivity|]. apply repeat_spec in H as ->. left. vm_compute. split; discriminate.
Qed.
Lemma separator_plain st l : plain (nls st) (separator st l).
Proof.
  destruct st; [apply seen_plain; reflexivity|]. apply plain_cons; [vm_compute; split; discriminate|apply (newline_plain Indented)].
Qed.
Lemma joined_plain {A} nl sep (g : A -> text) l : plain nl sep -> (forall a, In a l -> plain nl (g a)) -> plain nl (joined sep (map g l)).
Proof.
  intros S H. induction l as [|a l IH]; [apply plain_nil|]. specialize (IH (fun b Hb => H b (or_intror Hb))).
  destruct l as [|b l]; [cbn [map joined]; apply H; now left|].
  change (joined sep (map g (a :: b :: l))) with (g a ++ sep ++ joined sep (map g (b :: l)))%list.
  apply plain_app; [apply H; now left|]. now apply plain_app.
Qed.
Lemma pr_plain st v : forall l, writable v -> plain (nls st) (pr st l v).
Proof.
  induction v as [|b|z|k|s|xs IH|d IH|] using tree_ind; intros l W.
  - destruct st; apply seen_plain; reflexivity.
  - destruct b, st; apply seen_plain; reflexivity.
  - apply int_plain.
  - inversion W; subst. now apply float_plain.
  - apply str_plain.
  - inversion W; subst. rewrite Forall_forall in IH. destruct xs as [|x xs]; [destruct st; apply seen_plain; reflexivity|].
    set (L := x :: xs) in *.
    change (pr st l (TList L)) with ((ch 91 :: newline st (S l)) ++ joined (separator st (S l)) (map (pr st (S l)) L) ++ newline st l ++ [ch 93])%list.
    apply plain_app; [apply plain_cons; [vm_compute; split; discriminate|apply newline_plain]|].
    apply plain_app; [apply joined_plain; [apply separator_plain|]; auto|].
    apply plain_app; [apply newline_plain|]. apply plain_cons; [vm_compute; split; discriminate|apply plain_nil].
  - inversion W as [| | | | | |d' ND WL]; subst d'. rewrite Forall_forall in IH. destruct d as [|x xs]; [destruct st; apply seen_plain; reflexivity|].
    set (L := x :: xs) in *.
    change (pr st l (TDict L)) with ((ch 123 :: newline st (S l)) ++ joined (separator st (S l)) (map (pair_text st (S l)) L) ++ newline st l ++ [ch 125])%list.
    apply plain_app; [apply plain_cons; [vm_compute; split; discriminate|apply newline_plain]|].
    apply plain_app; [apply joined_plain; [apply separator_plain|]|].
    + intros [k x'] Hk. unfold pair_text. cbn [fst snd]. apply plain_app.
      * apply plain_app; [apply str_plain|]. destruct st; apply seen_plain; reflexivity.
      * apply (IH (k, x') Hk). now apply (WL k x').
    + apply plain_app; [apply newline_plain|]. apply plain_cons; [vm_compute; split; discriminate|apply plain_nil].
  - inversion W.
Qed.
Lemma dumps_plain st v x : writable v -> dumps st v = Ok x -> plain (nls st) x.
Proof. intros W. rewrite dumps_pr by assumption. intros H. injection H as <-. now apply pr_plain. Qed.
