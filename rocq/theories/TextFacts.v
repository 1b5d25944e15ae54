(** Proofs about commands as text. *)
From Verif Require Import Base Registry Convert Command Execute Text TextSpec.
Open Scope string_scope.

Lemma upper_spec s : upper s = capitals s.
Proof. induction s as [|c s IH]; [reflexivity|]. cbn [upper capitals]. rewrite IH. f_equal. destruct c as [[] [] [] [] [] [] [] []]; reflexivity. Qed.
Lemma app_assoc (a b c : string) : (a ++ b) ++ c = a ++ b ++ c.
Proof. induction a; cbn; congruence. Qed.
Lemma app_nil (a : string) : a ++ "" = a.
Proof. induction a; cbn; congruence. Qed.
Lemma contains_app c a b : contains c (a ++ b) = (contains c a || contains c b)%bool.
Proof. induction a as [|x a IH]; cbn; [reflexivity|]. rewrite IH. now destruct (Ascii.eqb c x). Qed.
Lemma plain_skip a r : Ascii.eqb a esc = false -> plain (String a r) = String a (plain r).
Proof. intros E. cbn [plain]. rewrite E. cbn. destruct r as [|? [|? [|? ?]]]; reflexivity. Qed.
Lemma plain_clean s t : contains esc s = false -> plain (s ++ t) = s ++ plain t.
Proof.
  induction s as [|a s IH]; [reflexivity|]. cbn [contains append]. intros E. apply orb_false_iff in E. destruct E as [E1 E2].
  rewrite plain_skip by (rewrite Ascii.eqb_sym; exact E1). now rewrite IH.
Qed.
Lemma plain_end x t : plain (String esc (String "[" (String x (String "m" t)))) = plain t.
Proof. reflexivity. Qed.
Lemma plain_bold s t : contains esc s = false -> plain (bold_ansi s ++ t) = s ++ plain t.
Proof. intros E. unfold bold_ansi. cbn [append]. rewrite plain_end, app_assoc, plain_clean by exact E. cbn [append]. now rewrite plain_end. Qed.
Lemma plain_dim s t : contains esc s = false -> plain (dim_ansi s ++ t) = s ++ plain t.
Proof. intros E. unfold dim_ansi. cbn [append]. rewrite plain_end, app_assoc, plain_clean by exact E. cbn [append]. now rewrite plain_end. Qed.
Lemma lines_line s t : contains nl s = false -> lines (s ++ eol ++ t) = s :: lines t.
Proof.
  unfold lines. change (eol ++ t) with (String nl t). induction s as [|a s IH]; intros E; [reflexivity|]. cbn [contains] in E. apply orb_false_iff in E. destruct E as [E1 E2].
  cbn [append split_on]. rewrite Ascii.eqb_sym, E1. rewrite (IH E2). reflexivity.
Qed.
Lemma upper_clean c s : (c = nl \/ c = esc) -> contains c s = false -> contains c (upper s) = false.
Proof.
  intros H. induction s as [|a s IH]; [reflexivity|]. cbn [contains upper]. intros E. apply orb_false_iff in E. destruct E as [E1 E2]. rewrite (IH E2), orb_false_r.
  unfold upper_char. destruct ((97 <=? nat_of_ascii a)%nat && (nat_of_ascii a <=? 122)%nat)%bool eqn:L; [|exact E1].
  apply andb_true_iff in L. destruct L as [L1 L2]. apply Nat.leb_le in L1, L2. apply Ascii.eqb_neq. intros F. apply (f_equal nat_of_ascii) in F. rewrite nat_ascii_embedding in F by lia.
  destruct H as [-> | ->]; cbn in F; lia.
Qed.
Lemma strip_id_app k k' : strip_id k = Some k' -> k = k' ++ "(id)".
Proof.
  revert k'. induction k as [|a k IH]; intros k'; cbn [strip_id].
  - discriminate.
  - destruct (String.eqb_spec (String a k) "(id)") as [->|N]; [intros [= <-]; reflexivity|]. destruct (strip_id k) as [x|]; [|discriminate]. cbn. intros [= <-]. cbn. f_equal. auto.
Qed.

Section Dump.
Variable show : value -> string.
Variable showz : Z -> string.
Variable names : ref -> Z.
Variable ap : func -> value -> res value.
Notation value_text := (value_text show showz names ap).
Notation param_line := (param_line show showz names ap).
Notation ansi_value := (ansi_value show showz names ap).
Notation ansi_param := (ansi_param show showz names ap).

Lemma ansi_value_spec v s : ansi_value v = Ok s <-> value_text v s.
Proof.
  destruct v; cbn; try (split; [now intros [= <-]|now intros ->]).
  destruct (ap f v) as [x|e]; cbn [bind]; split; try discriminate.
  - intros [= <-]. eauto.
  - intros (y & [= <-] & ->). reflexivity.
  - intros (y & E & _). discriminate.
Qed.
(** One parameter. *)
Lemma param_ok d kv v : value_text (snd kv) v -> (fst kv <> "id" -> exists t, dget d (base_key (fst kv)) = Some t) ->
  one_line (fst kv) -> one_line v -> (forall k t, dget d k = Some t -> one_line (ansi_type t)) ->
  exists s l, ansi_param (Some d) kv = Ok s /\ param_line d kv l /\ forall t, plain (s ++ t) = l ++ eol ++ plain t /\ contains nl l = false.
Proof.
  intros V A (K1 & K2) (V1 & V2) T. unfold Text.ansi_param. rewrite (proj2 (ansi_value_spec _ _) V). cbn [bind].
  destruct (String.eqb_spec (fst kv) "id") as [I|I].
  - exists ("     - OBJECT_ID: " ++ v ++ dim_ansi (" (int)" ++ eol)), ("     - OBJECT_ID: " ++ v ++ " (int)"). split; [reflexivity|]. split; [exists v; auto|].
    intros t. split.
    + rewrite app_assoc, plain_clean by reflexivity. rewrite app_assoc, plain_clean by exact V2. rewrite plain_dim by reflexivity. now rewrite !app_assoc.
    + rewrite !contains_app, V1. reflexivity.
  - destruct (A I) as (t & D). destruct (T _ _ D) as (T1 & T2). unfold annotation, base_key in *.
    set (n := match strip_id (fst kv) with Some k' => k' ++ "_ID" | None => fst kv end).
    exists ("     - " ++ upper n ++ ": " ++ v ++ dim_ansi (" (" ++ ansi_type t ++ ")" ++ eol)), ("     - " ++ capitals n ++ ": " ++ v ++ " (" ++ ansi_type t ++ ")").
    rewrite <- (upper_spec n).
    assert (N : contains nl n = false /\ contains esc n = false).
    { unfold n. destruct (strip_id (fst kv)) as [k'|] eqn:E; [|auto]. apply strip_id_app in E. rewrite E in K1, K2. rewrite contains_app in K1, K2. apply orb_false_iff in K1, K2. rewrite !contains_app, (proj1 K1), (proj1 K2). auto. }
    destruct N as [N1 N2]. split; [unfold n; destruct (strip_id (fst kv)); now rewrite D|]. split.
    + exists v. split; [exact V|]. right. split; [exact I|]. exists n, t. split; [|split; [exact D|rewrite <- (upper_spec n); reflexivity]].
      unfold label, n. destruct (strip_id (fst kv)); eauto.
    + intros r. split.
      * rewrite app_assoc, plain_clean by reflexivity. rewrite app_assoc, plain_clean by (apply upper_clean; auto). rewrite app_assoc, plain_clean by reflexivity.
        rewrite app_assoc, plain_clean by exact V2. rewrite plain_dim by (rewrite !contains_app, T2; reflexivity). now rewrite !app_assoc.
      * rewrite !contains_app, V1, T1, upper_clean by auto. reflexivity.
Qed.
Lemma params_ok d l : (forall k t, dget d k = Some t -> one_line (ansi_type t)) ->
  Forall (fun kv => one_line (fst kv) /\ (fst kv <> "id" -> exists t, dget d (base_key (fst kv)) = Some t) /\ exists v, value_text (snd kv) v /\ one_line v) l ->
  exists s ls, params (ansi_param (Some d)) l = Ok s /\ Forall2 (param_line d) l ls /\ lines (plain s) = (ls ++ [""])%list.
Proof.
  intros T. induction 1 as [|kv l (O & A & v & V & VO) H (s & ls & E & F & L)].
  - exists "", []. cbn. auto.
  - destruct (param_ok d kv v V A O VO T) as (s0 & l0 & E0 & P0 & Q). exists (s0 ++ s), (l0 :: ls). cbn [params]. rewrite E0. cbn [bind]. rewrite E. cbn [bind].
    split; [reflexivity|]. split; [now constructor|]. rewrite (proj1 (Q s)), lines_line by apply (Q ""). cbn. now rewrite L.
Qed.
(** Reading the text of a command. *)
Theorem ansi_lines d date c : (forall z, one_line (showz z)) -> one_line date -> one_line (c_class c) -> one_line (c_method c) ->
  (forall k t, dget d k = Some t -> one_line (ansi_type t)) ->
  Forall (fun kv => one_line (fst kv) /\ (fst kv <> "id" -> exists t, dget d (base_key (fst kv)) = Some t) /\ exists v, value_text (snd kv) v /\ one_line v) (c_params c) ->
  exists s ls, dump_ansi show showz names ap (Some d) date c = Ok s /\ Forall2 (param_line d) (c_params c) ls /\
  lines (plain s) = (showz (c_id c) ++ ". COMMAND") :: ("     - METHOD: """ ++ method_text c ++ """ (str)") :: ("     - COMMAND_ID: " ++ showz (c_id c) ++ " (int)") ::
     ("     - TIMESTAMP: " ++ date ++ " (datetime)") :: "   PARAMETERS" :: (ls ++ [""])%list.
Proof.
  intros Z (D1 & D2) (C1 & C2) (M1 & M2) T P. destruct (params_ok d _ T P) as (s & ls & E & F & L).
  exists (header showz bold_ansi dim_ansi date c ++ s), ls. unfold dump_ansi. rewrite E. split; [reflexivity|]. split; [exact F|].
  destruct (Z (c_id c)) as (Z1 & Z2).
  assert (M : contains nl (method_text c) = false /\ contains esc (method_text c) = false).
  { unfold method_text. destruct (String.eqb (c_method c) ""); [auto|]. destruct (contains "." (c_method c)); [auto|]. rewrite !contains_app, C1, C2, M1, M2. auto. }
  destruct M as (M3 & M4).
  unfold header. rewrite !app_assoc. rewrite plain_dim by (rewrite contains_app, Z2; reflexivity). rewrite plain_bold by reflexivity.
  rewrite plain_clean by reflexivity. rewrite plain_clean by exact M4. rewrite plain_clean by reflexivity. rewrite plain_dim by reflexivity.
  rewrite plain_clean by reflexivity. rewrite plain_clean by exact Z2. rewrite plain_dim by reflexivity.
  rewrite plain_clean by reflexivity. rewrite plain_clean by exact D2. rewrite plain_dim by reflexivity. rewrite plain_dim by reflexivity.
  rewrite !app_assoc.
  transitivity (lines ((showz (c_id c) ++ ". COMMAND") ++ eol ++ ("     - METHOD: """ ++ method_text c ++ """ (str)") ++ eol ++ ("     - COMMAND_ID: " ++ showz (c_id c) ++ " (int)") ++ eol ++
     ("     - TIMESTAMP: " ++ date ++ " (datetime)") ++ eol ++ "   PARAMETERS" ++ eol ++ plain s)); [rewrite !app_assoc; reflexivity|].
  rewrite lines_line by (rewrite contains_app, Z1; reflexivity). rewrite lines_line by (rewrite !contains_app, M3; reflexivity).
  rewrite lines_line by (rewrite !contains_app, Z1; reflexivity). rewrite lines_line by (rewrite !contains_app, D1; reflexivity). rewrite lines_line by reflexivity.
  now rewrite L.
Qed.
(** Errors. *)
Lemma params_err f l e : Forall (fun kv => is_ok (f kv) = true \/ f kv = Err e) l -> Exists (fun kv => f kv = Err e) l -> params f l = Err e.
Proof.
  induction 1 as [|kv l [O|O] H IH]; intros X; [inversion X| |].
  - inversion X as [? ? Y|? ? Y]; subst; [rewrite Y in O; discriminate|]. cbn. destruct (f kv); [|discriminate]. cbn. now rewrite (IH Y).
  - cbn. now rewrite O.
Qed.
Theorem ansi_loaded date c : Forall (fun kv => exists v, value_text (snd kv) v) (c_params c) -> (exists kv, In kv (c_params c) /\ fst kv <> "id") ->
  dump_ansi show showz names ap None date c = Err TypeError.
Proof.
  intros V (kv & I & N). unfold dump_ansi. rewrite (params_err _ _ TypeError); [reflexivity| |].
  - eapply Forall_impl; [|exact V]. intros [k w] (v & H). cbn [fst snd] in H. unfold Text.ansi_param. cbn [fst snd]. rewrite (proj2 (ansi_value_spec _ _) H). cbn [bind].
    destruct (String.eqb k "id"); [auto|]. destruct (strip_id k); auto.
  - apply Exists_exists. exists kv. split; [exact I|]. rewrite Forall_forall in V. destruct (V kv I) as (v & H). unfold Text.ansi_param. rewrite (proj2 (ansi_value_spec _ _) H). cbn [bind].
    destruct (String.eqb_spec (fst kv) "id"); [congruence|]. destruct (strip_id (fst kv)); reflexivity.
Qed.
Theorem ansi_unannotated d date c : Forall (fun kv => exists v, value_text (snd kv) v) (c_params c) ->
  (exists kv, In kv (c_params c) /\ fst kv <> "id" /\ dget d (base_key (fst kv)) = None) ->
  dump_ansi show showz names ap (Some d) date c = Err KeyError.
Proof.
  intros V (kv & I & N & D). unfold dump_ansi. rewrite (params_err _ _ KeyError); [reflexivity| |].
  - eapply Forall_impl; [|exact V]. intros [k w] (v & H). cbn [fst snd] in H. unfold Text.ansi_param. cbn [fst snd]. rewrite (proj2 (ansi_value_spec _ _) H). cbn [bind].
    destruct (String.eqb k "id"); [auto|]. unfold annotation. destruct (strip_id k) as [k'|]; [destruct (dget d k')|destruct (dget d k)]; auto.
  - apply Exists_exists. exists kv. split; [exact I|]. rewrite Forall_forall in V. destruct (V kv I) as (v & H). unfold Text.ansi_param. rewrite (proj2 (ansi_value_spec _ _) H). cbn [bind].
    destruct (String.eqb_spec (fst kv) "id"); [congruence|]. unfold annotation, base_key in *. destruct (strip_id (fst kv)); rewrite D; reflexivity.
Qed.
(** The plain format knows no parameters that are objects. *)
Theorem text_objects d date c : Forall (fun kv => exists v, value_text (snd kv) v) (c_params c) ->
  (exists kv, In kv (c_params c) /\ fst kv <> "id" /\ dget d (fst kv) = None) ->
  dump_text show showz ap (Some d) date c = Err KeyError.
Proof.
  intros V (kv & I & N & D).
  assert (W : forall v x, value_text v x -> exists y, text_value show ap v = Ok y).
  { intros v x H. destruct v; cbn in *; eauto. destruct H as (z & -> & _). cbn. eauto. }
  unfold dump_text. rewrite (params_err _ _ KeyError); [reflexivity| |].
  - eapply Forall_impl; [|exact V]. intros [k w] (v & H). cbn [fst snd] in H. unfold Text.text_param. cbn [fst snd]. destruct (W _ _ H) as (y & ->). cbn [bind].
    destruct (String.eqb k "id"); [auto|]. unfold annotation. destruct (dget d k); auto.
  - apply Exists_exists. exists kv. split; [exact I|]. rewrite Forall_forall in V. destruct (V kv I) as (v & H). unfold Text.text_param. destruct (W _ _ H) as (y & ->). cbn [bind].
    destruct (String.eqb_spec (fst kv) "id"); [congruence|]. unfold annotation. now rewrite D.
Qed.
(** Both formats agree on plain parameters. *)
Theorem formats_agree d date c : (forall z, contains esc (showz z) = false) -> contains esc date = false -> contains esc (c_class c) = false -> contains esc (c_method c) = false ->
  Forall (fun kv => contains esc (fst kv) = false /\ strip_id (fst kv) = None /\ contains esc (show (snd kv)) = false /\ (forall f w, snd kv <> VConv f w) /\ (fst kv <> "id" -> exists n, dget d (fst kv) = Some (Named n) /\ contains esc n = false)) (c_params c) ->
  exists s t, dump_ansi show showz names ap (Some d) date c = Ok s /\ dump_text show showz ap (Some d) date c = Ok t /\ plain s = t.
Proof.
  intros Z D C M P.
  assert (X : exists s t, params (ansi_param (Some d)) (c_params c) = Ok s /\ params (text_param show ap (Some d)) (c_params c) = Ok t /\ plain s = t).
  { induction P as [|[k w] l (K & I & S & N & A) H (s & t & E1 & E2 & E3)]; [exists "", ""; auto|]. cbn [fst snd] in *.
    assert (AV : ansi_value w = Ok (show w) /\ text_value show ap w = Ok (show w)) by (destruct w; try (split; reflexivity); exfalso; eapply N; reflexivity).
    destruct AV as [AV TV]. cbn [params]. unfold Text.ansi_param at 1, Text.text_param at 1. cbn [fst snd]. rewrite AV, TV. cbn [bind]. rewrite I.
    destruct (String.eqb_spec k "id") as [E|E].
    - rewrite E1, E2. cbn [bind]. do 2 eexists. split; [reflexivity|]. split; [reflexivity|]. rewrite app_assoc, plain_clean by reflexivity. rewrite app_assoc, plain_clean by exact S.
      rewrite plain_dim by reflexivity. rewrite E3. now rewrite !app_assoc.
    - destruct (A E) as (n & G & Gn). unfold annotation. rewrite G. cbn [bind fst snd ansi_type text_type]. rewrite E1, E2. cbn [bind]. do 2 eexists. split; [reflexivity|]. split; [reflexivity|].
      rewrite app_assoc, plain_clean by reflexivity. rewrite app_assoc, plain_clean by (apply upper_clean; auto). rewrite app_assoc, plain_clean by reflexivity.
      rewrite app_assoc, plain_clean by exact S. rewrite plain_dim by (rewrite !contains_app, Gn; reflexivity). rewrite E3. now rewrite !app_assoc. }
  destruct X as (s & t & E1 & E2 & E3). unfold dump_ansi, dump_text. rewrite E1, E2. cbn [bind]. do 2 eexists. split; [reflexivity|]. split; [reflexivity|].
  assert (M4 : contains esc (method_text c) = false).
  { unfold method_text. destruct (String.eqb (c_method c) ""); [auto|]. destruct (contains "." (c_method c)); [auto|]. now rewrite !contains_app, C, M. }
  specialize (Z (c_id c)). unfold header. rewrite !app_assoc. rewrite plain_dim by (rewrite contains_app, Z; reflexivity). rewrite plain_bold by reflexivity.
  rewrite plain_clean by reflexivity. rewrite plain_clean by exact M4. rewrite plain_clean by reflexivity. rewrite plain_dim by reflexivity.
  rewrite plain_clean by reflexivity. rewrite plain_clean by exact Z. rewrite plain_dim by reflexivity.
  rewrite plain_clean by reflexivity. rewrite plain_clean by exact D. rewrite plain_dim by reflexivity. rewrite plain_dim by reflexivity.
  rewrite E3. now rewrite !app_assoc.
Qed.
(** A queue: one text after the other; an empty one is taken for the active one. *)
Definition texts (l : list (command * string * option (dict string ann))) : list (res string) :=
  map (fun x => dump_ansi show showz names ap (snd x) (snd (fst x)) (fst (fst x))) l.
Theorem ansi_queue l active ts : l <> [] -> texts l = map Ok ts ->
  ansi_dump show showz names ap (Some l) active = Ok (String.concat "" (map (fun t => t ++ eol) ts)).
Proof.
  intros N H. unfold ansi_dump. destruct l as [|x l]; [congruence|]. clear N. remember (x :: l) as l0 eqn:L. clear L. revert ts H.
  induction l0 as [|[[c dt] a] l0 IH]; intros [|t ts] H; try discriminate; [reflexivity|]. cbn in H. injection H as H1 H2. cbn [dump_all]. rewrite H1. cbn [bind]. rewrite (IH ts H2). cbn [bind map].
  destruct ts as [|t' ts].
  - destruct l0; [|discriminate]. cbn. reflexivity.
  - cbn [String.concat map]. cbn [append]. rewrite (app_assoc t eol). reflexivity.
Qed.
Theorem ansi_empty active : ansi_dump show showz names ap (Some []) active = ansi_dump show showz names ap None active.
Proof. reflexivity. Qed.
End Dump.
