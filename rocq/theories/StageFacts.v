(** Proofs about accessors, output variables and colour maps. *)
From Verif Require Import Base Stage StageSpec.
Local Open Scope list_scope.
Local Open Scope nat_scope.

Lemma count_app s t : count (s ++ t) = count s * count t.
Proof. unfold count. induction s as [|x s IH]; cbn [app fold_right]; [lia|]. rewrite IH. lia. Qed.
Lemma count_one c : count [c] = c.
Proof. unfold count. cbn. lia. Qed.
Lemma nth_nth_error (l : list Qc) i : i < length l -> nth_error l i = Some (nth i l 0%Qc).
Proof. revert i. induction l as [|x l IH]; intros [|i] L; cbn in *; try lia; [reflexivity|]. apply IH. lia. Qed.
Lemma pick_ok s c l k : length l = count (s ++ [c]) -> k < c ->
  exists m, pick (s ++ [c]) l k = Ok (VArr s m) /\ length m = count s /\ component_of c k l m.
Proof.
  intros L K. unfold pick. rewrite rev_app_distr. cbn [rev app]. rewrite rev_involutive. rewrite (proj2 (Nat.ltb_lt k c) K).
  eexists. split; [reflexivity|]. rewrite map_length, seq_length. split; [reflexivity|].
  rewrite count_app, count_one in L. split; rewrite map_length, seq_length; [lia|].
  intros i I. rewrite (nth_nth_error l) by nia.
  rewrite nth_error_map. rewrite (nth_error_nth' _ 0) by (now rewrite seq_length). rewrite seq_nth by exact I. reflexivity.
Qed.
Lemma pick_few s c l k : c <= k -> pick (s ++ [c]) l k = Err IndexError.
Proof.
  intros K. unfold pick. rewrite rev_app_distr. cbn [rev app]. destruct (Nat.ltb_spec k c); [lia|reflexivity].
Qed.
Lemma stands_find letter k : stands_for letter k ->
  find letter "xyzw" = Some k \/ (find letter "xyzw" = None /\ find letter "rgba" = Some k).
Proof.
  intros [E|E]; destruct k as [|[|[|[|k]]]]; cbn in E; try (injection E as <-; cbn; auto; fail); destruct k; discriminate.
Qed.
Lemma letter_ok letter k s c l : stands_for letter k -> sound (VArr (s ++ [c]) l) ->
  (k < c -> exists m, component letter (VArr (s ++ [c]) l) = Ok (VArr s m) /\ sound (VArr s m) /\ component_of c k l m) /\
  (c <= k -> component letter (VArr (s ++ [c]) l) = Err IndexError).
Proof.
  intros S L. cbn in L. unfold component. destruct (stands_find letter k S) as [->|(-> & ->)]; (split; [|apply pick_few]); intros K;
    destruct (pick_ok s c l k L K) as (m & A & B & C); exists m; auto.
Qed.
Lemma letter_scalar letter k l : stands_for letter k -> component letter (VArr [] l) = Err IndexError.
Proof. intros S. unfold component. destruct (stands_find letter k S) as [->|(-> & ->)]; reflexivity. Qed.
Lemma letters_agree a b k sh l : stands_for a k -> stands_for b k -> component a (VArr sh l) = component b (VArr sh l).
Proof.
  intros A B. unfold component. destruct (stands_find a k A) as [->|(-> & ->)], (stands_find b k B) as [->|(-> & ->)]; reflexivity.
Qed.
Lemma field_ok sh fs key s l : dget fs key = Some (s, l) -> component key (VRec sh fs) = Ok (VArr (sh ++ s) l).
Proof. intros D. unfold component. now rewrite D. Qed.
Lemma field_sound sh fs key v : sound (VRec sh fs) -> component key (VRec sh fs) = Ok v -> sound v.
Proof.
  unfold component. intros S. destruct (dget fs key) as [[s l]|] eqn:D; [|discriminate]. intros E. injection E as <-. cbn.
  rewrite count_app. cbn in S. rewrite Forall_forall in S.
  apply dget_in in D. apply S in D. exact D.
Qed.
Lemma no_field sh fs key : dget fs key = None -> component key (VRec sh fs) = Err ValueError.
Proof. intros D. unfold component. now rewrite D. Qed.

(** Indexing. *)
Lemma wraps_ok n idx js : Forall2 (fun z j => wrap n z = Some j) idx js -> wraps n idx = Ok js.
Proof. induction 1 as [|z j idx js W _ IH]; cbn; [reflexivity|]. now rewrite W, IH. Qed.
Lemma wraps_inv n idx : forall js, wraps n idx = Ok js -> Forall2 (fun z j => wrap n z = Some j) idx js.
Proof.
  induction idx as [|z idx IH]; intros js E; cbn in E; [injection E as <-; constructor|].
  destruct (wrap n z) as [j|] eqn:W; [|discriminate]. destruct (wraps n idx) as [r|]; [|discriminate]. injection E as <-. constructor; auto.
Qed.
Lemma wrap_nat n i : i < n -> wrap n (Z.of_nat i) = Some i.
Proof. intros L. unfold wrap. destruct (Z.leb_spec 0 (Z.of_nat i)); [|lia]. destruct (Z.ltb_spec (Z.of_nat i) (Z.of_nat n)); [|lia]. now rewrite Nat2Z.id. Qed.
Lemma wrap_neg n i : i < n -> wrap n (- Z.of_nat (S i)) = Some (n - S i).
Proof. intros L. unfold wrap. destruct (Z.leb_spec 0 (- Z.of_nat (S i))); [lia|]. destruct (Z.leb_spec (- Z.of_nat n) (- Z.of_nat (S i))); [|lia]. f_equal. lia. Qed.
Lemma wrap_bound n z j : wrap n z = Some j -> j < n.
Proof.
  unfold wrap. destruct (Z.leb_spec 0 z); [destruct (Z.ltb_spec z (Z.of_nat n))|destruct (Z.leb_spec (- Z.of_nat n) z)]; intros E; try discriminate; injection E as <-; lia.
Qed.
Lemma row_length size i n (l : list Qc) : length l = n * size -> i < n -> length (row size i l) = size.
Proof. intros L I. unfold row. rewrite firstn_length, skipn_length. nia. Qed.
Lemma rows_at_ok size n l js : length l = n * size -> Forall (fun j => j < n) js -> rows_of size js l (rows_at size l js).
Proof.
  intros L B. induction B as [|j js B _ IH]; [split; [reflexivity|intros [|j] i K; discriminate]|].
  destruct IH as (A & C). assert (R := row_length size j n l L B).
  change (rows_at size l (j :: js)) with (row size j l ++ rows_at size l js). split.
  - rewrite app_length, A, R. cbn. lia.
  - intros [|k] i K; cbn in K.
    + injection K as <-. unfold row at 1. cbn [Nat.mul skipn]. rewrite <- R at 1. now rewrite firstn_app, Nat.sub_diag, firstn_O, app_nil_r, firstn_all.
    + rewrite <- (C k i K). unfold row at 1 3. f_equal. rewrite skipn_app, R.
      rewrite skipn_all2 by (rewrite R; lia). cbn [app]. f_equal. lia.
Qed.
Lemma take_ok n sh l idx js : length l = count (n :: sh) -> Forall2 (fun z j => wrap n z = Some j) idx js ->
  exists m, take (VArr (n :: sh) l) idx = Ok (VArr (length idx :: sh) m) /\ rows_of (count sh) js l m.
Proof.
  intros L W. cbn [take]. rewrite (wraps_ok n idx js W). cbn [bind]. eexists. split; [reflexivity|].
  apply (rows_at_ok (count sh) n); [exact L|]. clear L. induction W as [|z j idx js W _ IH]; constructor; eauto using wrap_bound.
Qed.
Lemma take_out n sh l idx : (exists z, In z idx /\ (z < - Z.of_nat n \/ Z.of_nat n <= z)%Z) -> take (VArr (n :: sh) l) idx = Err IndexError.
Proof.
  intros (z & I & O). cbn [take].
  assert (E : wraps n idx = Err IndexError).
  { induction idx as [|y idx IH]; [destruct I|]. cbn. destruct I as [->|I].
    - assert (W : wrap n z = None).
      { unfold wrap. destruct (Z.leb_spec 0 z); [destruct (Z.ltb_spec z (Z.of_nat n))|destruct (Z.leb_spec (- Z.of_nat n) z)]; try reflexivity; lia. }
      now rewrite W.
    - destruct (wrap n y); [|reflexivity]. now rewrite (IH I). }
  now rewrite E.
Qed.
Lemma access_index key v n sh l idx js : component key v = Ok (VArr (n :: sh) l) -> sound (VArr (n :: sh) l) ->
  Forall2 (fun z j => wrap n z = Some j) idx js ->
  exists m, access (Some (Some idx)) key v = Ok (VArr (length idx :: sh) m) /\ rows_of (count sh) js l m.
Proof. intros C S W. unfold access. rewrite C. cbn [bind]. now apply take_ok. Qed.
Lemma access_plain key v : access (Some None) key v = component key v.
Proof. unfold access. destruct (component key v); reflexivity. Qed.

(** Output variables. *)
Lemma split_no_dot s : index_char "." s = None -> split_dots s = [s].
Proof.
  induction s as [|c s IH]; intros E; [reflexivity|]. cbn [index_char] in E; cbn [split_dots String.append]. rewrite Ascii.eqb_sym in E.
  destruct (Ascii.eqb c "."); [discriminate|]. destruct (index_char "." s); [discriminate|]. now rewrite (IH eq_refl).
Qed.
Lemma split_dots_not_nil s : split_dots s <> [].
Proof. destruct s as [|c s]; cbn [split_dots]; [discriminate|]. destruct (Ascii.eqb c "."); [discriminate|]. destruct (split_dots s); discriminate. Qed.
Lemma split_dot a b : index_char "." a = None -> split_dots (a ++ "." ++ b) = a :: split_dots b.
Proof.
  induction a as [|c a IH]; intros E; [reflexivity|]. cbn [index_char] in E; cbn [split_dots String.append]. rewrite Ascii.eqb_sym in E.
  destruct (Ascii.eqb c "."); [discriminate|]. destruct (index_char "." a); [discriminate|]. cbn in IH. now rewrite (IH eq_refl).
Qed.
Lemma index_char_get c t : forall k, index_char c t = Some k -> String.get k t = Some c.
Proof.
  induction t as [|d t IH]; intros k E; cbn in E; [discriminate|]. destruct (Ascii.eqb_spec c d) as [->|N].
  - injection E as <-. reflexivity.
  - destruct (index_char c t) as [i|]; [|discriminate]. injection E as <-. cbn. now apply IH.
Qed.
Lemma get_index alphabet c k : alphabet = "xyzw"%string \/ alphabet = "rgba"%string -> String.get k alphabet = Some c -> index_char c alphabet = Some k.
Proof.
  intros [->| ->] G; destruct k as [|[|[|[|k]]]]; cbn in G; try (injection G as <-; reflexivity); destruct k; discriminate.
Qed.
Lemma letters_ok alphabet key : alphabet = "xyzw"%string \/ alphabet = "rgba"%string -> forall ks, spells alphabet key ks <-> letters alphabet key = Some ks.
Proof.
  intros A. unfold spells. induction key as [|c key IH]; intros ks; cbn.
  - split; [intros F; inversion F; reflexivity|intros E; injection E as <-; constructor].
  - split.
    + intros F. inversion F as [|? k ? ks' G F']; subst. rewrite (get_index _ _ _ A G). apply IH in F'. now rewrite F'.
    + destruct (index_char c alphabet) as [k|] eqn:I; [|discriminate]. destruct (letters alphabet key) as [r|] eqn:L; [|discriminate].
      intros E. injection E as <-. constructor; [now apply index_char_get|now apply IH].
Qed.
Lemma letters_apart c k key : String.get k "rgba" = Some c -> letters "xyzw" (String c key) = None.
Proof. intros G. destruct k as [|[|[|[|k]]]]; cbn in G; try (injection G as <-; reflexivity). destruct k; discriminate. Qed.
Lemma out_plain vars name : index_char "." name = None ->
  out vars name = match dget vars name with Some (sh, l) => Ok (VArr sh l) | None => Err ValueError end.
Proof. intros E. unfold out. rewrite (split_no_dot _ E). cbn. destruct (dget vars name) as [[sh l]|]; reflexivity. Qed.
Lemma out_parts vars base key : index_char "." base = None -> index_char "." key = None ->
  out vars (base ++ "." ++ key) =
  match dget vars base with
  | None => Err ValueError
  | Some (sh, l) => match (match letters "xyzw" key with Some l => Some l | None => letters "rgba" key end) with
                    | None => Err UnboundLocalError
                    | Some ks => pick_all sh l ks
                    end
  end.
Proof. intros A B. unfold out. rewrite (split_dot _ _ A), (split_no_dot _ B). cbn. destruct (dget vars base) as [[sh l]|]; reflexivity. Qed.
Lemma flat_map_nth {A} (f : nat -> list A) w : (forall i, length (f i) = w) -> forall n s i j, i < n -> j < w ->
  nth_error (flat_map f (seq s n)) (i * w + j) = nth_error (f (s + i)) j.
Proof.
  intros W. induction n as [|n IH]; intros s i j I J; [lia|]. cbn. destruct i as [|i].
  - rewrite nth_error_app1 by (rewrite W; lia). now rewrite Nat.add_0_r.
  - rewrite nth_error_app2 by (rewrite W; lia). rewrite W. replace (S i * w + j - w) with (i * w + j) by lia.
    rewrite IH by lia. f_equal. f_equal. lia.
Qed.
Lemma flat_map_len {A} (f : nat -> list A) w : (forall i, length (f i) = w) -> forall n s, length (flat_map f (seq s n)) = n * w.
Proof. intros W. induction n as [|n IH]; intros s; cbn; [reflexivity|]. rewrite app_length, W, IH. reflexivity. Qed.
Lemma pick_all_ok s c l ks : length l = count (s ++ [c]) -> Forall (fun k => k < c) ks ->
  exists m, pick_all (s ++ [c]) l ks = Ok (VArr (s ++ [length ks]) m) /\ length m = count (s ++ [length ks]) /\ components_of c ks l m.
Proof.
  intros L K. unfold pick_all. rewrite rev_app_distr. cbn [rev app]. rewrite rev_involutive.
  assert (B : forallb (fun k => k <? c) ks = true). { apply forallb_forall. rewrite Forall_forall in K. intros k I. now apply Nat.ltb_lt, K. }
  rewrite B. rewrite count_app, count_one in L.
  set (f := fun i => map (fun k => nth (i * c + k) l 0%Qc) ks). assert (W : forall i, length (f i) = length ks) by (intros i; apply map_length).
  eexists. split; [reflexivity|]. rewrite (flat_map_len f _ W). split; [now rewrite count_app, count_one|].
  exists (count s). split; [lia|]. rewrite (flat_map_len f _ W). split; [reflexivity|]. intros i j k I E.
  assert (J : j < length ks) by (apply nth_error_Some; congruence).
  rewrite (flat_map_nth f _ W) by assumption. unfold f. cbn [Nat.add]. rewrite nth_error_map, E. cbn.
  rewrite Forall_forall in K. assert (k < c) by (apply K; eapply nth_error_In; exact E).
  symmetry. apply nth_nth_error. nia.
Qed.
Lemma pick_all_few s c l ks : ~ Forall (fun k => k < c) ks -> pick_all (s ++ [c]) l ks = Err IndexError.
Proof.
  intros K. unfold pick_all. rewrite rev_app_distr. cbn [rev app].
  destruct (forallb (fun k => k <? c) ks) eqn:B; [|reflexivity]. exfalso. apply K. rewrite forallb_forall in B. apply Forall_forall.
  intros k I. now apply Nat.ltb_lt, B.
Qed.
Lemma no_dot alphabet key ks : alphabet = "xyzw"%string \/ alphabet = "rgba"%string -> spells alphabet key ks -> index_char "." key = None.
Proof.
  intros A. unfold spells. revert ks. induction key as [|c key IH]; intros ks F; [reflexivity|]. inversion F as [|? k ? ks' G F']; subst. cbn [index_char].
  destruct (Ascii.eqb_spec "." c) as [<-|N].
  - destruct A as [->| ->]; destruct k as [|[|[|[|k]]]]; cbn in G; try discriminate; destruct k; discriminate.
  - now rewrite (IH _ F').
Qed.
Lemma chosen alphabet key ks : alphabet = "xyzw"%string \/ alphabet = "rgba"%string -> spells alphabet key ks ->
  (match letters "xyzw" key with Some l => Some l | None => letters "rgba" key end) = Some ks.
Proof.
  intros A P. assert (Q := proj1 (letters_ok alphabet key A ks) P). destruct A as [->| ->].
  - now rewrite Q.
  - destruct key as [|c key]; [cbn in *; congruence|].
    inversion P as [|? k ? ks' G F]; subst. now rewrite (letters_apart c k key G).
Qed.
Lemma out_letters alphabet vars base key ks s c l : alphabet = "xyzw"%string \/ alphabet = "rgba"%string ->
  index_char "." base = None -> spells alphabet key ks ->
  dget vars base = Some (s ++ [c], l) -> length l = count (s ++ [c]) ->
  (Forall (fun k => k < c) ks -> exists m, out vars (base ++ "." ++ key) = Ok (VArr (s ++ [length ks]) m) /\
     sound (VArr (s ++ [length ks]) m) /\ components_of c ks l m) /\
  (~ Forall (fun k => k < c) ks -> out vars (base ++ "." ++ key) = Err IndexError).
Proof.
  intros A B P D L. rewrite out_parts by (eauto using no_dot). rewrite D, (chosen _ _ _ A P).
  split; [now apply pick_all_ok|apply pick_all_few].
Qed.
Lemma out_unknown_letters vars base key sh l : index_char "." base = None -> index_char "." key = None -> dget vars base = Some (sh, l) ->
  (forall alphabet ks, alphabet = "xyzw"%string \/ alphabet = "rgba"%string -> ~ spells alphabet key ks) ->
  out vars (base ++ "." ++ key) = Err UnboundLocalError.
Proof.
  intros A B D N. rewrite out_parts by assumption. rewrite D.
  destruct (letters "xyzw" key) as [ks|] eqn:X; [exfalso; eapply (N "xyzw"%string ks); [auto|]; apply letters_ok; auto|].
  destruct (letters "rgba" key) as [ks|] eqn:Y; [exfalso; eapply (N "rgba"%string ks); [auto|]; apply letters_ok; auto|]. reflexivity.
Qed.
Lemma out_missing vars base rest : index_char "." base = None -> dget vars base = None ->
  out vars base = Err ValueError /\ out vars (base ++ "." ++ rest) = Err ValueError.
Proof.
  intros A D. split.
  - now rewrite out_plain, D.
  - unfold out. rewrite (split_dot _ _ A). pose proof (split_dots_not_nil rest). destruct (split_dots rest); [congruence|]. cbn. now rewrite D.
Qed.
(** The part of the name between the first and last dots does not matter. *)
Lemma out_middle vars base mid key : index_char "." base = None -> index_char "." key = None ->
  out vars (base ++ "." ++ mid ++ "." ++ key) = out vars (base ++ "." ++ key).
Proof.
  intros A B. unfold out. rewrite !(split_dot _ _ A), (split_no_dot _ B).
  assert (L : last (base :: split_dots (mid ++ "." ++ key)) ""%string = key /\ 1 < length (base :: split_dots (mid ++ "." ++ key))).
  { assert (S : forall m, exists p, split_dots (m ++ "." ++ key) = p ++ [key]).
    { induction m as [|c m IH]; cbn.
      - rewrite (split_no_dot _ B). now exists [""%string].
      - destruct IH as (p & E). cbn in E. rewrite E. destruct (Ascii.eqb c "."); [now exists (""%string :: p)|].
        destruct p as [|x p]; cbn; [|now exists (String c x :: p)].
        exfalso. apply (f_equal (@length string)) in E. clear - E B. revert E. induction m as [|d m IH]; cbn.
        + rewrite (split_no_dot _ B). discriminate.
        + destruct (Ascii.eqb d "."); cbn.
          * intros E. injection E as E. destruct (split_dots (m ++ String "." key)) eqn:Q; [now apply split_dots_not_nil in Q|discriminate].
          * destruct (split_dots (m ++ String "." key)) eqn:Q; [now apply split_dots_not_nil in Q|]. exact IH. }
    destruct (S mid) as (p & E). rewrite E. split.
    - change (base :: p ++ [key]) with ((base :: p) ++ [key]). apply last_last.
    - cbn. rewrite app_length. cbn. lia. }
  destruct L as (L1 & L2). rewrite L1. rewrite (proj2 (Nat.ltb_lt _ _) L2). reflexivity.
Qed.

(** Colour maps. *)
Section Colors.
  Context {color : Type} (get_cmap : option string -> res (Qc -> color)).
  Lemma qle_ok a b : qle a b = true <-> (a <= b)%Qc.
  Proof. apply Qle_bool_iff. Qed.
  Lemma qle_total a b : qle a b = false -> (b <= a)%Qc.
  Proof. intros E. destruct (Qclt_le_dec b a) as [L|L]; [now apply Qclt_le_weak|]. apply qle_ok in L. congruence. Qed.
  Lemma least_fold l : forall x, let y := fold_left (fun a b => if qle a b then a else b) l x in
    (y <= x)%Qc /\ (forall z, In z l -> (y <= z)%Qc) /\ (y = x \/ In y l).
  Proof.
    induction l as [|b l IH]; intros x; cbn; [split; [apply Qcle_refl|split; [tauto|auto]]|].
    destruct (IH (if qle x b then x else b)) as (A & B & C). cbv zeta in *. set (y := fold_left _ l _) in *.
    destruct (qle x b) eqn:Q.
    - apply qle_ok in Q. split; [exact A|]. split; [intros z [<-|I]; [eapply Qcle_trans; eauto|auto]|]. destruct C; auto.
    - apply qle_total in Q. split; [eapply Qcle_trans; eauto|]. split; [intros z [<-|I]; auto|]. destruct C as [C|C]; auto. 
  Qed.
  Lemma greatest_fold l : forall x, let y := fold_left (fun a b => if qle a b then b else a) l x in
    (x <= y)%Qc /\ (forall z, In z l -> (z <= y)%Qc) /\ (y = x \/ In y l).
  Proof.
    induction l as [|b l IH]; intros x; cbn; [split; [apply Qcle_refl|split; [tauto|auto]]|].
    destruct (IH (if qle x b then b else x)) as (A & B & C). cbv zeta in *. set (y := fold_left _ l _) in *.
    destruct (qle x b) eqn:Q.
    - apply qle_ok in Q. split; [eapply Qcle_trans; eauto|]. split; [intros z [<-|I]; auto|]. destruct C as [C|C]; auto.
    - apply qle_total in Q. split; [exact A|]. split; [intros z [<-|I]; [eapply Qcle_trans; eauto|auto]|]. destruct C; auto.
  Qed.
  Lemma least_ok l y : least l = Ok y -> In y l /\ forall z, In z l -> (y <= z)%Qc.
  Proof.
    destruct l as [|x l]; [discriminate|]. cbn. intros E. injection E as <-. destruct (least_fold l x) as (A & B & C). cbv zeta in *.
    split; [destruct C; auto|]. intros z [<-|I]; auto.
  Qed.
  Lemma greatest_ok l y : greatest l = Ok y -> In y l /\ forall z, In z l -> (z <= y)%Qc.
  Proof.
    destruct l as [|x l]; [discriminate|]. cbn. intros E. injection E as <-. destruct (greatest_fold l x) as (A & B & C). cbv zeta in *.
    split; [destruct C; auto|]. intros z [<-|I]; auto.
  Qed.
  Lemma eq_bool_neq x : x <> 0%Qc -> Qc_eq_bool x 0 = false.
  Proof. intros N. unfold Qc_eq_bool. destruct (Qc_eq_dec x 0); [contradiction|reflexivity]. Qed.
  Lemma norm_between lo hi v : (lo < hi)%Qc -> normalize lo hi v = ((v - lo) / (hi - lo))%Qc.
  Proof. intros L. unfold normalize, Qc_eq_bool. destruct (Qc_eq_dec lo hi) as [->|_]; [|reflexivity]. now apply Qclt_not_eq in L. Qed.
  (** Given bounds that are not 0. *)
  Lemma bounds_ok c f lo hi l : get_cmap (k_name c) = Ok f -> k_vmin c = Some lo -> k_vmax c = Some hi ->
    lo <> 0%Qc -> hi <> 0%Qc -> (lo < hi)%Qc ->
    colors get_cmap c l = Ok (map (fun v => f ((v - lo) / (hi - lo))%Qc) l).
  Proof.
    intros G A B NA NB L. unfold colors. rewrite G, A, B. cbn [or_else bind]. rewrite (eq_bool_neq lo NA), (eq_bool_neq hi NB). cbn [bind].
    rewrite (proj2 (qle_ok lo hi) (Qclt_le_weak _ _ L)). f_equal. apply map_ext. intros v. now rewrite norm_between.
  Qed.
  (** No bounds, or zero ones: those of the values. *)
  Lemma dynamic_ok c f l : get_cmap (k_name c) = Ok f ->
    k_vmin c = None \/ k_vmin c = Some 0%Qc -> k_vmax c = None \/ k_vmax c = Some 0%Qc ->
    match l with
    | [] => colors get_cmap c l = Err ValueError
    | _ => exists lo hi, In lo l /\ In hi l /\ (forall v, In v l -> (lo <= v /\ v <= hi)%Qc) /\
             colors get_cmap c l = Ok (map (fun v => f (if Qc_eq_bool lo hi then 0%Qc else ((v - lo) / (hi - lo))%Qc)) l)
    end.
  Proof.
    intros G A B. assert (EA : or_else (k_vmin c) (least l) = least l) by (destruct A as [->| ->]; reflexivity).
    assert (EB : or_else (k_vmax c) (greatest l) = greatest l) by (destruct B as [->| ->]; reflexivity).
    unfold colors. rewrite G, EA, EB. cbn [bind]. clear A B EA EB. destruct l as [|x l]; [reflexivity|].
    destruct (least (x :: l)) as [lo|] eqn:L; [|discriminate]. destruct (greatest (x :: l)) as [hi|] eqn:H; [|discriminate]. cbn [bind].
    destruct (least_ok _ _ L) as (L1 & L2), (greatest_ok _ _ H) as (H1 & H2). exists lo, hi. do 2 (split; [assumption|]). split; [auto|].
    rewrite (proj2 (qle_ok lo hi) (L2 hi H1)). reflexivity.
  Qed.
  (** One bound given. *)
  Lemma crossed c f lo hi l : get_cmap (k_name c) = Ok f -> k_vmin c = Some lo -> k_vmax c = Some hi ->
    lo <> 0%Qc -> hi <> 0%Qc -> (hi < lo)%Qc -> colors get_cmap c l = Err ValueError.
  Proof.
    intros G A B NA NB L. unfold colors. rewrite G, A, B. cbn [or_else bind]. rewrite (eq_bool_neq lo NA), (eq_bool_neq hi NB). cbn [bind].
    destruct (qle lo hi) eqn:Q; [|reflexivity]. apply qle_ok in Q. now apply Qcle_not_lt in Q.
  Qed.
  Lemma least_unique l x y : least l = Ok x -> least_of l y -> y = x.
  Proof. intros L (I & B). destruct (least_ok _ _ L) as (I' & B'). apply Qcle_antisym; auto. Qed.
  Lemma greatest_unique l x y : greatest l = Ok x -> greatest_of l y -> y = x.
  Proof. intros L (I & B). destruct (greatest_ok _ _ L) as (I' & B'). apply Qcle_antisym; auto. Qed.
  Lemma or_else_low given l x : bound given (least_of l) x -> or_else given (least l) = Ok x.
  Proof.
    assert (D : least_of l x -> least l = Ok x).
    { intros L. destruct (least l) as [y|e] eqn:E; [f_equal; symmetry; eapply least_unique; eauto|].
      destruct L as (I & _). destruct l; [destruct I|discriminate]. }
    destruct given as [g|]; cbn; [|exact D]. intros [(N & ->)|(-> & L)]; [now rewrite (eq_bool_neq g N)|]. now apply D.
  Qed.
  Lemma or_else_high given l x : bound given (greatest_of l) x -> or_else given (greatest l) = Ok x.
  Proof.
    assert (D : greatest_of l x -> greatest l = Ok x).
    { intros L. destruct (greatest l) as [y|e] eqn:E; [f_equal; symmetry; eapply greatest_unique; eauto|].
      destruct L as (I & _). destruct l; [destruct I|discriminate]. }
    destruct given as [g|]; cbn; [|exact D]. intros [(N & ->)|(-> & L)]; [now rewrite (eq_bool_neq g N)|]. now apply D.
  Qed.
  Lemma normalize_place lo hi v : place lo hi v (normalize lo hi v).
  Proof.
    unfold normalize, Qc_eq_bool. split; intros E; destruct (Qc_eq_dec lo hi) as [D|D]; try congruence; [].
    field. intros Z. apply E. symmetry. rewrite <- (Qcplus_0_l lo), <- Z. ring.
  Qed.
  Lemma colors_ok c f l lo hi : get_cmap (k_name c) = Ok f ->
    bound (k_vmin c) (least_of l) lo -> bound (k_vmax c) (greatest_of l) hi ->
    ((lo <= hi)%Qc -> exists xs, colors get_cmap c l = Ok (map f xs) /\ Forall2 (place lo hi) l xs) /\
    ((hi < lo)%Qc -> colors get_cmap c l = Err ValueError).
  Proof.
    intros G A B. unfold colors. rewrite G, (or_else_low _ _ _ A), (or_else_high _ _ _ B). cbn [bind]. split; intros L.
    - rewrite (proj2 (qle_ok lo hi) L). exists (map (normalize lo hi) l). rewrite map_map. split; [reflexivity|].
      clear. induction l as [|v l IH]; constructor; [apply normalize_place|exact IH].
    - destruct (qle lo hi) eqn:Q; [|reflexivity]. apply qle_ok in Q. now apply Qcle_not_lt in Q.
  Qed.
  Lemma colors_none c f : get_cmap (k_name c) = Ok f ->
    colors get_cmap c [] = match k_vmin c, k_vmax c with
                           | Some a, Some b => if (Qc_eq_bool a 0 || Qc_eq_bool b 0)%bool then Err ValueError else
                                               if qle a b then Ok [] else Err ValueError
                           | _, _ => Err ValueError
                           end.
  Proof.
    intros G. unfold colors. rewrite G. cbn [bind]. destruct (k_vmin c) as [a|], (k_vmax c) as [b|]; cbn; try reflexivity;
      try (destruct (Qc_eq_bool a 0); reflexivity). destruct (Qc_eq_bool a 0); cbn; [reflexivity|]. destruct (Qc_eq_bool b 0); reflexivity.
  Qed.
  Lemma unknown_map c e l : get_cmap (k_name c) = Err e -> colors get_cmap c l = Err e.
  Proof. intros G. unfold colors. now rewrite G. Qed.
  Lemma rename_lost c name l : colors get_cmap (set_colormap c name) l = colors get_cmap c l.
  Proof. reflexivity. Qed.
  Lemma place_mono lo hi a b x y : (lo <= hi)%Qc -> place lo hi a x -> place lo hi b y -> (a <= b)%Qc -> (x <= y)%Qc.
  Proof.
    intros L (A1 & A2) (B1 & B2) O. destruct (Qc_eq_dec lo hi) as [E|E]; [rewrite (A1 E), (B1 E); apply Qcle_refl|].
    specialize (A2 E). specialize (B2 E).
    assert (P : (0 < hi - lo)%Qc). { apply (proj1 (Qclt_minus_iff lo hi)). destruct (Qcle_lt_or_eq _ _ L) as [|]; [assumption|contradiction]. }
    apply (Qcmult_lt_0_le_reg_r _ _ (hi - lo)%Qc); [exact P|]. rewrite A2, B2. unfold Qcminus. apply Qcplus_le_compat; [exact O|apply Qcle_refl].
  Qed.
  Lemma place_ends lo hi x y : lo <> hi -> place lo hi lo x -> place lo hi hi y -> x = 0%Qc /\ y = 1%Qc.
  Proof.
    intros E (_ & A) (_ & B). specialize (A E). specialize (B E).
    assert (N : (hi - lo)%Qc <> 0%Qc). { intros Z. apply E. symmetry. rewrite <- (Qcplus_0_l lo), <- Z. ring. }
    split.
    - destruct (Qcmult_integral x (hi - lo)%Qc) as [Z|Z]; [rewrite A; ring|exact Z|contradiction].
    - destruct (Qcmult_integral (y - 1)%Qc (hi - lo)%Qc) as [Z|Z]; [replace ((y - 1) * (hi - lo))%Qc with (y * (hi - lo) - (hi - lo))%Qc by ring; rewrite B; ring| |contradiction].
      rewrite <- (Qcplus_0_l 1), <- Z. ring.
  Qed.
End Colors.

Lemma same_numbers (l : list Qc) : forall m, map this l = map this m -> l = m.
Proof.
  induction l as [|x l IH]; intros [|y m] E; cbn in E; try discriminate; [reflexivity|]. injection E as X T. f_equal; [|now apply IH].
  apply Qc_is_canon. now rewrite X.
Qed.
