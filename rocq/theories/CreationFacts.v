(** Proofs about the creation of visuals. *)
From Coq Require Import Lia.
From Verif Require Import Base Registry Convert Command Execute Protocol Buffer Creation CreationSpec.
From Verif Require Visual.
Open Scope string_scope.

Lemma dget_mem {V} (d : dict string V) n : In n (dkeys d) <-> dget d n <> None.
Proof. rewrite dget_none. destruct (in_dec string_dec n (dkeys d)); tauto. Qed.

(** Binding required parameters. *)
Definition fits (ps : list string) (args : list value) (kw : dict string value) : Prop :=
  (List.length args <= List.length ps)%nat /\
  (forall n, In n (firstn (List.length args) ps) -> dget kw n = None) /\ (forall n, In n (skipn (List.length args) ps) -> dget kw n <> None).
Lemma bind_req ps : NoDup ps -> forall args kw,
  match bind_params (map req ps) args kw with
  | Ok b => dkeys b = ps /\ fits ps args kw /\ forall n, In n ps -> dget b n = argument ps args kw n
  | Err e => e = TypeError /\ ~ fits ps args kw
  end.
Proof.
  induction 1 as [|p ps N ND IH]; intros args kw; cbn [map bind_params req p_name p_default].
  - destruct args as [|a args]; cbn; [repeat split; cbn; tauto || lia|].
    split; [reflexivity|]. intros (L & _). cbn in L. lia.
  - destruct args as [|a args].
    + destruct (dget kw p) as [v|] eqn:D.
      * specialize (IH [] kw). destruct (bind_params (map req ps) [] kw) as [b|e]; cbn [bind].
        -- destruct IH as (K & (L & F & S) & G). cbn [dkeys map fst]. split; [f_equal; exact K|]. split.
           ++ split; [cbn; lia|]. split; [cbn; tauto|]. cbn. intros n [<-|I]; [congruence|]. apply S. exact I.
           ++ intros n I. cbn [dget argument]. destruct (Base.eqb n p) eqn:E.
              ** apply eqb_eq in E. subst. now rewrite String.eqb_refl.
              ** destruct (String.eqb n p) eqn:E'; [apply String.eqb_eq in E'; subst; rewrite eqb_refl in E; discriminate|].
                 apply G. destruct I as [<-|I]; [rewrite eqb_refl in E; discriminate|exact I].
        -- destruct IH as (-> & Nf). split; [reflexivity|]. intros (L & F & S). apply Nf.
           split; [cbn; lia|]. split; [cbn; tauto|]. intros n I. apply S. cbn in *. now right.
      * split; [reflexivity|]. intros (_ & _ & S). apply (S p); [now left|exact D].
    + unfold dmem. destruct (dget kw p) as [v|] eqn:D.
      * split; [reflexivity|]. intros (_ & F & _). specialize (F p (or_introl eq_refl)). congruence.
      * specialize (IH args kw). destruct (bind_params (map req ps) args kw) as [b|e]; cbn [bind].
        -- destruct IH as (K & (L & F & S) & G). cbn [dkeys map fst]. split; [f_equal; exact K|]. split.
           ++ split; [cbn; lia|]. split; [cbn; intros n [<-|I]; [exact D|now apply F]|exact S].
           ++ intros n I. cbn [dget argument]. destruct (Base.eqb n p) eqn:E.
              ** apply eqb_eq in E. subst. now rewrite String.eqb_refl.
              ** destruct (String.eqb n p) eqn:E'; [apply String.eqb_eq in E'; subst; rewrite eqb_refl in E; discriminate|].
                 apply G. destruct I as [<-|I]; [rewrite eqb_refl in E; discriminate|exact I].
        -- destruct IH as (-> & Nf). split; [reflexivity|]. intros (L & F & S). apply Nf.
           split; [cbn in L; lia|]. split; [intros n I; apply F; now right|exact S].
Qed.
Lemma names_req ps : p_names (takes (map req ps)) = ps.
Proof. unfold p_names, takes. cbn. rewrite map_map. cbn. apply map_id. Qed.
Lemma proper_fits ps args kw : NoDup ps ->
  proper ps args kw <-> fits ps args kw /\ forall n, In n (dkeys kw) -> In n ps.
Proof.
  intros ND. assert (X : NoDup (firstn (List.length args) ps ++ skipn (List.length args) ps)) by (now rewrite firstn_skipn).
  assert (Sep : forall n, In n (firstn (List.length args) ps) -> In n (skipn (List.length args) ps) -> False).
  { intros n A B. apply in_split in A. destruct A as (l1 & l2 & E). rewrite E in X. rewrite <- app_assoc in X. apply NoDup_remove_2 in X.
    apply X. apply in_or_app. right. apply in_or_app. now right. }
  assert (All : forall n, In n ps <-> In n (firstn (List.length args) ps) \/ In n (skipn (List.length args) ps)).
  { intros n. rewrite <- (firstn_skipn (List.length args) ps) at 1. apply in_app_iff. }
  split.
  - intros (L & K). split; [split; [exact L|]; split|].
    + intros n I. destruct (dget kw n) eqn:D; [|reflexivity]. exfalso. apply (Sep n I), K, dget_mem. congruence.
    + intros n I. apply dget_mem, K, I.
    + intros n I. apply All. right. now apply K.
  - intros ((L & F & S) & K). split; [exact L|]. intros n. split; intros I.
    + destruct (proj1 (All n) (K n I)) as [A|A]; [|exact A]. exfalso. apply dget_mem in I. apply I, F, A.
    + apply dget_mem, S, I.
Qed.
Lemma bind_visual ps args kw : NoDup ps ->
  match bind_args (takes (map req ps)) args kw with
  | Ok b => proper ps args kw /\ dkeys b = ps /\ forall n, In n ps -> dget b n = argument ps args kw n
  | Err e => e = TypeError /\ ~ proper ps args kw
  end.
Proof.
  intros ND. unfold bind_args. rewrite names_req. cbn [s_params takes].
  destruct (forallb (fun k => existsb (String.eqb k) ps) (dkeys kw)) eqn:A.
  - assert (K : forall n, In n (dkeys kw) -> In n ps).
    { intros n I. rewrite forallb_forall in A. specialize (A n I). apply existsb_exists in A. destruct A as (x & J & E).
      apply String.eqb_eq in E. now subst. }
    pose proof (bind_req ps ND args kw) as B. destruct (bind_params (map req ps) args kw).
    + destruct B as (B1 & B2 & B3). split; [apply proper_fits; auto|auto].
    + destruct B as (B1 & B2). split; [exact B1|]. intros P. apply proper_fits in P; tauto.
  - split; [reflexivity|]. intros P. apply proper_fits in P; [|exact ND]. destruct P as (_ & K).
    assert (T : forallb (fun k => existsb (String.eqb k) ps) (dkeys kw) = true); [|congruence].
    apply forallb_forall. intros n I. apply existsb_exists. exists n. split; [now apply K|apply String.eqb_refl].
Qed.

(** The tables. *)
Lemma documented_nodup k : NoDup (documented k).
Proof. destruct k; cbn; repeat first [apply NoDup_nil | apply NoDup_cons; [cbn; intuition discriminate|]]. Qed.
Lemma found k : exists c, find protocol (path k) = Some c /\ k_sig c = takes (map req (documented k)).
Proof. destruct k; eexists; split; reflexivity. Qed.
Lemma found_mpl k : exists c, find matplotlib (path k) = Some c /\ k_sig c = takes (map req (documented k)).
Proof. destruct k; eexists; split; reflexivity. Qed.
Lemma forwards_all k : forwards k = documented k.
Proof. destruct k; reflexivity. Qed.
Lemma in_table_names k : map fst (in_table k) = documented k /\ map snd (in_table k) = documented k.
Proof. destruct k; split; reflexivity. Qed.

Lemma table_spec b l : map fst l = map snd l -> (forall n, In n (map fst l) -> dget b n <> None) ->
  exists t, table b l = Ok t /\ dkeys t = (map fst l ++ ["viewport"])%list /\ (forall n, In n (map fst l) -> dget t n = dget b n) /\
            (~ In "viewport" (map fst l) -> dget t "viewport" = Some VNone).
Proof.
  induction l as [|[n x] l IH]; cbn [map fst snd]; intros E H.
  - exists [("viewport", VNone)]. repeat split; cbn; tauto.
  - injection E as <- E. destruct IH as (t & T & K & G & V); [exact E|intros m I; apply H; now right|].
    cbn [table]. unfold var. destruct (dget b n) as [v|] eqn:D; [|exfalso; apply (H n); [now left|exact D]]. cbn [bind].
    rewrite T. cbn [bind]. exists ((n, v) :: t). split; [reflexivity|]. split; [cbn [dkeys map fst app]; f_equal; exact K|]. split.
    + intros m I. cbn [dget]. destruct (Base.eqb m n) eqn:Em; [apply eqb_eq in Em; now subst|].
      apply G. destruct I as [<-|I]; [rewrite eqb_refl in Em; discriminate|exact I].
    + intros Nv. cbn [dget]. destruct (Base.eqb "viewport" n) eqn:Em; [apply eqb_eq in Em; subst; cbn in Nv; tauto|].
      apply V. intros I. apply Nv. now right.
Qed.
Lemma vars_spec b : NoDup (dkeys b) -> vars b (dkeys b) = Ok (map snd b).
Proof.
  assert (X : forall b' l, (forall n v, In (n, v) l -> dget b' n = Some v) -> vars b' (dkeys l) = Ok (map snd l)).
  { intros b' l. induction l as [|[n v] l IH]; intros H; [reflexivity|]. cbn [dkeys map fst vars]. unfold var. rewrite (H n v (or_introl eq_refl)).
    cbn [bind]. change (map fst l) with (dkeys l). rewrite IH by (intros m u I; apply H; now right). reflexivity. }
  intros ND. apply X. clear X. induction b as [|[n v] b IH]; [cbn; tauto|]. intros m u [I|I]; cbn [dget].
  - injection I as <- <-. now rewrite eqb_refl.
  - inversion ND; subst. destruct (Base.eqb m n) eqn:E.
    + apply eqb_eq in E. subst. exfalso. apply H1. change n with (fst (n, u)). now apply in_map.
    + now apply IH.
Qed.
Lemma bind_places b : bind_params (map req (dkeys b)) (map snd b) [] = Ok b.
Proof. induction b as [|[n v] b IH]; [reflexivity|]. cbn [dkeys map fst snd bind_params req p_name]. cbn [dmem dget]. unfold dmem; cbn [dget].
  change (map fst b) with (dkeys b). rewrite IH. reflexivity. Qed.

(** Calling either class. *)
Lemma create_bound w k args kw : create w k args kw = let* b := bind_args (takes (map req (documented k))) args kw in init w k b.
Proof. unfold create. destruct (found k) as (c & -> & ->). reflexivity. Qed.
Lemma create_mpl_same w k args kw : create_mpl w k args kw = create w k args kw.
Proof.
  unfold create_mpl. destruct (found_mpl k) as (c & -> & ->). rewrite (create_bound w k args kw).
  pose proof (bind_visual (documented k) args kw (documented_nodup k)) as B.
  destruct (bind_args (takes (map req (documented k))) args kw) as [b|e]; [|reflexivity]. cbn [bind]. destruct B as (_ & K & _).
  rewrite forwards_all, <- K, vars_spec by (rewrite K; apply documented_nodup). cbn [bind]. rewrite create_bound.
  unfold bind_args. cbn [dkeys map forallb s_params takes]. rewrite <- K. rewrite bind_places. reflexivity.
Qed.
Lemma improper w k args kw : ~ proper (documented k) args kw -> create w k args kw = Err TypeError /\ create_mpl w k args kw = Err TypeError.
Proof.
  intros N. assert (C : create w k args kw = Err TypeError).
  { rewrite create_bound. pose proof (bind_visual (documented k) args kw (documented_nodup k)) as B.
    destruct (bind_args (takes (map req (documented k))) args kw) as [b|e]; [tauto|]. cbn [bind]. destruct B as (-> & _). reflexivity. }
  rewrite create_mpl_same. now split.
Qed.
(** What the body does, once the arguments are bound. *)
Definition located (w : world) (k : Visual.vkind) (p : value) : res nat :=
  let* p := match k with
            | Visual.Segments | Visual.Paths | Visual.Polygons => evaluated w p
            | Visual.Points | Visual.Markers | Visual.Pixels => Ok p
            end in len w p.
Definition divided (w : world) (k : Visual.vkind) (n : nat) (i : option value) : res Z :=
  match k with
  | Visual.Paths | Visual.Polygons => match i with Some i => groups w n i | None => Err NameError end
  | _ => Ok 0%Z
  end.
Lemma create_proper w k args kw : proper (documented k) args kw ->
  exists t p, dkeys t = (documented k ++ ["viewport"])%list /\ (forall n, In n (documented k) -> dget t n = argument (documented k) args kw n) /\
  (forall n, In n (documented k) -> argument (documented k) args kw n <> None) /\
  dget t "viewport" = Some VNone /\ argument (documented k) args kw "positions" = Some p /\
  create w k args kw =
    let* n := located w k p in
    let* m := divided w k n (argument (documented k) args kw "indices") in
    let* o := empties (out_table k (Z.of_nat n) m) in Ok (mkC t o).
Proof.
  intros P. rewrite create_bound. pose proof (bind_visual (documented k) args kw (documented_nodup k)) as B.
  destruct (bind_args (takes (map req (documented k))) args kw) as [b|e]; [|tauto]. cbn [bind]. destruct B as (_ & K & G).
  destruct (in_table_names k) as (T1 & T2).
  assert (Some_b : forall n, In n (documented k) -> dget b n <> None) by (intros n I; apply dget_mem; now rewrite K).
  destruct (table_spec b (in_table k)) as (t & T & Kt & Gt & V); [congruence|rewrite T1; exact Some_b|].
  rewrite T1 in *. assert (Pin : In "positions" (documented k)) by (destruct k; cbn; tauto).
  destruct (argument (documented k) args kw "positions") as [p|] eqn:Ep; [|exfalso; apply (Some_b _ Pin); rewrite G by exact Pin; exact Ep].
  exists t, p. split; [exact Kt|]. split; [intros n I; rewrite Gt by exact I; now apply G|]. split; [intros n I; rewrite <- G by exact I; now apply Some_b|].
  split; [apply V; destruct k; cbn; intuition discriminate|]. split; [reflexivity|].
  unfold init. rewrite T. cbn [bind]. unfold var at 1. rewrite G by exact Pin. rewrite Ep. cbn [bind]. unfold located, divided.
  assert (Iv : grouped k -> var b "indices" = match argument (documented k) args kw "indices" with Some i => Ok i | None => Err NameError end).
  { intros Gk. unfold var. rewrite G; [reflexivity|]. destruct Gk as [-> | ->]; cbn; tauto. }
  destruct k; cbn [bind]; try reflexivity.
  - destruct (evaluated w p) as [q|]; cbn [bind]; [|reflexivity]. reflexivity.
  - destruct (evaluated w p) as [q|]; cbn [bind]; [|reflexivity]. destruct (len w q) as [n|]; cbn [bind]; [|reflexivity].
    rewrite Iv by (now left). destruct (argument (documented Visual.Paths) args kw "indices"); reflexivity.
  - destruct (evaluated w p) as [q|]; cbn [bind]; [|reflexivity]. destruct (len w q) as [n|]; cbn [bind]; [|reflexivity].
    rewrite Iv by (now right). destruct (argument (documented Visual.Polygons) args kw "indices"); reflexivity.
Qed.

Lemma arguments_kept w k args kw c : create w k args kw = Ok c \/ create_mpl w k args kw = Ok c ->
  (forall n, In n (documented k) -> dget (c_in c) n = argument (documented k) args kw n /\ dget (c_in c) n <> None) /\
  dget (c_in c) "viewport" = Some VNone /\ (forall n, dget (c_in c) n <> None -> In n (documented k) \/ n = "viewport").
Proof.
  rewrite create_mpl_same. intros H. assert (C : create w k args kw = Ok c) by tauto. clear H.
  assert (P : proper (documented k) args kw).
  { rewrite create_bound in C. pose proof (bind_visual (documented k) args kw (documented_nodup k)) as B.
    destruct (bind_args (takes (map req (documented k))) args kw) as [b|e]; [tauto|discriminate C]. }
  destruct (create_proper w k args kw P) as (t & p & Kt & Gt & Some_t & V & Ep & E). rewrite E in C.
  destruct (located w k p) as [n|]; cbn [bind] in C; [|discriminate]. destruct (divided w k n _) as [m|]; cbn [bind] in C; [|discriminate].
  destruct (empties _) as [o|]; cbn [bind] in C; [|discriminate]. injection C as <-. cbn [c_in].
  split; [intros x I; rewrite Gt by exact I; split; [reflexivity|now apply Some_t]|]. split; [exact V|].
  intros x N. apply dget_mem in N. rewrite Kt in N. apply in_app_iff in N. cbn in N. intuition.
Qed.

Lemma len_holds w v n : len w v = Ok n <-> holds w v n.
Proof.
  split.
  - destruct v as [|z|z|s|b|l|c z|c r|z|f v]; cbn; try discriminate.
    + intros [= <-]. constructor.
    + intros [= <-]. constructor.
    + intros [= <-]. constructor.
    + destruct (w_array w c z) eqn:E; [|discriminate]. intros [= <-]. now constructor.
    + destruct (w_thing w r) as [x|b|l|] eqn:E; try discriminate.
      * intros [= <-]. now constructor.
      * unfold list_len. destruct (l_sizes l) eqn:S; [discriminate|]. intros [= <-]. eapply holds_list; eauto.
  - destruct 1; cbn; rewrite ?H; unfold list_len; rewrite ?H0; reflexivity.
Qed.
Lemma located_counted w k p n : located w k p = Ok n <-> counted w k p n.
Proof.
  unfold located. split.
  - assert (A : len w p = Ok n -> counted w k p n) by (intros L; constructor; now apply len_holds).
    assert (B : of_lines k -> (let* q := evaluated w p in len w q) = Ok n -> counted w k p n).
    { intros O L. destruct p; try (cbn [evaluated bind] in L; now apply A). unfold evaluated in L. destruct (w_thing w r) as [x| | |] eqn:T; try (cbn [bind] in L; now apply A).
      destruct x as [v|]; cbn [bind] in L; [|discriminate]. eapply counted_transform; eauto. now apply len_holds. }
    destruct k; cbn [bind]; try exact A; apply B; red; tauto.
  - destruct 1 as [p n H|c r v n O T H].
    + assert (L : len w p = Ok n) by (now apply len_holds). assert (E : evaluated w p = Ok p).
      { destruct H; try reflexivity; cbn; now rewrite H. }
      rewrite E. destruct k; exact L.
    + assert (L : len w v = Ok n) by (now apply len_holds). assert (E : evaluated w (VObj c r) = Ok v) by (cbn; now rewrite T).
      rewrite E. destruct O as [->|[->| ->]]; exact L.
Qed.
Lemma empties_ok l : Forall (fun x => Forall (fun d => (0 <= d)%Z) (snd x)) l -> empties l = Ok l.
Proof.
  induction 1 as [|[n s] l H _ IH]; [reflexivity|]. cbn [empties]. unfold empty. cbn [snd] in H.
  assert (E : existsb (fun d => (d <? 0)%Z) s = false).
  { induction H as [|d s Hd _ IHs]; [reflexivity|]. cbn. rewrite IHs. destruct (Z.ltb_spec d 0); [lia|reflexivity]. }
  rewrite E. cbn [bind]. rewrite IH. reflexivity.
Qed.
Lemma empties_shape l o : empties l = Ok o -> o = l /\ Forall (fun x => Forall (fun d => (0 <= d)%Z) (snd x)) l.
Proof.
  revert o. induction l as [|[n s] l IH]; intros o; cbn [empties]; [intros [= <-]; split; constructor|].
  unfold empty. destruct (existsb (fun d => (d <? 0)%Z) s) eqn:E; [discriminate|]. cbn [bind]. destruct (empties l) as [r|]; [|discriminate]. cbn [bind].
  intros [= <-]. destruct (IH r eq_refl) as (-> & F). split; [reflexivity|]. constructor; [|exact F]. cbn [snd]. apply Forall_forall. intros d I.
  destruct (Z.leb_spec 0 d); [assumption|]. exfalso. assert (X : existsb (fun d => (d <? 0)%Z) s = true); [|congruence].
  apply existsb_exists. exists d. split; [exact I|]. apply Z.ltb_lt. lia.
Qed.
Lemma out_table_shape k n m name : dget (out_table k n m) name = if existsb (String.eqb name) (Visual.outputs k) then Some (shape k n m name) else None.
Proof.
  assert (X : forall (l : dict string (list Z)) names, dkeys l = names ->
    (forall x, In x names -> dget l x = Some (shape k n m x)) -> dget l name = if existsb (String.eqb name) names then Some (shape k n m name) else None).
  { intros l names K H. destruct (existsb (String.eqb name) names) eqn:E.
    - apply existsb_exists in E. destruct E as (x & I & E). apply String.eqb_eq in E. subst x. now apply H.
    - destruct (dget l name) eqn:D; [|reflexivity]. exfalso. assert (I : In name (dkeys l)) by (apply dget_mem; congruence). rewrite K in I.
      assert (T : existsb (String.eqb name) names = true); [|congruence]. apply existsb_exists. exists name. split; [exact I|apply String.eqb_refl]. }
  apply X; [destruct k; reflexivity|]. intros x I. destruct k; cbn [Visual.outputs In] in I;
    repeat (destruct I as [<-|I]; [reflexivity|]); destruct I.
Qed.
Lemma groups_grouping w n v m : groups w n v = Ok m -> (0 <= m)%Z -> exists k, m = Z.of_nat k /\ grouping w n v k.
Proof.
  intros G M. assert (X : forall z, number v z -> (if (z =? 0)%Z then Err ZeroDivisionError else Ok (Z.of_nat n / z)%Z) = Ok m -> exists k, m = Z.of_nat k /\ grouping w n v k).
  { clear G. intros z Nz G. destruct (Z.eqb_spec z 0) as [->|NZ]; [discriminate|]. injection G as G.
    exists (Z.to_nat m). rewrite Z2Nat.id by lia. split; [reflexivity|]. destruct (Z_lt_le_dec 0 z).
    - eapply grouping_size; [exact Nz|assumption|]. rewrite Z2Nat.id by lia.
      pose proof (Z.mod_pos_bound (Z.of_nat n) z ltac:(lia)). pose proof (Z.div_mod (Z.of_nat n) z ltac:(lia)). nia.
    - assert (z < 0)%Z by lia. pose proof (Z.mod_neg_bound (Z.of_nat n) z ltac:(lia)). pose proof (Z.div_mod (Z.of_nat n) z ltac:(lia)).
      assert (n = 0%nat) by nia. subst n. assert (m = 0%Z) by (subst m; now apply Z.div_0_l). subst m. rewrite H2. eapply grouping_none; eauto. }
  destruct v as [|z|z|s|b|l|c z|c r|z|f v]; cbn [groups] in G; try (apply (X z); [red; tauto|exact G]);
    (match type of G with bind ?x _ = _ => destruct x as [k|] eqn:L end; cbn [bind] in G; [|discriminate]; injection G as <-; exists k; split; [reflexivity|]; apply grouping_items; now apply len_holds).
Qed.
Lemma grouping_groups w n v m : grouping w n v m -> groups w n v = Ok (Z.of_nat m).
Proof.
  destruct 1 as [v z m [-> | ->] P B|v z [-> | ->] P E|v m H].
  1,2: cbn [groups]; destruct (Z.eqb_spec z 0); [lia|]; f_equal; symmetry; apply Z.div_unique with (r := (Z.of_nat n - Z.of_nat m * z)%Z); [left; nia|ring].
  1,2: cbn [groups]; destruct (Z.eqb_spec z 0); [lia|]; subst n; reflexivity.
  assert (L : len w v = Ok m) by (now apply len_holds). destruct H; cbn [groups]; rewrite L; reflexivity.
Qed.

Lemma divided_out k n m : ((0 <= m)%Z \/ ~ grouped k) -> empties (out_table k (Z.of_nat n) m) = Ok (out_table k (Z.of_nat n) m).
Proof.
  intros M. apply empties_ok. assert (N : (0 <= Z.of_nat n)%Z) by lia. unfold grouped in M.
  destruct k; cbn [out_table]; repeat (apply Forall_cons; [cbn [snd]; repeat (apply Forall_cons; [try lia; intuition congruence|]); apply Forall_nil|]); apply Forall_nil.
Qed.
Lemma divided_negative k n m : grouped k -> (m < 0)%Z -> empties (out_table k (Z.of_nat n) m) = Err ValueError.
Proof.
  intros G M. assert (N : (Z.of_nat n <? 0)%Z = false) by (apply Z.ltb_ge; lia). assert (M' : (m <? 0)%Z = true) by (now apply Z.ltb_lt).
  destruct G as [-> | ->]; cbn [out_table empties]; unfold empty; cbn [existsb]; rewrite !N; cbn; rewrite M'; reflexivity.
Qed.
Lemma sizes_of w k args kw c : create w k args kw = Ok c ->
  exists p n m, argument (documented k) args kw "positions" = Some p /\ counted w k p n /\
  (grouped k -> exists i, argument (documented k) args kw "indices" = Some i /\ grouping w n i m) /\
  forall name, dget (c_out c) name = if existsb (String.eqb name) (Visual.outputs k) then Some (shape k (Z.of_nat n) (Z.of_nat m) name) else None.
Proof.
  intros C. assert (P : proper (documented k) args kw).
  { rewrite create_bound in C. pose proof (bind_visual (documented k) args kw (documented_nodup k)) as B.
    destruct (bind_args (takes (map req (documented k))) args kw) as [b|e]; [tauto|discriminate C]. }
  destruct (create_proper w k args kw P) as (t & p & Kt & Gt & Some_t & V & Ep & E). rewrite E in C.
  destruct (located w k p) as [n|] eqn:Ln; cbn [bind] in C; [|discriminate]. destruct (divided w k n _) as [m|] eqn:D; cbn [bind] in C; [|discriminate].
  destruct (empties _) as [o|] eqn:O; cbn [bind] in C; [|discriminate]. assert (Ec : c = mkC t o) by congruence. subst c. cbn [c_out].
  apply empties_shape in O. destruct O as (-> & F). exists p, n. apply located_counted in Ln.
  assert (M : exists x, m = Z.of_nat x /\ (grouped k -> exists i, argument (documented k) args kw "indices" = Some i /\ grouping w n i x)).
  { unfold divided in D. destruct k; try (exists 0%nat; split; [injection D as <-; reflexivity|intros [G|G]; discriminate]).
    - destruct (argument (documented Visual.Paths) args kw "indices") as [i|] eqn:Ei; [|discriminate]. destruct (groups_grouping w n i m D) as (x & -> & G).
      + inversion F as [|? ? _ F1]; subst. inversion F1 as [|? ? F2 _]; subst. cbn [snd] in F2. now inversion F2.
      + exists x. split; [reflexivity|]. intros _. now exists i.
    - destruct (argument (documented Visual.Polygons) args kw "indices") as [i|] eqn:Ei; [|discriminate]. destruct (groups_grouping w n i m D) as (x & -> & G).
      + inversion F as [|? ? _ F1]; subst. inversion F1 as [|? ? F2 _]; subst. cbn [snd] in F2. now inversion F2.
      + exists x. split; [reflexivity|]. intros _. now exists i. }
  destruct M as (x & -> & G). exists x. split; [exact Ep|]. split; [exact Ln|]. split; [exact G|]. intros name. apply out_table_shape.
Qed.
Lemma creates w k args kw p n m : proper (documented k) args kw -> argument (documented k) args kw "positions" = Some p -> counted w k p n ->
  (grouped k -> exists i, argument (documented k) args kw "indices" = Some i /\ grouping w n i m) -> exists c, create w k args kw = Ok c.
Proof.
  intros P Ep Cn G. destruct (create_proper w k args kw P) as (t & p' & _ & _ & _ & _ & Ep' & E). assert (p' = p) by congruence. subst p'.
  rewrite E. apply located_counted in Cn. rewrite Cn. cbn [bind].
  assert (D : exists z, divided w k n (argument (documented k) args kw "indices") = Ok z /\ ((0 <= z)%Z \/ ~ grouped k)).
  { unfold divided. destruct k; try (exists 0%Z; split; [reflexivity|left; lia]).
    - destruct G as (i & -> & G); [now left|]. exists (Z.of_nat m). split; [now apply grouping_groups|left; lia].
    - destruct G as (i & -> & G); [now right|]. exists (Z.of_nat m). split; [now apply grouping_groups|left; lia]. }
  destruct D as (z & -> & Z0). cbn [bind]. rewrite divided_out by exact Z0. cbn [bind]. eexists. reflexivity.
Qed.
Lemma transform_refused w k args kw c r x : ~ of_lines k -> proper (documented k) args kw -> argument (documented k) args kw "positions" = Some (VObj c r) ->
  w_thing w r = ATransform x -> create w k args kw = Err TypeError /\ create_mpl w k args kw = Err TypeError.
Proof.
  intros O P Ep T. rewrite create_mpl_same. destruct (create_proper w k args kw P) as (t & p' & _ & _ & _ & _ & Ep' & E). assert (p' = VObj c r) by congruence. subst p'.
  assert (L : located w k (VObj c r) = Err TypeError).
  { unfold of_lines in O. unfold located. destruct k; try (exfalso; apply O; tauto); cbn; now rewrite T. }
  rewrite E, L. now split.
Qed.
Lemma groups_refused w k args kw p n i : grouped k -> proper (documented k) args kw -> argument (documented k) args kw "positions" = Some p -> counted w k p n ->
  argument (documented k) args kw "indices" = Some i ->
  (forall c r l z, i = VObj c r -> w_thing w r = AList l -> l_sizes l = OneSize z -> create w k args kw = Err NameError /\ create_mpl w k args kw = Err NameError) /\
  (forall c r x, i = VObj c r -> w_thing w r = ATransform x -> create w k args kw = Err TypeError /\ create_mpl w k args kw = Err TypeError) /\
  (i = VInt 0 -> create w k args kw = Err ZeroDivisionError /\ create_mpl w k args kw = Err ZeroDivisionError) /\
  (forall z, i = VInt z -> (z < 0)%Z -> (0 < n)%nat -> create w k args kw = Err ValueError /\ create_mpl w k args kw = Err ValueError).
Proof.
  intros G P Ep Cn Ei. rewrite create_mpl_same. destruct (create_proper w k args kw P) as (t & p' & _ & _ & _ & _ & Ep' & E). assert (p' = p) by congruence. subst p'.
  apply located_counted in Cn. rewrite Cn, Ei in E. cbn [bind] in E.
  assert (D : divided w k n (Some i) = groups w n i) by (destruct G as [-> | ->]; reflexivity). rewrite D in E. clear D.
  split; [|split; [|split]].
  - intros c r l z -> T S. cbn [groups len] in E. rewrite T in E. unfold list_len in E. rewrite S in E. cbn [bind] in E. now split.
  - intros c r x -> T. cbn [groups len] in E. rewrite T in E. cbn [bind] in E. now split.
  - intros ->. cbn [groups Z.eqb bind] in E. now split.
  - intros z -> Z0 N. cbn [groups] in E. destruct (Z.eqb_spec z 0); [lia|]. cbn [bind] in E. rewrite divided_negative in E; [now split|exact G|].
    pose proof (Z.mod_neg_bound (Z.of_nat n) z ltac:(lia)). pose proof (Z.div_mod (Z.of_nat n) z ltac:(lia)). nia.
Qed.
(** The tables of Visual.v. *)
Lemma variables_of w k args kw c : create w k args kw = Ok c -> dkeys (c_in c) = Visual.inputs k /\ dkeys (c_out c) = Visual.outputs k.
Proof.
  intros C. assert (P : proper (documented k) args kw).
  { rewrite create_bound in C. pose proof (bind_visual (documented k) args kw (documented_nodup k)) as B.
    destruct (bind_args (takes (map req (documented k))) args kw) as [b|e]; [tauto|discriminate C]. }
  destruct (create_proper w k args kw P) as (t & p & Kt & Gt & Some_t & V & Ep & E). rewrite E in C.
  destruct (located w k p) as [n|] eqn:Ln; cbn [bind] in C; [|discriminate]. destruct (divided w k n _) as [m|] eqn:D; cbn [bind] in C; [|discriminate].
  destruct (empties _) as [o|] eqn:O; cbn [bind] in C; [|discriminate]. assert (Ec : c = mkC t o) by congruence. subst c. cbn [c_out c_in].
  apply empties_shape in O. destruct O as (-> & _). rewrite Kt. split; destruct k; reflexivity.
Qed.
