(** Proofs about Terrain.v. *)
From Coq Require Import QArith Qcanon Reals Lra Permutation.
From Verif Require Import Base Measure Viewport ViewportSpec Glm GlmSpec Vec VecSpec Render RenderSpec Cloud CloudSpec CloudFacts Picture PictureSpec PictureFacts Terrain TerrainSpec.
Local Open Scope nat_scope.

(** ** Part of a list, by places *)
Definition sub {A} (idx : list nat) (l r : list A) : Prop := Forall2 (fun i x => nth_error l i = Some x) idx r.
Lemma sub_length {A} idx (l r : list A) : sub idx l r -> length idx = length r.
Proof. unfold sub. induction 1; cbn; congruence. Qed.
Lemma sub_nth {A} idx (l r : list A) : sub idx l r -> forall j, j < length idx -> nth_error r j = nth_error l (nth j idx 0).
Proof.
  unfold sub. induction 1 as [|i x idx r E F IH]; intros j Q; cbn in Q; [lia|]. destruct j as [|j]; cbn; [now rewrite E|]. apply IH. lia.
Qed.
Lemma sub_sub {A} i1 (l m : list A) i2 r : sub i1 l m -> sub i2 m r -> sub (map (fun j => nth j i1 0) i2) l r.
Proof.
  intros S1 S2. unfold sub in S2 |- *. induction S2 as [|j x i2 r E F IH]; cbn; constructor; [|exact IH].
  rewrite <- E. symmetry. apply (sub_nth _ _ _ S1). rewrite (sub_length _ _ _ S1). apply nth_error_Some. congruence.
Qed.
Lemma sub_within {A} idx (l r : list A) : sub idx l r -> forall i, In i idx -> i < length l.
Proof. unfold sub. induction 1 as [|i x idx r E F IH]; intros j I; [destruct I|]. destruct I as [<-|I]; [apply nth_error_Some; congruence|auto]. Qed.
Lemma picked_nodup i1 i2 : NoDup i1 -> NoDup i2 -> (forall j, In j i2 -> j < length i1) -> NoDup (map (fun j => nth j i1 0) i2).
Proof.
  intros N1 N2. induction N2 as [|j i2 Q N2 IH]; intros L; cbn; constructor; [|apply IH; intros k I; apply L; now right].
  intros I. apply in_map_iff in I as (k & E & I). apply Q. apply (NoDup_nth i1 0) in E; [subst; exact I|exact N1|apply L; now right|apply L; now left].
Qed.
Lemma picked_in i1 i2 : (forall j, In j i2 -> j < length i1) -> forall i, In i (map (fun j => nth j i1 0) i2) -> In i i1.
Proof. intros L i I. apply in_map_iff in I as (j & <- & I). apply nth_In. now apply L. Qed.
Lemma sub_map {A B} (f : A -> B) idx l r : sub idx l r -> sub idx (map f l) (map f r).
Proof. unfold sub. induction 1; cbn; constructor; auto. now apply map_nth_error. Qed.
Lemma sub_all {A} (l : list A) : sub (seq 0 (length l)) l l.
Proof.
  unfold sub. cut (forall m : list A, Forall2 (fun i x => nth_error (m ++ l) i = Some x) (seq (length m) (length l)) l); [intros Q; exact (Q [])|].
  induction l as [|x l IH]; intros m; cbn; constructor.
  - rewrite nth_error_app2, Nat.sub_diag by lia. reflexivity.
  - specialize (IH (m ++ [x])). rewrite app_length in IH. cbn in IH. rewrite Nat.add_1_r, <- app_assoc in IH. exact IH.
Qed.

(** Cropping, by places. *)
Lemma kept_places {A} (P : A -> Prop) l r : kept P l r -> exists idx, NoDup idx /\ sub idx l r /\ forall i, In i idx <-> exists x, nth_error l i = Some x /\ P x.
Proof.
  induction 1 as [|x l r Px K (idx & N & S & I)|x l r Px K (idx & N & S & I)].
  - exists []. split; [constructor|]. split; [constructor|]. intros i. split; [intros []|]. intros (x & E & _). destruct i; discriminate E.
  - exists (0 :: map Datatypes.S idx). split; [|split].
    + constructor; [intros Q; apply in_map_iff in Q as (j & E & _); discriminate E|]. apply FinFun.Injective_map_NoDup; [intros a b [=]; assumption|exact N].
    + constructor; [reflexivity|]. clear - S. induction S; cbn; constructor; auto.
    + intros [|i]; cbn; split.
      * intros _. eauto.
      * auto.
      * intros [Q|Q]; [discriminate Q|]. apply in_map_iff in Q as (j & [= ->] & Q). now apply I.
      * intros Q. right. apply in_map. now apply I.
  - exists (map Datatypes.S idx). split; [|split].
    + apply FinFun.Injective_map_NoDup; [intros a b [=]; assumption|exact N].
    + clear - S. induction S; cbn; constructor; auto.
    + intros [|i]; cbn; split.
      * intros Q. apply in_map_iff in Q as (j & E & _). discriminate E.
      * intros (y & [= <-] & Q). contradiction.
      * intros Q. apply in_map_iff in Q as (j & [= ->] & Q). now apply I.
      * intros Q. apply in_map. now apply I.
Qed.
Lemma combine_nth {A B} (l : list A) : forall (m : list B) i x y, length l = length m -> (nth_error (combine l m) i = Some (x, y) <-> nth_error l i = Some x /\ nth_error m i = Some y).
Proof.
  induction l as [|a l IH]; intros [|b m] i x y L; try discriminate L; [destruct i; cbn; split; [discriminate|intros [? _]; discriminate|discriminate|intros [? _]; discriminate]|].
  destruct i as [|i]; cbn; [|apply IH; now injection L]. split; [intros [= <- <-]; auto|]. intros [[= <-] [= <-]]. reflexivity.
Qed.
Lemma sub_split {A B} idx (l : list A) (m : list B) : forall l' m', length l = length m -> length m' = length l' -> sub idx (combine l m) (combine l' m') -> sub idx l l' /\ sub idx m m'.
Proof.
  intros l' m' L L' S. revert m' L' S. revert idx. induction l' as [|x l' IH]; intros idx [|y m'] L' S; try discriminate L'; cbn in S; inversion S; subst; [split; constructor|].
  match goal with Q : nth_error _ _ = Some (x, y) |- _ => apply combine_nth in Q as [Q1 Q2]; [|exact L] end.
  destruct (IH _ m' ltac:(now injection L') ltac:(eassumption)) as [S1 S2]. split; constructor; assumption.
Qed.

Lemma array_lists ps : lists (cloud_array ps) (map vertex ps).
Proof.
  exists KFloat, (map (fun p => [inR (coord X p); inR (coord Y p); inR (coord Z p)]) ps). split; [|split].
  - unfold cloud_array, table. now rewrite map_map.
  - induction ps; cbn; constructor; [reflexivity|assumption].
  - intros Q. discriminate Q.
Qed.

Section Shown.
Variables (choose : nat -> nat -> list nat) (argsort : list num -> list nat) (code : Qc -> BinInt.Z).
Theorem terrain_shown b w ps cs v model view proj : chooses choose -> sorts_numbers argsort -> usable v ->
  length cs = length ps -> ps <> [] \/ all_given b -> (0 <= w)%Z ->
  exists idx out all, terrain choose argsort code b (Some w) (mkArchive (Some ps) (Some cs)) v model view proj = Ok out /\
    NoDup all /\ (forall i, In i all <-> selected b ps i) /\
    NoDup idx /\ incl idx all /\ BinInt.Z.of_nat (length idx) = BinInt.Z.min w (BinInt.Z.of_nat (length all)) /\
    map Some out = map (shown_point code ps cs v model view proj) idx /\
    covers (depth_in (fun p => option_map Ropp (depth (clip model view proj p))) (map vertex ps)) idx.
Proof.
  intros Ch So U L Ne W. set (cq := map (map share) cs). assert (Lq : length cq = length ps) by (unfold cq; now rewrite map_length).
  destruct (crop_succeeds ps cq b Lq Ne) as [[ps1 cs1] C]. pose proof (crop_kept ps cq b ps1 cs1 C) as (_ & L1 & K).
  destruct (kept_places _ _ _ K) as (i1 & N1 & S1 & I1). apply sub_split in S1 as [S1p S1c]; [|congruence|exact L1].
  destruct (thinned choose ps1 cs1 w Ch L1 W) as (ps2 & cs2 & i2 & D & Le & N2 & S2p & S2c).
  assert (B2 : forall j, In j i2 -> j < length i1). { intros j J. rewrite (sub_length _ _ _ S1p). exact (sub_within _ _ _ S2p j J). }
  pose proof (sub_sub _ _ _ _ _ S1p S2p) as S3p. pose proof (sub_sub _ _ _ _ _ S1c S2c) as S3c. pose proof (picked_nodup _ _ N1 N2 B2) as N3. pose proof (picked_in _ _ B2) as I3.
  set (i3 := map (fun j => nth j i1 0) i2) in *. clearbody i3.
  pose proof (sub_length _ _ _ S3p) as E3. pose proof (sub_length _ _ _ S3c) as E3c.
  destruct (pixels_where argsort So v (cloud_array ps2) model view proj (map vertex ps2) (Render.Rows (map (map code) cs2)) U (array_lists ps2)) as (order & out & Px & Vi & Co & Out).
  { left. rewrite !map_length. congruence. }
  { exact Logic.I. }
  rewrite map_length in Vi. unfold visits in Vi.
  assert (B4 : forall j, In j order -> j < length i3). { intros j J. apply (Permutation_in _ Vi) in J. apply in_seq in J. lia. }
  exists (map (fun j => nth j i3 0) order), out, i1.
  split. { unfold terrain. cbn [load_cloud a_pos a_color bind fst snd]. fold cq. rewrite C. cbn [bind fst snd]. rewrite D. cbn [bind fst snd]. exact Px. }
  split; [exact N1|]. split.
  { intros i. rewrite I1. unfold selected. split.
    - intros ([p c] & E & Q). apply combine_nth in E as [E _]; [|congruence]. exists p. split; [exact E|exact Q].
    - intros (p & E & Q). assert (Hi : i < length cq) by (rewrite Lq; apply nth_error_Some; congruence). apply nth_error_Some in Hi. destruct (nth_error cq i) as [c|] eqn:Ec; [|contradiction].
      exists (p, c). split; [apply combine_nth; [congruence|auto]|exact Q]. }
  split. { apply picked_nodup; [exact N3| |exact B4]. apply (Permutation_NoDup (Permutation_sym Vi)), seq_NoDup. }
  split. { intros i J. apply I3. exact (picked_in _ _ B4 i J). }
  split. { rewrite map_length, (Permutation_length Vi), seq_length, Le. now rewrite (sub_length _ _ _ S1p). }
  assert (At : forall j, j < length i3 -> nth_error (map vertex ps2) j = nth_error (map vertex ps) (nth j i3 0)) by (intros j J; exact (sub_nth _ _ _ (sub_map vertex _ _ _ S3p) j J)).
  split.
  - rewrite Out, map_map. apply map_ext_in. intros j J. apply B4 in J. rewrite (At j J). unfold shown_point.
    pose proof (sub_nth _ _ _ S3c j J) as Ec. unfold cq in Ec.
    assert (Ow : own (Render.Rows (map (map code) cs2)) j = option_map (map (fun z => code (Q2Qc (z # 255)))) (nth_error cs (nth j i3 0))).
    { transitivity (nth_error (map (map code) cs2) j).
      - cbn [own]. destruct cs2 as [|x [|y cs2]]; try reflexivity. cbn in E3c. replace j with 0 by lia. reflexivity.
      - rewrite nth_error_map, Ec, nth_error_map. destruct (nth_error cs (nth j i3 0)) as [c|]; [|reflexivity]. cbn. now rewrite map_map. }
    rewrite Ow, nth_error_map. destruct (nth_error ps (nth j i3 0)) as [p|] eqn:Ep; [|reflexivity]. cbn [option_map].
    destruct (nth_error cs (nth j i3 0)) as [c|] eqn:Ec'; [reflexivity|]. exfalso. apply nth_error_None in Ec'. assert (nth j i3 0 < length ps) by (apply nth_error_Some; congruence). lia.
  - intros i k a c x y Q Ea Ec' Za Zc. rewrite nth_error_map in Ea, Ec'. destruct (nth_error order i) as [a'|] eqn:Oa; [|discriminate Ea]. destruct (nth_error order k) as [c'|] eqn:Oc; [|discriminate Ec'].
    injection Ea as <-. injection Ec' as <-. unfold depth_in in Za, Zc. rewrite <- (At a') in Za by (apply B4; exact (nth_error_In _ _ Oa)). rewrite <- (At c') in Zc by (apply B4; exact (nth_error_In _ _ Oc)).
    exact (Co i k a' c' x y Q Oa Oc Za Zc).
Qed.
End Shown.
(** Colours. *)
Lemma share_range z : (0 <= z <= 255)%Z -> (Q2Qc 0 <= share z)%Qc /\ (share z <= Q2Qc 1)%Qc.
Proof.
  intros Q. unfold share, Qcle, Q2Qc, this. rewrite !Qred_correct. unfold Qle. cbn. split; lia.
Qed.
Lemma share_ends : share 0 = Q2Qc 0 /\ share 255 = Q2Qc 1.
Proof. split; apply Qc_is_canon; vm_compute; reflexivity. Qed.
Lemma share_grows y z : (y < z)%Z -> (share y < share z)%Qc.
Proof. intros Q. unfold share, Qclt, Q2Qc, this. rewrite !Qred_correct. unfold Qlt. cbn. lia. Qed.
Lemma lacking_refused choose argsort code b w a v model view proj : a_pos a = None \/ a_color a = None ->
  terrain choose argsort code b w a v model view proj = Err KeyError.
Proof. intros [Q|Q]; unfold terrain, load_cloud; rewrite Q; [reflexivity|]. destruct (a_pos a); reflexivity. Qed.
Lemma empty_refused choose argsort code w cs v model view proj :
  terrain choose argsort code program_bounds w (mkArchive (Some []) (Some cs)) v model view proj = Err ValueError.
Proof. unfold terrain. cbn [load_cloud a_pos a_color bind fst snd]. rewrite (crop_empty _ program_bounds Y); [reflexivity|]. now left. Qed.
Lemma terrain_case : let cloud_ex := [(qc 0, qc 1, qc 0); (qc 0, qc 2, qc 0); (qc 1, qc 3, qc 0); (qc 0, qc 5, qc 0); (Q2Qc (1 # 20), qc 3, Q2Qc (1 # 30))] in
  chooses (fun n k => seq 0 k) /\ sorts_numbers sort_nums /\
  crop cloud_ex ["a"; "b"; "c"; "d"; "e"]%string program_bounds = Ok ([(qc 0, qc 2, qc 0); (Q2Qc (1 # 20), qc 3, Q2Qc (1 # 30))], ["b"; "e"]%string) /\
  selected program_bounds cloud_ex 1 /\ ~ selected program_bounds cloud_ex 2.
Proof.
  intros cloud_ex. split; [intros n k H; split; [apply seq_length|]; split; [apply seq_NoDup|]; intros i I; apply in_seq in I; lia|].
  split; [exact sort_nums_sorts|].
  assert (C : crop cloud_ex ["a"; "b"; "c"; "d"; "e"]%string program_bounds = Ok ([(qc 0, qc 2, qc 0); (Q2Qc (1 # 20), qc 3, Q2Qc (1 # 30))], ["b"; "e"]%string)) by (vm_compute; reflexivity).
  split; [exact C|]. split.
  - exists (qc 0, qc 2, qc 0). split; [reflexivity|]. split.
    + intros []; split; intros q [= <-]; vm_compute; reflexivity.
    + intros []; split; try discriminate; intros _; [exists (qc 0, qc 1, qc 0)|exists (qc 0, qc 5, qc 0)]; (split; [cbn; tauto|vm_compute; reflexivity]).
  - intros (p & [= <-] & Wi & _). destruct (Wi X) as [_ Q]. specialize (Q _ eq_refl). vm_compute in Q. discriminate Q.
Qed.
