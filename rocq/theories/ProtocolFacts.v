(** Proofs about the constructors. *)
From Verif Require Import Base Registry Convert Command Execute Protocol ProtocolSpec.
Open Scope string_scope.

Lemma dget_in {V} (d : dict string V) n : In n (dkeys d) -> exists v, dget d n = Some v.
Proof.
  induction d as [|[k v] d IH]; cbn; [tauto|]. intros [->|I].
  - exists v. now rewrite String.eqb_refl.
  - destruct (String.eqb n k); eauto.
Qed.
Lemma bind_all (ps : list param) (kw : dict string value) : (forall n, In n (map p_name ps) -> In n (dkeys kw)) ->
  exists b, bind_params ps [] kw = Ok b /\ dkeys b = map p_name ps /\ (NoDup (map p_name ps) -> forall n, In n (map p_name ps) -> dget b n = dget kw n).
Proof.
  induction ps as [|p ps IH]; intros H; cbn [bind_params map].
  - exists []. repeat split; auto. intros _ n [].
  - destruct (dget_in kw (p_name p)) as (v & E); [apply H; now left|]. rewrite E.
    destruct IH as (b & -> & K & G); [intros n I; apply H; now right|]. cbn [bind]. exists ((p_name p, v) :: b). split; [reflexivity|]. split; [cbn; f_equal; exact K|].
    intros N n I. inversion N as [|? ? N1 N2]; subst. cbn. destruct (String.eqb_spec n (p_name p)) as [->|D]; [now rewrite E|]. destruct I as [<-|I]; [congruence|auto].
Qed.
Lemma bind_named s kw : arguments_of s kw -> exists b, bind_args s [] kw = Ok b /\ dkeys b = p_names s /\ (NoDup (p_names s) -> forall n, In n (p_names s) -> dget b n = dget kw n).
Proof.
  intros (_ & A). unfold bind_args. replace (forallb _ _) with true.
  - apply bind_all. intros n I. now apply A.
  - symmetry. apply forallb_forall. intros n I. apply existsb_exists. exists n. split; [now apply A|apply String.eqb_refl].
Qed.
Lemma bind_missing s kw n : In n (dkeys kw) -> ~ In n (p_names s) -> bind_args s [] kw = Err TypeError.
Proof.
  intros I N. unfold bind_args. replace (forallb _ _) with false; [reflexivity|]. symmetry. apply not_true_is_false. intros E.
  rewrite forallb_forall in E. specialize (E n I). apply existsb_exists in E. destruct E as (m & M & E). apply String.eqb_eq in E. now subst m.
Qed.
Lemma find_in pkg p k : find pkg p = Some k -> In k pkg /\ k_path k = p.
Proof. intros E. apply List.find_some in E. destruct E as [I E]. apply String.eqb_eq in E. auto. Qed.

(** Names. *)
Theorem recorded_names k : In k protocol -> k_recorded k = k_path k.
Proof. intros H. cbn in H. repeat (destruct H as [<-|H]; [reflexivity|]). contradiction. Qed.
Theorem recorded_backend k : In k matplotlib -> (k_recorded k = k_path k <-> k_path k <> "visual.Segments").
Proof. intros H. cbn in H. repeat (destruct H as [<-|H]; [cbn [k_recorded k_path]; (split; [intros _; discriminate|intros _; reflexivity]) || (split; [intros E; discriminate E|intros E; now elim E])|]). contradiction. Qed.

(** Which classes of the protocol the backend offers, and with which parameters. *)
Definition is_transform (path : string) : bool := String.eqb (substring 0 10 path) "transform.".
Theorem offered k : In k protocol ->
  match find matplotlib (k_recorded k) with
  | Some k' => k_path k' = k_path k /\ p_names (k_sig k') = p_names (k_sig k) /\ is_transform (k_path k) = false /\ k_path k <> "core.Data"
  | None => is_transform (k_path k) = true \/ k_path k = "core.Data"
  end.
Proof. intros H. cbn in H. repeat (destruct H as [<-|H]; [vm_compute; repeat split; (discriminate || auto)|]). contradiction. Qed.

Section Execute.
Variable body : string -> dict string value -> res (nat * nat).
Variable meth : string -> string -> bool.
Variable call : string -> string -> ref -> dict string value -> res value.
Variable classes : ref -> string.
Variable ap : func -> value -> res value.

Lemma execute_new pkg s c i oid kw : c_method c = "__init__" -> dget (c_params c) "id" = Some i -> oid_of i = Some oid -> resolve (objects s) classes ap (c_params c) = Ok kw ->
  execute (backend_of pkg body meth call) classes ap s c =
  match find pkg (c_class c) with
  | Some k => let* b := bind_args (k_sig k) [] kw in let* pp := body (c_class c) b in
              let '(s', r) := replay s (fst pp) (snd pp) oid in Ok (s', Built r (c_class c) kw)
  | None => Err AttributeError
  end.
Proof.
  intros M I O R. unfold execute. rewrite I, R, M, O. cbn [bind contains Ascii.eqb orb]. 
  change (contains "." "__init__") with false. change (String.eqb "__init__" "__init__") with true. cbn [backend_of b_class b_new]. destruct (find pkg (c_class c)); [|reflexivity].
  destruct (bind_args (k_sig c0) [] kw) as [b|]; reflexivity.
Qed.
Theorem executed k s cid p i oid kw : In k protocol -> is_transform (k_path k) = false -> k_path k <> "core.Data" ->
  dget p "id" = Some i -> oid_of i = Some oid -> resolve (objects s) classes ap p = Ok kw -> arguments_of (k_sig k) kw ->
  exists b, (forall n, dget b n = dget kw n) /\ 
  match execute (backend_of matplotlib body meth call) classes ap s (reloaded k cid p) with
  | Ok (_, o) => rebuilt k kw o /\ exists pp, body (k_path k) b = Ok pp
  | Err e => body (k_path k) b = Err e
  end.
Proof.
  intros K T D I J0 R A. pose proof (offered k K) as O. rewrite (execute_new _ _ _ i oid kw) by (reflexivity || assumption). cbn [reloaded c_class].
  destruct (find matplotlib (k_recorded k)) as [k'|] eqn:F; [|destruct O; congruence]. destruct O as (O1 & O2 & _).
  assert (A' : arguments_of (k_sig k') kw) by (destruct A as [A1 A2]; split; [exact A1|now rewrite O2]).
  destruct (bind_named _ _ A') as (b & E & KB & G). exists b. split.
  - intros n. assert (N : NoDup (p_names (k_sig k'))).
    { clear - F. apply find_in in F. destruct F as [F _]. cbn in F. repeat (destruct F as [<-|F]; [vm_compute; repeat (constructor; [cbn; intuition discriminate|]); constructor|]). contradiction. }
    destruct (in_dec string_dec n (p_names (k_sig k'))) as [J|J]; [auto|].
    destruct (dget b n) as [v|] eqn:B.
    + exfalso. apply J. rewrite <- KB. clear - B. induction b as [|[k0 v0] b IH]; cbn in *; [discriminate|]. destruct (String.eqb_spec n k0) as [->|]; [now left|right; auto].
    + destruct (dget kw n) as [v|] eqn:W; [|reflexivity]. exfalso. apply J. apply (proj2 A'). clear - W. induction kw as [|[k0 v0] kw IH]; cbn in *; [discriminate|]. destruct (String.eqb_spec n k0) as [->|]; [now left|right; auto].
  - rewrite E. cbn [bind]. rewrite (recorded_names k K). destruct (body (k_path k) b) as [pp|e] eqn:B; cbn [bind]; [|reflexivity].
    destruct (replay s (fst pp) (snd pp) oid) as [s' r]. split; [exists r; reflexivity|eauto].
Qed.
Theorem not_offered k s cid p i oid kw : In k protocol -> is_transform (k_path k) = true \/ k_path k = "core.Data" ->
  dget p "id" = Some i -> oid_of i = Some oid -> resolve (objects s) classes ap p = Ok kw ->
  execute (backend_of matplotlib body meth call) classes ap s (reloaded k cid p) = Err AttributeError.
Proof.
  intros K T I J0 R. pose proof (offered k K) as O. rewrite (execute_new _ _ _ i oid kw) by (reflexivity || assumption). cbn [reloaded c_class].
  destruct (find matplotlib (k_recorded k)) as [k'|] eqn:F; [|reflexivity]. destruct O as (_ & _ & O1 & O2). destruct T; congruence.
Qed.
Theorem segments_lost k s cid p i oid kw : In k matplotlib -> k_path k = "visual.Segments" ->
  dget p "id" = Some i -> oid_of i = Some oid -> resolve (objects s) classes ap p = Ok kw -> arguments_of (k_sig k) kw ->
  execute (backend_of matplotlib body meth call) classes ap s (reloaded k cid p) = Err TypeError /\
  execute (backend_of protocol body meth call) classes ap s (reloaded k cid p) = Err TypeError.
Proof.
  intros K P I J0 R (_ & A). 
  assert (E : k_recorded k = "visual.Points" /\ k_sig k = segments_sig).
  { cbn in K. repeat (destruct K as [<-|K]; [discriminate P || (split; reflexivity)|]). contradiction. }
  destruct E as [E1 E2]. rewrite !(execute_new _ _ _ i oid kw) by (reflexivity || assumption). cbn [reloaded c_class]. rewrite E1.
  assert (B : bind_args points_sig [] kw = Err TypeError).
  { apply (bind_missing _ _ "line_caps"); [apply A; rewrite E2; cbn; tauto|]. cbn. intuition discriminate. }
  split.
  - change (find matplotlib "visual.Points") with (Some (mkCls "visual.Points" "visual.Points" points_sig)). cbn [k_sig]. now rewrite B.
  - change (find protocol "visual.Points") with (Some (mkCls "visual.Points" "visual.Points" points_sig)). cbn [k_sig]. now rewrite B.
Qed.
End Execute.

Lemma operators k o : In k protocol -> In o protocol -> k_path o = "transform.Operator" ->
  In (k_path k) ["transform.Add"; "transform.Sub"; "transform.Mul"; "transform.Div"] ->
  s_params (k_sig o) = req "operator" :: s_params (k_sig k).
Proof.
  intros K O P N.
  assert (Eo : Some o = find protocol "transform.Operator").
  { unfold protocol in O. cbn [In] in O. repeat (destruct O as [<-|O]; [first [discriminate P | reflexivity]|]). destruct O. }
  assert (Ek : Some k = find protocol (k_path k)).
  { unfold protocol in K. cbn [In] in K. repeat (destruct K as [<-|K]; [reflexivity|]). destruct K. }
  cbn [In] in N. destruct N as [N|[N|[N|[N|[]]]]]; rewrite <- N in Ek; injection Ek as ->; injection Eo as ->; reflexivity.
Qed.
