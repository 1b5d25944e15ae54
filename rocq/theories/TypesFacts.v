(** Proofs about the converters and Matrix. *)
From Verif Require Import Base Base64 Buffer Types Registry Convert Command Queue Execute Json.
Local Open Scope nat_scope.
Local Open Scope list_scope.
Local Open Scope string_scope.

Lemma target objects tracker src dst f v w : In (src, dst, f) (registered objects tracker) -> dst <> "Canvas" ->
  f v = Ok w -> Types.class_of w = dst.
Proof.
  intros I N E. cbn in I. repeat (destruct I as [I|I]; [injection I as <- <- <-|]); try contradiction; try discriminate; try congruence.
  - destruct v as [| | |l| | | | | | | |]; try discriminate. destruct l as [|a [|b [|c [|d [|e l]]]]]; try discriminate. now injection E as <-.
  - destruct v as [| | | |l|r g b a| | | | | |]; try discriminate; [|now injection E as <-].
    destruct l as [|a [|b [|c [|d [|e l]]]]]; try discriminate. now injection E as <-.
  - destruct v; try discriminate. now injection E as <-.
  - destruct v; try discriminate; now injection E as <-.
  - now injection E as <-.
  - destruct v as [| | |l| | | | | | | |]; try discriminate. cbn in E. destruct (forallb has_len l); [|discriminate]. destruct (tracker l); discriminate.
  - destruct v as [|z| | | | |z| | | | |]; try discriminate; cbn in E; destruct (_ && _)%bool; try discriminate; now injection E as <-.
  - destruct v as [| | | | | | |[|n sh] w' f c a| | | |]; try discriminate. now injection E as <-.
  - destruct v; try discriminate. now injection E as <-.
Qed.
Lemma color_ok l : match l with
                   | [r; g; b; a] => list_to_Color (PList l) = Ok (PColor r g b a) /\ tuple_to_Color (PTuple l) = Ok (PColor r g b a)
                   | _ => list_to_Color (PList l) = Err TypeError /\ tuple_to_Color (PTuple l) = Err TypeError
                   end.
Proof. destruct l as [|a [|b [|c [|d [|e l]]]]]; split; reflexivity. Qed.
Lemma never objects tracker src dst f v w : In (src, dst, f) (registered objects tracker) ->
  In (src, dst) [("str", "memoryview"); ("Color", "list"); ("Color", "tuple"); ("ndarray", "Matrix"); ("list", "Buffer"); ("list", "List")] ->
  f v <> Ok w.
Proof.
  intros I J E. cbn in I. repeat (destruct I as [I|I]; [injection I as <- <- <-|]); try contradiction; try discriminate E;
    try (cbn in J; repeat (destruct J as [J|J]; [discriminate J|]); contradiction).
  destruct v as [| | |l| | | | | | | |]; try discriminate. cbn in E. destruct (forallb has_len l); [|discriminate]. destruct (tracker l); discriminate.
Qed.
Lemma marker_ok z : int_to_Marker (PInt z) = if ((1 <=? z) && (z <=? 12))%Z then Ok (PMarker z) else Err ValueError.
Proof. reflexivity. Qed.
Lemma matrix_ok shape place : matrix (PArray shape 4 true true place) = Ok (PMatrix place (total shape)).
Proof.
  unfold matrix. rewrite Nat.mod_mul by discriminate. cbn [Nat.eqb]. rewrite Nat.div_mul by discriminate. reflexivity.
Qed.
Lemma matrix_double shape place : matrix (PArray shape 8 false true place) = Ok (PMatrix place (2 * total shape)).
Proof.
  unfold matrix. replace (total shape * 8)%nat with ((2 * total shape) * 4)%nat by lia.
  rewrite Nat.mod_mul by discriminate. cbn [Nat.eqb]. rewrite Nat.div_mul by discriminate. reflexivity.
Qed.

(** A conversion that fails makes saving fail. *)
Section Saving.
  Variables (ap : conv) (oidf : Registry.ref -> Z) (k : string) (f : func) (w : value) (e : exn).
  Hypothesis fails : ap f w = ([], Err e).
  Lemma dump_params_fails p : In (k, VConv f w) p -> forall s acc r, snd (dump_params ap oidf s p acc) <> Ok r.
  Proof.
    induction p as [|[k' v] p IH]; intros I s acc r; [destruct I|]. destruct I as [I|I].
    - injection I as -> ->. cbn. rewrite fails. discriminate.
    - cbn [dump_params]. destruct (match v with VConv g x => _ | _ => _ end) as [s1 [x|x]]; [|discriminate].
      destruct x; apply IH; exact I.
  Qed.
  Lemma dump_loop_fails q c : In (k, VConv f w) (c_params c) -> forall n s i j, nth_error (commands s q) (i + j) = Some c ->
    (forall s p acc, commands (fst (dump_params ap oidf s p acc)) q = commands s q) ->
    forall r, snd (dump_loop ap oidf n s q i) <> Ok r.
  Proof.
    intros I n. induction n as [|n IH]; intros s i j E Keep r; cbn [dump_loop].
    - destruct (nth_error (commands s q) i) as [c'|] eqn:N; [discriminate|].
      apply nth_error_None in N. assert (nth_error (commands s q) (i + j) = None) by (apply nth_error_None; lia). congruence.
    - destruct (nth_error (commands s q) i) as [c'|] eqn:N.
      + unfold dump_command. pose proof (Keep s (c_params c') []) as Kp. destruct (dump_params ap oidf s (c_params c') []) as [s1 p] eqn:D.
        cbn [fst] in Kp. destruct p as [p|x]; cbn [bind]; [|discriminate].
        destruct j as [|j].
        * rewrite Nat.add_0_r in E. rewrite E in N. injection N as <-. exfalso. eapply (dump_params_fails _ I s []). rewrite D. reflexivity.
        * destruct (dump_loop ap oidf n s1 q (S i)) as [s2 r2] eqn:L. assert (X := IH s1 (S i) j). rewrite Kp in X.
          specialize (X ltac:(rewrite <- E; f_equal; lia) Keep). cbn [snd]. destruct r2 as [r2|]; [|discriminate].
          exfalso. apply (X r2). now rewrite L.
      + apply nth_error_None in N. assert (nth_error (commands s q) (i + j) = None) by (apply nth_error_None; lia). congruence.
  Qed.
End Saving.
Lemma quiet_keeps ap oidf : (forall f v, fst (ap f v) = []) -> forall p s acc, fst (dump_params ap oidf s p acc) = s.
Proof.
  intros Q. induction p as [|[k v] p IH]; intros s acc; [reflexivity|]. cbn [dump_params].
  destruct v as [| | | | | | | | |g x]; cbn; try apply IH; [].
  specialize (Q g x). destruct (ap g x) as [calls y]. cbn in Q. subst calls. cbn. destruct y as [y|y]; [|reflexivity]. destruct y; apply IH.
Qed.
Lemma saving_fails txt ap oidf fuel s q c k f w e : (forall f v, fst (ap f v) = []) -> ap f w = ([], Err e) ->
  In c (commands s q) -> In (k, VConv f w) (c_params c) -> forall r, snd (save_queue txt ap oidf fuel s (Some q)) <> Ok r.
Proof.
  intros Q F C P r. unfold save_queue. assert (NE : queue_or_active s (Some q) = (s, q)).
  { unfold queue_or_active. destruct (commands s q); [destruct C|reflexivity]. }
  rewrite NE, NE. destruct (In_nth_error _ _ C) as (i & N).
  pose proof (dump_loop_fails ap oidf k f w e F q c P fuel s 0 i N) as D.
  specialize (D ltac:(intros; rewrite (quiet_keeps _ _ Q); reflexivity)).
  destruct (dump_loop ap oidf fuel s q 0) as [s2 [l|]]; cbn; [|discriminate]. exfalso. now apply (D l).
Qed.

Lemma source objects tracker src dst f v w : In (src, dst, f) (registered objects tracker) -> f v = Ok w ->
  src = "NoneType" \/ Types.class_of v = src \/ (src = "tuple" /\ exists r g b a, v = PColor r g b a) \/ (src = "int" /\ exists z, v = PMarker z).
Proof.
  intros H E. cbn [registered In] in H.
  repeat (destruct H as [H|H]; [injection H as <- <- <-; destruct v; try discriminate; try (right; left; reflexivity); try (left; reflexivity);
    try (right; right; left; split; [reflexivity|eauto]; fail); try (right; right; right; split; [reflexivity|eauto]; fail)|]).
  destruct H.
Qed.
Lemma registered_names objects tracker : map fst (registered objects tracker) =
  [ ("str", "memoryview"); ("list", "Color"); ("tuple", "Color"); ("Color", "list"); ("Color", "tuple"); ("list", "tuple"); ("tuple", "list");
    ("int", "Canvas"); ("NoneType", "list"); ("ndarray", "Matrix"); ("list", "Buffer"); ("list", "List"); ("int", "Marker"); ("ndarray", "Buffer"); ("tracked", "Buffer") ].
Proof. reflexivity. Qed.
