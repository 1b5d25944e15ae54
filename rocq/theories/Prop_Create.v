(** C76: arrays made by glm. *)
From Verif Require Import Base Create CreateSpec CreateFacts.
Local Open Scope string_scope.

(** Letter, kind and size in the name give type and shape; the count gives the axes
    before, none for None. *)
Theorem C76_vectors_matrices p t k f c : In (p, t) letters -> In (k, f) kinds -> Forall (fun n => 0 <= n)%Z (axes c) ->
  call (p ++ k) c = Ok (mkArray (map Z.to_nat (axes c) ++ item_shape f) t).
Proof. exact (vectors_matrices p t k f c). Qed.
Print Assumptions C76_vectors_matrices.
Theorem C76_scalars c : Forall (fun n => 0 <= n)%Z (axes c) ->
  call "byte" c = Ok (mkArray (map Z.to_nat (axes c)) I8) /\ call "ubyte" c = Ok (mkArray (map Z.to_nat (axes c)) U8) /\
  call "float" c = Ok (mkArray (map Z.to_nat (axes c)) F32).
Proof. exact (scalars c). Qed.
Print Assumptions C76_scalars.
Theorem C76_negative name p c n : In (name, p) functions -> In n (axes c) -> (n < 0)%Z -> call name c = Err ValueError.
Proof. exact (refused name p c n). Qed.
Print Assumptions C76_negative.
(** The docstrings are right for all but five: scalars have no last axis of one, and
    two matrices of integers have 32 bits, not 8. *)
Theorem C76_documented_refuted name f t c : In (name, (f, t)) functions -> Forall (fun n => 0 <= n)%Z (axes c) ->
  (call name c = Ok (mkArray (map Z.to_nat (axes c) ++ documented_item name f) (documented_type name t)) <->
   ~ In name ["byte"; "ubyte"; "float"; "imat2"; "umat2"]).
Proof. exact (documented name f t c). Qed.
Print Assumptions C76_documented_refuted.

Example C76_case : In ("d", F64) letters /\ In ("mat3", Mat 3) kinds /\ Forall (fun n => 0 <= n)%Z (axes (CTuple [3; 5]%Z)) /\
  call "dmat3" (CTuple [3; 5]%Z) = Ok (mkArray [3; 5; 3; 3] F64) /\ call "vec3" CNone = Ok (mkArray [3] F32) /\
  call "vec3" (CInt 1) = Ok (mkArray [1; 3] F32) /\ call "float" (CInt 4) = Ok (mkArray [4] F32) /\ call "mat4" (CInt (-1)) = Err ValueError.
Proof. repeat split; cbn; auto 10. repeat constructor; lia. Qed.

(** There are no others. *)
Theorem C76_unknown name c : ~ In name ["byte"; "ubyte"; "float"] -> (forall p t k f, In (p, t) letters -> In (k, f) kinds -> name <> p ++ k) ->
  call name c = Err NameError.
Proof. exact (unknown name c). Qed.
Print Assumptions C76_unknown.
Example C76_unknown_case : forall p t k f, In (p, t) letters -> In (k, f) kinds -> "vec5" <> p ++ k.
Proof. intros p t k f P K. cbn in P, K. intuition; match goal with A : (_, _) = (_, _), B : (_, _) = (_, _) |- _ => injection A as <- <-; injection B as <- <- end; discriminate. Qed.
