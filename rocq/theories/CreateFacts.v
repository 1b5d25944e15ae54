(** Proofs about the making of arrays. *)
From Verif Require Import Base Create CreateSpec.
Local Open Scope string_scope.

Lemma ndarray_ok l f t : Forall (fun n => 0 <= n)%Z l -> ndarray_new l f t = Ok (mkArray (map Z.to_nat l ++ item_shape f) t).
Proof.
  intros H. unfold ndarray_new. replace (existsb (fun n => (n <? 0)%Z) l) with false; [reflexivity|]. symmetry. induction H as [|n l N H IH]; cbn; [reflexivity|]. rewrite IH.
  destruct (Z.ltb_spec n 0); [lia|reflexivity].
Qed.
Lemma ndarray_negative l f t n : In n l -> (n < 0)%Z -> ndarray_new l f t = Err ValueError.
Proof.
  intros I N. unfold ndarray_new. replace (existsb (fun n => (n <? 0)%Z) l) with true; [reflexivity|]. symmetry. apply existsb_exists. exists n. split; [exact I|]. now apply Z.ltb_lt.
Qed.
Lemma made f t c : In f [Scalar; Vec 2; Vec 3; Vec 4; Mat 2; Mat 3; Mat 4] -> Forall (fun n => 0 <= n)%Z (axes c) ->
  make f t c = Ok (mkArray (map Z.to_nat (axes c) ++ item_shape f) t).
Proof.
  intros I F. destruct c as [|n|l]; cbn [make axes] in *; [|now apply ndarray_ok|now apply ndarray_ok].
  rewrite ndarray_ok by (constructor; [lia|constructor]). cbn [bind]. f_equal. unfold squeeze. cbn [a_shape a_type]. f_equal.
  cbn in I. destruct I as [<-|[<-|[<-|[<-|[<-|[<-|[<-|[]]]]]]]]; reflexivity.
Qed.
Lemma families name f t : In (name, (f, t)) functions -> In f [Scalar; Vec 2; Vec 3; Vec 4; Mat 2; Mat 3; Mat 4].
Proof. intros H. apply (in_map (fun p => fst (snd p))) in H. cbn [fst snd] in H. cbn in *. intuition. Qed.
Lemma call_eq name f t c : dget functions name = Some (f, t) -> call name c = make f t c.
Proof. intros E. unfold call. now rewrite E. Qed.
Theorem vectors_matrices p t k f c : In (p, t) letters -> In (k, f) kinds -> Forall (fun n => 0 <= n)%Z (axes c) ->
  call (p ++ k) c = Ok (mkArray (map Z.to_nat (axes c) ++ item_shape f) t).
Proof.
  intros L K F. rewrite (call_eq _ f t).
  - apply made; [|exact F]. cbn in K. cbn. repeat (destruct K as [K|K]; [injection K as <- <-; tauto|]). contradiction.
  - cbn in L, K. repeat (destruct L as [L|L]; [injection L as <- <-; repeat (destruct K as [K|K]; [injection K as <- <-; reflexivity|]); contradiction|]). contradiction.
Qed.
Theorem scalars c : Forall (fun n => 0 <= n)%Z (axes c) ->
  call "byte" c = Ok (mkArray (map Z.to_nat (axes c)) I8) /\ call "ubyte" c = Ok (mkArray (map Z.to_nat (axes c)) U8) /\
  call "float" c = Ok (mkArray (map Z.to_nat (axes c)) F32).
Proof.
  intros F. rewrite (call_eq "byte" Scalar I8), (call_eq "ubyte" Scalar U8), (call_eq "float" Scalar F32) by reflexivity.
  rewrite !made by (cbn; tauto || exact F). cbn [item_shape]. rewrite app_nil_r. auto.
Qed.
Theorem refused name p c n : In (name, p) functions -> In n (axes c) -> (n < 0)%Z -> call name c = Err ValueError.
Proof.
  intros I A N. assert (E : exists q, dget functions name = Some q).
  { cbn in I. repeat (destruct I as [I|I]; [injection I as <- _; eexists; reflexivity|]). contradiction. }
  destruct E as ((f & t) & E). rewrite (call_eq _ _ _ _ E). destruct c as [|m|l]; cbn [make axes] in *; [contradiction| |]; now apply (ndarray_negative _ _ _ n).
Qed.
(** The docstrings. *)
Theorem documented name f t c : In (name, (f, t)) functions -> Forall (fun n => 0 <= n)%Z (axes c) ->
  (call name c = Ok (mkArray (map Z.to_nat (axes c) ++ documented_item name f) (documented_type name t)) <->
   ~ In name ["byte"; "ubyte"; "float"; "imat2"; "umat2"]).
Proof.
  intros I F. assert (M : call name c = Ok (mkArray (map Z.to_nat (axes c) ++ item_shape f) t)).
  { rewrite (call_eq _ f t); [apply made; [exact (families _ _ _ I)|exact F]|].
    cbn in I. repeat (destruct I as [I|I]; [injection I as <- <- <-; reflexivity|]). contradiction. }
  rewrite M. split.
  - intros E. injection E as E1 E2. apply app_inv_head in E1. intros B. cbn in B, I.
    repeat (destruct B as [B|B]; [subst name; repeat (destruct I as [I|I]; [discriminate I || (injection I as <- <-; discriminate)|]); contradiction|]). contradiction.
  - intros B. cbn in I. repeat (destruct I as [I|I]; [injection I as <- <- <-; (exfalso; apply B; cbn; tauto) || reflexivity|]). contradiction.
Qed.

Lemma unknown name c : ~ In name ["byte"; "ubyte"; "float"] -> (forall p t k f, In (p, t) letters -> In (k, f) kinds -> name <> p ++ k) -> call name c = Err NameError.
Proof.
  intros N H. unfold call. destruct (dget functions name) as [[f t]|] eqn:E; [exfalso|reflexivity].
  apply dget_in in E. cbn [functions In] in E.
  assert (A : forall p t k f, In (p, t) letters -> In (k, f) kinds -> p ++ k = name -> False) by (intros p t' k f' Hp Hk Q; now apply (H p t' k f' Hp Hk)).
  repeat (destruct E as [E|E]; [injection E as <- <- <-; first
    [ apply N; cbn; tauto
    | eapply (A "b"); [left; reflexivity| |reflexivity]; cbn [kinds In]; tauto
    | eapply (A "i"); [do 1 right; left; reflexivity| |reflexivity]; cbn [kinds In]; tauto
    | eapply (A "u"); [do 2 right; left; reflexivity| |reflexivity]; cbn [kinds In]; tauto
    | eapply (A "h"); [do 3 right; left; reflexivity| |reflexivity]; cbn [kinds In]; tauto
    | eapply (A ""); [do 4 right; left; reflexivity| |reflexivity]; cbn [kinds In]; tauto
    | eapply (A "d"); [do 5 right; left; reflexivity| |reflexivity]; cbn [kinds In]; tauto ] |]). destruct E.
Qed.
