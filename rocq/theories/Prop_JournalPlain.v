(** C98: recording does not change what transforms are. *)
From Verif Require Import Base Registry Convert Command Execute Protocol Session Journal JournalSpec JournalPlainSpec JournalPlainFacts.
From Verif Require Transform.
Open Scope string_scope.

(** Programs that make, copy, chain, bind and set transforms end with the same
    transforms, or the same exception, with the recording of commands and without. *)
Theorem C98_same (K : kind_code) (I : Transform.interp value) (fuel : nat) (l : list step) :
  codes K -> (forall v, bindable v = true -> Transform.e_bindable I v = true) ->
  all_typed fuel fresh l -> same_end K (do_steps fuel fresh l) (plain_steps K I fuel [] l).
Proof. intros HK HI. exact (recording_aside K HK I fuel l HI). Qed.
Print Assumptions C98_same.

(** Also with any values given, and whether commands are recorded or not. *)
Theorem C98_switch (fuel : nat) (l : list step) (s s' : st) :
  nodes s = nodes s' -> same_nodes (do_steps fuel s l) (do_steps fuel s' l).
Proof. exact (steps_alike fuel l s s'). Qed.
Print Assumptions C98_switch.

(** The code of the examples is one. *)
Example C98_code : codes code.
Proof. intros k a. destruct k; cbn; eauto; repeat split; discriminate. Qed.
(** The program of the example meets the hypotheses, and does what it says. *)
Example C98_met : all_typed 9 fresh program.
Proof.
  unfold program. cbn [all_typed].
  repeat match goal with
    | |- typed _ _ /\ _ => split
    | |- typed _ (Make _ _ _) => split; [cbn; tauto|split; [cbn [In]; intros v H; repeat (destruct H as [<-|H]; [try reflexivity; eexists; split; reflexivity|]); contradiction|intros n v []]]
    | |- typed _ (Copy _) => eexists; split; [reflexivity|discriminate]
    | |- typed _ (Chain _ _) => split; (eexists; split; [reflexivity|discriminate])
    | |- typed _ (Bind _ _) => split; [eexists; split; [reflexivity|discriminate]|split; [try reflexivity; eexists; split; reflexivity|reflexivity]]
    | |- typed _ (Set_ _ _ _) => split; [eexists; split; [reflexivity|discriminate]|split; [try reflexivity; eexists; split; reflexivity|intros [X|X]; discriminate X]]
    | |- context [do_step ?f ?c ?a] => let r := eval vm_compute in (do_step f c a) in change (do_step f c a) with r; cbv iota beta
    end.
  exact I.
Qed.
Example C98_case :
  match do_steps 9 fresh program with
  | Ok s => length (nodes s) = 21%nat /\ length (log s) = 67%nat /\ plain_steps code any 9 [] program = Ok (map (as_node code) (nodes s))
  | Err _ => False
  end.
Proof. vm_compute. repeat (split; [reflexivity|]). reflexivity. Qed.
