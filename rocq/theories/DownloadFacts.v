(** Proofs about the cache of downloaded files. *)
From Verif Require Import Base Download DownloadSpec.
Local Open Scope list_scope.

Lemma starts_iff p : forall s, starts_with p s = true <-> exists r, s = (p ++ r)%string.
Proof.
  induction p as [|a p IH]; intros s; cbn; [split; [eauto|reflexivity]|]. destruct s as [|b s]; cbn.
  - split; [discriminate|]. intros (r & K). discriminate.
  - rewrite andb_true_iff, IH. split.
    + intros (E & r & ->). apply Ascii.eqb_eq in E. subst. eauto.
    + intros (r & E). injection E as <- ->. split; [apply Ascii.eqb_refl|eauto].
Qed.
Lemma occurs_iff p s : occurs p s = true <-> exists a b, s = (a ++ p ++ b)%string.
Proof.
  induction s as [|x s IH]; cbn; rewrite orb_true_iff, starts_iff.
  - split; [|intros (a & b & E)].
    + intros [(r & E)|K]; [|discriminate]. exists ""%string, r. exact E.
    + left. exists b. destruct a; [exact E|discriminate].
  - rewrite IH. split.
    + intros [(r & E)|(a & b & ->)]; [exists ""%string, r; exact E|]. exists (String x a), b. reflexivity.
    + intros (a & b & E). destruct a as [|y a]; [left; exists b; exact E|]. injection E as <- ->. right. eauto.
Qed.
Lemma pointer_iff {byte} (decode : list byte -> string) content :
  is_lfs_pointer decode content = true <->
  (exists r, decode content = ("version https://git-lfs.github.com" ++ r)%string) /\
  (exists a b, decode content = (a ++ "oid sha256:" ++ b)%string).
Proof. unfold is_lfs_pointer. now rewrite andb_true_iff, starts_iff, occurs_iff. Qed.

Section Download.
  Context {byte : Type} (decode : list byte -> string) (sv : @servers byte).
  Notation complete := (complete decode sv).
  Lemma put_get (c : @cache byte) path content p : put c path content p = if String.eqb p path then Some content else c p.
  Proof. reflexivity. Qed.
  (** One call changes at most its file. *)
  Lemma download_cases c path force t :
    (fst (download decode sv c path force t) = c) \/
    (exists full, complete path = Some full /\ (c path = None \/ force = true) /\
       fst (download decode sv c path force t) = put c path (match t with Cut n => firstn n full | _ => full end)).
  Proof.
    unfold download, complete.
    destruct (c path) as [old|] eqn:O; [destruct force; [|now left]|];
      (destruct t; destruct (raw sv path) as [r|] eqn:R; try (now left);
       destruct (is_lfs_pointer decode r) eqn:L; try (destruct (media sv path) as [m|] eqn:M); try (now left);
       right; eexists; (split; [reflexivity|]); (split; [auto|]); reflexivity).
  Qed.
  Lemma others_kept c path force t p : p <> path -> fst (download decode sv c path force t) p = c p.
  Proof.
    intros N. destruct (download_cases c path force t) as [->|(full & _ & _ & ->)]; [reflexivity|].
    rewrite put_get. destruct (String.eqb_spec p path); congruence.
  Qed.
  Lemma cached c path t content : c path = Some content -> download decode sv c path false t = (c, Ok path).
  Proof. intros H. unfold download. now rewrite H. Qed.
  Lemma success c path force t c' r : download decode sv c path force t = (c', Ok r) ->
    r = path /\ exists content, c' path = Some content /\
      ((c path = None \/ force = true) -> complete path = Some content).
  Proof.
    unfold download, complete.
    assert (P : forall (x : list byte), put c path x path = Some x) by (intros x; rewrite put_get, String.eqb_refl; reflexivity).
    destruct (c path) as [old|] eqn:O; [destruct force|];
      try (intros E; injection E as <- <-; split; [reflexivity|]; exists old; split; [exact O|]; intros [K|K]; discriminate);
      (destruct t; destruct (raw sv path) as [rw|] eqn:R; try discriminate;
       destruct (is_lfs_pointer decode rw) eqn:L; try (destruct (media sv path) as [m|] eqn:M); try discriminate;
       cbn [write]; intros E; try discriminate; injection E as <- <-; (split; [reflexivity|]); eexists; rewrite P; auto).
  Qed.
  (** Every file is the beginning of what it should be. *)
  Definition prefixes (c : @cache byte) : Prop := forall p content, c p = Some content -> exists full, complete p = Some full /\ is_prefix content full.
  Lemma firstn_prefix n (l : list byte) : is_prefix (firstn n l) l. Proof. now exists n. Qed.
  Lemma self_prefix (l : list byte) : is_prefix l l. Proof. exists (length l). now rewrite firstn_all. Qed.
  Lemma download_prefixes c path force t : prefixes c -> prefixes (fst (download decode sv c path force t)).
  Proof.
    intros H. destruct (download_cases c path force t) as [->|(full & C & _ & ->)]; [exact H|].
    intros p content. rewrite put_get. destruct (String.eqb_spec p path) as [->|N]; [|apply H].
    intros K. injection K as <-. exists full. split; [exact C|]. destruct t; auto using firstn_prefix, self_prefix.
  Qed.
  Lemma downloads_prefixes l : forall c, prefixes c -> prefixes (downloads decode sv c l).
  Proof. induction l as [|r l IH]; intros c H; cbn; auto using download_prefixes. Qed.
  (** Calls that are not cut leave complete files. *)
  Definition completes (c : @cache byte) : Prop := forall p content, c p = Some content -> complete p = Some content.
  Lemma downloads_complete l : forall c, Forall uncut l -> completes c -> completes (downloads decode sv c l).
  Proof.
    induction l as [|r l IH]; intros c F H; cbn; [exact H|]. inversion F as [|? ? U F']; subst. apply IH; [exact F'|].
    destruct (download_cases c (q_path r) (q_force r) (q_trouble r)) as [->|(full & C & _ & ->)]; [exact H|].
    intros p content. rewrite put_get. destruct (String.eqb_spec p (q_path r)) as [->|N]; [|apply H].
    intros K. injection K as <-. destruct (q_trouble r) as [| | |n] eqn:T; try exact C. now apply U in T.
  Qed.
  Lemma no_cut l path force t c' r : Forall uncut l ->
    download decode sv (downloads decode sv empty l) path force t = (c', Ok r) ->
    exists content, c' path = Some content /\ complete path = Some content.
  Proof.
    intros F D. assert (C : completes (downloads decode sv empty l)) by (apply downloads_complete; [exact F|intros ? ? K; discriminate K]).
    destruct (success _ _ _ _ _ _ D) as (_ & content & A & B). exists content. split; [exact A|].
    destruct (downloads decode sv empty l path) as [old|] eqn:O; [|auto]. destruct force; [auto|].
    rewrite (cached _ _ _ _ O) in D. injection D as <- _. rewrite O in A. injection A as <-. now apply C.
  Qed.
  Lemma after_any l path force t c' r :
    download decode sv (downloads decode sv empty l) path force t = (c', Ok r) ->
    exists content full, c' path = Some content /\ complete path = Some full /\ is_prefix content full /\
      (force = true -> content = full).
  Proof.
    intros D. destruct (success _ _ _ _ _ _ D) as (_ & content & A & B).
    assert (P : prefixes c').
    { pose proof (download_prefixes (downloads decode sv empty l) path force t) as Q. rewrite D in Q. apply Q.
      apply downloads_prefixes. intros ? ? K. discriminate K. }
    destruct (P _ _ A) as (full & C & I). exists content, full. do 3 (split; [assumption|]). intros ->.
    specialize (B (or_intror eq_refl)). congruence.
  Qed.
  (** Without trouble a wanted file is there, complete if it was not or forced. *)
  Lemma fine c path force full : complete path = Some full ->
    exists c', download decode sv c path force Fine = (c', Ok path).
  Proof.
    unfold complete, download. intros C. destruct (c path) as [old|]; [destruct force; [|eauto]|];
      (destruct (raw sv path) as [rw|]; [|discriminate]; destruct (is_lfs_pointer decode rw); [|cbn; eauto]; rewrite C; cbn; eauto).
  Qed.
  (** A call cut while it writes leaves the first bytes, and calls that are not
      forced leave them there and return them. *)
  Lemma cut_leaves c path force n full : complete path = Some full -> c path = None \/ force = true ->
    exists c', download decode sv c path force (Cut n) = (c', Err RuntimeErr) /\ c' path = Some (firstn n full).
  Proof.
    unfold complete, download. intros C W.
    assert (E : (match c path, force with Some _, false => (c, Ok path) | _, _ =>
        match raw sv path with None => (c, Err RuntimeErr) | Some content =>
          if is_lfs_pointer decode content then match media sv path with None => (c, Err RuntimeErr) | Some content => write (Cut n) c path content end
          else write (Cut n) c path content end end) = (put c path (firstn n full), Err RuntimeErr)).
    { assert (B : match raw sv path with None => (c, Err RuntimeErr) | Some content =>
          if is_lfs_pointer decode content then match media sv path with None => (c, Err RuntimeErr) | Some content => write (Cut n) c path content end
          else write (Cut n) c path content end = (put c path (firstn n full), Err RuntimeErr)).
      { destruct (raw sv path) as [rw|]; [|discriminate]. destruct (is_lfs_pointer decode rw); [rewrite C; reflexivity|].
        injection C as <-. reflexivity. }
      destruct (c path) as [old|]; [|exact B]. destruct force; [exact B|]. destruct W; discriminate. }
    exists (put c path (firstn n full)). split; [exact E|]. now rewrite put_get, String.eqb_refl.
  Qed.
  Lemma stays l path content : Forall (fun r => q_force r = false) l -> forall c, c path = Some content ->
    downloads decode sv c l path = Some content.
  Proof.
    induction 1 as [|r l F _ IH]; intros c H; cbn; [exact H|]. apply IH.
    destruct (String.eqb_spec (q_path r) path) as [E|N].
    - rewrite F, E. now rewrite (cached _ _ _ _ H).
    - rewrite others_kept by congruence. exact H.
  Qed.
  Lemma cut_stays c path force n full l t : complete path = Some full -> c path = None \/ force = true ->
    Forall (fun r => q_force r = false) l ->
    exists c', download decode sv (downloads decode sv (fst (download decode sv c path force (Cut n))) l) path false t = (c', Ok path) /\
      c' path = Some (firstn n full).
  Proof.
    intros C W F. destruct (cut_leaves c path force n full C W) as (c1 & D & K). rewrite D. cbn [fst].
    pose proof (stays l path _ F c1 K) as G. eexists. split; [exact (cached _ _ _ _ G)|exact G].
  Qed.
End Download.
Lemma cut_refuted {byte} decode (sv : @servers byte) path full n : complete decode sv path = Some full -> n < length full ->
  exists c c' content,
  download decode sv empty path false (Cut n) = (c, Err RuntimeErr) /\
  download decode sv c path false Fine = (c', Ok path) /\
  c' path = Some content /\ complete decode sv path <> Some content.
Proof.
  intros C L. destruct (cut_leaves decode sv empty path false n full C (or_introl eq_refl)) as (c & D & K).
  exists c, c, (firstn n full). split; [exact D|]. split; [exact (cached _ _ _ _ _ _ K)|]. split; [exact K|].
  rewrite C. intros E. injection E as E. apply (f_equal (@length byte)) in E. rewrite firstn_length in E. lia.
Qed.
