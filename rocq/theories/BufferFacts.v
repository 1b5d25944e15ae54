(** Proofs about buffers, lists and sessions. *)
From Verif Require Import Base Base64 Base64Facts Buffer BufferSpec.
Local Open Scope nat_scope.
Local Open Scope list_scope.

Lemma items_length w l its : items_of w l its -> length l = length its * w.
Proof.
  intros (<- & F). induction F as [|i its L _ IH]; cbn; [reflexivity|]. rewrite app_length, IH, L. reflexivity.
Qed.
Lemma items_exist w l : 0 < w -> length l mod w = 0 -> exists its, items_of w l its.
Proof.
  intros W M. assert (E : length l = (length l / w) * w). { pose proof (Nat.div_mod (length l) w). lia. }
  set (k := length l / w) in *. clearbody k. clear M. revert l E. induction k as [|k IH]; intros l E.
  - exists []. split; [|constructor]. destruct l; [reflexivity|discriminate].
  - destruct (IH (skipn w l)) as (its & C & F); [rewrite skipn_length; lia|].
    exists (firstn w l :: its). split; [cbn; rewrite C; apply firstn_skipn|]. constructor; [|exact F]. rewrite firstn_length. lia.
Qed.
Lemma items_mod w l its : 0 < w -> items_of w l its -> length l mod w = 0.
Proof. intros W I. rewrite (items_length _ _ _ I). apply Nat.mod_mul. lia. Qed.
Lemma frombuffer_ok w l its s : 0 < w -> items_of w l its -> frombuffer w (length l) s = Ok s.
Proof. intros W I. unfold frombuffer. destruct w as [|w]; [lia|]. now rewrite (items_mod _ _ _ W I). Qed.
Lemma frombuffer_bad w l s : (forall its, ~ items_of w l its) -> frombuffer w (length l) s = Err ValueError.
Proof.
  intros N. unfold frombuffer. destruct w as [|w]; [reflexivity|]. destruct (Nat.eqb_spec (length l mod S w) 0) as [E|E]; [|reflexivity].
  destruct (items_exist (S w) l) as (its & I); [lia|exact E|]. now apply N in I.
Qed.
Lemma made c w d b : make c w d = Ok b -> b_count b = c /\ b_width b = w /\ b_array b = None /\ (forall t, b_data b <> SText t) /\
  forall mem l, holds mem d l <-> holds mem (b_data b) l.
Proof.
  unfold make. destruct d as [|x|t|a]; cbn.
  - intros E. injection E as <-. cbn. repeat split; try discriminate; tauto.
  - intros E. injection E as <-. cbn. repeat split; try discriminate; tauto.
  - destruct (b64decode t) as [x|e] eqn:D; [|discriminate]. intros E. injection E as <-. cbn. split; [reflexivity|]. split; [reflexivity|].
    split; [reflexivity|]. split; [discriminate|]. intros mem l. split; [intros H; now injection H|intros ->; reflexivity].
  - intros E. injection E as <-. cbn. repeat split; try discriminate; tauto.
Qed.
Lemma contents c w d b mem l its : make c w d = Ok b -> holds mem d l -> 0 < w -> items_of w l its ->
  exists b' s, (forall fresh, array mem fresh b = Ok (b', s)) /\ bytes_of mem s = l /\
    (forall mem' fresh', array mem' fresh' b' = Ok (b', s)) /\ len b' = c /\
    (forall mem' l', holds mem' d l' -> bytes_of mem' s = l').
Proof.
  intros M H W I. destruct (made _ _ _ _ M) as (C & Wd & A & T & Hd). apply Hd in H.
  unfold array. rewrite A, Wd. destruct (b_data b) as [|x|t|a] eqn:D; cbn in H; [destruct H| |now destruct (T t)|]; subst.
  - eexists _, _. split; [intros fresh; cbn; rewrite (frombuffer_ok _ _ _ _ W I); reflexivity|]. repeat split.
    intros mem' l' H. apply Hd in H. exact H.
  - eexists _, _. split; [intros fresh; cbn; rewrite (frombuffer_ok _ _ _ _ W I); reflexivity|]. repeat split.
    intros mem' l' H. apply Hd in H. exact H.
Qed.
Lemma bad_size c w d b mem fresh l : make c w d = Ok b -> holds mem d l -> (forall its, ~ items_of w l its) -> array mem fresh b = Err ValueError.
Proof.
  intros M H N. destruct (made _ _ _ _ M) as (C & Wd & A & T & Hd). apply Hd in H.
  unfold array. rewrite A, Wd. destruct (b_data b) as [|x|t|a] eqn:D; cbn in H; [destruct H| |now destruct (T t)|]; subst; cbn;
    now rewrite (frombuffer_bad _ _ _ N).
Qed.
Lemma no_data c w mem fresh : exists b b' s, make c w SNone = Ok b /\ array mem fresh b = Ok (b', s) /\ bytes_of mem s = fresh (c * w) /\
  forall mem' fresh', array mem' fresh' b' = Ok (b', s) /\ bytes_of mem' s = bytes_of mem s.
Proof. eexists _, _, _. repeat split. Qed.
Lemma same_as_text c w l : all_bytes l -> make c w (SText (b64encode l)) = make c w (SBytes l).
Proof. intros B. unfold make. rewrite b64_roundtrip; [reflexivity|]. intros x I. unfold all_bytes in B. rewrite Forall_forall in B. now apply B. Qed.
Lemma bad_text c w t e : b64decode t = Err e -> make c w (SText t) = Err e.
Proof. intros D. unfold make. now rewrite D. Qed.
Lemma right_len c w l its : 0 < w -> items_of w l its -> (length its = c <-> length l = c * w).
Proof. intros W I. rewrite (items_length _ _ _ I). split; [congruence|]. intros E. apply Nat.mul_cancel_r in E; lia. Qed.
Lemma tracked_len mem a n k w : 0 < w -> length (mem a) = n * k * w ->
  exists its, items_of w (mem a) its /\ length its = n * k /\ (length its = len (tracker_buffer a n w) <-> n = 0 \/ k = 1).
Proof.
  intros W L. destruct (items_exist w (mem a)) as (its & I); [exact W|rewrite L; apply Nat.mod_mul; lia|].
  exists its. split; [exact I|]. assert (E : length its = n * k). { apply (right_len _ w (mem a)); assumption. }
  split; [exact E|]. rewrite E. cbn. split; [nia|]. intros [->| ->]; lia.
Qed.
Lemma lists l mem fresh : list_len l = match l_sizes l with OneSize _ => Err NameError | SizesIn b => Ok (len b) end /\
  match list_array mem fresh l, array mem fresh (l_data l) with
  | Ok (l', s), Ok (b', s') => s = s' /\ l_data l' = b' /\ l_sizes l' = l_sizes l
  | Err e, Err e' => e = e'
  | _, _ => False
  end.
Proof. split; [reflexivity|]. unfold list_array. destruct (array mem fresh (l_data l)) as [[b s]|e]; cbn; auto. Qed.

(** Sessions. *)
Definition mem_ok (mem : memory) : Prop := forall a, all_bytes (mem a).
Lemma write_ok mem a l : mem_ok mem -> all_bytes l -> mem_ok (write mem a l).
Proof. intros M B x. unfold write. destruct (x =? a); auto. Qed.
Lemma happens_ok s e : mem_ok (s_mem s) -> bytes_event e -> mem_ok (s_mem (happens s e)).
Proof. destruct e as [a n w|a new rs]; cbn; [auto|]. intros M B. now apply write_ok. Qed.
Lemma history_ok l : forall s, mem_ok (s_mem s) -> Forall bytes_event l -> mem_ok (s_mem (history s l)).
Proof. induction l as [|e l IH]; intros s M F; cbn; [exact M|]. inversion F; subst. apply IH; [now apply happens_ok|assumption]. Qed.
Lemma at_place_same {A D} (l : list A) : forall i o (t : D) (f : A -> nat -> D -> A), (forall x, f x o t = x) -> at_place l i (fun b => f b o t) = l.
Proof. induction l as [|x l IH]; intros [|i] o t f E; cbn; try reflexivity; [now rewrite E|]. now rewrite IH. Qed.
(** What a list of commands makes when written in a given memory. *)
Fixpoint makes (mem : memory) (l : list command) : list buffer :=
  match l with
  | [] => []
  | CCreate a n w :: r => mkBuffer n w (SBytes (mem a)) None :: makes mem r
  | CSet _ _ _ :: r => makes mem r
  end.
Lemma makes_app mem l l' : makes mem (l ++ l') = makes mem l ++ makes mem l'.
Proof. induction l as [|[a n w|b o d] l IH]; cbn; [reflexivity|now rewrite IH|exact IH]. Qed.
Lemma makes_sets mem {A} (rs : list A) f g h : makes mem (map (fun r => CSet (f r) (g r) (h r)) rs) = [].
Proof. induction rs as [|r rs IH]; cbn; auto. Qed.
Lemma replay_written mem : mem_ok mem -> forall l bs rest, replay bs (map (written mem) l ++ rest) = replay (bs ++ makes mem l) rest.
Proof.
  intros M. induction l as [|[a n w|b o d] l IH]; intros bs rest; cbn [map app replay written makes].
  - now rewrite app_nil_r.
  - unfold play. rewrite same_as_text by apply M. cbn [make bind]. rewrite IH, <- app_assoc. reflexivity.
  - unfold play. rewrite (at_place_same bs b o (b64encode d) (fun b o t => set_data b o t)) by reflexivity. cbn [bind]. apply IH.
Qed.
Definition mirrors (mem : memory) (ab : nat * buffer) : buffer := mkBuffer (b_count (snd ab)) (b_width (snd ab)) (SBytes (mem (fst ab))) None.
Lemma log_makes l : forall s, Forall (fun ab => b_data (snd ab) = SArray (fst ab) /\ b_array (snd ab) = None) (s_buffers s) ->
  (forall mem, makes mem (s_log s) = map (mirrors mem) (s_buffers s)) ->
  Forall (fun ab => b_data (snd ab) = SArray (fst ab) /\ b_array (snd ab) = None) (s_buffers (history s l)) /\
  (forall mem, makes mem (s_log (history s l)) = map (mirrors mem) (s_buffers (history s l))).
Proof.
  induction l as [|e l IH]; intros s F M; cbn; [auto|]. apply IH; destruct e as [a n w|a new rs]; cbn.
  - apply Forall_app. split; [exact F|]. repeat constructor.
  - exact F.
  - intros mem. rewrite makes_app, map_app, M. reflexivity.
  - intros mem. rewrite makes_app, M, makes_sets, app_nil_r. reflexivity.
Qed.
Lemma mirrors_same mem a b : b_data b = SArray a -> b_array b = None -> reads_same mem b (mirrors mem (a, b)).
Proof.
  intros D A. split; [reflexivity|]. split; [reflexivity|]. intros fresh mem'. unfold array, mirrors. cbn. rewrite A, D.
  unfold frombuffer. destruct (b_width b) as [|w]; cbn; [reflexivity|]. destruct (_ =? 0); cbn; reflexivity.
Qed.
Lemma saved_ok mem l : mem_ok mem -> Forall bytes_event l ->
  exists bs, replay [] (saved (history (opened mem) l)) = Ok bs /\
    Forall2 (fun ab b' => reads_same (s_mem (history (opened mem) l)) (snd ab) b') (s_buffers (history (opened mem) l)) bs.
Proof.
  intros M F. set (s := history (opened mem) l). assert (MS : mem_ok (s_mem s)) by (now apply history_ok).
  destruct (log_makes l (opened mem)) as (I & L); [constructor|reflexivity|]. fold s in I, L.
  exists (makes (s_mem s) (s_log s)). split.
  - unfold saved. rewrite <- (app_nil_r (map _ _)), (replay_written _ MS). reflexivity.
  - rewrite L. clear L. induction I as [|[a b] r (D & A) _ IH]; constructor; [|exact IH]. now apply mirrors_same.
Qed.
Definition as_made (x : nat * nat * list N) : buffer := mkBuffer (fst (fst x)) (snd (fst x)) (SBytes (snd x)) None.
Lemma first_bytes_ext l : forall m m', (forall a, m a = m' a) -> first_bytes m l = first_bytes m' l.
Proof.
  induction l as [|[a n w|a new rs] l IH]; intros m m' E; cbn; [reflexivity|rewrite (E a); f_equal; now apply IH|].
  apply IH. intros x. destruct (x =? a); auto.
Qed.
Lemma skipn_app_exact {A} (l r : list A) : skipn (length l) (l ++ r) = r.
Proof. rewrite skipn_app, skipn_all, Nat.sub_diag. reflexivity. Qed.
Lemma sent_ok l : forall s bs, mem_ok (s_mem s) -> Forall bytes_event l ->
  replay bs (sent s l) = Ok (bs ++ map as_made (first_bytes (s_mem s) l)).
Proof.
  induction l as [|e l IH]; intros s bs M F; cbn [sent first_bytes replay]; [cbn; now rewrite app_nil_r|].
  inversion F as [|? ? B F']; subst. assert (M' := happens_ok s e M B).
  rewrite (replay_written _ M'), (IH _ _ M' F'). f_equal. destruct e as [a n w|a new rs]; cbn [happens track assign s_log s_mem].
  - rewrite skipn_app_exact. cbn. rewrite <- app_assoc. reflexivity.
  - rewrite skipn_app_exact, makes_sets, app_nil_r. reflexivity.
Qed.
Lemma sent_all mem l : mem_ok mem -> Forall bytes_event l -> replay [] (sent (opened mem) l) = Ok (map as_made (first_bytes mem l)).
Proof. intros M F. now rewrite sent_ok. Qed.
Lemma never_changes a l : forall s, (forall x new, In (EAssign a new x) l -> new = s_mem s a) -> s_mem (history s l) a = s_mem s a.
Proof.
  induction l as [|e l IH]; intros s H; [reflexivity|]. change (history s (e :: l)) with (history (happens s e) l).
  assert (E : s_mem (happens s e) a = s_mem s a).
  { destruct e as [b n w|b new rs]; cbn; [reflexivity|]. unfold write. destruct (Nat.eqb_spec a b) as [->|N]; [|reflexivity]. eapply H. now left. }
  rewrite IH, E; [reflexivity|]. intros x new I. rewrite E. eapply H. right. exact I.
Qed.
Lemma unchanged_ext l : forall m m', (forall a, m a = m' a) -> unchanged_after m l -> unchanged_after m' l.
Proof.
  induction l as [|[a n w|a new rs] l IH]; intros m m' E; cbn; [auto| |].
  - intros (A & B). split; [intros x new I; rewrite <- E; eauto|]. eauto.
  - apply IH. intros x. destruct (x =? a); auto.
Qed.
Lemma first_is_last l : forall s, unchanged_after (s_mem s) l ->
  map (fun ab => (b_count (snd ab), b_width (snd ab), s_mem (history s l) (fst ab))) (skipn (length (s_buffers s)) (s_buffers (history s l)))
  = first_bytes (s_mem s) l /\ firstn (length (s_buffers s)) (s_buffers (history s l)) = s_buffers s.
Proof.
  induction l as [|e l IH]; intros s U.
  - cbn [history fold_left]. rewrite skipn_all, firstn_all. auto.
  - change (history s (e :: l)) with (history (happens s e) l). destruct e as [a n w|a new rs]; cbn in U.
    + destruct U as (A & U). destruct (IH (happens s (ETrack a n w)) U) as (I & J). cbn [happens track s_buffers s_mem] in I, J.
      rewrite app_length in I, J. cbn in I, J. set (h := history _ l) in *.
      assert (K : s_buffers h = s_buffers s ++ (a, tracker_buffer a n w) :: skipn (length (s_buffers s) + 1) (s_buffers h)).
      { rewrite <- (firstn_skipn (length (s_buffers s) + 1) (s_buffers h)) at 1. rewrite J, <- app_assoc. reflexivity. }
      rewrite K at 1. rewrite skipn_app_exact. cbn [map first_bytes]. rewrite I. split.
      * f_equal. cbn. f_equal. unfold h. rewrite never_changes; [reflexivity|]. exact A.
      * rewrite K, firstn_app, Nat.sub_diag, firstn_O, app_nil_r, firstn_all. reflexivity.
    + apply (IH (happens s (EAssign a new rs))). cbn. exact U.
Qed.
Lemma sent_same mem l : mem_ok mem -> Forall bytes_event l -> unchanged_after mem l ->
  exists bs, replay [] (sent (opened mem) l) = Ok bs /\
    Forall2 (fun ab b' => reads_same (s_mem (history (opened mem) l)) (snd ab) b') (s_buffers (history (opened mem) l)) bs.
Proof.
  intros M F U. rewrite (sent_all _ _ M F). eexists. split; [reflexivity|].
  destruct (first_is_last l (opened mem) U) as (E & _). cbn [opened s_buffers length skipn s_mem] in E. rewrite <- E, map_map.
  destruct (log_makes l (opened mem)) as (I & _); [constructor|reflexivity|]. clear E.
  set (h := history _ l) in *. induction I as [|[a b] r (D & A) _ IH]; constructor; [|exact IH]. now apply mirrors_same.
Qed.

(** ** Updates *)
Lemma nth_error_ext' {A} (l l' : list A) : (forall k, nth_error l k = nth_error l' k) -> l = l'.
Proof.
  revert l'. induction l as [|x l IH]; intros [|y l'] H; [reflexivity|discriminate (H 0)|discriminate (H 0)|].
  f_equal; [specialize (H 0); cbn in H; congruence|]. apply IH. intros k. exact (H (S k)).
Qed.
Lemma nth_error_dec (l l' : list N) k : nth_error l k = nth_error l' k \/ nth_error l k <> nth_error l' k.
Proof. destruct (nth_error l k) as [x|], (nth_error l' k) as [y|]; [destruct (N.eq_dec x y) as [->|]| | |]; auto; right; congruence. Qed.
Lemma part_length start stop l : stop <= length l -> length (part start stop l) = stop - start.
Proof. intros H. unfold part. rewrite firstn_length, skipn_length. lia. Qed.
Lemma nth_error_skipn {A} (l : list A) n k : nth_error (skipn n l) k = nth_error l (n + k).
Proof. revert l. induction n as [|n IH]; intros l; [reflexivity|]. destruct l; [now destruct k|apply IH]. Qed.
Lemma nth_error_firstn {A} (l : list A) n k : nth_error (firstn n l) k = if k <? n then nth_error l k else None.
Proof.
  revert l k. induction n as [|n IH]; intros l k; [destruct k; reflexivity|]. destruct l as [|x l]; [destruct k; cbn [firstn nth_error]; [reflexivity|now destruct (S k <? S n)]|].
  destruct k; [reflexivity|]. cbn. rewrite IH. reflexivity.
Qed.
Lemma nth_error_part start stop l k : nth_error (part start stop l) k = if k <? stop - start then nth_error l (start + k) else None.
Proof. unfold part. rewrite nth_error_firstn, nth_error_skipn. reflexivity. Qed.
Lemma update_carries s a new reports : (forall r, In r reports -> snd (snd r) <= length new) ->
  exists cs, s_log (happens s (EAssign a new reports)) = s_log s ++ cs /\ Forall2 (carries new) reports cs.
Proof.
  intros H. eexists. split; [reflexivity|]. induction reports as [|r rs IH]; constructor; [|apply IH; intros; apply H; now right].
  eexists. split; [reflexivity|]. rewrite part_length by (apply H; now left). split; [reflexivity|].
  intros k Hk. rewrite nth_error_part. destruct (Nat.ltb_spec k (snd (snd r) - fst (snd r))); [reflexivity|lia].
Qed.
Lemma nth_at_place {A} (l : list A) i f k : nth_error (at_place l i f) k = if k =? i then match nth_error l k with Some x => Some (f x) | None => None end else nth_error l k.
Proof.
  revert i k. induction l as [|x l IH]; intros i k; [destruct i, k; cbn; try reflexivity; now destruct (k =? i)|].
  destruct i, k; cbn; try reflexivity. apply IH.
Qed.
Lemma length_at_place {A} (l : list A) i f : length (at_place l i f) = length l.
Proof. revert i. induction l as [|x l IH]; intros [|i]; cbn; auto. Qed.
Lemma nth_patched (l d : list N) o k : o + length d <= length l ->
  nth_error (firstn o l ++ d ++ skipn (o + length d) l) k = if (o <=? k) && (k <? o + length d) then nth_error d (k - o) else nth_error l k.
Proof.
  intros H. assert (Lf : length (firstn o l) = o) by (rewrite firstn_length; lia).
  destruct (Nat.leb_spec o k) as [Ge|Lt]; cbn [andb].
  - rewrite nth_error_app2 by lia. rewrite Lf. destruct (Nat.ltb_spec k (o + length d)).
    + rewrite nth_error_app1 by lia. reflexivity.
    + rewrite nth_error_app2 by lia. rewrite nth_error_skipn. f_equal. lia.
  - rewrite nth_error_app1 by lia. rewrite nth_error_firstn. destruct (Nat.ltb_spec k o); [reflexivity|lia].
Qed.
(** What the updates of an assignment do to one buffer. *)
Definition agree (old new x : list N) (rs : list (nat * (nat * nat))) (b : nat) : Prop :=
  length x = length new /\ forall k, nth_error x k = nth_error new k \/
    nth_error x k = nth_error old k /\ (forall start stop, In (b, (start, stop)) rs -> ~ start <= k < stop).
Lemma updates_keep mem old new : length new = length old -> forall rs held done,
  (forall b start stop, In (b, (start, stop)) rs -> start <= stop <= length new /\ (b < length held)) ->
  (forall b, In b (map fst rs) -> exists x, nth_error held b = Some x /\ agree old new x done b) ->
  forall held', held' = fold_left (kept mem) (map (fun r => CSet (fst r) (fst (snd r)) (part (fst (snd r)) (snd (snd r)) new)) rs) held ->
  length held' = length held /\
  (forall b, ~ In b (map fst rs) -> nth_error held' b = nth_error held b) /\
  (forall b, In b (map fst rs) -> exists x, nth_error held' b = Some x /\ agree old new x (done ++ rs) b).
Proof.
  intros Ln rs. induction rs as [|[b0 [st sp]] rs IH]; intros held done Hr Hh held' ->; cbn [map fold_left fst snd] in *.
  { split; [reflexivity|]. split; [reflexivity|]. intros b []. }
  destruct (Hr b0 st sp (or_introl eq_refl)) as (B0 & L0). destruct (Hh b0 (or_introl eq_refl)) as (x0 & Ex0 & Lx0 & Ax0).
  set (h1 := kept mem held (CSet b0 st (part st sp new))).
  assert (N1 : forall k, nth_error h1 k = if k =? b0 then Some (firstn st x0 ++ part st sp new ++ skipn (st + length (part st sp new)) x0) else nth_error held k).
  { intros k. unfold h1, kept. rewrite nth_at_place. destruct (Nat.eqb_spec k b0) as [->|]; [now rewrite Ex0|reflexivity]. }
  assert (PL : length (part st sp new) = sp - st) by (apply part_length; lia).
  assert (A1 : agree old new (firstn st x0 ++ part st sp new ++ skipn (st + length (part st sp new)) x0) (done ++ [(b0, (st, sp))]) b0).
  { split; [rewrite !app_length, firstn_length, skipn_length, PL; lia|]. intros k. rewrite nth_patched by (rewrite PL; lia). rewrite PL.
    destruct (Nat.leb_spec st k) as [Ge|Lt]; cbn [andb].
    - destruct (Nat.ltb_spec k (st + (sp - st))) as [Lt|Ge'].
      + left. rewrite nth_error_part. destruct (Nat.ltb_spec (k - st) (sp - st)); [|lia]. f_equal. lia.
      + destruct (Ax0 k) as [E|(E & F)]; [now left|]. right. split; [exact E|]. intros s1 s2 I. apply in_app_iff in I. destruct I as [I|[I|[]]]; [now apply F|]. injection I as <- <-. lia.
    - destruct (Ax0 k) as [E|(E & F)]; [now left|]. right. split; [exact E|]. intros s1 s2 I. apply in_app_iff in I. destruct I as [I|[I|[]]]; [now apply F|]. injection I as <- <-. lia. }
  destruct (IH h1 (done ++ [(b0, (st, sp))])) with (held' := fold_left (kept mem) (map (fun r => CSet (fst r) (fst (snd r)) (part (fst (snd r)) (snd (snd r)) new)) rs) h1) as (G1 & G2 & G3).
  - intros b s1 s2 I. destruct (Hr b s1 s2 (or_intror I)). split; [assumption|]. unfold h1, kept. now rewrite length_at_place.
  - intros b I. rewrite N1. destruct (Nat.eqb_spec b b0) as [->|Ne]; [eauto|]. destruct (Hh b (or_intror I)) as (x & Ex & Lx & Ax). exists x. split; [exact Ex|]. split; [exact Lx|].
    intros k. destruct (Ax k) as [E|(E & F)]; [now left|]. right. split; [exact E|]. intros s1 s2 J. apply in_app_iff in J. destruct J as [J|[J|[]]]; [now apply F|congruence].
  - reflexivity.
  - split; [rewrite G1; unfold h1, kept; apply length_at_place|]. split.
    + intros b N. rewrite G2 by (intros J; apply N; now right). rewrite N1. destruct (Nat.eqb_spec b b0) as [->|]; [destruct N; now left|reflexivity].
    + intros b I. destruct (in_dec Nat.eq_dec b (map fst rs)) as [J|J].
      * destruct (G3 b J) as (x & Ex & Ax). exists x. split; [exact Ex|]. now rewrite <- app_assoc in Ax.
      * destruct I as [<-|I]; [|contradiction]. rewrite (G2 _ J), N1, Nat.eqb_refl. eexists. split; [reflexivity|]. destruct A1 as (L1 & A1). split; [exact L1|].
        intros k. destruct (A1 k) as [E|(E & F)]; [now left|]. right. split; [exact E|]. intros s1 s2 I.
        apply in_app_iff in I. destruct I as [I|[I|I]]; [apply F, in_app_iff; now left|apply F, in_app_iff; right; now left|].
        exfalso. apply J. apply (in_map fst) in I. exact I.
Qed.
Lemma kept_mirror l : forall s held, all_reported s l -> held = map (fun ab => s_mem s (fst ab)) (s_buffers s) ->
  kept_all s held l = map (fun ab => s_mem (history s l) (fst ab)) (s_buffers (history s l)).
Proof.
  induction l as [|e l IH]; intros s held A ->; [reflexivity|]. destruct A as (R & A). cbn [kept_all]. change (history s (e :: l)) with (history (happens s e) l).
  apply IH; [exact A|]. destruct e as [a n w|a new rs].
  - cbn [happens track s_log s_mem s_buffers]. rewrite skipn_app_exact. cbn [fold_left kept].
    apply nth_error_ext'. intros k. rewrite nth_at_place, map_app. cbn [map fst].
    destruct (Nat.eqb_spec k (length (s_buffers s))) as [->|Ne]; [|reflexivity].
    rewrite nth_error_app2, map_length, Nat.sub_diag by (rewrite map_length; lia). cbn [nth_error firstn app plus].
    now rewrite skipn_all, app_nil_r.
  - destruct R as (Ln & Rs & Cov). cbn [happens assign s_log s_mem s_buffers]. rewrite skipn_app_exact.
    set (held := map (fun ab => s_mem s (fst ab)) (s_buffers s)).
    destruct (updates_keep (write (s_mem s) a new) (s_mem s a) new Ln rs held []) with (held' := fold_left (kept (write (s_mem s) a new)) (map (fun r => CSet (fst r) (fst (snd r)) (part (fst (snd r)) (snd (snd r)) new)) rs) held) as (G1 & G2 & G3).
    + intros b st sp I. destruct (Rs b st sp I) as (B & x & X). split; [exact B|]. unfold held. rewrite map_length. apply nth_error_Some. congruence.
    + intros b I. apply in_map_iff in I. destruct I as ([b' [st sp]] & Eb & I). cbn in Eb. subst b'. destruct (Rs b st sp I) as (_ & x & X).
      exists (s_mem s a). unfold held. rewrite nth_error_map, X. cbn. split; [reflexivity|]. split; [now symmetry|]. intros k. right. split; [reflexivity|]. intros ? ? [].
    + reflexivity.
    + apply nth_error_ext'. intros b. rewrite nth_error_map. destruct (nth_error (s_buffers s) b) as [[a' x]|] eqn:Eb; cbn [option_map fst].
      * change (write (s_mem s) a new a') with (if a' =? a then new else s_mem s a'). destruct (in_dec Nat.eq_dec b (map fst rs)) as [J|J].
        -- destruct (G3 b J) as (y & Ey & Ly & Ay). rewrite Ey. apply in_map_iff in J. destruct J as ([b' [st sp]] & E' & I). cbn in E'. subst b'.
           destruct (Rs b st sp I) as (_ & x' & X'). assert (a' = a) by congruence. subst a'. rewrite Nat.eqb_refl. f_equal. apply nth_error_ext'. intros k.
           destruct (Ay k) as [E|(E & F)]; [exact E|]. rewrite E. destruct (nth_error_dec new (s_mem s a) k) as [Q|Q]; [now symmetry|].
           destruct (Cov b x k Eb Q) as (s1 & s2 & I2 & B2). exfalso. exact (F s1 s2 I2 B2).
        -- rewrite (G2 b J). unfold held. rewrite nth_error_map, Eb. cbn [option_map fst]. destruct (Nat.eqb_spec a' a) as [->|]; [|reflexivity].
           f_equal. apply nth_error_ext'. intros k. destruct (nth_error_dec new (s_mem s a) k) as [Q|Q]; [now symmetry|].
           destruct (Cov b x k Eb Q) as (s1 & s2 & I2 & B2). exfalso. apply J. apply (in_map fst) in I2. exact I2.
      * apply nth_error_None. rewrite G1. unfold held. rewrite map_length. now apply nth_error_None.
Qed.
Lemma kept_history mem l : all_reported (opened mem) l ->
  kept_all (opened mem) [] l = map (fun ab => s_mem (history (opened mem) l) (fst ab)) (s_buffers (history (opened mem) l)).
Proof. intros A. now apply kept_mirror. Qed.
