(** Proofs about conversions of vectors. *)
From Coq Require Import Reals Lra Psatz.
From Verif Require Import Base Glm GlmSpec Vec VecSpec.
Local Open Scope R_scope.

(** ** Truncation. *)
Lemma int_part_bounds r : IZR (Int_part r) <= r < IZR (Int_part r) + 1.
Proof. destruct (base_Int_part r). lra. Qed.
Lemma int_part_nonneg r : 0 <= r -> 0 <= IZR (Int_part r).
Proof.
  intro H. destruct (int_part_bounds r) as [_ B].
  assert (-1 < IZR (Int_part r)) by lra. apply IZR_le. apply lt_IZR in H0. lia.
Qed.
Lemma trunc_kept r : kept KInt r (trunc r).
Proof.
  unfold kept, trunc. destruct (Rlt_dec r 0) as [L|L].
  - pose proof (int_part_bounds (- r)) as B. pose proof (int_part_nonneg (- r) ltac:(lra)) as P.
    split; [exists (- Int_part (- r))%Z; now rewrite opp_IZR|].
    rewrite Rabs_Ropp, (Rabs_right (IZR _)), (Rabs_left r) by lra. split; [lra|nra].
  - pose proof (int_part_bounds r) as B. pose proof (int_part_nonneg r ltac:(lra)) as P.
    split; [now exists (Int_part r)|].
    rewrite !Rabs_right by lra. split; [lra|nra].
Qed.
Lemma int_part_IZR n : Int_part (IZR n) = n.
Proof.
  destruct (int_part_bounds (IZR n)) as [A B]. rewrite <- plus_IZR in B.
  apply le_IZR in A. apply lt_IZR in B. lia.
Qed.
Lemma trunc_IZR n : trunc (IZR n) = IZR n.
Proof.
  unfold trunc. destruct (Rlt_dec (IZR n) 0); [rewrite <- (opp_IZR n), int_part_IZR, opp_IZR; lra|now rewrite int_part_IZR].
Qed.

Definition keep (k : kind) (x : R) : R := match k with KInt => trunc x | KFloat => x end.
Lemma store_keep k x : store k (Num x) = Num (keep k x).
Proof. now destruct k. Qed.
Lemma keep_kept k x : kept k x (keep k x).
Proof. destruct k; [apply trunc_kept|reflexivity]. Qed.
Lemma keep_int n k : keep k (IZR n) = IZR n.
Proof. destruct k; [apply trunc_IZR|reflexivity]. Qed.
Lemma kept_list k l : Forall2 (kept k) l (map (keep k) l).
Proof. induction l; cbn; constructor; auto using keep_kept. Qed.
Lemma keep_row k r : (k = KInt -> Forall (fun x => exists n, x = IZR n) r) -> map (keep k) r = r.
Proof.
  intro H. destruct k; [|apply map_id]. specialize (H eq_refl).
  induction H as [|x r [n ->] H IH]; cbn; [reflexivity|]. now rewrite trunc_IZR, IH.
Qed.
Lemma keep_rows k l : suits k l -> map (map (keep k)) l = l.
Proof.
  intro H. unfold suits in H. induction l as [|r l IH]; cbn; [reflexivity|]. f_equal.
  - apply keep_row. intro E. specialize (H E). now inversion H.
  - apply IH. intro E. specialize (H E). now inversion H.
Qed.

(** ** A row at a time. *)
Lemma map_store k r : map (store k) (map Num r) = map Num (map (keep k) r).
Proof. rewrite !map_map. apply map_ext. apply store_keep. Qed.
Lemma stored_table k l : stored k (map (map Num) l) = map (map Num) (map (map (keep k)) l).
Proof. unfold stored. rewrite !map_map. apply map_ext. apply map_store. Qed.

Lemma rows_conv k (conv : list R -> list R -> Prop) (f : list R -> list R) c l :
  rectangular c l -> finite_w c l ->
  (forall r, length r = c -> (c = 4%nat -> nth 3 r 0 <> 0) -> conv r (f r)) ->
  rows_as k conv l (map (map (keep k)) (map f l)).
Proof.
  intros R W H. unfold rows_as. induction l as [|r l IH]; cbn; [constructor|].
  unfold rectangular, finite_w in *. constructor.
  - exists (f r). split; [|apply kept_list]. apply H; [now inversion R|].
    intro E. specialize (W E). now inversion W.
  - apply IH; [now inversion R|]. intro E. specialize (W E). now inversion W.
Qed.

Definition f2 (c : nat) (r : list R) : list R :=
  match c with 4%nat => map (fun x => x / nth 3 r 0) (firstn 2 r) | _ => firstn 2 r end.
Definition f3 (c : nat) (r : list R) : list R :=
  match c with
  | 2%nat => r ++ [0]
  | 4%nat => map (fun x => x / nth 3 r 0) (firstn 3 r) | _ => r end.
Definition f4 (c : nat) (r : list R) : list R :=
  match c with 2%nat => r ++ [0; 1] | 3%nat => r ++ [1] | _ => r end.

Ltac row r E := destruct r as [|? [|? [|? [|? [|? ?]]]]]; try discriminate E; clear E.
Lemma f2_conv c r : (c = 2 \/ c = 3 \/ c = 4)%nat -> length r = c -> (c = 4%nat -> nth 3 r 0 <> 0) -> as2 r (f2 c r).
Proof.
  intros C E W. destruct C as [-> | [-> | ->]]; row r E; cbn in *; constructor. now apply W.
Qed.
Lemma f3_conv c r : (c = 2 \/ c = 3 \/ c = 4)%nat -> length r = c -> (c = 4%nat -> nth 3 r 0 <> 0) -> as3 r (f3 c r).
Proof.
  intros C E W. destruct C as [-> | [-> | ->]]; row r E; cbn in *; constructor. now apply W.
Qed.
Lemma f4_conv c r : (c = 2 \/ c = 3 \/ c = 4)%nat -> length r = c -> as4 r (f4 c r).
Proof. intros C E. destruct C as [-> | [-> | ->]]; row r E; cbn in *; constructor. Qed.

Lemma map_rows (P : list R -> Prop) (g : list num -> list num) (f : list R -> list R) l :
  Forall P l -> (forall r, P r -> g (map Num r) = map Num (f r)) ->
  map g (map (map Num) l) = map (map Num) (map f l).
Proof.
  intros H E. induction H as [|r l Hr Hl IH]; cbn; [reflexivity|]. now rewrite E, IH.
Qed.

Lemma quot_num a b : b <> 0 -> quot (Num a) (Num b) = Num (a / b).
Proof. intro H. cbn. now destruct (Req_EM_T b 0). Qed.

Lemma to_vec4_table dt k c l :
  rectangular c l -> (c = 2 \/ c = 3 \/ c = 4)%nat ->
  let k' := match dt with Some k' => k' | None => k end in
  to_vec4 dt (table k c l) = Ok (table k' 4 (map (map (keep k')) (map (f4 c) l))).
Proof.
  intros R C k'. unfold to_vec4, table. cbn [a_data a_kind].
  change (chosen dt _) with k'.
  destruct C as [-> | [-> | ->]]; cbn [Nat.eqb].
  - rewrite (map_rows (fun r => length r = 2%nat) _ (f4 2) l R), stored_table; [reflexivity|].
    intros r _. cbn. now rewrite map_app.
  - rewrite (map_rows (fun r => length r = 3%nat) _ (f4 3) l R), stored_table; [reflexivity|].
    intros r _. cbn. now rewrite map_app.
  - rewrite stored_table. change (f4 4) with (fun r : list Rdefinitions.R => r). now rewrite (map_id l).
Qed.
Lemma to_vec3_table dt k c l :
  rectangular c l -> (c = 2 \/ c = 3 \/ c = 4)%nat -> finite_w c l ->
  let k' := match dt with Some k' => k' | None => k end in
  to_vec3 dt (table k c l) = Ok (table k' 3 (map (map (keep k')) (map (f3 c) l))).
Proof.
  intros R C W k'. unfold to_vec3, table. cbn [a_data a_kind].
  change (chosen dt _) with k'.
  destruct C as [-> | [-> | ->]]; cbn [Nat.eqb].
  - rewrite (map_rows (fun r => length r = 2%nat) _ (f3 2) l R), stored_table; [reflexivity|].
    intros r _. cbn. now rewrite map_app.
  - rewrite stored_table. change (f3 3) with (fun r : list Rdefinitions.R => r). now rewrite (map_id l).
  - rewrite (map_rows (fun r => length r = 4%nat /\ nth 3 r 0 <> 0) _ (f3 4) l), stored_table; [reflexivity| |].
    + apply Forall_and; [exact R|exact (W eq_refl)].
    + intros r [E Hw]. row r E. cbn [nth] in Hw. unfold col.
      cbn [map firstn nth f3]. now rewrite !quot_num.
Qed.
Lemma to_vec2_table dt k c l :
  let k' := match dt with Some k' => k' | None => k end in
  rectangular c l -> (c = 2 \/ c = 3 \/ c = 4)%nat -> finite_w c l -> (c = 4%nat -> k' = KFloat) ->
  to_vec2 dt (table k c l) = Ok (table k' 2 (map (map (keep k')) (map (f2 c) l))).
Proof.
  intros k' R C W F. unfold to_vec2, table. cbn [a_data a_kind].
  change (chosen dt _) with k'.
  destruct C as [-> | [-> | ->]]; cbn [Nat.eqb].
  - rewrite (map_rows (fun r => length r = 2%nat) (firstn 2) (f2 2) l R), stored_table; [reflexivity|].
    intros r _. apply firstn_map.
  - rewrite (map_rows (fun r => length r = 3%nat) (firstn 2) (f2 3) l R), stored_table; [reflexivity|].
    intros r _. apply firstn_map.
  - rewrite (F eq_refl). repeat f_equal. specialize (W eq_refl). clear F. unfold stored.
    induction l as [|r l IH]; cbn [map combine]; [reflexivity|].
    inversion R as [|? ? E R']. inversion W as [|? ? Hw W']. subst. f_equal; [|now apply IH].
    clear R. row r E. cbn [nth] in Hw. unfold col. cbn [fst snd map firstn nth f2 store keep]. now rewrite !quot_num.
Qed.

Lemma to_vec2_ok dt k c l :
  let k' := match dt with Some k' => k' | None => k end in
  rectangular c l -> (c = 2 \/ c = 3 \/ c = 4)%nat -> finite_w c l -> (c = 4%nat -> k' = KFloat) ->
  exists l', to_vec2 dt (table k c l) = Ok (table k' 2 l') /\ rows_as k' as2 l l'.
Proof.
  intros k' R C W F. eexists. split; [now apply to_vec2_table|].
  apply (rows_conv k' as2 (f2 c) c); auto. intros. now apply f2_conv.
Qed.
Lemma to_vec3_ok dt k c l :
  let k' := match dt with Some k' => k' | None => k end in
  rectangular c l -> (c = 2 \/ c = 3 \/ c = 4)%nat -> finite_w c l ->
  exists l', to_vec3 dt (table k c l) = Ok (table k' 3 l') /\ rows_as k' as3 l l'.
Proof.
  intros k' R C W. eexists. split; [now apply to_vec3_table|].
  apply (rows_conv k' as3 (f3 c) c); auto. intros. now apply f3_conv.
Qed.
Lemma to_vec4_ok dt k c l :
  let k' := match dt with Some k' => k' | None => k end in
  rectangular c l -> (c = 2 \/ c = 3 \/ c = 4)%nat ->
  exists l', to_vec4 dt (table k c l) = Ok (table k' 4 l') /\ rows_as k' as4 l l'.
Proof.
  intros k' R C. eexists. split; [now apply to_vec4_table|].
  assert (H : Forall2 (fun r r' => exists q, as4 r q /\ Forall2 (kept k') q r') l (map (map (keep k')) (map (f4 c) l))).
  { induction R as [|r l E R IH]; cbn; constructor; auto. exists (f4 c r). split; [now apply f4_conv|apply kept_list]. }
  exact H.
Qed.

(** A vector at infinity has no finite components, whatever the others are. *)
Lemma to_vec3_infinite k l i x y z :
  nth_error l i = Some [x; y; z; 0] ->
  exists l', to_vec3 None (table k 4 l) = Ok (mkA k (Rows 3 l')) /\
             length l' = length l /\ nth_error l' i = Some [NonFinite; NonFinite; NonFinite].
Proof.
  intro H. unfold to_vec3, table. cbn [a_data a_kind Nat.eqb chosen]. eexists. split; [reflexivity|].
  unfold stored. rewrite !map_length. split; [reflexivity|].
  rewrite !nth_error_map, H. unfold col. cbn [option_map map firstn nth quot].
  destruct (Req_EM_T 0 0) as [_|N]; [|now destruct N]. now destruct k.
Qed.

(** ** Round trips. *)
Lemma div1 x : x / 1 = x.
Proof. field. Qed.
Lemma map_map_id {A} (f g : A -> A) l : Forall (fun x => g (f x) = x) l -> map g (map f l) = l.
Proof. induction 1 as [|x l E H IH]; cbn; [reflexivity|]. now rewrite E, IH. Qed.

Lemma suits_map k f l :
  suits k l -> (forall r, (forall x, In x r -> exists n, x = IZR n) -> forall x, In x (f r) -> exists n, x = IZR n) ->
  suits k (map f l).
Proof.
  intros S H E. specialize (S E). induction S as [|r l Hr S IH]; cbn; constructor; auto.
  apply Forall_forall. apply H. now apply Forall_forall.
Qed.
Lemma suits_f4 k c l : (c = 2 \/ c = 3)%nat -> suits k l -> suits k (map (f4 c) l).
Proof.
  intros C S. apply suits_map; auto. intros r H x Hx.
  destruct C as [-> | ->]; cbn [f4] in Hx; apply in_app_or in Hx; destruct Hx as [Hx|Hx]; auto; cbn in Hx.
  - destruct Hx as [<-|[<-|[]]]; [now exists 0%Z|now exists 1%Z].
  - destruct Hx as [<-|[]]. now exists 1%Z.
Qed.
Lemma suits_f3 k l : suits k l -> suits k (map (f3 2) l).
Proof.
  intros S. apply suits_map; auto. intros r H x Hx. cbn [f3] in Hx.
  apply in_app_or in Hx. destruct Hx as [Hx|[<-|[]]]; auto. now exists 0%Z.
Qed.
Lemma rect_f4 c l : (c = 2 \/ c = 3)%nat -> rectangular c l -> rectangular 4 (map (f4 c) l).
Proof.
  intros C R. unfold rectangular in *. rewrite Forall_map. revert R. apply Forall_impl. intros r E.
  destruct C as [-> | ->]; cbn [f4]; rewrite app_length, E; reflexivity.
Qed.
Lemma rect_f3 l : rectangular 2 l -> rectangular 3 (map (f3 2) l).
Proof.
  intros R. unfold rectangular in *. rewrite Forall_map. revert R. apply Forall_impl. intros r E.
  cbn [f3]; rewrite app_length, E; reflexivity.
Qed.
Lemma w_f4 c l : (c = 2 \/ c = 3)%nat -> rectangular c l -> finite_w 4 (map (f4 c) l).
Proof.
  intros C R _. rewrite Forall_map. revert R. apply Forall_impl. intros r E.
  destruct C as [-> | ->]; row r E; cbn; lra.
Qed.

Lemma via_vec4 k l : rectangular 3 l -> suits k l ->
  (let* v := to_vec4 None (table k 3 l) in to_vec3 None v) = Ok (table k 3 l).
Proof.
  intros R S. rewrite to_vec4_table by auto. cbn [bind].
  rewrite (keep_rows k) by (apply suits_f4; auto).
  rewrite to_vec3_table; [|apply rect_f4; auto|auto|apply w_f4; auto].
  rewrite (map_map_id (f4 3) (f3 4)); [now rewrite keep_rows|].
  revert R. apply Forall_impl. intros r E. row r E. cbn. now rewrite !div1.
Qed.
Lemma via_vec3 k l : rectangular 2 l -> suits k l ->
  (let* v := to_vec3 None (table k 2 l) in to_vec2 None v) = Ok (table k 2 l).
Proof.
  intros R S. rewrite to_vec3_table; [|auto|auto|discriminate]. cbn [bind].
  rewrite (keep_rows k) by (apply suits_f3; auto).
  rewrite to_vec2_table; [|apply rect_f3; auto|auto|discriminate|discriminate].
  rewrite (map_map_id (f3 2) (f2 3)); [now rewrite keep_rows|].
  revert R. apply Forall_impl. intros r E. row r E. reflexivity.
Qed.
Lemma via_vec4_2 l : rectangular 2 l ->
  (let* v := to_vec4 None (table KFloat 2 l) in to_vec2 None v) = Ok (table KFloat 2 l).
Proof.
  intros R. rewrite to_vec4_table by auto. cbn [bind].
  rewrite (keep_rows KFloat) by discriminate.
  rewrite to_vec2_table; [|apply rect_f4; auto|auto|apply w_f4; auto|auto].
  rewrite (map_map_id (f4 2) (f2 4)); [now rewrite keep_rows|].
  revert R. apply Forall_impl. intros r E. row r E. cbn. now rewrite !div1.
Qed.
Lemma via_vec4_2_int l :
  (let* v := to_vec4 None (table KInt 2 l) in to_vec2 None v) = Err TypeError.
Proof. reflexivity. Qed.

(** A homogeneous vector and the one rebuilt from its point differ by the factor w. *)
Lemma back_to_vec4 l : rectangular 4 l -> finite_w 4 l ->
  exists l', (let* v := to_vec3 None (table KFloat 4 l) in to_vec4 None v) = Ok (table KFloat 4 l') /\
             Forall2 (fun r r' => exists w, w <> 0 /\ r = map (Rmult w) r') l l'.
Proof.
  intros R W. rewrite to_vec3_table by auto. cbn [bind]. rewrite (keep_rows KFloat) by discriminate.
  eexists. split.
  - apply to_vec4_table; [|auto]. unfold rectangular in *. rewrite Forall_map. revert R. apply Forall_impl.
    intros r E. row r E. reflexivity.
  - rewrite (keep_rows KFloat) by discriminate. specialize (W eq_refl).
    induction l as [|r l IH]; cbn [map]; [constructor|].
    inversion R as [|? ? E R']. inversion W as [|? ? Hw W']. subst. constructor; [|now apply IH].
    exists (nth 3 r 0). split; [exact Hw|]. clear R. row r E. cbn in *. repeat f_equal; field; exact Hw.
Qed.

(** ** Flat arrays. *)
Lemma skip_skip {A} a b (l : list A) : skipn a (skipn b l) = skipn (b + a) l.
Proof. revert l. induction b as [|b IH]; intros [|x l]; cbn; auto. apply skipn_nil. Qed.
Lemma chunks_all n l : (0 < n)%nat -> forall m, (length l = m * n)%nat ->
  length (chunks n l) = m /\ Forall (fun r => length r = n) (chunks n l) /\ concat (chunks n l) = l.
Proof.
  intros N m. unfold chunks.
  assert (G : forall m (l : list num) k, (length l = (k + m) * n)%nat ->
            Forall (fun r => length r = n) (map (fun i => firstn n (skipn (i * n) l)) (seq k m)) /\
            concat (map (fun i => firstn n (skipn (i * n) l)) (seq k m)) = skipn (k * n) l).
  { clear. intros m. induction m as [|m IH]; intros l k E; cbn [seq map concat].
    - split; [constructor|]. symmetry. apply skipn_all2. nia.
    - destruct (IH l (S k) ltac:(nia)) as [A B]. split.
      + constructor; [|exact A]. rewrite firstn_length, skipn_length. nia.
      + rewrite B. rewrite <- (firstn_skipn n (skipn (k * n) l)) at 2. f_equal.
        rewrite skip_skip. f_equal. lia. }
  intro E. assert (Q : (length l / n = m)%nat) by (rewrite E; apply Nat.div_mul; lia).
  rewrite Q, map_length, seq_length. split; [reflexivity|]. exact (G m l 0%nat E).
Qed.

Lemma concat_stored k l : concat (stored k l) = map (store k) (concat l).
Proof. unfold stored. symmetry. apply concat_map. Qed.

Lemma mod_multiple n m k : (0 < n)%nat -> (m = k * n)%nat -> (m mod n =? 0)%nat = true.
Proof. intros N ->. apply Nat.eqb_eq. apply Nat.mod_mul. lia. Qed.
Lemma mod_not n m : (0 < n)%nat -> (~ exists k, m = k * n)%nat -> (m mod n =? 0)%nat = false.
Proof.
  intros N H. apply Nat.eqb_neq. intro E. apply H. exists (m / n)%nat.
  rewrite Nat.mul_comm. apply (Nat.div_exact m n); [lia|exact E].
Qed.

Lemma from_flat_ok n k l m : (0 < n)%nat -> (length l = m * n)%nat ->
  exists l', from_flat n k l = Ok (mkA k (Rows n l')) /\ length l' = m /\
             Forall (fun r => length r = n) l' /\ concat l' = map (store k) l.
Proof.
  intros N E. unfold from_flat. rewrite (mod_multiple n _ m N E). eexists. split; [reflexivity|].
  destruct (chunks_all n l N m E) as (A & B & C).
  rewrite concat_stored, C. unfold stored. rewrite map_length, A. repeat split.
  rewrite Forall_map. revert B. apply Forall_impl. intros r. now rewrite map_length.
Qed.

Lemma flat_ok dt k l m :
  let k' := match dt with Some k' => k' | None => k end in
  let says n (f : option kind -> arr -> res arr) :=
    (length l = m * n)%nat ->
    exists l' q, f dt (mkA k (Flat (map Num l))) = Ok (mkA k' (Rows n l')) /\ length l' = m /\
                 Forall (fun r => length r = n) l' /\ concat l' = map Num q /\ Forall2 (kept k') l q in
  says 2%nat to_vec2 /\ says 3%nat to_vec3 /\ says 4%nat to_vec4.
Proof.
  intros k' says. unfold says.
  assert (G : forall n, (0 < n)%nat -> (length l = m * n)%nat ->
    exists l' q, from_flat n k' (map Num l) = Ok (mkA k' (Rows n l')) /\ length l' = m /\
                 Forall (fun r => length r = n) l' /\ concat l' = map Num q /\ Forall2 (kept k') l q).
  { intros n N E. destruct (from_flat_ok n k' (map Num l) m N) as (l' & A & B & C & D); [now rewrite map_length|].
    exists l', (map (keep k') l). rewrite D, map_store. auto using kept_list. }
  split; [|split]; intro E; (apply G; [lia|exact E]).
Qed.

(** ** What is refused. *)
Lemma not234 c : ~ (c = 2 \/ c = 3 \/ c = 4)%nat -> ((c =? 2) = false /\ (c =? 3) = false /\ (c =? 4) = false)%nat.
Proof. intro H. rewrite !Nat.eqb_neq. intuition. Qed.
Lemma refused2 dt V : ~ convertible 2 (a_data V) -> (forall l, a_data V <> Rows 0 l) -> to_vec2 dt V = Err TypeError.
Proof.
  unfold to_vec2, from_flat. destruct (a_data V) as [l|c l|s l]; cbn [convertible]; intros H Z.
  - now rewrite mod_not by (auto; lia).
  - destruct (not234 c H) as (-> & -> & ->). destruct c; [now destruct (Z l)|reflexivity].
  - reflexivity.
Qed.
Lemma refused3 dt V : ~ convertible 3 (a_data V) -> to_vec3 dt V = Err TypeError.
Proof.
  unfold to_vec3, from_flat. destruct (a_data V) as [l|c l|s l]; cbn [convertible]; intros H.
  - now rewrite mod_not by (auto; lia).
  - now destruct (not234 c H) as (-> & -> & ->).
  - reflexivity.
Qed.
Lemma refused4 dt V : ~ convertible 4 (a_data V) -> to_vec4 dt V = Err TypeError.
Proof.
  unfold to_vec4, from_flat. destruct (a_data V) as [l|c l|s l]; cbn [convertible]; intros H.
  - now rewrite mod_not by (auto; lia).
  - now destruct (not234 c H) as (-> & -> & ->).
  - reflexivity.
Qed.
Lemma no_columns dt k l : to_vec2 dt (mkA k (Rows 0 l)) = Err ValueError /\ to_vec3 dt (mkA k (Rows 0 l)) = Err TypeError.
Proof. split; reflexivity. Qed.
Lemma integer_homogeneous l : to_vec2 None (table KInt 4 l) = Err TypeError.
Proof. reflexivity. Qed.
Lemma integer_truncated : to_vec3 None (table KInt 4 [[1; 2; 3; 2]]) = Ok (table KInt 3 [[0; 1; 1]]) /\ ~ as3 [1; 2; 3; 2] [0; 1; 1].
Proof.
  split.
  - rewrite to_vec3_table; [|repeat constructor|auto|intros _; repeat constructor; cbn; lra].
    cbn [map f3 firstn nth keep]. do 3 f_equal.
    assert (T : forall r n, 0 <= r -> IZR n <= r < IZR n + 1 -> trunc r = IZR n).
    { intros r n P B. unfold trunc. destruct (Rlt_dec r 0); [lra|].
      pose proof (int_part_bounds r) as C. f_equal. destruct B, C.
      assert (IZR n < IZR (Int_part r) + 1) as L by lra. assert (IZR (Int_part r) < IZR n + 1) as L' by lra.
      rewrite <- plus_IZR in L, L'. apply lt_IZR in L, L'. lia. }
    rewrite (T (1/2) 0%Z), (T (2/2) 1%Z), (T (3/2) 1%Z) by lra. reflexivity.
  - intro H. inversion H. lra.
Qed.

(** ** Views. *)
Lemma as_vec_ok n k dt d m x : (0 < n)%nat -> elements d = map Num x -> (length x = m * n)%nat ->
  let k' := match dt with Some k' => k' | None => k end in
  exists l' q, as_vec n dt (mkA k d) = Ok (mkA k' (Rows n l')) /\ length l' = m /\
               Forall (fun r => length r = n) l' /\ concat l' = map Num q /\
               match dt with Some k' => Forall2 (kept k') x q | None => q = x end.
Proof.
  intros N X E k'. unfold as_vec. cbn [a_data a_kind].
  assert (E' : (length (elements d) = m * n)%nat) by (now rewrite X, map_length).
  rewrite (mod_multiple n _ m N E').
  destruct (chunks_all n _ N m E') as (A & B & C).
  destruct dt as [k0|]; [eexists; exists (map (keep k0) x)|eexists; exists x; rewrite <- X; auto].
  split; [reflexivity|].
  rewrite concat_stored, C, X, map_store. unfold stored. rewrite map_length. rewrite <- X.
  split; [exact A|]. split; [|auto using kept_list].
  rewrite Forall_map. revert B. apply Forall_impl. intros r. now rewrite map_length.
Qed.
Lemma as_vec_refused n dt V : (0 < n)%nat -> (~ exists m, length (elements (a_data V)) = m * n)%nat ->
  as_vec n dt V = Err ValueError.
Proof. intros N H. unfold as_vec. now rewrite mod_not. Qed.

(** ** Positions of visuals. *)
Lemma row_dot_num a b c d v : row_dot [Num a; Num b; Num c; Num d] v = Num (dot4 v (V4 a b c d)).
Proof. unfold row_dot, col, dot4. cbn. f_equal. ring. Qed.

Definition image (m : mat) (r : list R) : list R :=
  let q := apply4 m (V4 (nth 0 r 0) (nth 1 r 0) (nth 2 r 0) (nth 3 r 0)) in [x4 q; y4 q; z4 q; w4 q].
Lemma matmul_table k l m : rectangular 4 l ->
  matmul_T (table k 4 l) m = Ok (table KFloat 4 (map (image m) l)).
Proof.
  intro R. unfold matmul_T, table. cbn [a_data Nat.eqb].
  rewrite (map_rows (fun r => length r = 4%nat) _ (image m) l R); [reflexivity|].
  intros r E. row r E. cbn [map nth]. now rewrite !row_dot_num.
Qed.

Lemma placed_ok k l m (ps : list vec3) :
  Forall2 triple l ps -> suits k l ->
  Forall (fun p => w4 (apply4 m (point p)) <> 0) ps ->
  exists l' qs, placed (table k 3 l) m = Ok (table KFloat 3 l') /\ Forall2 triple l' qs /\ Forall2 (projects m) ps qs.
Proof.
  intros T S W.
  assert (R : rectangular 3 l).
  { unfold rectangular. clear S W. induction T as [|r p l ps H T IH]; constructor; auto. now rewrite H. }
  unfold placed. rewrite to_vec4_table by auto. cbn [bind]. rewrite (keep_rows k) by (apply suits_f4; auto).
  rewrite matmul_table by (apply rect_f4; auto). cbn [bind].
  assert (G : forall l ps, Forall2 triple l ps -> map (image m) (map (f4 3) l) =
              map (fun p => let q := apply4 m (point p) in [x4 q; y4 q; z4 q; w4 q]) ps).
  { clear. intros l ps T. induction T as [|r p l ps H T IH]; cbn [map]; [reflexivity|]. rewrite IH. f_equal.
    rewrite H. destruct p as [a b c]. reflexivity. }
  rewrite (G l ps T). clear G.
  set (h := fun p => let q := apply4 m (point p) in [x4 q; y4 q; z4 q; w4 q]).
  rewrite to_vec3_table; [|unfold rectangular; rewrite Forall_map; apply Forall_forall; reflexivity|auto|
    intros _; rewrite Forall_map; exact W].
  rewrite (keep_rows KFloat) by discriminate.
  exists (map (f3 4) (map h ps)), (map (fun p => let q := apply4 m (point p) in V3 (x4 q / w4 q) (y4 q / w4 q) (z4 q / w4 q)) ps).
  split; [reflexivity|]. clear T. split.
  - induction W as [|p ps H W IH]; cbn [map]; constructor; auto. reflexivity.
  - induction W as [|p ps H W IH]; cbn [map]; constructor; auto.
    exists (w4 (apply4 m (point p))). split; [exact H|]. set (q := apply4 m (point p)) in *. clearbody q.
    cbn [x3 y3 z3]. destruct q as [a b c d]. cbn [x4 y4 z4 w4] in *. f_equal; field; exact H.
Qed.

Lemma app_inj_len {A} (a b c e : list A) : length a = length b -> (a ++ c)%list = (b ++ e)%list -> a = b /\ c = e.
Proof.
  revert b. induction a as [|x a IH]; intros [|y b] L E; try discriminate; [auto|].
  cbn in E. injection E as -> E. destruct (IH b) as [-> ->]; auto.
Qed.
Lemma triples_concat (l : list (list R)) (l' : list (list num)) :
  Forall (fun r => length r = 3%nat) l -> Forall (fun r => length r = 3%nat) l' ->
  concat l' = map Num (concat l) -> l' = map (map Num) l.
Proof.
  revert l'. induction l as [|r l IH]; intros l' H H' E.
  - destruct l' as [|r' l']; [reflexivity|]. inversion H' as [|? ? H1 H2]; subst. destruct r'; discriminate.
  - inversion H as [|? ? H1 H2]; subst. destruct l' as [|r' l'].
    { destruct r; discriminate. }
    inversion H' as [|? ? H3 H4]; subst. cbn [concat] in E. rewrite map_app in E.
    assert (L : length r' = length (map Num r)) by (rewrite map_length; congruence).
    cbn [map]. destruct (app_inj_len _ _ _ _ L E) as [-> E2]. now rewrite (IH l').
Qed.
Lemma placed_points_ok k d l m (ps : list vec3) : elements d = map Num (concat l) ->
  Forall2 triple l ps -> suits k l ->
  Forall (fun p => w4 (apply4 m (point p)) <> 0) ps ->
  exists l' qs, placed_points (mkA k d) m = Ok (table KFloat 3 l') /\ Forall2 triple l' qs /\ Forall2 (projects m) ps qs.
Proof.
  intros El T S W.
  assert (R : Forall (fun r => length r = 3%nat) l).
  { clear - T. induction T as [|r p l ps H T IH]; constructor; auto. now rewrite H. }
  assert (L : (length (concat l) = length l * 3)%nat).
  { clear - R. induction R as [|r l H R IH]; [reflexivity|]. cbn [concat length]. rewrite app_length, IH, H. lia. }
  destruct (as_vec_ok 3 k None d (length l) (concat l)) as (l' & q & E1 & E2 & E3 & E4 & E5); [lia|assumption|assumption|].
  subst q. unfold placed_points. rewrite E1. cbn [bind]. rewrite (triples_concat l l' R E3 E4).
  exact (placed_ok k l m ps T S W).
Qed.

Lemma affine_w m p : row3 m = V4 0 0 0 1 -> w4 (apply4 m (point p)) = 1.
Proof. intro H. unfold apply4, dot4, point. rewrite H. cbn [x4 y4 z4 w4]. ring. Qed.
Lemma placed_affine k l m (ps : list vec3) :
  Forall2 triple l ps -> suits k l -> row3 m = V4 0 0 0 1 ->
  exists l' qs, placed (table k 3 l) m = Ok (table KFloat 3 l') /\ Forall2 triple l' qs /\ Forall2 (sends m) ps qs.
Proof.
  intros T S A. destruct (placed_ok k l m ps T S) as (l' & qs & E & T' & P).
  - apply Forall_forall. intros p _. rewrite affine_w by exact A. lra.
  - exists l', qs. split; [exact E|split; [exact T'|]]. clear - P A.
    induction P as [|p q ps qs (w & H & E) P IH]; constructor; auto. unfold sends. rewrite E.
    assert (w = 1) by (rewrite <- (affine_w m p A), E; reflexivity). subst. unfold point. now rewrite !Rmult_1_l.
Qed.
