(** Proofs about Remote.v. *)
From Verif Require Import Base Registry Convert Command CommandSpec CommandFacts Queue QueueSpec Base64 Execute Json Session SessionSpec SessionFacts
  JsonText JsonTextSpec JsonFile JsonFileSpec AnyFile AnyFileSpec SessionFile SessionFileSpec SessionFileFacts Measure Viewport ViewportSpec Panes PanesSpec PanesFacts Remote RemoteSpec.
Open Scope string_scope.

Section Same.
  Context {C : Type} (num : Z -> Qc) (hue : value -> C).
  Context (txt : string -> Z -> option jval) (pure : func -> value -> res value) (oidf : ref -> Z) (E : cenv) (d : registry).
  Context (mades : list (ref * string)) (bs : list ref) (Dm : NoDup (map fst mades)) (Db : NoDup bs).

  Definition paired (r R : ref) : Prop := exists path, stands_for mades bs r path R.
  Lemma paired_eqb r R k K : paired r R -> paired k K -> Nat.eqb r k = Nat.eqb R K.
  Proof.
    intros (p & n & A & B) (p' & m & A' & B').
    assert (A1 : nth_error (map fst mades) n = Some r) by now rewrite nth_error_map, A.
    assert (A2 : nth_error (map fst mades) m = Some k) by now rewrite nth_error_map, A'.
    destruct (Nat.eqb_spec r k) as [->|N].
    - assert (n = m). { apply (NoDup_nth_error (map fst mades)); auto; [apply nth_error_Some; congruence|congruence]. }
      subst m. rewrite B in B'. injection B' as ->. symmetry. apply Nat.eqb_refl.
    - destruct (Nat.eqb_spec R K) as [->|]; [|reflexivity].
      assert (n = m). { apply (NoDup_nth_error bs); auto; [apply nth_error_Some; congruence|congruence]. }
      subst m. congruence.
  Qed.

  Definition agrees (t t' : gallery C) : Prop := Forall2 (fun x y => snd x = snd y /\ paired (fst x) (fst y)) t t'.
  Lemma hung_agrees t t' k K : agrees t t' -> paired k K -> hung t k = hung t' K.
  Proof.
    intros A P. induction A as [|[r a] [R b] t t' (X & Y) A IH]; [reflexivity|]. cbn [fst snd] in X, Y. subst b. cbn [hung].
    rewrite (paired_eqb r R k K Y P). now rewrite IH.
  Qed.
  Lemma hang_agrees t t' k K a : agrees t t' -> paired k K -> agrees (hang t k a) (hang t' K a).
  Proof.
    intros A P. induction A as [|[r b] [R b'] t t' (X & Y) A IH]; [constructor|]. cbn [fst snd] in X, Y. subst b'. cbn [hang].
    rewrite (paired_eqb r R k K Y P). destruct (Nat.eqb R K); constructor; cbn; auto.
  Qed.

  Definition both (x y : res (gallery C)) : Prop :=
    match x, y with Ok t, Ok t' => agrees t t' | Err e, Err e' => e = e' | _, _ => False end.

  Lemma length_arrives anns v w : arrives txt pure oidf E d mades bs anns v w -> (exists z, v = VInt z \/ v = VFloat z) ->
    (forall l a b, anns = Some l -> In a l -> In b (mro E (class_of v)) -> conv_for E d b a = None) -> w = v.
  Proof.
    intros (x & X & J) (z & V) N.
    assert (x = v) as ->.
    { destruct X as [(X & _)|(_ & a & b & f & (l1 & l2 & T & _) & I & F & _)]; [exact X|].
      rewrite (N _ a b T) in F; [discriminate| |exact I]. apply in_or_app. right. now left. }
    destruct V as [-> | ->]; destruct J as (j & J & ->); cbn [encode] in J; injection J as <-; reflexivity.
  Qed.
  Lemma color_arrives anns v w : arrives txt pure oidf E d mades bs anns v w -> is_object v = false ->
    (forall f x, pure f v = Ok x -> is_object x = false) ->
    (forall oidf x j, (x = v \/ exists f, pure f v = Ok x) -> encode txt oidf x = Ok j -> hue (decode j) = hue v) -> hue w = hue v.
  Proof.
    intros (x & X & J) O Q H.
    assert (Ox : is_object x = false) by (destruct X as [(-> & _)|(_ & a & b & f & _ & _ & _ & X)]; [exact O|eauto]).
    assert (G : exists j, encode txt oidf x = Ok j /\ w = decode j) by (destruct x; try discriminate Ox; exact J).
    destruct G as (j & G & ->). apply (H oidf x j); [|exact G].
    destruct X as [(X & _)|(_ & a & b & f & _ & _ & _ & X)]; eauto.
  Qed.
  Lemma other_arrives anns v w : arrives txt pure oidf E d mades bs anns v w -> is_object v = true ->
    match v, w with
    | VObj _ r, VObj _ R => paired r R
    | VObj _ _, _ | _, VObj _ _ => False
    | _, _ => True
    end.
  Proof.
    intros (x & X & J) O. destruct X as [(-> & _)|(F & _)]; [|congruence]. destruct v; try discriminate O.
    destruct J as (path & R & S & ->). now exists path.
  Qed.

  Lemma construct_agrees t t' r R cl path pre post sg args kw bound kws : agrees t t' -> paired r R ->
    plain_lengths E d (Session.New cl path pre post sg args kw) -> plain_colors txt pure hue (Session.New cl path pre post sg args kw) ->
    real_canvas (Session.New cl path pre post sg args kw) ->
    bind_args sg args kw = Ok bound ->
    (forall k, match dget bound k with
               | Some v => exists w, dget kws k = Some w /\ arrives txt pure oidf E d mades bs (dget (annotations (s_params sg)) k) v w
               | None => dget kws k = None end) ->
    both (construct num hue t r path bound) (construct num hue t' R path kws).
  Proof.
    intros A P PL PC RC B K.
    assert (L : forall k, In k (lengths path) -> arg bound k = arg kws k).
    { intros k I. unfold arg. specialize (K k). destruct (dget bound k) as [v|] eqn:D; [|now rewrite K].
      destruct K as (w & -> & W). destruct (PL bound k v B I D) as (N & Q). f_equal. symmetry.
      apply (length_arrives _ _ _ W N). intros l a b. apply Q. }
    unfold construct, lengths in *. destruct (String.eqb path "core.Canvas").
    { rewrite <- !L by (cbn; auto). destruct (arg bound "width") as [w|]; cbn [bind]; [|reflexivity].
      destruct (as_coord num w) as [w'|]; cbn [bind]; [|reflexivity].
      destruct (arg bound "height") as [h|]; cbn [bind]; [|reflexivity].
      destruct (as_coord num h) as [h'|]; cbn [bind]; [|reflexivity].
      destruct (arg bound "dpi") as [dp|]; cbn [bind]; [|reflexivity].
      destruct (as_number num dp) as [dp'|]; cbn [bind]; [|reflexivity].
      destruct (new_canvas w' h' dp') as [f|]; cbn [bind]; [|reflexivity].
      cbn [both]. apply Forall2_app; [exact A|]. constructor; [|constructor]. now split. }
    destruct (String.eqb path "core.Viewport") eqn:Ev; [|exact A].
    assert (Ep : path = "core.Viewport") by now apply String.eqb_eq.
    assert (Cv : (exists e, arg bound "canvas" = Err e /\ arg kws "canvas" = Err e) \/
      exists v w, arg bound "canvas" = Ok v /\ arg kws "canvas" = Ok w /\
        match v, w with VObj _ r, VObj _ R => paired r R | VObj _ _, _ | _, VObj _ _ => False | _, _ => True end).
    { unfold arg. specialize (K "canvas"). destruct (dget bound "canvas") as [v|] eqn:D; [|rewrite K; left; eauto].
      destruct K as (w & -> & W). right. exists v, w. split; [reflexivity|]. split; [reflexivity|]. exact (other_arrives _ _ _ W (RC bound v Ep B D)). }
    assert (Cc : (exists e, arg bound "color" = Err e /\ arg kws "color" = Err e) \/
      exists v w, arg bound "color" = Ok v /\ arg kws "color" = Ok w /\ hue w = hue v).
    { unfold arg. specialize (K "color"). destruct (dget bound "color") as [v|] eqn:D; [|rewrite K; left; eauto].
      destruct K as (w & -> & W). right. exists v, w. split; [reflexivity|]. split; [reflexivity|].
      destruct (PC bound v Ep B D) as (O & Q & H). exact (color_arrives _ _ _ W O Q H). }
    rewrite <- (L "x"), <- (L "y"), <- (L "width"), <- (L "height") by (cbn; auto 6).
    destruct Cv as [(e & -> & ->)|(v & w & -> & -> & V)]; cbn [bind]; [reflexivity|].
    destruct (arg bound "x") as [x|]; cbn [bind]; [|reflexivity]. destruct (as_coord num x) as [x'|]; cbn [bind]; [|reflexivity].
    destruct (arg bound "y") as [y|]; cbn [bind]; [|reflexivity]. destruct (as_coord num y) as [y'|]; cbn [bind]; [|reflexivity].
    destruct (arg bound "width") as [a|]; cbn [bind]; [|reflexivity]. destruct (as_coord num a) as [a'|]; cbn [bind]; [|reflexivity].
    destruct (arg bound "height") as [h|]; cbn [bind]; [|reflexivity]. destruct (as_coord num h) as [h'|]; cbn [bind]; [|reflexivity].
    destruct Cc as [(e & -> & ->)|(c1 & c2 & -> & -> & Hc)]; cbn [bind]; [reflexivity|].
    destruct v as [| | | | | | |cl1 k| |]; destruct w as [| | | | | | |cl2 k2| |]; try reflexivity; try contradiction.
    rewrite <- (hung_agrees t t' k k2 A V). destruct (hung t k) as [dk|]; [|reflexivity]. rewrite Hc.
    destruct (act_on dk _) as [d'|]; cbn [bind]; [|reflexivity]. cbn [both]. now apply hang_agrees.
  Qed.

  Lemma painted_agrees l outs : Forall2 (done txt pure oidf E d mades bs) l outs ->
    Forall (plain_lengths E d) l -> Forall (plain_colors txt pure hue) l -> Forall real_canvas l ->
    forall t t' refs, agrees t t' -> Forall2 paired refs (built outs) ->
    both (painted num hue t refs l) (repainted num hue t' outs).
  Proof.
    induction 1 as [|a o l outs D _ IH]; intros PL PC RC t t' refs A P; [exact A|].
    inversion PL as [|? ? PL1 PL2]; inversion PC as [|? ? PC1 PC2]; inversion RC as [|? ? RC1 RC2]; subst.
    destruct a as [cl path pre post sg args kw|r cl m sg args kw]; destruct o as [R path' kws|R m' kws v]; cbn [done] in D; try contradiction.
    - destruct D as (-> & bound & B & K). cbn [painted repainted built flat_map app] in *.
      inversion P as [|r ? refs' ? Pr P' X1 X2]; subst. rewrite B. cbn [bind].
      pose proof (construct_agrees t t' r R cl path pre post sg args kw bound kws A Pr PL1 PC1 RC1 B K) as G.
      destruct (construct num hue t r path bound) as [t1|e]; destruct (construct num hue t' R path kws) as [t2|e']; cbn [both bind] in *; try contradiction.
      + exact (IH PL2 PC2 RC2 t1 t2 refs' G P').
      + exact G.
    - cbn [painted repainted]. exact (IH PL2 PC2 RC2 t t' refs A P).
  Qed.
End Same.

(** ** What a program paints *)
Section Painted.
  Context {C : Type} (num : Z -> Qc) (hue : value -> C).

  Lemma hung_in (t : gallery C) k d : hung t k = Some d -> In (k, d) t.
  Proof.
    induction t as [|[r a] t IH]; cbn [hung]; [discriminate|]. destruct (Nat.eqb_spec r k) as [->|]; intros H.
    - injection H as ->. now left.
    - right. auto.
  Qed.
  Lemma hang_keys (t : gallery C) k d : map fst (hang t k d) = map fst t.
  Proof. induction t as [|[r a] t IH]; [reflexivity|]. cbn [hang]. destruct (Nat.eqb r k); cbn; congruence. Qed.
  Lemma hang_in (t : gallery C) k d r a : NoDup (map fst t) -> In (r, a) (hang t k d) ->
    (r = k /\ a = d) \/ (r <> k /\ In (r, a) t).
  Proof.
    induction t as [|[r0 a0] t IH]; cbn [hang map fst]; [intros _ []|]. intros N. inversion N as [|? ? N1 N2]; subst.
    destruct (Nat.eqb_spec r0 k) as [->|Ne]; intros [X|X].
    - injection X as <- <-. now left.
    - right. split; [|now right]. intros ->. apply N1. apply in_map_iff. now exists (k, a).
    - injection X as <- <-. right. split; [exact Ne|now left].
    - destruct (IH N2 X) as [?|(? & ?)]; [now left|]. right. split; [auto|now right].
  Qed.
  Lemma in_unique (t : gallery C) r a b : NoDup (map fst t) -> In (r, a) t -> In (r, b) t -> a = b.
  Proof.
    induction t as [|[r0 a0] t IH]; [intros _ []|]. cbn [map fst]. intros N [X|X] [Y|Y]; inversion N as [|? ? N1 N2]; subst.
    - congruence.
    - injection X as -> ->. exfalso. apply N1. apply in_map_iff. now exists (r, b).
    - injection Y as -> ->. exfalso. apply N1. apply in_map_iff. now exists (r, a).
    - eauto.
  Qed.
  Lemma as_coord_given b k v c : arg b k = Ok v -> as_coord num v = Ok c -> given num b k = Some c.
  Proof.
    unfold arg, given. destruct (dget b k) as [u|]; [|discriminate]. intros [= ->]. destruct v; cbn; try discriminate; intros [= <-]; reflexivity.
  Qed.
  Lemma as_number_given b v c : arg b "dpi" = Ok v -> as_number num v = Ok c -> resolution num b = Some c.
  Proof.
    unfold arg, resolution. destruct (dget b "dpi") as [u|]; [|discriminate]. intros [= ->]. destruct v; cbn; try discriminate; intros [= <-]; reflexivity.
  Qed.

  (** One constructor. *)
  Lemma construct_cases t r cl path pre post sg args kw bound t' : bind_args sg args kw = Ok bound -> construct num hue t r path bound = Ok t' ->
    let a := Session.New cl path pre post sg args kw in
    (String.eqb path "core.Canvas" = true /\ (forall q, viewport_on num hue q a = []) /\
       exists w h dpi f, given num bound "width" = Some w /\ given num bound "height" = Some h /\ resolution num bound = Some dpi /\
         new_canvas w h dpi = Ok f /\ t' = (t ++ [(r, bare f (fun _ => 1%Qc))])%list) \/
    (String.eqb path "core.Canvas" = false /\ (exists k d v d', In (k, d) t /\ viewport_on num hue k a = [v] /\
       (forall q, q <> k -> viewport_on num hue q a = []) /\ act_on d v = Ok d' /\ t' = hang t k d')) \/
    (String.eqb path "core.Canvas" = false /\ (forall q, viewport_on num hue q a = []) /\ t' = t).
  Proof.
    intros B. cbv zeta. unfold construct, viewport_on. destruct (String.eqb path "core.Canvas") eqn:E1.
    - apply String.eqb_eq in E1. subst path. cbn [String.eqb Ascii.eqb Bool.eqb].
      destruct (arg bound "width") as [w|] eqn:A1; cbn [bind]; [|discriminate]. destruct (as_coord num w) as [w'|] eqn:A2; cbn [bind]; [|discriminate].
      destruct (arg bound "height") as [h|] eqn:A3; cbn [bind]; [|discriminate]. destruct (as_coord num h) as [h'|] eqn:A4; cbn [bind]; [|discriminate].
      destruct (arg bound "dpi") as [p|] eqn:A5; cbn [bind]; [|discriminate]. destruct (as_number num p) as [p'|] eqn:A6; cbn [bind]; [|discriminate].
      destruct (new_canvas w' h' p') as [f|] eqn:A7; cbn [bind]; [|discriminate]. intros [= <-]. left. split; [reflexivity|]. split; [reflexivity|].
      exists w', h', p', f. split; [eapply as_coord_given; eassumption|]. split; [eapply as_coord_given; eassumption|].
      split; [eapply as_number_given; eassumption|]. auto.
    - destruct (String.eqb path "core.Viewport").
      + rewrite B. destruct (arg bound "canvas") as [c|] eqn:A0; cbn [bind]; [|discriminate].
        destruct (arg bound "x") as [x|] eqn:A1; cbn [bind]; [|discriminate]. destruct (as_coord num x) as [x'|] eqn:A2; cbn [bind]; [|discriminate].
        destruct (arg bound "y") as [y|] eqn:A3; cbn [bind]; [|discriminate]. destruct (as_coord num y) as [y'|] eqn:A4; cbn [bind]; [|discriminate].
        destruct (arg bound "width") as [w|] eqn:A5; cbn [bind]; [|discriminate]. destruct (as_coord num w) as [w'|] eqn:A6; cbn [bind]; [|discriminate].
        destruct (arg bound "height") as [h|] eqn:A7; cbn [bind]; [|discriminate]. destruct (as_coord num h) as [h'|] eqn:A8; cbn [bind]; [|discriminate].
        destruct (arg bound "color") as [co|] eqn:A9; cbn [bind]; [|discriminate].
        destruct c as [| | | | | | |cl1 k| |]; try discriminate. destruct (hung t k) as [d|] eqn:Hk; [|discriminate].
        destruct (act_on d _) as [d'|] eqn:Ha; cbn [bind]; [|discriminate]. intros [= <-]. right. left. split; [reflexivity|].
        rewrite (as_coord_given _ _ _ _ A1 A2), (as_coord_given _ _ _ _ A3 A4), (as_coord_given _ _ _ _ A5 A6), (as_coord_given _ _ _ _ A7 A8).
        unfold arg in A0, A9. destruct (dget bound "canvas"); [|discriminate]. injection A0 as ->. destruct (dget bound "color"); [|discriminate]. injection A9 as ->.
        exists k, d, (Panes.New x' y' w' h' (hue co)), d'. split; [now apply hung_in|]. rewrite Nat.eqb_refl. split; [reflexivity|].
        split; [|auto]. intros q Hq. destruct (Nat.eqb_spec k q); [congruence|reflexivity].
      + intros [= <-]. right. right. auto.
  Qed.

  Lemma canvases_refs l : forall refs r b, In (r, b) (canvases refs l) -> In r refs.
  Proof.
    induction l as [|[cl path pre post sg args kw|r0 cl m sg args kw] l IH]; intros refs r b; cbn [canvases]; [intros []| |apply IH].
    destruct refs as [|r1 refs]; [intros []|]. destruct (bind_args sg args kw) as [b1|].
    - destruct (String.eqb path "core.Canvas").
      + intros [X|X]; [injection X as <- _; now left|right; eauto].
      + right; eauto.
    - right; eauto.
  Qed.
  Lemma painted_spec l : forall t refs t', painted num hue t refs l = Ok t' -> NoDup (map fst t ++ refs) ->
    map fst t' = (map fst t ++ map fst (canvases refs l))%list /\
    forall r d', In (r, d') t' ->
      (exists d, In (r, d) t /\ Panes.acts d (viewports_on num hue r l) = Ok d') \/
      (exists b, In (r, b) (canvases refs l) /\ as_asked num hue l r b d').
  Proof.
    induction l as [|[cl path pre post sg args kw|r0 cl m sg args kw] l IH]; intros t refs t'.
    - cbn [painted]. intros [= <-] _. cbn [canvases]. destruct refs as [|q qs]; (split; [cbn; now rewrite app_nil_r|intros r d' I; left; exists d'; split; [exact I|reflexivity]]).
    - cbn [painted]. destruct refs as [|r0 refs]; [discriminate|]. destruct (bind_args sg args kw) as [bound|] eqn:B; cbn [bind]; [|discriminate].
      destruct (construct num hue t r0 path bound) as [t1|] eqn:K; cbn [bind]; [|discriminate]. intros P N.
      pose proof (NoDup_remove_1 _ _ _ N) as N'. pose proof (NoDup_remove_2 _ _ _ N) as N0.
      assert (Nt : NoDup (map fst t)) by (clear - N'; induction (map fst t); [constructor|]; cbn in N'; inversion N'; subst; constructor; auto; intros X; apply H1; apply in_or_app; now left).
      unfold as_asked, viewports_on. cbn [flat_map canvases]. rewrite B.
      destruct (construct_cases t r0 cl path pre post sg args kw bound t1 B K) as [(E & V & w & h & dpi & f & G1 & G2 & G3 & G4 & ->)|[(E & k & d & v & d1 & I & V & V' & A & ->)|(E & V & ->)]]; rewrite E.
      + destruct (IH _ refs t' P) as [M Q]. { rewrite map_app. cbn [map fst]. rewrite <- app_assoc. exact N. }
        split; [rewrite M, map_app, <- app_assoc; reflexivity|]. intros r d' Id. rewrite (V r). cbn [app].
        destruct (Q r d' Id) as [(d & X & Y)|(b & X & Y)].
        * apply in_app_or in X as [X|[X|[]]]; [left; eauto|]. injection X as <- <-. right. exists bound. split; [now left|].
          exists w, h, dpi, f. auto.
        * right. exists b. split; [now right|exact Y].
      + destruct (IH _ refs t' P) as [M Q]. { now rewrite hang_keys. }
        split; [now rewrite M, hang_keys|]. intros r d' Id.
        destruct (Q r d' Id) as [(d2 & X & Y)|(b & X & Y)].
        * left. apply (hang_in t k d1 r d2 Nt) in X as [(-> & ->)|(Ne & X)].
          -- exists d. split; [exact I|]. rewrite V. cbn [app Panes.acts]. now rewrite A.
          -- exists d2. split; [exact X|]. now rewrite (V' r Ne).
        * right. exists b. split; [exact X|]. rewrite (V' r); [exact Y|]. intros ->.
          clear - N' I X. apply canvases_refs in X. apply in_split in X as (a1 & a2 & ->).
          assert (In k (map fst t)) by (apply in_map_iff; now exists (k, d)).
          rewrite app_assoc in N'. apply NoDup_remove_2 in N'. apply N'. apply in_or_app. left. apply in_or_app. now left.
      + destruct (IH _ refs t' P N') as [M Q]. split; [exact M|]. intros r d' Id. rewrite (V r). exact (Q r d' Id).
    - cbn [painted canvases]. intros P N. destruct refs; exact (IH _ _ _ P N).
  Qed.
End Painted.

(** ** Elsewhere *)
Section Elsewhere.
  Context {C : Type} (num : Z -> Qc) (hue : value -> C) (E : cenv) (d : registry).

  Lemma holds_acts l : forall c, SessionFacts.holds (cl_reg c) (cl_made c) ->
    SessionFacts.holds (cl_reg (Session.acts E d c l)) (cl_made (Session.acts E d c l)).
  Proof.
    induction l as [|a l IH]; intros c H; [exact H|].
    change (Session.acts E d c (a :: l)) with (Session.acts E d (Session.act E d c a) l). apply IH. now apply holds_act.
  Qed.
  Lemma refs_nodup c l : starting c -> NoDup (map fst (cl_made (Session.acts E d c l))).
  Proof.
    intros (M & _). assert (H : SessionFacts.holds (cl_reg c) (cl_made c)) by (rewrite M; split; [intros ? ? []|constructor]).
    apply (holds_acts l) in H as [_ H]. rewrite <- map_map in H. exact (NoDup_map_inv _ _ H).
  Qed.
  Lemma all_paired mades bs : length bs = length mades -> Forall2 (paired mades bs) (map fst mades) bs.
  Proof.
    intros L. assert (G : forall m b m0 b0, length b = length m -> length b0 = length m0 -> mades = (m0 ++ m)%list -> bs = (b0 ++ b)%list -> Forall2 (paired mades bs) (map fst m) b).
    { induction m as [|[r p] m IH]; intros [|R b] m0 b0 L1 L0 -> ->; try discriminate; [constructor|]. cbn [map fst]. constructor.
      - exists p, (length m0). split; [rewrite nth_error_app2, Nat.sub_diag by lia; reflexivity|].
        rewrite nth_error_app2 by lia. now rewrite L0, Nat.sub_diag.
      - apply (IH b (m0 ++ [(r, p)])%list (b0 ++ [R])%list); [now injection L1| |now rewrite <- app_assoc|now rewrite <- app_assoc].
        rewrite !app_length. cbn. lia. }
    exact (G mades bs [] [] L eq_refl eq_refl eq_refl).
  Qed.
  Lemma both_seen mades bs x y : both (C := C) mades bs x y -> seen_in y = seen_in x.
  Proof.
    destruct x as [t|e], y as [t'|e']; cbn [both]; try contradiction.
    - intros A. cbn [seen_in bind]. f_equal. induction A as [|? ? ? ? (X & _) _ IH]; cbn; congruence.
    - intros ->. reflexivity.
  Qed.
  Lemma seen_again txt pure oidf mades outs l : NoDup (map fst mades) -> NoDup (built outs) -> length (built outs) = length mades ->
    Forall2 (done txt pure oidf E d mades (built outs)) l outs -> Forall (plain_lengths E d) l -> Forall (plain_colors txt pure hue) l -> Forall real_canvas l ->
    seen_in (repainted num hue [] outs) = seen_in (painted num hue [] (map fst mades) l).
  Proof.
    intros Dm Db L D PL PC RC. apply (both_seen mades (built outs)).
    apply (painted_agrees num hue txt pure oidf E d mades (built outs) Dm Db l outs D PL PC RC); [constructor|]. now apply all_paired.
  Qed.

  Lemma shown_elsewhere ftok fval stamp code (FT : float_texts ftok fval stamp) txt pure c l sS rsS B ap apS calls fuel can_open fs format name :
    starting c -> fine_session txt pure E d c l -> l <> [] -> SessionSpec.ready sS -> recording rsS = true ->
    offers B c l E d -> in_step B c (Session.acts E d c l) rsS l ->
    (forall f v, apS f v = ([], pure f v)) -> (length l <= fuel)%nat -> can_open name = true -> json_file format name ->
    Forall (plain_lengths E d) l -> Forall (plain_colors txt pure hue) l -> Forall real_canvas l ->
    let c' := Session.acts E d c l in
    exists x, gsp_save ftok stamp txt apS (oid_in (cl_reg c')) fuel can_open fs (cl_sys c') format name = (dset fs name x, cl_sys c', Ok tt) /\
    forall s' rs' cls outs o, play_file fval code B ap calls rsS sS (dset fs name x) format name = (s', (rs', cls, outs), o) ->
      (o = Ok tt -> seen_in (repainted num hue [] outs) = seen_in (painted num hue [] (map fst (cl_made c')) l)) /\
      (forall e, o = Err e -> exists l1 a l2, l = (l1 ++ a :: l2)%list /\
         seen_in (repainted num hue [] outs) = seen_in (painted num hue [] (map fst (cl_made (Session.acts E d c l1))) l1)).
  Proof.
    intros Hst Hf Hl Hr Hrec Hof Hin Hap Hfu Hop Hj PL PC RC c'.
    destruct (sessions_redone ftok fval stamp code FT E d txt pure c l sS rsS B ap apS calls fuel can_open fs format name Hst Hf Hl Hr Hrec Hof Hin Hap Hfu Hop Hj) as (x & Hs & G).
    exists x. split; [exact Hs|]. intros s' rs' cls outs o Hp.
    assert (Hb : beginning x x) by (exists []; now rewrite app_nil_r).
    destruct (G x Hb s' rs' cls outs o Hp) as [G1 _]. destruct (G1 eq_refl) as [G2 G3]. split.
    - intros Ho. destruct (G2 Ho) as (D & N & L & _).
      exact (seen_again txt pure _ _ outs l (refs_nodup c l Hst) N L D PL PC RC).
    - intros e He. destruct (G3 e He) as (l1 & a & l2 & -> & D & N & L & _ & _). exists l1, a, l2. split; [reflexivity|].
      apply Forall_app in PL as [PL _]. apply Forall_app in PC as [PC _]. apply Forall_app in RC as [RC _].
      exact (seen_again txt pure _ _ outs l1 (refs_nodup c l1 Hst) N L D PL PC RC).
  Qed.

  Lemma canvases_nodup l : forall refs, NoDup refs -> NoDup (map fst (canvases refs l)).
  Proof.
    induction l as [|[cl path pre post sg args kw|r0 cl m sg args kw] l IH]; intros refs N; cbn [canvases]; [constructor| |auto].
    destruct refs as [|r refs]; [constructor|]. inversion N as [|? ? N1 N2]; subst. destruct (bind_args sg args kw) as [b|]; [|auto].
    destruct (String.eqb path "core.Canvas"); [|auto]. cbn [map fst]. constructor; [|auto].
    intros I. apply in_map_iff in I as ([r1 b1] & X & I). cbn [fst] in X. subst r1. apply canvases_refs in I. contradiction.
  Qed.
  (** What a program paints is what it asks for. *)
  Lemma painted_asked l refs t : painted num hue [] refs l = Ok t -> NoDup refs ->
    length t = length (canvases refs l) /\
    forall n r b, nth_error (canvases refs l) n = Some (r, b) -> exists dk, nth_error t n = Some (r, dk) /\ as_asked num hue l r b dk.
  Proof.
    intros P N. destruct (painted_spec num hue l [] refs t P N) as [M Q]. cbn [map app] in M.
    split; [rewrite <- (map_length fst t), M; apply map_length|].
    intros n r b I.
    assert (Ir : nth_error (map fst t) n = Some r) by (rewrite M, nth_error_map, I; reflexivity).
    rewrite nth_error_map in Ir. destruct (nth_error t n) as [[r' dk]|] eqn:En; [|discriminate]. injection Ir as ->.
    exists dk. split; [reflexivity|]. destruct (Q r dk (nth_error_In _ _ En)) as [(? & [] & _)|(b' & I' & A)].
    assert (b' = b) as ->; [|exact A].
    apply nth_error_In in I. pose proof (canvases_nodup l refs N) as Nc. clear - I I' Nc.
    induction (canvases refs l) as [|[k q] L IH]; [destruct I|]. cbn [map fst] in Nc. inversion Nc as [|? ? N1 N2]; subst.
    destruct I as [I|I], I' as [I'|I']; try congruence; [| |auto].
    - injection I as -> ->. exfalso. apply N1. apply in_map_iff. now exists (r, b').
    - injection I' as -> ->. exfalso. apply N1. apply in_map_iff. now exists (r, b).
  Qed.
  Lemma seen_nth (x : res (gallery C)) t : seen_in x = seen_in (Ok t) -> exists t', x = Ok t' /\ map snd t' = map snd t.
  Proof. destruct x as [t'|e]; cbn [seen_in bind]; [intros [= X]; eauto|discriminate]. Qed.

  Lemma points_elsewhere l refs t x : seen_in x = seen_in (painted num hue [] refs l) -> painted num hue [] refs l = Ok t -> NoDup refs ->
    exists t', x = Ok t' /\ length t' = length (canvases refs l) /\
      forall n r b, nth_error (canvases refs l) n = Some (r, b) -> exists R dk, nth_error t' n = Some (R, dk) /\ as_asked num hue l r b dk /\
        (Forall not_zero (made (viewports_on num hue r l)) -> fst (size (d_fig dk)) <> 0%Qc -> snd (size (d_fig dk)) <> 0%Qc ->
         forall px py color, color_at dk px py = Some color <->
           exists i m, on_top (d_fig dk) (made (viewports_on num hue r l)) px py i /\ nth_error (made (viewports_on num hue r l)) i = Some m /\ color_of m = color).
  Proof.
    intros S P N. rewrite P in S. destruct (seen_nth x t S) as (t' & -> & M). destruct (painted_asked l refs t P N) as [L A].
    exists t'. split; [reflexivity|]. split; [rewrite <- L, <- (map_length snd t'), M; apply map_length|].
    intros n r b I. destruct (A n r b I) as (dk & T & D).
    assert (T' : nth_error (map snd t') n = Some dk) by (rewrite M, nth_error_map, T; reflexivity).
    rewrite nth_error_map in T'. destruct (nth_error t' n) as [[R dk']|] eqn:En; [|discriminate]. injection T' as ->.
    exists R, dk. split; [reflexivity|]. split; [exact D|]. intros Z W H px py color.
    destruct D as (w & h & dpi & f & _ & _ & _ & _ & D). exact (color_top f _ _ dk px py color D Z W H).
  Qed.
End Elsewhere.

(** ** The example *)
Lemma viewport_of_fine c r path x y w h color : In (r, path) (cl_made c) ->
  (exists z, x = VInt z \/ x = VFloat z) -> (exists z, y = VInt z \/ y = VFloat z) ->
  (exists z, w = VInt z \/ w = VFloat z) -> (exists z, h = VInt z \/ h = VFloat z) ->
  fine no_text as_text two_classes str_to_color c (viewport_of r x y w h color).
Proof.
  intros Hin (zx & X) (zy & Y) (zw & W) (zh & Q). cbn [fine viewport_of]. split; [reflexivity|]. split; [reflexivity|]. split; [reflexivity|].
  split; [valid_signature|]. split; [distinct|].
  split; [intros ? ? K; cbn in K; each_param K; discriminate|].
  destruct X as [-> | ->], Y as [-> | ->], W as [-> | ->], Q as [-> | ->];
  (split; [eexists; split; [reflexivity|]; intros k v K; cbn in K; found K; try (left; reflexivity); right; exists "Canvas", r, path; auto|all_sent]).
Qed.
Lemma canvas_of_fine c w h : fine no_text as_text two_classes str_to_color c (canvas_of w h).
Proof.
  cbn [fine canvas_of]. split; [reflexivity|]. split; [reflexivity|]. split; [reflexivity|].
  split; [valid_signature|]. split; [distinct|].
  split; [intros ? ? K; cbn in K; each_param K; discriminate|].
  split; [eexists; split; [reflexivity|]; intros k v K; cbn in K; found K; left; reflexivity|all_sent].
Qed.

Lemma lengths_case : Forall (plain_lengths two_classes str_to_color) two_canvases.
Proof.
  repeat apply Forall_cons; try apply Forall_nil; cbn [plain_lengths canvas_of viewport_of a_render]; try exact Logic.I;
    intros bound k v B I D; cbn in B; injection B as <-; cbn in I;
    repeat (destruct I as [<-|I]; [cbn in D; injection D as <-; split; [eexists; eauto|];
      intros anns a b A Ia Ib; cbn in A; injection A as <-; cbn in Ia, Ib;
      repeat destruct Ia as [<-|Ia]; try destruct Ia; repeat destruct Ib as [<-|Ib]; try destruct Ib; reflexivity|]); destruct I.
Qed.
Lemma colors_case : Forall (plain_colors no_text as_text named) two_canvases.
Proof.
  assert (G : forall s oidf x j, (x = VStr s \/ exists f, as_text f (VStr s) = Ok x) -> encode no_text oidf x = Ok j -> named (decode j) = named (VStr s)).
  { intros s oidf x j [-> |(f & [= <-])] [= <-]; reflexivity. }
  repeat apply Forall_cons; try apply Forall_nil; cbn [plain_colors canvas_of viewport_of a_render]; try exact Logic.I;
    intros bound v P B D; try discriminate P; cbn in B; injection B as <-; cbn in D; injection D as <-; (split; [reflexivity|split; [intros f x [= <-]; reflexivity|apply G]]).
Qed.
Lemma real_case : Forall real_canvas two_canvases.
Proof.
  repeat apply Forall_cons; try apply Forall_nil; cbn [real_canvas canvas_of viewport_of a_render]; try exact Logic.I;
    intros bound v P B D; try discriminate P; cbn in B; injection B as <-; cbn in D; injection D as <-; reflexivity.
Qed.
Lemma elsewhere_case :
  let c' := Session.acts two_classes str_to_color new_process two_canvases in
  starting new_process /\ fine_session no_text as_text two_classes str_to_color new_process two_canvases /\ SessionSpec.ready sinit /\
  offers willing new_process two_canvases two_classes str_to_color /\ in_step willing new_process c' rinit two_canvases /\
  Forall (plain_lengths two_classes str_to_color) two_canvases /\ Forall (plain_colors no_text as_text named) two_canvases /\
  Forall real_canvas two_canvases.
Proof.
  cbv zeta. split; [apply starting_process|]. split.
  { unfold two_canvases. split; [apply canvas_of_fine|].
    split; [eapply viewport_of_fine; [left; reflexivity|eauto..]|]. split; [eapply viewport_of_fine; [left; reflexivity|eauto..]|].
    split; [apply canvas_of_fine|]. split; [eapply viewport_of_fine; [do 3 right; left; reflexivity|eauto..]|].
    split; [eapply a_render_fine; left; reflexivity|exact Logic.I]. }
  split; [apply ready_init|]. split; [apply offers_willing|]. split.
  { right. split; [cbn; lia|]. intros cl path pre post sg args kw kws pre' post' H _.
    cbn in H. repeat (destruct H as [H|H]; [try discriminate H; injection H; intros; subst; lia|]). destruct H. }
  split; [exact lengths_case|]. split; [exact colors_case|exact real_case].
Qed.
