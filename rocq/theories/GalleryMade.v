(** Proofs about what visuals are made of and draw, in Gallery.v. *)
From Coq Require Import Reals Lra Permutation.
From Verif Require Import Base Registry Convert Command CommandSpec Execute Session
  Measure Viewport ViewportSpec Panes Glm GlmSpec Vec VecSpec Render RenderSpec Picture PictureSpec PictureFacts Outline OutlineSpec OutlineFacts
  Remote Relay RelaySpec RelayFacts Gallery GallerySpec GalleryFacts.
Open Scope string_scope.

Section Made.
  Context {C Pic : Type} (num : Z -> Qc) (hue : Command.value -> C) (arrays : string -> Z -> option arr)
          (unpack : Command.value -> list N -> res (Vec.kind * list Vec.num)) (look : Command.value -> given).
  Lemma var_stands (t : hall C Pic) path k v : reshaped path k = false -> stands_for arrays look t v (var_at arrays look t path k v).
  Proof.
    intros R. unfold var_at, stands_for, array_at. rewrite R. destruct v as [| | | | | |c0 z0|c0 k0| |]; try reflexivity.
    - destruct (arrays c0 z0); reflexivity.
    - destruct (located t k0 0) as [[n [| |A m| |]]|]; reflexivity.
  Qed.
  Lemma variables_dget (t : hall C Pic) path kws ks : (forall k, In k ks -> dget kws k <> None) ->
    exists vars, variables arrays look t path kws ks = Ok vars /\ forall k, In k ks -> exists v, dget kws k = Some v /\ dget vars k = Some (var_at arrays look t path k v).
  Proof.
    induction ks as [|k ks IH]; intros H; cbn [variables].
    - exists []. split; [reflexivity|]. intros k [].
    - unfold arg. destruct (dget kws k) as [v|] eqn:D; [|exfalso; exact (H k (or_introl eq_refl) D)]. cbn [bind].
      destruct IH as (vars & -> & V); [intros; apply H; now right|]. cbn [bind]. eexists. split; [reflexivity|].
      intros k' I. cbn [dget]. destruct (Base.eqb k' k) eqn:E.
      + apply String.eqb_eq in E. subst k'. eauto.
      + destruct I as [<-|I]; [apply String.eqb_neq in E; contradiction|]. apply V, I.
  Qed.
  Lemma figure_made (t : hall C Pic) r path ks kws c z V (ps : list vec3) : In (path, ks) arguments ->
    (forall k, In k ks -> dget kws k <> None) ->
    dget kws "positions" = Some (VAtom c z) -> arrays c z = Some V -> lists V ps ->
    (In "indices" ks -> forall v, dget kws "indices" = Some v -> exists x, stands_for arrays look t v x /\ counts x) ->
    exists vars, Gallery.construct num hue arrays unpack look t r path kws = Ok (t ++ [(r, Figure path vars)])%list /\
      (path <> "visual.Pixels" -> exists W, dget vars "positions" = Some (Array (Ok W) (Z.of_nat (length ps))) /\ PictureSpec.holds W ps) /\
      (path = "visual.Pixels" -> dget vars "positions" = Some (Array (Ok V) (Z.of_nat (length ps)))) /\
      forall k v, In k ks -> k <> "positions" -> dget kws k = Some v -> exists x, dget vars k = Some x /\ stands_for arrays look t v x.
  Proof.
    intros I H P A L Hi. destruct (variables_dget t path kws ks H) as (vars & Ev & Dv).
    assert (Lr : rows V = length ps).
    { destruct L as (k & l & -> & T & _). cbn [rows table a_data]. rewrite map_length. clear - T. induction T; cbn; congruence. }
    assert (Ip : In "positions" ks) by (cbn in I; repeat (destruct I as [[= <- <-]|I]; [now left|]); destruct I).
    assert (Hv : forall k v, In k ks -> k <> "positions" -> dget kws k = Some v -> exists x, dget vars k = Some x /\ stands_for arrays look t v x).
    { intros k v Ik Nk D. destruct (Dv k Ik) as (v' & D' & X). rewrite D in D'. injection D' as <-. eexists. split; [exact X|]. apply var_stands.
      unfold reshaped. destruct (String.eqb_spec k "positions"); [contradiction|reflexivity]. }
    destruct (Dv "positions" Ip) as (v & D & X). rewrite P in D. injection D as <-.
    assert (Ea : array_at arrays t (VAtom c z) = Some (Ok V, Z.of_nat (length ps))) by (cbn; now rewrite A, Lr).
    unfold var_at in X. rewrite Ea in X.
    assert (Ec : Gallery.construct num hue arrays unpack look t r path kws = let* x := new_figure arrays look t path ks kws in Ok (t ++ [(r, x)])%list).
    { cbn in I. repeat (destruct I as [[= <- <-]|I]; [reflexivity|]). destruct I. }
    assert (Es : sized path vars = Ok tt).
    { unfold sized. rewrite X. cbn [length_of]. replace (Z.of_nat (length ps) <? 0)%Z with false by (symmetry; apply Z.ltb_ge; lia). cbn [bind].
      destruct (String.eqb path "visual.Paths" || String.eqb path "visual.Polygons")%bool eqn:Q; [|reflexivity].
      assert (Ii : In "indices" ks) by (cbn in I; repeat (destruct I as [[= <- <-]|I]; [first [discriminate Q|cbn; auto]|]); destruct I).
      destruct (Dv "indices" Ii) as (v & D & Y). destruct (Hi Ii v D) as (x & S & Cx).
      assert (Exx : var_at arrays look t path "indices" v = x).
      { pose proof (var_stands t path "indices" v eq_refl) as S'. clear - S S'. unfold stands_for in *. destruct v as [| | | | | |c0 z0|c0 k0| |]; try congruence.
        - destruct (arrays c0 z0); congruence.
        - destruct (located t k0 0) as [[n [| |B m| |]]|]; congruence. }
      rewrite Y, Exx. destruct Cx as [(n & -> & Hn)|(B & n & -> & Hn)]; cbn [paths_of length_of].
      - destruct (Z.eqb_spec n 0); [lia|]. destruct (Z.ltb_spec (Z.of_nat (length ps) / n) 0) as [Q'|]; [exfalso; pose proof (Z.div_pos (Z.of_nat (length ps)) n); lia|reflexivity].
      - destruct (Z.ltb_spec n 0); [lia|reflexivity]. }
    assert (Eg : aligned path kws vars = Ok tt).
    { unfold aligned. destruct (String.eqb path "visual.Markers"); [|reflexivity]. rewrite P. destruct (dget vars "axis") as [[B n|[|n|a]|]|]; try reflexivity. }
    exists vars. split; [|split; [|split; [|exact Hv]]].
    - rewrite Ec. unfold new_figure. rewrite Ev. cbn [bind]. rewrite Es. cbn [bind]. rewrite Eg. reflexivity.
    - intros N. unfold reshaped in X. destruct (String.eqb_spec path "visual.Pixels"); [contradiction|]. cbn in X. eexists. split; [exact X|].
      destruct L as (k & l & -> & T & Su). exists l. split; [|split; [exact T|exact Su]]. cbn. clear. induction l as [|a l IH]; [reflexivity|]. cbn. now rewrite map_app, IH.
    - intros ->. exact X.
  Qed.
End Made.

Section Drawn.
  Context (code whole : Vec.num -> Z) (argsort : list Vec.num -> list nat).
  Lemma points_paint v V ps vars f e w s face edge width size : sorts_numbers argsort -> usable v -> PictureSpec.holds V ps ->
    let n := length ps in
    dget vars "positions" = Some (Array (Ok V) (Z.of_nat n)) ->
    dget vars "fill_colors" = Some f -> colors code f = Ok face -> dget vars "line_colors" = Some e -> colors code e = Ok edge ->
    dget vars "line_widths" = Some w -> numbers code w = Ok width -> dget vars "sizes" = Some s -> numbers code s = Ok size ->
    fits n face -> clear n face -> fits n edge -> clear n edge -> fits n width -> clear n width -> fits_size n size ->
    exists order out, paint_all code whole argsort "visual.Points" v vars = Ok (Spots out) /\ visits n order /\
      covers (depth_in (fun p => Some (z3 p)) ps) order /\
      map Some out = map (fun j => option_map (fun p => (spot v (point p), [own face j; own edge j; own width j; own size j])) (nth_error ps j)) order.
  Proof.
    intros SORT U H n Dp Df Ef De Ee Dw Ew Ds Es F1 C1 F2 C2 F3 C3 F4.
    destruct (dots_where argsort v V ps size face edge width SORT U H F1 C1 F2 C2 F3 C3 F4) as (order & out & O & R).
    exists order, out. split; [|exact R]. unfold paint_all. cbn [String.eqb Ascii.eqb Bool.eqb]. unfold paint_points, positions, variable.
    rewrite Dp, Df, De, Dw, Ds. cbn [bind fst snd]. rewrite Ef, Ee, Ew, Es. fold n in O. rewrite O. reflexivity.
  Qed.
  Lemma pixels_paint v V ps vars c color : sorts_numbers argsort -> usable v -> lists V ps ->
    let n := length ps in
    dget vars "positions" = Some (Array (Ok V) (Z.of_nat n)) -> dget vars "colors" = Some c -> colors code c = Ok color -> fits n color -> clear n color ->
    exists order out, paint_all code whole argsort "visual.Pixels" v vars = Ok (Spots out) /\ visits n order /\
      covers (depth_in (fun p => Some (- z3 p)%R) ps) order /\
      map Some out = map (fun j => option_map (fun p => (spot v (point p), [own color j])) (nth_error ps j)) order.
  Proof.
    intros SORT U L n Dp Dc Ec F1 C1.
    destruct (pixels_where argsort SORT v V Relay.eye Relay.eye Relay.eye ps color U L F1 C1) as (order & out & O & Vi & Cv & M).
    destruct (pixels_rows code argsort v V ps (Z.of_nat n) c color L eq_refl Ec) as (x & Px & Ox). rewrite O in Ox. injection Ox as <-.
    exists order, out. split; [|split; [exact Vi|split]].
    - unfold paint_all. cbn [String.eqb Ascii.eqb Bool.eqb]. revert Px. unfold paint_pixels, positions, variable. rewrite Dp, Dc. cbn [dget]. 
      cbn [Base.eqb EqB_string String.eqb Ascii.eqb Bool.eqb]. auto.
    - intros a b p q y z Ll A B X Y. apply (Cv a b p q y z Ll A B); unfold depth_in in *.
      + destruct (nth_error ps p); [|discriminate]. rewrite depth_eye. exact X.
      + destruct (nth_error ps q); [|discriminate]. rewrite depth_eye. exact Y.
    - etransitivity; [exact M|]. apply map_ext. intros j. destruct (nth_error ps j) as [p|]; [|reflexivity]. cbn [option_map]. now rewrite clip_eye.
  Qed.
  Lemma paths_paint v V ps vars x i gs c w color width cap : sorts_numbers argsort -> usable v -> PictureSpec.holds V ps ->
    dget vars "positions" = Some (Array (Ok V) (Z.of_nat (length ps))) -> dget vars "indices" = Some x -> says_sizes whole x i -> group ps i = Ok gs -> gs <> [] ->
    dget vars "line_colors" = Some c -> colors code c = Ok color -> dget vars "line_widths" = Some w -> numbers code w = Ok width ->
    dget vars "line_caps" = Some (Plain (Int cap)) -> (1 <= cap <= 3)%Z ->
    let n := length gs in
    Forall (fun a => fits n a /\ clear_path n (length ps) a) [color; width] ->
    exists order out, paint_all code whole argsort "visual.Paths" v vars = Ok (Lines out) /\ visits n order /\
      covers (mean_in (fun p => Some (z3 p)) gs) order /\
      map Some out = map (fun j => option_map (fun g => (map (fun p => spot v (point p)) g, [own color j; own width j])) (nth_error gs j)) order.
  Proof.
    intros SORT U H Dp Di Sx G Ng Dc Ec Dw Ew Dk Hk n F.
    destruct (lines_where whole argsort v V ps vars x i gs [color; width] SORT U H Dp Di Sx G Ng F) as (order & out & O & R).
    exists order, out. split; [|exact R]. unfold paint_all. cbn [String.eqb Ascii.eqb Bool.eqb]. unfold variable at 1. rewrite Dk. cbn [bind Gallery.cap].
    assert (E : ((cap =? 1) || (cap =? 2) || (cap =? 3))%Z%bool = true) by (assert (cap = 1 \/ cap = 2 \/ cap = 3)%Z as [-> |[-> | ->]] by lia; reflexivity).
    rewrite E. cbn [bind]. unfold attr_at, variable. rewrite Dc, Dw. cbn [bind]. rewrite Ec, Ew. exact O.
  Qed.
  Lemma polygons_paint v V ps vars x i gs f c w fill color width : sorts_numbers argsort -> usable v -> PictureSpec.holds V ps ->
    dget vars "positions" = Some (Array (Ok V) (Z.of_nat (length ps))) -> dget vars "indices" = Some x -> says_sizes whole x i -> group ps i = Ok gs -> gs <> [] ->
    dget vars "fill_colors" = Some f -> colors code f = Ok fill ->
    dget vars "line_colors" = Some c -> colors code c = Ok color -> dget vars "line_widths" = Some w -> numbers code w = Ok width ->
    let n := length gs in
    Forall (fun a => fits n a /\ clear_path n (length ps) a) [fill; color; width] ->
    exists order out, paint_all code whole argsort "visual.Polygons" v vars = Ok (Lines out) /\ visits n order /\
      covers (mean_in (fun p => Some (z3 p)) gs) order /\
      map Some out = map (fun j => option_map (fun g => (map (fun p => spot v (point p)) g, [own fill j; own color j; own width j])) (nth_error gs j)) order.
  Proof.
    intros SORT U H Dp Di Sx G Ng Df Ef Dc Ec Dw Ew n F.
    destruct (lines_where whole argsort v V ps vars x i gs [fill; color; width] SORT U H Dp Di Sx G Ng F) as (order & out & O & R).
    exists order, out. split; [|exact R]. unfold paint_all. cbn [String.eqb Ascii.eqb Bool.eqb].
    unfold attr_at, variable. rewrite Df, Dc, Dw. cbn [bind]. rewrite Ef, Ec, Ew. exact O.
  Qed.
  Lemma none_paint path v V ps vars x i : In path ["visual.Paths"; "visual.Polygons"] -> PictureSpec.holds V ps ->
    dget vars "positions" = Some (Array (Ok V) (Z.of_nat (length ps))) -> dget vars "indices" = Some x -> says_sizes whole x i -> group ps i = Ok [] ->
    (path = "visual.Paths" -> exists cap, dget vars "line_caps" = Some (Plain (Int cap)) /\ (1 <= cap <= 3)%Z) ->
    paint_all code whole argsort path v vars = Err ValueError.
  Proof.
    intros I H Dp Di Sx G Hc. destruct I as [<-|[<-|[]]]; unfold paint_all; cbn [String.eqb Ascii.eqb Bool.eqb].
    - destruct (Hc eq_refl) as (cap & Dk & Hk). unfold variable at 1. rewrite Dk. cbn [bind Gallery.cap].
      assert (E : ((cap =? 1) || (cap =? 2) || (cap =? 3))%Z%bool = true) by (assert (cap = 1 \/ cap = 2 \/ cap = 3)%Z as [-> |[-> | ->]] by lia; reflexivity).
      rewrite E. cbn [bind]. exact (lines_none whole argsort v V ps vars x i _ H Dp Di Sx G).
    - exact (lines_none whole argsort v V ps vars x i _ H Dp Di Sx G).
  Qed.
End Drawn.
